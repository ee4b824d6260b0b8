(** * What the file formats should preserve: vocabulary of the statements about files *)
From Coq Require Import Reals.
From Flocq Require IEEE754.Binary IEEE754.Bits.
From Flocq Require Import Core.Zaux Core.Raux Core.Defs Core.Generic_fmt Core.Round_NE Core.FLX.
From Verif Require Export Files.
Open Scope Z_scope.

Definition radix10 : radix := Build_radix 10 eq_refl.
Notation ten := (bpow radix10).
Notation fexp6 := (FLX_exp 6).
Notation fexp64 := (SpecFloat.fexp 53 1024).
(** a real rounded to the nearest decimal with 6 significant digits *)
Definition round6 (x : R) : R := round radix10 fexp6 ZnearestE x.
(** a real rounded to the nearest double *)
Definition round64 (x : R) : R := round radix2 fexp64 ZnearestE x.

(** [y] is the double nearest to the 6-digit decimal nearest to [x] *)
Definition as_printed (x y : f64) : Prop :=
  is_finite y = true /\ Bsign y = Bsign x /\ B2R y = round64 (round6 (B2R x)).
(** [y] is within a ten-millionth of the 6-digit decimal nearest to [x] *)
Definition reads_as (x y : f64) : Prop :=
  is_finite y = true /\ Bsign y = Bsign x /\ (Rabs (B2R y - round6 (B2R x)) <= Rabs (round6 (B2R x)) / 10000000)%R.
(** zero or normal *)
Definition normal (x : f64) : Prop := is_finite x = true /\ (B2R x = 0 \/ bpow radix2 (-1022) <= Rabs (B2R x))%R.
(** zero or at least 10^-300 in magnitude: the range of times that can be read back *)
Definition time_like (x : f64) : Prop := is_finite x = true /\ (B2R x = 0 \/ ten (-300) <= Rabs (B2R x))%R.

Definition all3 (P : f64 -> Prop) (v : @vec F64) : Prop := P (vx v) /\ P (vy v) /\ P (vz v).
Definition rel3 (R : f64 -> f64 -> Prop) (v w : @vec F64) : Prop := R (vx v) (vx w) /\ R (vy v) (vy w) /\ R (vz v) (vz w).
Definition finite (x : f64) : Prop := is_finite x = true.
(** a particle the code can hold, with finite coordinates *)
Definition writable (p : particle) : Prop :=
  in_int (p_type p) = true /\ in_int (p_fluidType p) = true /\ all3 finite (p_pos p) /\ all3 finite (p_vel p).
(** particle [i] of [ps'] is a fresh particle made from particle [i] of [ps]: same type,
    position and velocity related by [R], density and fluid type as given *)
Definition restored (R : f64 -> f64 -> Prop) (dens : particle -> f64 -> Prop) (fty : particle -> Z) (ps ps' : list particle) : Prop :=
  List.length ps' = List.length ps /\
  forall i p, nth_error ps i = Some p ->
    exists pos vel d, nth_error ps' i = Some (newParticle (Z.of_nat i) (p_type p) pos vel d (fty p))
      /\ rel3 R (p_pos p) pos /\ rel3 R (p_vel p) vel /\ dens p d.

(** ** VTU *)
(** the density a particle gets from an exported VTU file: the printed number density, unless negative *)
Definition dens_read (rho : f64) (p : particle) (d : f64) : Prop :=
  exists y, as_printed (p_nd p) y /\ d = if @nle F64 (B754_zero false) y then y else rho.
(** a writable particle whose number density, and its ratio to [n0], are finite *)
Definition exportable (n0 : f64) (p : particle) : Prop := writable p /\ finite (p_nd p) /\ finite (@ndiv F64 (p_nd p) n0).

(** ** Reading the appended data of a binary VTU file *)
(** the number spelled by bytes, least significant first *)
Fixpoint le_value (l : list ascii) : Z := match l with [] => 0 | c :: r => Z.of_N (N_of_ascii c) + 256 * le_value r end.
Definition word (big : bool) (l : list ascii) : Z := le_value (if big then rev l else l).
(** [n] consecutive words of [size] bytes *)
Fixpoint words (big : bool) (size n : nat) (l : list ascii) : list Z :=
  match n with
  | O => []
  | S n' => word big (firstn size l) :: words big size n' (skipn size l)
  end.
(** two's complement *)
Definition signed (size : nat) (w : Z) : Z := if 2 * w <? 256 ^ Z.of_nat size then w else w - 256 ^ Z.of_nat size.
Definition double_of (w : Z) : f64 := Binary.B2BSN 53 1024 (Bits.b64_of_bits w).
(** contents of an array *)
Inductive contents := Doubles (l : list f64) | Ints (size : nat) (l : list Z).
Definition c_size (c : contents) : nat := match c with Doubles _ => 8 | Ints s _ => s end.
Definition c_count (c : contents) : nat := match c with Doubles l => List.length l | Ints _ l => List.length l end.
Definition holds (big : bool) (c : contents) (data : list ascii) : Prop :=
  match c with
  | Doubles l => map double_of (words big 8 (List.length l) data) = l
  | Ints s l => map (signed s) (words big s (List.length l) data) = l
  end.
(** the tag of an array, as a function of its offset in the appended data *)
Definition tag_of (ty name attr num closing : string) (off : nat) : list ascii :=
  lit "<DataArray type=" ++ [quote] ++ lit ty ++ [quote] ++ lit " Name=" ++ [quote] ++ lit name ++ [quote]
  ++ lit " " ++ lit attr ++ lit "=" ++ [quote] ++ lit num ++ [quote] ++ lit " format=" ++ [quote] ++ lit "appended" ++ [quote]
  ++ lit " offset=" ++ [quote] ++ showZ (Z.of_nat off) ++ [quote] ++ lit closing.
Definition array := ((nat -> list ascii) * contents)%type.
(** from offset [off] on, [data] consists of the arrays [l], one after the other; each
    has a tag with its offset among the lines [header], its byte count in eight bytes,
    and its contents *)
Fixpoint laid_out (big : bool) (header : list (list ascii)) (data : list ascii) (off : nat) (l : list array) : Prop :=
  match l with
  | [] => off = List.length data
  | (tag, c) :: r =>
      In (tag off) header
      /\ word big (firstn 8 (skipn off data)) = Z.of_nat (c_size c * c_count c)
      /\ holds big c (skipn (off + 8) data)
      /\ laid_out big header data (off + 8 + c_size c * c_count c) r
  end.
Definition coords (v : @vec F64) : list f64 := [vx v; vy v; vz v].
Definition upto (n : nat) : list Z := map Z.of_nat (seq 0 n).
(** the arrays of the file: points, point data, cells (one vertex each) and the time *)
Definition vtu_arrays (t n0 : f64) (ps : list particle) : list array :=
  let comp ty name n := tag_of ty name "NumberOfComponents" n ">" in
  [(comp "Float64" "Position" "3", Doubles (flat_map (fun p => coords (p_pos p)) ps));
   (comp "Int32" "Particle Type" "1", Ints 4 (map p_type ps));
   (comp "Float64" "Velocity" "3", Doubles (flat_map (fun p => coords (p_vel p)) ps));
   (comp "Float64" "Pressure" "1", Doubles (map p_press ps));
   (comp "Float64" "Number Density" "1", Doubles (map p_nd ps));
   (comp "Float64" "Number Density Ratio" "1", Doubles (map (fun p => @ndiv F64 (p_nd p) n0) ps));
   (comp "Int32" "Boundary Condition" "1", Ints 4 (map (fun p => fs_code (p_bc p)) ps));
   (comp "Int32" "Fluid Type" "1", Ints 4 (map p_fluidType ps));
   (comp "Int64" "connectivity" "1", Ints 8 (upto (List.length ps)));
   (comp "Int64" "offsets" "1", Ints 8 (map (fun i => i + 1) (upto (List.length ps))));
   (comp "UInt8" "types" "1", Ints 1 (map (fun _ => 1) ps));
   (tag_of "Float64" "Time" "NumberOfTuples" "1" "/>", Doubles [t])]%string.

(** ** CSV input in general *)
(** cells joined by commas *)
Fixpoint join (l : list (list ascii)) : list ascii :=
  match l with [] => [] | [a] => a | a :: r => a ++ comma :: join r end.
(** a cell that can stand in a CSV file: no comma, no newline *)
Definition plain (l : list ascii) : Prop := ~ In comma l /\ ~ In nl l.
Definition csv_text (time count : list ascii) (h : list (list ascii)) (rows : list (list (list ascii))) : list ascii :=
  lines_text (time :: count :: join h :: map join rows).
Definition known : list (list ascii) := map lit ["type"; "fluidType"; "x"; "y"; "z"; "vx"; "vy"; "vz"; "density"]%string.
Definition required : list (list ascii) := map lit ["type"; "x"; "y"; "z"; "vx"; "vy"; "vz"]%string.
(** the header names known columns, each once, and no required one is missing *)
Definition header_ok (h : list (list ascii)) : Prop := NoDup h /\ incl h known /\ incl required h.
(** in the row [r] under the header [h], the cell of column [name] converts to [a] *)
Definition column {A} (conv : list ascii -> option A) (h r : list (list ascii)) (name : string) (a : A) : Prop :=
  exists c, In (lit name, c) (combine h r) /\ conv c = Some a.
(** every cell of the row converts to the type of its column *)
Definition row_ok (cell_int : list ascii -> option Z) (cell_dbl : list ascii -> option f64) (h r : list (list ascii)) : Prop :=
  List.length r = List.length h /\ Forall plain r /\
  forall name c, In (name, c) (combine h r) ->
    (In name (map lit ["type"; "fluidType"]%string) -> cell_int c <> None) /\
    (In name (map lit ["x"; "y"; "z"; "vx"; "vy"; "vz"; "density"]%string) -> cell_dbl c <> None).
(** the particle number [i] made from a row *)
Definition made_from (cell_int : list ascii -> option Z) (cell_dbl : list ascii -> option f64) (rho : f64)
  (h r : list (list ascii)) (i : nat) (p : particle) : Prop :=
  exists ty x y z u v w d f,
    p = newParticle (Z.of_nat i) ty (mkV x y z) (mkV u v w) d f
    /\ column cell_int h r "type" ty
    /\ column cell_dbl h r "x" x /\ column cell_dbl h r "y" y /\ column cell_dbl h r "z" z
    /\ column cell_dbl h r "vx" u /\ column cell_dbl h r "vy" v /\ column cell_dbl h r "vz" w
    /\ (In (lit "fluidType") h /\ column cell_int h r "fluidType" f \/ ~ In (lit "fluidType") h /\ f = 0)
    /\ (In (lit "density") h /\ (exists d0, column cell_dbl h r "density" d0 /\ d = if @nlt F64 d0 (B754_zero false) then rho else d0)
        \/ ~ In (lit "density") h /\ d = rho).
