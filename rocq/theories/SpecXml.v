(** * VTU files as XML documents: vocabulary of the statements *)
From Coq Require Import Reals.
From Verif Require Export SpecFiles DecimalFacts.
Open Scope list_scope.
Open Scope Z_scope.

(** ** XML, one tag or one piece of text per line *)
Definition attribute := (string * list ascii)%type.
Inductive xml :=
| Elem (name : string) (attrs : list attribute) (kids : list xml)
| Empty (name : string) (attrs : list attribute)
| Line (l : list ascii).
Definition attr_text (a : attribute) : list ascii := lit " " ++ lit (fst a) ++ lit "=" ++ [quote] ++ snd a ++ [quote].
Definition open_tag (name : string) (attrs : list attribute) : list ascii := lit "<" ++ lit name ++ flat_map attr_text attrs ++ lit ">".
Definition empty_tag (name : string) (attrs : list attribute) : list ascii := lit "<" ++ lit name ++ flat_map attr_text attrs ++ lit "/>".
Definition close_tag (name : string) : list ascii := lit "</" ++ lit name ++ lit ">".
(** the lines of an element *)
Fixpoint written (x : xml) : list (list ascii) :=
  match x with
  | Elem n a kids => open_tag n a :: flat_map written kids ++ [close_tag n]
  | Empty n a => [empty_tag n a]
  | Line l => [l]
  end.
Definition prolog : list ascii := lit "<?xml version='1.0' encoding='UTF-8'?>".

(** well formed: names are letters and underscores, attribute names differ, no text or attribute value
    contains a character with a meaning in XML *)
Definition letter (c : ascii) : Prop := let n := N_of_ascii c in (65 <= n <= 90 \/ 97 <= n <= 122 \/ n = 95)%N.
Definition xml_name (s : string) : Prop := lit s <> [] /\ Forall letter (lit s).
Definition xml_text (l : list ascii) : Prop :=
  ~ In "<"%char l /\ ~ In ">"%char l /\ ~ In "&"%char l /\ ~ In quote l /\ ~ In nl l.
Definition attrs_ok (attrs : list attribute) : Prop :=
  NoDup (map fst attrs) /\ Forall (fun a => xml_name (fst a) /\ xml_text (snd a)) attrs.
Inductive wellformed : xml -> Prop :=
| wf_elem n a kids : xml_name n -> attrs_ok a -> Forall wellformed kids -> wellformed (Elem n a kids)
| wf_empty n a : xml_name n -> attrs_ok a -> wellformed (Empty n a)
| wf_line l : xml_text l -> wellformed (Line l).

(** ** Numbers in text *)
(** the text [l] is a decimal numeral of the integer [z] *)
Definition int_text (z : Z) (l : list ascii) : Prop :=
  exists ds, ds <> [] /\ Forall digit ds /\ l = sign_text (z <? 0) ++ map digit_char ds /\ value ds = Z.abs z.
(** the text [l] is a numeral whose value is [x] rounded to six significant digits *)
Definition double_text (x : f64) (l : list ascii) : Prop :=
  match x with
  | B754_nan => l = lit "nan"
  | B754_infinity s => l = sign_text s ++ lit "inf"
  | _ => exists ds fs ex, spells ds fs ex /\ l = sign_text (Bsign x) ++ spelled ds fs ex /\
           (IZR (value (ds ++ fs)) * ten (exponent ex - Z.of_nat (List.length fs)) = Rabs (round6 (B2R x)))%R
  end.
Definition vector_text (v : @vec F64) (l : list ascii) : Prop :=
  exists a b c, l = a ++ " "%char :: b ++ " "%char :: c /\ double_text (vx v) a /\ double_text (vy v) b /\ double_text (vz v) c.
(** one line per particle, each a text of the particle's value *)
Definition one_per_line {A B} (f : A -> B) (shows : B -> list ascii -> Prop) (l : list A) (rows : list (list ascii)) : Prop :=
  Forall2 (fun a row => shows (f a) row) l rows.

(** ** The document *)
Definition data_array (ty name comps : string) (rows : list (list ascii)) : xml :=
  Elem "DataArray" [("type", lit ty); ("Name", lit name); ("NumberOfComponents", lit comps); ("format", lit "ascii")]%string (map Line rows).
(** the document with [n] points and cells and the arrays given *)
Definition vtk_attrs (big : bool) : list attribute :=
  [("type", lit "UnstructuredGrid"); ("version", lit "1.0"); ("header_type", lit "UInt64");
   ("byte_order", lit (if big then "BigEndian" else "LittleEndian"))]%string.
Definition grid (n : list ascii) (points pointData cells fields : list xml) : xml :=
  Elem "UnstructuredGrid" []
    [Elem "Piece" [("NumberOfPoints", n); ("NumberOfCells", n)]
       [Elem "Points" [] points; Elem "PointData" [] pointData; Elem "Cells" [] cells];
     Elem "FieldData" [] fields]%string.
Definition document (big : bool) (n : list ascii) (points pointData cells fields : list xml) : xml :=
  Elem "VTKFile" (vtk_attrs big) [grid n points pointData cells fields].
(** what the ascii document of [ps] at time [t] has to be *)
Definition vtu_document (big : bool) (t n0 : f64) (ps : list particle) (doc : xml) : Prop :=
  exists n pos ty vel press nd ndr bc ft con off cells time,
    int_text (Z.of_nat (List.length ps)) n /\
    one_per_line p_pos vector_text ps pos /\
    one_per_line p_type int_text ps ty /\
    one_per_line p_vel vector_text ps vel /\
    one_per_line p_press double_text ps press /\
    one_per_line p_nd double_text ps nd /\
    one_per_line (fun p => @ndiv F64 (p_nd p) n0) double_text ps ndr /\
    one_per_line (fun p => match p_bc p with Ignored => 0 | FreeSurface => 1 | SubFreeSurface => 2 | Inner => 3 | Splash => 4 end) int_text ps bc /\
    one_per_line p_fluidType int_text ps ft /\
    one_per_line Z.of_nat int_text (seq 0 (List.length ps)) con /\
    one_per_line Z.of_nat int_text (seq 1 (List.length ps)) off /\
    one_per_line (fun _ => 1) int_text ps cells /\
    double_text t time /\
    doc = document big n
      [data_array "Float64" "Position" "3" pos]
      [data_array "Int32" "Particle Type" "1" ty; data_array "Float64" "Velocity" "3" vel;
       data_array "Float64" "Pressure" "1" press; data_array "Float64" "Number Density" "1" nd;
       data_array "Float64" "Number Density Ratio" "1" ndr; data_array "Int32" "Boundary Condition" "1" bc;
       data_array "Int32" "Fluid Type" "1" ft]
      [data_array "Int64" "connectivity" "1" con; data_array "Int64" "offsets" "1" off; data_array "UInt8" "types" "1" cells]
      [Elem "DataArray" [("type", lit "Float64"); ("Name", lit "Time"); ("NumberOfTuples", lit "1"); ("format", lit "ascii")] [Line time]]%string.

(** the grid of a binary file: arrays in appended format, without lines of their own, at
    the offsets [off] *)
Definition appended_array (ty name comps : string) (off : list ascii) : xml :=
  Elem "DataArray" [("type", lit ty); ("Name", lit name); ("NumberOfComponents", lit comps); ("format", lit "appended"); ("offset", off)]%string [].
Definition appended_grid (ps : list particle) (off : nat -> list ascii) (x : xml) : Prop :=
  exists n, int_text (Z.of_nat (List.length ps)) n /\
    x = grid n
      [appended_array "Float64" "Position" "3" (off 0%nat)]
      [appended_array "Int32" "Particle Type" "1" (off 1%nat); appended_array "Float64" "Velocity" "3" (off 2%nat);
       appended_array "Float64" "Pressure" "1" (off 3%nat); appended_array "Float64" "Number Density" "1" (off 4%nat);
       appended_array "Float64" "Number Density Ratio" "1" (off 5%nat); appended_array "Int32" "Boundary Condition" "1" (off 6%nat);
       appended_array "Int32" "Fluid Type" "1" (off 7%nat)]
      [appended_array "Int64" "connectivity" "1" (off 8%nat); appended_array "Int64" "offsets" "1" (off 9%nat); appended_array "UInt8" "types" "1" (off 10%nat)]
      [Empty "DataArray" [("type", lit "Float64"); ("Name", lit "Time"); ("NumberOfTuples", lit "1"); ("format", lit "appended"); ("offset", off 11%nat)]]%string.

(** ** prof and CSV files *)
Definition comma_vector (v : @vec F64) (l : list ascii) : Prop :=
  exists a b c, l = a ++ ","%char :: b ++ ","%char :: c /\ double_text (vx v) a /\ double_text (vy v) b /\ double_text (vz v) c.
Definition prof_line (p : particle) (l : list ascii) : Prop :=
  exists ty pos vel, l = ty ++ " "%char :: pos ++ " "%char :: vel /\ int_text (p_type p) ty /\ vector_text (p_pos p) pos /\ vector_text (p_vel p) vel.
Definition csv_line (p : particle) (l : list ascii) : Prop :=
  exists ty ft pos vel, l = ty ++ ","%char :: ft ++ ","%char :: pos ++ ","%char :: vel /\
    int_text (p_type p) ty /\ int_text (p_fluidType p) ft /\ comma_vector (p_pos p) pos /\ comma_vector (p_vel p) vel.
