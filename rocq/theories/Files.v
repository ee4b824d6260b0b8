(** * The particle files: what the exporter writes and what the loaders make of a file
    (src/particles_exporter.cpp, src/particles_loader/{prof,csv,vtu}.cpp)

    A file is its list of characters.  Opening is not modelled here (an output file
    that cannot be opened, or an input file that cannot be read, ends the program: see
    the loader model).  [endl] writes '\n' (no text translation: POSIX). *)
From Flocq Require IEEE754.Binary IEEE754.Bits.
From Verif Require Export Types Decimal.
Open Scope list_scope.
Open Scope Z_scope.

Notation particle := (@particle F64).
Definition lit (s : string) : list ascii := list_ascii_of_string s.
Definition nl : ascii := ascii_of_N 10.
Definition sp : ascii := ascii_of_N 32.
Definition quote : ascii := ascii_of_N 34.
(** lines, each ended by endl *)
Definition lines_text (ls : list (list ascii)) : list ascii := flat_map (fun l => l ++ [nl]) ls.
(** x << sep << y << sep << z *)
Definition show3 (sep : ascii) (v : vec) : list ascii := show (vx v) ++ sep :: show (vy v) ++ sep :: show (vz v).

(** ** Exporter *)

(** ParticlesExporter::toProf, src/particles_exporter.cpp:52-67 *)
Definition prof_row (p : particle) : list ascii := showZ (p_type p) ++ sp :: show3 sp (p_pos p) ++ sp :: show3 sp (p_vel p).
Definition toProf (time : f64) (ps : list particle) : list ascii :=
  lines_text (show time :: showZ (Z.of_nat (List.length ps)) :: map prof_row ps).

(** ParticlesExporter::toCsv, src/particles_exporter.cpp:356-373 *)
Definition csv_header : list ascii := lit "type,fluidType,x,y,z,vx,vy,vz".
Definition comma : ascii := ascii_of_N 44.
Definition csv_row (p : particle) : list ascii :=
  showZ (p_type p) ++ comma :: showZ (p_fluidType p) ++ comma :: show3 comma (p_pos p) ++ comma :: show3 comma (p_vel p).
Definition toCsv (time : f64) (ps : list particle) : list ascii :=
  lines_text (show time :: showZ (Z.of_nat (List.length ps)) :: csv_header :: map csv_row ps).

(** ParticlesExporter::dataArrayBegin, src/particles_exporter.cpp:19-42; its assertions
    hold for every call in the file *)
Definition quoted (l : list ascii) : list ascii := quote :: l ++ [quote].
Definition dataArrayBegin (ty name : string) (nc : Z) (off : option Z) : list ascii :=
  lit "<DataArray type=" ++ quoted (lit ty) ++ lit " Name=" ++ quoted (lit name)
  ++ lit " NumberOfComponents=" ++ quoted (showZ nc)
  ++ lit " format=" ++ quoted (lit (match off with Some _ => "appended" | None => "ascii" end))
  ++ (match off with Some o => lit " offset=" ++ quoted (showZ o) | None => [] end)
  ++ lit ">".
(** src/particles_exporter.cpp:44-46 *)
Definition dataArrayEnd : list ascii := lit "</DataArray>".

(** the lines before the first array, src/particles_exporter.cpp:76-91 = 193-208;
    [big]: isBigEndian() *)
Definition vtu_head (big : bool) (n : Z) : list (list ascii) :=
  [lit "<?xml version='1.0' encoding='UTF-8'?>";
   lit "<VTKFile type=" ++ quoted (lit "UnstructuredGrid") ++ lit " version=" ++ quoted (lit "1.0")
     ++ lit " header_type=" ++ quoted (lit "UInt64") ++ lit " byte_order="
     ++ quoted (lit (if big then "BigEndian" else "LittleEndian")) ++ lit ">";
   lit "<UnstructuredGrid>";
   lit "<Piece NumberOfPoints=" ++ quoted (showZ n) ++ lit " NumberOfCells=" ++ quoted (showZ n) ++ lit ">";
   lit "<Points>"].
Definition ascii_array (ty name : string) (nc : Z) (rows : list (list ascii)) : list (list ascii) :=
  dataArrayBegin ty name nc None :: rows ++ [dataArrayEnd].
Definition indices (ps : list particle) : list Z := map Z.of_nat (seq 0 (List.length ps)).

(** ParticlesExporter::toVtuAscii, src/particles_exporter.cpp:68-180 *)
Definition vtuAscii_lines (big : bool) (time n0 : f64) (ps : list particle) : list (list ascii) :=
  vtu_head big (Z.of_nat (List.length ps))
  ++ ascii_array "Float64" "Position" 3 (map (fun p => show3 sp (p_pos p)) ps)
  ++ [lit "</Points>"; lit "<PointData>"]
  ++ ascii_array "Int32" "Particle Type" 1 (map (fun p => showZ (p_type p)) ps)
  ++ ascii_array "Float64" "Velocity" 3 (map (fun p => show3 sp (p_vel p)) ps)
  ++ ascii_array "Float64" "Pressure" 1 (map (fun p => show (p_press p)) ps)
  ++ ascii_array "Float64" "Number Density" 1 (map (fun p => show (p_nd p)) ps)
  ++ ascii_array "Float64" "Number Density Ratio" 1 (map (fun p => show (@ndiv F64 (p_nd p) n0)) ps)
  ++ ascii_array "Int32" "Boundary Condition" 1 (map (fun p => showZ (fs_code (p_bc p))) ps)
  ++ ascii_array "Int32" "Fluid Type" 1 (map (fun p => showZ (p_fluidType p)) ps)
  ++ [lit "</PointData>"; lit "<Cells>"]
  ++ ascii_array "Int64" "connectivity" 1 (map showZ (indices ps))
  ++ ascii_array "Int64" "offsets" 1 (map (fun i => showZ (i + 1)) (indices ps))
  ++ ascii_array "UInt8" "types" 1 (map (fun _ => showZ 1) ps)
  ++ [lit "</Cells>"; lit "</Piece>"; lit "<FieldData>";
      lit "<DataArray type=" ++ quoted (lit "Float64") ++ lit " Name=" ++ quoted (lit "Time")
        ++ lit " NumberOfTuples=" ++ quoted (lit "1") ++ lit " format=" ++ quoted (lit "ascii") ++ lit ">";
      show time;
      dataArrayEnd;
      lit "</FieldData>"; lit "</UnstructuredGrid>"; lit "</VTKFile>"].
Definition toVtuAscii (big : bool) (time n0 : f64) (ps : list particle) : list ascii :=
  lines_text (vtuAscii_lines big time n0 ps).

(** ** Binary VTU *)

(** the [n] bytes of an integer modulo 256^n (two's complement), in memory order *)
Fixpoint le_bytes (n : nat) (z : Z) : list ascii :=
  match n with
  | O => []
  | S n' => ascii_of_N (Z.to_N (z mod 256)) :: le_bytes n' (z / 256)
  end.
Definition raw (big : bool) (n : nat) (z : Z) : list ascii := if big then rev (le_bytes n z) else le_bytes n z.
(** the IEEE 754 encoding of a double; NaNs all get the bits of the default quiet NaN *)
Definition bits_of (x : f64) : Z :=
  match x with
  | B754_nan => 9221120237041090560 (* 0x7FF8000000000000 *)
  | B754_zero s => Bits.bits_of_b64 (Binary.B754_zero 53 1024 s)
  | B754_infinity s => Bits.bits_of_b64 (Binary.B754_infinity 53 1024 s)
  | B754_finite s m e B => Bits.bits_of_b64 (Binary.B754_finite 53 1024 s m e B)
  end.
Definition raw_double (big : bool) (x : f64) : list ascii := raw big 8 (bits_of x).
Definition raw_vec (big : bool) (v : @vec F64) : list ascii := raw_double big (vx v) ++ raw_double big (vy v) ++ raw_double big (vz v).

(** one array: the header names the current end of the data, then the byte count
    (a uint64_t) and the values are appended to the data *)
Definition appended (big : bool) (len : Z) (bytes : list ascii) (data : list ascii) : list ascii :=
  data ++ raw big 8 len ++ bytes.
Definition tellp (data : list ascii) : Z := Z.of_nat (List.length data).
Definition appended_lines (ty name : string) (nc : Z) (data : list ascii) : list (list ascii) :=
  [dataArrayBegin ty name nc (Some (tellp data)); dataArrayEnd].

(** ParticlesExporter::toVtuBinary, src/particles_exporter.cpp:182-344.
    [particles.size() * 3] is an int multiplication (lines 216, 243), the other lengths
    are computed in size_t (the model keeps them exact: they are far below 2^64). *)
Definition toVtuBinary (big : bool) (time n0 : f64) (ps : list particle) : outcome (list ascii) :=
  let n := Z.of_nat (List.length ps) in
  n3 <- cint (n * 3) ;;
  let d0 := [] in
  let h0 := appended_lines "Float64" "Position" 3 d0 in
  let d1 := appended big (n3 * 8) (flat_map (fun p => raw_vec big (p_pos p)) ps) d0 in
  let h1 := appended_lines "Int32" "Particle Type" 1 d1 in
  let d2 := appended big (n * 4) (flat_map (fun p => raw big 4 (p_type p)) ps) d1 in
  let h2 := appended_lines "Float64" "Velocity" 3 d2 in
  let d3 := appended big (n3 * 8) (flat_map (fun p => raw_vec big (p_vel p)) ps) d2 in
  let h3 := appended_lines "Float64" "Pressure" 1 d3 in
  let d4 := appended big (n * 8) (flat_map (fun p => raw_double big (p_press p)) ps) d3 in
  let h4 := appended_lines "Float64" "Number Density" 1 d4 in
  let d5 := appended big (n * 8) (flat_map (fun p => raw_double big (p_nd p)) ps) d4 in
  let h5 := appended_lines "Float64" "Number Density Ratio" 1 d5 in
  let d6 := appended big (n * 8) (flat_map (fun p => raw_double big (@ndiv F64 (p_nd p) n0)) ps) d5 in
  let h6 := appended_lines "Int32" "Boundary Condition" 1 d6 in
  let d7 := appended big (n * 4) (flat_map (fun p => raw big 4 (fs_code (p_bc p))) ps) d6 in
  let h7 := appended_lines "Int32" "Fluid Type" 1 d7 in
  let d8 := appended big (n * 4) (flat_map (fun p => raw big 4 (p_fluidType p)) ps) d7 in
  let h8 := appended_lines "Int64" "connectivity" 1 d8 in
  let d9 := appended big (n * 8) (flat_map (fun i => raw big 8 i) (indices ps)) d8 in
  let h9 := appended_lines "Int64" "offsets" 1 d9 in
  let d10 := appended big (n * 8) (flat_map (fun i => raw big 8 (i + 1)) (indices ps)) d9 in
  let h10 := appended_lines "UInt8" "types" 1 d10 in
  let d11 := appended big n (flat_map (fun _ => raw big 1 1) ps) d10 in
  let d12 := appended big 8 (raw_double big time) d11 in
  let header :=
    vtu_head big n ++ h0 ++ [lit "</Points>"; lit "<PointData>"]
    ++ h1 ++ h2 ++ h3 ++ h4 ++ h5 ++ h6 ++ h7 ++ [lit "</PointData>"; lit "<Cells>"]
    ++ h8 ++ h9 ++ h10
    ++ [lit "</Cells>"; lit "</Piece>"; lit "<FieldData>";
        lit "<DataArray type=" ++ quoted (lit "Float64") ++ lit " Name=" ++ quoted (lit "Time")
          ++ lit " NumberOfTuples=" ++ quoted (lit "1") ++ lit " format=" ++ quoted (lit "appended")
          ++ lit " offset=" ++ quoted (showZ (tellp d11)) ++ lit "/>";
        lit "</FieldData>"; lit "</UnstructuredGrid>";
        lit "<AppendedData encoding=" ++ quoted (lit "raw") ++ lit ">"] in
  Ok (lines_text header ++ lines_text [lit "_" ++ d12; lit "</AppendedData>"; lit "</VTKFile>"]).

(** ** Loaders *)

(** Prof::load, src/particles_loader/prof.cpp:13-40.  Nothing checks whether reading
    succeeded.  [type_int] starts at 0, [startTime] at NAN, [particleSize] at 0; the
    coordinates are not initialised, so a coordinate that nothing was stored into is
    indeterminate when the particle is made. *)
Definition extract3 (s : stream) : option f64 * option f64 * option f64 * stream :=
  let '(x, s) := extract get_double s in
  let '(y, s) := extract get_double s in
  let '(z, s) := extract get_double s in (x, y, z, s).
Definition stored {A} (o : option A) : outcome A := match o with Some a => Ok a | None => Undef Uninit end.
Definition stored3 (o : option f64 * option f64 * option f64) : outcome (@vec F64) :=
  let '(x, y, z) := o in
  x <- stored x ;; y <- stored y ;; z <- stored z ;; Ok (mkV x y z).
Definition or_else {A} (o : option A) (d : A) : A := match o with Some a => a | None => d end.
Fixpoint prof_rows (dbg : bool) (rho : f64) (n : nat) (s : stream) (ps : list particle) : outcome (list particle) :=
  match n with
  | O => Ok ps
  | S n' =>
      let '(ty, s) := extract get_int s in
      let '(pos, s) := extract3 s in
      let '(vel, s) := extract3 s in
      pos <- stored3 pos ;;
      vel <- stored3 vel ;;
      ps <- add_particle dbg ps (newParticle (Z.of_nat (List.length ps)) (or_else ty 0) pos vel rho 0) ;;
      prof_rows dbg rho n' s ps
  end.
Definition prof_load (dbg : bool) (rho : f64) (file : list ascii) : outcome (f64 * list particle) :=
  let s := mkStream file false in
  let '(t, s) := extract get_double s in
  let '(n, s) := extract get_int s in
  ps <- prof_rows dbg rho (Z.to_nat (or_else n 0)) s [] ;;
  Ok (or_else t B754_nan, ps).

(** std::stod: white space, then a decimal numeral, "inf", "infinity" or "nan" in any
    case; what follows is ignored.  Throws if there is no number, if it is too large, or
    if it is so small that the result is not normal. *)
Definition lower (c : ascii) : ascii :=
  let n := N_of_ascii c in if (65 <=? n)%N && (n <=? 90)%N then ascii_of_N (n + 32) else c.
Fixpoint prefix (p l : list ascii) : bool :=
  match p, l with
  | [], _ => true
  | c :: p', d :: l' => Ascii.eqb c d && prefix p' l'
  | _ :: _, [] => false
  end.
Definition min_normal : f64 := bits 4503599627370496. (* DBL_MIN: 2^-1022 *)
Definition stod (l : list ascii) : outcome f64 :=
  let l := skip_ws l in
  match numeral l with
  | Some (neg, N, E, _) =>
      let x := of_dec neg N E in
      if negb (is_finite x) then Throw
      else if (N =? 0) then Ok x
      else if @nlt F64 (Babs x) min_normal then Throw else Ok x
  | None =>
      let '(neg, l1) := scan_sign l in
      if prefix (lit "inf") (map lower l1) then Ok (B754_infinity neg)
      else if prefix (lit "nan") (map lower l1) then Ok B754_nan
      else Throw
  end.

(** line.find(p) != npos *)
Fixpoint contains (p l : list ascii) : bool :=
  prefix p l || match l with [] => false | _ :: l' => contains p l' end.
(** the characters up to the first newline, whether there is one, what follows it *)
Fixpoint upto_nl (l : list ascii) : list ascii * bool * list ascii :=
  match l with
  | [] => ([], false, [])
  | c :: r => if Ascii.eqb c nl then ([], true, r) else let '(a, f, r') := upto_nl r in (c :: a, f, r')
  end.
(** std::getline(in, line): success, the stream (unread characters, eofbit), the new
    value of [line].  With eofbit set nothing happens and [line] keeps its value. *)
Record instream := mkIn { in_rest : list ascii; in_eof : bool }.
Definition getline (i : instream) (line : list ascii) : bool * instream * list ascii :=
  if in_eof i then (false, i, line)
  else match in_rest i with
       | [] => (false, mkIn [] true, [])
       | l => let '(a, f, r) := upto_nl l in (true, mkIn r (negb f), a)
       end.

(** a std::istringstream over one line that must yield what is asked for (vtu.cpp:58-61 etc.) *)
Definition line3 (l : list ascii) : outcome (@vec F64) :=
  let '(x, y, z, s) := extract3 (mkStream l false) in
  if st_fail s then Throw else stored3 (x, y, z).
Definition line1 {A} (get : list ascii -> A * bool * list ascii) (l : list ascii) : outcome A :=
  let '(a, s) := extract get (mkStream l false) in
  if st_fail s then Throw else stored a.

(** the inner loops of Vtu::load, src/particles_loader/vtu.cpp:56-64 and the four like
    it: one value per line until a line with the closing tag or the end of the file.
    [fuel] bounds the number of lines ([Diverge] is never reached with the fuel given). *)
Fixpoint block {A} (rd : list ascii -> outcome A) (fuel : nat) (i : instream) (line : list ascii) (acc : list A)
  : outcome (list A * instream * list ascii) :=
  match fuel with
  | O => Diverge
  | S fuel' =>
      let '(ok, i, line) := getline i line in
      if ok && negb (contains (lit "</DataArray>") line)
      then a <- rd line ;; block rd fuel' i line (acc ++ [a])
      else Ok (acc, i, line)
  end.
Record vtu := mkVtu {
  v_time : f64; v_pos : list (@vec F64); v_vel : list (@vec F64);
  v_types : list Z; v_ftypes : list Z; v_dens : list f64
}.
(** the body of the reading loop, vtu.cpp:48-113 *)
Definition vtu_body (fuel : nat) (i : instream) (line : list ascii) (v : vtu) : outcome (instream * list ascii * vtu) :=
  '(i, line, v) <- (if contains (lit "Time") line then
      let '(_, i, line) := getline i line in
      t <- stod line ;;
      Ok (i, line, mkVtu t (v_pos v) (v_vel v) (v_types v) (v_ftypes v) (v_dens v))
    else Ok (i, line, v)) ;;
  '(i, line, v) <- (if contains (lit "Position") line then
      '(l, i, line) <- block line3 fuel i line (v_pos v) ;;
      Ok (i, line, mkVtu (v_time v) l (v_vel v) (v_types v) (v_ftypes v) (v_dens v))
    else Ok (i, line, v)) ;;
  '(i, line, v) <- (if contains (lit "Velocity") line then
      '(l, i, line) <- block line3 fuel i line (v_vel v) ;;
      Ok (i, line, mkVtu (v_time v) (v_pos v) l (v_types v) (v_ftypes v) (v_dens v))
    else Ok (i, line, v)) ;;
  '(i, line, v) <- (if contains (lit "Particle Type") line then
      '(l, i, line) <- block (line1 get_int) fuel i line (v_types v) ;;
      Ok (i, line, mkVtu (v_time v) (v_pos v) (v_vel v) l (v_ftypes v) (v_dens v))
    else Ok (i, line, v)) ;;
  '(i, line, v) <- (if contains (lit "Fluid Type") line then
      '(l, i, line) <- block (line1 get_int) fuel i line (v_ftypes v) ;;
      Ok (i, line, mkVtu (v_time v) (v_pos v) (v_vel v) (v_types v) l (v_dens v))
    else Ok (i, line, v)) ;;
  (if contains (lit "Density") line then
      '(l, i, line) <- block (line1 get_double) fuel i line (v_dens v) ;;
      Ok (i, line, mkVtu (v_time v) (v_pos v) (v_vel v) (v_types v) (v_ftypes v) l)
    else Ok (i, line, v)).
Fixpoint vtu_loop (fuel : nat) (i : instream) (line : list ascii) (v : vtu) : outcome vtu :=
  match fuel with
  | O => Diverge
  | S fuel' =>
      let '(ok, i, line) := getline i line in
      if ok then '(i, line, v) <- vtu_body fuel' i line v ;; vtu_loop fuel' i line v else Ok v
  end.
(** the first pass, vtu.cpp:24-29: does some line contain the tag of binary data? *)
Fixpoint any_line (fuel : nat) (pat : list ascii) (i : instream) : outcome bool :=
  match fuel with
  | O => Diverge
  | S fuel' =>
      let '(ok, i, line) := getline i [] in
      if ok then if contains pat line then Ok true else any_line fuel' pat i else Ok false
  end.
(** the particles, vtu.cpp:117-125 *)
Fixpoint vtu_build (dbg : bool) (rho : f64) (v : vtu) (i n : nat) (ps : list particle) : outcome (list particle) :=
  match n with
  | O => Ok ps
  | S n' =>
      match nth_error (v_pos v) i with
      | None => Undef OutOfBounds
      | Some pos =>
          let vel := or_else (nth_error (v_vel v) i) (mkV (B754_zero false) (B754_zero false) (B754_zero false)) in
          let ty := or_else (nth_error (v_types v) i) 0 in
          let fty := or_else (nth_error (v_ftypes v) i) 0 in
          let dens := match nth_error (v_dens v) i with
                      | Some d => if @nle F64 (B754_zero false) d then d else rho
                      | None => rho
                      end in
          ps <- add_particle dbg ps (newParticle (Z.of_nat (List.length ps)) ty pos vel dens fty) ;;
          vtu_build dbg rho v (S i) n' ps
      end
  end.
(** Vtu::load, src/particles_loader/vtu.cpp:16-128 *)
Definition vtu_load (dbg : bool) (rho : f64) (file : list ascii) : outcome (f64 * list particle) :=
  let fuel := S (S (List.length file)) in
  bin <- any_line fuel (lit "<AppendedData") (mkIn file false) ;;
  if (bin : bool) then Exit (-1)
  else
    v <- vtu_loop fuel (mkIn file false) [] (mkVtu B754_nan [] [] [] [] []) ;;
    ps <- vtu_build dbg rho v 0 (List.length (v_pos v)) [] ;;
    Ok (v_time v, ps).

(** ** CSV loader

    The library csv.h is not part of /repo.  Assumed of it: [next_line] hands out the
    lines of the file; the header names the columns, separated by commas; an unknown or
    repeated column name, and a row with another number of cells than the header, throw;
    a cell is converted by [cell_int] or [cell_dbl], which throw ([None]) on malformed
    text; a variable whose column is missing is not touched by [read_row].  Trimming of
    blanks, '\r' and a byte order mark are not modelled. *)
Section Csv.
Variable cell_int : list ascii -> option Z.
Variable cell_dbl : list ascii -> option f64.

Fixpoint cells_from (cur : list ascii) (l : list ascii) : list (list ascii) :=
  match l with
  | [] => [cur]
  | c :: r => if Ascii.eqb c comma then cur :: cells_from [] r else cells_from (cur ++ [c]) r
  end.
Definition cells (l : list ascii) : list (list ascii) := cells_from [] l.
Definition columns : list (list ascii) := map lit ["type"; "fluidType"; "x"; "y"; "z"; "vx"; "vy"; "vz"; "density"]%string.
Definition text_eqb (a b : list ascii) : bool := if list_eq_dec ascii_dec a b then true else false.
Fixpoint no_dup (l : list (list ascii)) : bool :=
  match l with [] => true | a :: r => negb (existsb (text_eqb a) r) && no_dup r end.
(** in.read_header(io::ignore_missing_column, ...) *)
Definition read_header (l : list ascii) : outcome (list (list ascii)) :=
  let h := cells l in
  if forallb (fun a => existsb (text_eqb a) columns) h && no_dup h then Ok h else Throw.
(** the cell under the column [name] *)
Fixpoint under (name : list ascii) (h row : list (list ascii)) : option (list ascii) :=
  match h, row with
  | a :: h', c :: row' => if text_eqb a name then Some c else under name h' row'
  | _, _ => None
  end.
(** the variables of csv.cpp:24-27; [None]: not initialised *)
Record csv_vars := mkCv {
  cv_type : option Z; cv_ftype : option Z;
  cv_x : option f64; cv_y : option f64; cv_z : option f64;
  cv_vx : option f64; cv_vy : option f64; cv_vz : option f64; cv_dens : option f64
}.
Definition read_cell {A} (conv : list ascii -> option A) (c : option (list ascii)) (old : option A) : outcome (option A) :=
  match c with
  | None => Ok old
  | Some t => match conv t with Some a => Ok (Some a) | None => Throw end
  end.
(** in.read_row(type, fluidType, x, y, z, vx, vy, vz, density) on one line *)
Definition read_row (h : list (list ascii)) (l : list ascii) (v : csv_vars) : outcome csv_vars :=
  let row := cells l in
  if negb (List.length row =? List.length h)%nat then Throw
  else
    ty <- read_cell cell_int (under (lit "type") h row) (cv_type v) ;;
    fty <- read_cell cell_int (under (lit "fluidType") h row) (cv_ftype v) ;;
    x <- read_cell cell_dbl (under (lit "x") h row) (cv_x v) ;;
    y <- read_cell cell_dbl (under (lit "y") h row) (cv_y v) ;;
    z <- read_cell cell_dbl (under (lit "z") h row) (cv_z v) ;;
    vx <- read_cell cell_dbl (under (lit "vx") h row) (cv_vx v) ;;
    vy <- read_cell cell_dbl (under (lit "vy") h row) (cv_vy v) ;;
    vz <- read_cell cell_dbl (under (lit "vz") h row) (cv_vz v) ;;
    d <- read_cell cell_dbl (under (lit "density") h row) (cv_dens v) ;;
    Ok (mkCv ty fty x y z vx vy vz d).
(** the loop csv.cpp:29-36; the variables live on from row to row *)
Fixpoint csv_rows (dbg : bool) (rho : f64) (h : list (list ascii)) (ls : list (list ascii)) (v : csv_vars) (ps : list particle)
  : outcome (list particle) :=
  match ls with
  | [] => Ok ps
  | l :: ls' =>
      v <- read_row h l v ;;
      pos <- stored3 (cv_x v, cv_y v, cv_z v) ;;
      vel <- stored3 (cv_vx v, cv_vy v, cv_vz v) ;;
      d <- stored (cv_dens v) ;;
      let d := if @nlt F64 d (B754_zero false) then rho else d in
      ty <- stored (cv_type v) ;;
      fty <- stored (cv_ftype v) ;;
      ps <- add_particle dbg ps (newParticle (Z.of_nat (List.length ps)) ty pos vel d fty) ;;
      csv_rows dbg rho h ls' (mkCv (cv_type v) (cv_ftype v) (cv_x v) (cv_y v) (cv_z v) (cv_vx v) (cv_vy v) (cv_vz v) (Some d)) ps
  end.
(** the lines of a file; a last line without newline counts if it is not empty *)
Fixpoint lines_of (l : list ascii) (cur : list ascii) : list (list ascii) :=
  match l with
  | [] => match cur with [] => [] | _ => [cur] end
  | c :: r => if Ascii.eqb c nl then cur :: lines_of r [] else lines_of r (cur ++ [c])
  end.
(** Csv::load, src/particles_loader/csv.cpp:18-39.  std::string(nullptr), when a line is
    missing, is undefined; the count in the second line is read and not used. *)
Definition csv_load (dbg : bool) (rho : f64) (file : list ascii) : outcome (f64 * list particle) :=
  match lines_of file [] with
  | l1 :: rest =>
      t <- stod l1 ;;
      match rest with
      | l2 :: rest =>
          _ <- stod l2 ;;
          match rest with
          | l3 :: rows =>
              h <- read_header l3 ;;
              ps <- csv_rows dbg rho h rows (mkCv None (Some 0) None None None None None None (Some (@nneg F64 (nofZ 1)))) [] ;;
              Ok (t, ps)
          | [] => Throw
          end
      | [] => Undef NullDeref
      end
  | [] => Undef NullDeref
  end.
End Csv.
