(** * Properties C38-C45, C55, C61: particle files

    Vocabulary: [SpecFiles].  as_printed x y: y is the double nearest to the 6-digit
    decimal nearest to x (so y is finite and has the sign of x); finite, writable (int
    codes, finite coordinates), exportable (also a finite number density and ratio),
    time_like (zero or at least 10^-300 in magnitude), normal (zero or a normal double);
    restored R dens fty ps ps': particle i of ps' is a fresh particle with id i, the type
    of particle i of ps, R-related position and velocity, and the density and fluid type
    given by dens and fty.  [rho] is the default density, [dbg] says whether assertions
    are compiled in, [big] is the byte order of the machine. *)
From Coq Require Import Reals PeanoNat Permutation.
From Verif Require Import XmlFacts ProfBad FilesCases.
Open Scope Z_scope.

(** C38: a prof file written by the exporter can be loaded and gives back what it shows *)
Theorem C38_prof_round_trip dbg rho t ps : finite t -> Forall writable ps -> Z.of_nat (List.length ps) <= int_max ->
  exists t' ps', prof_load dbg rho (toProf t ps) = Ok (t', ps') /\ as_printed t t'
    /\ restored as_printed (fun _ d => d = rho) (fun _ => 0) ps ps'.
Proof. exact (prof_round_trip dbg rho t ps). Qed.
Example C38_case : finite clock /\ Forall writable pair /\ Z.of_nat (List.length pair) <= int_max.
Proof. split; [apply clock_finite|]. split; [apply pair_ok|]. vm_compute. discriminate. Qed.
Print Assumptions C38_prof_round_trip.

(** C38 needs finite coordinates: with an infinite velocity, loading uses values that
    were never stored *)
Theorem C38_infinite_velocity_refuted :
  exists t p, finite t /\ all3 finite (p_pos p) /\ prof_load false (fz 1000) (toProf t [p]) = Undef Uninit.
Proof. exact (ex_intro _ clock (ex_intro _ runaway (conj clock_finite (conj (conj eq_refl (conj eq_refl eq_refl)) runaway_prof)))). Qed.
Print Assumptions C38_infinite_velocity_refuted.

(** C39: a CSV file written by the exporter, read with cell converters that understand
    the printed numbers (with accuracy R), gives back what it shows *)
Theorem C39_csv_round_trip cell_int cell_dbl (R : f64 -> f64 -> Prop) dbg rho t ps :
  (forall z, in_int z = true -> cell_int (showZ z) = Some z) ->
  (forall x, finite x -> exists y, cell_dbl (show x) = Some y /\ R x y) ->
  time_like t -> Forall writable ps -> Z.of_nat (List.length ps) <= int_max ->
  exists t' ps', csv_load cell_int cell_dbl dbg rho (toCsv t ps) = Ok (t', ps') /\ as_printed t t'
    /\ restored R (fun _ d => d = rho) p_fluidType ps ps'.
Proof. exact (fun H1 H2 => csv_round_trip cell_int cell_dbl R H1 H2 dbg rho t ps). Qed.
Example C39_case : (forall z, in_int z = true -> int_cell (showZ z) = Some z) /\ (forall x, finite x -> exists y, dbl_cell (show x) = Some y /\ as_printed x y)
  /\ time_like clock /\ Forall writable pair /\ Z.of_nat (List.length pair) <= int_max.
Proof. split; [exact int_cell_ok|]. split; [exact dbl_cell_ok|]. split; [exact clock_time|]. split; [apply pair_ok|]. vm_compute. discriminate. Qed.
Print Assumptions C39_csv_round_trip.

(** any CSV file with the needed columns, in any order: each row makes one particle from
    its own cells; no density column or a negative density means the default density; no
    fluidType column means 0; the count in the second line plays no part *)
Theorem C39_csv_rows cell_int cell_dbl dbg rho tl cl t c h rows : no nl tl -> no nl cl -> stod tl = Ok t -> stod cl = Ok c ->
  header_ok h -> Forall (row_ok cell_int cell_dbl h) rows ->
  exists ps, csv_load cell_int cell_dbl dbg rho (csv_text tl cl h rows) = Ok (t, ps)
    /\ List.length ps = List.length rows
    /\ forall i r, nth_error rows i = Some r -> exists p, nth_error ps i = Some p /\ made_from cell_int cell_dbl rho h r i p.
Proof. exact (csv_general cell_int cell_dbl dbg rho tl cl t c h rows). Qed.
Example C39_rows_case : no nl zero_text /\ stod zero_text = Ok (fz 0) /\ header_ok mixed /\ Forall (row_ok int_cell dbl_cell mixed) mixed_rows.
Proof. destruct zero_text_ok, mixed_ok. auto. Qed.
Print Assumptions C39_csv_rows.

(** two files that differ in the order of their columns (and in the count) load alike *)
Theorem C39_column_order cell_int cell_dbl dbg rho tl cl cl' t c c' h rows h' rows' :
  no nl tl -> no nl cl -> no nl cl' -> stod tl = Ok t -> stod cl = Ok c -> stod cl' = Ok c' ->
  header_ok h -> header_ok h' ->
  Forall2 (fun r r' => Forall plain r /\ Forall plain r' /\ List.length r = List.length h /\ List.length r' = List.length h'
                       /\ Permutation (combine h r) (combine h' r')) rows rows' ->
  csv_load cell_int cell_dbl dbg rho (csv_text tl cl h rows) = csv_load cell_int cell_dbl dbg rho (csv_text tl cl' h' rows').
Proof. exact (csv_column_order cell_int cell_dbl dbg rho tl cl cl' t c c' h rows h' rows'). Qed.
Example C39_order_case : header_ok mixed /\ header_ok usual /\
  Forall2 (fun r r' => Forall plain r /\ Forall plain r' /\ List.length r = List.length mixed /\ List.length r' = List.length usual
                       /\ Permutation (combine mixed r) (combine usual r')) mixed_rows usual_rows.
Proof. split; [apply mixed_ok|]. split; [exact usual_ok|exact mixed_usual]. Qed.
Print Assumptions C39_column_order.

(** C39 and C40 need a time that is not tiny: std::stod refuses a subnormal number *)
Theorem C39_tiny_time_refuted : exists t, finite t /\ csv_load int_cell dbl_cell false (fz 1000) (toCsv t []) = Throw
  /\ vtu_load false (fz 1000) (toVtuAscii false t (fz 1) []) = Throw.
Proof. exact (ex_intro _ speck (conj speck_finite (conj speck_csv speck_vtu))). Qed.
Print Assumptions C39_tiny_time_refuted.

(** C40: an ASCII VTU file written by the exporter can be loaded and gives back what it shows *)
Theorem C40_vtu_round_trip dbg rho big t n0 ps : time_like t -> Forall (exportable n0) ps ->
  exists t' ps', vtu_load dbg rho (toVtuAscii big t n0 ps) = Ok (t', ps') /\ as_printed t t'
    /\ restored as_printed (dens_read rho) p_fluidType ps ps'.
Proof. exact (vtu_round_trip dbg rho big t n0 ps). Qed.
Example C40_case : time_like clock /\ Forall (exportable ref_density) pair.
Proof. split; [exact clock_time|apply pair_ok]. Qed.
Print Assumptions C40_vtu_round_trip.

(** C40 needs a usable reference density: when it is zero, the ratio of a particle
    without neighbours is not a number and the file cannot be loaded *)
Theorem C40_zero_reference_refuted : exists t p, time_like t /\ writable p /\ finite (p_nd p) /\
  vtu_load false (fz 1000) (toVtuAscii false t (fz 0) [p]) = Throw.
Proof. exact (ex_intro _ clock (ex_intro _ lone (conj clock_time (conj lone_writable (conj eq_refl lone_vtu))))). Qed.
Print Assumptions C40_zero_reference_refuted.

(** C41: the density of a particle loaded from an exported VTU file is not the default
    density: it is the printed number density (unless that is negative) *)
Theorem C41_default_density_refuted : exists rho t n0 p t' p', time_like t /\ exportable n0 p /\
  vtu_load false rho (toVtuAscii false t n0 [p]) = Ok (t', [p']) /\ B2R (p_dens p') = 0%R /\ B2R rho = 1000%R.
Proof. exact lone_density. Qed.
Print Assumptions C41_default_density_refuted.
Theorem C41_density_is_number_density dbg rho big t n0 ps : time_like t -> Forall (exportable n0) ps ->
  exists t' ps', vtu_load dbg rho (toVtuAscii big t n0 ps) = Ok (t', ps') /\
    forall i p, nth_error ps i = Some p -> (0 <= B2R (p_nd p))%R -> exists q, nth_error ps' i = Some q /\ as_printed (p_nd p) (p_dens q).
Proof. exact (loaded_density dbg rho big t n0 ps). Qed.
Example C41_case : time_like clock /\ Forall (exportable ref_density) pair /\ nth_error pair 1 = Some brick /\ (0 <= B2R (p_nd brick))%R.
Proof. split; [exact clock_time|]. split; [apply pair_ok|]. split; [reflexivity|exact brick_nd]. Qed.
Print Assumptions C41_density_is_number_density.

(** C42: a binary VTU file consists of the header, "_", the arrays one after the other,
    and the closing tags; every array has a tag with its offset, its byte count there,
    and a reader of the machine's byte order gets back the very values (vtu_arrays) *)
Theorem C42_binary_layout big t n0 ps : Forall (fun p => in_int (p_type p) = true /\ in_int (p_fluidType p) = true) ps ->
  Z.of_nat (List.length ps) * 3 <= int_max ->
  exists header data, toVtuBinary big t n0 ps =
      Ok (lines_text (vtu_head big (Z.of_nat (List.length ps)) ++ header ++ [lit "<AppendedData encoding=" ++ quoted (lit "raw") ++ lit ">"])
          ++ lit "_" ++ data ++ nl :: lines_text [lit "</AppendedData>"; lit "</VTKFile>"])
    /\ Forall (no nl) header /\ laid_out big header data 0 (vtu_arrays t n0 ps).
Proof. exact (binary_layout big t n0 ps). Qed.
Example C42_case : Forall (fun p => in_int (p_type p) = true /\ in_int (p_fluidType p) = true) pair /\ Z.of_nat (List.length pair) * 3 <= int_max.
Proof. split; [exact pair_ints|exact pair_size]. Qed.
Print Assumptions C42_binary_layout.
(** beyond that size the length of the position array overflows an int *)
Theorem C42_too_many big t n0 ps : int_max < Z.of_nat (List.length ps) * 3 -> toVtuBinary big t n0 ps = Undef IntOverflow.
Proof. exact (vtu_overflow big t n0 ps). Qed.
Example C42_too_many_case : exists ps : list particle, int_max < Z.of_nat (List.length ps) * 3.
Proof. exists (repeat lone (Z.to_nat 1000000000)). rewrite repeat_length, Z2Nat.id by discriminate. reflexivity. Qed.
Print Assumptions C42_too_many.

(** C43: no binary VTU file of the exporter is accepted as input *)
Theorem C43_binary_refused dbg rho big t n0 ps file : Forall (fun p => in_int (p_type p) = true /\ in_int (p_fluidType p) = true) ps ->
  toVtuBinary big t n0 ps = Ok file -> vtu_load dbg rho file = Exit (-1).
Proof. exact (binary_refused dbg rho big t n0 ps file). Qed.
Example C43_case : exists file, toVtuBinary false clock ref_density pair = Ok file.
Proof. destruct (binary_layout false clock ref_density pair pair_ints pair_size) as (h & d & E & _). eexists. exact E. Qed.
Print Assumptions C43_binary_refused.

(** C44: exporting, loading and exporting again writes the same text *)
Theorem C44_prof_fixed_point dbg rho t ps : normal t -> Forall (fun p => writable p /\ all3 normal (p_pos p) /\ all3 normal (p_vel p)) ps ->
  Z.of_nat (List.length ps) <= int_max ->
  exists t' ps', prof_load dbg rho (toProf t ps) = Ok (t', ps') /\ toProf t' ps' = toProf t ps.
Proof. exact (prof_again dbg rho t ps). Qed.
Example C44_case : normal clock /\ Forall (fun p => writable p /\ all3 normal (p_pos p) /\ all3 normal (p_vel p)) pair.
Proof. split; [exact clock_normal|exact pair_normal]. Qed.
Print Assumptions C44_prof_fixed_point.
Theorem C44_csv_fixed_point cell_int cell_dbl dbg rho t ps :
  (forall z, in_int z = true -> cell_int (showZ z) = Some z) ->
  (forall x, finite x -> exists y, cell_dbl (show x) = Some y /\ (normal x -> reads_as x y)) ->
  time_like t -> Forall (fun p => writable p /\ all3 normal (p_pos p) /\ all3 normal (p_vel p)) ps -> Z.of_nat (List.length ps) <= int_max ->
  exists t' ps', csv_load cell_int cell_dbl dbg rho (toCsv t ps) = Ok (t', ps') /\ toCsv t' ps' = toCsv t ps.
Proof. exact (csv_again cell_int cell_dbl dbg rho t ps). Qed.
Example C44_csv_case : (forall z, in_int z = true -> int_cell (showZ z) = Some z) /\ (forall x, finite x -> exists y, dbl_cell (show x) = Some y /\ (normal x -> reads_as x y))
  /\ time_like clock /\ Forall (fun p => writable p /\ all3 normal (p_pos p) /\ all3 normal (p_vel p)) pair.
Proof. split; [exact int_cell_ok|]. split; [exact dbl_cell_normal|]. split; [exact clock_time|exact pair_normal]. Qed.
Print Assumptions C44_csv_fixed_point.
(** not so for subnormal numbers *)
Theorem C44_subnormal_refuted : exists t t' ps', finite t /\ prof_load false (fz 1000) (toProf t []) = Ok (t', ps') /\ toProf t' ps' <> toProf t [].
Proof. exact speck_changes. Qed.
Print Assumptions C44_subnormal_refuted.

(** C45: a prof file with fewer rows than it announces is not rejected: coordinates that
    were never stored are used *)
Theorem C45_truncated_rejected_refuted : exists t n ps, finite t /\ Forall writable ps /\ Z.of_nat (List.length ps) < n /\
  prof_load false (fz 1000) (lines_text (show t :: showZ n :: map prof_row ps)) = Undef Uninit.
Proof. exact short_file. Qed.
Print Assumptions C45_truncated_rejected_refuted.
Theorem C45_every_truncation dbg rho t n ps : finite t -> Forall writable ps -> Z.of_nat (List.length ps) < n <= int_max ->
  prof_load dbg rho (lines_text (show t :: showZ n :: map prof_row ps)) = Undef Uninit.
Proof. exact (prof_truncated dbg rho t n ps). Qed.
Example C45_case : finite clock /\ Forall writable pair /\ Z.of_nat (List.length pair) < 3 <= int_max.
Proof. split; [exact clock_finite|]. split; [apply pair_ok|]. split; [reflexivity|discriminate]. Qed.
Print Assumptions C45_every_truncation.
(** an empty file is accepted: no particles and a start time that is not a number *)
Theorem C45_blank_accepted dbg rho ws : Forall (fun c => is_space c = true) ws -> prof_load dbg rho ws = Ok (B754_nan, []).
Proof. exact (prof_blank dbg rho ws). Qed.
Example C45_blank_case : Forall (fun c => is_space c = true) [sp; nl]. Proof. repeat constructor. Qed.
Print Assumptions C45_blank_accepted.

(** C45: text that is no number where a row should begin ends in the same way *)
Theorem C45_bad_row dbg rho t n ps ws c r : finite t -> Forall writable ps -> Z.of_nat (List.length ps) < n <= int_max ->
  Forall (fun c => is_space c = true) ws -> is_space c = false -> ~ In c (lit "0123456789+-") ->
  prof_load dbg rho (lines_text (show t :: showZ n :: map prof_row ps) ++ ws ++ c :: r) = Undef Uninit.
Proof. exact (prof_bad_row dbg rho t n ps ws c r). Qed.
Print Assumptions C45_bad_row.
(** C45: text that is no number in the place of the very last value is taken for 0 *)
Theorem C45_bad_last_value dbg rho t ps p c r : finite t -> Forall writable ps -> writable p -> Z.of_nat (List.length ps) < int_max ->
  is_space c = false -> ~ In c (lit "0123456789+-.") ->
  exists t' qs q, prof_load dbg rho (lines_text (show t :: showZ (Z.of_nat (List.length ps) + 1) :: map prof_row ps) ++ last_row p ++ c :: r) = Ok (t', qs ++ [q]) /\
    List.length qs = List.length ps /\ p_type q = p_type p /\ rel3 as_printed (p_pos p) (p_pos q) /\
    as_printed (vx (p_vel p)) (vx (p_vel q)) /\ as_printed (vy (p_vel p)) (vy (p_vel q)) /\ vz (p_vel q) = B754_zero false.
Proof. exact (prof_bad_end dbg rho t ps p c r). Qed.
Example C45_bad_case : finite clock /\ Forall writable pair /\ Z.of_nat (List.length pair) < 3 <= int_max /\
  is_space "x" = false /\ ~ In "x"%char (lit "0123456789+-.") /\ ~ In "."%char (lit "0123456789+-").
Proof. exact bad_case. Qed.
Print Assumptions C45_bad_last_value.

(** C55: a CSV file without one of the columns it needs is not rejected: variables that
    were never stored are used *)
Theorem C55_missing_column_rejected_refuted : exists h rows name, header_ok (name :: h) /\ ~ In name h /\ Forall (row_ok int_cell dbl_cell h) rows /\
  csv_load int_cell dbl_cell false (fz 1000) (csv_text zero_text zero_text h rows) = Undef Uninit.
Proof. exact flat_file. Qed.
Print Assumptions C55_missing_column_rejected_refuted.
Theorem C55_every_missing_column cell_int cell_dbl dbg rho tl cl t c h name r rows : no nl tl -> no nl cl -> stod tl = Ok t -> stod cl = Ok c ->
  h <> [] -> NoDup h -> incl h known -> In name required -> ~ In name h ->
  row_ok cell_int cell_dbl h r -> Forall (Forall plain) rows ->
  csv_load cell_int cell_dbl dbg rho (csv_text tl cl h (r :: rows)) = Undef Uninit.
Proof. exact (csv_missing cell_int cell_dbl dbg rho tl cl t c h name r rows). Qed.
Example C55_case : flat <> [] /\ NoDup flat /\ incl flat known /\ In (lit "z") required /\ ~ In (lit "z") flat /\ Forall (row_ok int_cell dbl_cell flat) flat_rows.
Proof. exact flat_ok. Qed.
Print Assumptions C55_every_missing_column.

(** C61: what the files look like ([SpecXml]).  An ascii VTU file is a well formed XML
    document with the arrays of the particles, one value per line, in order; int_text z l
    and double_text x l: l is a numeral of z, of x rounded to six digits *)
Theorem C61_ascii_document big t n0 ps : exists doc, vtu_document big t n0 ps doc /\ wellformed doc /\
  toVtuAscii big t n0 ps = lines_text (prolog :: written doc).
Proof. exact (ascii_document big t n0 ps). Qed.
Print Assumptions C61_ascii_document.
(** the tags of a binary VTU file are well formed; the data stands between them (C42) *)
Theorem C61_binary_document big t n0 ps file : toVtuBinary big t n0 ps = Ok file -> exists off x data,
  (forall i, (i < 12)%nat -> exists z, 0 <= z /\ int_text z (off i)) /\ appended_grid ps off x /\ wellformed x /\ attrs_ok (vtk_attrs big) /\
  file = lines_text (prolog :: open_tag "VTKFile" (vtk_attrs big) :: written x ++ [open_tag "AppendedData" [("encoding", lit "raw")]%string])
         ++ lit "_" ++ data ++ nl :: lines_text [close_tag "AppendedData"; close_tag "VTKFile"].
Proof. exact (binary_document big t n0 ps file). Qed.
Example C61_binary_case : exists file, toVtuBinary false clock ref_density pair = Ok file.
Proof. destruct (binary_layout false clock ref_density pair pair_ints pair_size) as (h & d & E & _). eexists. exact E. Qed.
Print Assumptions C61_binary_document.
Theorem C61_prof_document t ps : exists time n rows, toProf t ps = lines_text (time :: n :: rows) /\
  double_text t time /\ int_text (Z.of_nat (List.length ps)) n /\ one_per_line (fun p => p) prof_line ps rows.
Proof. exact (prof_document t ps). Qed.
Theorem C61_csv_document t ps : exists time n rows, toCsv t ps = lines_text (time :: n :: lit "type,fluidType,x,y,z,vx,vy,vz" :: rows) /\
  double_text t time /\ int_text (Z.of_nat (List.length ps)) n /\ one_per_line (fun p => p) csv_line ps rows.
Proof. exact (csv_document t ps). Qed.
Example C61_text_case : int_text (-12) (lit "-12") /\ double_text (p_nd brick) (lit "6.66667") /\ vector_text (p_pos brick) (lit "-0.333333 -0.111111 0.001").
Proof. split; [exact (showZ_text (-12))|]. split; [exact brick_nd_text|exact brick_pos_text]. Qed.
Print Assumptions C61_prof_document.
Print Assumptions C61_csv_document.
