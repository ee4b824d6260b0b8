(** * The VTU files are well formed XML documents and show the particles *)
From Coq Require Import Reals.
From Flocq Require Import Core.Generic_fmt Core.Round_NE Core.FLX Core.Raux.
From Verif Require Import VtuFacts SpecXml.
Open Scope list_scope.
Open Scope Z_scope.

Lemma showZ_text z : int_text z (showZ z).
Proof.
  unfold int_text, showZ, digit_text. destruct (Z.ltb_spec z 0) as [L|L].
  - exists (digits (- z)). split; [apply digits_nonempty; lia|]. split; [apply digits_Forall; lia|]. split; [reflexivity|]. rewrite digits_value; lia.
  - exists (digits z). split; [apply digits_nonempty; lia|]. split; [apply digits_Forall; lia|]. split; [reflexivity|]. rewrite digits_value; lia.
Qed.
Lemma show_text (x : f64) : double_text x (show x).
Proof.
  destruct x as [s|s| |s m e B]; cbn [double_text show]; try reflexivity.
  - exists [0], [], None. split. { repeat split; [congruence|repeat constructor; lia|constructor]. } split; [reflexivity|].
    cbn [B2R]. unfold round6. rewrite round_0 by apply valid_rnd_N. rewrite Rabs_R0. unfold value. cbn. ring.
  - destruct (dec6 m e) as [D X] eqn:E. destruct (dec6_spec m e D X B E) as (R1 & R2 & V).
    destruct (layout_spelled D X R1) as (ds & fs & ex & L & S & P & V').
    exists ds, fs, ex. rewrite L. split; [exact S|]. split; [reflexivity|]. rewrite V', V, B2R_finite.
    pose proof (round6_range m e B) as (R0 & _). destruct s; [rewrite round6_opp, Rabs_Ropp|]; symmetry; apply Rabs_pos_eq, R0.
Qed.
Lemma show3_text v : vector_text v (show3 sp v).
Proof. exists (show (vx v)), (show (vy v)), (show (vz v)). split; [reflexivity|]. repeat split; apply show_text. Qed.
Lemma column_map {A B} (f : A -> B) (shows : B -> list ascii -> Prop) (g : A -> list ascii) l : (forall a, shows (f a) (g a)) -> one_per_line f shows l (map g l).
Proof. intros H. induction l as [|a l IH]; constructor; auto. Qed.
Lemma column_seq (shows : Z -> list ascii -> Prop) (g : Z -> list ascii) n : forall k, (forall z, shows z (g z)) -> one_per_line Z.of_nat shows (seq k n) (map g (map Z.of_nat (seq k n))).
Proof. intros k H. rewrite map_map. apply column_map. intros i. apply H. Qed.

(** ** no special characters *)
Lemma row_xml l : row l -> xml_text l.
Proof.
  intros H. assert (K : forall c, rowchar c = false -> ~ In c l). { intros c F I. rewrite (proj1 (Forall_forall _ _) H c I) in F. discriminate F. }
  unfold xml_text. repeat split; apply K; reflexivity.
Qed.
Definition bad (c : ascii) : bool := Ascii.eqb c "<" || Ascii.eqb c ">" || Ascii.eqb c "&" || Ascii.eqb c quote || Ascii.eqb c nl.
Definition letter_b (c : ascii) : bool := let n := N_of_ascii c in ((65 <=? n) && (n <=? 90) || ((97 <=? n) && (n <=? 122) || (n =? 95)))%N.
Lemma text_b l : existsb bad l = false -> xml_text l.
Proof.
  intros H. assert (K : forall c, bad c = true -> ~ In c l). { intros c B I. rewrite (proj2 (existsb_exists _ _)) in H; [discriminate|eauto]. }
  unfold xml_text. repeat split; apply K; reflexivity.
Qed.
Lemma name_b s : negb (text_eqb (lit s) []) && forallb letter_b (lit s) = true -> xml_name s.
Proof.
  intros H. apply andb_true_iff in H as (H1 & H2). split.
  - intros E. rewrite E in H1. discriminate H1.
  - apply Forall_forall. intros c I. rewrite forallb_forall in H2. specialize (H2 c I). unfold letter_b, letter in *.
    cbv zeta in *. rewrite !orb_true_iff, !andb_true_iff, !N.leb_le, N.eqb_eq in H2. exact H2.
Qed.
Ltac nodup := repeat (apply NoDup_cons; [cbn; intuition discriminate|]); apply NoDup_nil.
Ltac attrs := split; [cbn [map fst]; nodup|repeat (apply Forall_cons; [split; cbn [fst snd]; [apply name_b; reflexivity|first [apply text_b; reflexivity|apply row_xml, showZ_row]]|]); apply Forall_nil].
Lemma wf_lines rows : Forall row rows -> Forall wellformed (map Line rows).
Proof. intros H. apply Forall_map. eapply Forall_impl; [|exact H]. intros l R. apply wf_line, row_xml, R. Qed.
Definition plain_b (s : string) : bool := negb (existsb bad (lit s)).
Lemma wf_array ty name comps rows : plain_b ty && plain_b name && plain_b comps = true -> Forall row rows -> wellformed (data_array ty name comps rows).
Proof.
  unfold plain_b. rewrite !andb_true_iff, !negb_true_iff. intros ((T & M) & C) R. apply wf_elem; [apply name_b; reflexivity| |apply wf_lines, R].
  split; [cbn [map fst]; nodup|]. repeat (apply Forall_cons; [split; cbn [fst snd]; [apply name_b; reflexivity|apply text_b; first [assumption|reflexivity]]|]). apply Forall_nil.
Qed.
Lemma wf_grid n points pd cells fields : xml_text n -> Forall wellformed points -> Forall wellformed pd -> Forall wellformed cells -> Forall wellformed fields ->
  wellformed (grid n points pd cells fields).
Proof.
  intros N P D C F. unfold grid.
  assert (A0 : attrs_ok []) by (split; constructor).
  apply wf_elem; [apply name_b; reflexivity|exact A0|]. apply Forall_cons; [|apply Forall_cons; [|apply Forall_nil]].
  - apply wf_elem; [apply name_b; reflexivity| |].
    + split; [cbn [map fst]; nodup|]. repeat (apply Forall_cons; [split; cbn [fst snd]; [apply name_b; reflexivity|exact N]|]). apply Forall_nil.
    + repeat (apply Forall_cons; [apply wf_elem; [apply name_b; reflexivity|exact A0|assumption]|]). apply Forall_nil.
  - apply wf_elem; [apply name_b; reflexivity|exact A0|exact F].
Qed.
Lemma vtk_attrs_ok big : attrs_ok (vtk_attrs big).
Proof. destruct big; attrs. Qed.
Lemma wf_document big n points pd cells fields : xml_text n -> Forall wellformed points -> Forall wellformed pd -> Forall wellformed cells -> Forall wellformed fields ->
  wellformed (document big n points pd cells fields).
Proof. intros N P D C F. apply wf_elem; [apply name_b; reflexivity|apply vtk_attrs_ok|]. apply Forall_cons; [apply wf_grid; assumption|apply Forall_nil]. Qed.

(** ** the lines *)
Lemma written_lines rows : flat_map written (map Line rows) = rows.
Proof. induction rows as [|l r IH]; [reflexivity|]. cbn [map flat_map written app]. now rewrite IH. Qed.
Lemma written_array ty name nc comps rows : showZ nc = lit comps -> written (data_array ty name comps rows) = ascii_array ty name nc rows.
Proof.
  intros E. unfold data_array. cbn [written]. rewrite written_lines. unfold ascii_array, dataArrayBegin, dataArrayEnd. rewrite E. f_equal.
  unfold open_tag, quoted. cbn [flat_map attr_text fst snd]. unfold attr_text. cbn [fst snd].
  repeat first [rewrite <- app_assoc|progress cbn [lit app list_ascii_of_string]]. reflexivity.
Qed.
Definition vtk_line (big : bool) : list ascii :=
  lit "<VTKFile type=" ++ quoted (lit "UnstructuredGrid") ++ lit " version=" ++ quoted (lit "1.0")
     ++ lit " header_type=" ++ quoted (lit "UInt64") ++ lit " byte_order="
     ++ quoted (lit (if big then "BigEndian" else "LittleEndian")) ++ lit ">".
Lemma vtk_open big : open_tag "VTKFile" (vtk_attrs big) = vtk_line big.
Proof. destruct big; reflexivity. Qed.
Lemma written_grid n points pd cells fields :
  written (grid n points pd cells fields) =
  lit "<UnstructuredGrid>" ::
  (lit "<Piece NumberOfPoints=" ++ quoted n ++ lit " NumberOfCells=" ++ quoted n ++ lit ">") ::
  lit "<Points>" :: flat_map written points ++ lit "</Points>" :: lit "<PointData>" :: flat_map written pd ++
  lit "</PointData>" :: lit "<Cells>" :: flat_map written cells ++ lit "</Cells>" :: lit "</Piece>" :: lit "<FieldData>" ::
  flat_map written fields ++ [lit "</FieldData>"; lit "</UnstructuredGrid>"].
Proof.
  unfold grid. cbn [written flat_map]. rewrite !app_nil_r. rewrite <- ?app_assoc. cbn [app]. rewrite <- ?app_assoc. cbn [app]. rewrite <- ?app_assoc. cbn [app].
  f_equal. f_equal.
  { unfold open_tag, quoted. cbn [flat_map]. unfold attr_text. cbn [fst snd]. repeat first [rewrite <- app_assoc|progress cbn [lit app list_ascii_of_string]]. reflexivity. }
  repeat first [reflexivity|rewrite <- app_assoc; cbn [app]|apply (f_equal2 cons)|apply (f_equal2 (@app _))].
Qed.
Lemma written_document big n points pd cells fields :
  written (document big n points pd cells fields) = vtk_line big :: written (grid n points pd cells fields) ++ [lit "</VTKFile>"].
Proof. unfold document. cbn [written flat_map]. rewrite app_nil_r, vtk_open. reflexivity. Qed.

Lemma ascii_document big t n0 ps : exists doc, vtu_document big t n0 ps doc /\ wellformed doc /\
  toVtuAscii big t n0 ps = lines_text (prolog :: written doc).
Proof.
  eexists. split.
  - unfold vtu_document.
    exists (showZ (Z.of_nat (List.length ps))), (map (fun p : @Types.particle F64 => show3 sp (p_pos p)) ps), (map (fun p : @Types.particle F64 => showZ (p_type p)) ps), (map (fun p : @Types.particle F64 => show3 sp (p_vel p)) ps),
      (map (fun p : @Types.particle F64 => show (p_press p)) ps), (map (fun p : @Types.particle F64 => show (p_nd p)) ps), (map (fun p : @Types.particle F64 => show (@ndiv F64 (p_nd p) n0)) ps),
      (map (fun p : @Types.particle F64 => showZ (fs_code (p_bc p))) ps), (map (fun p : @Types.particle F64 => showZ (p_fluidType p)) ps), (map showZ (indices ps)), (map (fun i => showZ (i + 1)) (indices ps)),
      (map (fun _ : @Types.particle F64 => showZ 1) ps), (show t).
    split; [apply showZ_text|]. split; [apply column_map; intros p; apply show3_text|]. split; [apply column_map; intros p; apply showZ_text|].
    split; [apply column_map; intros p; apply show3_text|]. split; [apply column_map; intros p; apply show_text|]. split; [apply column_map; intros p; apply show_text|].
    split; [apply column_map; intros p; apply show_text|]. split; [apply column_map; intros p; apply showZ_text|]. split; [apply column_map; intros p; apply showZ_text|].
    split; [unfold indices; apply (column_seq int_text showZ); apply showZ_text|].
    split. { unfold indices. rewrite <- seq_shift, map_map. unfold one_per_line. generalize (seq 0 (List.length ps)) as l.
      induction l as [|i l IH]; constructor; [|exact IH]. replace (Z.of_nat (Datatypes.S i)) with (Z.of_nat i + 1) by lia. apply showZ_text. }
    split; [apply column_map; intros p; apply showZ_text|]. split; [apply show_text|]. reflexivity.
  - split.
    + apply wf_document; [apply row_xml, showZ_row| | | |];
        repeat (apply Forall_cons; [first [apply wf_array; [reflexivity|]|idtac]|]); try apply Forall_nil;
        try (apply rows_all; intros p; first [apply show3_row|apply showZ_row|apply show_row]); try (apply rowsZ_all; intros z; apply showZ_row).
      apply wf_elem; [apply name_b; reflexivity|attrs|]. apply Forall_cons; [apply wf_line, row_xml, show_row|apply Forall_nil].
    + unfold toVtuAscii. f_equal. rewrite written_document, written_grid. unfold vtuAscii_lines, vtu_head. cbn [flat_map]. rewrite !app_nil_r.
      assert (W1 : forall ty name rows, written (data_array ty name "1" rows) = ascii_array ty name 1 rows) by (intros; apply written_array; reflexivity).
      assert (W3 : forall ty name rows, written (data_array ty name "3" rows) = ascii_array ty name 3 rows) by (intros; apply written_array; reflexivity).
      rewrite !W1, !W3. unfold prolog. rewrite <- !app_assoc. cbn [app]. do 5 (apply (f_equal2 cons); [reflexivity|]).
      cbn [written flat_map]. repeat (rewrite <- ?app_assoc; cbn [app]). reflexivity.
Qed.

(** ** the binary file *)
Lemma wf_appended ty name comps z : plain_b ty && plain_b name && plain_b comps = true -> wellformed (appended_array ty name comps (showZ z)).
Proof.
  unfold plain_b. rewrite !andb_true_iff, !negb_true_iff. intros ((T & M) & C). apply wf_elem; [apply name_b; reflexivity| |apply Forall_nil].
  split; [cbn [map fst]; nodup|]. repeat (apply Forall_cons; [split; cbn [fst snd]; [apply name_b; reflexivity|first [apply row_xml, showZ_row|apply text_b; first [assumption|reflexivity]]]|]). apply Forall_nil.
Qed.
Lemma written_appended ty name nc comps data : showZ nc = lit comps ->
  written (appended_array ty name comps (showZ (tellp data))) = appended_lines ty name nc data.
Proof.
  intros E. unfold appended_array. cbn [written flat_map app]. unfold appended_lines, dataArrayBegin, dataArrayEnd. rewrite E. f_equal.
  unfold open_tag, quoted. cbn [flat_map]. unfold attr_text. cbn [fst snd].
  repeat first [rewrite <- app_assoc|progress cbn [lit app list_ascii_of_string]]. reflexivity.
Qed.
Lemma tellp_text d : exists z, 0 <= z /\ int_text z (showZ (tellp d)).
Proof. exists (tellp d). split; [unfold tellp; lia|apply showZ_text]. Qed.
Lemma binary_lines big ps d0 d1 d2 d3 d4 d5 d6 d7 d8 d9 d10 d11 data : exists off x,
  (forall i, (i < 12)%nat -> exists z, 0 <= z /\ int_text z (off i)) /\ appended_grid ps off x /\ wellformed x /\
  lines_text (vtu_head big (Z.of_nat (List.length ps)) ++ appended_lines "Float64" "Position" 3 d0 ++ [lit "</Points>"; lit "<PointData>"]
    ++ appended_lines "Int32" "Particle Type" 1 d1 ++ appended_lines "Float64" "Velocity" 3 d2 ++ appended_lines "Float64" "Pressure" 1 d3
    ++ appended_lines "Float64" "Number Density" 1 d4 ++ appended_lines "Float64" "Number Density Ratio" 1 d5
    ++ appended_lines "Int32" "Boundary Condition" 1 d6 ++ appended_lines "Int32" "Fluid Type" 1 d7 ++ [lit "</PointData>"; lit "<Cells>"]
    ++ appended_lines "Int64" "connectivity" 1 d8 ++ appended_lines "Int64" "offsets" 1 d9 ++ appended_lines "UInt8" "types" 1 d10
    ++ [lit "</Cells>"; lit "</Piece>"; lit "<FieldData>";
        lit "<DataArray type=" ++ quoted (lit "Float64") ++ lit " Name=" ++ quoted (lit "Time")
          ++ lit " NumberOfTuples=" ++ quoted (lit "1") ++ lit " format=" ++ quoted (lit "appended")
          ++ lit " offset=" ++ quoted (showZ (tellp d11)) ++ lit "/>";
        lit "</FieldData>"; lit "</UnstructuredGrid>";
        lit "<AppendedData encoding=" ++ quoted (lit "raw") ++ lit ">"]) ++ lines_text [lit "_" ++ data; lit "</AppendedData>"; lit "</VTKFile>"]
  = lines_text (prolog :: open_tag "VTKFile" (vtk_attrs big) :: written x ++ [open_tag "AppendedData" [("encoding", lit "raw")]%string])
    ++ lit "_" ++ data ++ nl :: lines_text [close_tag "AppendedData"; close_tag "VTKFile"].
Proof.
  set (offs := map (fun d => showZ (tellp d)) [d0; d1; d2; d3; d4; d5; d6; d7; d8; d9; d10; d11]).
  exists (fun i => nth i offs []). eexists. split; [|split; [|split]].
  - intros i L. unfold offs. do 12 (destruct i as [|i]; [apply tellp_text|]). lia.
  - eexists. split; [apply showZ_text|reflexivity].
  - apply wf_grid; [apply row_xml, showZ_row| | | |]; unfold offs; cbn [map nth];
      repeat (apply Forall_cons; [first [apply wf_appended; reflexivity|apply wf_empty; [apply name_b; reflexivity|attrs]]|]); apply Forall_nil.
  - rewrite vtk_open, written_grid. unfold offs. cbn [map nth flat_map]. rewrite !app_nil_r.
    assert (W1 : forall ty name d, written (appended_array ty name "1" (showZ (tellp d))) = appended_lines ty name 1 d) by (intros; apply written_appended; reflexivity).
    assert (W3 : forall ty name d, written (appended_array ty name "3" (showZ (tellp d))) = appended_lines ty name 3 d) by (intros; apply written_appended; reflexivity).
    rewrite !W1, !W3. f_equal.
    + f_equal. unfold vtu_head. cbn [written]. repeat (rewrite <- ?app_assoc; cbn [app]).
      do 5 (apply (f_equal2 cons); [reflexivity|]).
      assert (T : lit "<DataArray type=" ++ quoted (lit "Float64") ++ lit " Name=" ++ quoted (lit "Time")
          ++ lit " NumberOfTuples=" ++ quoted (lit "1") ++ lit " format=" ++ quoted (lit "appended")
          ++ lit " offset=" ++ quoted (showZ (tellp d11)) ++ lit "/>" = empty_tag "DataArray" [("type", lit "Float64"); ("Name", lit "Time"); ("NumberOfTuples", lit "1"); ("format", lit "appended"); ("offset", showZ (tellp d11))]%string).
      { unfold empty_tag, quoted. cbn [flat_map]. unfold attr_text. cbn [fst snd]. repeat first [rewrite <- app_assoc|progress cbn [lit app list_ascii_of_string]]. reflexivity. }
      rewrite T. reflexivity.
    + rewrite lines_text_cons, <- app_assoc. reflexivity.
Qed.
Lemma binary_document big t n0 ps file : toVtuBinary big t n0 ps = Ok file -> exists off x data,
  (forall i, (i < 12)%nat -> exists z, 0 <= z /\ int_text z (off i)) /\ appended_grid ps off x /\ wellformed x /\ attrs_ok (vtk_attrs big) /\
  file = lines_text (prolog :: open_tag "VTKFile" (vtk_attrs big) :: written x ++ [open_tag "AppendedData" [("encoding", lit "raw")]%string])
         ++ lit "_" ++ data ++ nl :: lines_text [close_tag "AppendedData"; close_tag "VTKFile"].
Proof.
  unfold toVtuBinary. destruct (cint (Z.of_nat (List.length ps) * 3)) as [n3|u| |c| |]; try discriminate. cbn [bind]. cbv zeta. intros E.
  match type of E with Ok (lines_text (_ ++ appended_lines _ _ _ ?d0 ++ _ ++ appended_lines _ _ _ ?d1 ++ appended_lines _ _ _ ?d2 ++ appended_lines _ _ _ ?d3 ++ appended_lines _ _ _ ?d4
      ++ appended_lines _ _ _ ?d5 ++ appended_lines _ _ _ ?d6 ++ appended_lines _ _ _ ?d7 ++ _ ++ appended_lines _ _ _ ?d8 ++ appended_lines _ _ _ ?d9 ++ appended_lines _ _ _ ?d10
      ++ ?tl) ++ lines_text ((lit "_" ++ ?d12) :: _)) = _ =>
    match tl with context [tellp ?d11] => destruct (binary_lines big ps d0 d1 d2 d3 d4 d5 d6 d7 d8 d9 d10 d11 d12) as (off & x & A & B & C & D); exists off, x, d12 end
  end.
  split; [exact A|]. split; [exact B|]. split; [exact C|]. split; [apply vtk_attrs_ok|].
  rewrite <- D. apply (f_equal (fun o => match o with Ok a => a | _ => file end)) in E. symmetry. exact E.
Qed.

(** ** prof and CSV *)
Lemma prof_document t ps : exists time n rows, toProf t ps = lines_text (time :: n :: rows) /\
  double_text t time /\ int_text (Z.of_nat (List.length ps)) n /\ one_per_line (fun p => p) prof_line ps rows.
Proof.
  exists (show t), (showZ (Z.of_nat (List.length ps))), (map prof_row ps). split; [reflexivity|]. split; [apply show_text|]. split; [apply showZ_text|].
  apply column_map. intros p. exists (showZ (p_type p)), (show3 sp (p_pos p)), (show3 sp (p_vel p)). split; [reflexivity|].
  split; [apply showZ_text|]. split; apply show3_text.
Qed.
Lemma show3_comma v : comma_vector v (show3 comma v).
Proof. exists (show (vx v)), (show (vy v)), (show (vz v)). split; [reflexivity|]. repeat split; apply show_text. Qed.
Lemma csv_document t ps : exists time n rows, toCsv t ps = lines_text (time :: n :: lit "type,fluidType,x,y,z,vx,vy,vz" :: rows) /\
  double_text t time /\ int_text (Z.of_nat (List.length ps)) n /\ one_per_line (fun p => p) csv_line ps rows.
Proof.
  exists (show t), (showZ (Z.of_nat (List.length ps))), (map csv_row ps). split; [reflexivity|]. split; [apply show_text|]. split; [apply showZ_text|].
  apply column_map. intros p. exists (showZ (p_type p)), (showZ (p_fluidType p)), (show3 comma (p_pos p)), (show3 comma (p_vel p)). split; [reflexivity|].
  split; [apply showZ_text|]. split; [apply showZ_text|]. split; apply show3_comma.
Qed.
