(** * Layout of the binary VTU file *)
From Coq Require Import PeanoNat.
From Verif Require Export VtuFacts.
Open Scope Z_scope.

(** ** bytes *)
Lemma le_bytes_length n : forall z, List.length (le_bytes n z) = n.
Proof. induction n; intros z; cbn [le_bytes List.length]; auto. Qed.
Lemma raw_length big n z : List.length (raw big n z) = n.
Proof. unfold raw. destruct big; rewrite ?rev_length; apply le_bytes_length. Qed.
Lemma byte_value z : 0 <= z < 256 -> Z.of_N (N_of_ascii (ascii_of_N (Z.to_N z))) = z.
Proof. intros H. rewrite N_ascii_embedding by lia. lia. Qed.
Lemma le_value_bytes n : forall z, le_value (le_bytes n z) = z mod 256 ^ Z.of_nat n.
Proof.
  induction n as [|n IH]; intros z; cbn [le_bytes le_value]. { cbn. now rewrite Z.mod_1_r. }
  rewrite IH, byte_value by (apply Z.mod_pos_bound; lia). rewrite Nat2Z.inj_succ, Z.pow_succ_r by lia.
  rewrite Z.rem_mul_r by (try apply Z.pow_pos_nonneg; lia). reflexivity.
Qed.
Lemma word_raw big n z : word big (raw big n z) = z mod 256 ^ Z.of_nat n.
Proof. unfold word, raw. destruct big; rewrite ?rev_involutive; apply le_value_bytes. Qed.
Lemma firstn_app_l {A} (a b : list A) n : List.length a = n -> firstn n (a ++ b) = a.
Proof. intros <-. rewrite firstn_app, Nat.sub_diag, firstn_all. cbn [firstn]. apply app_nil_r. Qed.
Lemma skipn_app_l {A} (a b : list A) n : List.length a = n -> skipn n (a ++ b) = b.
Proof. intros <-. rewrite skipn_app, Nat.sub_diag, skipn_all. reflexivity. Qed.
Lemma words_raw big size zs rest : words big size (List.length zs) (flat_map (raw big size) zs ++ rest) = map (fun z => z mod 256 ^ Z.of_nat size) zs.
Proof.
  induction zs as [|z zs IH]; [reflexivity|]. cbn [List.length words flat_map map]. rewrite <- app_assoc.
  rewrite firstn_app_l, skipn_app_l by apply raw_length. now rewrite word_raw, IH.
Qed.
Lemma flat_raw_length big size zs : List.length (flat_map (raw big size) zs) = (size * List.length zs)%nat.
Proof. induction zs as [|z zs IH]; cbn [flat_map List.length]; [lia|]. rewrite app_length, raw_length, IH. lia. Qed.
Lemma signed_mod size z : (0 < size)%nat -> - 256 ^ Z.of_nat size <= 2 * z < 256 ^ Z.of_nat size -> signed size (z mod 256 ^ Z.of_nat size) = z.
Proof.
  intros S H. assert (P : 0 < 256 ^ Z.of_nat size) by (apply Z.pow_pos_nonneg; lia). unfold signed. set (M := 256 ^ Z.of_nat size) in *.
  destruct (Z_lt_le_dec z 0) as [N|N].
  - replace (z mod M) with (z + M). 2:{ rewrite <- (Z.mod_small (z + M) M) by lia. rewrite <- (Z_mod_plus_full z 1 M). f_equal. lia. }
    destruct (Z.ltb_spec (2 * (z + M)) M); lia.
  - rewrite Z.mod_small by lia. destruct (Z.ltb_spec (2 * z) M); lia.
Qed.
Lemma bits_range x : 0 <= bits_of x < 256 ^ 8.
Proof.
  unfold bits_of. change (256 ^ 8) with (2 ^ 64).
  destruct x; try (apply (Bits.bits_of_binary_float_range 52 11); lia). split; [discriminate|reflexivity].
Qed.
Lemma double_bits x : double_of (bits_of x) = x.
Proof.
  unfold double_of, bits_of. destruct x as [s|s| |s m e B]; unfold Bits.b64_of_bits, Bits.bits_of_b64; try (now rewrite Bits.binary_float_of_bits_of_binary_float).
  vm_compute. reflexivity.
Qed.
Definition in_words (size : nat) (z : Z) : Prop := - 256 ^ Z.of_nat size <= 2 * z < 256 ^ Z.of_nat size.

(** ** arrays *)
Definition payload (big : bool) (c : contents) : list ascii :=
  match c with Doubles l => flat_map (raw big 8) (map bits_of l) | Ints s l => flat_map (raw big s) l end.
Definition fits (c : contents) : Prop :=
  Z.of_nat (c_size c * c_count c) < 256 ^ 8 /\ match c with Doubles _ => True | Ints s l => (0 < s)%nat /\ Forall (in_words s) l end.
Lemma payload_length big c : List.length (payload big c) = (c_size c * c_count c)%nat.
Proof. destruct c; cbn [payload c_size c_count]; rewrite flat_raw_length; [rewrite map_length|]; reflexivity. Qed.
Lemma payload_holds big c rest : fits c -> holds big c (payload big c ++ rest).
Proof.
  intros [_ F]. destruct c as [l|s l]; cbn [payload holds].
  - rewrite <- (map_length bits_of l) at 1. rewrite words_raw, !map_map. rewrite <- (map_id l) at 2. apply map_ext. intros x.
    rewrite Z.mod_small by apply bits_range. apply double_bits.
  - rewrite words_raw, map_map. destruct F as [S F]. rewrite <- (map_id l) at 2. apply map_ext_in. intros z I. rewrite Forall_forall in F.
    apply signed_mod; [exact S|]. now apply F.
Qed.
Definition entry (big : bool) (c : contents) : list ascii := raw big 8 (Z.of_nat (c_size c * c_count c)) ++ payload big c.
Lemma laid_cons big header data pre post tag c r : fits c -> data = pre ++ entry big c ++ post -> In (tag (List.length pre)) header ->
  laid_out big header data (List.length (pre ++ entry big c)) r -> laid_out big header data (List.length pre) ((tag, c) :: r).
Proof.
  intros F E I L. cbn [laid_out]. split; [exact I|]. subst data. rewrite skipn_app_l by reflexivity. unfold entry in *. rewrite <- app_assoc.
  rewrite firstn_app_l by apply raw_length. rewrite word_raw. split.
  { rewrite Z.mod_small; [reflexivity|]. split; [lia|apply F]. }
  split.
  - rewrite app_assoc, skipn_app_l; [|rewrite app_length, raw_length; reflexivity]. now apply payload_holds.
  - rewrite !app_length, raw_length, payload_length in L. rewrite <- Nat.add_assoc. rewrite <- app_assoc in L. exact L.
Qed.

(** ** the file *)
Lemma tag_component ty name nc num d : showZ nc = lit num ->
  dataArrayBegin ty name nc (Some (tellp d)) = tag_of ty name "NumberOfComponents" num ">" (List.length d).
Proof.
  intros E. unfold dataArrayBegin, tag_of, quoted, tellp. rewrite E.
  change (lit " NumberOfComponents=") with (lit " " ++ lit "NumberOfComponents" ++ lit "="). rewrite <- ?app_assoc. cbn [app]. rewrite <- ?app_assoc. cbn [app].
  rewrite <- ?app_assoc. reflexivity.
Qed.
Lemma tag_time d : lit "<DataArray type=" ++ quoted (lit "Float64") ++ lit " Name=" ++ quoted (lit "Time")
          ++ lit " NumberOfTuples=" ++ quoted (lit "1") ++ lit " format=" ++ quoted (lit "appended")
          ++ lit " offset=" ++ quoted (showZ (tellp d)) ++ lit "/>" = tag_of "Float64" "Time" "NumberOfTuples" "1" "/>" (List.length d).
Proof.
  unfold tag_of, quoted, tellp. change (lit " NumberOfTuples=") with (lit " " ++ lit "NumberOfTuples" ++ lit "="). rewrite <- ?app_assoc. cbn [app]. rewrite <- ?app_assoc. cbn [app].
  rewrite <- ?app_assoc. reflexivity.
Qed.
Lemma flat_raw_map {A} big size (f : A -> Z) l : flat_map (fun a => raw big size (f a)) l = flat_map (raw big size) (map f l).
Proof. induction l; cbn [flat_map map]; congruence. Qed.
Lemma flat_double_map {A} big (f : A -> f64) l : flat_map (fun a => raw_double big (f a)) l = payload big (Doubles (map f l)).
Proof. cbn [payload]. rewrite map_map. apply (flat_raw_map big 8 (fun a => bits_of (f a))). Qed.
Lemma flat_vec big (f : particle -> @vec F64) l : flat_map (fun p => raw_vec big (f p)) l = payload big (Doubles (flat_map (fun p => coords (f p)) l)).
Proof.
  cbn [payload]. induction l as [|p l IH]; [reflexivity|]. cbn [flat_map coords app map]. rewrite IH. unfold raw_vec, raw_double. cbn [payload]. rewrite <- !app_assoc. reflexivity.
Qed.
Lemma coords_count (f : particle -> @vec F64) l : List.length (flat_map (fun p => coords (f p)) l) = (List.length l * 3)%nat.
Proof. induction l as [|p l IH]; [reflexivity|]. cbn [flat_map coords app List.length]. rewrite IH. lia. Qed.
Lemma appended_entry big len bytes d c : bytes = payload big c -> len = Z.of_nat (c_size c * c_count c) -> appended big len bytes d = d ++ entry big c.
Proof. intros -> ->. reflexivity. Qed.

Lemma indices_upto ps : indices ps = upto (List.length ps). Proof. reflexivity. Qed.
Lemma upto_length n : List.length (upto n) = n. Proof. unfold upto. now rewrite map_length, seq_length. Qed.
Lemma fits_doubles l : Z.of_nat (8 * List.length l) < 256 ^ 8 -> fits (Doubles l). Proof. now split. Qed.
Lemma fits_ints s l : (0 < s)%nat -> Z.of_nat (s * List.length l) < 256 ^ 8 -> Forall (in_words s) l -> fits (Ints s l). Proof. now split. Qed.
Lemma int_words z : in_int z = true -> in_words 4 z.
Proof. unfold in_int, in_words, int_min, int_max. rewrite andb_true_iff, !Z.leb_le. change (256 ^ Z.of_nat 4) with 4294967296. lia. Qed.
Lemma upto_words n : 3 * Z.of_nat n <= int_max -> Forall (in_words 8) (upto n) /\ Forall (in_words 8) (map (fun i => i + 1) (upto n)).
Proof.
  change int_max with 2147483647. intros H. assert (K : Forall (fun z => 0 <= z < 2147483647) (upto n)).
  { apply Forall_forall. intros z I. unfold upto in I. rewrite in_map_iff in I. destruct I as (k & <- & I). apply in_seq in I. lia. }
  unfold in_words. change (256 ^ Z.of_nat 8) with 18446744073709551616. split; [|apply Forall_map]; (eapply Forall_impl; [|exact K]); intros z Hz; cbv beta in *; lia.
Qed.
Lemma no_tag ty name nc off : no nl (lit ty) -> no nl (lit name) -> no nl (dataArrayBegin ty name nc (Some off)).
Proof.
  intros H1 H2. assert (Q : forall l, no nl l -> no nl (quoted l)).
  { intros l H. unfold quoted. constructor; [reflexivity|]. apply no_app; [exact H|closed_no]. }
  unfold dataArrayBegin. repeat first [apply no_app | apply Q | exact H1 | exact H2 | apply showZ_no_nl]; closed_no.
Qed.
Lemma no_lines ty name nc d : no nl (lit ty) -> no nl (lit name) -> Forall (no nl) (appended_lines ty name nc d).
Proof. intros H1 H2. constructor; [now apply no_tag|]. constructor; [closed_no|constructor]. Qed.

Lemma binary_layout big t n0 ps : Forall (fun p => in_int (p_type p) = true /\ in_int (p_fluidType p) = true) ps ->
  Z.of_nat (List.length ps) * 3 <= int_max ->
  exists header data, toVtuBinary big t n0 ps =
      Ok (lines_text (vtu_head big (Z.of_nat (List.length ps)) ++ header ++ [lit "<AppendedData encoding=" ++ quoted (lit "raw") ++ lit ">"])
          ++ lit "_" ++ data ++ nl :: lines_text [lit "</AppendedData>"; lit "</VTKFile>"])
    /\ Forall (no nl) header /\ laid_out big header data 0 (vtu_arrays t n0 ps).
Proof.
  intros W L. set (n := Z.of_nat (List.length ps)) in *.
  assert (L' : int_max = 2147483647) by reflexivity. assert (P8 : 256 ^ 8 = 18446744073709551616) by reflexivity.
  assert (N0 : 0 <= n) by (unfold n; lia).
  unfold toVtuBinary. fold n. rewrite cint_ok by (unfold in_int, int_min; rewrite andb_true_iff, !Z.leb_le; lia).
  cbn [bind]. cbv zeta.
  set (c0 := Doubles (flat_map (fun p => coords (p_pos p)) ps)).
  set (c1 := Ints 4 (map p_type ps)).
  set (c2 := Doubles (flat_map (fun p => coords (p_vel p)) ps)).
  set (c3 := Doubles (map p_press ps)).
  set (c4 := Doubles (map p_nd ps)).
  set (c5 := Doubles (map (fun p => @ndiv F64 (p_nd p) n0) ps)).
  set (c6 := Ints 4 (map (fun p => fs_code (p_bc p)) ps)).
  set (c7 := Ints 4 (map p_fluidType ps)).
  set (c8 := Ints 8 (upto (List.length ps))).
  set (c9 := Ints 8 (map (fun i => i + 1) (upto (List.length ps)))).
  set (c10 := Ints 1 (map (fun _ => 1) ps)).
  set (c11 := Doubles [t]).
  assert (A0 : forall d, appended big (n * 3 * 8) (flat_map (fun p => raw_vec big (p_pos p)) ps) d = d ++ entry big c0).
  { intros d. apply appended_entry; [apply (flat_vec big p_pos)|]. unfold c0. cbn [c_size c_count]. rewrite ?coords_count, ?map_length, ?upto_length. unfold n; cbn [List.length]; lia. }
  assert (A1 : forall d, appended big (n * 4) (flat_map (fun p => raw big 4 (p_type p)) ps) d = d ++ entry big c1).
  { intros d. apply appended_entry; [apply (flat_raw_map big 4 p_type)|]. unfold c1. cbn [c_size c_count]. rewrite ?coords_count, ?map_length, ?upto_length. unfold n; cbn [List.length]; lia. }
  assert (A2 : forall d, appended big (n * 3 * 8) (flat_map (fun p => raw_vec big (p_vel p)) ps) d = d ++ entry big c2).
  { intros d. apply appended_entry; [apply (flat_vec big p_vel)|]. unfold c2. cbn [c_size c_count]. rewrite ?coords_count, ?map_length, ?upto_length. unfold n; cbn [List.length]; lia. }
  assert (A3 : forall d, appended big (n * 8) (flat_map (fun p => raw_double big (p_press p)) ps) d = d ++ entry big c3).
  { intros d. apply appended_entry; [apply (flat_double_map big (@p_press F64))|]. unfold c3. cbn [c_size c_count]. rewrite ?coords_count, ?map_length, ?upto_length. unfold n; cbn [List.length]; lia. }
  assert (A4 : forall d, appended big (n * 8) (flat_map (fun p => raw_double big (p_nd p)) ps) d = d ++ entry big c4).
  { intros d. apply appended_entry; [apply (flat_double_map big (@p_nd F64))|]. unfold c4. cbn [c_size c_count]. rewrite ?coords_count, ?map_length, ?upto_length. unfold n; cbn [List.length]; lia. }
  assert (A5 : forall d, appended big (n * 8) (flat_map (fun p => raw_double big (@ndiv F64 (p_nd p) n0)) ps) d = d ++ entry big c5).
  { intros d. apply appended_entry; [apply (flat_double_map big (fun p => @ndiv F64 (p_nd p) n0))|]. unfold c5. cbn [c_size c_count]. rewrite ?coords_count, ?map_length, ?upto_length. unfold n; cbn [List.length]; lia. }
  assert (A6 : forall d, appended big (n * 4) (flat_map (fun p => raw big 4 (fs_code (p_bc p))) ps) d = d ++ entry big c6).
  { intros d. apply appended_entry; [apply (flat_raw_map big 4 (fun p => fs_code (p_bc p)))|]. unfold c6. cbn [c_size c_count]. rewrite ?coords_count, ?map_length, ?upto_length. unfold n; cbn [List.length]; lia. }
  assert (A7 : forall d, appended big (n * 4) (flat_map (fun p => raw big 4 (p_fluidType p)) ps) d = d ++ entry big c7).
  { intros d. apply appended_entry; [apply (flat_raw_map big 4 p_fluidType)|]. unfold c7. cbn [c_size c_count]. rewrite ?coords_count, ?map_length, ?upto_length. unfold n; cbn [List.length]; lia. }
  assert (A8 : forall d, appended big (n * 8) (flat_map (fun i => raw big 8 i) (indices ps)) d = d ++ entry big c8).
  { intros d. apply appended_entry; [reflexivity|]. unfold c8. cbn [c_size c_count]. rewrite ?coords_count, ?map_length, ?upto_length. unfold n; cbn [List.length]; lia. }
  assert (A9 : forall d, appended big (n * 8) (flat_map (fun i => raw big 8 (i + 1)) (indices ps)) d = d ++ entry big c9).
  { intros d. apply appended_entry; [apply (flat_raw_map big 8 (fun i => i + 1))|]. unfold c9. cbn [c_size c_count]. rewrite ?coords_count, ?map_length, ?upto_length. unfold n; cbn [List.length]; lia. }
  assert (A10 : forall d, appended big (n) (flat_map (fun _ => raw big 1 1) ps) d = d ++ entry big c10).
  { intros d. apply appended_entry; [apply (flat_raw_map big 1 (fun _ => 1))|]. unfold c10. cbn [c_size c_count]. rewrite ?coords_count, ?map_length, ?upto_length. unfold n; cbn [List.length]; lia. }
  assert (A11 : forall d, appended big (8) (raw_double big t) d = d ++ entry big c11).
  { intros d. apply appended_entry; [symmetry; apply app_nil_r|]. unfold c11. cbn [c_size c_count]. rewrite ?coords_count, ?map_length, ?upto_length. unfold n; cbn [List.length]; lia. }
  assert (LN : Z.of_nat (List.length ps) <= 715827882) by (unfold n in L; lia).
  assert (F0 : fits c0) by (apply fits_doubles; rewrite ?coords_count, ?map_length; cbn [List.length]; lia).
  assert (F1 : fits c1). { apply fits_ints; [lia|rewrite ?map_length, ?upto_length; lia|rewrite Forall_map; eapply Forall_impl; [|exact W]; intros p [I1 I2]; now apply int_words]. }
  assert (F2 : fits c2) by (apply fits_doubles; rewrite ?coords_count, ?map_length; cbn [List.length]; lia).
  assert (F3 : fits c3) by (apply fits_doubles; rewrite ?coords_count, ?map_length; cbn [List.length]; lia).
  assert (F4 : fits c4) by (apply fits_doubles; rewrite ?coords_count, ?map_length; cbn [List.length]; lia).
  assert (F5 : fits c5) by (apply fits_doubles; rewrite ?coords_count, ?map_length; cbn [List.length]; lia).
  assert (F6 : fits c6). { apply fits_ints; [lia|rewrite ?map_length, ?upto_length; lia|rewrite Forall_map; apply Forall_forall; intros p _; destruct (p_bc p); vm_compute; split; congruence]. }
  assert (F7 : fits c7). { apply fits_ints; [lia|rewrite ?map_length, ?upto_length; lia|rewrite Forall_map; eapply Forall_impl; [|exact W]; intros p [I1 I2]; now apply int_words]. }
  assert (F8 : fits c8). { apply fits_ints; [lia|rewrite ?map_length, ?upto_length; lia|apply upto_words; unfold n in L; lia]. }
  assert (F9 : fits c9). { apply fits_ints; [lia|rewrite ?map_length, ?upto_length; lia|apply upto_words; unfold n in L; lia]. }
  assert (F10 : fits c10). { apply fits_ints; [lia|rewrite ?map_length, ?upto_length; lia|rewrite Forall_map; apply Forall_forall; intros p _; vm_compute; split; congruence]. }
  assert (F11 : fits c11) by (apply fits_doubles; rewrite ?coords_count, ?map_length; cbn [List.length]; lia).
  rewrite A0, A1, A2, A3, A4, A5, A6, A7, A8, A9, A10, A11.
  set (d0 := [] : list ascii).
  set (d1 := d0 ++ entry big c0).
  set (d2 := d1 ++ entry big c1).
  set (d3 := d2 ++ entry big c2).
  set (d4 := d3 ++ entry big c3).
  set (d5 := d4 ++ entry big c4).
  set (d6 := d5 ++ entry big c5).
  set (d7 := d6 ++ entry big c6).
  set (d8 := d7 ++ entry big c7).
  set (d9 := d8 ++ entry big c8).
  set (d10 := d9 ++ entry big c9).
  set (d11 := d10 ++ entry big c10).
  set (d12 := d11 ++ entry big c11).
  exists (appended_lines "Float64" "Position" 3 d0 ++ [lit "</Points>"; lit "<PointData>"] ++ appended_lines "Int32" "Particle Type" 1 d1 ++ appended_lines "Float64" "Velocity" 3 d2 ++ appended_lines "Float64" "Pressure" 1 d3 ++ appended_lines "Float64" "Number Density" 1 d4 ++ appended_lines "Float64" "Number Density Ratio" 1 d5 ++ appended_lines "Int32" "Boundary Condition" 1 d6 ++ appended_lines "Int32" "Fluid Type" 1 d7 ++ [lit "</PointData>"; lit "<Cells>"] ++ appended_lines "Int64" "connectivity" 1 d8 ++ appended_lines "Int64" "offsets" 1 d9 ++ appended_lines "UInt8" "types" 1 d10 ++ [lit "</Cells>"; lit "</Piece>"; lit "<FieldData>";
        lit "<DataArray type=" ++ quoted (lit "Float64") ++ lit " Name=" ++ quoted (lit "Time")
          ++ lit " NumberOfTuples=" ++ quoted (lit "1") ++ lit " format=" ++ quoted (lit "appended")
          ++ lit " offset=" ++ quoted (showZ (tellp d11)) ++ lit "/>";
        lit "</FieldData>"; lit "</UnstructuredGrid>"]), d12.
  split; [|split].
  - f_equal. rewrite <- ?app_assoc. cbn [app]. f_equal. rewrite (lines_text_cons (lit "_" ++ d12)). reflexivity.
  - repeat first [apply Forall_app; split | apply no_lines; closed_no].
    + do 2 (apply Forall_cons; [closed_no|]). apply Forall_nil.
    + do 2 (apply Forall_cons; [closed_no|]). apply Forall_nil.
    + do 3 (apply Forall_cons; [closed_no|]). apply Forall_cons; [|do 2 (apply Forall_cons; [closed_no|]); apply Forall_nil].
      do 9 (apply no_app; [closed_no|]). apply no_app; [|closed_no]. apply Forall_cons; [reflexivity|]. apply no_app; [apply showZ_no_nl|closed_no].
  - set (header := _ ++ _).
    assert (I0 : In (tag_of "Float64" "Position" "NumberOfComponents" "3" ">" (List.length d0)) header).
    { rewrite <- (tag_component "Float64" "Position" 3 "3" d0 eq_refl). unfold header. apply in_or_app; left; now left. }
    assert (I1 : In (tag_of "Int32" "Particle Type" "NumberOfComponents" "1" ">" (List.length d1)) header).
    { rewrite <- (tag_component "Int32" "Particle Type" 1 "1" d1 eq_refl). unfold header. do 2 (apply in_or_app; right). apply in_or_app; left; now left. }
    assert (I2 : In (tag_of "Float64" "Velocity" "NumberOfComponents" "3" ">" (List.length d2)) header).
    { rewrite <- (tag_component "Float64" "Velocity" 3 "3" d2 eq_refl). unfold header. do 3 (apply in_or_app; right). apply in_or_app; left; now left. }
    assert (I3 : In (tag_of "Float64" "Pressure" "NumberOfComponents" "1" ">" (List.length d3)) header).
    { rewrite <- (tag_component "Float64" "Pressure" 1 "1" d3 eq_refl). unfold header. do 4 (apply in_or_app; right). apply in_or_app; left; now left. }
    assert (I4 : In (tag_of "Float64" "Number Density" "NumberOfComponents" "1" ">" (List.length d4)) header).
    { rewrite <- (tag_component "Float64" "Number Density" 1 "1" d4 eq_refl). unfold header. do 5 (apply in_or_app; right). apply in_or_app; left; now left. }
    assert (I5 : In (tag_of "Float64" "Number Density Ratio" "NumberOfComponents" "1" ">" (List.length d5)) header).
    { rewrite <- (tag_component "Float64" "Number Density Ratio" 1 "1" d5 eq_refl). unfold header. do 6 (apply in_or_app; right). apply in_or_app; left; now left. }
    assert (I6 : In (tag_of "Int32" "Boundary Condition" "NumberOfComponents" "1" ">" (List.length d6)) header).
    { rewrite <- (tag_component "Int32" "Boundary Condition" 1 "1" d6 eq_refl). unfold header. do 7 (apply in_or_app; right). apply in_or_app; left; now left. }
    assert (I7 : In (tag_of "Int32" "Fluid Type" "NumberOfComponents" "1" ">" (List.length d7)) header).
    { rewrite <- (tag_component "Int32" "Fluid Type" 1 "1" d7 eq_refl). unfold header. do 8 (apply in_or_app; right). apply in_or_app; left; now left. }
    assert (I8 : In (tag_of "Int64" "connectivity" "NumberOfComponents" "1" ">" (List.length d8)) header).
    { rewrite <- (tag_component "Int64" "connectivity" 1 "1" d8 eq_refl). unfold header. do 10 (apply in_or_app; right). apply in_or_app; left; now left. }
    assert (I9 : In (tag_of "Int64" "offsets" "NumberOfComponents" "1" ">" (List.length d9)) header).
    { rewrite <- (tag_component "Int64" "offsets" 1 "1" d9 eq_refl). unfold header. do 11 (apply in_or_app; right). apply in_or_app; left; now left. }
    assert (I10 : In (tag_of "UInt8" "types" "NumberOfComponents" "1" ">" (List.length d10)) header).
    { rewrite <- (tag_component "UInt8" "types" 1 "1" d10 eq_refl). unfold header. do 12 (apply in_or_app; right). apply in_or_app; left; now left. }
    assert (I11 : In (tag_of "Float64" "Time" "NumberOfTuples" "1" "/>" (List.length d11)) header).
    { rewrite <- tag_time. unfold header. do 13 (apply in_or_app; right). right. right. right. now left. }
    clearbody header.
    apply (laid_cons big header d12 d0 (entry big c1 ++ entry big c2 ++ entry big c3 ++ entry big c4 ++ entry big c5 ++ entry big c6 ++ entry big c7 ++ entry big c8 ++ entry big c9 ++ entry big c10 ++ entry big c11) _ c0 _ F0); [unfold d12, d11, d10, d9, d8, d7, d6, d5, d4, d3, d2, d1; clear; rewrite <- ?app_assoc, ?app_nil_r; reflexivity|exact I0|]. fold d1.
    apply (laid_cons big header d12 d1 (entry big c2 ++ entry big c3 ++ entry big c4 ++ entry big c5 ++ entry big c6 ++ entry big c7 ++ entry big c8 ++ entry big c9 ++ entry big c10 ++ entry big c11) _ c1 _ F1); [unfold d12, d11, d10, d9, d8, d7, d6, d5, d4, d3, d2; clear; rewrite <- ?app_assoc, ?app_nil_r; reflexivity|exact I1|]. fold d2.
    apply (laid_cons big header d12 d2 (entry big c3 ++ entry big c4 ++ entry big c5 ++ entry big c6 ++ entry big c7 ++ entry big c8 ++ entry big c9 ++ entry big c10 ++ entry big c11) _ c2 _ F2); [unfold d12, d11, d10, d9, d8, d7, d6, d5, d4, d3; clear; rewrite <- ?app_assoc, ?app_nil_r; reflexivity|exact I2|]. fold d3.
    apply (laid_cons big header d12 d3 (entry big c4 ++ entry big c5 ++ entry big c6 ++ entry big c7 ++ entry big c8 ++ entry big c9 ++ entry big c10 ++ entry big c11) _ c3 _ F3); [unfold d12, d11, d10, d9, d8, d7, d6, d5, d4; clear; rewrite <- ?app_assoc, ?app_nil_r; reflexivity|exact I3|]. fold d4.
    apply (laid_cons big header d12 d4 (entry big c5 ++ entry big c6 ++ entry big c7 ++ entry big c8 ++ entry big c9 ++ entry big c10 ++ entry big c11) _ c4 _ F4); [unfold d12, d11, d10, d9, d8, d7, d6, d5; clear; rewrite <- ?app_assoc, ?app_nil_r; reflexivity|exact I4|]. fold d5.
    apply (laid_cons big header d12 d5 (entry big c6 ++ entry big c7 ++ entry big c8 ++ entry big c9 ++ entry big c10 ++ entry big c11) _ c5 _ F5); [unfold d12, d11, d10, d9, d8, d7, d6; clear; rewrite <- ?app_assoc, ?app_nil_r; reflexivity|exact I5|]. fold d6.
    apply (laid_cons big header d12 d6 (entry big c7 ++ entry big c8 ++ entry big c9 ++ entry big c10 ++ entry big c11) _ c6 _ F6); [unfold d12, d11, d10, d9, d8, d7; clear; rewrite <- ?app_assoc, ?app_nil_r; reflexivity|exact I6|]. fold d7.
    apply (laid_cons big header d12 d7 (entry big c8 ++ entry big c9 ++ entry big c10 ++ entry big c11) _ c7 _ F7); [unfold d12, d11, d10, d9, d8; clear; rewrite <- ?app_assoc, ?app_nil_r; reflexivity|exact I7|]. fold d8.
    apply (laid_cons big header d12 d8 (entry big c9 ++ entry big c10 ++ entry big c11) _ c8 _ F8); [unfold d12, d11, d10, d9; clear; rewrite <- ?app_assoc, ?app_nil_r; reflexivity|exact I8|]. fold d9.
    apply (laid_cons big header d12 d9 (entry big c10 ++ entry big c11) _ c9 _ F9); [unfold d12, d11, d10; clear; rewrite <- ?app_assoc, ?app_nil_r; reflexivity|exact I9|]. fold d10.
    apply (laid_cons big header d12 d10 (entry big c11) _ c10 _ F10); [unfold d12, d11; clear; rewrite <- ?app_assoc, ?app_nil_r; reflexivity|exact I10|]. fold d11.
    apply (laid_cons big header d12 d11 ([]) _ c11 _ F11); [unfold d12; clear; rewrite <- ?app_assoc, ?app_nil_r; reflexivity|exact I11|]. fold d12.
    reflexivity.
Qed.

Lemma head_nl big n : Forall (no nl) (vtu_head big n).
Proof. apply (Forall_impl _ (fun l (H : quiet l) => proj1 H) (quiet_head big n)). Qed.
Lemma binary_refused dbg rho big t n0 ps file : Forall (fun p => in_int (p_type p) = true /\ in_int (p_fluidType p) = true) ps ->
  toVtuBinary big t n0 ps = Ok file -> vtu_load dbg rho file = Exit (-1).
Proof.
  intros W E. assert (L : Z.of_nat (List.length ps) * 3 <= int_max).
  { unfold toVtuBinary in E. destruct (cint (Z.of_nat (List.length ps) * 3)) eqn:C; cbn [bind] in E; try discriminate. apply cint_inv in C.
    destruct C as [_ C]. unfold in_int in C. rewrite andb_true_iff, !Z.leb_le in C. tauto. }
  destruct (binary_layout big t n0 ps W L) as (header & data & E' & N & _). rewrite E' in E.
  match type of E with Ok (lines_text ?x ++ ?y) = _ => set (body := y) in E; set (ls := x) in E end. clearbody body.
  assert (E2 : file = lines_text ls ++ body) by (symmetry; apply (f_equal (fun o => match o with Ok a => a | _ => file end) E)). clear E. rewrite E2. clear E2 file.
  unfold vtu_load. assert (A : forall fuel, (List.length ls < fuel)%nat -> any_line fuel (lit "<AppendedData") (mkIn (lines_text ls ++ body) false) = Ok true).
  { intros fuel LF. unfold ls in *. rewrite app_assoc in *. apply any_true; [|vm_compute; reflexivity|exact LF].
    apply Forall_app. split; [apply Forall_app; split; [apply head_nl|exact N]|]. apply Forall_cons; [closed_no|apply Forall_nil]. }
  cbv zeta. rewrite A; [reflexivity|].
  pose proof (lines_length ls). rewrite app_length. lia.
Qed.
Lemma vtu_overflow big t n0 ps : int_max < Z.of_nat (List.length ps) * 3 -> toVtuBinary big t n0 ps = Undef IntOverflow.
Proof.
  intros L. unfold toVtuBinary, cint. replace (in_int (Z.of_nat (List.length ps) * 3)) with false; [reflexivity|].
  symmetry. unfold in_int. rewrite andb_false_iff. right. apply Z.leb_gt. exact L.
Qed.
