(** * The weight and reference value tests for all their inputs; exported files exist *)
From Coq Require Import Reals Lra.
From Flocq Require Import Core IEEE754.BinarySingleNaN Mult_error.
From Verif Require Import NeighborMargin WeightR WeightF Program.
From Verif Require Export SpecTests Physics.
Open Scope R_scope.

(** ** weight *)
Lemma half_exact (re : f64) : fin re = true -> b2 (-1021) <= F2r re -> rndF (F2r re / 2) = F2r re / 2.
Proof.
  intros F H. assert (P : 0 < b2 (-1021)) by apply bpow_gt_0. apply round_generic; [apply valid_rnd_N|].
  replace (F2r re / 2) with (F2r re * b2 (-1)) by (simpl; lra). apply mult_bpow_exact_FLT.
  - apply (generic_format_B2R 53 1024).
  - assert (M : (-1021 < mag radix2 (F2r re))%Z).
    { apply mag_gt_bpow. rewrite Rabs_pos_eq by lra. exact H. }
    unfold SpecFloat.emin. lia.
Qed.
Lemma one_F (w : f64) : fin w = true -> F2r w = 1 -> w = @nofZ F64 1.
Proof.
  intros F E. assert (E1 : F2r (@nofZ F64 1) = 1). { vm_compute. lra. }
  apply B2R_inj; [|reflexivity|now rewrite E, E1]. destruct w; try discriminate F; [|reflexivity]. exfalso. cbn in E. lra.
Qed.
Lemma weight_half dbg (re : f64) : fin re = true -> b2 (-1021) <= F2r re -> @weight F64 dbg (@ndiv F64 re (@nofZ F64 2)) re = Ok (@nofZ F64 1).
Proof.
  intros F H. assert (P : 0 < b2 (-1021)) by apply bpow_gt_0. assert (E2 : F2r (@nofZ F64 2) = 2) by (vm_compute; lra).
  assert (UB : Rabs (F2r re) < b2 1024) by apply (abs_B2R_lt_emax 53 1024).
  rewrite Rabs_pos_eq in UB by lra.
  destruct (Fdiv re (@nofZ F64 2)) as [V FD]; [lra|exact F| |].
  { rewrite E2, half_exact by auto. rewrite Rabs_pos_eq; lra. }
  rewrite E2, half_exact in V by auto. set (d := @ndiv F64 re (@nofZ F64 2)) in *. change (Bdiv mode_NE re (@nofZ F64 2)) with d in V, FD.
  unfold weight, cassert. assert (L : @nlt F64 (@nofZ F64 0) d = true). { apply Flt_fin; [reflexivity|exact FD|]. change (F2r (@nofZ F64 0)) with 0. lra. }
  rewrite L, andb_false_r. cbn [bind]. assert (G : @nle F64 re d = false). { destruct (@nle F64 re d) eqn:G; auto. apply Fle_fin in G; auto. lra. }
  rewrite G. f_equal. assert (Q : F2r re / F2r d = 2) by (rewrite V; field; lra).
  assert (R2 : rndF 2 = 2) by (replace 2 with (b2 1) by (simpl; lra); apply rndF_bpow; lia).
  assert (R1 : rndF 1 = 1) by (replace 1 with (b2 0) by (simpl; lra); apply rndF_bpow; lia).
  assert (B2 : 2 < b2 1024) by (apply Rle_lt_trans with (b2 1); [simpl; lra|apply bpow_lt; lia]).
  destruct (Fdiv re d) as [V1 F1]; [lra|exact F|rewrite Q, R2, Rabs_pos_eq; lra|]. rewrite Q, R2 in V1.
  assert (E1 : F2r (@nofZ F64 1) = 1) by (vm_compute; lra).
  destruct (Fminus (Bdiv mode_NE re d) (@nofZ F64 1)) as [V2 F2]; [exact F1|reflexivity| |].
  { rewrite V1, E1. replace (2 - 1) with 1 by lra. rewrite R1, Rabs_pos_eq; lra. }
  apply one_F; [exact F2|]. change (@nsub F64 (@ndiv F64 re d) (@nofZ F64 1)) with (Bminus mode_NE (Bdiv mode_NE re d) (@nofZ F64 1)). rewrite V2, V1, E1.
  replace (2 - 1) with 1 by lra. exact R1.
Qed.
Lemma weight_beyond dbg (re d : f64) : @nlt F64 (@nofZ F64 0) d = true -> @nle F64 re d = true -> @weight F64 dbg d re = Ok (@nofZ F64 0).
Proof. intros L G. unfold weight, cassert. rewrite L, andb_false_r. cbn [bind]. now rewrite G. Qed.

(** ** reference values *)
Definition count (k : Z) (L : list (Z * Z * Z)) : nat := List.length (filter (fun c => let '(a, b, e) := c in (a * a + b * b + e * e =? k)%Z) L).
Lemma by_shell (F : Z * Z * Z -> R) w1 w2 L : (forall c, In c L -> c <> (0, 0, 0)%Z) ->
  (forall a b e, (a * a + b * b + e * e = 1)%Z -> F (a, b, e) = w1) -> (forall a b e, (a * a + b * b + e * e = 2)%Z -> F (a, b, e) = w2) ->
  (forall a b e, (3 <= a * a + b * b + e * e)%Z -> F (a, b, e) = 0) -> rsum (map F L) = INR (count 1 L) * w1 + INR (count 2 L) * w2.
Proof.
  intros NZ H1 H2 H3. induction L as [|[[a b] e] L IH]; [unfold count; simpl; lra|].
  assert (IH' : rsum (map F L) = INR (count 1 L) * w1 + INR (count 2 L) * w2) by (apply IH; intros; apply NZ; now right).
  change (rsum (map F ((a, b, e) :: L))) with (F (a, b, e) + rsum (map F L)). rewrite IH'. unfold count. cbn [filter].
  assert (N : (a * a + b * b + e * e <> 0)%Z). { intros E. apply (NZ (a, b, e)); [now left|]. assert (a = 0 /\ b = 0 /\ e = 0)%Z as (-> & -> & ->) by nia. reflexivity. }
  assert (P : (0 <= a * a + b * b + e * e)%Z) by nia. set (k := (a * a + b * b + e * e)%Z) in *.
  destruct (Z.eqb_spec k 1) as [E|E]; [|destruct (Z.eqb_spec k 2) as [E'|E']].
  - replace (k =? 2)%Z with false by (rewrite E; reflexivity). cbn [List.length]. rewrite S_INR, (H1 a b e E). ring.
  - cbn [List.length]. rewrite S_INR, (H2 a b e E'). ring.
  - rewrite (H3 a b e) by (fold k; lia). ring.
Qed.
Lemma reference_exact dbg dim l0 : (dim = 2 \/ dim = 3)%Z -> 0 < l0 ->
  let re := 3 / 2 * l0 in let a := if (dim =? 2)%Z then 4 else 6 in let b := if (dim =? 2)%Z then 4 else 12 in
  let w1 := re / l0 - 1 in let w2 := re / (sqrt 2 * l0) - 1 in
  @newRefValues Rnum dbg dim l0 re = Ok (@mkRV Rnum (a * w1 + b * w2) ((a * (l0 * l0) * w1 + b * (2 * l0 * l0) * w2) / (a * w1 + b * w2))).
Proof.
  intros Hd Hl re a b w1 w2. assert (P := ref_offsets_spec dim Hd). destruct P as (ND & O & C).
  assert (S1 : sqrt 1 = 1) by apply sqrt_1. assert (S2 : 1 < sqrt 2 < 3 / 2).
  { split; [rewrite <- S1; apply sqrt_lt_1_alt; lra|]. replace (3 / 2) with (sqrt (9 / 4)); [apply sqrt_lt_1_alt; lra|]. replace (9 / 4) with (3 / 2 * (3 / 2)) by lra. apply sqrt_square. lra. }
  assert (SS : sqrt 2 * sqrt 2 = 2) by (apply sqrt_sqrt; lra).
  assert (W1 : w_spec re (l0 * sqrt 1) = w1). { unfold w_spec. rewrite S1, Rmult_1_r. destruct (Rlt_dec l0 re) as [|n]; [reflexivity|]. exfalso. apply n. unfold re. lra. }
  assert (W2 : w_spec re (l0 * sqrt 2) = w2). { unfold w_spec. rewrite (Rmult_comm l0). destruct (Rlt_dec (sqrt 2 * l0) re) as [|n]; [reflexivity|]. exfalso. apply n. unfold re. apply Rmult_lt_compat_r; lra. }
  assert (W3 : forall k, (3 <= k)%Z -> w_spec re (l0 * sqrt (IZR k)) = 0).
  { intros k Hk. unfold w_spec. destruct (Rlt_dec (l0 * sqrt (IZR k)) re) as [l|]; [|reflexivity]. exfalso. assert (3 / 2 <= sqrt (IZR k)).
    { replace (3 / 2) with (sqrt (9 / 4)); [apply sqrt_le_1_alt; apply IZR_le in Hk; lra|]. replace (9 / 4) with (3 / 2 * (3 / 2)) by lra. apply sqrt_square. lra. }
    unfold re in l. rewrite (Rmult_comm l0) in l. apply Rmult_lt_reg_r in l; lra. }
  assert (D1 : (l0 * sqrt 1) ^ 2 = l0 * l0) by (rewrite S1; ring). assert (D2 : (l0 * sqrt 2) ^ 2 = 2 * l0 * l0) by (replace ((l0 * sqrt 2) ^ 2) with (l0 * l0 * (sqrt 2 * sqrt 2)) by ring; rewrite SS; ring).
  assert (NZ : forall c, In c (ref_offsets dim) -> c <> (0, 0, 0)%Z) by (intros c Hc; apply O; auto).
  unfold newRefValues, cassert. replace ((dim =? 2) || (dim =? 3))%Z with true by (destruct Hd; subst; reflexivity). rewrite andb_false_r. cbn [bind].
  assert (LT : @nlt Rnum l0 re = true) by (apply Rlt_bool_true; unfold re; lra). rewrite LT, andb_false_r. cbn [bind].
  change (@nofZ Rnum 0) with 0. rewrite ref_loop by auto. cbn [bind].
  rewrite (by_shell (fun c => w_spec re (lattice_dist l0 c)) w1 w2 _ NZ); [|intros ? ? ? E; rewrite lattice_dist_z, E; auto..|intros ? ? ? E; rewrite lattice_dist_z; auto].
  rewrite (by_shell (fun c => lattice_dist l0 c ^ 2 * w_spec re (lattice_dist l0 c)) ((l0 * l0) * w1) ((2 * l0 * l0) * w2) _ NZ);
    [|intros ? ? ? E; rewrite lattice_dist_z, E, ?W1, ?W2, ?D1, ?D2; reflexivity..|intros ? ? ? E; rewrite lattice_dist_z, W3 by auto; ring].
  assert (CA : INR (count 1 (ref_offsets dim)) = a /\ INR (count 2 (ref_offsets dim)) = b).
  { unfold a, b. destruct Hd as [-> | ->]; cbn [Z.eqb Pos.eqb].
    - replace (count 1 (ref_offsets 2)) with 4%nat by (vm_compute; reflexivity). replace (count 2 (ref_offsets 2)) with 4%nat by (vm_compute; reflexivity). split; simpl; lra.
    - replace (count 1 (ref_offsets 3)) with 6%nat by (vm_compute; reflexivity). replace (count 2 (ref_offsets 3)) with 12%nat by (vm_compute; reflexivity). split; simpl; lra. }
  destruct CA as [-> ->]. cbn [ndiv Rnum]. rewrite !Rplus_0_l, <- !Rmult_assoc. reflexivity.
Qed.

(** ** exported files *)
Lemma export_exists big p (fs : filesystem) t n0 (ps : list Files.particle) : fs (parent p) = Some Folder -> fs p <> Some Folder ->
  write_file p (Ok (toProf t ps)) fs = (put fs p (File (toProf t ps)), Ok tt) /\
  write_file p (toVtu big false t n0 ps) fs = (put fs p (File (toVtuAscii big t n0 ps)), Ok tt).
Proof. intros A B. unfold write_file, toVtu. rewrite A. destruct (fs p) as [[c|]|] eqn:E; try congruence; split; reflexivity. Qed.
