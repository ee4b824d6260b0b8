(** * Runs of bodies that are not compressed (C78) *)
From Coq Require Import Reals Lra PeanoNat Permutation.
From Verif Require Import MotionR CollisionR SymStepR ViscosityR StepR WholeR WeightR BodyR SpecBody.
Open Scope R_scope.
#[local] Remove Hints F64 : typeclass_instances.

Lemma vec_eqR (a b : vecR) : vx a = vx b -> vy a = vy b -> vz a = vz b -> a = b.
Proof. destruct a, b. simpl. congruence. Qed.
Lemma shift_euclid (x y D : vecR) : euclid (addR x D) (addR y D) = euclid x y.
Proof. unfold euclid. cbn [vx vy vz addR]. f_equal. change (@num Rnum) with R in *. ring. Qed.
Lemma shift_inj (x y D : vecR) : addR x D = addR y D -> x = y.
Proof.
  intros E. pose proof (f_equal vx E) as A. pose proof (f_equal vy E) as B. pose proof (f_equal vz E) as C. cbn [vx vy vz addR] in A, B, C.
  change (@num Rnum) with R in *. apply vec_eqR; change (@num Rnum) with R in *; lra.
Qed.
Lemma add_zeroR (x : vecR) : addR x zeroR = x.
Proof. apply vec_eqR; cbn [vx vy vz addR zeroR]; change (@num Rnum) with R in *; lra. Qed.
Lemma scale_zeroR (k : R) : scaleR k zeroR = zeroR.
Proof. apply vec_eqR; cbn [vx vy vz scaleR zeroR]; change (@num Rnum) with R in *; lra. Qed.
Lemma fallen_0 dt v g : fallen dt v g 0 = zeroR.
Proof. unfold fallen. apply vec_eqR; cbn [vx vy vz addR scaleR zeroR]; change (@num Rnum) with R in *; simpl INR; lra. Qed.
Lemma fallen_S dt v g k : fallen dt v g (Datatypes.S k) = addR (fallen dt v g k) (scaleR dt (addR (addR v (scaleR (INR k * dt) g)) (scaleR dt g))).
Proof. unfold fallen. rewrite S_INR. apply vec_eqR; cbn [vx vy vz addR scaleR]; change (@num Rnum) with R in *; field. Qed.
Lemma speed_S dt v g k : addR v (scaleR (INR (Datatypes.S k) * dt) g) = addR (addR v (scaleR (INR k * dt) g)) (scaleR dt g).
Proof. rewrite S_INR. apply vec_eqR; cbn [vx vy vz addR scaleR]; change (@num Rnum) with R in *; ringR. Qed.

(** ** any number of steps *)
Lemma steps_static S n m m' : steps S n m m' -> m_settings m' = m_settings m /\ m_gravity m' = m_gravity m /\ m_calc m' = m_calc m.
Proof.
  induction 1 as [|n m m1 m2 H (A & B & C) ST]; [auto|]. destruct (step_static _ _ _ ST) as (A' & B' & C' & _).
  split; [congruence|]. split; congruence.
Qed.
Lemma ride (S : @solver Rnum) K (Ds ws : nat -> vecR) n m m' : ready m -> exact_solver S -> regular (m_calc m) (s_reMax (m_settings m)) ->
  (forall p, In p (m_ps m) -> 0 < p_dens p) -> (forall p, p_type p = Fluid -> K p = true) -> steps S n m m' ->
  let s := m_settings m in
  (forall k, ws (Datatypes.S k) = addR (ws k) (scaleR (s_dt s) (m_gravity m)) /\ Ds (Datatypes.S k) = addR (Ds k) (scaleR (s_dt s) (ws (Datatypes.S k)))) ->
  (forall k, (k <= n)%nat -> good s (m_ps m) K (nominal (m_calc m)) (Ds k) (ws k)) -> ridden (m_ps m) (Ds 0%nat) (ws 0%nat) (m_ps m) ->
  ridden (m_ps m) (Ds n) (ws n) (m_ps m') /\
  ((0 < n)%nat -> forall i p p0, nth_error (m_ps m') i = Some p -> nth_error (m_ps m) i = Some p0 -> K p0 = true -> p_press p = 0).
Proof.
  intros RD EX RG DN FK H. cbv zeta. induction H as [m|n m m1 m2 H IH ST]; intros RC G R0.
  - split; [exact R0|lia].
  - specialize (IH RD RG DN RC (fun k Hk => G k (le_S _ _ Hk)) R0). destruct IH as [R _].
    destruct (steps_static _ _ _ _ H) as (ES & EG & EC). pose proof (steps_ready _ _ _ _ H RD) as RD1.
    assert (RG1 : regular (m_calc m1) (s_reMax (m_settings m1))) by (rewrite EC, ES; exact RG).
    pose proof (body_step S m1 m2 (m_ps m) K (Ds n) (ws n) RD1 EX RG1 DN FK ST) as B. cbv zeta in B. rewrite ES, EG, EC in B.
    destruct (RC n) as [E1 E2]. rewrite <- E1 in B. rewrite <- E2 in B.
    destruct (B (G n (le_S _ _ (le_n _))) (G (Datatypes.S n) (le_n _)) R) as [R' P]. split; [exact R'|]. intros _. exact P.
Qed.

(** ** a body in free fall *)
Definition is_fluid (p : partR) : bool := (p_type p =? Fluid)%Z.
Lemma sum_others_ext ps i (f g : nat -> partR -> R) : (forall j q, nth_error ps j = Some q -> j <> i -> p_type q <> Ghost -> f j q = g j q) -> sum_others ps i f = sum_others ps i g.
Proof.
  intros H. unfold sum_others. apply rsum_ext. intros j _. destruct (nth_error ps j) as [q|] eqn:E; [|reflexivity].
  destruct (Nat.eqb_spec j i); [reflexivity|]. destruct (Z.eqb_spec (p_type q) Ghost); [reflexivity|]. now apply H.
Qed.

Lemma falling (S : @solver Rnum) n (m m' : @mps Rnum) v : ready m -> exact_solver S -> regular (m_calc m) (s_reMax (m_settings m)) ->
  (forall p, In p (m_ps m) -> 0 < p_dens p) -> steps S n m m' ->
  let s := m_settings m in let g := m_gravity m in let ps := m_ps m in
  apart ps -> (forall p, In p ps -> p_type p = Fluid -> p_vel p = v) ->
  (forall i j p q, nth_error ps i = Some p -> nth_error ps j = Some q -> i <> j -> p_type p = Fluid -> p_type q = Fluid -> s_colDist s <= euclid (p_pos p) (p_pos q)) ->
  (forall i p, nth_error ps i = Some p -> p_type p = Fluid -> relaxed (s_reN s) (nominal (m_calc m)) ps i p) ->
  (forall k p, (k <= n)%nat -> In p ps -> p_type p = Fluid -> let x := addR (p_pos p) (fallen (s_dt s) v g k) in in_box (s_domain s) x /\
     forall q, In q ps -> p_type q <> Ghost -> p_type q <> Fluid -> s_reMax s <= euclid x (p_pos q)) ->
  forall i p, nth_error ps i = Some p -> p_type p = Fluid ->
  exists p', nth_error (m_ps m') i = Some p' /\ p_type p' = Fluid /\ p_vel p' = addR v (scaleR (INR n * s_dt s) g) /\
    p_pos p' = addR (p_pos p) (fallen (s_dt s) v g n) /\ ((0 < n)%nat -> p_press p' = 0).
Proof.
  intros RD EX RG DN H s g ps AP VE CL RX FR i p Hp Tp.
  assert (RM : 0 < s_reMax s) by exact (ready_reMax m RD).
  assert (RN : s_reN s <= s_reMax s) by (destruct RD as (_ & (_ & _ & _ & A & _) & _); fold s in A; lra).
  pose (Ds := fallen (s_dt s) v g). pose (ws := fun k => addR v (scaleR (INR k * s_dt s) g)).
  assert (FKt : forall q : partR, p_type q = Fluid -> is_fluid q = true) by (intros q T; unfold is_fluid; rewrite T; reflexivity).
  assert (KFt : forall q : partR, is_fluid q = true -> p_type q = Fluid) by (intros q T; now apply Z.eqb_eq in T).
  assert (KFf : forall q : partR, is_fluid q = false -> p_type q <> Fluid) by (intros q T; now apply Z.eqb_neq in T).
  assert (RC : forall k, ws (Datatypes.S k) = addR (ws k) (scaleR (s_dt s) g) /\ Ds (Datatypes.S k) = addR (Ds k) (scaleR (s_dt s) (ws (Datatypes.S k)))).
  { intros k. split; [apply speed_S|]. unfold ws. rewrite speed_S. apply fallen_S. }
  assert (FAR : forall k p q, (k <= n)%nat -> In p ps -> In q ps -> p_type p = Fluid -> p_type q <> Ghost -> p_type q <> Fluid -> s_reMax s <= gap (Ds k) p q).
  { intros k a b Hk Ha Hb Ta Gb Tb. unfold gap. rewrite (place_fluid _ _ Ta), (place_other _ _ Tb). now apply (FR k a Hk Ha Ta). }
  assert (GAP : forall k p q, p_type p = Fluid -> p_type q = Fluid -> gap (Ds k) p q = euclid (p_pos p) (p_pos q)).
  { intros k a b Ta Tb. unfold gap. rewrite (place_fluid _ _ Ta), (place_fluid _ _ Tb). apply shift_euclid. }
  assert (PO : forall x y : vecR, 0 < euclid x y -> x <> y).
  { intros x y P E. rewrite E in P. revert P. unfold euclid. rewrite !Rminus_diag_eq by reflexivity. simpl. rewrite !Rmult_0_l, !Rplus_0_l, sqrt_0. lra. }
  assert (G : forall k, (k <= n)%nat -> good s ps is_fluid (nominal (m_calc m)) (Ds k) (ws k)).
  { intros k Hk. constructor.
    - intros a Ha Ta. rewrite (place_fluid _ _ Ta). now apply (FR k a Hk Ha Ta).
    - intros a b pa pb Ha Hb N Ga Gb. assert (Ia := nth_error_In _ _ Ha). assert (Ib := nth_error_In _ _ Hb).
      destruct (Z.eq_dec (p_type pa) Fluid) as [Ta|Ta]; destruct (Z.eq_dec (p_type pb) Fluid) as [Tb|Tb].
      + rewrite (place_fluid _ _ Ta), (place_fluid _ _ Tb). intros E. apply shift_inj in E. exact (AP a b pa pb Ha Hb N Ga Gb E).
      + apply PO. specialize (FAR k pa pb Hk Ia Ib Ta Gb Tb). unfold gap in FAR. lra.
      + intros E. symmetry in E. revert E. apply PO. specialize (FAR k pb pa Hk Ib Ia Tb Ga Ta). unfold gap in FAR. lra.
      + rewrite (place_other _ _ Ta), (place_other _ _ Tb). exact (AP a b pa pb Ha Hb N Ga Gb).
    - intros a b Ha Hb Ka Kb Gb _. apply FAR; auto.
    - intros a b Ha Hb Ta Tb Gb. left. now apply FAR.
    - intros a b pa pb Ha Hb N Ta Gb. destruct (Z.eq_dec (p_type pb) Fluid) as [Tb|Tb].
      + right. rewrite (GAP k pa pb Ta Tb). exact (CL a b pa pb Ha Hb N Ta Tb).
      + left. apply FAR; eauto using nth_error_In.
    - intros a pa Ha Ka. apply KFt in Ka. eapply Rle_trans; [apply Req_le|exact (RX a pa Ha Ka)]. apply sum_others_ext. intros b q Hb N Gq.
      destruct (Z.eq_dec (p_type q) Fluid) as [Tq|Tq]; [now rewrite (GAP k pa q Ka Tq)|].
      rewrite (w_far _ (gap (Ds k) pa q)) by (eapply Rle_trans; [exact RN|]; apply FAR; eauto using nth_error_In).
      symmetry. apply w_far. eapply Rle_trans; [exact RN|]. specialize (FAR 0%nat pa q (Nat.le_0_l _) (nth_error_In _ _ Ha) (nth_error_In _ _ Hb) Ka Gq Tq).
      unfold gap in FAR. rewrite (place_fluid _ _ Ka), (place_other _ _ Tq) in FAR. unfold Ds in FAR. rewrite fallen_0, add_zeroR in FAR. exact FAR. }
  assert (R0 : ridden ps (Ds 0%nat) (ws 0%nat) ps).
  { split; [reflexivity|]. intros a q Ha. exists q. split; [exact Ha|]. split; [reflexivity|]. split.
    - unfold place, Ds. rewrite fallen_0. destruct (p_type q =? Fluid)%Z; [now rewrite add_zeroR|reflexivity].
    - split; intros T; [|auto]. split; [exact T|]. rewrite (VE q (nth_error_In _ _ Ha) T). unfold ws. simpl INR.
      apply vec_eqR; cbn [vx vy vz addR scaleR]; change (@num Rnum) with R in *; lra. }
  destruct (ride S is_fluid Ds ws n m m' RD EX RG DN FKt H RC G R0) as [[L R] P].
  destruct (R i p Hp) as (p' & Hp' & _ & E & A & _). destruct (A Tp) as [T' V']. exists p'. split; [exact Hp'|]. split; [exact T'|]. split; [exact V'|].
  split; [rewrite E; apply (place_fluid _ _ Tp)|]. intros N. exact (P N i p' p Hp' Hp (FKt p Tp)).
Qed.

(** ** a body at rest *)
Definition counts (p : partR) : bool := negb (p_type p =? Ghost)%Z && negb (p_type p =? DummyWall)%Z.
Lemma resting (S : @solver Rnum) n (m m' : @mps Rnum) : ready m -> exact_solver S -> regular (m_calc m) (s_reMax (m_settings m)) ->
  (forall p, In p (m_ps m) -> 0 < p_dens p) -> steps S n m m' ->
  let s := m_settings m in let ps := m_ps m in
  apart ps -> m_gravity m = zeroR -> (forall p, In p ps -> p_type p <> Ghost -> p_vel p = zeroR) ->
  (forall p, In p ps -> p_type p = Fluid -> in_box (s_domain s) (p_pos p)) ->
  (forall i j p q, nth_error ps i = Some p -> nth_error ps j = Some q -> i <> j -> p_type p = Fluid -> p_type q <> Ghost -> s_colDist s <= euclid (p_pos p) (p_pos q)) ->
  (forall i p, nth_error ps i = Some p -> p_type p <> Ghost -> p_type p <> DummyWall -> relaxed (s_reN s) (nominal (m_calc m)) ps i p) ->
  forall i p, nth_error ps i = Some p -> p_type p <> Ghost ->
  exists p', nth_error (m_ps m') i = Some p' /\ p_vel p' = zeroR /\ p_pos p' = p_pos p /\ (p_type p = Fluid -> p_type p' = Fluid) /\
    ((0 < n)%nat -> p_type p <> DummyWall -> p_press p' = 0).
Proof.
  intros RD EX RG DN H s ps AP GZ VE BX CL RX i p Hp Tp.
  pose (Z0 := fun _ : nat => zeroR).
  assert (FKt : forall q : partR, p_type q = Fluid -> counts q = true) by (intros q T; unfold counts; rewrite T; reflexivity).
  assert (KT : forall q : partR, counts q = true <-> p_type q <> Ghost /\ p_type q <> DummyWall).
  { intros q. unfold counts. rewrite andb_true_iff, !negb_true_iff, !Z.eqb_neq. tauto. }
  assert (PL : forall q, place zeroR q = p_pos q) by (intros q; unfold place; destruct (p_type q =? Fluid)%Z; [apply add_zeroR|reflexivity]).
  assert (RC : forall k, Z0 (Datatypes.S k) = addR (Z0 k) (scaleR (s_dt s) (m_gravity m)) /\ Z0 (Datatypes.S k) = addR (Z0 k) (scaleR (s_dt s) (Z0 (Datatypes.S k)))).
  { intros k. unfold Z0. rewrite GZ, scale_zeroR, add_zeroR. auto. }
  assert (G : forall k, (k <= n)%nat -> good s ps counts (nominal (m_calc m)) (Z0 k) (Z0 k)).
  { intros k _. unfold Z0. constructor.
    - intros a Ha Ta. rewrite PL. now apply BX.
    - intros a b pa pb Ha Hb N Ga Gb. rewrite !PL. exact (AP a b pa pb Ha Hb N Ga Gb).
    - intros a b Ha Hb _ Kb Gb Db. exfalso. assert (X : counts b = true) by (apply KT; auto). congruence.
    - intros a b Ha Hb Ta Tb Gb. right. now apply VE.
    - intros a b pa pb Ha Hb N Ta Gb. right. unfold gap. rewrite !PL. exact (CL a b pa pb Ha Hb N Ta Gb).
    - intros a pa Ha Ka. apply KT in Ka as [K1 K2]. eapply Rle_trans; [apply Req_le|exact (RX a pa Ha K1 K2)]. apply sum_others_ext. intros b q Hb N Gq. unfold gap. now rewrite !PL. }
  assert (R0 : ridden ps (Z0 0%nat) (Z0 0%nat) ps).
  { split; [reflexivity|]. intros a q Ha. exists q. split; [exact Ha|]. split; [reflexivity|]. split; [symmetry; apply PL|]. split; intros T; [|auto].
    split; [exact T|]. apply (VE q (nth_error_In _ _ Ha)). rewrite T. discriminate. }
  destruct (ride S counts Z0 Z0 n m m' RD EX RG DN FKt H RC G R0) as [[L R] P].
  destruct (R i p Hp) as (p' & Hp' & _ & E & A & B). exists p'. split; [exact Hp'|]. split; [|split; [rewrite E; apply PL|split]].
  - destruct (Z.eq_dec (p_type p) Fluid) as [T|T]; [now apply A|]. rewrite (proj1 (B T)). exact (VE p (nth_error_In _ _ Hp) Tp).
  - intros T. now apply A.
  - intros N T. apply (P N i p' p Hp' Hp). now apply KT.
Qed.

(** ** pieces of the lattice *)
Lemma rsum_incl {A} (f : A -> R) l1 : NoDup l1 -> forall l2, incl l1 l2 -> (forall a, In a l2 -> 0 <= f a) -> rsum (map f l1) <= rsum (map f l2).
Proof.
  induction 1 as [|x l1 NI ND IH]; intros l2 I P.
  - simpl. apply rsum_nonneg. intros y Hy. apply in_map_iff in Hy as (a & <- & Ha). now apply P.
  - destruct (in_split x l2 (I x (or_introl eq_refl))) as (u & w & ->).
    rewrite (rsum_perm (map f (u ++ x :: w)) (map f (x :: u ++ w))) by (apply Permutation_map; symmetry; apply Permutation_middle).
    simpl. apply Rplus_le_compat_l. apply IH.
    + intros y Hy. specialize (I y (or_intror Hy)). apply in_app_or in I as [I|[I|I]]; [apply in_or_app; auto|subst; contradiction|apply in_or_app; auto].
    + intros a Ha. apply P. apply in_app_or in Ha as [Ha|Ha]; apply in_or_app; [left|right; right]; assumption.
Qed.

Lemma lattice_relaxed b dim l0 re rv ps i p : (dim = 2 \/ dim = 3)%Z -> 0 < l0 -> l0 < re -> re <= 5 * l0 -> @newRefValues Rnum b dim l0 re = Ok rv ->
  apart ps -> on_lattice dim l0 ps -> nth_error ps i = Some p -> p_type p = Fluid ->
  (forall q, In q ps -> p_type q <> Ghost -> p_type q <> Fluid -> re <= euclid (p_pos p) (p_pos q)) -> relaxed re (rv_n0 rv) ps i p.
Proof.
  intros Hd Hl Hr H5 E AP (x & LA) Hp Tp FA.
  destruct (C09_lemma b dim l0 re Hd Hl Hr) as (rv' & E' & _ & _ & HN & _). rewrite E in E'. injection E' as <-.
  pose proof (ref_offsets_spec dim Hd) as LP. destruct (HN H5 (ref_offsets dim) LP) as [EN _]. unfold relaxed. rewrite EN. clear HN EN.
  destruct LP as (LN & LO & LI). destruct (LA p (nth_error_In _ _ Hp) Tp) as (c0 & Z0 & P0).
  pose (near := fun j => match nth_error ps j with Some q => negb (Nat.eqb j i) && (p_type q =? Fluid)%Z && (if Rlt_dec (euclid (p_pos p) (p_pos q)) re then true else false) | None => false end).
  pose (term := fun j => match nth_error ps j with Some q => w_spec re (euclid (p_pos p) (p_pos q)) | None => 0 end).
  assert (SE : sum_others ps i (fun _ q => w_spec re (euclid (p_pos p) (p_pos q))) = rsum (map term (filter near (seq 0 (List.length ps))))).
  { rewrite rsum_filter. unfold sum_others. apply rsum_ext. intros j _. unfold near, term. destruct (nth_error ps j) as [q|] eqn:Hq; [|reflexivity].
    destruct (Nat.eqb_spec j i) as [Ej|Nj]; [reflexivity|]. cbn [orb negb andb]. destruct (Z.eqb_spec (p_type q) Fluid) as [Tq|Tq].
    - rewrite Tq. cbn. destruct (Rlt_dec (euclid (p_pos p) (p_pos q)) re) as [C|C]; [reflexivity|]. apply w_far. lra.
    - cbn [andb]. destruct (Z.eqb_spec (p_type q) Ghost); [reflexivity|]. apply w_far. apply FA; auto. eapply nth_error_In; eassumption. }
  rewrite SE. clear SE.
  assert (W : forall c, w_spec re (lattice_dist l0 c) = w_spec re (lattice_dist l0 c)) by reflexivity.
  (* every near particle sits at an offset *)
  assert (AT : forall j, near j = true -> exists c q, nth_error ps j = Some q /\ j <> i /\ p_type q = Fluid /\ offset dim c /\ within 4 c /\ p_pos q = lattice_at l0 (p_pos p) c).
  { intros j Hj. unfold near in Hj. destruct (nth_error ps j) as [q|] eqn:Hq; [|discriminate]. apply andb_true_iff in Hj as [Hj C]. apply andb_true_iff in Hj as [Nj Tq].
    apply negb_true_iff, Nat.eqb_neq in Nj. apply Z.eqb_eq in Tq. destruct (Rlt_dec (euclid (p_pos p) (p_pos q)) re) as [D|]; [clear C|discriminate].
    destruct (LA q (nth_error_In _ _ Hq) Tq) as (c1 & Z1 & P1). destruct c0 as [[a b0] e], c1 as [[a1 b1] e1]. 
    exists (a1 - a, b1 - b0, e1 - e)%Z, q. 
    assert (PQ : p_pos q = lattice_at l0 (p_pos p) (a1 - a, b1 - b0, e1 - e)%Z).
    { rewrite P1, P0. unfold lattice_at. cbn [vx vy vz]. rewrite !minus_IZR. apply vec_eqR; cbn [vx vy vz]; change (@num Rnum) with R in *; ringR. }
    assert (NZ : (a1 - a, b1 - b0, e1 - e)%Z <> (0, 0, 0)%Z).
    { intros X. apply (AP j i q p Hq Hp Nj); [rewrite Tq; discriminate|rewrite Tp; discriminate|]. rewrite PQ, X. unfold lattice_at.
      apply vec_eqR; cbn [vx vy vz]; change (@num Rnum) with R in *; ringR. }
    split; [reflexivity|]. split; [exact Nj|]. split; [exact Tq|]. split; [split; [exact NZ|]|split; [|exact PQ]].
    - intros D2. specialize (Z0 D2). specialize (Z1 D2). cbn in *. lia.
    - assert (DD : lattice_dist l0 (a1 - a, b1 - b0, e1 - e)%Z < re) by (rewrite <- (lattice_at_dist l0 (p_pos p)) by exact Hl; rewrite <- PQ; exact D).
      assert (WD : forall c, within 4 c \/ ~ within 4 c) by (intros [[u1 u2] u3]; unfold within; lia).
      destruct (WD (a1 - a, b1 - b0, e1 - e)%Z) as [|NW]; [assumption|]. pose proof (lattice_outside l0 4 _ Hl ltac:(lia) NW) as LO2. change (IZR (4 + 1)) with 5 in LO2. lra. }
  assert (MK : forall J, NoDup J -> (forall j, In j J -> near j = true) -> exists C, NoDup C /\ incl C (ref_offsets dim) /\
    rsum (map term J) = rsum (map (fun c => w_spec re (lattice_dist l0 c)) C) /\
    (forall c, In c C -> exists j q, In j J /\ nth_error ps j = Some q /\ p_type q = Fluid /\ p_pos q = lattice_at l0 (p_pos p) c)).
  { induction 1 as [|j J NJ NDJ IH]; intros NE.
    - exists []. split; [constructor|]. split; [intros ? []|]. split; [reflexivity|intros ? []].
    - destruct (IH (fun k Hk => NE k (or_intror Hk))) as (C & NC & IC & SC & BC). destruct (AT j (NE j (or_introl eq_refl))) as (c & q & Hq & Nj & Tq & OC & WC & PQ).
      exists (c :: C). split; [constructor; [|exact NC]|].
      + intros IN. destruct (BC c IN) as (j2 & q2 & IJ & Hq2 & Tq2 & PQ2). assert (j <> j2) by (intros <-; contradiction).
        apply (AP j j2 q q2 Hq Hq2 H); [rewrite Tq; discriminate|rewrite Tq2; discriminate|congruence].
      + split; [intros y [<-|Hy]; [now apply LI|now apply IC]|]. split.
        * simpl. rewrite SC. f_equal. unfold term. rewrite Hq, PQ. now rewrite lattice_at_dist.
        * intros y [<-|Hy]; [exists j, q; split; [left; reflexivity|auto]|]. destruct (BC y Hy) as (j2 & q2 & A & B). exists j2, q2. split; [right; exact A|exact B]. }
  destruct (MK (filter near (seq 0 (List.length ps)))) as (C & NC & IC & SC & _).
  { apply NoDup_filter, seq_NoDup. }
  { intros j Hj. now apply filter_In in Hj. }
  rewrite SC. apply rsum_incl; [exact NC|exact IC|]. intros c Hc. apply w_nonneg, lattice_dist_pos; [exact Hl|]. now apply LO.
Qed.

Lemma lattice_spaced dim l0 ps i j p q : 0 < l0 -> apart ps -> on_lattice dim l0 ps -> nth_error ps i = Some p -> nth_error ps j = Some q -> i <> j ->
  p_type p = Fluid -> p_type q = Fluid -> l0 <= euclid (p_pos p) (p_pos q).
Proof.
  intros Hl AP (x & LA) Hp Hq N Tp Tq. destruct (LA p (nth_error_In _ _ Hp) Tp) as ([[a b] e] & _ & P0). destruct (LA q (nth_error_In _ _ Hq) Tq) as ([[a1 b1] e1] & _ & P1).
  assert (PQ : p_pos q = lattice_at l0 (p_pos p) (a1 - a, b1 - b, e1 - e)%Z).
  { rewrite P1, P0. unfold lattice_at. cbn [vx vy vz]. rewrite !minus_IZR. apply vec_eqR; cbn [vx vy vz]; change (@num Rnum) with R in *; ringR. }
  rewrite PQ, lattice_at_dist by exact Hl. apply lattice_ge1; [exact Hl|]. intros X.
  apply (AP j i q p Hq Hp (not_eq_sym N)); [rewrite Tq; discriminate|rewrite Tp; discriminate|]. rewrite PQ, X. unfold lattice_at.
  apply vec_eqR; cbn [vx vy vz]; change (@num Rnum) with R in *; ringR.
Qed.

Lemma falling_lattice (S : @solver Rnum) n (m m' : @mps Rnum) v : ready m -> exact_solver S -> regular (m_calc m) (s_reMax (m_settings m)) ->
  (forall p, In p (m_ps m) -> 0 < p_dens p) -> steps S n m m' ->
  let s := m_settings m in let g := m_gravity m in let ps := m_ps m in
  apart ps -> (forall p, In p ps -> p_type p = Fluid -> p_vel p = v) ->
  on_lattice (s_dim s) (s_l0 s) ps -> s_reN s <= 5 * s_l0 s -> s_colDist s <= s_l0 s -> rv_n0 (m_rvN m) <= nominal (m_calc m) ->
  (forall k p, (k <= n)%nat -> In p ps -> p_type p = Fluid -> let x := addR (p_pos p) (fallen (s_dt s) v g k) in in_box (s_domain s) x /\
     forall q, In q ps -> p_type q <> Ghost -> p_type q <> Fluid -> s_reMax s <= euclid x (p_pos q)) ->
  forall i p, nth_error ps i = Some p -> p_type p = Fluid ->
  exists p', nth_error (m_ps m') i = Some p' /\ p_type p' = Fluid /\ p_vel p' = addR v (scaleR (INR n * s_dt s) g) /\
    p_pos p' = addR (p_pos p) (fallen (s_dt s) v g n) /\ ((0 < n)%nat -> p_press p' = 0).
Proof.
  intros RD EX RG DN H s g ps AP VE LA R5 CD N0 FR.
  pose proof RD as (_ & (_ & DI & L0 & RN & _) & RV & _). fold s in DI, L0, RN, RV.
  apply (falling S n m m' v RD EX RG DN H AP VE); [| |exact FR].
  - intros i j p q Hp Hq N Tp Tq. eapply Rle_trans; [exact CD|]. exact (lattice_spaced _ _ ps i j p q L0 AP LA Hp Hq N Tp Tq).
  - intros i p Hp Tp. unfold relaxed. eapply Rle_trans; [|exact N0].
    apply (lattice_relaxed (s_asserts s) (s_dim s) (s_l0 s) (s_reN s) (m_rvN m) ps i p DI L0 ltac:(lra) R5 RV AP LA Hp Tp).
    intros q Hq Gq Tq. eapply Rle_trans; [apply RN|]. destruct (FR 0%nat p (Nat.le_0_l _) (nth_error_In _ _ Hp) Tp) as [_ F]. specialize (F q Hq Gq Tq).
    rewrite fallen_0, add_zeroR in F. exact F.
Qed.
