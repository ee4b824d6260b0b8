(** * C83 in doubles, and two drops of two particles, numbered alternately *)
From Coq Require Import PeanoNat String.
From Verif Require Import NeighborF NeighborThms StepFacts.
From Verif Require Export ApartRun StepCasesF.
Open Scope Z_scope.
#[local] Remove Hints Rnum : typeclass_instances.

Lemma searchable_F (re : f64) d : radiusF re -> proper_domainF d -> @searchable F64 re d.
Proof.
  intros RE PD ns ps ns' ps' U H. assert (G := used_shape _ _ _ _ U). split; [eapply searcher_ok_F; eauto|].
  intros p Hin L. pose proof G as G'. destruct G'. rewrite gs_bdom in *. rewrite gs_blen. eexists. eapply cell_F; eauto; [|now apply live_F_dom].
  destruct (nan (vx (p_pos p))) eqn:NX; [|destruct (nan (vy (p_pos p))) eqn:NY; [|destruct (nan (vz (p_pos p))) eqn:NZ; [|repeat split; assumption]]]; exfalso;
    (apply (C46_lemma re d ns ps p ns' ps' U Hin); [|intros (A & B & C); congruence|now apply inDomain_outside, live_F_dom|exact H]);
    apply live_not_ghost in L; unfold is_type in L; now apply Z.eqb_neq in L.
Qed.
Lemma group_run_F e S1 S2 k (m r m' : @mps F64) n0 c : radiusF (s_reMax (m_settings m)) -> proper_domainF (s_domain (m_settings m)) -> sound m -> sound r -> same_setup m r -> group e (m_ps m) (m_ps r) -> m_calc m = Explicit n0 c ->
  (forall j mj, (j < k)%nat -> steps S1 j m mj -> never_reached e (List.length (m_ps r)) mj) -> steps S1 k m m' ->
  exists r', steps S2 k r r' /\ same_setup m' r' /\ group e (m_ps m') (m_ps r') /\ ((0 < k)%nat -> same_group e (m_ps m') (m_ps r')).
Proof. intros RE PD. apply group_run. now apply searchable_F. Qed.

(** ** checking that the strangers stay away *)
Definition stranger_b (e : nat -> nat) (n j : nat) : bool := forallb (fun i => negb (Nat.eqb (e i) j)) (seq 0 n).
Lemma stranger_check e n j : stranger e n j -> stranger_b e n j = true.
Proof. intros H. apply forallb_forall. intros i I. apply in_seq in I. specialize (H i ltac:(lia)). destruct (Nat.eqb_spec (e i) j); [contradiction|reflexivity]. Qed.
Definition reach_b (re : f64) (d : @domain F64) (e : nat -> nat) (n : nat) (W : list partF) : bool :=
  forallb (fun i => forallb (fun j => negb (stranger_b e n j) ||
    match nth_error W (e i), nth_error W j with
    | Some p, Some q => negb (live d p) || negb (live d q) || (negb (@nlt F64 (separation p q) re) && negb (@nlt F64 (separation q p) re))
    | _, _ => true end) (seq 0 (List.length W))) (seq 0 n).
Lemma reach_check re d e n W : reach_b re d e n W = true -> @out_of_reach F64 re d e n W.
Proof.
  intros H i j p q I ST P Q LP LQ. unfold reach_b in H. rewrite forallb_forall in H. specialize (H i ltac:(apply in_seq; lia)). rewrite forallb_forall in H.
  assert (J : (j < List.length W)%nat) by (apply nth_error_Some; congruence). specialize (H j ltac:(apply in_seq; lia)). rewrite (stranger_check _ _ _ ST), P, Q in H. cbn [negb orb] in H.
  apply present_live in LP, LQ. rewrite LP, LQ in H. cbn [negb orb] in H. apply andb_prop in H. destruct H as (A & B). apply negb_true_iff in A, B. auto.
Qed.
Definition never_b (e : nat -> nat) (n : nat) (m : @mps F64) : bool :=
  let re := s_reMax (m_settings m) in let d := s_domain (m_settings m) in
  reach_b re d e n (m_ps m) &&
  match stepMove m with
  | Ok (n1, b) => reach_b re d e n b && match stepCollide m n1 b with Ok (_, c) => reach_b re d e n c | _ => true end
  | _ => true end.
Lemma never_check e n (m : @mps F64) : never_b e n m = true -> never_reached e n m.
Proof.
  unfold never_b, never_reached. intros H. apply andb_prop in H. destruct H as (A & H). split; [now apply reach_check|]. destruct (stepMove m) as [[n1 b]| | | | |]; try (split; intros; discriminate). apply andb_prop in H. destruct H as (B & H).
  split; [intros n1' b' E; injection E as <- <-; now apply reach_check|]. intros n1' b' n2 c E. injection E as <- <-. intros E. rewrite E in H. now apply reach_check.
Qed.
Fixpoint run_b (e : nat -> nat) (n k : nat) (m : @mps F64) : bool :=
  match k with O => true | S k => never_b e n m && match stepForward solver0 m with Ok m' => run_b e n k m' | _ => false end end.
Lemma run_check e n k : forall m, run_b e n k m = true -> (exists m', steps solver0 k m m') /\ forall j mj, (j < k)%nat -> steps solver0 j m mj -> never_reached e n mj.
Proof.
  assert (FRONT : forall j m m1 mj, stepForward solver0 m = Ok m1 -> steps solver0 j m1 mj -> steps solver0 (Datatypes.S j) m mj).
  { intros j m m1 mj H K. revert H. induction K as [m1|j m1 a b K IH HS]; intros H; [econstructor; [constructor|exact H]|econstructor; [apply IH; exact H|exact HS]]. }
  assert (BACK : forall j m mj, steps solver0 (Datatypes.S j) m mj -> exists m1, stepForward solver0 m = Ok m1 /\ steps solver0 j m1 mj).
  { induction j as [|j IH]; intros m mj H; inversion H as [|? ? a ? K HS]; subst.
    - inversion K; subst. exists mj. split; [exact HS|constructor].
    - destruct (IH _ _ K) as (m1 & A & B). exists m1. split; [exact A|]. econstructor; eauto. }
  induction k as [|k IH]; intros m H.
  - split; [exists m; constructor|lia].
  - cbn [run_b] in H. apply andb_prop in H. destruct H as (A & H). destruct (stepForward solver0 m) as [m1| | | | |] eqn:E; try discriminate. destruct (IH m1 H) as ((m' & R) & NV).
    split; [exists m'; eapply FRONT; eauto|]. intros [|j] mj J K; [inversion K; subst; now apply never_check|]. destruct (BACK _ _ _ K) as (m2 & E2 & K2). rewrite E in E2. injection E2 as <-. apply (NV j); [lia|exact K2].
Qed.

(** five particles closer than the particle distance, which push each other away, between a wall particle and a
    particle that falls *)
Definition drops7 : list partF :=
  [ pf 0 Wall c00 c00; pf 1 Fluid half half; pf 2 Fluid (bits 0x3fe06a7ef9db22d1) half; pf 3 Fluid (bits 0x3fdf2b020c49ba5e) half;
    pf 4 Fluid half (bits 0x3fe06a7ef9db22d1); pf 5 Fluid half (bits 0x3fdf2b020c49ba5e); pf 6 Fluid c00 half ].
Definition drop5 : list partF :=
  [ pf 0 Fluid half half; pf 1 Fluid (bits 0x3fe06a7ef9db22d1) half; pf 2 Fluid (bits 0x3fdf2b020c49ba5e) half;
    pf 3 Fluid half (bits 0x3fe06a7ef9db22d1); pf 4 Fluid half (bits 0x3fdf2b020c49ba5e) ].
Definition drops_machine (ps : list partF) : outcome (@mps F64) := factoryCreate fid fid c20 (settingsF "Explicit") ps.
Lemma drops7_indexed : indexed drops7.
Proof. intros [|[|[|[|[|[|[|[|i]]]]]]]] p H; simpl in H; inv H; reflexivity. Qed.
Lemma drop5_indexed : indexed drop5.
Proof. intros [|[|[|[|[|[|i]]]]]] p H; simpl in H; inv H; reflexivity. Qed.
Lemma drops7_rest : at_rest drops7.
Proof. intros p H. simpl in H. intuition (subst; reflexivity). Qed.
Lemma drop5_rest : at_rest drop5.
Proof. intros p H. simpl in H. intuition (subst; reflexivity). Qed.
Lemma some_inj {A} (a b : A) : Some a = Some b -> a = b.
Proof. congruence. Qed.
Lemma alike_pf (i j t : Z) (x y : f64) : p_type (pf i t x y) = p_type (pf j t x y) /\ p_pos (pf i t x y) = p_pos (pf j t x y) /\ p_vel (pf i t x y) = p_vel (pf j t x y) /\ p_dens (pf i t x y) = p_dens (pf j t x y).
Proof. split; [reflexivity|]. split; [reflexivity|]. split; reflexivity. Qed.
Lemma drops_group : @group F64 S drops7 drop5.
Proof.
  split; [intros; lia|]. intros [|[|[|[|[|i]]]]] p H; cbv [drop5 nth_error] in H; [| | | | |destruct i; discriminate H]; apply some_inj in H; subst p; eexists; (split; [reflexivity|apply alike_pf]).
Qed.
Lemma factory_setup {N : Num} fs fc pi s ps qs m r : factoryCreate fs fc pi s ps = Ok m -> factoryCreate fs fc pi s qs = Ok r -> same_setup m r.
Proof.
  unfold factoryCreate. intros A B. binds A. binds A. binds B. binds B. assert (r0 = r2) by congruence. subst r2. assert (r1 = r3) by congruence. subst r3. unfold newMPS in A, B. binds A. binds A. binds A. binds A. binds B. binds B. binds B. binds B. inv A. inv B.
  unfold same_setup. cbn. repeat split; congruence.
Qed.
Lemma drops_setup ps qs m r : drops_machine ps = Ok m -> drops_machine qs = Ok r -> same_setup m r.
Proof. unfold drops_machine. apply factory_setup. Qed.
Lemma drops_sound ps m : drops_machine ps = Ok m -> indexed ps -> at_rest ps -> sound m /\ m_ps m = ps /\ m_settings m = settingsF "Explicit".
Proof. unfold drops_machine. apply factory_sound. Qed.
(** the members push each other: the pressure of the middle one is positive and those beside it leave it *)
Definition moved_b (m m' : @mps F64) : bool :=
  match m_ps m, m_ps m' with
  | _ :: _ :: q :: _, _ :: p' :: q' :: _ => @nlt F64 c00 (p_press p') && @nlt F64 (vx (p_pos q)) (vx (p_pos q'))
  | _, _ => false end.
Definition drops_b (o : outcome (@mps F64)) (o2 : outcome (@mps F64)) : bool :=
  match o, o2 with
  | Ok m, Ok r => match m_calc m with Explicit _ _ => true | _ => false end && run_b S 5 2 m && match stepForward solver0 m with Ok m' => moved_b m m' | _ => false end
  | _, _ => false end.
Lemma drops_checked o o2 : drops_b o o2 = true -> exists m r m1, o = Ok m /\ o2 = Ok r /\ (exists n0 c, m_calc m = Explicit n0 c) /\ run_b S 5 2 m = true /\ stepForward solver0 m = Ok m1 /\ moved_b m m1 = true.
Proof.
  destruct o as [m| | | | |]; try discriminate. destruct o2 as [r| | | | |]; try discriminate. cbn [drops_b]. intros H. apply andb_prop in H. destruct H as (H & M). apply andb_prop in H. destruct H as (X & H).
  destruct (stepForward solver0 m) as [m1| | | | |] eqn:E1; try discriminate. exists m, r, m1. split; [reflexivity|]. split; [reflexivity|].
  destruct (m_calc m) as [|n0 c]; [discriminate|]. split; [eauto|]. split; [exact H|]. split; [exact E1|exact M].
Qed.
Lemma drops_run : drops_b (drops_machine drops7) (drops_machine drop5) = true.
Proof. vm_cast_no_check (eq_refl true). Qed.
Lemma drops_case : exists (m r m1 m' : @mps F64) n0 c, m_ps m = drops7 /\ m_ps r = drop5 /\ radiusF (s_reMax (m_settings m)) /\ proper_domainF (s_domain (m_settings m)) /\ sound m /\ sound r /\ same_setup m r /\ group S (m_ps m) (m_ps r) /\ m_calc m = Explicit n0 c /\
  (forall j mj, (j < 2)%nat -> steps solver0 j m mj -> never_reached S (List.length (m_ps r)) mj) /\ steps solver0 2 m m' /\ stepForward solver0 m = Ok m1 /\ moved_b m m1 = true.
Proof.
  destruct (drops_checked _ _ drops_run) as (m & r & m1 & EM & ER & (n0 & c & K) & RB & E1 & MV). destruct (run_check _ _ _ _ RB) as ((m' & R) & NV).
  destruct (drops_sound _ _ EM drops7_indexed drops7_rest) as (SM & PM & TM). destruct (drops_sound _ _ ER drop5_indexed drop5_rest) as (SR & PR & TR).
  exists m, r, m1, m', n0, c. split; [exact PM|]. split; [exact PR|]. rewrite TM. split; [exact re31_radius|]. split; [exact dam_proper|]. split; [exact SM|]. split; [exact SR|]. split; [exact (drops_setup _ _ _ _ EM ER)|].
  split; [rewrite PM, PR; exact drops_group|]. split; [exact K|]. split; [rewrite PR; exact NV|]. split; [exact R|]. split; [exact E1|exact MV].
Qed.
