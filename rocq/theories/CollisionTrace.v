(** * The collision stage as a sequence of pair collisions, for every number type *)
From Verif Require Export StageFacts Spec.
From Coq Require Import PeanoNat.
Open Scope Z_scope.

Section Trace.
Context {N : Num}.

Definition pair_step (s : settings) (e : nat * neighbor) (ps : list particle) : outcome (list particle) := collide s (fst e) (snd e) ps.

(** same types, ids and lists *)
Definition keep (p p' : particle) : Prop := p_type p' = p_type p /\ p_id p' = p_id p /\ p_nbrs p' = p_nbrs p.

Lemma keep_refl p : keep p p.
Proof. unfold keep; auto. Qed.
Lemma keep_trans p q r : keep p q -> keep q r -> keep p r.
Proof. unfold keep. intros (A & B & C) (D & E & F). repeat split; congruence. Qed.

Lemma collide_keep s i nb ps ps' : collide s i nb ps = Ok ps' -> Forall2 keep ps ps'.
Proof.
  unfold collide. intros H. binds H. binds H.
  destruct (_ && _); [inv H; apply Forall2_same, keep_refl|].
  destruct (nlt _ _); [|inv H; apply Forall2_same, keep_refl].
  binds H. binds H. binds H.
  apply (vmod_R _ keep_refl) in E1, E2, E3, H; try (intros; unfold keep; simpl; auto).
  repeat (eapply Forall2_trans; [apply keep_trans| |]; eauto).
Qed.

Definition block (ps : list particle) (i : nat) : list (nat * neighbor) :=
  match nth_error ps i with
  | Some p => if is_type p Fluid then map (pair i) (p_nbrs p) else []
  | None => []
  end.

Lemma foldM_map {A B S} (f : A -> S -> outcome S) (g : B -> A) l s : foldM f (map g l) s = foldM (fun b => f (g b)) l s.
Proof. revert s. induction l; simpl; intros; auto. destruct (f (g a) s); simpl; auto. Qed.

Lemma keep_nth ps w i p : Forall2 keep ps w -> nth_error w i = Some p -> exists p0, nth_error ps i = Some p0 /\ keep p0 p.
Proof. intros F H. destruct (Forall2_nth_r _ _ _ _ _ F H) as (p0 & ? & ?). eauto. Qed.

Lemma collision1_block s i ps w w' : Forall2 keep ps w -> collision1 s i w = Ok w' -> foldM (pair_step s) (block ps i) w = Ok w'.
Proof.
  intros F H. unfold collision1 in H. binds H. apply vget_nat_inv in E.
  destruct (keep_nth _ _ _ _ F E) as (p0 & H0 & (T & I & L)). unfold block. rewrite H0.
  unfold is_type in *. rewrite T in H. destruct (p_type p0 =? Fluid); simpl in H.
  - rewrite foldM_map. rewrite L in H. exact H.
  - exact H.
Qed.

Lemma foldM_keep s tr w w' : foldM (pair_step s) tr w = Ok w' -> Forall2 keep w w'.
Proof. apply (foldM_R _ keep_refl keep_trans). intros x t t'. apply collide_keep. Qed.

Lemma collision_flat s ps l w w' : Forall2 keep ps w -> foldM (collision1 s) l w = Ok w' ->
  foldM (pair_step s) (flat_map (block ps) l) w = Ok w'.
Proof.
  revert w. induction l as [|i l IH]; simpl; intros w F H; auto.
  binds H. apply (collision1_block s i ps w r F) in E. rewrite foldM_app, E. simpl. apply IH; auto.
  eapply Forall2_trans; [apply keep_trans|exact F|]. eapply foldM_keep; eauto.
Qed.

(** pairs that are acted upon *)
Definition acts (s : settings) (ps : list particle) (e : nat * neighbor) : bool :=
  match nth_error ps (fst e), nth_error ps (Z.to_nat (nb_id (snd e))) with
  | Some p, Some q => negb (skipped p q) && nlt (nb_dist (snd e)) (s_colDist s)
  | _, _ => false
  end.

Lemma foldM_acts s ps tr w w' : Forall2 keep ps w -> foldM (pair_step s) tr w = Ok w' ->
  foldM (pair_step s) (filter (acts s ps) tr) w = Ok w'.
Proof.
  revert w. induction tr as [|[i nb] tr IH]; simpl; intros w F H; auto. binds H.
  assert (K := collide_keep _ _ _ _ _ E). assert (F' : Forall2 keep ps r) by (eapply Forall2_trans; [apply keep_trans| |]; eauto).
  destruct (acts s ps (i, nb)) eqn:A.
  - simpl. rewrite E. simpl. auto.
  - assert (r = w); [|subst; auto]. clear H IH. unfold pair_step in E. simpl in E. unfold collide in E. binds E. binds E.
    apply vget_nat_inv in E0. apply vget_ok in E1. destruct E1 as [J E1].
    destruct (keep_nth _ _ _ _ F E0) as (p0 & H0 & (T & I & L)). destruct (keep_nth _ _ _ _ F E1) as (q0 & H1 & (T' & I' & L')).
    unfold acts in A. simpl in A. rewrite H0, H1 in A. unfold skipped, is_type in A. unfold is_type in E. rewrite T', I, I' in E.
    destruct ((p_type q0 =? Fluid) && (p_id p0 <=? p_id q0)); [inv E; auto|]. simpl in A. rewrite A in E. now inv E.
Qed.

Lemma NoDup_app_disj {A} (l l' : list A) : NoDup l -> NoDup l' -> (forall a, In a l -> In a l' -> False) -> NoDup (l ++ l').
Proof.
  induction 1; simpl; intros H' HD; auto. constructor.
  - rewrite in_app_iff. intros [h|h]; auto. eapply HD; eauto.
  - apply IHNoDup; eauto.
Qed.

Lemma C14_trace s ps ps' :
  indexed ps -> (forall p, In p ps -> p_type p = Fluid -> NoDup (map nb_id (p_nbrs p))) ->
  collision s ps = Ok ps' ->
  exists tr : list (nat * neighbor),
    foldM (fun e => collide s (fst e) (snd e)) tr ps = Ok ps' /\
    (forall i nb, In (i, nb) tr <->
       exists p q, nth_error ps i = Some p /\ p_type p = Fluid /\ In nb (p_nbrs p) /\
         nth_error ps (Z.to_nat (nb_id nb)) = Some q /\ (p_type q = Fluid -> nb_id nb < Z.of_nat i) /\
         nlt (nb_dist nb) (s_colDist s) = true) /\
    NoDup (map (fun e => (Z.min (Z.of_nat (fst e)) (nb_id (snd e)), Z.max (Z.of_nat (fst e)) (nb_id (snd e)))) tr).
Proof.
  intros ID ND H. unfold collision in H.
  apply (collision_flat s ps) in H; [|apply Forall2_same, keep_refl].
  set (full := flat_map (block ps) (seq 0 (List.length ps))) in *.
  assert (FI : forall i nb, In (i, nb) full <-> exists p, nth_error ps i = Some p /\ p_type p = Fluid /\ In nb (p_nbrs p)).
  { intros i nb. unfold full. rewrite in_flat_map. split.
    - intros (k & Hk & Hin). unfold block in Hin. destruct (nth_error ps k) as [p|] eqn:E; [|contradiction].
      destruct (is_type p Fluid) eqn:T; [|contradiction]. apply in_map_iff in Hin. destruct Hin as (nb' & E' & Hin). inv E'.
      exists p. split; auto. split; auto. now apply is_type_eq.
    - intros (p & Hp & T & Hin). exists i. split; [apply in_seq; assert (i < List.length ps)%nat by (apply nth_error_Some; congruence); lia|].
      unfold block. rewrite Hp, (proj2 (is_type_eq _ _) T). now apply in_map. }
  assert (NN : forall e, In e full -> 0 <= nb_id (snd e)).
  { clear - H. intros e He. destruct (in_split _ _ He) as (l1 & l2 & E). rewrite E in H. rewrite foldM_app in H.
    binds H. simpl in H. binds H. unfold pair_step, collide in E1. binds E1. binds E1. apply vget_ok in E3. tauto. }
  exists (filter (acts s ps) full). split; [|split].
  - change (foldM (pair_step s) (filter (acts s ps) full) ps = Ok ps'). apply foldM_acts; auto. apply Forall2_same, keep_refl.
  - intros i nb. rewrite filter_In, FI. unfold acts. simpl. split.
    + intros [(p & Hp & T & Hin) A]. rewrite Hp in A. destruct (nth_error ps (Z.to_nat (nb_id nb))) as [q|] eqn:Q; [|discriminate].
      apply andb_true_iff in A. destruct A as [A1 A2]. exists p, q. repeat split; auto. intros Tq.
      apply negb_true_iff in A1. unfold skipped in A1. rewrite (proj2 (is_type_eq _ _) Tq) in A1. simpl in A1. apply Z.leb_gt in A1.
      rewrite (ID _ _ Hp), (ID _ _ Q) in A1.
      assert (0 <= nb_id nb) by (apply (NN (i, nb)); apply FI; eauto). lia.
    + intros (p & q & Hp & T & Hin & Q & A1 & A2). split; [eauto|]. rewrite Hp, Q. apply andb_true_iff. split; auto.
      apply negb_true_iff. unfold skipped. destruct (is_type q Fluid) eqn:Tq; auto. simpl. apply Z.leb_gt.
      apply is_type_eq in Tq. specialize (A1 Tq). rewrite (ID _ _ Hp), (ID _ _ Q). assert (0 <= nb_id nb) by (apply (NN (i, nb)); apply FI; eauto). lia.

  - assert (ND1 : NoDup (map (fun e => (Z.of_nat (fst e), nb_id (snd e))) full)).
    { unfold full. cut (forall l, NoDup l -> NoDup (map (fun e => (Z.of_nat (fst e), nb_id (snd e))) (flat_map (block ps) l))).
      { intros K. apply K, seq_NoDup. }
      clear - ND. intros l HS. induction HS as [|i l Hi HS IH]; simpl; [constructor|].
      rewrite map_app. apply NoDup_app_disj; auto.
      - unfold block. destruct (nth_error ps i) as [p|] eqn:E; [|constructor]. destruct (is_type p Fluid) eqn:T; [|constructor].
        rewrite map_map. simpl. apply is_type_eq in T. specialize (ND p (nth_error_In _ _ E) T).
        clear - ND. induction (p_nbrs p) as [|nb nbs IH]; simpl in *; [constructor|]. inv ND. constructor; auto.
        rewrite in_map_iff. intros (nb' & E & Hin). inv E. apply H1. rewrite <- H0. now apply in_map.
      - intros [a b] H1 H2. apply in_map_iff in H1, H2. destruct H1 as ([i1 nb1] & E1 & H1), H2 as ([i2 nb2] & E2 & H2).
        simpl in *. inv E1. inv E2. unfold block in H1. destruct (nth_error ps i); [|contradiction]. destruct (is_type p Fluid); [|contradiction].
        apply in_map_iff in H1. destruct H1 as (? & E1 & _). inv E1. apply in_flat_map in H2. destruct H2 as (k & Hk & H2).
        unfold block in H2. destruct (nth_error ps k); [|contradiction]. destruct (is_type p0 Fluid); [|contradiction].
        apply in_map_iff in H2. destruct H2 as (? & E2 & _). inv E2. assert (Ek : i2 = i1) by lia. subst i2. contradiction. }
    (* restrict to the acting pairs, then forget the order within a pair *)
    assert (ND2 : NoDup (filter (acts s ps) full)) by (apply NoDup_filter; eapply NoDup_map_inv; eauto).
    assert (INJ : forall e e', In e full -> In e' full -> (Z.of_nat (fst e), nb_id (snd e)) = (Z.of_nat (fst e'), nb_id (snd e')) -> e = e').
    { clear - ND1. induction full as [|x l IH]; simpl in *; [tauto|]. inv ND1. intros e e' [->|He] [->|He'] E; auto.
      - exfalso. apply H1. rewrite E. apply in_map_iff. eauto.
      - exfalso. apply H1. rewrite <- E. apply in_map_iff. eauto. }
    assert (G : forall l, NoDup l -> (forall e, In e l -> In e (filter (acts s ps) full)) ->
      NoDup (map (fun e => (Z.min (Z.of_nat (fst e)) (nb_id (snd e)), Z.max (Z.of_nat (fst e)) (nb_id (snd e)))) l)).
    2: { apply G; auto. }
    assert (LT : forall e, In e (filter (acts s ps) full) -> exists p q, nth_error ps (fst e) = Some p /\ p_type p = Fluid /\ nth_error ps (Z.to_nat (nb_id (snd e))) = Some q /\ (p_type q = Fluid -> nb_id (snd e) < Z.of_nat (fst e))).
    { intros [i nb] He. apply filter_In in He. destruct He as [He A]. pose proof He as He'. apply FI in He. destruct He as (p & Hp & T & Hin). unfold acts in A. simpl in *.
      rewrite Hp in A. destruct (nth_error ps (Z.to_nat (nb_id nb))) as [q|] eqn:Q; [|discriminate]. exists p, q. repeat split; auto. intros Tq.
      apply andb_true_iff in A. destruct A as [A _]. apply negb_true_iff in A. unfold skipped in A. rewrite (proj2 (is_type_eq _ _) Tq) in A. simpl in A. apply Z.leb_gt in A.
      rewrite (ID _ _ Hp), (ID _ _ Q) in A. assert (0 <= nb_id nb) by (apply (NN (i, nb)); auto). lia. }
    intros l NDl Hl. induction NDl as [|e l He NDl IH]; simpl; constructor; [|apply IH; intros; apply Hl; simpl; auto].
    rewrite in_map_iff. intros (e' & E & He'). apply He.
    assert (A := Hl e (or_introl eq_refl)). assert (A' := Hl e' (or_intror He')).
    destruct (LT _ A) as (p & q & Hp & Tp & Hq & L1). destruct (LT _ A') as (p' & q' & Hp' & Tp' & Hq' & L2).
    apply filter_In in A, A'. destruct A as [A _], A' as [A' _].
    assert (N1 := NN e A). assert (N2 := NN e' A'). destruct e as [i nb], e' as [i' nb']. simpl in *.
    assert (EE : Z.of_nat i = Z.of_nat i' /\ nb_id nb = nb_id nb' \/ Z.of_nat i = nb_id nb' /\ nb_id nb = Z.of_nat i') by (inv E; lia).
    destruct EE as [[E1 E2]|[E1 E2]].
    + rewrite (INJ (i, nb) (i', nb') A A'); auto. simpl. congruence.
    + exfalso. rewrite <- E1, Nat2Z.id in Hq'. rewrite E2, Nat2Z.id in Hq.
      assert (p_type q = Fluid) by congruence. assert (p_type q' = Fluid) by congruence.
      specialize (L1 H0). specialize (L2 H1). lia.
Qed.
End Trace.
