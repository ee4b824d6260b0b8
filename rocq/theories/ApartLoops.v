(** * A group of particles among others that stay out of reach: collisions, minimum pressures and the search (C83) *)
From Coq Require Import PeanoNat.
From Verif Require Import StepFacts NeighborProps ExplicitFacts ResumeFacts SafetyFacts.
From Verif Require Export ApartFacts.
Open Scope Z_scope.

Section Loops.
Context {N : Num}.
Variable e : nat -> nat.
Notation linked := (linked e).
Notation piece := (piece e).
Notation lift := (lift e).
Notation carry := (carry e).

Definition frame (f : list particle -> outcome (list particle)) : Prop := forall w w', f w = Ok w' -> Forall2 net w w'.
Lemma fold_frame {X} (f : X -> list particle -> outcome (list particle)) xs : (forall x, frame (f x)) -> frame (foldM f xs).
Proof. intros H w w'. apply (foldM_R net net_refl net_trans). intros x. apply H. Qed.

Lemma collide_frame s i nb : frame (collide s i nb).
Proof.
  intros w w' H. unfold collide in H. binds H. binds H. destruct (_ && _); [inv H; apply Forall2_same, net_refl|]. destruct (nlt _ _); [|inv H; apply Forall2_same, net_refl].
  binds H. binds H. binds H. apply vmod_net in E1, E2, E3, H; try (intros; unfold net; auto).
  repeat (eapply Forall2_trans; [apply net_trans| |]; eauto).
Qed.
Lemma minp_pair_frame re i nb : frame (minp_pair re i nb).
Proof.
  intros w w' H. unfold minp_pair in H. binds H. binds H. destruct (ghost_or_dummy _); [inv H; apply Forall2_same, net_refl|]. destruct (_ <? _); [inv H; apply Forall2_same, net_refl|]. destruct (nlt _ _); [|inv H; apply Forall2_same, net_refl].
  binds H. apply vmod_net in E1, H; try (intros; unfold net; auto). eapply Forall2_trans; [apply net_trans| |]; eauto.
Qed.
Lemma collision1_frame s i : frame (collision1 s i).
Proof. intros w w' H. unfold collision1 in H. binds H. destruct (negb _); [inv H; apply Forall2_same, net_refl|]. revert H. apply fold_frame. intros nb. apply collide_frame. Qed.
Lemma minp1_frame re i : frame (minp1 re i).
Proof. intros w w' H. unfold minp1 in H. binds H. destruct (ghost_or_dummy _); [inv H; apply Forall2_same, net_refl|]. revert H. apply fold_frame. intros nb. apply minp_pair_frame. Qed.

(** a neighbour of a member, while the lists stay what they are *)
Definition neighbour_of (A : list particle) (i : nat) (nb : neighbor) : Prop := (i < List.length A)%nat /\ exists j, (j < List.length A)%nat /\ nb_id nb = Z.of_nat j.
Lemma neighbour_len A A' i nb : Forall2 net A A' -> neighbour_of A i nb -> neighbour_of A' i nb.
Proof. intros F. unfold neighbour_of. now rewrite (Forall2_length _ _ _ F). Qed.

(** *** one pair *)
Lemma pair_start W A i nb : linked W A -> neighbour_of A i nb -> exists j p q, nth_error A i = Some p /\ nth_error A j = Some q /\ nb_id nb = Z.of_nat j /\ nb_id (lift nb) = Z.of_nat (e j) /\
  vget A (Z.of_nat i) = Ok p /\ vget A (nb_id nb) = Ok q /\ vget W (Z.of_nat (e i)) = Ok (carry p) /\ vget W (nb_id (lift nb)) = Ok (carry q) /\
  p_id p = Z.of_nat i /\ p_id q = Z.of_nat j /\ p_id (carry p) = Z.of_nat (e i) /\ p_id (carry q) = Z.of_nat (e j).
Proof.
  intros L (I & j & J & E). destruct (nth_error_ext_length A i I) as (p & P). destruct (nth_error_ext_length A j J) as (q & Q). exists j, p, q. destruct (l_piece _ _ _ L) as (_ & PC).
  assert (E' : nb_id (lift nb) = Z.of_nat (e j)) by (unfold ApartFacts.lift; cbn [nb_id]; now rewrite E, Nat2Z.id).
  assert (IP := l_A _ _ _ L i p P). assert (IQ := l_A _ _ _ L j q Q).
  split; [exact P|]. split; [exact Q|]. split; [exact E|]. split; [exact E'|]. split; [now apply vget_nat|]. split; [rewrite E; now apply vget_nat|].
  split; [now apply vget_nat, PC|]. split; [rewrite E'; now apply vget_nat, PC|]. split; [exact IP|]. split; [exact IQ|]. unfold ApartFacts.carry. cbn [p_id]. rewrite IP, IQ, !Nat2Z.id. auto.
Qed.
Lemma linked_step W A W' A' fW fA : linked W A -> frame fW -> frame fA -> fW W = Ok W' -> fA A = Ok A' -> piece W' A' -> linked W' A'.
Proof. intros L FW FA HW HA P. eapply linked_net; eauto. Qed.

Lemma vmod_step (W A : list particle) i p (f g : particle -> particle) W' : piece W A -> nth_error A i = Some p -> (forall x, f (carry x) = carry (g x)) ->
  vmod W (Z.of_nat (e i)) f = Ok W' -> exists A', vmod A (Z.of_nat i) g = Ok A' /\ piece W' A' /\ (forall j q, nth_error A j = Some q -> exists q', nth_error A' j = Some q') /\ List.length A' = List.length A.
Proof.
  intros PC P C H. destruct (vmod_piece e W A i p f g W' PC P (C p) H) as (X & Y). exists (upd A i (g p)). split; [exact X|]. split; [exact Y|]. rewrite length_upd. split; [|reflexivity]. intros j q Q. rewrite nth_upd. destruct (Nat.eqb i j); [|eauto]. rewrite Q. eauto.
Qed.

Lemma collide_linked s W A W' i nb : linked W A -> neighbour_of A i nb -> collide s (e i) (lift nb) W = Ok W' -> exists A', collide s i nb A = Ok A' /\ linked W' A'.
Proof.
  intros L NB H. assert (H0 := H). destruct (pair_start W A i nb L NB) as (j & p & q & P & Q & E & E' & R1 & R2 & R3 & R4 & I1 & I2 & I3 & I4). destruct NB as (I & _). assert (J := some_lt _ _ _ Q).
  assert (RS := proj1 (l_piece _ _ _ L)). unfold collide in H |- *. rewrite R3, R4 in H. cbn [bind] in H. rewrite R1, R2. cbn [bind].
  change (is_type (carry q) Fluid) with (is_type q Fluid) in H. rewrite I3, I4 in H. rewrite I1, I2.
  assert (LE : (Z.of_nat (e i) <=? Z.of_nat (e j)) = (Z.of_nat i <=? Z.of_nat j)). { assert (M := mono e _ i j RS I J). destruct (Z.leb_spec (Z.of_nat (e i)) (Z.of_nat (e j))), (Z.leb_spec (Z.of_nat i) (Z.of_nat j)); lia. }
  rewrite LE in H. destruct (is_type q Fluid && _); [inv H; eauto|]. change (nb_dist (lift nb)) with (nb_dist nb) in H. destruct (nlt _ _); [|inv H; eauto].
  change (inverseDensity (carry p)) with (inverseDensity p) in H. change (inverseDensity (carry q)) with (inverseDensity q) in H. change (p_pos (carry p)) with (p_pos p) in H. change (p_pos (carry q)) with (p_pos q) in H.
  change (p_vel (carry p)) with (p_vel p) in H. change (p_vel (carry q)) with (p_vel q) in H. cbv zeta in H |- *. rewrite E' in H. rewrite E.
  binds H. binds H. binds H.
  destruct (vmod_step _ _ _ _ _ (fun x => set_vel x (vsub (p_vel x) _)) _ (l_piece _ _ _ L) P (fun x => eq_refl) E0) as (A1 & X1 & PC1 & G1 & L1). rewrite X1. cbn [bind].
  destruct (G1 j q Q) as (q1 & Q1). destruct (vmod_step _ _ _ _ _ (fun x => set_vel x (vadd (p_vel x) _)) _ PC1 Q1 (fun x => eq_refl) E1) as (A2 & X2 & PC2 & G2 & L2). rewrite X2. cbn [bind].
  destruct (G1 i p P) as (p1 & P1). destruct (G2 i p1 P1) as (p2 & P2). destruct (vmod_step _ _ _ _ _ (fun x => set_pos x (vsub (p_pos x) _)) _ PC2 P2 (fun x => eq_refl) E2) as (A3 & X3 & PC3 & G3 & L3). rewrite X3. cbn [bind].
  destruct (G2 j q1 Q1) as (q2 & Q2). destruct (G3 j q2 Q2) as (q3 & Q3). destruct (vmod_step _ _ _ _ _ (fun x => set_pos x (vadd (p_pos x) _)) _ PC3 Q3 (fun x => eq_refl) H) as (A4 & X4 & PC4 & G4 & L4). exists A4. split; [exact X4|].
  eapply linked_net; eauto; [apply (collide_frame s (e i) (lift nb) _ _ H0)|]. apply vmod_net in X1, X2, X3, X4; try (intros; unfold net; auto). repeat (eapply Forall2_trans; [apply net_trans| |]; eauto).
Qed.
Lemma minp_pair_linked re W A W' i nb : linked W A -> neighbour_of A i nb -> minp_pair re (e i) (lift nb) W = Ok W' -> exists A', minp_pair re i nb A = Ok A' /\ linked W' A'.
Proof.
  intros L NB H. assert (H0 := H). destruct (pair_start W A i nb L NB) as (j & p & q & P & Q & E & E' & R1 & R2 & R3 & R4 & I1 & I2 & I3 & I4). destruct NB as (I & _). assert (J := some_lt _ _ _ Q).
  assert (RS := proj1 (l_piece _ _ _ L)). unfold minp_pair in H |- *. rewrite R3, R4 in H. cbn [bind] in H. rewrite R1, R2. cbn [bind].
  change (ghost_or_dummy (carry q)) with (ghost_or_dummy q) in H. rewrite I3, I4 in H. rewrite I1, I2. destruct (ghost_or_dummy q); [inv H; eauto|].
  assert (LE : (Z.of_nat (e i) <? Z.of_nat (e j)) = (Z.of_nat i <? Z.of_nat j)). { assert (M := mono e _ j i RS J I). destruct (Z.ltb_spec (Z.of_nat (e i)) (Z.of_nat (e j))), (Z.ltb_spec (Z.of_nat i) (Z.of_nat j)); lia. }
  rewrite LE in H. destruct (_ <? _); [inv H; eauto|]. change (nb_dist (lift nb)) with (nb_dist nb) in H. destruct (nlt _ _); [|inv H; eauto].
  change (p_press (carry p)) with (p_press p) in H. change (p_press (carry q)) with (p_press q) in H. rewrite E' in H. rewrite E. binds H.
  destruct (vmod_step _ _ _ _ _ (fun x => set_minp x (nmin (p_minp x) _)) _ (l_piece _ _ _ L) P (fun x => eq_refl) E0) as (A1 & X1 & PC1 & G1 & L1). rewrite X1. cbn [bind].
  destruct (G1 j q Q) as (q1 & Q1). destruct (vmod_step _ _ _ _ _ (fun x => set_minp x (nmin (p_minp x) _)) _ PC1 Q1 (fun x => eq_refl) H) as (A2 & X2 & PC2 & G2 & L2). exists A2. split; [exact X2|].
  eapply linked_net; eauto; [apply (minp_pair_frame re (e i) (lift nb) _ _ H0)|]. apply vmod_net in X1, X2; try (intros; unfold net; auto). eapply Forall2_trans; [apply net_trans| |]; eauto.
Qed.
Lemma fold_linked (fW fA : neighbor -> list particle -> outcome (list particle)) i nbs : forall W A W',
  (forall nb, frame (fA nb)) -> (forall W A W' nb, linked W A -> neighbour_of A i nb -> fW (lift nb) W = Ok W' -> exists A', fA nb A = Ok A' /\ linked W' A') ->
  linked W A -> (forall nb, In nb nbs -> neighbour_of A i nb) -> foldM fW (map lift nbs) W = Ok W' -> exists A', foldM fA nbs A = Ok A' /\ linked W' A'.
Proof.
  induction nbs as [|nb nbs IH]; intros W A W' FR ST L NB H; cbn [map foldM] in *; [inv H; eauto|]. binds H. destruct (ST W A r nb L (NB nb (or_introl eq_refl)) E) as (A1 & X & L1). rewrite X. cbn [bind].
  apply (IH r A1 W'); auto. intros nb' I. eapply neighbour_len; [eapply FR; exact X|]. apply NB. now right.
Qed.

(** *** one stranger *)
Lemma collide_stranger s W A W' j nb : linked W A -> stranger e (List.length A) j -> (exists k, nb_id nb = Z.of_nat k /\ stranger e (List.length A) k) -> collide s j nb W = Ok W' -> linked W' A.
Proof.
  intros L SJ (k & K & SK) H. assert (H0 := H). eapply linked_net; [exact L|eapply collide_frame; exact H0|apply Forall2_same, net_refl|]. assert (PC := l_piece _ _ _ L). unfold collide in H. binds H. binds H. destruct (_ && _); [inv H; auto|]. destruct (nlt _ _); [|inv H; auto].
  rewrite K in H. binds H. binds H. binds H. eapply vmod_stranger; [|exact SK|exact H]. eapply vmod_stranger; [|exact SJ|exact E3]. eapply vmod_stranger; [|exact SK|exact E2]. eapply vmod_stranger; [exact PC|exact SJ|exact E1].
Qed.
Lemma minp_pair_stranger re W A W' j nb : linked W A -> stranger e (List.length A) j -> (exists k, nb_id nb = Z.of_nat k /\ stranger e (List.length A) k) -> minp_pair re j nb W = Ok W' -> linked W' A.
Proof.
  intros L SJ (k & K & SK) H. assert (H0 := H). eapply linked_net; [exact L|eapply minp_pair_frame; exact H0|apply Forall2_same, net_refl|]. assert (PC := l_piece _ _ _ L). unfold minp_pair in H. binds H. binds H. destruct (ghost_or_dummy _); [inv H; auto|]. destruct (_ <? _); [inv H; auto|]. destruct (nlt _ _); [|inv H; auto].
  rewrite K in H. binds H. eapply vmod_stranger; [|exact SK|exact H]. eapply vmod_stranger; [exact PC|exact SJ|exact E1].
Qed.

(** *** the loop over all *)
Lemma member_or_stranger n j : (exists i, (i < n)%nat /\ e i = j) \/ stranger e n j.
Proof.
  induction n as [|n [(i & I & E)|ST]]; [right; intros i I; lia|left; exists i; split; [lia|exact E]|]. destruct (Nat.eq_dec (e n) j) as [E|E]; [left; exists n; split; [lia|exact E]|right]. intros i I. destruct (Nat.eq_dec i n) as [->|]; [exact E|apply ST; lia].
Qed.
Lemma loop_linked (fW fA : nat -> list particle -> outcome (list particle)) W A W' :
  (forall i, frame (fA i)) ->
  (forall w a w' i, linked w a -> (i < List.length a)%nat -> fW (e i) w = Ok w' -> exists a', fA i a = Ok a' /\ linked w' a') ->
  (forall w a w' j, linked w a -> stranger e (List.length a) j -> fW j w = Ok w' -> linked w' a) ->
  linked W A -> foldM fW (seq 0 (List.length W)) W = Ok W' -> exists A', foldM fA (seq 0 (List.length A)) A = Ok A' /\ linked W' A'.
Proof.
  intros FR IN OUT L H. set (n := List.length A).
  assert (Q : exists c A', (c <= n)%nat /\ (forall i, (i < n)%nat -> ((i < c)%nat <-> (e i < 0 + List.length W)%nat)) /\ foldM fA (seq 0 c) A = Ok A' /\ linked W' A' /\ List.length A' = n).
  { revert H. apply (foldM_seq_inv (fun t w => exists c a, (c <= n)%nat /\ (forall i, (i < n)%nat -> ((i < c)%nat <-> (e i < t)%nat)) /\ foldM fA (seq 0 c) A = Ok a /\ linked w a /\ List.length a = n)).
    - exists O, A. split; [lia|]. split; [intros; lia|]. split; [reflexivity|]. auto.
    - intros t w w' _ (c & a & C & M & FA & LK & LN) HW. assert (RS := proj1 (l_piece _ _ _ LK)). rewrite LN in RS.
      destruct (member_or_stranger n t) as [(i & I & E)|ST].
      + assert (i = c). { destruct (lt_eq_lt_dec i c) as [[X|X]|X]; auto; exfalso; [apply M in X; [lia|exact I]|]. assert (X0 : (e c < t)%nat) by (rewrite <- E; apply RS; lia). apply M in X0; lia. }
        subst i. rewrite <- E in HW. destruct (IN w a w' c LK ltac:(lia) HW) as (a' & HA & LK'). exists (S c), a'. split; [lia|]. split.
        * intros i Hi. destruct (lt_eq_lt_dec i c) as [[X|X]|X]; [assert (e i < e c)%nat by (apply RS; lia); lia|subst; lia|assert (e c < e i)%nat by (apply RS; lia); lia].
        * rewrite seq_S, foldM_app, FA. cbn [bind foldM Nat.add]. rewrite HA. cbn [bind]. split; [reflexivity|]. split; [exact LK'|]. rewrite <- (Forall2_length _ _ _ (FR c _ _ HA)). exact LN.
      + exists c, a. split; [exact C|]. split; [intros i Hi; rewrite (M i Hi); assert (X := ST i Hi); lia|]. split; [exact FA|]. split; [|exact LN]. apply (OUT w a w' t LK); [rewrite LN; exact ST|exact HW]. }
  destruct Q as (c & A' & C & M & FA & LK & LN). exists A'. split; [|exact LK]. replace n with c; [exact FA|].
  destruct (Nat.eq_dec c n) as [E|E]; [exact E|exfalso]. assert (X := M c ltac:(lia)). destruct (l_piece _ _ _ L) as (_ & PC). destruct (nth_error_ext_length A c ltac:(lia)) as (p & P). assert (Y := some_lt _ _ _ (PC c p P)). lia.
Qed.

Lemma collision_linked s W A W' : linked W A -> collision s W = Ok W' -> exists A', collision s A = Ok A' /\ linked W' A'.
Proof.
  intros L. unfold collision. apply loop_linked; auto.
  - intros i. apply collision1_frame.
  - intros w a w' i LK I H. unfold collision1 in H |- *. destruct (nth_error_ext_length a i I) as (p & P). rewrite (vget_nat _ _ _ (proj2 (l_piece _ _ _ LK) i p P)) in H. cbn [bind] in H. rewrite (vget_nat _ _ _ P). cbn [bind].
    change (is_type (carry p) Fluid) with (is_type p Fluid) in H. destruct (negb (is_type p Fluid)) eqn:T; [inv H; eauto|]. assert (G := not_ghost p Fluid ltac:(discriminate) T). cbn [ApartFacts.carry p_nbrs] in H.
    revert H. apply (fold_linked (collide s (e i)) (collide s i) i); auto; [intros nb; apply collide_frame|intros; eapply collide_linked; eauto|]. intros nb NB. split; [exact I|]. exact (l_closed _ _ _ LK i p nb P G NB).
  - intros w a w' j LK ST H. unfold collision1 in H. binds H. apply vget_nat_inv in E. destruct (negb (is_type r Fluid)) eqn:T; [inv H; auto|]. assert (G := not_ghost r Fluid ltac:(discriminate) T).
    revert H. apply (foldM_inv (fun w => linked w a)); [exact LK|]. intros nb t t' I LT. apply collide_stranger; auto. exact (l_sealed _ _ _ LK j r nb ST E G I).
Qed.
Lemma minimum_linked re W A W' : linked W A -> setMinimumPressure re W = Ok W' -> exists A', setMinimumPressure re A = Ok A' /\ linked W' A'.
Proof.
  intros L0. unfold setMinimumPressure. cbv zeta. assert (L : linked (map (fun p => set_minp p (p_press p)) W) (map (fun p => set_minp p (p_press p)) A)) by (apply linked_map; auto; intros; unfold net; auto). revert L. generalize (map (fun p => set_minp p (p_press p)) W) (map (fun p => set_minp p (p_press p)) A). clear L0 W A. intros W A L.
  apply loop_linked; auto.
  - intros i. apply minp1_frame.
  - intros w a w' i LK I H. unfold minp1 in H |- *. destruct (nth_error_ext_length a i I) as (p & P). rewrite (vget_nat _ _ _ (proj2 (l_piece _ _ _ LK) i p P)) in H. cbn [bind] in H. rewrite (vget_nat _ _ _ P). cbn [bind].
    change (ghost_or_dummy (carry p)) with (ghost_or_dummy p) in H. destruct (ghost_or_dummy p) eqn:T; [inv H; eauto|].
    assert (G : p_type p <> Ghost) by (unfold ghost_or_dummy in T; apply orb_false_iff in T; destruct T as (T & _); now apply is_type_neq in T). cbn [ApartFacts.carry p_nbrs] in H.
    revert H. apply (fold_linked (minp_pair re (e i)) (minp_pair re i) i); auto; [intros nb; apply minp_pair_frame|intros; eapply minp_pair_linked; eauto|]. intros nb NB. split; [exact I|]. exact (l_closed _ _ _ LK i p nb P G NB).
  - intros w a w' j LK ST H. unfold minp1 in H. binds H. apply vget_nat_inv in E. destruct (ghost_or_dummy r) eqn:T; [inv H; auto|].
    assert (G : p_type r <> Ghost) by (unfold ghost_or_dummy in T; apply orb_false_iff in T; destruct T as (T & _); now apply is_type_neq in T).
    revert H. apply (foldM_inv (fun w => linked w a)); [exact LK|]. intros nb t t' I LT. apply minp_pair_stranger; auto. exact (l_sealed _ _ _ LK j r nb ST E G I).
Qed.
End Loops.
