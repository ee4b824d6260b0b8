(** * A group of particles among others that stay out of reach: the stages (C83) *)
From Coq Require Import PeanoNat.
From Verif Require Import StepFacts NeighborProps ExplicitFacts ResumeFacts SafetyFacts.
From Verif Require Export SpecApart.
Open Scope Z_scope.

(** ** lists *)
Lemma foldM_map {S A B} (f : B -> S -> outcome S) (g : A -> B) xs s : foldM f (map g xs) s = foldM (fun x => f (g x)) xs s.
Proof. revert s. induction xs as [|x xs IH]; intros s; [reflexivity|]. cbn [map foldM]. destruct (f (g x) s); cbn [bind]; auto. Qed.
Lemma flat_map_nil {A B} (f : A -> list B) xs : (forall x, In x xs -> f x = []) -> flat_map f xs = [].
Proof. induction xs as [|x xs IH]; intros H; [reflexivity|]. cbn [flat_map]. rewrite (H x (or_introl eq_refl)), IH; [reflexivity|]. intros y Y. apply H. now right. Qed.
Lemma map_flat_map {A B C} (f : A -> list B) (g : B -> C) xs : map g (flat_map f xs) = flat_map (fun x => map g (f x)) xs.
Proof. induction xs as [|x xs IH]; [reflexivity|]. cbn [flat_map]. now rewrite map_app, IH. Qed.
Lemma flat_map_filter {A B} (f : A -> list B) (t : A -> bool) xs : flat_map f (filter t xs) = flat_map (fun x => if t x then f x else []) xs.
Proof. induction xs as [|x xs IH]; [reflexivity|]. cbn [filter flat_map]. destruct (t x); cbn [flat_map]; now rewrite IH. Qed.
Lemma flat_map_eq {A B} (f g : A -> list B) xs : (forall x, In x xs -> f x = g x) -> flat_map f xs = flat_map g xs.
Proof. induction xs as [|x xs IH]; intros H; [reflexivity|]. cbn [flat_map]. rewrite (H x (or_introl eq_refl)), IH; [reflexivity|]. intros y Y. apply H. now right. Qed.
(** members only contribute *)
Lemma flat_map_members {B} (g : nat -> list B) (e : nat -> nat) : forall M n,
  (forall i j, (i < j < n)%nat -> (e i < e j)%nat) -> (forall i, (i < n)%nat -> (e i < M)%nat) ->
  (forall j, (j < M)%nat -> stranger e n j -> g j = []) -> flat_map g (seq 0 M) = flat_map (fun i => g (e i)) (seq 0 n).
Proof.
  induction M as [|M IH]; intros n INC RNG OUT.
  - destruct n as [|n]; [reflexivity|]. specialize (RNG O ltac:(lia)). lia.
  - rewrite seq_S, flat_map_app. cbn [Nat.add flat_map]. rewrite app_nil_r.
    assert (C : (exists k, n = S k /\ e k = M) \/ (forall i, (i < n)%nat -> (e i < M)%nat)).
    { destruct n as [|k]; [right; intros; lia|]. assert (R := RNG k ltac:(lia)). destruct (Nat.eq_dec (e k) M) as [E|E]; [left; eauto|right]. intros i I.
      destruct (Nat.eq_dec i k) as [->|]; [lia|]. assert (e i < e k)%nat by (apply INC; lia). lia. }
    destruct C as [(k & -> & E)|C].
    + rewrite seq_S, flat_map_app. cbn [Nat.add flat_map]. rewrite app_nil_r, E. f_equal. apply IH.
      * intros; apply INC; lia.
      * intros i I. rewrite <- E. apply INC. lia.
      * intros j J ST. apply OUT; [lia|]. intros i I. destruct (Nat.eq_dec i k) as [->|]; [lia|]. apply ST. lia.
    + rewrite (OUT M); [|lia|]. { rewrite app_nil_r. apply IH; auto. } intros i I X. specialize (C i I). lia.
Qed.

Section Apart.
Context {N : Num}.
Variable e : nat -> nat.

Definition lift (nb : neighbor) : neighbor := mkNb (Z.of_nat (e (Z.to_nat (nb_id nb)))) (nb_dist nb).
(** particle p of the group as a particle of the whole *)
Definition carry (p : particle) : particle :=
  mkP (Z.of_nat (e (Z.to_nat (p_id p)))) (p_type p) (p_fluidType p) (p_pos p) (p_vel p) (p_acc p) (p_press p) (p_nd p) (p_dens p) (p_bc p) (p_src p) (p_minp p) (map lift (p_nbrs p)).

Definition rising (n : nat) : Prop := forall i j, (i < j < n)%nat -> (e i < e j)%nat.
Definition piece (W A : list particle) : Prop := rising (List.length A) /\ forall i p, nth_error A i = Some p -> nth_error W (e i) = Some (carry p).

(** the neighbours of the members are members, those of the strangers are strangers *)
Definition closed (A : list particle) : Prop := forall i p nb, nth_error A i = Some p -> p_type p <> Ghost -> In nb (p_nbrs p) ->
  exists j, (j < List.length A)%nat /\ nb_id nb = Z.of_nat j.
Definition sealed (n : nat) (W : list particle) : Prop := forall j q nb, stranger e n j -> nth_error W j = Some q -> p_type q <> Ghost -> In nb (p_nbrs q) ->
  exists k, nb_id nb = Z.of_nat k /\ stranger e n k.
Record linked (W A : list particle) : Prop := {
  l_piece : piece W A; l_W : indexed W; l_A : indexed A; l_closed : closed A; l_sealed : sealed (List.length A) W }.

(** what the stages other than the search leave alone *)
Definition net (p p' : particle) : Prop := p_id p' = p_id p /\ p_type p' = p_type p /\ p_nbrs p' = p_nbrs p.
Lemma net_refl p : net p p. Proof. unfold net. auto. Qed.
Lemma net_trans p q r : net p q -> net q r -> net p r. Proof. unfold net. intuition congruence. Qed.

Lemma linked_net W A W' A' : linked W A -> Forall2 net W W' -> Forall2 net A A' -> piece W' A' -> linked W' A'.
Proof.
  intros [PC IW IA CL SE] FW FA PC'. assert (LA := Forall2_length _ _ _ FA). constructor; auto.
  - intros i p P. destruct (Forall2_nth_r _ _ _ _ _ FW P) as (q & Q & (E & _)). rewrite E. now apply IW.
  - intros i p P. destruct (Forall2_nth_r _ _ _ _ _ FA P) as (q & Q & (E & _)). rewrite E. now apply IA.
  - intros i p nb P G I. destruct (Forall2_nth_r _ _ _ _ _ FA P) as (q & Q & (_ & T & NB)). rewrite NB in I. rewrite <- LA. rewrite T in G. eapply CL; eauto.
  - intros j q nb ST Q G I. destruct (Forall2_nth_r _ _ _ _ _ FW Q) as (q0 & Q0 & (_ & T & NB)). rewrite NB in I. rewrite <- LA in *. rewrite T in G. eapply SE; eauto.
Qed.

(** ** loops over single particles *)
Lemma piece_map f W A : (forall p, f (carry p) = carry (f p)) -> piece W A -> piece (map f W) (map f A).
Proof.
  intros C (INC & H). split; [now rewrite map_length|]. intros i p P. rewrite BaseFacts.nth_error_map in *. destruct (nth_error A i) as [a|] eqn:E; [|discriminate]. injection P as <-. rewrite (H i a E). simpl. now rewrite C.
Qed.
Lemma linked_map f W A : (forall p, f (carry p) = carry (f p)) -> (forall p, net p (f p)) -> linked W A -> linked (map f W) (map f A).
Proof. intros C NT L. eapply linked_net; eauto; [now apply Forall2_map_r|now apply Forall2_map_r|]. apply piece_map; auto. apply L. Qed.

Lemma linked_mapM (fW fA : particle -> outcome particle) W A W' : linked W A ->
  (forall i p, nth_error A i = Some p -> fW (carry p) = (p' <- fA p ;; Ok (carry p'))) ->
  (forall p p', fW p = Ok p' -> net p p') -> (forall p p', fA p = Ok p' -> net p p') ->
  mapM fW W = Ok W' -> exists A', mapM fA A = Ok A' /\ linked W' A'.
Proof.
  intros L C NW NA H. apply mapM_ok in H. destruct (l_piece _ _ L) as (INC & PC).
  assert (T : forall i p, nth_error A i = Some p -> exists p', fA p = Ok p' /\ nth_error W' (e i) = Some (carry p')).
  { intros i p P. destruct (BaseFacts.Forall2_nth _ _ _ _ _ H (PC i p P)) as (q & Q & E). rewrite (C i p P) in E. destruct (fA p) as [p'| | | | |] eqn:X; try discriminate E. cbn [bind] in E. injection E as E. exists p'. split; [reflexivity|]. now rewrite E. }
  destruct (mapM_total fA A) as (A' & HA).
  { intros a I. apply In_nth_error in I. destruct I as (i & I). destruct (T i a I) as (p' & X & _). eauto. }
  exists A'. split; [exact HA|]. apply mapM_ok in HA. eapply linked_net; eauto.
  - eapply Forall2_impl; [|exact H]. intros; now apply NW.
  - eapply Forall2_impl; [|exact HA]. intros; now apply NA.
  - split; [rewrite <- (Forall2_length _ _ _ HA); exact INC|]. intros i p' P. destruct (Forall2_nth_r _ _ _ _ _ HA P) as (p & P0 & E). destruct (T i p P0) as (p1 & E1 & Q). congruence.
Qed.

(** ** reading members *)
Lemma read W A i p nb : linked W A -> nth_error A i = Some p -> p_type p <> Ghost -> In nb (p_nbrs p) ->
  exists j q, (j < List.length A)%nat /\ nb_id nb = Z.of_nat j /\ nth_error A j = Some q /\ vget A (nb_id nb) = Ok q /\ nb_id (lift nb) = Z.of_nat (e j) /\ nth_error W (e j) = Some (carry q) /\ vget W (nb_id (lift nb)) = Ok (carry q).
Proof.
  intros L P G I. destruct (l_closed _ _ L i p nb P G I) as (j & J & E). destruct (nth_error_ext_length A j J) as (q & Q). exists j, q. destruct (l_piece _ _ L) as (_ & PC).
  assert (E' : nb_id (lift nb) = Z.of_nat (e j)) by (unfold lift; cbn [nb_id]; now rewrite E, Nat2Z.id).
  split; [exact J|]. split; [exact E|]. split; [exact Q|]. split; [rewrite E; now apply vget_nat|]. split; [exact E'|]. split; [now apply PC|]. rewrite E'. apply vget_nat. now apply PC.
Qed.

Lemma foldM_same {S A} (f g : A -> S -> outcome S) xs s : (forall x t, In x xs -> f x t = g x t) -> foldM f xs s = foldM g xs s.
Proof. apply foldM_ext. Qed.
Lemma not_ghost (p : particle) t : t <> Ghost -> negb (is_type p t) = false -> p_type p <> Ghost.
Proof. intros T H. apply negb_false_iff, is_type_eq in H. congruence. Qed.

Lemma viscosity_linked s rv re W A W' : linked W A -> calViscosity s rv re W = Ok W' -> exists A', calViscosity s rv re A = Ok A' /\ linked W' A'.
Proof.
  intros L. rewrite !calViscosity_mapM. apply linked_mapM; auto.
  - intros i p P. unfold calViscosity1. change (is_type (carry p) Fluid) with (is_type p Fluid). destruct (negb (is_type p Fluid)) eqn:T; [reflexivity|].
    assert (G := not_ghost p Fluid ltac:(discriminate) T). cbn [carry p_nbrs]. rewrite foldM_map. rewrite (foldM_same _ (visc_term s re A p)).
    + destruct (foldM (visc_term s re A p) (p_nbrs p) vzero); reflexivity.
    + intros nb t I. unfold visc_term. destruct (read W A i p nb L P G I) as (j & q & _ & _ & _ & R1 & _ & _ & R2). rewrite R1, R2. reflexivity.
  - intros p p' H. unfold calViscosity1 in H. destruct (negb _); [inv H; apply net_refl|]. binds H. inv H. unfold net. auto.
  - intros p p' H. unfold calViscosity1 in H. destruct (negb _); [inv H; apply net_refl|]. binds H. inv H. unfold net. auto.
Qed.
Lemma density_linked s re W A W' : linked W A -> calNumberDensity s re W = Ok W' -> exists A', calNumberDensity s re A = Ok A' /\ linked W' A'.
Proof.
  intros L. rewrite !calNumberDensity_mapM. apply linked_mapM; auto.
  - intros i p P. unfold calNumberDensity1. change (is_type (carry p) Ghost) with (is_type p Ghost). destruct (is_type p Ghost); [reflexivity|].
    cbn [carry p_nbrs]. rewrite foldM_map. cbn [lift nb_dist]. destruct (foldM _ (p_nbrs p) (nofZ 0)); reflexivity.
  - intros p p' H. unfold calNumberDensity1 in H. destruct (is_type p Ghost); [inv H; unfold net; auto|]. binds H. inv H. unfold net. auto.
  - intros p p' H. unfold calNumberDensity1 in H. destruct (is_type p Ghost); [inv H; unfold net; auto|]. binds H. inv H. unfold net. auto.
Qed.
Lemma gradient_linked s rv re W A W' : linked W A -> calPressureGradient s rv re W = Ok W' -> exists A', calPressureGradient s rv re A = Ok A' /\ linked W' A'.
Proof.
  intros L. rewrite !calPressureGradient_mapM. apply linked_mapM; auto.
  - intros i p P. unfold calPressureGradient1. change (is_type (carry p) Fluid) with (is_type p Fluid). destruct (negb (is_type p Fluid)) eqn:T; [reflexivity|].
    assert (G := not_ghost p Fluid ltac:(discriminate) T). cbn [carry p_nbrs]. rewrite foldM_map. rewrite (foldM_same _ (grad_term s re A p)).
    + destruct (foldM (grad_term s re A p) (p_nbrs p) vzero); reflexivity.
    + intros nb t I. unfold grad_term. destruct (read W A i p nb L P G I) as (j & q & _ & _ & _ & R1 & _ & _ & R2). rewrite R1, R2. reflexivity.
  - intros p p' H. unfold calPressureGradient1 in H. destruct (negb _); [inv H; apply net_refl|]. binds H. inv H. unfold net. auto.
  - intros p p' H. unfold calPressureGradient1 in H. destruct (negb _); [inv H; apply net_refl|]. binds H. inv H. unfold net. auto.
Qed.
Lemma conditions_linked d W A W' : linked W A -> setBoundaryCondition d W = Ok W' -> exists A', setBoundaryCondition d A = Ok A' /\ linked W' A'.
Proof.
  intros L. rewrite !setBoundaryCondition_mapM. apply linked_mapM; auto.
  - intros i p P. unfold setBC1. change (ghost_or_dummy (carry p)) with (ghost_or_dummy p). destruct (ghost_or_dummy p) eqn:T; [reflexivity|].
    assert (G : p_type p <> Ghost) by (unfold ghost_or_dummy in T; apply orb_false_iff in T; destruct T as (T & _); now apply is_type_neq in T).
    replace (isFreeSurface d W (carry p)) with (isFreeSurface d A p); [destruct (isFreeSurface d A p); reflexivity|].
    unfold isFreeSurface. destruct d; [reflexivity|]. change (p_nd (carry p)) with (p_nd p). destruct (nlt _ _); [|reflexivity]. unfold subDetection. cbn [carry p_nbrs].
    destruct (p_nbrs p) as [|nb0 nbs] eqn:EN; [reflexivity|]. cbn [map]. change (lift nb0 :: map lift nbs) with (map lift (nb0 :: nbs)). rewrite foldM_map.
    match goal with |- bind (foldM ?f ?xs ?s) _ = bind (foldM ?g _ _) _ => rewrite (foldM_same g f xs s) end; [reflexivity|].
    intros nb t I. rewrite <- EN in I. destruct (read W A i p nb L P G I) as (j & q & _ & _ & _ & R1 & _ & _ & R2). rewrite R1, R2. reflexivity.
  - intros p p' H. unfold setBC1 in H. destruct (ghost_or_dummy p); [inv H; unfold net; auto|]. binds H. inv H. unfold net. auto.
  - intros p p' H. unfold setBC1 in H. destruct (ghost_or_dummy p); [inv H; unfold net; auto|]. binds H. inv H. unfold net. auto.
Qed.

(** ** loops that write to neighbours *)
Lemma mono n i j : rising n -> (i < n)%nat -> (j < n)%nat -> (e i <= e j)%nat <-> (i <= j)%nat.
Proof. intros R I J. destruct (lt_eq_lt_dec i j) as [[X|X]|X]; [assert (e i < e j)%nat by (apply R; lia); lia|subst; lia|assert (e j < e i)%nat by (apply R; lia); lia]. Qed.
Lemma inj n i j : rising n -> (i < n)%nat -> (j < n)%nat -> e i = e j -> i = j.
Proof. intros R I J E. assert (A := mono n i j R I J). assert (B := mono n j i R J I). lia. Qed.

Lemma vmod_piece W A i p (f g : particle -> particle) W' : piece W A -> nth_error A i = Some p -> f (carry p) = carry (g p) ->
  vmod W (Z.of_nat (e i)) f = Ok W' -> vmod A (Z.of_nat i) g = Ok (upd A i (g p)) /\ piece W' (upd A i (g p)).
Proof.
  intros (INC & PC) P C H. split; [now apply vmod_nat|]. rewrite (vmod_nat _ _ _ _ (PC i p P)) in H. inv H. split; [now rewrite length_upd|].
  intros j q Q. rewrite nth_upd in Q. rewrite nth_upd. destruct (Nat.eqb_spec i j) as [<-|NE].
  - rewrite Nat.eqb_refl. rewrite P in Q. rewrite (PC i p P). inv Q. now rewrite C.
  - destruct (Nat.eqb_spec (e i) (e j)) as [E|_]; [|now apply PC]. exfalso. apply NE. eapply inj; eauto; [now apply some_lt in P|now apply some_lt in Q].
Qed.
Lemma vmod_stranger W A k (f : particle -> particle) W' : piece W A -> stranger e (List.length A) k -> vmod W (Z.of_nat k) f = Ok W' -> piece W' A.
Proof.
  intros (INC & PC) ST H. apply vmod_ok in H. destruct H as (a & _ & _ & ->). rewrite Nat2Z.id. split; [exact INC|]. intros i p P. rewrite nth_upd. destruct (Nat.eqb_spec k (e i)) as [E|_]; [|now apply PC].
  exfalso. apply (ST i); [now apply some_lt in P|auto].
Qed.
Lemma vmod_net (W : list particle) i f W' : (forall p, net p (f p)) -> vmod W i f = Ok W' -> Forall2 net W W'.
Proof. intros H. apply (vmod_R net net_refl). auto. Qed.
End Apart.
