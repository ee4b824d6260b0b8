(** * A step depends on number, type, position, velocity, acceleration and density only *)
From Coq Require Import PeanoNat.
From Verif Require Import StepFacts NeighborProps.
From Verif Require Export SpecResume.
Open Scope Z_scope.

(** ** outcomes *)
Lemma agree_bind {A B A' B'} (R : A -> B -> Prop) (R' : A' -> B' -> Prop) x y (f : A -> outcome A') (g : B -> outcome B') :
  agree R x y -> (forall a b, R a b -> agree R' (f a) (g b)) -> agree R' (bind x f) (bind y g).
Proof. destruct x, y; simpl; intros H F; try contradiction; auto. Qed.
Lemma agree_eq {A} (x : outcome A) : agree eq x x.
Proof. destruct x; simpl; auto. Qed.
Lemma agree_impl {A B} (R R' : A -> B -> Prop) x y : agree R x y -> (forall a b, R a b -> R' a b) -> agree R' x y.
Proof. destruct x, y; simpl; auto. Qed.
Lemma agree_ok {A B} (R : A -> B -> Prop) x y a : agree R x y -> x = Ok a -> exists b, y = Ok b /\ R a b.
Proof. intros H ->. destruct y; simpl in H; try contradiction. eauto. Qed.
Lemma agree_ok_r {A B} (R : A -> B -> Prop) x y b : agree R x y -> y = Ok b -> exists a, x = Ok a /\ R a b.
Proof. intros H ->. destruct x; simpl in H; try contradiction. eauto. Qed.
Lemma eq_agree {A} (x y : outcome A) : agree eq x y -> x = y.
Proof. destruct x, y; simpl; intros H; try contradiction; congruence. Qed.

Lemma foldM_agree {X S T} (R : S -> T -> Prop) (f : X -> S -> outcome S) (g : X -> T -> outcome T) xs : forall s t,
  (forall x a b, R a b -> agree R (f x a) (g x b)) -> R s t -> agree R (foldM f xs s) (foldM g xs t).
Proof. induction xs as [|x xs IH]; intros s t H R0; [exact R0|]. cbn [foldM]. eapply agree_bind; [now apply H|]. intros a b. now apply IH. Qed.
Lemma foldM_agree2 {X Y S T} (Q : X -> Y -> Prop) (R : S -> T -> Prop) (f : X -> S -> outcome S) (g : Y -> T -> outcome T) xs ys : Forall2 Q xs ys -> forall s t,
  (forall x y a b, Q x y -> R a b -> agree R (f x a) (g y b)) -> R s t -> agree R (foldM f xs s) (foldM g ys t).
Proof. induction 1 as [|x y xs ys Q0 F IH]; intros s t H R0; [exact R0|]. cbn [foldM]. eapply agree_bind; [now apply H|]. intros a b. now apply IH. Qed.

Lemma some_lt {A} (l : list A) i a : nth_error l i = Some a -> (i < List.length l)%nat.
Proof. intros H. apply nth_error_Some. congruence. Qed.
Lemma Forall2_nth_none {A B} (R : A -> B -> Prop) l l' i : Forall2 R l l' -> nth_error l i = None -> nth_error l' i = None.
Proof. intros F H. apply nth_error_None in H. apply nth_error_None. apply Forall2_length in F. lia. Qed.
Lemma vget_agree {A B} (R : A -> B -> Prop) l l' i : Forall2 R l l' -> agree R (vget l i) (vget l' i).
Proof.
  intros F. unfold vget. destruct (i <? 0); [reflexivity|]. destruct (nth_error l (Z.to_nat i)) as [a|] eqn:E.
  - destruct (BaseFacts.Forall2_nth _ _ _ _ _ F E) as (b & -> & H). exact H.
  - now rewrite (Forall2_nth_none _ _ _ _ F E).
Qed.
Lemma vset_agree {A B} (R : A -> B -> Prop) l l' i a b : Forall2 R l l' -> R a b -> agree (Forall2 R) (vset l i a) (vset l' i b).
Proof.
  intros F H. unfold vset. destruct (i <? 0); [reflexivity|]. rewrite <- (Forall2_length _ _ _ F). destruct (Nat.ltb _ _); [|reflexivity]. simpl. now apply Forall2_upd2.
Qed.
Lemma vmod_agree {A B} (R : A -> B -> Prop) l l' i f g : Forall2 R l l' -> (forall a b, R a b -> R (f a) (g b)) -> agree (Forall2 R) (vmod l i f) (vmod l' i g).
Proof. intros F H. unfold vmod. eapply agree_bind; [apply (vget_agree R); exact F|]. intros a b AB. apply vset_agree; auto. Qed.

Lemma map_agree {A B A' B'} (R : A -> B -> Prop) (R' : A' -> B' -> Prop) f g l l' : Forall2 R l l' -> (forall a b, R a b -> R' (f a) (g b)) -> Forall2 R' (map f l) (map g l').
Proof. induction 1; intros; constructor; auto. Qed.

(** a loop that makes R to the stronger R' *)
Lemma each_agree {A B} (R R' : A -> B -> Prop) (f : list A -> A -> outcome A) (g : list B -> B -> outcome B) l l' :
  (forall a b, R' a b -> R a b) -> (forall v w a b, Forall2 R v w -> R a b -> agree R' (f v a) (g w b)) ->
  Forall2 R l l' -> agree (Forall2 R') (each f l) (each g l').
Proof.
  intros RR H F. unfold each. rewrite <- (Forall2_length _ _ _ F).
  assert (G : forall n k v w, (k + n = List.length l)%nat -> List.length v = List.length l -> Forall2 R v w ->
    (forall i a b, (i < k)%nat -> nth_error v i = Some a -> nth_error w i = Some b -> R' a b) ->
    agree (Forall2 R') (foldM (fun i w0 => match nth_error w0 i with Some a => a' <- f w0 a ;; Ok (upd w0 i a') | None => Undef OutOfBounds end) (seq k n) v)
                       (foldM (fun i w0 => match nth_error w0 i with Some a => a' <- g w0 a ;; Ok (upd w0 i a') | None => Undef OutOfBounds end) (seq k n) w)).
  { induction n as [|n IH]; intros k v w K L FF D.
    - simpl. assert (LL := Forall2_length _ _ _ FF). apply Forall2_of_nth; [auto|]. intros i a b X Y. eapply D; eauto. apply some_lt in X. lia.
    - cbn [seq foldM]. destruct (nth_error v k) as [a|] eqn:E.
      + destruct (BaseFacts.Forall2_nth _ _ _ _ _ FF E) as (b & E' & AB). rewrite E'.
        assert (X := H v w a b FF AB). destruct (f v a) as [a'| | | | |], (g w b) as [b'| | | | |]; simpl in X; try contradiction; cbn [bind]; auto.
        apply IH; try lia.
        * now rewrite length_upd.
        * apply Forall2_upd2; auto.
        * intros i x y I X1 Y1. destruct (Nat.eq_dec i k) as [->|NE].
          -- rewrite nth_upd_same in X1 by (apply some_lt in E; lia). rewrite nth_upd_same in Y1 by (apply some_lt in E'; lia). congruence.
          -- rewrite nth_upd_other in X1 by auto. rewrite nth_upd_other in Y1 by auto. apply (D i); auto. lia.
      + apply nth_error_None in E. lia. }
  apply (G (List.length l) 0%nat); auto. intros; lia.
Qed.

Section Resume.
Context {N : Num}.

Record flags := mkF { f_nbrs : bool; f_nd : bool; f_bc : bool; f_press : bool; f_minp : bool }.
Definition close (p q : particle) : Prop :=
  p_id p = p_id q /\ p_type p = p_type q /\ p_pos p = p_pos q /\ p_vel p = p_vel q /\ p_acc p = p_acc q /\ p_dens p = p_dens q.
Definition like (F : flags) (p q : particle) : Prop :=
  close p q /\ (f_nbrs F = true -> p_type p <> Ghost -> p_nbrs p = p_nbrs q) /\ (f_nd F = true -> p_nd p = p_nd q) /\ (f_bc F = true -> p_bc p = p_bc q) /\
  (f_press F = true -> p_press p = p_press q) /\ (f_minp F = true -> p_minp p = p_minp q).
Lemma like_type F p q t : like F p q -> is_type p t = is_type q t.
Proof. intros ((_ & T & _) & _). unfold is_type. now rewrite T. Qed.
Lemma like_god F p q : like F p q -> ghost_or_dummy p = ghost_or_dummy q.
Proof. intros H. unfold ghost_or_dummy. now rewrite !(like_type F p q). Qed.

(** ** neighbour search *)
Definition tied (F : flags) (st st' : list Z * list Z * list Z * list particle) : Prop :=
  let '(a, b, c, ps) := st in let '(a', b', c', ps') := st' in a = a' /\ b = b' /\ c = c' /\ Forall2 (like F) ps ps'.
Lemma store1_agree F d len nx ny i st st' : f_nbrs F = false -> tied F st st' -> agree (tied F) (store1 d len nx ny i st) (store1 d len nx ny i st').
Proof.
  destruct st as [[[a b] c] ps], st' as [[[a' b'] c'] ps']. intros FN (<- & <- & <- & L). unfold store1. destruct (nth_error ps i) as [p|] eqn:E.
  2: { rewrite (Forall2_nth_none _ _ _ _ L E). reflexivity. }
  destruct (BaseFacts.Forall2_nth _ _ _ _ _ L E) as (q & -> & PQ). rewrite <- (like_type F p q Ghost PQ). destruct (is_type p Ghost); [simpl; auto|].
  pose proof PQ as ((I & T & X & V & A & D) & _). rewrite <- X, <- I. destruct (negb (isInDomain d (p_pos p))).
  { simpl. split; [auto|]. split; [auto|]. split; [auto|]. apply Forall2_upd2; [exact L|]. destruct PQ as ((? & ? & ? & ? & ? & ?) & ? & ? & ? & ? & ?).
    split; [repeat split; auto|]. cbn. split; [congruence|]. auto. }
  destruct (cell d len (p_pos p)); cbn [bind]; try (simpl; auto; fail). destruct (flat nx ny a0); cbn [bind]; try (simpl; auto; fail). destruct (vget b a1); cbn [bind]; try (simpl; auto; fail).
  destruct (a2 =? -1).
  - destruct (vset a a1 (p_id p)); cbn [bind]; try (simpl; auto; fail). destruct (vset b a1 (p_id p)); cbn [bind]; simpl; auto.
  - destruct (vset c a2 (p_id p)); cbn [bind]; try (simpl; auto; fail). destruct (vset b a1 (p_id p)); cbn [bind]; simpl; auto.
Qed.
Definition tied2 {X} (F : flags) (a b : X * list particle) : Prop := fst a = fst b /\ Forall2 (like F) (snd a) (snd b).
Lemma storeParticles_agree F b ps qs : f_nbrs F = false -> Forall2 (like F) ps qs -> agree (tied2 F) (storeParticles b ps) (storeParticles b qs).
Proof.
  intros FN L. unfold storeParticles. rewrite <- (Forall2_length _ _ _ L). destruct (negb _); [reflexivity|]. destruct (negb _); [reflexivity|].
  eapply agree_bind; [apply foldM_agree with (R := tied F); [intros; now apply store1_agree|simpl; auto]|].
  intros [[[a b0] c] ps1] [[[a' b0'] c'] ps1'] (<- & <- & <- & L'). simpl. split; auto.
Qed.
Lemma walk_agree F fuel re ps qs next p q : Forall2 (like F) ps qs -> like F p q -> forall j acc, walk fuel re ps next p j acc = walk fuel re qs next q j acc.
Proof.
  intros L PQ. induction fuel as [|fuel IH]; intros j acc; cbn [walk]; [auto|]. destruct (j =? -1); [auto|].
  assert (X := vget_agree _ _ _ j L). destruct (vget ps j) as [u| | | | |], (vget qs j) as [u'| | | | |]; simpl in X; try contradiction; cbn [bind]; try congruence.
  destruct X as ((_ & _ & X & _) & _). pose proof PQ as ((I & _ & Y & _) & _). rewrite X, Y, I. destruct (vget next j); cbn [bind]; auto.
Qed.
Definition with_nbrs (F : flags) : flags := mkF true (f_nd F) (f_bc F) (f_press F) (f_minp F).
Definition no_nbrs (F : flags) : flags := mkF false (f_nd F) (f_bc F) (f_press F) (f_minp F).
Lemma like_weaken F p q : like F p q -> like (no_nbrs F) p q.
Proof. unfold like, no_nbrs. cbn. intuition discriminate. Qed.
Lemma setNeighbors_agree F ns ps qs : Forall2 (like F) ps qs -> agree (tied2 (with_nbrs F)) (setNeighbors ns ps) (setNeighbors ns qs).
Proof.
  intros L. assert (L0 : Forall2 (like (no_nbrs F)) ps qs) by (eapply Forall2_impl; [|exact L]; intros; now apply like_weaken). unfold setNeighbors.
  eapply agree_bind; [apply (storeParticles_agree (no_nbrs F)); auto|]. intros [b p1] [b' q1] (E & L1). cbn [fst snd] in E, L1. subst b'.
  eapply agree_bind; [|intros p2 q2 L2; simpl; split; [reflexivity|exact L2]].
  apply each_agree with (R := like (no_nbrs F)); [intros; now apply (like_weaken (with_nbrs F))| |exact L1].
  intros v w p q VW PQ. unfold neighborsOf. rewrite <- (like_type _ p q Ghost PQ). destruct (is_type p Ghost) eqn:G.
  { simpl. destruct PQ as (A & B & C). split; [exact A|]. split; [|exact C]. intros _ X. unfold is_type in G. apply Z.eqb_eq in G. congruence. }
  pose proof PQ as ((_ & _ & X & _) & _). rewrite <- X. destruct (cell _ _ _); cbn [bind]; try (simpl; auto; fail).
  match goal with |- agree _ (bind ?x _) (bind ?y _) => assert (EQ : x = y) end.
  { apply eq_agree. apply foldM_agree; [|reflexivity]. intros c acc acc' <-. destruct (flat _ _ _); cbn [bind]; try (simpl; auto; fail). destruct (vget _ _); cbn [bind]; try (simpl; auto; fail).
    rewrite (walk_agree _ _ _ _ _ _ _ _ VW PQ). apply agree_eq. }
  rewrite <- EQ. destruct (foldM _ _ _); cbn [bind]; simpl; auto. destruct PQ as (A & _ & C). split; [exact A|]. split; [auto|exact C].
Qed.

(** ** prediction *)
Ltac same H := let I := fresh in let T := fresh in let X := fresh in let V := fresh in let A := fresh in let D := fresh in let R := fresh in
  destruct H as ((I & T & X & V & A & D) & R); split; [repeat split; cbn; congruence|exact R].
Lemma gravity_agree F g ps qs : Forall2 (like F) ps qs -> Forall2 (like F) (calGravity g ps) (calGravity g qs).
Proof.
  intros L. unfold calGravity. eapply map_agree; [exact L|]. intros p q PQ. unfold calGravity1. rewrite <- (like_type _ p q Fluid PQ).
  destruct (is_type p Fluid); same PQ.
Qed.
Lemma visc_agree F s rv re ps qs : f_nbrs F = true -> Forall2 (like F) ps qs -> agree (Forall2 (like F)) (calViscosity s rv re ps) (calViscosity s rv re qs).
Proof.
  intros FN L. unfold calViscosity. apply each_agree with (R := like F); auto. intros v w p q VW PQ. unfold calViscosity1. rewrite <- (like_type _ p q Fluid PQ).
  destruct (is_type p Fluid) eqn:FL; cbn [negb]; [|exact PQ].
  assert (NB : p_nbrs p = p_nbrs q) by (apply PQ; auto; unfold is_type in FL; apply Z.eqb_eq in FL; rewrite FL; discriminate). rewrite <- NB.
  eapply agree_bind; [apply (foldM_agree eq); [|reflexivity]|].
  - intros n a a' <-. unfold visc_term. eapply agree_bind; [apply vget_agree; exact VW|]. intros u u' U. pose proof U as ((_ & _ & _ & VU & _) & _). pose proof PQ as ((_ & _ & _ & VP & _) & _). rewrite <- VU, <- VP. apply agree_eq.
  - intros a a' <-. simpl. same PQ.
Qed.
Lemma move_agree F s ps qs : Forall2 (like F) ps qs -> Forall2 (like F) (moveParticle s ps) (moveParticle s qs).
Proof.
  intros L. unfold moveParticle. eapply map_agree; [exact L|]. intros p q PQ. unfold moveParticle1. rewrite <- (like_type _ p q Fluid PQ).
  destruct (is_type p Fluid); [|same PQ].
  destruct PQ as ((I & T & X & V & A & D) & R). split; [|exact R]. repeat split; cbn; congruence.
Qed.

(** ** collisions *)
Lemma collide_agree F s i nb ps qs : Forall2 (like F) ps qs -> agree (Forall2 (like F)) (collide s i nb ps) (collide s i nb qs).
Proof.
  intros L. unfold collide. eapply agree_bind; [apply vget_agree; exact L|]. intros p p' P. eapply agree_bind; [apply vget_agree; exact L|]. intros q q' Q.
  rewrite <- (like_type _ q q' Fluid Q). unfold inverseDensity. rewrite <- (like_type _ q q' Fluid Q), <- (like_type _ p p' Fluid P).
  destruct P as ((IP & TP & XP & VP & AP & DP) & _), Q as ((IQ & TQ & XQ & VQ & AQ & DQ) & _). rewrite <- IP, <- IQ, <- XP, <- XQ, <- VP, <- VQ, <- DP, <- DQ.
  destruct (is_type q Fluid && _); [exact L|]. destruct (nlt _ _); [|exact L].
  eapply agree_bind; [apply vmod_agree; [exact L|]; intros a b AB; same AB|]. clear L ps qs. intros ps qs L.
  eapply agree_bind; [apply vmod_agree; [exact L|]; intros a b AB; same AB|]. clear L ps qs. intros ps qs L.
  eapply agree_bind; [apply vmod_agree; [exact L|]; intros a b AB; same AB|]. clear L ps qs. intros ps qs L.
  apply vmod_agree; [exact L|]. intros a b AB; same AB.
Qed.
Lemma collision_agree F s ps qs : f_nbrs F = true -> Forall2 (like F) ps qs -> agree (Forall2 (like F)) (collision s ps) (collision s qs).
Proof.
  intros FN L. unfold collision. rewrite <- (Forall2_length _ _ _ L). apply foldM_agree; [|exact L]. clear L ps qs. intros i ps qs L. unfold collision1.
  eapply agree_bind; [apply vget_agree; exact L|]. intros p q PQ. rewrite <- (like_type _ p q Fluid PQ). destruct (is_type p Fluid) eqn:FL; cbn [negb]; [|exact L].
  assert (NB : p_nbrs p = p_nbrs q) by (apply PQ; auto; unfold is_type in FL; apply Z.eqb_eq in FL; rewrite FL; discriminate). rewrite <- NB.
  apply foldM_agree; [|exact L]. intros. now apply collide_agree.
Qed.

(** ** number density *)
Definition with_nd (F : flags) : flags := mkF (f_nbrs F) true (f_bc F) (f_press F) (f_minp F).
Lemma like_without_nd F p q : like (with_nd F) p q -> like F p q.
Proof. unfold like, with_nd. cbn. intuition. Qed.
Lemma density_agree F s re ps qs : f_nbrs F = true -> Forall2 (like F) ps qs -> agree (Forall2 (like (with_nd F))) (calNumberDensity s re ps) (calNumberDensity s re qs).
Proof.
  intros FN L. unfold calNumberDensity. apply each_agree with (R := like F); [apply like_without_nd| |exact L]. intros v w p q VW PQ. unfold calNumberDensity1. rewrite <- (like_type _ p q Ghost PQ).
  destruct (is_type p Ghost) eqn:G.
  - destruct PQ as (A & B & C & D & E). split; [exact A|]. split; [exact B|]. split; [auto|]. split; [exact D|exact E].
  - assert (NB : p_nbrs p = p_nbrs q) by (apply PQ; auto; unfold is_type in G; apply Z.eqb_neq in G; exact G). rewrite <- NB.
    destruct (foldM _ _ _); cbn [bind]; simpl; auto. destruct PQ as (A & B & C & D & E). split; [exact A|]. split; [exact B|]. split; [auto|]. split; [exact D|exact E].
Qed.

(** ** pressures *)
Definition with_bc (F : flags) : flags := mkF (f_nbrs F) (f_nd F) true (f_press F) (f_minp F).
Lemma like_without_bc F p q : like (with_bc F) p q -> like F p q.
Proof. unfold like, with_bc. cbn. intuition. Qed.
Lemma surface_agree F det ps qs p q : f_nd F = true -> f_nbrs F = true -> Forall2 (like F) ps qs -> like F p q -> p_type p <> Ghost -> isFreeSurface det ps p = isFreeSurface det qs q.
Proof.
  intros FD FN L PQ G. assert (ND : p_nd p = p_nd q) by (apply PQ; auto). assert (NB : p_nbrs p = p_nbrs q) by (apply PQ; auto). assert (X : p_pos p = p_pos q) by apply PQ.
  unfold isFreeSurface. rewrite <- ND. destruct det; [reflexivity|]. destruct (nlt _ _); [|reflexivity]. unfold subDetection. rewrite <- NB, <- X. destruct (p_nbrs p) as [|b l]; [reflexivity|].
  match goal with |- bind ?x _ = bind ?y _ => assert (EQ : x = y) end; [|rewrite EQ; reflexivity].
  apply eq_agree. apply foldM_agree; [|reflexivity]. intros c a a' <-. eapply agree_bind; [apply vget_agree; exact L|]. intros u u' ((_ & _ & U & _) & _). rewrite <- U. reflexivity.
Qed.
Lemma marks_agree F det ps qs : f_nd F = true -> f_nbrs F = true -> Forall2 (like F) ps qs -> agree (Forall2 (like (with_bc F))) (setBoundaryCondition det ps) (setBoundaryCondition det qs).
Proof.
  intros FD FN L. unfold setBoundaryCondition. apply each_agree with (R := like F); [apply like_without_bc| |exact L]. intros v w p q VW PQ. unfold setBC1. rewrite <- (like_god _ p q PQ).
  destruct (ghost_or_dummy p) eqn:G.
  - destruct PQ as (A & B & C & D & E). split; [exact A|]. split; [exact B|]. split; [exact C|]. split; [auto|exact E].
  - assert (NG : p_type p <> Ghost) by (intros X; unfold ghost_or_dummy, is_type in G; rewrite X in G; discriminate).
    rewrite <- (surface_agree F det v w p q) by auto. destruct (isFreeSurface det v p); cbn [bind]; simpl; auto.
    destruct PQ as (A & B & C & D & E). split; [exact A|]. split; [exact B|]. split; [exact C|]. split; [auto|exact E].
Qed.
Lemma generate_agree F det ps qs : f_nd F = true -> f_nbrs F = true -> Forall2 (like F) ps qs ->
  agree (fun a b => Forall2 (like (with_bc F)) (fst a) (fst b) /\ snd a = snd b) (generateBC det ps) (generateBC det qs).
Proof.
  intros FD FN L. unfold generateBC. eapply agree_bind; [apply (marks_agree F); auto|]. clear L ps qs. intros ps qs L. simpl. split; [exact L|].
  generalize (@nil (Z * num)). induction L as [|p q ps qs PQ L IH]; intros d; [reflexivity|]. cbn [fold_left]. assert (B : p_bc p = p_bc q) by (apply PQ; reflexivity). assert (I : p_id p = p_id q) by apply PQ.
  rewrite <- B, <- I. apply IH.
Qed.
Lemma source_agree F q d ps qs : f_nd F = true -> Forall2 (like F) ps qs -> setSourceTerm q d ps = setSourceTerm q d qs.
Proof.
  intros FD L. unfold setSourceTerm. rewrite <- (Forall2_length _ _ _ L). apply eq_agree. eapply foldM_agree2; [exact L| |reflexivity].
  intros a b v v' AB <-. assert (I : p_id a = p_id b) by apply AB. assert (ND : p_nd a = p_nd b) by (apply AB; auto). unfold source1. rewrite <- I, <- ND. apply agree_eq.
Qed.
Lemma matrix_agree F q d ps qs : f_bc F = true -> f_nbrs F = true -> Forall2 (like F) ps qs -> (forall p, In p ps -> p_type p = Ghost -> dbc_contains d (p_id p) = true) ->
  setMatrixTriplets q d ps = setMatrixTriplets q d qs.
Proof.
  intros FB FN L G. unfold setMatrixTriplets. apply eq_agree.
  assert (L' : Forall2 (fun p q => like F p q /\ (p_type p = Ghost -> dbc_contains d (p_id p) = true)) ps qs).
  { clear - L G. induction L; constructor; [split; auto; intros; apply G; auto; left; auto|]. apply IHL. intros; apply G; auto. right; auto. }
  eapply foldM_agree2; [exact L'| |reflexivity].
  intros a b v v' (AB & GA) <-. assert (I : p_id a = p_id b) by apply AB. assert (D : p_dens a = p_dens b) by apply AB. unfold matrix_row. rewrite <- I. destruct (dbc_contains d (p_id a)); [reflexivity|].
  assert (NB : p_nbrs a = p_nbrs b) by (apply AB; auto; intros X; apply GA in X; discriminate). rewrite <- NB.
  match goal with |- agree _ (bind ?x _) (bind ?y _) => assert (EQ : x = y) end; [|rewrite EQ; apply agree_eq].
  apply eq_agree. apply foldM_agree; [|reflexivity]. intros n [ts c] st' <-. unfold matrix_term. eapply agree_bind; [apply vget_agree; exact L|]. intros u u' U.
  assert (BU : p_bc u = p_bc u') by (apply U; auto). assert (IU : p_id u = p_id u') by apply U. rewrite <- BU, <- IU, <- I, <- D. apply agree_eq.
Qed.
Lemma dbc_set_contains d i v j : dbc_contains (dbc_set d i v) j = (i =? j) || dbc_contains d j.
Proof. unfold dbc_contains, dbc_set, dbc_find. cbn [find fst]. destruct (i =? j); reflexivity. Qed.
Lemma each_forall {A} (P : A -> Prop) (body : list A -> A -> outcome A) l l' : each body l = Ok l' -> (forall w a a', body w a = Ok a' -> P a') -> Forall P l'.
Proof.
  intros H HB. unfold each in H.
  assert (K : forall n k w w', List.length w = (k + n)%nat -> (forall i a, (i < k)%nat -> nth_error w i = Some a -> P a) ->
    foldM (fun i w => match nth_error w i with Some a => a' <- body w a ;; Ok (upd w i a') | None => Undef OutOfBounds end) (seq k n) w = Ok w' ->
    forall i a, nth_error w' i = Some a -> P a).
  { induction n as [|n IH]; intros k w w' L HW E; cbn [seq foldM] in E.
    - inv E. intros i a Ha. apply (HW i); auto. apply some_lt in Ha. lia.
    - binds E. destruct (nth_error w k) as [a|] eqn:Ek; [|discriminate]. binds E0. inv E0. eapply IH; [| |exact E].
      + rewrite length_upd. lia.
      + intros i b Hi Hb. rewrite nth_upd in Hb. destruct (Nat.eqb_spec k i) as [->|NE].
        * rewrite Ek in Hb. inv Hb. eapply HB; eauto.
        * apply (HW i); auto. lia. }
  apply Forall_forall. intros x Hx. apply In_nth_error in Hx. destruct Hx as [i Hi]. apply (K (List.length l) 0%nat l l') with (i := i); auto. intros; lia.
Qed.
Lemma generate_ghosts det ps ps' d p : generateBC det ps = Ok (ps', d) -> In p ps' -> p_type p = Ghost -> dbc_contains d (p_id p) = true.
Proof.
  unfold generateBC. intros H. destruct (setBoundaryCondition det ps) as [l| | | | |] eqn:E; try discriminate H. cbn [bind] in H. injection H as <- <-. intros IN G.
  assert (B : p_bc p = Ignored).
  { assert (Q : Forall (fun p => p_type p = Ghost -> p_bc p = Ignored) l).
    { apply (each_forall _ _ _ _ E). intros w a a' H T. unfold setBC1 in H. destruct (ghost_or_dummy a) eqn:GA; [inv H; reflexivity|]. binds H. inv H.
      cbn in T. unfold ghost_or_dummy, is_type in GA. rewrite T in GA. discriminate. }
    rewrite Forall_forall in Q. auto. }
  clear E. revert IN.
  assert (K : forall l0 d0, dbc_contains d0 (p_id p) = true -> dbc_contains (fold_left (fun d p => if fs_eqb (p_bc p) Inner then d else dbc_set d (p_id p) (nofZ 0)) l0 d0) (p_id p) = true).
  { induction l0 as [|x l0 IH]; intros d0 H0; [exact H0|]. cbn [fold_left]. apply IH. destruct (fs_eqb _ _); [exact H0|]. rewrite dbc_set_contains, H0. apply orb_true_r. }
  generalize (@nil (Z * num)). induction l as [|x l IH]; intros d0 IN; [destruct IN|]. cbn [fold_left]. destruct IN as [->|IN]; [|now apply IH].
  apply K. rewrite B. change (fs_eqb Ignored Inner) with false. cbv iota. rewrite dbc_set_contains, Z.eqb_refl. reflexivity.
Qed.
Definition with_press (F : flags) : flags := mkF (f_nbrs F) (f_nd F) (f_bc F) true (f_minp F).
Lemma like_without_press F p q : like (with_press F) p q -> like F p q.
Proof. unfold like, with_press. cbn. intuition. Qed.
Lemma assign_agree F x ps qs : Forall2 (like F) ps qs -> agree (Forall2 (like (with_press F))) (assignPressure x ps) (assignPressure x qs).
Proof.
  intros L. unfold assignPressure. apply each_agree with (R := like F); [apply like_without_press| |exact L]. intros v w p q VW PQ. assert (I : p_id p = p_id q) by apply PQ. rewrite <- I.
  destruct (vget x (p_id p)); cbn [bind]; simpl; auto. destruct PQ as (A & B & C & D & E & G). split; [exact A|]. split; [exact B|]. split; [exact C|]. split; [exact D|]. split; [auto|exact G].
Qed.
Lemma explicit_agree F n0 c ps qs : f_nd F = true -> Forall2 (like F) ps qs -> explicitCalc n0 c ps = explicitCalc n0 c qs.
Proof.
  intros FD L. unfold explicitCalc. rewrite <- (Forall2_length _ _ _ L). apply eq_agree. eapply foldM_agree2; [exact L| |reflexivity]. intros a b v v' AB <-.
  assert (I : p_id a = p_id b) by apply AB. assert (ND : p_nd a = p_nd b) by (apply AB; auto). assert (D : p_dens a = p_dens b) by apply AB. unfold explicit1. rewrite <- (like_type _ a b Ghost AB), <- I, <- ND, <- D. apply agree_eq.
Qed.

Lemma implicit_agree F S det q ps qs : f_nd F = true -> f_nbrs F = true -> Forall2 (like F) ps qs ->
  agree (fun a b => Forall2 (like (with_bc F)) (fst a) (fst b) /\ snd a = snd b) (implicitCalc S det q ps) (implicitCalc S det q qs).
Proof.
  intros FD FN L. unfold implicitCalc. assert (X := generate_agree F det ps qs FD FN L). destruct (generateBC det ps) as [[ps1 d]| | | | |] eqn:E, (generateBC det qs) as [[qs1 d']| | | | |]; simpl in X; try contradiction; cbn [bind]; auto.
  destruct X as (L1 & <-). unfold ppe_solve, ppe_setup. rewrite <- (source_agree (with_bc F) q d ps1 qs1) by auto.
  rewrite <- (matrix_agree (with_bc F) q d ps1 qs1); auto; [|intros p IN G; eapply generate_ghosts; eauto].
  rewrite <- (Forall2_length _ _ _ L1). match goal with |- agree _ (bind ?x _) _ => destruct x end; cbn [bind]; simpl; auto.
Qed.

(** ** correction *)
Definition with_minp (F : flags) : flags := mkF (f_nbrs F) (f_nd F) (f_bc F) (f_press F) true.
Lemma minp_agree F re ps qs : f_press F = true -> f_nbrs F = true -> Forall2 (like F) ps qs -> agree (Forall2 (like (with_minp F))) (setMinimumPressure re ps) (setMinimumPressure re qs).
Proof.
  intros FP FN L. unfold setMinimumPressure. rewrite !map_length, <- (Forall2_length _ _ _ L).
  assert (L1 : Forall2 (like (with_minp F)) (map (fun p => set_minp p (p_press p)) ps) (map (fun p => set_minp p (p_press p)) qs)).
  { eapply map_agree; [exact L|]. intros p q (A & B & C & D & E & G). split; [exact A|]. split; [exact B|]. split; [exact C|]. split; [exact D|]. split; [exact E|]. intros _. cbn. auto. }
  apply foldM_agree; [|exact L1]. clear L L1. generalize (List.length ps). intros _. clear ps qs. intros i ps qs L. unfold minp1.
  eapply agree_bind; [apply vget_agree; exact L|]. intros p p' P. rewrite <- (like_god _ p p' P). destruct (ghost_or_dummy p) eqn:G; [exact L|].
  assert (NG : p_type p <> Ghost) by (intros X; unfold ghost_or_dummy, is_type in G; rewrite X in G; discriminate).
  assert (NB : p_nbrs p = p_nbrs p') by (apply P; auto). rewrite <- NB. apply foldM_agree; [|exact L]. clear L ps qs p p' P G NG NB. intros nb ps qs L. unfold minp_pair.
  eapply agree_bind; [apply vget_agree; exact L|]. intros p p' P. eapply agree_bind; [apply vget_agree; exact L|]. intros q q' Q. rewrite <- (like_god _ q q' Q). destruct (ghost_or_dummy q); [exact L|].
  assert (IP : p_id p = p_id p') by apply P. assert (IQ : p_id q = p_id q') by apply Q. assert (PP : p_press p = p_press p') by (apply P; auto). assert (PQ : p_press q = p_press q') by (apply Q; auto).
  rewrite <- IP, <- IQ, <- PP, <- PQ. destruct (p_id p <? p_id q); [exact L|]. destruct (nlt _ _); [|exact L].
  assert (M : forall x a b, like (with_minp F) a b -> like (with_minp F) (set_minp a (nmin (p_minp a) x)) (set_minp b (nmin (p_minp b) x))).
  { intros x a b (A & B & C & D & E & G). split; [exact A|]. split; [exact B|]. split; [exact C|]. split; [exact D|]. split; [exact E|]. intros _. cbn. rewrite G; auto. }
  eapply agree_bind; [apply vmod_agree; [exact L|apply M]|]. intros ps1 qs1 L1. apply vmod_agree; [exact L1|apply M].
Qed.
Lemma gradient_agree F s rv re ps qs : f_press F = true -> f_minp F = true -> f_nbrs F = true -> Forall2 (like F) ps qs ->
  agree (Forall2 (like F)) (calPressureGradient s rv re ps) (calPressureGradient s rv re qs).
Proof.
  intros FP FM FN L. unfold calPressureGradient. apply each_agree with (R := like F); auto. intros v w p q VW PQ. unfold calPressureGradient1. rewrite <- (like_type _ p q Fluid PQ).
  destruct (is_type p Fluid) eqn:FL; cbn [negb]; [|exact PQ].
  assert (NB : p_nbrs p = p_nbrs q) by (apply PQ; auto; unfold is_type in FL; apply Z.eqb_eq in FL; rewrite FL; discriminate). rewrite <- NB.
  eapply agree_bind; [apply (foldM_agree eq); [|reflexivity]|].
  - intros n a a' <-. unfold grad_term. eapply agree_bind; [apply vget_agree; exact VW|]. intros u u' U. rewrite <- (like_god _ u u' U).
    assert (XU : p_pos u = p_pos u') by apply U. assert (PU : p_press u = p_press u') by (apply U; auto). assert (XP : p_pos p = p_pos q) by apply PQ. assert (MP : p_minp p = p_minp q) by (apply PQ; auto).
    rewrite <- XU, <- PU, <- XP, <- MP. apply agree_eq.
  - intros a a' <-. simpl. same PQ.
Qed.
Lemma correct_agree F s ps qs : Forall2 (like F) ps qs -> Forall2 (like F) (moveParticleUsingPressureGradient s ps) (moveParticleUsingPressureGradient s qs).
Proof.
  intros L. unfold moveParticleUsingPressureGradient. eapply map_agree; [exact L|]. intros p q PQ. unfold correct1. rewrite <- (like_type _ p q Fluid PQ). destruct (is_type p Fluid); same PQ.
Qed.
Lemma courant_agree F s ps qs : Forall2 (like F) ps qs -> calCourant s ps = calCourant s qs.
Proof.
  intros L. unfold calCourant. assert (E : forall c, fold_left (courant1 s) ps c = fold_left (courant1 s) qs c).
  { induction L as [|p q ps qs PQ L IH]; intros c; [reflexivity|]. cbn [fold_left]. unfold courant1 at 2 4. rewrite <- (like_type _ p q Fluid PQ). assert (V : p_vel p = p_vel q) by apply PQ. rewrite <- V. apply IH. }
  now rewrite E.
Qed.

(** ** the step *)
Lemma like_mono F G p q : (f_nbrs G = true -> f_nbrs F = true) -> (f_nd G = true -> f_nd F = true) -> (f_bc G = true -> f_bc F = true) -> (f_press G = true -> f_press F = true) -> (f_minp G = true -> f_minp F = true) ->
  like F p q -> like G p q.
Proof. unfold like. intuition. Qed.
Lemma likes_mono F G ps qs : (f_nbrs G = true -> f_nbrs F = true) -> (f_nd G = true -> f_nd F = true) -> (f_bc G = true -> f_bc F = true) -> (f_press G = true -> f_press F = true) -> (f_minp G = true -> f_minp F = true) ->
  Forall2 (like F) ps qs -> Forall2 (like G) ps qs.
Proof. intros A B C D E. apply Forall2_impl. intros a b. now apply like_mono. Qed.
Lemma like_result B p q : like (mkF true true B true true) p q -> same_result p q.
Proof. unfold like, same_result, alike, close. cbn. intuition. Qed.
Definition explicit_calc (k : calculator) : bool := match k with Explicit _ _ => true | Implicit _ _ => false end.

Lemma step_like S B m r : sound m -> sound r -> same_setup m r -> Forall2 alike (m_ps m) (m_ps r) -> (B = true -> same_marks m r) ->
  agree (fun m' r' => same_setup m' r' /\ m_ns m' = m_ns r' /\ m_courant m' = m_courant r' /\ Forall2 (like (mkF true true (B || negb (explicit_calc (m_calc m))) true true)) (m_ps m') (m_ps r') /\
    (m_cflErrors m' - m_cflErrors m = m_cflErrors r' - m_cflErrors r)%nat) (stepForward S m) (stepForward S r).
Proof.
  intros (IM & AM & UM) (IR & AR & UR) (ES & EG & E1 & E2 & E3 & EC) L MK.
  assert (L0 : Forall2 (like (mkF false false B false false)) (m_ps m) (m_ps r)).
  { apply Forall2_of_nth; [symmetry; eapply Forall2_length; eauto|]. intros i p q P Q. destruct (BaseFacts.Forall2_nth _ _ _ _ _ L P) as (q' & Q' & X). rewrite Q in Q'. injection Q' as <-.
    destruct X as (? & ? & ? & ? & ?). unfold like. cbn. split.
    - repeat split; auto. assert (p_acc p = vzero) by (eapply AM; eauto using nth_error_In). assert (p_acc q = vzero) by (eapply AR; eauto using nth_error_In). congruence.
    - repeat split; try discriminate. intros HB. destruct (BaseFacts.Forall2_nth _ _ _ _ _ (MK HB) P) as (q' & Q' & X). rewrite Q in Q'. injection Q' as <-. exact X. }
  assert (NS : setNeighbors (m_ns m) (m_ps r) = setNeighbors (m_ns r) (m_ps r)).
  { apply (search_history (s_reMax (m_settings r)) (s_domain (m_settings r))); auto. rewrite <- ES, <- (Forall2_length _ _ _ L). exact UM. }
  unfold stepForward, stepMove, stepCollide, stepPressure, stepCorrect. rewrite <- NS, <- ES, <- EG, <- E2, <- E3, <- EC.
  eapply agree_bind with (R := tied2 (mkF true false B false false)).
  { eapply agree_bind; [apply (setNeighbors_agree _ _ _ _ L0)|]. intros [n1 p1] [n1' q1] (N1 & P1). cbn [fst snd] in N1, P1. subst n1'.
    eapply agree_bind; [apply visc_agree; [|apply gravity_agree; exact P1]; reflexivity|]. intros p2 q2 P2. simpl. split; [reflexivity|]. cbn [snd]. now apply move_agree. }
  intros [n1 p1] [n1' q1] (N1 & P1). cbn [fst snd] in N1, P1. subst n1'.
  eapply agree_bind with (R := tied2 (mkF true false B false false)).
  { eapply agree_bind; [apply (setNeighbors_agree _ _ _ _ P1)|]. intros [n2 p2] [n2' q2] (N2 & P2). cbn [fst snd] in N2, P2. subst n2'.
    eapply agree_bind; [apply collision_agree; [|exact P2]; reflexivity|]. intros p3 q3 P3. split; [reflexivity|exact P3]. }
  clear p1 q1 P1 n1. intros [n1 p1] [n1' q1] (N1 & P1). cbn [fst snd] in N1, P1. subst n1'.
  eapply agree_bind with (R := tied2 (mkF true true (B || negb (explicit_calc (m_calc m))) true false)).
  { eapply agree_bind; [apply (setNeighbors_agree _ _ _ _ P1)|]. intros [n2 p2] [n2' q2] (N2 & P2). cbn [fst snd] in N2, P2. subst n2'.
    eapply agree_bind; [apply density_agree; [|exact P2]; reflexivity|]. intros p3 q3 P3.
    eapply agree_bind with (R := fun a b => Forall2 (like (mkF true true (B || negb (explicit_calc (m_calc m))) false false)) (fst a) (fst b) /\ snd a = snd b).
    { unfold calc. destruct (m_calc m) as [det q|n0 c]; cbn [explicit_calc negb]; rewrite ?orb_true_r, ?orb_false_r.
      - eapply agree_impl; [apply implicit_agree; [| |exact P3]; reflexivity|]. intros a b X. exact X.
      - change (Forall2 (like (mkF true true B false false)) p3 q3) in P3. rewrite <- (explicit_agree (mkF true true B false false) n0 c p3 q3 eq_refl P3). destruct (explicitCalc n0 c p3); cbn [bind]; simpl; auto. }
    intros [p4 x] [q4 x'] (P4 & X). cbn [fst snd] in P4, X. subst x'. eapply agree_bind; [apply (assign_agree _ x _ _ P4)|]. intros p5 q5 P5. split; [reflexivity|exact P5]. }
  clear p1 q1 P1 n1. intros [n1 p1] [n1' q1] (N1 & P1). cbn [fst snd] in N1, P1. subst n1'.
  eapply agree_bind with (R := Forall2 (like (mkF true true (B || negb (explicit_calc (m_calc m))) true true))).
  { eapply agree_bind; [apply (minp_agree (mkF true true (B || negb (explicit_calc (m_calc m))) true false) _ _ _ eq_refl eq_refl P1)|]. intros p2 q2 P2. eapply agree_bind; [apply (gradient_agree (mkF true true (B || negb (explicit_calc (m_calc m))) true true) _ _ _ _ _ eq_refl eq_refl eq_refl P2)|]. intros p3 q3 P3.
    assert (P4 := correct_agree _ (m_settings m) _ _ P3). destruct (m_calc m) as [det q|n0 c]; cbn [explicit_calc negb] in *; rewrite ?orb_true_r, ?orb_false_r in *; [exact P4|].
    rewrite <- (explicit_agree (mkF true true B true true) n0 c _ _ eq_refl P4). destruct (explicitCalc n0 c _) as [x| | | | |]; cbn [bind]; try (simpl; auto; fail). exact (assign_agree _ x _ _ P4). }
  clear p1 q1 P1. intros p q P. rewrite <- (courant_agree _ _ _ _ P). destruct (calCourant (m_settings m) p) as [c err]. simpl.
  split; [unfold same_setup; cbn; repeat split; auto|]. split; [reflexivity|]. split; [reflexivity|]. split; [exact P|]. destruct err; lia.
Qed.

Lemma agree_both {A B} (R R' : A -> B -> Prop) (P : Prop) x y : agree R x y -> (P -> agree R' x y) -> agree (fun a b => R a b /\ (P -> R' a b)) x y.
Proof. destruct x, y; simpl; auto. Qed.
Lemma step_agree S m r : sound m -> sound r -> same_setup m r -> Forall2 alike (m_ps m) (m_ps r) ->
  agree (fun m' r' => same_setup m' r' /\ m_ns m' = m_ns r' /\ m_courant m' = m_courant r' /\ (m_cflErrors m' - m_cflErrors m = m_cflErrors r' - m_cflErrors r)%nat /\
    Forall2 same_result (m_ps m') (m_ps r') /\ (marking (m_calc m) \/ same_marks m r -> same_marks m' r')) (stepForward S m) (stepForward S r).
Proof.
  intros SM SR E L. eapply agree_impl.
  - apply (agree_both (fun m' r' => same_setup m' r' /\ m_ns m' = m_ns r' /\ m_courant m' = m_courant r' /\ (m_cflErrors m' - m_cflErrors m = m_cflErrors r' - m_cflErrors r)%nat /\
      Forall2 same_result (m_ps m') (m_ps r')) same_marks (marking (m_calc m) \/ same_marks m r)).
    + eapply agree_impl; [apply (step_like S false m r SM SR E L); discriminate|]. intros m' r' (A & B & C & D & X). split; [exact A|]. split; [exact B|]. split; [exact C|]. split; [exact X|]. eapply Forall2_impl; [|exact D]. intros a b. apply like_result.
    + intros H. assert (Q : exists B, (B = true -> same_marks m r) /\ B || negb (explicit_calc (m_calc m)) = true).
      { destruct H as [H|H]; [exists false; split; [discriminate|]; destruct (m_calc m); [reflexivity|contradiction]|exists true; auto]. }
      destruct Q as (B & HB & T). eapply agree_impl; [apply (step_like S B m r SM SR E L HB)|]. intros m' r' (_ & _ & _ & D & _). rewrite T in D. eapply Forall2_impl; [|exact D]. intros a b X. apply X. reflexivity.
  - intros m' r' ((A & B & C & D & X) & Y). repeat split; auto; apply A.
Qed.
End Resume.
