(** * Every parallel loop computes what the sequential model computes *)
From Verif Require Import StageFacts.
From Verif Require Export Loops.

Section LoopFacts.
Context {N : Num}.
Local Open Scope num_scope.
Notation "x <~ p ;; k" := (bindP p (fun x => k)) (at level 61, p at next level, right associativity).

(** ** The memory *)
Lemma vat_upd_same {A} (l : list A) i a b : vat l i = Some b -> vat (upd l (Z.to_nat i) a) i = Some a.
Proof. unfold vat. destruct (Z.ltb_spec i 0); [discriminate|]. intros Hx. rewrite nth_upd, Nat.eqb_refl, Hx. reflexivity. Qed.
Lemma vat_upd_other {A} (l : list A) i j a b : vat l i = Some b -> i <> j -> vat (upd l (Z.to_nat i) a) j = vat l j.
Proof. unfold vat. destruct (Z.ltb_spec i 0); [discriminate|]. intros _ Hx. destruct (Z.ltb_spec j 0); auto. rewrite nth_upd_other; auto. lia. Qed.
Lemma upd_comm {A} (l : list A) i j a b : i <> j -> upd (upd l i a) j b = upd (upd l j b) i a.
Proof. revert i j. induction l as [|x l IH]; destruct i, j; simpl; intros; auto; try congruence. f_equal. apply IH. congruence. Qed.
Lemma upd_upd {A} (l : list A) i a b : upd (upd l i a) i b = upd l i b.
Proof. revert i. induction l as [|x l IH]; destruct i; simpl; auto. now rewrite IH. Qed.
Lemma vput_comm {A} (l : list A) i j a b l1 l2 : vput l i a = Some l1 -> vput l j b = Some l2 -> i <> j ->
  exists l3, vput l1 j b = Some l3 /\ vput l2 i a = Some l3.
Proof.
  unfold vput. intros H1 H2 Nij. destruct (vat l i) as [x|] eqn:Vi; [|discriminate]. destruct (vat l j) as [y|] eqn:Vj; [|discriminate]. inv H1. inv H2.
  rewrite (vat_upd_other _ _ _ _ _ Vi) by auto. rewrite (vat_upd_other _ _ _ _ _ Vj) by auto. rewrite Vi, Vj. eexists. split; eauto. f_equal. apply upd_comm.
  unfold vat in *. destruct (Z.ltb_spec i 0); [discriminate|]. destruct (Z.ltb_spec j 0); [discriminate|]. lia.
Qed.
Lemma vput_back {A} (l : list A) i j a b l1 l3 : vput l i a = Some l1 -> i <> j -> vput l1 j b = Some l3 -> exists l2, vput l j b = Some l2.
Proof.
  unfold vput. intros H1 Nij H3. destruct (vat l i) as [x|] eqn:Vi; [|discriminate]. inv H1. rewrite (vat_upd_other _ _ _ _ _ Vi) in H3 by auto. destruct (vat l j); [eauto|discriminate].
Qed.
Lemma vput_at {A} (l : list A) i a l' : vput l i a = Some l' -> vat l' i = Some a.
Proof. unfold vput. destruct (vat l i) eqn:E; [|discriminate]. intros H. inv H. now apply vat_upd_same with a0. Qed.
Lemma vput_other {A} (l : list A) i j a l' : vput l i a = Some l' -> i <> j -> vat l' j = vat l j.
Proof. unfold vput. destruct (vat l i) eqn:E; [|discriminate]. intros H Nij. inv H. now apply vat_upd_other with a0. Qed.

Lemma loc_dec (l l' : loc) : {l = l'} + {l <> l'}.
Proof. decide equality; try apply Z.eq_dec. decide equality. Defined.
Lemma fget_fset f v p : fget f (fset f v p) = v.
Proof. destruct f; reflexivity. Qed.
Lemma fget_fset_other f g v p : f <> g -> fget g (fset f v p) = fget g p.
Proof. destruct f, g; intros H; try reflexivity; congruence. Qed.
Lemma fset_comm f g v w p : f <> g -> fset g w (fset f v p) = fset f v (fset g w p).
Proof. destruct f, g; intros H; try reflexivity; congruence. Qed.

Lemma read_write h l v h' l' : write h l v = Some h' -> l <> l' -> read h' l' = read h l'.
Proof.
  intros W Nl. destruct l as [f i|i|i|i|i|i]; simpl in W.
  - destruct (vat (h_ps h) i) as [p|] eqn:V; [|discriminate]. inv W. destruct l' as [g j|j|j|j|j|j]; try reflexivity. simpl.
    destruct (Z.eq_dec i j) as [<-|NE].
    + rewrite (vat_upd_same _ _ _ _ V), V. simpl. rewrite fget_fset_other; auto. congruence.
    + now rewrite (vat_upd_other _ _ _ _ _ V).
  - destruct (vput (h_first h) i v) eqn:V; [|discriminate]. inv W. destruct l' as [g j|j|j|j|j|j]; try reflexivity. apply (vput_other _ _ _ _ _ V). congruence.
  - destruct (vput (h_last h) i v) eqn:V; [|discriminate]. inv W. destruct l' as [g j|j|j|j|j|j]; try reflexivity. apply (vput_other _ _ _ _ _ V). congruence.
  - destruct (vput (h_next h) i v) eqn:V; [|discriminate]. inv W. destruct l' as [g j|j|j|j|j|j]; try reflexivity. apply (vput_other _ _ _ _ _ V). congruence.
  - destruct (vput (h_vec h) i v) eqn:V; [|discriminate]. inv W. destruct l' as [g j|j|j|j|j|j]; try reflexivity. apply (vput_other _ _ _ _ _ V). congruence.
  - destruct (vput (h_src h) i v) eqn:V; [|discriminate]. inv W. destruct l' as [g j|j|j|j|j|j]; try reflexivity. apply (vput_other _ _ _ _ _ V). congruence.
Qed.
Lemma read_write_same h l v h' : write h l v = Some h' -> read h' l = Some v.
Proof.
  intros W. destruct l as [f i|i|i|i|i|i]; simpl in W.
  - destruct (vat (h_ps h) i) as [p|] eqn:V; [|discriminate]. inv W. simpl. rewrite (vat_upd_same _ _ _ _ V). simpl. now rewrite fget_fset.
  - destruct (vput (h_first h) i v) eqn:V; [|discriminate]. inv W. apply (vput_at _ _ _ _ V).
  - destruct (vput (h_last h) i v) eqn:V; [|discriminate]. inv W. apply (vput_at _ _ _ _ V).
  - destruct (vput (h_next h) i v) eqn:V; [|discriminate]. inv W. apply (vput_at _ _ _ _ V).
  - destruct (vput (h_vec h) i v) eqn:V; [|discriminate]. inv W. apply (vput_at _ _ _ _ V).
  - destruct (vput (h_src h) i v) eqn:V; [|discriminate]. inv W. apply (vput_at _ _ _ _ V).
Qed.
Ltac wcase H := simpl in H; match type of H with
  | match vat ?a ?b with _ => _ end = _ => let V := fresh "V" in destruct (vat a b) eqn:V; [|discriminate H]
  | option_map _ (vput ?a ?b ?c) = _ => let V := fresh "V" in destruct (vput a b c) eqn:V; [|discriminate H]
  end; inv H.
Lemma write_write h l v h1 l' v' h2 : write h l v = Some h1 -> write h l' v' = Some h2 -> l <> l' ->
  exists h3, write h1 l' v' = Some h3 /\ write h2 l v = Some h3.
Proof.
  intros W1 W2 Nl. destruct l as [f i|i|i|i|i|i], l' as [g j|j|j|j|j|j]; wcase W1; wcase W2; simpl;
  try (rewrite V, V0; simpl; eexists; split; reflexivity);
  try (destruct (vput_comm _ i j _ _ _ _ V V0) as (l3 & X & Y); [congruence|]; rewrite X, Y; simpl; eexists; split; reflexivity).
  destruct (Z.eq_dec i j) as [<-|NE].
  - rewrite V in V0. inv V0. rewrite (vat_upd_same _ _ _ _ V), (vat_upd_same _ _ _ _ V). unfold set_ps; simpl. rewrite !upd_upd, fset_comm by congruence. eauto.
  - rewrite (vat_upd_other _ _ _ _ _ V) by auto. rewrite (vat_upd_other _ _ _ _ _ V0) by auto. rewrite V, V0. unfold set_ps; simpl.
    rewrite upd_comm; eauto. unfold vat in V, V0. destruct (Z.ltb_spec i 0); [discriminate|]. destruct (Z.ltb_spec j 0); [discriminate|]. lia.
Qed.
Lemma write_back h l v h1 l' v' h3 : write h l v = Some h1 -> l <> l' -> write h1 l' v' = Some h3 -> exists h2, write h l' v' = Some h2.
Proof.
  intros W1 Nl W3. destruct l as [f i|i|i|i|i|i], l' as [g j|j|j|j|j|j]; wcase W1; simpl in W3 |- *; try (match goal with |- exists _, option_map _ ?x = _ => destruct x eqn:X; [simpl; eauto; fail|discriminate W3] end);
  try (destruct (vat (h_ps h) j) eqn:X; [simpl; eauto; fail|discriminate W3]);
  try (match type of W3 with option_map _ ?x = _ => destruct x as [l3|] eqn:X end; [|discriminate W3]; destruct (vput_back _ i j _ _ _ _ V ltac:(congruence) X) as [l2 Y]; rewrite Y; simpl; eauto).
  destruct (Z.eq_dec i j) as [<-|NE].
  - rewrite V. eauto.
  - rewrite (vat_upd_other _ _ _ _ _ V) in W3 by auto. destruct (vat (h_ps h) j); [eauto|discriminate].
Qed.

(** ** Running programs *)
Notation runP := (run read write).
Lemma run_bind {A B} (p : P A) (f : A -> P B) h : runP (bindP p f) h = ('(a, h') <- runP p h ;; runP (f a) h').
Proof.
  revert h. induction p as [a|e|l k IH|l v p IH]; intros h; simpl; auto.
  - now destruct e; try destruct a.
  - destruct (read h l); auto.
  - destruct (write h l v); auto.
Qed.
Lemma run_lift {A} (o : outcome A) h : runP (lift o) h = (a <- o ;; Ok (a, h)).
Proof. now destruct o. Qed.
Lemma run_get l h : runP (get l) h = match read h l with Some v => Ok (v, h) | None => Undef OutOfBounds end.
Proof. reflexivity. Qed.
Lemma run_put l v h : runP (put l v) h = match write h l v with Some h' => Ok (tt, h') | None => Undef OutOfBounds end.
Proof. reflexivity. Qed.
Lemma bind_bind {A B C} (m : outcome A) (f : A -> outcome B) (g : B -> outcome C) : bind (bind m f) g = bind m (fun a => bind (f a) g).
Proof. now destruct m. Qed.
Lemma run_fold_pure {S A} (f : A -> S -> P S) (g : A -> S -> outcome S) xs h : (forall x s, In x xs -> runP (f x s) h = (s' <- g x s ;; Ok (s', h))) ->
  forall s, runP (foldP f xs s) h = (s' <- foldM g xs s ;; Ok (s', h)).
Proof.
  induction xs as [|x xs IH]; intros H s; simpl; auto. rewrite run_bind, (H x s) by now left. rewrite !bind_bind. destruct (g x s); simpl; auto. apply IH. intros; apply H; now right.
Qed.

(** a loop over particles where each iteration rewrites its own particle *)
Definition estep {A} (body : list A -> A -> outcome A) (i : nat) (w : list A) : outcome (list A) :=
  match nth_error w i with Some a => a' <- body w a ;; Ok (upd w i a') | None => Undef OutOfBounds end.
Lemma seq_each_gen {A} (emb : list A -> heap) (Q : nat -> P unit) (f : list A -> A -> outcome A) n l0 : List.length l0 = n ->
  (forall i l, List.length l = n -> runP (Q i) (emb l) = (l' <- estep f i l ;; Ok (tt, emb l'))) ->
  seqrun read write (map Q (seq 0 n)) (emb l0) = (l <- each f l0 ;; Ok (emb l)).
Proof.
  intros L H. unfold seqrun, each. rewrite L. fold (@estep A f).
  revert l0 L. generalize (seq 0 n) as is_. induction is_ as [|i is_ IH]; intros l L; simpl; auto.
  rewrite H by auto. rewrite !bind_bind. unfold estep at 1. unfold estep at 1.
  destruct (nth_error l i) as [a|]; simpl; auto. destruct (f l a); simpl; auto. apply IH. now rewrite length_upd.
Qed.
Lemma seq_each (Q : nat -> P unit) f n h0 : List.length (h_ps h0) = n ->
  (forall i ps, List.length ps = n -> runP (Q i) (set_ps h0 ps) = (ps' <- estep f i ps ;; Ok (tt, set_ps h0 ps'))) ->
  seqrun read write (map Q (seq 0 n)) h0 = (ps <- each f (h_ps h0) ;; Ok (set_ps h0 ps)).
Proof. intros L H. rewrite <- (seq_each_gen (set_ps h0) Q f n (h_ps h0) L H). now destruct h0. Qed.
Lemma each_map {A} (f : A -> A) ps : each (fun _ p => Ok (f p)) ps = Ok (map f ps).
Proof. rewrite (each_mapM (fun _ => tt) (fun _ p => Ok (f p))); auto. apply mapM_Ok. Qed.

Lemma vat_nat {A} (l : list A) i : vat l (Z.of_nat i) = nth_error l i.
Proof. unfold vat. destruct (Z.ltb_spec (Z.of_nat i) 0); [lia|]. now rewrite Nat2Z.id. Qed.
Lemma vat_vget {A} (l : list A) j : vget l j = match vat l j with Some a => Ok a | None => Undef OutOfBounds end.
Proof. unfold vget, vat. destruct (Z.ltb_spec j 0); auto. Qed.
Lemma run_elem n (ps : list particle) j h : List.length ps = n -> runP (elem n j) h = match vat ps j with Some _ => Ok (tt, h) | None => Undef OutOfBounds end.
Proof.
  intros L. unfold elem, vat. destruct (Z.ltb_spec j 0).
  - replace ((0 <=? j) && (j <? Z.of_nat n))%Z with false; auto. symmetry. apply andb_false_iff. left. apply Z.leb_gt. lia.
  - destruct (nth_error ps (Z.to_nat j)) eqn:E.
    + replace ((0 <=? j) && (j <? Z.of_nat n))%Z with true; auto. symmetry. apply andb_true_iff. split; [apply Z.leb_le; lia|]. apply Z.ltb_lt.
      assert (Z.to_nat j < List.length ps)%nat by (apply nth_error_Some; congruence). lia.
    + apply nth_error_None in E. replace ((0 <=? j) && (j <? Z.of_nat n))%Z with false; auto. symmetry. apply andb_false_iff. right. apply Z.ltb_ge. lia.
Qed.

Lemma run_get_p f ps i p h : nth_error ps i = Some p -> runP (get (LP f (Z.of_nat i))) (set_ps h ps) = Ok (fget f p, set_ps h ps).
Proof. intros E. unfold get. simpl. now rewrite vat_nat, E. Qed.
Lemma run_get_none f ps i h : nth_error ps i = None -> runP (get (LP f (Z.of_nat i))) (set_ps h ps) = Undef OutOfBounds.
Proof. intros E. unfold get. simpl. now rewrite vat_nat, E. Qed.
Lemma run_put_p f v ps i p h : nth_error ps i = Some p -> runP (put (LP f (Z.of_nat i)) v) (set_ps h ps) = Ok (tt, set_ps h (upd ps i (fset f v p))).
Proof. intros E. unfold put. simpl. now rewrite vat_nat, E, Nat2Z.id. Qed.
Lemma run_get_j f ps j h : runP (get (LP f j)) (set_ps h ps) = (p <- vget ps j ;; Ok (fget f p, set_ps h ps)).
Proof. unfold get. simpl. rewrite vat_vget. now destruct (vat ps j). Qed.
Lemma run_elem_j n ps j h : List.length ps = n -> runP (elem n j) (set_ps h ps) = (_ <- vget ps j ;; Ok (tt, set_ps h ps)).
Proof. intros L. rewrite (run_elem n ps) by auto. rewrite vat_vget. now destruct (vat ps j). Qed.
Lemma nth_upd_some {A} (l : list A) i a b : nth_error l i = Some a -> nth_error (upd l i b) i = Some b.
Proof. intros E. rewrite nth_upd, Nat.eqb_refl, E. reflexivity. Qed.

Ltac rg H := rewrite run_bind, (run_get_p _ _ _ _ _ H); cbn [bind fget].
Ltac rp H := rewrite (run_put_p _ _ _ _ _ _ H); cbn [bind fset].

Lemma gravity_run g i ps h : runP (gravityP g (Z.of_nat i)) (set_ps h ps) = (ps' <- estep (fun _ p => Ok (calGravity1 g p)) i ps ;; Ok (tt, set_ps h ps')).
Proof.
  unfold estep, gravityP. destruct (nth_error ps i) as [p|] eqn:E; [|now rewrite run_bind, run_get_none].
  rg E. unfold calGravity1, is_type. destruct (p_type p =? Fluid)%Z.
  - rg E. now rp E.
  - now rp E.
Qed.
Lemma visc_run s re n i p ps h : List.length ps = n -> nth_error ps i = Some p -> forall nb acc,
  runP (_ <~ elem n (nb_id nb) ;;
        if nlt (nb_dist nb) (s_reL s)
        then w <~ lift (weight (s_asserts s) (nb_dist nb) re) ;; vj <~ get (LP FVel (nb_id nb)) ;; vi <~ get (LP FVel (Z.of_nat i)) ;; Ret (vadd acc (vmulr (vsub vj vi) w))
        else Ret acc) (set_ps h ps) = (s' <- visc_term s re ps p nb acc ;; Ok (s', set_ps h ps)).
Proof.
  intros L E nb acc. unfold visc_term. rewrite run_bind, run_elem_j by auto. destruct (vget ps (nb_id nb)) as [pj| | | | |] eqn:V; cbn [bind]; auto.
  destruct (nlt (nb_dist nb) (s_reL s)); auto. rewrite run_bind, run_lift. destruct (weight _ _ _); cbn [bind]; auto.
  rewrite run_bind, run_get_j, V. cbn [bind fget]. rg E. reflexivity.
Qed.
Lemma viscosity_run s rv re n i ps h : List.length ps = n ->
  runP (viscosityP s rv re n (Z.of_nat i)) (set_ps h ps) = (ps' <- estep (calViscosity1 s rv re) i ps ;; Ok (tt, set_ps h ps')).
Proof.
  intros L. unfold estep, viscosityP. destruct (nth_error ps i) as [p|] eqn:E; [|now rewrite run_bind, run_get_none].
  rg E. unfold calViscosity1, is_type. destruct (p_type p =? Fluid)%Z; cbn [negb].
  - rg E. rewrite run_bind, (run_fold_pure _ (visc_term s re ps p)) by (intros; now apply visc_run). rewrite !bind_bind.
    destruct (foldM _ _ _); cbn [bind]; auto. rg E. now rp E.
  - simpl. now rewrite upd_same.
Qed.
Lemma move_run s i ps h : runP (moveP s (Z.of_nat i)) (set_ps h ps) = (ps' <- estep (fun _ p => Ok (moveParticle1 s p)) i ps ;; Ok (tt, set_ps h ps')).
Proof.
  unfold estep, moveP. destruct (nth_error ps i) as [p|] eqn:E; [|now rewrite run_bind, run_get_none].
  rg E. rewrite run_bind. unfold moveParticle1, is_type. destruct (p_type p =? Fluid)%Z.
  - rg E. rg E. rewrite run_bind. rp E. pose proof (nth_upd_some _ _ _ (set_vel p (vadd (p_vel p) (vmulr (p_acc p) (s_dt s)))) E) as E1.
    rg E1. rg E1. rp E1. rewrite upd_upd. erewrite run_put_p by (eapply nth_upd_some; exact E). cbn [bind fset]. now rewrite upd_upd.
  - cbn [run bind]. now rp E.
Qed.
Lemma density_fold s re i p h ps : nth_error ps i = Some p -> forall l x,
  runP (foldP (fun nb _ => w <~ lift (weight (s_asserts s) (nb_dist nb) re) ;; y <~ get (LP FNd (Z.of_nat i)) ;; put (LP FNd (Z.of_nat i)) (y + w)) l tt) (set_ps h (upd ps i (set_nd p x))) =
  (n <- foldM (fun nb n => w <- weight (s_asserts s) (nb_dist nb) re ;; Ok (n + w)) l x ;; Ok (tt, set_ps h (upd ps i (set_nd p n)))).
Proof.
  intros E l. induction l as [|nb l IH]; intros x; cbn [foldP foldM]; [reflexivity|]. rewrite run_bind. rewrite run_bind, run_lift. destruct (weight _ _ _); cbn [bind]; auto.
  pose proof (nth_upd_some _ _ _ (set_nd p x) E) as E1. rg E1. rp E1. rewrite upd_upd. apply IH.
Qed.
Lemma density_run s re i ps h : runP (densityP s re (Z.of_nat i)) (set_ps h ps) = (ps' <- estep (calNumberDensity1 s re) i ps ;; Ok (tt, set_ps h ps')).
Proof.
  unfold estep, densityP. destruct (nth_error ps i) as [p|] eqn:E.
  2:{ rewrite run_bind, run_put. simpl. now rewrite vat_nat, E. }
  rewrite run_bind. rp E. pose proof (nth_upd_some _ _ _ (set_nd p #0) E) as E1. rg E1. unfold calNumberDensity1, is_type. simpl p_type. destruct (p_type p =? Ghost)%Z; auto.
  rg E1. rewrite (density_fold _ _ _ p) by auto. simpl p_nbrs. now rewrite !bind_bind.
Qed.
Lemma sub_run l0 dr n i p ps h : List.length ps = n -> nth_error ps i = Some p ->
  runP (subDetectionP l0 dr n (Z.of_nat i)) (set_ps h ps) = (b <- subDetection l0 dr ps p ;; Ok (b, set_ps h ps)).
Proof.
  intros L E. unfold subDetectionP, subDetection. rg E. destruct (p_nbrs p) as [|nb l]; auto.
  rewrite run_bind, (run_fold_pure _ (fun nb acc => pj <- vget ps (nb_id nb) ;; Ok (vadd acc (vsub (p_pos pj) (p_pos p))))).
  - rewrite !bind_bind. destruct (foldM _ _ _); reflexivity.
  - intros x acc _. rewrite run_bind, run_elem_j by auto. destruct (vget ps (nb_id x)) as [pj| | | | |] eqn:V; cbn [bind]; auto.
    rewrite run_bind, run_get_j, V. cbn [bind fget]. rg E. reflexivity.
Qed.
Lemma boundary_run d n i ps h : List.length ps = n ->
  runP (boundaryP d n (Z.of_nat i)) (set_ps h ps) = (ps' <- estep (setBC1 d) i ps ;; Ok (tt, set_ps h ps')).
Proof.
  intros L. unfold estep, boundaryP. destruct (nth_error ps i) as [p|] eqn:E; [|now rewrite run_bind, run_get_none].
  rg E. unfold setBC1, ghost_or_dummy, is_type. destruct ((p_type p =? Ghost) || (p_type p =? DummyWall))%Z.
  - now rp E.
  - rewrite run_bind. assert (X : runP (surfaceP d n (Z.of_nat i)) (set_ps h ps) = (b <- isFreeSurface d ps p ;; Ok (b, set_ps h ps))).
    { unfold surfaceP, isFreeSurface. rg E. destruct d; auto. destruct (nlt _ _); auto. now apply sub_run. }
    rewrite X, !bind_bind. destruct (isFreeSurface d ps p); cbn [bind]; auto. now rp E.
Qed.
Lemma minimum_run i ps h : runP (minimumP (Z.of_nat i)) (set_ps h ps) = (ps' <- estep (fun _ p => Ok (set_minp p (p_press p))) i ps ;; Ok (tt, set_ps h ps')).
Proof.
  unfold estep, minimumP. destruct (nth_error ps i) as [p|] eqn:E; [|now rewrite run_bind, run_get_none]. rg E. now rp E.
Qed.
Lemma gradient_run s rv re n i ps h : List.length ps = n ->
  runP (gradientP s rv re n (Z.of_nat i)) (set_ps h ps) = (ps' <- estep (calPressureGradient1 s rv re) i ps ;; Ok (tt, set_ps h ps')).
Proof.
  intros L. unfold estep, gradientP. destruct (nth_error ps i) as [p|] eqn:E; [|now rewrite run_bind, run_get_none].
  rg E. unfold calPressureGradient1, is_type. destruct (p_type p =? Fluid)%Z; cbn [negb].
  - rg E. rewrite run_bind, (run_fold_pure _ (grad_term s re ps p)).
    + rewrite !bind_bind. destruct (foldM _ _ _); cbn [bind]; auto. rg E. rg E. now rp E.
    + intros nb acc _. unfold grad_term. rewrite run_bind, run_elem_j by auto. destruct (vget ps (nb_id nb)) as [pj| | | | |] eqn:V; cbn [bind]; auto.
      rewrite run_bind, run_get_j, V. cbn [bind fget]. unfold ghost_or_dummy, is_type. destruct ((p_type pj =? Ghost) || (p_type pj =? DummyWall))%Z; auto.
      destruct (nlt (nb_dist nb) re); auto. rewrite run_bind, run_lift. destruct (weight _ _ _); cbn [bind]; auto.
      rewrite run_bind, run_get_j, V. cbn [bind fget]. rg E. rewrite run_bind, run_get_j, V. cbn [bind fget]. rg E. reflexivity.
  - simpl. now rewrite upd_same.
Qed.
Lemma correct_run s i ps h : runP (correctP s (Z.of_nat i)) (set_ps h ps) = (ps' <- estep (fun _ p => Ok (correct1 s p)) i ps ;; Ok (tt, set_ps h ps')).
Proof.
  unfold estep, correctP. destruct (nth_error ps i) as [p|] eqn:E; [|now rewrite run_bind, run_get_none].
  rg E. rewrite run_bind. unfold correct1, is_type. destruct (p_type p =? Fluid)%Z.
  - rg E. rg E. rewrite run_bind. rp E. pose proof (nth_upd_some _ _ _ (set_vel p (vadd (p_vel p) (vmulr (p_acc p) (s_dt s)))) E) as E1.
    rg E1. rg E1. rp E1. rewrite upd_upd. erewrite run_put_p by (eapply nth_upd_some; exact E). cbn [bind fset]. now rewrite upd_upd.
  - cbn [run bind]. now rp E.
Qed.

(** the neighbour search *)
Lemma vget_upd_nbrs ps i p acc j : nth_error ps i = Some p ->
  (exists q q', vget ps j = Ok q /\ vget (upd ps i (set_nbrs p acc)) j = Ok q' /\ p_pos q' = p_pos q) \/
  (vget ps j = Undef OutOfBounds /\ vget (upd ps i (set_nbrs p acc)) j = Undef OutOfBounds).
Proof.
  intros E. unfold vget. destruct (Z.ltb_spec j 0); auto. rewrite nth_upd. destruct (Nat.eqb_spec i (Z.to_nat j)) as [<-|].
  - rewrite E. left. exists p, (set_nbrs p acc). auto.
  - destruct (nth_error ps (Z.to_nat j)) as [q|]; auto. left. exists q, q. auto.
Qed.
Lemma walk_run re n i p ps h : List.length ps = n -> nth_error ps i = Some p -> forall fuel j acc,
  runP (walkP fuel re n (Z.of_nat i) j) (set_ps h (upd ps i (set_nbrs p acc))) =
  (l <- walk fuel re ps (h_next h) p j acc ;; Ok (tt, set_ps h (upd ps i (set_nbrs p l)))).
Proof.
  intros L E. induction fuel as [|fuel IH]; intros j acc; cbn [walkP walk]; destruct (j =? -1)%Z; auto.
  rewrite run_bind, run_elem_j by (now rewrite length_upd). pose proof (nth_upd_some _ _ _ (set_nbrs p acc) E) as E1.
  destruct (vget_upd_nbrs ps i p acc j E) as [(q & q' & V & V' & X)|(V & V')]; rewrite V, V'; cbn [bind]; auto.
  rewrite run_bind, run_get_j, V'. cbn [bind fget]. rg E1. cbv zeta. rg E1. rewrite run_bind, X. change (p_pos (set_nbrs p acc)) with (p_pos p). change (p_id (set_nbrs p acc)) with (p_id p).
  assert (G : forall acc', runP (j' <~ get (LNext j) ;; walkP fuel re n (Z.of_nat i) j') (set_ps h (upd ps i (set_nbrs p acc'))) =
     (l <- (j' <- vget (h_next h) j ;; walk fuel re ps (h_next h) p j' acc') ;; Ok (tt, set_ps h (upd ps i (set_nbrs p l))))).
  { intros acc'. rewrite run_bind, run_get, vat_vget. cbn [read set_ps h_next]. destruct (vat (h_next h) j); cbn [bind]; auto. }
  destruct (negb (j =? p_id p)%Z && nlt (vnorm (vsub (p_pos q) (p_pos p))) re).
  - rg E1. rp E1. rewrite upd_upd. apply G.
  - cbn [run bind]. apply G.
Qed.
Lemma neighbors_run ns n i ps h b : List.length ps = n -> b = mkB (b_num (ns_bucket ns)) (b_numX (ns_bucket ns)) (b_numY (ns_bucket ns)) (b_numZ (ns_bucket ns)) (b_length (ns_bucket ns)) (b_domain (ns_bucket ns)) (h_next h) (h_first h) (h_last h) ->
  runP (neighborsP ns (Datatypes.S (List.length (h_next h))) n (Z.of_nat i)) (set_ps h ps) = (ps' <- estep (neighborsOf ns b) i ps ;; Ok (tt, set_ps h ps')).
Proof.
  intros L ->. unfold estep, neighborsP. destruct (nth_error ps i) as [p|] eqn:E; [|now rewrite run_bind, run_get_none].
  rg E. unfold neighborsOf, is_type. destruct (p_type p =? Ghost)%Z. { cbn [run bind]. now rewrite upd_same. }
  cbn [b_length b_numX b_numY b_first b_next]. rewrite run_bind. rp E. pose proof (nth_upd_some _ _ _ (set_nbrs p []) E) as E1. rg E1.
  rewrite run_bind, run_lift. change (p_pos (set_nbrs p [])) with (p_pos p). rewrite !bind_bind. destruct (cell _ _ _) as [c| | | | |]; cbn [bind]; auto.
  generalize (around c) as cs. clear E1. generalize (@nil neighbor) as acc. intros acc cs. revert acc. induction cs as [|c' cs IH]; intros acc; cbn [foldP foldM]; auto.
  rewrite run_bind. rewrite run_bind, run_lift, !bind_bind. destruct (flat _ _ c') as [jb| | | | |]; cbn [bind]; auto.
  rewrite run_bind, run_get, vat_vget. cbn [read set_ps h_first]. destruct (vat (h_first h) jb) as [j|]; cbn [bind]; auto.
  rewrite (walk_run (ns_re ns) n i p ps h L E). rewrite !bind_bind. destruct (walk _ _ _ _ _ _ _); cbn [bind]; auto. rewrite IH, !bind_bind. reflexivity.
Qed.

(** loops over particles that fill another vector *)
Lemma seq_fold {X} (Q : nat -> P unit) (g : particle -> X -> outcome X) (emb : X -> heap) ps :
  (forall i p x, nth_error ps i = Some p -> runP (Q i) (emb x) = (x' <- g p x ;; Ok (tt, emb x'))) ->
  forall x, seqrun read write (map Q (seq 0 (List.length ps))) (emb x) = (x' <- foldM g ps x ;; Ok (emb x')).
Proof.
  intros H. assert (G : forall l k x, (forall i, nth_error l i = nth_error ps (k + i)) -> seqrun read write (map Q (seq k (List.length l))) (emb x) = (x' <- foldM g l x ;; Ok (emb x'))).
  { induction l as [|p l IH]; intros k x Hl; auto. unfold seqrun in *. cbn [List.length seq map foldM]. pose proof (Hl O) as H0. simpl in H0. rewrite Nat.add_0_r in H0.
    rewrite (H k p x) by auto. rewrite !bind_bind. destruct (g p x); cbn [bind]; auto. apply IH. intros i. specialize (Hl (Datatypes.S i)). simpl in Hl. rewrite Hl. f_equal. lia. }
  intros x. now apply G.
Qed.
Lemma vput_vset {A} (l : list A) i a : vset l i a = match vput l i a with Some l' => Ok l' | None => Undef OutOfBounds end.
Proof.
  unfold vset, vput, vat. destruct (Z.ltb_spec i 0); auto. destruct (Nat.ltb_spec (Z.to_nat i) (List.length l)).
  - destruct (nth_error l (Z.to_nat i)) eqn:E; auto. apply nth_error_None in E. lia.
  - apply nth_error_None in H0. now rewrite H0.
Qed.
Lemma run_get_h f h i p : nth_error (h_ps h) i = Some p -> runP (get (LP f (Z.of_nat i))) h = Ok (fget f p, h).
Proof. intros E. unfold get. simpl. now rewrite vat_nat, E. Qed.
Ltac rh := rewrite run_bind; erewrite run_get_h by eassumption; cbn [bind fget].
Lemma explicit_run n0 c i p h x : nth_error (h_ps h) i = Some p ->
  runP (explicitP n0 c (Z.of_nat i)) (set_vec h x) = (x' <- vset x (p_id p) (explicit1 n0 c p) ;; Ok (tt, set_vec h x')).
Proof.
  intros E. assert (E' : nth_error (h_ps (set_vec h x)) i = Some p) by exact E.
  assert (G : forall v, runP (put (LVec (p_id p)) v) (set_vec h x) = (x' <- vset x (p_id p) v ;; Ok (tt, set_vec h x'))).
  { intros v. rewrite run_put, vput_vset. simpl. now destruct (vput x (p_id p) v). }
  unfold explicitP, explicit1, is_type. rh. destruct (p_type p =? Ghost)%Z.
  - rh. apply G.
  - rh. rh. rh. destruct (nlt n0 (p_nd p)); apply G.
Qed.
Lemma source_run q d i p h x : nth_error (h_ps h) i = Some p ->
  runP (sourceP q d (Z.of_nat i)) (set_src h x) = (x' <- (y <- source1 q d p ;; vset x (p_id p) (Some y)) ;; Ok (tt, set_src h x')).
Proof.
  intros E. assert (E' : nth_error (h_ps (set_src h x)) i = Some p) by exact E.
  assert (G : forall v, runP (put (LSrc (p_id p)) v) (set_src h x) = (x' <- vset x (p_id p) v ;; Ok (tt, set_src h x'))).
  { intros v. rewrite run_put, vput_vset. simpl. now destruct (vput x (p_id p) v). }
  unfold sourceP, source1. rh. destruct (dbc_contains d (p_id p)).
  - rewrite run_bind, run_lift, !bind_bind. destruct (dbc_value d (p_id p)); cbn [bind]; auto.
  - rh. cbn [bind]. apply G.
Qed.
Lemma clip_run i h l : runP (clipP (Z.of_nat i)) (set_vec h l) = (l' <- estep (fun _ x => Ok (if nlt x #0 then #0 else x)) i l ;; Ok (tt, set_vec h l')).
Proof.
  unfold clipP, estep. rewrite run_bind, run_get. cbn [read set_vec h_vec]. rewrite vat_nat. destruct (nth_error l i) as [x|] eqn:E; cbn [bind]; auto.
  destruct (nlt x #0).
  - rewrite run_put. simpl. unfold vput. rewrite vat_nat, E. simpl. now rewrite Nat2Z.id.
  - simpl. now rewrite upd_same.
Qed.

(** the reset loops *)
Lemma upd_reset (l : list Z) k : (k < List.length l)%nat -> upd (repeat (-1)%Z k ++ skipn k l) k (-1)%Z = repeat (-1)%Z (Datatypes.S k) ++ skipn (Datatypes.S k) l.
Proof.
  revert l. induction k as [|k IH]; intros [|x l] H; simpl in *; try lia; auto. f_equal. rewrite (IH l) by lia. reflexivity.
Qed.
Lemma vput_reset (l : list Z) k : (k < List.length l)%nat -> vput (repeat (-1)%Z k ++ skipn k l) (Z.of_nat k) (-1)%Z = Some (repeat (-1)%Z (Datatypes.S k) ++ skipn (Datatypes.S k) l).
Proof.
  intros H. unfold vput. rewrite vat_nat, Nat2Z.id, upd_reset by auto. destruct (nth_error _ k) eqn:E; auto. apply nth_error_None in E.
  rewrite app_length, repeat_length, skipn_length in E. lia.
Qed.
Lemma seqrun_app ts ts' h : seqrun read write (ts ++ ts') h = (h' <- seqrun read write ts h ;; seqrun read write ts' h').
Proof. apply foldM_app. Qed.
Lemma reset_run n h : (n <= List.length (h_first h))%nat -> (n <= List.length (h_last h))%nat ->
  seqrun read write (map (fun i => resetP (Z.of_nat i)) (seq 0 n)) h =
  Ok (set_last (set_first h (repeat (-1)%Z n ++ skipn n (h_first h))) (repeat (-1)%Z n ++ skipn n (h_last h))).
Proof.
  induction n as [|n IH]; intros L1 L2.
  - simpl. unfold seqrun. simpl. now destruct h.
  - rewrite seq_S, map_app, seqrun_app, IH by lia. cbn [bind Nat.add map]. unfold seqrun, foldM. unfold resetP. rewrite run_bind, run_put. cbn [write set_last set_first h_first].
    rewrite vput_reset by lia. cbn [option_map bind]. rewrite run_put. cbn [write set_last set_first h_last]. rewrite vput_reset by lia. reflexivity.
Qed.
Lemma reset_next_run n h : (n <= List.length (h_next h))%nat ->
  seqrun read write (map (fun i => resetNextP (Z.of_nat i)) (seq 0 n)) h = Ok (set_next h (repeat (-1)%Z n ++ skipn n (h_next h))).
Proof.
  induction n as [|n IH]; intros L1.
  - simpl. unfold seqrun. simpl. now destruct h.
  - rewrite seq_S, map_app, seqrun_app, IH by lia. cbn [bind Nat.add map]. unfold seqrun, foldM. unfold resetNextP. rewrite run_put. cbn [write set_next h_next].
    rewrite vput_reset by lia. reflexivity.
Qed.

(** the iterations run one after the other are the sequential model *)
Lemma sequential_run L h : starts L h -> seqrun read write (iterations L h) h = sequential L h.
Proof.
  intros [I S]. unfold iterations. destruct L; cbn [body trips sequential].
  - rewrite (seq_each _ (fun _ p => Ok (calGravity1 g p))) by (auto; intros; apply gravity_run). now rewrite each_map.
  - apply (seq_each _ (calViscosity1 s rv re)); auto. intros. now apply viscosity_run.
  - rewrite (seq_each _ (fun _ p => Ok (moveParticle1 s p))) by (auto; intros; apply move_run). now rewrite each_map.
  - apply (seq_each _ (calNumberDensity1 s re)); auto. intros. now apply density_run.
  - apply (seq_each _ (setBC1 d)); auto. intros. now apply boundary_run.
  - rewrite (seq_each _ (fun _ p => Ok (set_minp p (p_press p)))) by (auto; intros; apply minimum_run). now rewrite each_map.
  - apply (seq_each _ (calPressureGradient1 s rv re)); auto. intros. now apply gradient_run.
  - rewrite (seq_each _ (fun _ p => Ok (correct1 s p))) by (auto; intros; apply correct_run). now rewrite each_map.
  - apply (seq_each _ (neighborsOf ns _)); auto. intros. now apply neighbors_run.
  - apply reset_run; lia.
  - now apply reset_next_run.
  - replace h with (set_vec h (h_vec h)) at 2 by now destruct h. rewrite (seq_fold _ (fun pi v => vset v (p_id pi) (explicit1 n0 c pi)) (set_vec h) (h_ps h)).
    + unfold explicitCalc. now rewrite S.
    + intros. now apply explicit_run.
  - replace h with (set_src h (h_src h)) at 2 by now destruct h. rewrite (seq_fold _ (fun pi v => x <- source1 q d pi ;; vset v (p_id pi) (Some x)) (set_src h) (h_ps h)).
    + unfold setSourceTerm. now rewrite S.
    + intros. now apply source_run.
  - replace h with (set_vec h (h_vec h)) at 2 by now destruct h.
    rewrite (seq_each_gen (set_vec h) _ (fun _ x => Ok (if nlt x #0 then #0 else x)) _ (h_vec h) eq_refl) by (intros; apply clip_run). now rewrite each_map.
Qed.

(** ** Who writes what *)
Definition okv (l : loc) : lval l -> Prop :=
  match l with
  | LP f i => match f return fval f -> Prop with FId => fun v => v = i | _ => fun _ => True end
  | _ => fun _ => True
  end.
Definition owned (L : omp_loop) (j : nat) : list loc :=
  let i := Z.of_nat j in
  match L with
  | CalGravity _ | CalViscosity _ _ _ | CalPressureGradient _ _ _ => [LP FAcc i]
  | MoveParticle _ | MoveByPressureGradient _ => [LP FVel i; LP FPos i; LP FAcc i]
  | CalNumberDensity _ _ => [LP FNd i]
  | SetBoundaryCondition _ => [LP FBc i]
  | InitMinimumPressure => [LP FMinp i]
  | SetNeighbors _ => [LP FNbrs i]
  | ResetFirstLast _ => [LFirst i; LLast i]
  | ResetNext => [LNext i]
  | ExplicitCalc _ _ | RemoveNegative => [LVec i]
  | SetSourceTerm _ _ => [LSrc i]
  end.
Definition owns (L : omp_loop) (j : nat) (l : loc) : Prop := In l (owned L j).
Notation wi L i := (within okv (owns L) i).

Lemma within_bind {A B} L i (p : P A) (f : A -> P B) : wi L i p -> (forall a, wi L i (f a)) -> wi L i (bindP p f).
Proof. intros Wp Wf. induction Wp; simpl; auto; constructor; auto. Qed.
Lemma within_get {B} L i l (f : lval l -> P B) : (forall j, owns L j l -> j = i) -> (forall v, okv l v -> wi L i (f v)) -> wi L i (bindP (get l) f).
Proof. intros F W. simpl. constructor; auto. Qed.
Lemma within_put L i l v : owns L i l -> okv l v -> wi L i (put l v).
Proof. intros O V. constructor; auto. constructor. Qed.
Lemma within_fold {S A} L i (f : A -> S -> P S) : (forall x s, wi L i (f x s)) -> forall xs s, wi L i (foldP f xs s).
Proof. intros H. induction xs as [|x xs IH]; intros s; simpl; [constructor|]. now apply within_bind. Qed.
Lemma within_lift {A} L i (o : outcome A) : wi L i (lift o).
Proof. destruct o; constructor. Qed.
Lemma within_elem L i n j : wi L i (elem n j).
Proof. unfold elem. destruct (_ && _); constructor. Qed.

Ltac own := unfold owns, owned; simpl; intuition (try discriminate; try congruence).
Ltac alien := let j := fresh in let H := fresh in intros j H; unfold owns, owned in H; simpl in H; intuition (try discriminate); match goal with E : _ = _ |- _ => injection E; intros; lia end.
Ltac wgo := repeat first
  [ apply w_ret | apply w_fail | apply within_lift | apply within_elem
  | apply within_get; [alien|intros ? ?]
  | apply within_put; [own|exact I]
  | apply within_fold; intros ? ?
  | apply within_bind; [|intros ?]
  | match goal with |- within _ _ _ (if ?b then _ else _) => destruct b end ].

Lemma walk_within ns i re n : forall fuel j, wi (SetNeighbors ns) i (walkP fuel re n (Z.of_nat i) j).
Proof. induction fuel as [|fuel IH]; intros j; cbn [walkP]; destruct (j =? -1)%Z; wgo. apply IH. Qed.
Lemma body_within L h i : wi L i (body L h (Z.of_nat i)).
Proof.
  destruct L; cbn [body].
  - unfold gravityP. wgo.
  - unfold viscosityP. wgo.
  - unfold moveP. wgo.
  - unfold densityP. wgo.
  - unfold boundaryP, surfaceP, subDetectionP. wgo. destruct d; wgo.
  - unfold minimumP. wgo.
  - unfold gradientP. wgo.
  - unfold correctP. wgo.
  - unfold neighborsP. cbv zeta. wgo. apply walk_within.
  - unfold resetP. wgo.
  - unfold resetNextP. wgo.
  - unfold explicitP. wgo; simpl in *; subst; wgo.
  - unfold sourceP. wgo; simpl in *; subst; wgo.
  - unfold clipP. wgo.
Qed.
Lemma owns_one L i j l : owns L i l -> owns L j l -> i = j.
Proof.
  unfold owns, owned. destruct L; simpl; intuition (subst; try discriminate; try tauto); match goal with E : _ = _ |- _ => injection E; intros; lia end.
Qed.
Lemma iterations_wf L h : wf okv (owns L) 0 (iterations L h).
Proof.
  intros i p Hp. unfold iterations in Hp. rewrite BaseFacts.nth_error_map in Hp. destruct (nth_error (seq 0 (trips L h)) i) as [k|] eqn:E; [|discriminate]. inv Hp.
  assert (Li : (i < trips L h)%nat). { rewrite <- (seq_length (trips L h) 0). apply nth_error_Some. congruence. }
  rewrite (nth_error_nth' _ 0%nat) in E by now rewrite seq_length. rewrite seq_nth in E by auto. inv E. apply body_within.
Qed.
Lemma starts_hok L h : starts L h -> hok read okv h.
Proof.
  intros [I _] l v R. destruct l as [f i|i|i|i|i|i]; try exact Logic.I. destruct f; try exact Logic.I. simpl in *. unfold vat in R. destruct (Z.ltb_spec i 0); [discriminate|].
  destruct (nth_error (h_ps h) (Z.to_nat i)) eqn:E; [|discriminate]. inv R. rewrite (I _ _ E). lia.
Qed.

Lemma C31_lemma L h : starts L h ->
  (forall ts h', reach read write (iterations L h, h) (ts, h') -> ~ race ts) /\
  (forall ts h', reach read write (iterations L h, h) (ts, h') -> finished ts -> sequential L h = Ok h') /\
  (forall hf, sequential L h = Ok hf -> forall ts h', reach read write (iterations L h, h) (ts, h') ->
     (finished ts /\ h' = hf) \/ (exists c, cstep read write (ts, h') c)) /\
  Acc (fun c c' => cstep read write c' c) (iterations L h, h).
Proof.
  intros S. assert (Wf := iterations_wf L h). assert (Hk := starts_hok L h S). rewrite <- (sequential_run L h S). split; [|split; [|split]].
  - intros ts h' R. apply (reach_wf read write okv (owns L) loc_dec read_write read_write_same 0) in R; auto. exact (no_race okv (owns L) (owns_one L) 0 ts (proj1 R)).
  - intros ts h' R F.
    exact (inter_seq read write okv (owns L) loc_dec (owns_one L) read_write read_write_same write_write write_back 0 _ _ R Wf Hk F).
  - intros hf Q ts h' R.
    destruct (reach_seq read write okv (owns L) loc_dec (owns_one L) read_write read_write_same write_write 0 _ _ hf R Wf Hk Q) as (W' & H' & Q'). simpl in *.
    assert (D : finished ts \/ exists i p, nth_error ts i = Some p /\ p <> Ret tt).
    { clear. induction ts as [|p ts IH]; [left; intros p []|]. destruct p as [[]|e|l k|l v p];
      try (right; exists 0%nat; eexists; split; [reflexivity|discriminate]).
      destruct IH as [F|(i & p & Hp & Np)]; [left; intros q [<-|Hq]; auto|right; exists (Datatypes.S i), p; auto]. }
    destruct D as [F|(i & p & Hp & Np)].
    + left. split; auto. rewrite (finished_seq read write ts h' F) in Q'. now inv Q'.
    + right. destruct (seq_progress read write okv (owns L) loc_dec (owns_one L) read_write read_write_same write_back ts 0 h' hf i p) as [|(p' & h1 & A)]; auto; try contradiction.
      eexists. econstructor; eauto.
  - apply cstep_acc.
Qed.
End LoopFacts.
