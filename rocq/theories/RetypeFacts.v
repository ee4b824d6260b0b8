(** * Unrecognised types behave like Wall (C50); the Courant limit has no effect (C22) *)
From Verif Require Export StepFacts.
From Coq Require Import PeanoNat.
Open Scope Z_scope.

Lemma foldM_hom {St St' A} (h : St -> St') (f : A -> St -> outcome St) (g : A -> St' -> outcome St') xs s :
  (forall x s, g x (h s) = omap h (f x s)) -> foldM g xs (h s) = omap h (foldM f xs s).
Proof.
  intros H. revert s. induction xs as [|x xs IH]; intros s; simpl; auto.
  rewrite H. destruct (f x s); simpl; auto.
Qed.
Lemma foldM_hom_in {St St' A} (h : St -> St') (f : A -> St -> outcome St) (g : A -> St' -> outcome St') xs s :
  (forall x s, In x xs -> g x (h s) = omap h (f x s)) -> foldM g xs (h s) = omap h (foldM f xs s).
Proof.
  intros H. revert s. induction xs as [|x xs IH]; intros s; simpl; auto.
  rewrite H by (simpl; auto). destruct (f x s); simpl; auto. apply IH. intros. apply H. simpl; auto.
Qed.
Lemma foldM_same {St A} (f g : A -> St -> outcome St) xs s : (forall x s, g x s = f x s) -> foldM g xs s = foldM f xs s.
Proof. intros H. revert s. induction xs as [|x xs IH]; intros s; simpl; auto. rewrite H. destruct (f x s); simpl; auto. Qed.
Lemma foldM_map_in {St A B} (h : A -> B) (f : B -> St -> outcome St) xs s : foldM f (map h xs) s = foldM (fun a => f (h a)) xs s.
Proof. revert s. induction xs as [|x xs IH]; intros s; simpl; auto. destruct (f (h x) s); simpl; auto. Qed.

Lemma vget_map {A B} (h : A -> B) l i : vget (map h l) i = omap h (vget l i).
Proof. unfold vget. destruct (i <? 0); auto. rewrite BaseFacts.nth_error_map. destruct (nth_error l (Z.to_nat i)); auto. Qed.
Lemma upd_map {A B} (h : A -> B) l i a : upd (map h l) i (h a) = map h (upd l i a).
Proof. revert i. induction l; destruct i; simpl; auto. now rewrite IHl. Qed.
Lemma vset_map {A B} (h : A -> B) l i a : vset (map h l) i (h a) = omap (map h) (vset l i a).
Proof. unfold vset. destruct (i <? 0); auto. rewrite map_length. destruct (Nat.ltb _ _); auto. simpl. now rewrite upd_map. Qed.
Lemma vmod_map {A B} (h : A -> B) l i f g : (forall a, g (h a) = h (f a)) -> vmod (map h l) i g = omap (map h) (vmod l i f).
Proof. intros H. unfold vmod. rewrite vget_map. destruct (vget l i); simpl; auto. rewrite H. apply vset_map. Qed.
Lemma each_map {A} (h : A -> A) (f g : list A -> A -> outcome A) l :
  (forall w a, g (map h w) (h a) = omap h (f w a)) -> each g (map h l) = omap (map h) (each f l).
Proof.
  intros H. unfold each. rewrite map_length. apply foldM_hom. intros i w. rewrite BaseFacts.nth_error_map.
  destruct (nth_error w i); simpl; auto. rewrite H. destruct (f w a); simpl; auto. now rewrite upd_map.
Qed.

Section Retype.
Context {N : Num}.
Local Notation rt := retype.

Lemma rt_type p t : t = Ghost \/ t = Fluid \/ t = DummyWall -> is_type (rt p) t = is_type p t.
Proof.
  intros H. unfold is_type, retype, as_wall. simpl.
  destruct ((0 <=? p_type p) && (p_type p <=? 3)) eqn:B; auto.
  destruct (Z.eqb_spec (p_type p) t) as [e|n]; unfold Ghost, Fluid, DummyWall in *.
  - rewrite e in B. destruct H as [-> |[-> | ->]]; discriminate.
  - unfold Wall. destruct H as [-> |[-> | ->]]; reflexivity.
Qed.
Lemma rt_ghost p : is_type (rt p) Ghost = is_type p Ghost.
Proof. apply rt_type; auto. Qed.
Lemma rt_fluid p : is_type (rt p) Fluid = is_type p Fluid.
Proof. apply rt_type; auto. Qed.
Lemma rt_god p : ghost_or_dummy (rt p) = ghost_or_dummy p.
Proof. unfold ghost_or_dummy. rewrite !rt_type by auto. reflexivity. Qed.
Lemma rt_set_ghost p : set_type (rt p) Ghost = rt (set_type p Ghost).
Proof. reflexivity. Qed.

Definition rt4 (st : list Z * list Z * list Z * list particle) := let '(a, b, c, ps) := st in (a, b, c, map rt ps).

Lemma rt_store1 d len nx ny i st : store1 d len nx ny i (rt4 st) = omap rt4 (store1 d len nx ny i st).
Proof.
  destruct st as [[[a b] c] ps]. unfold store1. cbn [rt4]. rewrite BaseFacts.nth_error_map. destruct (nth_error ps i) as [p|]; auto. cbn [option_map].
  rewrite rt_ghost. destruct (is_type p Ghost); auto. change (p_pos (rt p)) with (p_pos p). destruct (negb (isInDomain d (p_pos p))).
  - rewrite rt_set_ghost, upd_map. reflexivity.
  - destruct (cell d len (p_pos p)); cbn [bind omap]; auto. destruct (flat nx ny a0); cbn [bind omap]; auto.
    destruct (vget b a1) as [l| | | | |]; cbn [bind omap]; auto. change (p_id (rt p)) with (p_id p).
    destruct (l =? -1).
    + destruct (vset a a1 (p_id p)); cbn [bind omap]; auto. destruct (vset b a1 (p_id p)); cbn [bind omap]; auto.
    + destruct (vset c l (p_id p)); cbn [bind omap]; auto. destruct (vset b a1 (p_id p)); cbn [bind omap]; auto.
Qed.

Definition rt2 {A} (x : A * list particle) := (fst x, map rt (snd x)).

Lemma rt_storeParticles b ps : storeParticles b (map rt ps) = omap rt2 (storeParticles b ps).
Proof.
  unfold storeParticles. rewrite map_length. destruct (negb _); auto. destruct (negb _); auto.
  match goal with |- context[foldM _ _ (?a, ?b, ?c, map rt ps)] => change (a, b, c, map rt ps) with (rt4 (a, b, c, ps)) end.
  rewrite (foldM_hom rt4 _ _ _ _ (rt_store1 _ _ _ _)). 
  destruct (foldM _ _ _) as [[[[a b'] c] ps']| | | | |]; reflexivity.
Qed.

Lemma rt_walk fuel re ps next p j acc : walk fuel re (map rt ps) next (rt p) j acc = walk fuel re ps next p j acc.
Proof.
  revert j acc. induction fuel; intros j acc; simpl; auto. destruct (j =? -1); auto.
  rewrite vget_map. destruct (vget ps j); simpl; auto. destruct (vget next j); simpl; auto.
Qed.

Lemma rt_setNeighbors ns ps : setNeighbors ns (map rt ps) = omap rt2 (setNeighbors ns ps).
Proof.
  unfold setNeighbors. rewrite rt_storeParticles. destruct (storeParticles (ns_bucket ns) ps) as [[b ps1]| | | | |]; cbn [omap bind rt2 fst snd]; auto.
  rewrite (each_map rt (neighborsOf ns b)).
  - destruct (each (neighborsOf ns b) ps1); reflexivity.
  - intros w a. unfold neighborsOf. rewrite rt_ghost. destruct (is_type a Ghost); auto. change (p_pos (rt a)) with (p_pos a).
    destruct (cell _ _ _); cbn [omap bind]; auto.
    rewrite (foldM_same (fun c' acc => jb <- flat (b_numX b) (b_numY b) c';; j <- vget (b_first b) jb;; walk (S (Datatypes.length (b_next b))) (ns_re ns) w (b_next b) a j acc)).
    + destruct (foldM _ _ _); reflexivity.
    + intros c acc. destruct (flat _ _ _); cbn [bind]; auto. destruct (vget _ _); cbn [bind]; auto. apply rt_walk.
Qed.

Lemma rt_calGravity g ps : calGravity g (map rt ps) = map rt (calGravity g ps).
Proof.
  unfold calGravity. rewrite !map_map. apply map_ext. intros p. unfold calGravity1. rewrite rt_fluid. destruct (is_type p Fluid); reflexivity.
Qed.

Lemma rt_calViscosity s rv re ps : calViscosity s rv re (map rt ps) = omap (map rt) (calViscosity s rv re ps).
Proof.
  apply each_map. intros w a. unfold calViscosity1. rewrite rt_fluid. destruct (negb _); auto.
  change (p_nbrs (rt a)) with (p_nbrs a).
  rewrite (foldM_same (visc_term s re w a)).
  - destruct (foldM _ _ _); reflexivity.
  - intros nb acc. unfold visc_term. rewrite vget_map. destruct (vget w (nb_id nb)); reflexivity.
Qed.

Lemma rt_moveParticle s ps : moveParticle s (map rt ps) = map rt (moveParticle s ps).
Proof.
  unfold moveParticle. rewrite !map_map. apply map_ext. intros p. unfold moveParticle1. rewrite rt_fluid. destruct (is_type p Fluid); reflexivity.
Qed.
Lemma rt_correct s ps : moveParticleUsingPressureGradient s (map rt ps) = map rt (moveParticleUsingPressureGradient s ps).
Proof.
  unfold moveParticleUsingPressureGradient. rewrite !map_map. apply map_ext. intros p. unfold correct1. rewrite rt_fluid. destruct (is_type p Fluid); reflexivity.
Qed.

Lemma rt_inverseDensity p : inverseDensity (rt p) = inverseDensity p.
Proof. unfold inverseDensity. now rewrite rt_fluid. Qed.

Ltac vm := match goal with |- context[vmod (map retype ?l) ?i ?g] => rewrite (vmod_map retype l i g g) by (intros; reflexivity) end.

Lemma rt_collide s i nb ps : collide s i nb (map rt ps) = omap (map rt) (collide s i nb ps).
Proof.
  unfold collide. rewrite !vget_map. destruct (vget ps (Z.of_nat i)) as [pi| | | | |]; cbn [omap bind]; auto.
  destruct (vget ps (nb_id nb)) as [pj| | | | |]; cbn [omap bind]; auto. rewrite rt_fluid, !rt_inverseDensity.
  change (p_id (rt pi)) with (p_id pi). change (p_id (rt pj)) with (p_id pj).
  change (p_pos (rt pi)) with (p_pos pi). change (p_pos (rt pj)) with (p_pos pj).
  change (p_vel (rt pi)) with (p_vel pi). change (p_vel (rt pj)) with (p_vel pj).
  destruct (_ && _); auto. destruct (nlt _ _); auto. cbv zeta.
  do 3 (vm; match goal with |- context[bind (omap _ ?o) _] => destruct o; cbn [omap bind]; auto end).
  vm. reflexivity.
Qed.

Lemma rt_collision s ps : collision s (map rt ps) = omap (map rt) (collision s ps).
Proof.
  unfold collision. rewrite map_length. apply foldM_hom. intros i w. unfold collision1. rewrite vget_map.
  destruct (vget w (Z.of_nat i)) as [p| | | | |]; cbn [omap bind]; auto. rewrite rt_fluid. destruct (negb _); auto.
  apply foldM_hom. intros. apply rt_collide.
Qed.

Lemma rt_calNumberDensity s re ps : calNumberDensity s re (map rt ps) = omap (map rt) (calNumberDensity s re ps).
Proof.
  apply each_map. intros w a. unfold calNumberDensity1. rewrite rt_ghost. destruct (is_type a Ghost); auto.
  change (p_nbrs (rt a)) with (p_nbrs a). destruct (foldM _ _ _); reflexivity.
Qed.

Lemma rt_subDetection l0 r w a : subDetection l0 r (map rt w) (rt a) = subDetection l0 r w a.
Proof.
  unfold subDetection. change (p_nbrs (rt a)) with (p_nbrs a). destruct (p_nbrs a) as [|nb l]; auto.
  rewrite (foldM_same (fun nb acc => pj <- vget w (nb_id nb);; Ok (vadd acc (vsub (p_pos pj) (p_pos a))))); auto.
  intros x s. rewrite vget_map. destruct (vget w (nb_id x)); reflexivity.
Qed.

Lemma rt_setBC d ps : setBoundaryCondition d (map rt ps) = omap (map rt) (setBoundaryCondition d ps).
Proof.
  apply each_map. intros w a. unfold setBC1. rewrite rt_god. destruct (ghost_or_dummy a); auto.
  unfold isFreeSurface. change (p_nd (rt a)) with (p_nd a). destruct d; [reflexivity|].
  rewrite rt_subDetection. destruct (if nlt _ _ then _ else _); reflexivity.
Qed.

Lemma rt_generateBC d ps : generateBC d (map rt ps) = omap (fun x => (map rt (fst x), snd x)) (generateBC d ps).
Proof.
  unfold generateBC. rewrite rt_setBC. destruct (setBoundaryCondition d ps) as [w| | | | |]; cbn [omap bind fst snd]; auto. f_equal. f_equal.
  generalize ([] : dirichlet). induction w as [|p w IH]; intros acc; simpl; auto.
Qed.

Lemma rt_setup q d ps : ppe_setup q d (map rt ps) = ppe_setup q d ps.
Proof.
  unfold ppe_setup, setSourceTerm, setMatrixTriplets. rewrite map_length, !foldM_map_in.
  rewrite (foldM_same (fun pi v => x <- source1 q d pi;; vset v (p_id pi) (Some x))) by reflexivity.
  destruct (foldM _ _ _); cbn [bind]; auto.
  rewrite (foldM_same (matrix_row q d ps)); auto.
  intros p ts. unfold matrix_row. change (p_id (rt p)) with (p_id p). destruct (dbc_contains d (p_id p)); auto.
  change (p_nbrs (rt p)) with (p_nbrs p). rewrite (foldM_same (matrix_term q ps p)); auto.
  intros nb [t c]. unfold matrix_term. rewrite vget_map. destruct (vget ps (nb_id nb)); reflexivity.
Qed.

Lemma rt_explicitCalc n0 c ps : explicitCalc n0 c (map rt ps) = explicitCalc n0 c ps.
Proof.
  unfold explicitCalc. rewrite map_length, foldM_map_in. apply foldM_same. intros p v. unfold explicit1. rewrite rt_ghost. reflexivity.
Qed.

Lemma rt_calc S k ps : calc S k (map rt ps) = omap (fun x => (map rt (fst x), snd x)) (calc S k ps).
Proof.
  unfold calc. destruct k.
  - unfold implicitCalc, ppe_solve. rewrite rt_generateBC. destruct (generateBC det ps) as [[w d]| | | | |]; cbn [omap bind fst snd]; auto.
    rewrite rt_setup, map_length. destruct (ppe_setup q d w) as [[t b]| | | | |]; cbn [omap bind fst snd]; auto.
    destruct (S (Datatypes.length w) t b); reflexivity.
  - rewrite rt_explicitCalc. destruct (explicitCalc n0 c ps); reflexivity.
Qed.

Lemma rt_assignPressure x ps : assignPressure x (map rt ps) = omap (map rt) (assignPressure x ps).
Proof. apply each_map. intros w a. change (p_id (rt a)) with (p_id a). destruct (vget x (p_id a)); reflexivity. Qed.

Lemma rt_minp re ps : setMinimumPressure re (map rt ps) = omap (map rt) (setMinimumPressure re ps).
Proof.
  unfold setMinimumPressure. rewrite !map_length.
  replace (map (fun p => set_minp p (p_press p)) (map rt ps)) with (map rt (map (fun p => set_minp p (p_press p)) ps)) by (rewrite !map_map; reflexivity).
  apply foldM_hom. intros i w. unfold minp1. rewrite vget_map. destruct (vget w (Z.of_nat i)) as [p| | | | |]; cbn [omap bind]; auto.
  rewrite rt_god. destruct (ghost_or_dummy p); auto. change (p_nbrs (rt p)) with (p_nbrs p). apply foldM_hom.
  intros nb u. unfold minp_pair. rewrite !vget_map. destruct (vget u (Z.of_nat i)) as [a| | | | |]; cbn [omap bind]; auto.
  destruct (vget u (nb_id nb)) as [b| | | | |]; cbn [omap bind]; auto. rewrite rt_god. destruct (ghost_or_dummy b); auto.
  change (p_id (rt a)) with (p_id a). change (p_id (rt b)) with (p_id b).
  change (p_press (rt a)) with (p_press a). change (p_press (rt b)) with (p_press b). destruct (_ <? _); auto. destruct (nlt _ _); auto.
  vm; match goal with |- context[bind (omap _ ?o) _] => destruct o; cbn [omap bind]; auto end.
  vm. reflexivity.
Qed.

Lemma rt_gradient s rv re ps : calPressureGradient s rv re (map rt ps) = omap (map rt) (calPressureGradient s rv re ps).
Proof.
  apply each_map. intros w a. unfold calPressureGradient1. rewrite rt_fluid. destruct (negb _); auto.
  change (p_nbrs (rt a)) with (p_nbrs a). rewrite (foldM_same (grad_term s re w a)).
  - destruct (foldM _ _ _); reflexivity.
  - intros nb acc. unfold grad_term. rewrite vget_map. destruct (vget w (nb_id nb)); cbn [omap bind]; auto. rewrite rt_god. reflexivity.
Qed.

Lemma rt_courant s ps : calCourant s (map rt ps) = calCourant s ps.
Proof.
  unfold calCourant. assert (E : forall c, fold_left (courant1 s) (map rt ps) c = fold_left (courant1 s) ps c).
  { induction ps as [|p ps' IH]; intros c; simpl; auto. rewrite IH. f_equal. unfold courant1. rewrite rt_fluid. reflexivity. }
  now rewrite E.
Qed.

Lemma C50_step_lemma S m : stepForward S (with_ps m (map rt (m_ps m))) = omap (fun m' => with_ps m' (map rt (m_ps m'))) (stepForward S m).
Proof.
  unfold stepForward, stepMove, stepCollide, stepPressure, stepCorrect. cbn [with_ps m_settings m_gravity m_rvN m_rvG m_rvL m_ps m_calc m_ns m_courant m_cflErrors].
  rewrite rt_setNeighbors. destruct (setNeighbors (m_ns m) (m_ps m)) as [[n1 p1]| | | | |]; cbn [omap bind rt2 fst snd]; auto.
  rewrite rt_calGravity, rt_calViscosity. destruct (calViscosity _ _ _ _) as [p2| | | | |]; cbn [omap bind rt2 fst snd]; auto.
  rewrite rt_moveParticle, rt_setNeighbors. destruct (setNeighbors n1 _) as [[n3 p3]| | | | |]; cbn [omap bind rt2 fst snd]; auto.
  rewrite rt_collision. destruct (collision _ _) as [p4| | | | |]; cbn [omap bind rt2 fst snd]; auto.
  rewrite rt_setNeighbors. destruct (setNeighbors n3 _) as [[n5 p5]| | | | |]; cbn [omap bind rt2 fst snd]; auto.
  rewrite rt_calNumberDensity. destruct (calNumberDensity _ _ _) as [p6| | | | |]; cbn [omap bind rt2 fst snd]; auto.
  rewrite rt_calc. destruct (calc S (m_calc m) p6) as [[p7 x]| | | | |]; cbn [omap bind rt2 fst snd]; auto.
  rewrite rt_assignPressure. destruct (assignPressure x p7) as [p8| | | | |]; cbn [omap bind rt2 fst snd]; auto.
  rewrite rt_minp. destruct (setMinimumPressure _ p8) as [p9| | | | |]; cbn [omap bind rt2 fst snd]; auto.
  rewrite rt_gradient. destruct (calPressureGradient _ _ _ p9) as [p10| | | | |]; cbn [omap bind rt2 fst snd]; auto.
  rewrite rt_correct. destruct (m_calc m).
  - cbn [bind]. rewrite rt_courant. destruct (calCourant _ _). reflexivity.
  - rewrite rt_explicitCalc. destruct (explicitCalc _ _ _) as [y| | | | |]; cbn [omap bind rt2 fst snd]; auto.
    rewrite rt_assignPressure. destruct (assignPressure y _) as [p11| | | | |]; cbn [omap bind rt2 fst snd]; auto.
    rewrite rt_courant. destruct (calCourant _ _). reflexivity.
Qed.

Lemma C50_lemma S n m m' : steps S n m m' -> steps S n (with_ps m (map rt (m_ps m))) (with_ps m' (map rt (m_ps m'))).
Proof.
  induction 1; [constructor|]. econstructor; [eassumption|]. now rewrite C50_step_lemma, H0.
Qed.

(** ** the Courant limit *)
Lemma C22_limit_lemma S m c k : 
  (forall m', stepForward S m = Ok m' -> exists k', stepForward S (limit_cfl m c k) = Ok (limit_cfl m' c k')) /\
  (forall m', stepForward S (limit_cfl m c k) = Ok m' -> exists m1, stepForward S m = Ok m1).
Proof.
  unfold stepForward.
  change (stepMove (limit_cfl m c k)) with (stepMove m). destruct (stepMove m) as [[n1 p1]| | | | |]; cbn [bind]; try (split; discriminate).
  change (stepCollide (limit_cfl m c k) n1 p1) with (stepCollide m n1 p1). destruct (stepCollide m n1 p1) as [[n2 p2]| | | | |]; cbn [bind]; try (split; discriminate).
  change (stepPressure S (limit_cfl m c k) n2 p2) with (stepPressure S m n2 p2). destruct (stepPressure S m n2 p2) as [[n3 p3]| | | | |]; cbn [bind]; try (split; discriminate).
  change (stepCorrect (limit_cfl m c k) p3) with (stepCorrect m p3). destruct (stepCorrect m p3) as [p4| | | | |]; cbn [bind]; try (split; discriminate).
  unfold calCourant. split; intros m' H; inv H.
  - change (courant1 (m_settings (limit_cfl m c k))) with (courant1 (m_settings m)). eexists. unfold limit_cfl. cbn. reflexivity.
  - eexists. reflexivity.
Qed.

Lemma C22_limit_steps S n m m' c k : steps S n m m' -> exists k', steps S n (limit_cfl m c k) (limit_cfl m' c k').
Proof.
  induction 1; [exists k; constructor|]. destruct IHsteps as [k' IH]. destruct (C22_limit_lemma S m1 c k') as [L _].
  destruct (L _ H0) as [k'' E]. exists k''. econstructor; eauto.
Qed.
End Retype.
