(** * The program does not depend on the units and the origin (exact arithmetic) *)
From Coq Require Import Reals Lra Lia.
From Verif Require Import BaseFacts StageFacts SpecUnits.
Open Scope R_scope.

Ltac real_eq := match goal with |- ?a = ?b => change (@eq R a b) end.
Ltac rg := real_eq; ring.

(** ** Loops under a conversion *)
Section Converted.
Context {A B : Type} (f : A -> B).

Lemma conv_bind {C D} (g : C -> D) (o : outcome A) (k : A -> outcome C) (k' : B -> outcome D) :
  (forall a, k' (f a) = converted g (k a)) -> bind (converted f o) k' = converted g (bind o k).
Proof. intros E. destruct o; cbn; auto. Qed.

Lemma conv_same {C D} (g : C -> D) (o : outcome A) (k : A -> outcome C) (k' : A -> outcome D) :
  (forall a, o = Ok a -> k' a = converted g (k a)) -> bind o k' = converted g (bind o k).
Proof. intros E. destruct o; cbn; auto. Qed.

Lemma vget_map l i : vget (map f l) i = converted f (vget l i).
Proof. unfold vget. destruct (i <? 0)%Z; [reflexivity|]. rewrite nth_error_map. destruct (nth_error l (Z.to_nat i)); reflexivity. Qed.

Lemma vset_map l i a : vset (map f l) i (f a) = converted (map f) (vset l i a).
Proof. unfold vset. destruct (i <? 0)%Z; [reflexivity|]. rewrite map_length. destruct (Nat.ltb _ _); [|reflexivity]. cbn. now rewrite map_upd. Qed.

Lemma vmod_map l i g g' : (forall a, g' (f a) = f (g a)) -> vmod (map f l) i g' = converted (map f) (vmod l i g).
Proof. intros E. unfold vmod. rewrite vget_map. apply conv_bind. intros a. rewrite E. apply vset_map. Qed.

Lemma foldM_map {X Y} (h : X -> Y) (F : X -> A -> outcome A) (F' : Y -> B -> outcome B) xs s :
  (forall x s, In x xs -> F' (h x) (f s) = converted f (F x s)) -> foldM F' (map h xs) (f s) = converted f (foldM F xs s).
Proof.
  revert s. induction xs as [|x xs IH]; intros s E; [reflexivity|]. cbn [map foldM].
  rewrite E by now left. apply conv_bind. intros a. apply IH. intros y z I. apply E. now right.
Qed.

Lemma foldM_same {X} (F : X -> A -> outcome A) (F' : X -> B -> outcome B) xs s :
  (forall x s, In x xs -> F' x (f s) = converted f (F x s)) -> foldM F' xs (f s) = converted f (foldM F xs s).
Proof. intros E. rewrite <- (map_id xs) at 1. now apply foldM_map. Qed.

Lemma each_map (body : list A -> A -> outcome A) (body' : list B -> B -> outcome B) l :
  (forall w a, body' (map f w) (f a) = converted f (body w a)) -> each body' (map f l) = converted (map f) (each body l).
Proof.
  intros E. unfold each. rewrite map_length.
  assert (forall xs w, foldM (fun i w => match nth_error w i with Some a => bind (body' w a) (fun a' => Ok (upd w i a')) | None => Undef OutOfBounds end) xs (map f w) =
    converted (map f) (foldM (fun i w => match nth_error w i with Some a => bind (body w a) (fun a' => Ok (upd w i a')) | None => Undef OutOfBounds end) xs w)) as G; [|apply G].
  induction xs as [|x xs IH]; intros w; [reflexivity|]. cbn [foldM]. rewrite nth_error_map.
  destruct (nth_error w x) as [a|]; cbn [option_map bind]; [|reflexivity].
  rewrite E. destruct (body w a); cbn; auto. rewrite <- map_upd. apply IH.
Qed.
End Converted.

Lemma conv_id {A} (o : outcome A) : converted (fun a => a) o = o.
Proof. destruct o; reflexivity. Qed.

(** ** Conversions of single quantities *)
Lemma Rlt_scale k a b : 0 < k -> Rlt_bool (k * a) (k * b) = Rlt_bool a b.
Proof. intros K. destruct (Rlt_bool_spec a b); [apply Rlt_bool_true; nra|apply Rlt_bool_false; nra]. Qed.
Lemma Rlt_shift k a b c : 0 < k -> Rlt_bool (k * a + c) (k * b + c) = Rlt_bool a b.
Proof. intros K. destruct (Rlt_bool_spec a b); [apply Rlt_bool_true; nra|apply Rlt_bool_false; nra]. Qed.
Lemma Rle_scale k a b : 0 < k -> Rle_bool (k * a) (k * b) = Rle_bool a b.
Proof. intros K. destruct (Rle_bool_spec a b); [apply Rle_bool_true; nra|apply Rle_bool_false; nra]. Qed.
Lemma Rlt_scale0 k a : 0 < k -> Rlt_bool (k * a) 0 = Rlt_bool a 0.
Proof. intros K. rewrite <- (Rmult_0_r k) at 1. now apply Rlt_scale. Qed.
Lemma Rlt_0scale k a : 0 < k -> Rlt_bool 0 (k * a) = Rlt_bool 0 a.
Proof. intros K. rewrite <- (Rmult_0_r k) at 1. now apply Rlt_scale. Qed.
Lemma div_scale k l a b : k * a / (l * b) = k / l * (a / b).
Proof. unfold Rdiv. rewrite Rinv_mult. rg. Qed.
Lemma div_same k a b : 0 < k -> k * a / (k * b) = a / b.
Proof. intros K. rewrite div_scale. replace (k / k) with 1 by (field; lra). apply Rmult_1_l. Qed.

(** one triple of reals from another *)
Lemma vec_eq (a b : @vec Rnum) : vx a = vx b -> vy a = vy b -> vz a = vz b -> a = b.
Proof. destruct a, b; cbn; intros -> -> ->; reflexivity. Qed.

Section Units.
Variable u : units.
Hypothesis PU : proper_units u.
Local Notation L := (u_len u).
Local Notation T := (u_time u).
Local Notation M := (u_mass u).

Lemma Lp : 0 < L. Proof. apply PU. Qed.
Lemma Tp : 0 < T. Proof. apply PU. Qed.
Lemma Mp : 0 < M. Proof. apply PU. Qed.
Hint Resolve Lp Tp Mp : units.
Lemma kvp : 0 < k_vel u. Proof. apply Rdiv_lt_0_compat; auto with units. Qed.
Lemma kpp : 0 < k_press u.
Proof. apply Rdiv_lt_0_compat; auto with units. apply Rmult_lt_0_compat; auto with units. apply Rmult_lt_0_compat; auto with units. Qed.
Lemma kdp : 0 < k_dens u.
Proof. apply Rdiv_lt_0_compat; auto with units. apply Rmult_lt_0_compat; auto with units. apply Rmult_lt_0_compat; auto with units. Qed.
Hint Resolve kvp kpp kdp : units.
Ltac nz := real_eq; pose proof Lp; pose proof Tp; pose proof Mp; unfold k_vel, k_acc, k_dens, k_press, k_visc, k_compr; field; repeat split; lra.

Lemma sub_pos a b : vsub (u_pos u a) (u_pos u b) = u_scale L (vsub a b).
Proof. apply vec_eq; cbn; rg. Qed.
Lemma sub_scale k a b : vsub (u_scale k a) (u_scale k b) = u_scale k (vsub a b).
Proof. apply vec_eq; cbn; rg. Qed.
Lemma add_scale k a b : vadd (u_scale k a) (u_scale k b) = u_scale k (vadd a b).
Proof. apply vec_eq; cbn; rg. Qed.
Lemma add_pos x d : vadd (u_pos u x) (u_scale L d) = u_pos u (vadd x d).
Proof. apply vec_eq; cbn; rg. Qed.
Lemma take_pos x d : vsub (u_pos u x) (u_scale L d) = u_pos u (vsub x d).
Proof. apply vec_eq; cbn; rg. Qed.
Lemma zero_scale k : u_scale k (@vzero Rnum) = @vzero Rnum.
Proof. apply vec_eq; cbn; rg. Qed.
Lemma mulr_scale k l m a x : m = k * l -> vmulr (u_scale k a) (l * x) = u_scale m (vmulr a x).
Proof. intros ->. apply vec_eq; cbn; rg. Qed.
Lemma mulr_same k a x : vmulr (u_scale k a) x = u_scale k (vmulr a x).
Proof. apply vec_eq; cbn; rg. Qed.
Lemma dot_scale k l a b : vdot (u_scale k a) (u_scale l b) = k * l * vdot a b.
Proof. cbn. rg. Qed.
Lemma sqnorm_scale k a : vsqnorm (u_scale k a) = k * k * vsqnorm a.
Proof. apply dot_scale. Qed.
Lemma norm_scale k a : 0 < k -> vnorm (u_scale k a) = k * vnorm a.
Proof.
  intros K. unfold vnorm. rewrite sqnorm_scale. cbn [nsqrt Rnum]. rewrite sqrt_mult_alt by nra.
  rewrite sqrt_square by lra. reflexivity.
Qed.
Lemma dot_left k a b : vdot (u_scale k a) b = k * vdot a b.
Proof. cbn. rg. Qed.
Lemma sqnorm_nonneg (a : @vec Rnum) : 0 <= vsqnorm a.
Proof. cbn. nra. Qed.
Lemma sqnorm_zero (a : @vec Rnum) : vsqnorm a <= 0 -> a = vzero.
Proof. cbn. intros H. apply vec_eq; cbn; nra. Qed.

Lemma normalized_scale k a : 0 < k -> vnormalized (u_scale k a) = vnormalized a.
Proof.
  intros K. unfold vnormalized. rewrite sqnorm_scale. cbn [nlt nofZ nsqrt Rnum].
  rewrite Rlt_0scale by nra. destruct (Rlt_bool_spec 0 (vsqnorm a)) as [P|Q].
  - rewrite sqrt_mult_alt by nra. rewrite sqrt_square by lra. apply vec_eq; cbn [vx vy vz vdivr u_scale ndiv Rnum]; apply div_same; exact K.
  - rewrite (sqnorm_zero a Q). apply zero_scale.
Qed.

(** ** Particle records *)
Lemma u_set_type p t : set_type (u_particle u p) t = u_particle u (set_type p t).
Proof. reflexivity. Qed.
Lemma u_is_type p t : is_type (u_particle u p) t = is_type p t.
Proof. reflexivity. Qed.

Lemma weight_scale dbg d re : weight dbg (L * d) (L * re) = weight dbg d re.
Proof.
  unfold weight. cbn [nlt nle nofZ ndiv nsub Rnum]. rewrite Rlt_0scale, Rle_scale by auto with units.
  rewrite div_same by auto with units. reflexivity.
Qed.

(** ** Neighbour search *)
Lemma u_isInDomain d x : isInDomain (u_domain u d) (u_pos u x) = isInDomain d x.
Proof. unfold isInDomain. cbn. rewrite !Rlt_shift by auto with units. reflexivity. Qed.

Lemma u_cell1 x lo len c : cell1 (L * x + c) (L * lo + c) (L * len) = cell1 x lo len.
Proof.
  unfold cell1. cbn [nsub ndiv Rnum]. replace (L * x + c - (L * lo + c)) with (L * (x - lo)) by rg.
  rewrite div_same by auto with units. reflexivity.
Qed.

Lemma u_cell d len x : cell (u_domain u d) (L * len) (u_pos u x) = cell d len x.
Proof. unfold cell. cbn [xMin yMin zMin u_domain vx vy vz u_pos]. rewrite !u_cell1. reflexivity. Qed.

Lemma u_newBucket re d n : newBucket (L * re) (u_domain u d) n = converted (u_bucket u) (newBucket re d n).
Proof.
  unfold newBucket, grid_count. cbn [xLength yLength zLength u_domain ndiv Rnum]. rewrite !div_same by auto with units.
  repeat (apply conv_same; intros ? _). destruct (_ <? 0)%Z; reflexivity.
Qed.

Definition u_store (st : list Z * list Z * list Z * list (@particle Rnum)) :=
  let '(a, b, c, ps) := st in (a, b, c, map (u_particle u) ps).

Lemma u_storeParticles b ps : storeParticles (u_bucket u b) (map (u_particle u) ps) =
  converted (fun r => (u_bucket u (fst r), map (u_particle u) (snd r))) (storeParticles b ps).
Proof.
  unfold storeParticles. cbn [b_num b_first b_last b_next u_bucket b_domain b_length b_numX b_numY b_numZ]. rewrite map_length.
  destruct (negb _); [reflexivity|]. destruct (negb _); [reflexivity|].
  match goal with |- bind (foldM _ _ (?x, ?y, ?z, _)) _ = _ => change (x, y, z, map (u_particle u) ps) with (u_store (x, y, z, ps)) end.
  rewrite (foldM_same u_store (store1 (b_domain b) (b_length b) (b_numX b) (b_numY b))).
  - apply conv_bind. intros [[[a1 a2] a3] a4]. reflexivity.
  - intros i [[[a1 a2] a3] a4] _. unfold store1, u_store at 1. rewrite nth_error_map.
    destruct (nth_error a4 i) as [p|]; [|reflexivity]. cbn [option_map]. rewrite u_is_type.
    destruct (is_type p Ghost); [reflexivity|]. cbn [p_pos u_particle p_id]. rewrite u_isInDomain.
    destruct (negb _). { cbn. rewrite map_upd. reflexivity. }
    rewrite u_cell. do 3 (apply conv_same; intros ? _). apply conv_same. intros [f n] _. apply conv_same. intros ? _. reflexivity.
Qed.

Lemma u_walk fuel re ps next p j acc :
  walk fuel (L * re) (map (u_particle u) ps) next (u_particle u p) j (map (u_neighbor u) acc) =
  converted (map (u_neighbor u)) (walk fuel re ps next p j acc).
Proof.
  revert j acc. induction fuel as [|fuel IH]; intros j acc; cbn [walk]; destruct (j =? -1)%Z; try reflexivity.
  rewrite vget_map. apply conv_bind. intros q. apply conv_same. intros j' _.
  cbn [p_pos p_id u_particle]. rewrite sub_pos, norm_scale by auto with units. cbn [nlt Rnum]. rewrite Rlt_scale by auto with units.
  rewrite <- IH. f_equal. destruct (_ && _); [|reflexivity]. rewrite map_app. reflexivity.
Qed.

Lemma u_neighborsOf ns b ps p : neighborsOf (u_searcher u ns) (u_bucket u b) (map (u_particle u) ps) (u_particle u p) =
  converted (u_particle u) (neighborsOf ns b ps p).
Proof.
  unfold neighborsOf. rewrite u_is_type. destruct (is_type p Ghost); [reflexivity|].
  cbn [ns_domain u_searcher b_length u_bucket p_pos u_particle]. rewrite u_cell. apply conv_same. intros c _.
  change (@nil (@neighbor Rnum)) with (map (u_neighbor u) []) at 1.
  rewrite (foldM_same (map (u_neighbor u)) (fun c' acc =>
     bind (flat (b_numX b) (b_numY b) c') (fun jb => bind (vget (b_first b) jb) (fun j => walk (S (length (b_next b))) (ns_re ns) ps (b_next b) p j acc)))).
  - apply conv_bind. intros l. reflexivity.
  - intros c' acc _. cbn [b_numX b_numY u_bucket b_first b_next ns_re u_searcher]. repeat (apply conv_same; intros ? _). apply u_walk.
Qed.

Definition u_both (r : @searcher Rnum * list (@particle Rnum)) := (u_searcher u (fst r), map (u_particle u) (snd r)).

Lemma u_setNeighbors ns ps : setNeighbors (u_searcher u ns) (map (u_particle u) ps) = converted u_both (setNeighbors ns ps).
Proof.
  unfold setNeighbors. cbn [ns_bucket u_searcher]. rewrite u_storeParticles. apply conv_bind. intros [b ps1]. cbn [fst snd].
  rewrite (each_map (u_particle u) (neighborsOf ns b)) by (intros; apply u_neighborsOf).
  apply conv_bind. intros ps2. reflexivity.
Qed.

(** ** The stages *)
Lemma u_calGravity g ps : calGravity (u_scale (k_acc u) g) (map (u_particle u) ps) = map (u_particle u) (calGravity g ps).
Proof.
  unfold calGravity. rewrite !map_map. apply map_ext. intros p. unfold calGravity1. rewrite u_is_type.
  destruct (is_type p Fluid); unfold set_acc, u_particle; cbn [p_id p_type p_fluidType p_pos p_vel p_acc p_press p_nd p_dens p_bc p_src p_minp p_nbrs].
  - rewrite add_scale. reflexivity.
  - rewrite zero_scale. reflexivity.
Qed.

Lemma u_visc_coeff s rv : visc_coeff (u_settings u s) (u_ref u rv) = / T * visc_coeff s rv.
Proof.
  unfold visc_coeff. cbn [s_nu s_dim u_settings rv_n0 rv_lambda u_ref nmul ndiv nofZ Rnum].
  unfold Rdiv. rewrite !Rinv_mult. generalize (/ rv_n0 rv) (/ rv_lambda rv). intros a b. nz.
Qed.


Lemma u_visc s rv re ps : calViscosity (u_settings u s) (u_ref u rv) (L * re) (map (u_particle u) ps) =
  converted (map (u_particle u)) (calViscosity s rv re ps).
Proof.
  apply each_map. intros w p. unfold calViscosity1. rewrite u_is_type. destruct (negb _); [reflexivity|].
  cbn [p_nbrs u_particle]. rewrite <- (zero_scale (k_vel u)) at 1.
  rewrite (foldM_map (u_scale (k_vel u)) (u_neighbor u) (visc_term s re w p)).
  - apply conv_bind. intros v. cbn [converted]. f_equal. unfold set_acc, u_particle. cbn [p_id p_type p_fluidType p_pos p_vel p_acc p_press p_nd p_dens p_bc p_src p_minp p_nbrs].
    f_equal. rewrite u_visc_coeff, (mulr_scale _ _ (k_acc u)) by nz. apply add_scale.
  - intros nb acc _. unfold visc_term. cbn [nb_id nb_dist u_neighbor]. rewrite vget_map. apply conv_bind. intros q.
    cbn [s_reL u_settings nlt Rnum s_asserts]. rewrite Rlt_scale by auto with units. destruct (Rlt_bool _ _); [|reflexivity].
    rewrite weight_scale. apply conv_same. intros x _. cbn [converted p_vel u_particle]. rewrite sub_scale, mulr_same, add_scale. reflexivity.
Qed.

Lemma u_moveParticle s ps : moveParticle (u_settings u s) (map (u_particle u) ps) = map (u_particle u) (moveParticle s ps).
Proof.
  unfold moveParticle. rewrite !map_map. apply map_ext. intros p. unfold moveParticle1. rewrite u_is_type.
  destruct (is_type p Fluid); unfold set_acc, set_pos, set_vel, u_particle; cbn [p_id p_type p_fluidType p_pos p_vel p_acc p_press p_nd p_dens p_bc p_src p_minp p_nbrs s_dt u_settings].
  - rewrite (mulr_scale (k_acc u) T (k_vel u)) by nz. rewrite add_scale, (mulr_scale (k_vel u) T L) by nz. rewrite add_pos, zero_scale. reflexivity.
  - rewrite zero_scale. reflexivity.
Qed.

Lemma u_inverseDensity p : inverseDensity (u_particle u p) = / k_dens u * inverseDensity p.
Proof.
  unfold inverseDensity. rewrite u_is_type. cbn [p_dens u_particle ndiv nofZ Rnum]. destruct (is_type p Fluid); [|rg].
  unfold Rdiv. rewrite Rinv_mult. rg.
Qed.

Lemma u_collide s i nb ps : collide (u_settings u s) i (u_neighbor u nb) (map (u_particle u) ps) = converted (map (u_particle u)) (collide s i nb ps).
Proof.
  unfold collide. cbn [nb_id nb_dist u_neighbor]. rewrite !vget_map. apply conv_bind. intros p. apply conv_bind. intros q.
  rewrite u_is_type. cbn [p_id u_particle]. destruct (_ && _); [reflexivity|].
  cbn [s_colDist s_restitution u_settings nlt Rnum]. rewrite Rlt_scale by auto with units. destruct (Rlt_bool _ _); [|reflexivity].
  rewrite !u_inverseDensity. cbn [p_pos p_vel u_particle]. rewrite sub_pos, normalized_scale by auto with units.
  rewrite sub_scale. set (nrm := vnormalized _). rewrite dot_left.
  set (rel := vdot _ nrm).
  cbn [ndiv nadd nsub nmul nneg nofZ Rnum]. rewrite Rlt_scale0 by auto with units.
  set (a := inverseDensity p). set (b := inverseDensity q).
  assert (1 / (/ k_dens u * a + / k_dens u * b) = k_dens u * (1 / (a + b))) as EM.
  { rewrite <- Rmult_plus_distr_l. unfold Rdiv. rewrite Rinv_mult, Rinv_inv. rg. }
  rewrite EM. set (ma := 1 / (a + b)).
  assert (forall x y : R, x = k_vel u * y -> forall p, set_vel (u_particle u p) (vsub (p_vel (u_particle u p)) (vmull x nrm)) = u_particle u (set_vel p (vsub (p_vel p) (vmull y nrm)))) as V1.
  { intros x y -> r. unfold set_vel, u_particle. cbn [p_id p_type p_fluidType p_pos p_vel p_acc p_press p_nd p_dens p_bc p_src p_minp p_nbrs]. f_equal. apply vec_eq; cbn; rg. }
  assert (forall x y : R, x = k_vel u * y -> forall p, set_vel (u_particle u p) (vadd (p_vel (u_particle u p)) (vmull x nrm)) = u_particle u (set_vel p (vadd (p_vel p) (vmull y nrm)))) as V2.
  { intros x y -> r. unfold set_vel, u_particle. cbn [p_id p_type p_fluidType p_pos p_vel p_acc p_press p_nd p_dens p_bc p_src p_minp p_nbrs]. f_equal. apply vec_eq; cbn; rg. }
  assert (forall x y : R, x = L * y -> forall p, set_pos (u_particle u p) (vsub (p_pos (u_particle u p)) (vmull x nrm)) = u_particle u (set_pos p (vsub (p_pos p) (vmull y nrm)))) as V3.
  { intros x y -> r. unfold set_pos, u_particle. cbn [p_id p_type p_fluidType p_pos p_vel p_acc p_press p_nd p_dens p_bc p_src p_minp p_nbrs]. f_equal. apply vec_eq; cbn; rg. }
  assert (forall x y : R, x = L * y -> forall p, set_pos (u_particle u p) (vadd (p_pos (u_particle u p)) (vmull x nrm)) = u_particle u (set_pos p (vadd (p_pos p) (vmull y nrm)))) as V4.
  { intros x y -> r. unfold set_pos, u_particle. cbn [p_id p_type p_fluidType p_pos p_vel p_acc p_press p_nd p_dens p_bc p_src p_minp p_nbrs]. f_equal. apply vec_eq; cbn; rg. }
  pose proof kdp.
  match goal with |- _ = converted _ (bind (vmod _ _ ?g) _) => rewrite (vmod_map (u_particle u) _ _ g) end; [apply conv_bind; intros ps1|apply V1; destruct (Rlt_bool rel 0); real_eq; field; lra].
  match goal with |- _ = converted _ (bind (vmod _ _ ?g) _) => rewrite (vmod_map (u_particle u) _ _ g) end; [apply conv_bind; intros ps2|apply V2; destruct (Rlt_bool rel 0); real_eq; field; lra].
  match goal with |- _ = converted _ (bind (vmod _ _ ?g) _) => rewrite (vmod_map (u_particle u) _ _ g) end; [apply conv_bind; intros ps3|apply V3; real_eq; field; lra].
  match goal with |- _ = converted _ (vmod _ _ ?g) => rewrite (vmod_map (u_particle u) _ _ g) end; [reflexivity|apply V4; real_eq; field; lra].
Qed.

Lemma u_collision s ps : collision (u_settings u s) (map (u_particle u) ps) = converted (map (u_particle u)) (collision s ps).
Proof.
  unfold collision. rewrite map_length. apply foldM_same. intros i w _. unfold collision1. rewrite vget_map. apply conv_bind. intros p.
  rewrite u_is_type. destruct (negb _); [reflexivity|]. cbn [p_nbrs u_particle]. apply foldM_map. intros nb w' _. apply u_collide.
Qed.

Lemma u_calNumberDensity s re ps : calNumberDensity (u_settings u s) (L * re) (map (u_particle u) ps) = converted (map (u_particle u)) (calNumberDensity s re ps).
Proof.
  apply each_map. intros w p. unfold calNumberDensity1. rewrite u_is_type. destruct (is_type p Ghost); [reflexivity|].
  cbn [p_nbrs u_particle].
  rewrite (foldM_map (fun x => x) (u_neighbor u) (fun nb n => bind (weight (s_asserts s) (nb_dist nb) re) (fun x => Ok (nadd n x)))).
  - apply conv_bind. intros v. reflexivity.
  - intros nb acc _. cbn [nb_dist u_neighbor s_asserts u_settings]. rewrite weight_scale. now rewrite conv_id.
Qed.

Lemma u_ghost_or_dummy p : ghost_or_dummy (u_particle u p) = ghost_or_dummy p.
Proof. reflexivity. Qed.

Lemma nmin_scale k a b : 0 < k -> @nmin Rnum (k * a) (k * b) = k * @nmin Rnum a b.
Proof. intros K. unfold nmin. cbn [nlt Rnum]. rewrite Rlt_scale by exact K. destruct (Rlt_bool b a); reflexivity. Qed.

Lemma u_setMinimumPressure re ps : setMinimumPressure (L * re) (map (u_particle u) ps) = converted (map (u_particle u)) (setMinimumPressure re ps).
Proof.
  unfold setMinimumPressure. rewrite !map_length.
  replace (map (fun p => set_minp p (p_press p)) (map (u_particle u) ps)) with (map (u_particle u) (map (fun p => set_minp p (p_press p)) ps))
    by (rewrite !map_map; reflexivity).
  apply foldM_same. intros i w _. unfold minp1. rewrite vget_map. apply conv_bind. intros p.
  rewrite u_ghost_or_dummy. destruct (ghost_or_dummy p); [reflexivity|]. cbn [p_nbrs u_particle].
  apply foldM_map. intros nb w' _. unfold minp_pair. cbn [nb_id nb_dist u_neighbor]. rewrite !vget_map. apply conv_bind. intros p'. apply conv_bind. intros q.
  rewrite u_ghost_or_dummy. destruct (ghost_or_dummy q); [reflexivity|]. cbn [p_id u_particle]. destruct (_ <? _)%Z; [reflexivity|].
  cbn [nlt Rnum]. rewrite Rlt_scale by auto with units. destruct (Rlt_bool _ _); [|reflexivity].
  match goal with |- _ = converted _ (bind (vmod _ _ ?g) _) => rewrite (vmod_map (u_particle u) _ _ g) end; [apply conv_bind; intros ps1|].
  2: { intros r. unfold set_minp, u_particle. cbn [p_id p_type p_fluidType p_pos p_vel p_acc p_press p_nd p_dens p_bc p_src p_minp p_nbrs]. rewrite nmin_scale by auto with units. reflexivity. }
  match goal with |- _ = converted _ (vmod _ _ ?g) => rewrite (vmod_map (u_particle u) _ _ g) end; [reflexivity|].
  intros r. unfold set_minp, u_particle. cbn [p_id p_type p_fluidType p_pos p_vel p_acc p_press p_nd p_dens p_bc p_src p_minp p_nbrs]. rewrite nmin_scale by auto with units. reflexivity.
Qed.

Lemma u_calPressureGradient s rv re ps : calPressureGradient (u_settings u s) (u_ref u rv) (L * re) (map (u_particle u) ps) =
  converted (map (u_particle u)) (calPressureGradient s rv re ps).
Proof.
  apply each_map. intros w p. unfold calPressureGradient1. rewrite u_is_type. destruct (negb _); [reflexivity|].
  cbn [p_nbrs u_particle]. rewrite <- (zero_scale (k_press u / L)) at 1.
  rewrite (foldM_map (u_scale (k_press u / L)) (u_neighbor u) (grad_term s re w p)).
  - apply conv_bind. intros v. cbn [converted]. f_equal. unfold set_acc, u_particle. cbn [p_id p_type p_fluidType p_pos p_vel p_acc p_press p_nd p_dens p_bc p_src p_minp p_nbrs].
    f_equal. change (grad_coeff (u_settings u s) (u_ref u rv)) with (grad_coeff s rv). rewrite mulr_same. set (x := vmulr v _).
    replace (vdivr (u_scale (k_press u / L) x) (k_dens u * p_dens p)) with (u_scale (k_acc u) (vdivr x (p_dens p))).
    + apply sub_scale.
    + apply vec_eq; cbn [vx vy vz vdivr u_scale ndiv Rnum]; rewrite div_scale; f_equal; nz.
  - intros nb acc _. unfold grad_term. cbn [nb_id nb_dist u_neighbor]. rewrite vget_map. apply conv_bind. intros q.
    rewrite u_ghost_or_dummy. destruct (ghost_or_dummy q); [reflexivity|].
    cbn [u_settings nlt Rnum s_asserts]. rewrite Rlt_scale by auto with units. destruct (Rlt_bool _ _); [|reflexivity].
    rewrite weight_scale. apply conv_same. intros x _. cbn [converted p_pos p_press p_minp u_particle]. rewrite sub_pos, sqnorm_scale.
    cbn [nsub ndiv Rnum]. rewrite <- Rmult_minus_distr_l, div_scale. rewrite (mulr_scale _ _ (k_press u / L)) by nz. rewrite mulr_same, add_scale. reflexivity.
Qed.

Lemma u_correct s ps : moveParticleUsingPressureGradient (u_settings u s) (map (u_particle u) ps) = map (u_particle u) (moveParticleUsingPressureGradient s ps).
Proof.
  unfold moveParticleUsingPressureGradient. rewrite !map_map. apply map_ext. intros p. unfold correct1. rewrite u_is_type.
  destruct (is_type p Fluid); unfold set_acc, set_pos, set_vel, u_particle; cbn [p_id p_type p_fluidType p_pos p_vel p_acc p_press p_nd p_dens p_bc p_src p_minp p_nbrs s_dt u_settings].
  - rewrite (mulr_scale (k_acc u) T (k_vel u)) by nz. rewrite add_scale, (mulr_scale (k_vel u) T L) by nz. rewrite add_pos, zero_scale. reflexivity.
  - rewrite zero_scale. reflexivity.
Qed.

Lemma u_courant s ps : calCourant (u_settings u s) (map (u_particle u) ps) = calCourant s ps.
Proof.
  unfold calCourant.
  assert (forall c, fold_left (courant1 (u_settings u s)) (map (u_particle u) ps) c = fold_left (courant1 s) ps c) as E; [|rewrite E; reflexivity].
  induction ps as [|p ps IH]; intros c; [reflexivity|]. cbn [map fold_left]. rewrite IH. f_equal.
  unfold courant1. rewrite u_is_type. destruct (is_type p Fluid); [|reflexivity]. f_equal.
  cbn [p_vel u_particle s_dt s_l0 u_settings]. rewrite norm_scale by auto with units. cbn [nmul ndiv Rnum].
  replace (k_vel u * vnorm (p_vel p) * (T * s_dt s)) with (L * (vnorm (p_vel p) * s_dt s)) by nz. apply div_same. auto with units.
Qed.

(** ** Pressure calculation *)
Lemma u_subDetection l0 dr ps p : subDetection (L * l0) dr (map (u_particle u) ps) (u_particle u p) = subDetection l0 dr ps p.
Proof.
  unfold subDetection. cbn [p_nbrs u_particle]. destruct (p_nbrs p) as [|nb l]; [reflexivity|]. cbn [map].
  change (u_neighbor u nb :: map (u_neighbor u) l) with (map (u_neighbor u) (nb :: l)). set (nbs := nb :: l). clearbody nbs.
  rewrite <- (zero_scale L) at 1.
  rewrite (foldM_map (u_scale L) (u_neighbor u) (fun nb acc => bind (vget ps (nb_id nb)) (fun pj => Ok (vadd acc (vsub (p_pos pj) (p_pos p)))))).
  - rewrite <- (conv_id (bind (foldM _ nbs vzero) _)). apply conv_bind. intros r. cbn [converted]. f_equal.
    cbn [nlt nabs nmul Rnum vx vy vz u_scale]. replace (dr * (L * l0)) with (L * (dr * l0)) by rg.
    rewrite !Rabs_mult, (Rabs_pos_eq L) by (left; auto with units). rewrite !Rlt_scale by auto with units. reflexivity.
  - intros nb' acc _. cbn [nb_id u_neighbor]. rewrite vget_map. apply conv_bind. intros q. cbn [converted p_pos u_particle].
    rewrite sub_pos, add_scale. reflexivity.
Qed.

Lemma u_isFreeSurface d ps p : isFreeSurface (u_detector u d) (map (u_particle u) ps) (u_particle u p) = isFreeSurface d ps p.
Proof. destruct d; cbn [isFreeSurface u_detector p_nd u_particle]; [reflexivity|]. rewrite u_subDetection. reflexivity. Qed.

Lemma u_setBoundaryCondition d ps : setBoundaryCondition (u_detector u d) (map (u_particle u) ps) = converted (map (u_particle u)) (setBoundaryCondition d ps).
Proof.
  apply each_map. intros w p. unfold setBC1. rewrite u_ghost_or_dummy. destruct (ghost_or_dummy p); [reflexivity|].
  rewrite u_isFreeSurface. apply conv_same. intros b _. reflexivity.
Qed.

Lemma u_generateBC d ps : generateBC (u_detector u d) (map (u_particle u) ps) =
  converted (fun r => (map (u_particle u) (fst r), snd r)) (generateBC d ps).
Proof.
  unfold generateBC. rewrite u_setBoundaryCondition. apply conv_bind. intros ps1. cbn [converted fst snd]. do 2 f_equal.
  match goal with |- fold_left _ _ ?z = _ => generalize z end. induction ps1 as [|p l IH]; intros a; [reflexivity|]. cbn [map fold_left]. rewrite IH. reflexivity.
Qed.

(** the boundary values are all 0 *)
Definition zero_bc (d : @dirichlet Rnum) : Prop := Forall (fun e => snd e = 0) d.
Lemma generate_zero det ps ps' d : generateBC det ps = Ok (ps', d) -> zero_bc d.
Proof.
  unfold generateBC. intros E. destruct (setBoundaryCondition det ps) as [ps1| | | | |]; try discriminate. cbn [bind] in E. injection E as <- <-.
  match goal with |- zero_bc (fold_left _ _ ?z) => assert (zero_bc z) as Z0 by constructor; revert Z0; generalize z end.
  induction ps1 as [|p l IH]; intros a Z0; [exact Z0|]. cbn [fold_left]. apply IH. destruct (fs_eqb _ _); [exact Z0|]. constructor; [reflexivity|exact Z0].
Qed.
Lemma zero_value d i v : zero_bc d -> dbc_value d i = Ok v -> v = 0.
Proof.
  intros Z0. unfold dbc_value, dbc_find. destruct (find _ d) as [e|] eqn:F; [|discriminate]. intros E. injection E as <-.
  apply find_some in F. unfold zero_bc in Z0. rewrite Forall_forall in Z0. apply Z0. apply F.
Qed.

(** the factor of an equation: boundary rows state a pressure, the others are per time squared *)
Definition row_factor (d : @dirichlet Rnum) (i : Z) : R := if dbc_contains d i then k_press u else / (T * T).

Lemma u_source1 q d p : zero_bc d -> source1 (u_ppe u q) d (u_particle u p) = converted (Rmult (row_factor d (p_id p))) (source1 q d p).
Proof.
  intros Z0. unfold source1, row_factor. cbn [p_id u_particle p_nd]. destruct (dbc_contains d (p_id p)) eqn:C.
  - destruct (dbc_value d (p_id p)) as [v| | | | |] eqn:V; try reflexivity. cbn. rewrite (zero_value d _ v Z0 V). f_equal. rg.
  - cbn [converted]. f_equal. cbn [q_gamma q_dt q_n0N u_ppe nmul ndiv nsub nofZ Rnum]. unfold Rdiv. rewrite !Rinv_mult. rg.
Qed.

Definition u_rhs (d : @dirichlet Rnum) (v : list (option R)) : list (option R) :=
  map (fun e => option_map (Rmult (row_factor d (Z.of_nat (fst e)))) (snd e)) (combine (seq 0 (length v)) v).

Lemma combine_seq_nth {A} (v : list A) a i : nth_error (combine (seq a (length v)) v) i = option_map (fun x => ((a + i)%nat, x)) (nth_error v i).
Proof.
  revert a i. induction v as [|x v IH]; intros a i; [destruct i; reflexivity|]. cbn [length seq combine]. destruct i as [|i]; cbn; [now rewrite Nat.add_0_r|].
  rewrite IH. replace (S a + i)%nat with (a + S i)%nat by lia. reflexivity.
Qed.
Lemma u_rhs_nth d v i : nth_error (u_rhs d v) i = option_map (option_map (Rmult (row_factor d (Z.of_nat i)))) (nth_error v i).
Proof. unfold u_rhs. rewrite nth_error_map, combine_seq_nth. destruct (nth_error v i); reflexivity. Qed.
Lemma u_rhs_length d v : length (u_rhs d v) = length v.
Proof. unfold u_rhs. rewrite map_length, combine_length, seq_length. lia. Qed.

Lemma u_rhs_set d v i x : vset (u_rhs d v) i (Some (row_factor d i * x)) = converted (u_rhs d) (vset v i (Some x)).
Proof.
  unfold vset. destruct (Z.ltb_spec i 0); [reflexivity|]. rewrite u_rhs_length. destruct (Nat.ltb_spec (Z.to_nat i) (length v)); [|reflexivity].
  cbn [converted]. f_equal. apply list_ext. intros j. rewrite u_rhs_nth. destruct (Nat.eq_dec (Z.to_nat i) j) as [<-|N].
  - rewrite !nth_upd_same by (rewrite ?u_rhs_length; lia). cbn. now rewrite Z2Nat.id by lia.
  - rewrite !nth_upd_other by exact N. apply u_rhs_nth.
Qed.

Lemma u_rhs_none d n : u_rhs d (repeat None n) = repeat None n.
Proof.
  apply list_ext. intros i. rewrite u_rhs_nth. destruct (Nat.lt_ge_cases i n) as [H|H].
  - now rewrite nth_error_repeat by exact H.
  - assert (nth_error (repeat (@None R) n) i = None) as -> by (apply nth_error_None; rewrite repeat_length; lia). reflexivity.
Qed.

Lemma u_setSourceTerm q d ps : zero_bc d -> setSourceTerm (u_ppe u q) d (map (u_particle u) ps) = converted (u_rhs d) (setSourceTerm q d ps).
Proof.
  intros Z0. unfold setSourceTerm. rewrite map_length. rewrite <- (u_rhs_none d) at 1.
  apply foldM_map. intros p v _. rewrite u_source1 by exact Z0. apply conv_bind. intros x. cbn [p_id u_particle]. apply u_rhs_set.
Qed.

Definition u_triplet (d : @dirichlet Rnum) (t : @triplet Rnum) : @triplet Rnum :=
  @mkT Rnum (t_row t) (t_col t) (row_factor d (t_row t) / k_press u * t_val t).

Lemma u_ppe_coeff q : ppe_coeff (u_ppe u q) = / (L * L) * ppe_coeff q.
Proof. unfold ppe_coeff. cbn [q_dim q_n0L q_lambda u_ppe nmul ndiv nofZ Rnum]. unfold Rdiv. rewrite !Rinv_mult. rg. Qed.

Lemma u_setMatrixTriplets q d ps : setMatrixTriplets (u_ppe u q) d (map (u_particle u) ps) = converted (map (u_triplet d)) (setMatrixTriplets q d ps).
Proof.
  unfold setMatrixTriplets. change (@nil (@triplet Rnum)) with (map (u_triplet d) []) at 1.
  apply foldM_map. intros p ts _. unfold matrix_row. cbn [p_id u_particle p_nbrs]. destruct (dbc_contains d (p_id p)) eqn:C.
  { cbn [converted]. f_equal. rewrite map_app. f_equal. cbn. unfold u_triplet, row_factor. cbn [t_row t_col t_val]. rewrite C. do 2 f_equal. pose proof kpp. cbn. real_eq. field. lra. }
  assert (row_factor d (p_id p) / k_press u = / (L * L) / k_dens u) as EF. { unfold row_factor. rewrite C. nz. }
  set (g := fun st : list (@triplet Rnum) * R => (map (u_triplet d) (fst st), / (L * L) / k_dens u * snd st)).
  replace (map (u_triplet d) ts, @nofZ Rnum 0) with (g (ts, @nofZ Rnum 0)) by (unfold g; cbn; f_equal; rg).
  rewrite (foldM_map g (u_neighbor u) (matrix_term q ps p)).
  - apply conv_bind. intros [ts' cii]. unfold g. cbn [fst snd converted]. f_equal. rewrite map_app. f_equal. cbn [map]. unfold u_triplet. cbn [t_row t_col t_val].
    do 2 f_equal. rewrite EF. cbn [nadd ndiv nmul Rnum q_compress q_dt u_ppe]. rewrite Rmult_plus_distr_l. f_equal.
    replace (T * q_dt q * (T * q_dt q)) with (T * T * (q_dt q * q_dt q)) by rg. rewrite div_scale. f_equal. nz.
  - intros nb [ts' c] _. unfold g at 1. cbn [fst snd]. unfold matrix_term. cbn [nb_id nb_dist u_neighbor]. rewrite vget_map. apply conv_bind. intros r.
    cbn [p_bc u_particle]. destruct (fs_eqb _ _); [reflexivity|]. cbn [q_reL q_asserts u_ppe nlt Rnum]. rewrite Rlt_scale by auto with units.
    destruct (Rlt_bool _ _); [|reflexivity]. rewrite weight_scale. apply conv_same. intros x _. unfold g. cbn [converted fst snd p_id p_dens u_particle]. f_equal.
    rewrite u_ppe_coeff. cbn [ndiv nmul nadd nofZ Rnum]. rewrite Rmult_assoc, div_scale. rewrite map_app. cbn [map]. unfold u_triplet at 3. cbn [t_row t_col t_val].
    rewrite EF. f_equal; [do 3 f_equal; rg|rg].
Qed.

Lemma u_in_range d n t : triplet_in_range n (u_triplet d t) = triplet_in_range n t.
Proof. reflexivity. Qed.

Lemma u_initialised (c : nat -> R) v a :
  initialised (map (fun e => option_map (Rmult (c (fst e))) (snd e)) (combine (seq a (length v)) v)) =
  converted (fun b => map (fun e => c (fst e) * snd e) (combine (seq a (length b)) b)) (initialised v).
Proof.
  revert a. induction v as [|[x|] v IH]; intros a; cbn [length seq combine map initialised option_map fst snd]; [reflexivity| |reflexivity].
  rewrite IH. apply conv_bind. intros b. reflexivity.
Qed.

Lemma u_ppe_setup q d ps : zero_bc d -> ppe_setup (u_ppe u q) d (map (u_particle u) ps) =
  converted (fun r => u_system u (row_factor d) (fst r) (snd r)) (ppe_setup q d ps).
Proof.
  intros Z0. unfold ppe_setup. rewrite u_setSourceTerm by exact Z0. apply conv_bind. intros b. rewrite u_setMatrixTriplets. apply conv_bind. intros ts.
  rewrite map_length. replace (forallb (triplet_in_range (length ps)) (map (u_triplet d) ts)) with (forallb (triplet_in_range (length ps)) ts)
    by (induction ts as [|t ts IH]; [reflexivity|cbn [map forallb]; rewrite IH; reflexivity]).
  destruct (negb _); [reflexivity|]. unfold u_rhs. rewrite (u_initialised (fun i => row_factor d (Z.of_nat i))). apply conv_bind. intros b'. reflexivity.
Qed.

Section Solver.
Variables S S' : @solver Rnum.
Hypothesis US : u_solver u S S'.

Lemma u_ppe_solve q d ps : zero_bc d -> ppe_solve S' (u_ppe u q) d (map (u_particle u) ps) = converted (map (Rmult (k_press u))) (ppe_solve S q d ps).
Proof.
  intros Z0. unfold ppe_solve. rewrite u_ppe_setup by exact Z0. apply conv_bind. intros [ts b]. cbn [fst snd]. unfold u_system. cbv zeta.
  rewrite map_length. pose proof (US (length ps) ts b (row_factor d)) as E. cbn [u_system fst snd] in E. rewrite E.
  - destruct (S _ _ _); reflexivity.
  - intros i. unfold row_factor. destruct (dbc_contains d i); auto.
Qed.

Lemma u_removeNegative x : removeNegative (map (Rmult (k_press u)) x) = map (Rmult (k_press u)) (removeNegative x).
Proof.
  unfold removeNegative. rewrite !map_map. apply map_ext. intros a. cbn [nlt nofZ Rnum]. rewrite Rlt_scale0 by auto with units.
  destruct (Rlt_bool a 0); rg.
Qed.

Definition u_pair (r : list (@particle Rnum) * list R) := (map (u_particle u) (fst r), map (Rmult (k_press u)) (snd r)).

Lemma u_explicitCalc n0 c ps : explicitCalc n0 (k_vel u * c) (map (u_particle u) ps) = converted (map (Rmult (k_press u))) (explicitCalc n0 c ps).
Proof.
  unfold explicitCalc. rewrite map_length.
  replace (repeat (@nofZ Rnum 0) (length ps)) with (map (Rmult (k_press u)) (repeat (@nofZ Rnum 0) (length ps))) at 1.
  2: { induction (length ps) as [|n IH]; [reflexivity|]. cbn [repeat map]. rewrite IH. change (@nofZ Rnum 0) with 0. rewrite Rmult_0_r. reflexivity. }
  apply foldM_map. intros p v _. cbn [p_id u_particle].
  replace (explicit1 n0 (k_vel u * c) (u_particle u p)) with (k_press u * explicit1 n0 c p); [apply vset_map|].
  unfold explicit1. rewrite u_is_type. cbn [p_nd p_dens u_particle nofZ nlt nmul nsub ndiv Rnum].
  destruct (is_type p Ghost); [rg|]. destruct (Rlt_bool _ _); [|rg]. 
  replace (k_vel u * c * (k_vel u * c) * (k_dens u * p_dens p) * (p_nd p - n0)) with (k_press u * (c * c * p_dens p * (p_nd p - n0))) by nz.
  unfold Rdiv. rg.
Qed.

Lemma u_calc k ps : calc S' (u_calculator u k) (map (u_particle u) ps) = converted u_pair (calc S k ps).
Proof.
  destruct k as [det q|n0 c]; cbn [calc u_calculator].
  - unfold implicitCalc. rewrite u_generateBC. destruct (generateBC det ps) as [[ps1 d]| | | | |] eqn:E; try reflexivity. cbn [converted bind fst snd].
    rewrite u_ppe_solve by (eapply generate_zero; exact E). apply conv_bind. intros x. unfold u_pair. cbn [converted fst snd]. now rewrite u_removeNegative.
  - rewrite u_explicitCalc. apply conv_bind. intros x. reflexivity.
Qed.

Lemma u_assignPressure x ps : assignPressure (map (Rmult (k_press u)) x) (map (u_particle u) ps) = converted (map (u_particle u)) (assignPressure x ps).
Proof. apply each_map. intros w p. cbn [p_id u_particle]. rewrite vget_map. apply conv_bind. intros v. reflexivity. Qed.

(** ** One time step *)
Lemma u_stepForward m : stepForward S' (u_mps u m) = converted (u_mps u) (stepForward S m).
Proof.
  unfold stepForward, stepMove, stepCollide, stepPressure, stepCorrect. cbn [m_settings m_gravity m_rvN m_rvG m_rvL m_ps m_calc m_ns m_courant m_cflErrors u_mps].
  rewrite u_setNeighbors.
  destruct (setNeighbors (m_ns m) (m_ps m)) as [[n1 p1]| | | | |]; try reflexivity. cbn [converted bind u_both fst snd].
  rewrite u_calGravity. cbn [s_reL s_reG s_reN u_settings]. rewrite u_visc.
  destruct (calViscosity _ _ _ _) as [p2| | | | |]; try reflexivity. cbn [converted bind]. rewrite u_moveParticle.
  rewrite u_setNeighbors. destruct (setNeighbors n1 _) as [[n2 p3]| | | | |]; try reflexivity. cbn [converted bind u_both fst snd].
  rewrite u_collision. destruct (collision _ _) as [p4| | | | |]; try reflexivity. cbn [converted bind].
  rewrite u_setNeighbors. destruct (setNeighbors n2 _) as [[n3 p5]| | | | |]; try reflexivity. cbn [converted bind u_both fst snd].
  rewrite u_calNumberDensity. destruct (calNumberDensity _ _ _) as [p6| | | | |]; try reflexivity. cbn [converted bind].
  rewrite u_calc. destruct (calc S _ _) as [[p7 x]| | | | |]; try reflexivity. cbn [converted bind u_pair fst snd].
  rewrite u_assignPressure. destruct (assignPressure _ _) as [p8| | | | |]; try reflexivity. cbn [converted bind].
  rewrite u_setMinimumPressure. destruct (setMinimumPressure _ _) as [p9| | | | |]; try reflexivity. cbn [converted bind].
  rewrite u_calPressureGradient. destruct (calPressureGradient _ _ _ _) as [p10| | | | |]; try reflexivity. cbn [converted bind].
  rewrite u_correct. set (p11 := moveParticleUsingPressureGradient _ p10).
  assert (forall p12, (let '(c, err) := calCourant (u_settings u (m_settings m)) (map (u_particle u) p12) in
     Ok (mkM (u_settings u (m_settings m)) (u_scale (k_acc u) (m_gravity m)) (u_ref u (m_rvN m)) (u_ref u (m_rvG m)) (u_ref u (m_rvL m)) (map (u_particle u) p12) (u_calculator u (m_calc m)) (u_searcher u n3) c
          (if (err : bool) then Datatypes.S (m_cflErrors m) else m_cflErrors m))) =
     converted (u_mps u) (let '(c, err) := calCourant (m_settings m) p12 in
     Ok (mkM (m_settings m) (m_gravity m) (m_rvN m) (m_rvG m) (m_rvL m) p12 (m_calc m) n3 c (if (err : bool) then Datatypes.S (m_cflErrors m) else m_cflErrors m)))) as FIN.
  { intros p12. rewrite u_courant. destruct (calCourant _ p12). reflexivity. }
  destruct (m_calc m) as [det q|n0 c]; cbn [u_calculator].
  - cbn [bind]. apply FIN.
  - rewrite u_explicitCalc. destruct (explicitCalc _ _ _) as [y| | | | |]; try reflexivity. cbn [converted bind].
    rewrite u_assignPressure. destruct (assignPressure _ _) as [p12| | | | |]; try reflexivity. cbn [converted bind]. apply FIN.
Qed.

(** ** The run *)
Lemma u_save st : save (u_sim u st) = converted (u_sim u) (save st).
Proof. unfold save. cbn [si_file u_sim]. apply conv_same. intros f _. unfold u_sim. cbn. rewrite map_app. reflexivity. Qed.

Lemma u_clock_sub a b : u_clock u a - u_clock u b = T * (a - b).
Proof. unfold u_clock. rg. Qed.
Lemma u_clock_add a b : u_clock u a + T * b = u_clock u (a + b).
Proof. unfold u_clock. rg. Qed.

Lemma u_timeStepReport real clk st : timeStepReport real clk (u_sim u st) = timeStepReport real clk st.
Proof.
  unfold timeStepReport. destruct clk as [a b]. cbn [si_step si_end si_start si_dt u_sim]. cbn [nmul ndiv nsub nofZ Rnum]. rewrite u_clock_sub.
  assert (forall v, v * (T * (si_end st - si_start st)) / (T * si_dt st) = v * (si_end st - si_start st) / si_dt st) as E.
  { intros v. replace (v * (T * (si_end st - si_start st))) with (T * (v * (si_end st - si_start st))) by rg. apply div_same. auto with units. }
  destruct (cint64 _) as [e| | | | |]; try reflexivity. cbn [bind]. rewrite E. reflexivity.
Qed.

Lemma u_iteration real clk st : iteration S' real clk (u_sim u st) = converted (u_sim u) (iteration S real clk st).
Proof.
  unfold iteration. cbn [si_mps u_sim]. rewrite u_stepForward. apply conv_bind. intros m. cbn [si_step si_start si_time si_end si_dt si_period si_file si_out u_sim].
  apply conv_same. intros k _. cbn [nadd Rnum]. rewrite u_clock_add.
  set (st1 := mkSim m _ _ _ _ _ _ _ _).
  change (mkSim (u_mps u m) _ _ _ _ _ _ _ _) with (u_sim u st1). rewrite u_timeStepReport. apply conv_same. intros r _.
  assert (saveCondition (u_sim u st1) = saveCondition st1) as ->.
  { unfold saveCondition. cbn [si_period si_file si_time si_start u_sim nle nmul nsub nofZ Rnum]. rewrite u_clock_sub, Rmult_assoc. apply Rle_scale. auto with units. }
  destruct (saveCondition st1); [apply u_save|reflexivity].
Qed.

Lemma u_loop real clk fuel k st : loop S' real clk fuel k (u_sim u st) = converted (u_sim u) (loop S real clk fuel k st).
Proof.
  revert k st. induction fuel as [|fuel IH]; intros k st; cbn [loop]; cbn [si_time si_end u_sim nlt Rnum]; unfold u_clock; rewrite Rlt_shift by auto with units;
    destruct (Rlt_bool _ _); try reflexivity.
  fold (u_sim u st). rewrite u_iteration. apply conv_bind. intros st'. apply IH.
Qed.

Lemma u_run real clk fuel st : run S' real clk fuel (u_sim u st) = converted (u_sim u) (run S real clk fuel st).
Proof. unfold run. rewrite u_save. apply conv_bind. intros st1. apply u_loop. Qed.
End Solver.

(** ** Construction *)
Lemma u_newRefValues dbg dim l0 re : newRefValues dbg dim (L * l0) (L * re) = converted (u_ref u) (newRefValues dbg dim l0 re).
Proof.
  unfold newRefValues. apply conv_same. intros _ _. cbn [nlt Rnum]. rewrite Rlt_scale by auto with units. apply conv_same. intros _ _.
  set (g := fun s : R * R => (fst s, L * L * snd s)).
  replace (@nofZ Rnum 0, @nofZ Rnum 0) with (g (@nofZ Rnum 0, @nofZ Rnum 0)) at 1 by (unfold g; cbn; f_equal; rg).
  rewrite (foldM_same g (@ref_step Rnum dbg l0 re)).
  - apply conv_bind. intros [n0 lam]. unfold g, u_ref. cbn. do 2 f_equal. unfold Rdiv. rg.
  - intros [[a b] c] [n lam] _. unfold g at 1. cbn [fst snd]. unfold ref_step. cbn [nmul nadd nsqrt nofZ Rnum].
    set (d2 := l0 * IZR a * (l0 * IZR a) + l0 * IZR b * (l0 * IZR b) + l0 * IZR c * (l0 * IZR c)).
    replace (L * l0 * IZR a * (L * l0 * IZR a) + L * l0 * IZR b * (L * l0 * IZR b) + L * l0 * IZR c * (L * l0 * IZR c)) with (L * L * d2) by (unfold d2; rg).
    pose proof Lp. rewrite sqrt_mult_alt, sqrt_square by nra. rewrite weight_scale. apply conv_same. intros w _. unfold g. cbn. do 2 f_equal. rg.
Qed.

Lemma u_factoryGravity fsin fcos pi s : factoryGravity fsin fcos pi (u_settings u s) = u_scale (k_acc u) (factoryGravity fsin fcos pi s).
Proof.
  unfold factoryGravity. cbn [s_xyzInput s_gravity s_gAngle s_gNorm u_settings]. destruct (s_xyzInput s); [reflexivity|]. apply vec_eq; cbn; rg.
Qed.

Lemma u_newMPS s ps g k : newMPS (u_settings u s) (map (u_particle u) ps) (u_scale (k_acc u) g) (u_calculator u k) = converted (u_mps u) (newMPS s ps g k).
Proof.
  unfold newMPS, newSearcher. cbn [s_reMax s_domain u_settings s_asserts s_dim s_l0 s_reN s_reG s_reL]. rewrite map_length, u_newBucket, !u_newRefValues.
  destruct (newBucket _ _ _) as [b| | | | |]; try reflexivity. cbn [converted bind].
  destruct (newRefValues _ _ _ (s_reN s)) as [r1| | | | |]; try reflexivity. cbn [converted bind].
  destruct (newRefValues _ _ _ (s_reG s)) as [r2| | | | |]; try reflexivity. cbn [converted bind].
  destruct (newRefValues _ _ _ (s_reL s)) as [r3| | | | |]; reflexivity.
Qed.

Lemma u_factoryCreate fsin fcos pi s ps : factoryCreate fsin fcos pi (u_settings u s) (map (u_particle u) ps) = converted (u_mps u) (factoryCreate fsin fcos pi s ps).
Proof.
  unfold factoryCreate. rewrite u_factoryGravity.
  assert (factoryDetector (u_settings u s) = converted (u_detector u) (factoryDetector s)) as ->.
  { unfold factoryDetector. cbn [u_settings s_asserts s_dim s_l0 s_reN s_sd_dist s_sd_dist_thr s_sd_nd]. rewrite u_newRefValues. apply conv_bind. intros rv. destruct (s_sd_dist s); reflexivity. }
  apply conv_bind. intros det.
  assert (factoryCalculator (u_settings u s) (u_detector u det) = converted (u_calculator u) (factoryCalculator s det)) as ->.
  { unfold factoryCalculator. cbn [u_settings s_method s_asserts s_dim s_l0 s_reN s_reL s_dt s_relax s_compress s_c]. rewrite !u_newRefValues.
    destruct (String.eqb _ _); [|destruct (String.eqb _ _); [|reflexivity]].
    - apply conv_bind. intros r1. apply conv_bind. intros r2. reflexivity.
    - apply conv_bind. intros r1. reflexivity. }
  apply conv_bind. intros k. apply u_newMPS.
Qed.
End Units.
