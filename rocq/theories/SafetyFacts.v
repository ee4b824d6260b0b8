(** * A time step stays inside its vectors (C51) *)
From Coq Require Import PeanoNat.
From Verif Require Export ExplicitFacts.
Open Scope Z_scope.

Section Safety.
Context {N : Num}.

(** completes, or stops at an assert in a build that has them *)
Definition fine {A} (dbg : bool) (o : outcome A) : Prop :=
  match o with Ok _ => True | AssertFail => dbg = true | _ => False end.

Lemma fine_bind {A B} dbg (o : outcome A) (k : A -> outcome B) : fine dbg o -> (forall a, o = Ok a -> fine dbg (k a)) -> fine dbg (bind o k).
Proof. destruct o; simpl; auto. Qed.
Lemma fine_foldM {A St} dbg (Inv : St -> Prop) (f : A -> St -> outcome St) xs s : Inv s ->
  (forall x s, In x xs -> Inv s -> fine dbg (f x s) /\ forall s', f x s = Ok s' -> Inv s') -> fine dbg (foldM f xs s).
Proof.
  revert s. induction xs as [|x xs IH]; intros s Hs H; simpl; auto. apply fine_bind; [apply H; simpl; auto|].
  intros s' E. apply IH; [apply (proj2 (H x s (or_introl eq_refl) Hs)); auto|]. intros; apply H; simpl; auto.
Qed.
Lemma fine_mapM {A B} dbg (f : A -> outcome B) l : (forall a, In a l -> fine dbg (f a)) -> fine dbg (mapM f l).
Proof.
  induction l as [|a l IH]; intros H; simpl; auto. apply fine_bind; [apply H; simpl; auto|]. intros b _.
  apply fine_bind; [apply IH; intros; apply H; simpl; auto|]. simpl. auto.
Qed.

Lemma fine_vget {A} dbg (l : list A) i : 0 <= i < Z.of_nat (List.length l) -> fine dbg (vget l i).
Proof.
  intros H. destruct (nth_error_ext_length l (Z.to_nat i)) as [a E]; [lia|]. unfold vget. rewrite E. destruct (Z.ltb_spec i 0); [lia|simpl; auto].
Qed.
Lemma fine_vmod {A} dbg (l : list A) i f : 0 <= i < Z.of_nat (List.length l) -> fine dbg (vmod l i f).
Proof.
  intros H. unfold vmod. apply fine_bind; [now apply fine_vget|]. intros a _. unfold vset. destruct (Z.ltb_spec i 0); [lia|].
  destruct (Nat.ltb_spec (Z.to_nat i) (List.length l)); [simpl; auto|lia].
Qed.
Lemma vmod_length {A} (l : list A) i f l' : vmod l i f = Ok l' -> List.length l' = List.length l.
Proof. unfold vmod. intros H. binds H. apply vset_ok in H. destruct H as (_ & _ & ->). apply length_upd. Qed.
Lemma fine_weight dbg d re : fine dbg (weight dbg d re).
Proof. unfold weight, cassert. destruct dbg; simpl; auto. destruct (negb _); simpl; auto. Qed.

(** neighbour entries of particles that are not Ghost are indices of the vector *)
Definition nbrs_ok (ps : list particle) : Prop :=
  forall p nb, In p ps -> p_type p <> Ghost -> In nb (p_nbrs p) -> 0 <= nb_id nb < Z.of_nat (List.length ps).

Lemma walk_ids fu re (ps : list particle) nx p j acc l : walk fu re ps nx p j acc = Ok l ->
  (forall nb, In nb acc -> 0 <= nb_id nb < Z.of_nat (List.length ps)) -> forall nb, In nb l -> 0 <= nb_id nb < Z.of_nat (List.length ps).
Proof.
  revert j acc. induction fu as [|fu IH]; intros j acc H HA; simpl in H; destruct (j =? -1); [now inv H|discriminate|now inv H|].
  binds H. apply vget_ok in E. destruct E as [J E]. binds H. apply (IH _ _ H). intros nb Hn.
  destruct (negb _ && _); [|auto]. apply in_app_or in Hn. destruct Hn as [Hn|[<-|[]]]; [auto|]. simpl.
  assert (Z.to_nat j < List.length ps)%nat by (apply nth_error_Some; congruence). lia.
Qed.

Lemma search_ids ns ps ns' ps' : setNeighbors ns ps = Ok (ns', ps') -> nbrs_ok ps'.
Proof.
  intros H. assert (LN := setNeighbors_evolves _ _ _ _ H). apply Forall2_length in LN. unfold setNeighbors in H. binds H. destruct r as [b ps1]. binds H. inv H.
  apply store_evolves in E. apply Forall2_length in E.
  apply (each_ps p_pos _ _ _ (fun w a a' => neighborsOf_pos ns b w a a') (fun w w' a => neighborsOf_reads ns b w w' a)) in E0.
  intros p nb Hp Tp Hn. apply In_nth_error in Hp. destruct Hp as [k Hp]. destruct (Forall2_nth_r _ _ _ _ _ E0 Hp) as (a & Ha & V).
  unfold neighborsOf in V. destruct (is_type a Ghost) eqn:G; [inv V; apply is_type_eq in G; contradiction|].
  binds V. binds V. inv V. simpl in Hn. rewrite <- LN, E.
  refine (foldM_inv (fun acc => forall nb, In nb acc -> 0 <= nb_id nb < Z.of_nat (List.length ps1)) _ _ _ _ _ _ E2 nb Hn); [intros ? []|].
  intros c u u' _ Hu HW. binds HW. binds HW. exact (walk_ids _ _ _ _ _ _ _ _ HW Hu).
Qed.

(** what the loops after a search keep *)
Definition same_lists (p p' : particle) : Prop := p_id p' = p_id p /\ p_type p' = p_type p /\ p_nbrs p' = p_nbrs p.
Lemma same_lists_refl p : same_lists p p.
Proof. unfold same_lists; auto. Qed.
Lemma same_lists_trans p q r : same_lists p q -> same_lists q r -> same_lists p r.
Proof. unfold same_lists. intuition congruence. Qed.
Ltac sl := unfold same_lists; simpl; auto.
Lemma lists_nbrs ps ps' : Forall2 same_lists ps ps' -> nbrs_ok ps -> nbrs_ok ps'.
Proof.
  intros F H p nb Hp Tp Hn. apply In_nth_error in Hp. destruct Hp as [k Hp]. destruct (Forall2_nth_r _ _ _ _ _ F Hp) as (a & Ha & (_ & T & E)).
  rewrite <- (Forall2_length _ _ _ F). apply (H a); [eapply nth_error_In; eauto|congruence|congruence].
Qed.
Lemma lists_indexed ps ps' : Forall2 same_lists ps ps' -> indexed ps -> indexed ps'.
Proof. intros F I k p Hp. destruct (Forall2_nth_r _ _ _ _ _ F Hp) as (a & Ha & (E & _)). rewrite E. now apply I. Qed.

Lemma gravity_lists g ps : Forall2 same_lists ps (calGravity g ps).
Proof. apply Forall2_map_r. intros p. unfold calGravity1. destruct (is_type p Fluid); sl. Qed.
Lemma viscosity_lists s rv re ps ps' : calViscosity s rv re ps = Ok ps' -> Forall2 same_lists ps ps'.
Proof. apply (each_R _ same_lists_refl same_lists_trans). intros w a a' H. unfold calViscosity1 in H. destruct (negb _); [inv H; sl|]. binds H. inv H. sl. Qed.
Lemma density_lists s re ps ps' : calNumberDensity s re ps = Ok ps' -> Forall2 same_lists ps ps'.
Proof. apply (each_R _ same_lists_refl same_lists_trans). intros w a a' H. unfold calNumberDensity1 in H. destruct (is_type a Ghost); [inv H; sl|]. binds H. inv H. sl. Qed.
Lemma bc_lists d ps ps' : setBoundaryCondition d ps = Ok ps' -> Forall2 same_lists ps ps'.
Proof. apply (each_R _ same_lists_refl same_lists_trans). intros w a a' H. unfold setBC1 in H. destruct (ghost_or_dummy a); [inv H; sl|]. binds H. inv H. sl. Qed.
Lemma assign_lists x ps ps' : assignPressure x ps = Ok ps' -> Forall2 same_lists ps ps'.
Proof. apply (each_R _ same_lists_refl same_lists_trans). intros w a a' H. binds H. inv H. sl. Qed.
Lemma gradient_lists s rv re ps ps' : calPressureGradient s rv re ps = Ok ps' -> Forall2 same_lists ps ps'.
Proof. apply (each_R _ same_lists_refl same_lists_trans). intros w a a' H. unfold calPressureGradient1 in H. destruct (negb _); [inv H; sl|]. binds H. inv H. sl. Qed.
Lemma minp_pair_lists re i nb t t' : minp_pair re i nb t = Ok t' -> Forall2 same_lists t t'.
Proof.
  intros H. unfold minp_pair in H. binds H. binds H. destruct (ghost_or_dummy r0); [inv H; apply Forall2_same, same_lists_refl|].
  destruct (_ <? _)%Z; [inv H; apply Forall2_same, same_lists_refl|]. destruct (nlt _ _); [|inv H; apply Forall2_same, same_lists_refl].
  binds H. apply (vmod_R _ same_lists_refl) in E1; [|intros; sl]. apply (vmod_R _ same_lists_refl) in H; [|intros; sl].
  eapply Forall2_trans; [apply same_lists_trans| |]; eauto.
Qed.
Lemma minp1_lists re i t t' : minp1 re i t = Ok t' -> Forall2 same_lists t t'.
Proof.
  intros H. unfold minp1 in H. binds H. destruct (ghost_or_dummy r); [inv H; apply Forall2_same, same_lists_refl|].
  revert H. apply (foldM_R _ same_lists_refl same_lists_trans). clear. intros nb t t' H. eapply minp_pair_lists; eauto.
Qed.
Lemma minp_lists re ps ps' : setMinimumPressure re ps = Ok ps' -> Forall2 same_lists ps ps'.
Proof.
  unfold setMinimumPressure. intros H.
  eapply Forall2_trans; [apply same_lists_trans|apply Forall2_map_r; intros p; instantiate (1 := fun p => set_minp p (p_press p)); sl|].
  revert H. apply (foldM_R _ same_lists_refl same_lists_trans). intros i t t' H. eapply minp1_lists; eauto.
Qed.
Lemma correct_lists s ps : Forall2 same_lists ps (moveParticleUsingPressureGradient s ps).
Proof. apply Forall2_map_r. intros p. unfold correct1. destruct (is_type p Fluid); sl. Qed.
Lemma collide_lists s i nb t t' : collide s i nb t = Ok t' -> Forall2 same_lists t t'.
Proof.
  intros H. unfold collide in H. binds H. binds H.
  destruct (_ && _); [inv H; apply Forall2_same, same_lists_refl|].
  destruct (nlt _ _); [|inv H; apply Forall2_same, same_lists_refl].
  binds H. binds H. binds H. apply (vmod_R _ same_lists_refl) in E1, E2, E3, H; try (intros; sl).
  repeat (eapply Forall2_trans; [exact same_lists_trans| |]; eauto).
Qed.

(** the stages *)
Lemma viscosity_fine s rv re ps : nbrs_ok ps -> fine (s_asserts s) (calViscosity s rv re ps).
Proof.
  intros H. rewrite calViscosity_mapM. apply fine_mapM. intros p Hp. unfold calViscosity1. destruct (is_type p Fluid) eqn:T; [|simpl; auto].
  apply is_type_eq in T. cbn [negb]. apply fine_bind; [|simpl; auto]. apply (fine_foldM _ (fun _ => True)); auto. intros nb v Hn _. split; auto.
  unfold visc_term. apply fine_bind; [apply fine_vget, (H p); auto; rewrite T; discriminate|]. intros q _. destruct (nlt _ _); [|simpl; auto].
  apply fine_bind; [apply fine_weight|simpl; auto].
Qed.

Lemma index_of {A} (l : list A) i : In i (seq 0 (List.length l)) -> 0 <= Z.of_nat i < Z.of_nat (List.length l).
Proof. intros H. apply in_seq in H. lia. Qed.

Lemma collide_fine dbg s i nb ps : 0 <= Z.of_nat i < Z.of_nat (List.length ps) -> 0 <= nb_id nb < Z.of_nat (List.length ps) -> fine dbg (collide s i nb ps).
Proof.
  intros Hi Hj. unfold collide. apply fine_bind; [now apply fine_vget|]. intros a _. apply fine_bind; [now apply fine_vget|]. intros b _.
  destruct (_ && _); [simpl; auto|]. destruct (nlt _ _); [|simpl; auto].
  apply fine_bind; [now apply fine_vmod|]. intros u1 E1. apply vmod_length in E1.
  apply fine_bind; [apply fine_vmod; now rewrite E1|]. intros u2 E2. apply vmod_length in E2.
  apply fine_bind; [apply fine_vmod; now rewrite E2, E1|]. intros u3 E3. apply vmod_length in E3. apply fine_vmod. now rewrite E3, E2, E1.
Qed.
Lemma collision_fine dbg s ps : nbrs_ok ps -> fine dbg (collision s ps).
Proof.
  intros H. unfold collision. apply (fine_foldM _ (fun u => Forall2 same_lists ps u)); [apply Forall2_same, same_lists_refl|].
  intros i u Hi Hu. assert (LU := Forall2_length _ _ _ Hu). assert (HU := lists_nbrs _ _ Hu H). apply index_of in Hi. rewrite LU in Hi.
  unfold collision1. split.
  - apply fine_bind; [now apply fine_vget|]. intros p Hp. apply vget_nat_inv in Hp. destruct (is_type p Fluid) eqn:T; [|simpl; auto]. apply is_type_eq in T. cbn [negb].
    apply (fine_foldM _ (fun v => List.length v = List.length u)); auto. intros nb v Hn Hv. split.
    + apply collide_fine; rewrite Hv; auto. apply (HU p nb); auto; [eapply nth_error_In; eauto|rewrite T; discriminate].
    + intros v' E. apply collide_lists in E. apply Forall2_length in E. lia.
  - intros u' E. binds E. destruct (negb _); [now inv E|]. eapply Forall2_trans; [apply same_lists_trans|exact Hu|].
    revert E. apply (foldM_R _ same_lists_refl same_lists_trans). intros nb v v'. apply collide_lists.
Qed.

Lemma density_fine s re ps : fine (s_asserts s) (calNumberDensity s re ps).
Proof.
  rewrite calNumberDensity_mapM. apply fine_mapM. intros p Hp. unfold calNumberDensity1. destruct (is_type p Ghost); [simpl; auto|].
  apply fine_bind; [|simpl; auto]. apply (fine_foldM _ (fun _ => True)); auto. intros nb v Hn _. split; auto.
  apply fine_bind; [apply fine_weight|simpl; auto].
Qed.

Lemma god_not (p : particle) : ghost_or_dummy p = false -> p_type p <> Ghost.
Proof. unfold ghost_or_dummy. intros H. apply orb_false_iff in H. now apply is_type_neq. Qed.

Lemma bc_fine dbg det ps : nbrs_ok ps -> fine dbg (setBoundaryCondition det ps).
Proof.
  intros H. rewrite setBoundaryCondition_mapM. apply fine_mapM. intros p Hp. unfold setBC1. destruct (ghost_or_dummy p) eqn:G; [simpl; auto|].
  apply god_not in G. apply fine_bind; [|simpl; auto]. unfold isFreeSurface. destruct det; [simpl; auto|]. destruct (nlt _ _); [|simpl; auto].
  unfold subDetection. destruct (p_nbrs p) as [|nbh nbl] eqn:EN; [simpl; auto|]. apply fine_bind; [|simpl; auto]. rewrite <- EN.
  apply (fine_foldM _ (fun _ => True)); auto. intros nb v Hn _. split; auto. apply fine_bind; [now apply fine_vget, (H p)|simpl; auto].
Qed.

Lemma vset_total {A} (l : list A) i a : 0 <= i < Z.of_nat (List.length l) -> exists l', vset l i a = Ok l' /\ List.length l' = List.length l.
Proof.
  intros H. unfold vset. destruct (Z.ltb_spec i 0); [lia|]. destruct (Nat.ltb_spec (Z.to_nat i) (List.length l)); [|lia].
  eexists. split; [reflexivity|apply length_upd].
Qed.

Lemma generate_shape det ps ps' d : generateBC det ps = Ok (ps', d) -> setBoundaryCondition det ps = Ok ps' /\
  d = fold_left (fun d p => if fs_eqb (p_bc p) Inner then d else dbc_set d (p_id p) (nofZ 0)) ps' [].
Proof. unfold generateBC. intros H. binds H. inv H. auto. Qed.

(** a Dirichlet table built by generate never throws when asked for a key it has *)
Lemma source_fine dbg q d ps : indexed ps -> exists b, setSourceTerm q d ps = Ok (map (fun p => Some (b p)) ps) /\ fine dbg (setSourceTerm q d ps).
Proof.
  intros I. set (b := fun p => match dbc_find d (p_id p) with Some v => v | None => nmul (nmul (q_gamma q) (ndiv (nofZ 1) (nmul (q_dt q) (q_dt q)))) (ndiv (nsub (p_nd p) (q_n0N q)) (q_n0N q)) end).
  exists b. assert (E : setSourceTerm q d ps = Ok (map (fun p => Some (b p)) ps)).
  { unfold setSourceTerm. rewrite <- (fill (fun p => Some (b p)) ps (repeat None (List.length ps)) I) by apply repeat_length.
    apply foldM_ext. intros p v Hp. unfold source1, dbc_contains, dbc_value, b. destruct (dbc_find d (p_id p)); reflexivity. }
  rewrite E. split; simpl; auto.
Qed.

Lemma term_fine q ps p nb st : 0 <= nb_id nb < Z.of_nat (List.length ps) -> fine (q_asserts q) (matrix_term q ps p nb st).
Proof.
  intros H. unfold matrix_term. destruct st as [ts c]. apply fine_bind; [now apply fine_vget|]. intros pj _. destruct (fs_eqb _ _); [simpl; auto|].
  destruct (nlt _ _); [|simpl; auto]. apply fine_bind; [apply fine_weight|simpl; auto].
Qed.
Lemma index_range ps i p : indexed ps -> nth_error ps i = Some p -> 0 <= p_id p < Z.of_nat (List.length ps).
Proof. intros I H. rewrite (I i p H). assert (i < List.length ps)%nat by (apply nth_error_Some; congruence). lia. Qed.

Lemma term_range q ps p nb st st' : indexed ps -> In p ps -> matrix_term q ps p nb st = Ok st' ->
  forallb (triplet_in_range (List.length ps)) (fst st) = true -> forallb (triplet_in_range (List.length ps)) (fst st') = true.
Proof.
  intros I Hp H F. unfold matrix_term in H. destruct st as [ts c]. binds H. apply vget_ok in E. destruct E as [_ E]. destruct (fs_eqb _ _); [now inv H|].
  destruct (nlt _ _); [|now inv H]. binds H. inv H. simpl in *. rewrite forallb_app, F. simpl. unfold triplet_in_range. simpl.
  apply In_nth_error in Hp. destruct Hp as [k Hp]. assert (A := index_range _ _ _ I Hp). assert (B := index_range _ _ _ I E).
  rewrite !(proj2 (Z.leb_le _ _)), !(proj2 (Z.ltb_lt _ _)) by lia. reflexivity.
Qed.
Lemma row_range q d ps p ts ts' : indexed ps -> In p ps -> matrix_row q d ps p ts = Ok ts' ->
  forallb (triplet_in_range (List.length ps)) ts = true -> forallb (triplet_in_range (List.length ps)) ts' = true.
Proof.
  intros I Hp H F. assert (Hp' := Hp). apply In_nth_error in Hp'. destruct Hp' as [k Hk]. assert (A := index_range _ _ _ I Hk).
  assert (T1 : forall v, triplet_in_range (List.length ps) (mkT (p_id p) (p_id p) v) = true).
  { intros v. unfold triplet_in_range. simpl. rewrite !(proj2 (Z.leb_le _ _)), !(proj2 (Z.ltb_lt _ _)) by lia. reflexivity. }
  unfold matrix_row in H. destruct (dbc_contains d (p_id p)).
  - inv H. rewrite forallb_app, F. simpl. now rewrite T1.
  - binds H. destruct r as [ts1 c]. inv H. apply (foldM_inv (fun st => forallb (triplet_in_range (List.length ps)) (fst st) = true)) in E.
    + simpl in E. rewrite forallb_app, E. simpl. now rewrite T1.
    + exact F.
    + intros nb st st' _ Hs Ht. eapply term_range; eauto.
Qed.

Lemma setup_fine det q ps ps' d : nbrs_ok ps -> indexed ps -> generateBC det ps = Ok (ps', d) -> fine (q_asserts q) (ppe_setup q d ps').
Proof.
  intros H I E. apply generate_shape in E. destruct E as [E ED].
  assert (F := bc_lists _ _ _ E). assert (H' := lists_nbrs _ _ F H). assert (I' := lists_indexed _ _ F I).
  assert (BC : forall p, In p ps' -> dbc_contains d (p_id p) = false -> p_type p <> Ghost).
  { intros p Hp HD T. assert (BI : p_bc p = Ignored).
    { rewrite setBoundaryCondition_mapM in E. apply mapM_ok in E. apply In_nth_error in Hp. destruct Hp as [k Hp]. destruct (Forall2_nth_r _ _ _ _ _ E Hp) as (a & Ha & V).
      unfold setBC1 in V. destruct (ghost_or_dummy a) eqn:G; [inv V; reflexivity|]. binds V. inv V. simpl in T. apply god_not in G. contradiction. }
    assert (K : forall l d0, In p l -> dbc_contains (fold_left (fun d p => if fs_eqb (p_bc p) Inner then d else dbc_set d (p_id p) (nofZ 0)) l d0) (p_id p) = true).
    { assert (K0 : forall l d0 id, dbc_contains d0 id = true -> dbc_contains (fold_left (fun d p => if fs_eqb (p_bc p) Inner then d else dbc_set d (p_id p) (nofZ 0)) l d0) id = true).
      { induction l as [|a l IH]; intros d0 id Hd; simpl; auto. apply IH. destruct (fs_eqb (p_bc a) Inner); auto.
        unfold dbc_contains, dbc_find, dbc_set in *. simpl. destruct (p_id a =? id); auto. }
      induction l as [|a l IH]; intros d0 Hin; [contradiction|]. simpl. destruct Hin as [->|Hin]; [|now apply IH].
      rewrite BI. simpl. apply K0. unfold dbc_contains, dbc_find, dbc_set. simpl. now rewrite Z.eqb_refl. }
    rewrite ED, (K ps' [] Hp) in HD. discriminate. }
  destruct (source_fine (q_asserts q) q d ps' I') as (b & EB & _). unfold ppe_setup. rewrite EB. cbn [bind].
  assert (FM : fine (q_asserts q) (setMatrixTriplets q d ps')).
  { unfold setMatrixTriplets. apply (fine_foldM _ (fun _ => True)); auto. intros p ts Hp _. split; auto. unfold matrix_row.
    destruct (dbc_contains d (p_id p)) eqn:D; [simpl; auto|]. apply fine_bind; [|intros [ts1 c] _; simpl; auto].
    apply (fine_foldM _ (fun _ => True)); auto. intros nb st Hn _. split; auto. apply term_fine, (H' p); auto. }
  apply fine_bind; auto. intros ts ET.
  assert (RG : forallb (triplet_in_range (List.length ps')) ts = true).
  { unfold setMatrixTriplets in ET. apply (foldM_inv (fun ts => forallb (triplet_in_range (List.length ps')) ts = true)) in ET; auto.
    intros p t t' Hp Ht HR. eapply row_range; eauto. }
  rewrite RG. cbn [negb]. replace (initialised _) with (@Ok (list num) (map b ps')); [simpl; auto|].
  clear. induction ps'; simpl; auto. now rewrite <- IHps'.
Qed.

Lemma assign_fine dbg x ps : indexed ps -> List.length x = List.length ps -> fine dbg (assignPressure x ps).
Proof.
  intros I L. rewrite assignPressure_mapM. apply fine_mapM. intros p Hp. apply In_nth_error in Hp. destruct Hp as [k Hp].
  apply fine_bind; [apply fine_vget; rewrite L; eapply index_range; eauto|simpl; auto].
Qed.

Lemma minp_fine dbg re ps : nbrs_ok ps -> fine dbg (setMinimumPressure re ps).
Proof.
  intros H0. unfold setMinimumPressure. set (ps1 := map _ ps).
  assert (F0 : Forall2 same_lists ps ps1) by (apply Forall2_map_r; intros; sl). assert (H := lists_nbrs _ _ F0 H0). clearbody ps1. clear F0 H0.
  apply (fine_foldM _ (fun u => Forall2 same_lists ps1 u)); [apply Forall2_same, same_lists_refl|].
  intros i u Hi Hu. assert (LU := Forall2_length _ _ _ Hu). assert (HU := lists_nbrs _ _ Hu H). apply index_of in Hi. rewrite LU in Hi. split.
  - unfold minp1. apply fine_bind; [now apply fine_vget|]. intros p Hp. apply vget_nat_inv in Hp. destruct (ghost_or_dummy p) eqn:G; [simpl; auto|]. apply god_not in G.
    apply (fine_foldM _ (fun v => List.length v = List.length u)); auto. intros nb v Hn Hv. split.
    + assert (Hj : 0 <= nb_id nb < Z.of_nat (List.length v)) by (rewrite Hv; apply (HU p nb); auto; eapply nth_error_In; eauto). rewrite <- Hv in Hi.
      unfold minp_pair. apply fine_bind; [now apply fine_vget|]. intros a _. apply fine_bind; [now apply fine_vget|]. intros b _.
      destruct (ghost_or_dummy b); [simpl; auto|]. destruct (_ <? _); [simpl; auto|]. destruct (nlt _ _); [|simpl; auto].
      apply fine_bind; [now apply fine_vmod|]. intros u1 E1. apply vmod_length in E1. apply fine_vmod. now rewrite E1.
    + intros v' E. apply minp_pair_lists in E. apply Forall2_length in E. lia.
  - intros u' E. apply minp1_lists in E. eapply Forall2_trans; [apply same_lists_trans| |]; eauto.
Qed.

Lemma gradient_fine s rv re ps : nbrs_ok ps -> fine (s_asserts s) (calPressureGradient s rv re ps).
Proof.
  intros H. rewrite calPressureGradient_mapM. apply fine_mapM. intros p Hp. unfold calPressureGradient1. destruct (is_type p Fluid) eqn:T; [|simpl; auto].
  apply is_type_eq in T. cbn [negb]. apply fine_bind; [|simpl; auto]. apply (fine_foldM _ (fun _ => True)); auto. intros nb v Hn _. split; auto.
  unfold grad_term. apply fine_bind; [apply fine_vget, (H p); auto; rewrite T; discriminate|]. intros pj _. destruct (ghost_or_dummy pj); [simpl; auto|]. destruct (nlt _ _); [|simpl; auto].
  apply fine_bind; [apply fine_weight|simpl; auto].
Qed.

(** ** the whole step *)
Definition dbg_of (m : mps) : bool := s_asserts (m_settings m) || match m_calc m with Implicit _ q => q_asserts q | Explicit _ _ => false end.
Lemma fine_or {A} (o : outcome A) a b : fine a o -> fine (a || b) o.
Proof. destruct o; simpl; auto. now intros ->. Qed.
Lemma fine_or2 {A} (o : outcome A) a b : fine b o -> fine (a || b) o.
Proof. destruct o; simpl; auto. intros ->. apply orb_true_r. Qed.

(** results a step may have: completion, a failed assert, exit(-1) after a solver
    failure, or the failure of one of its three neighbour searches *)
Definition fails_like {A B} (o : outcome A) (r : outcome B) : Prop :=
  match o with Ok _ => False | Undef u => r = Undef u | AssertFail => r = AssertFail | Exit c => r = Exit c | Throw => r = Throw | Diverge => r = Diverge end.
Definition good_end {A} (S : solver) (m : mps) (r : outcome A) : Prop :=
  (exists a, r = Ok a) \/ (dbg_of m = true /\ r = AssertFail) \/
  ((exists det q, m_calc m = Implicit det q) /\ (exists n ts b, S n ts b = None) /\ r = Exit (-1)).

Lemma good_of_fine {A} S m (o : outcome A) : fine (dbg_of m) o -> good_end S m o.
Proof. unfold good_end. destruct o; simpl; try contradiction; eauto. Qed.

Lemma pressure_good S m ps : sized S -> nbrs_ok ps -> indexed ps ->
  good_end S m (ps <- calNumberDensity (m_settings m) (s_reN (m_settings m)) ps ;; '(ps, x) <- calc S (m_calc m) ps ;; assignPressure x ps).
Proof.
  intros SZ HN HI. assert (FD := density_fine (m_settings m) (s_reN (m_settings m)) ps).
  destruct (calNumberDensity _ _ ps) as [p1| | | | |] eqn:ED; try contradiction; [|right; left; unfold dbg_of; simpl in FD; rewrite FD; auto].
  assert (L1 := density_lists _ _ _ _ ED). assert (N1 := lists_nbrs _ _ L1 HN). assert (I1 := lists_indexed _ _ L1 HI). cbn [bind].
  destruct (m_calc m) as [det q|n0 c] eqn:K; cbn [calc].
  - unfold implicitCalc. assert (FB := bc_fine (q_asserts q) det p1 N1).
    assert (GE : forall o : outcome (list particle * dirichlet), o = generateBC det p1 -> fine (q_asserts q) o).
    { intros o ->. unfold generateBC. apply fine_bind; [exact FB|simpl; auto]. }
    assert (DB : q_asserts q = true -> dbg_of m = true) by (intros e; unfold dbg_of; rewrite K, e; apply orb_true_r).
    destruct (generateBC det p1) as [[p2 d]| | | | |] eqn:EG; try (specialize (GE _ eq_refl); contradiction).
    2:{ right; left. split; auto. apply DB. exact (GE _ eq_refl). }
    cbn [bind]. assert (FS := setup_fine det q p1 p2 d N1 I1 EG). unfold ppe_solve.
    destruct (ppe_setup q d p2) as [[ts b]| | | | |]; try contradiction; [|right; left; split; [apply DB; exact FS|reflexivity]].
    cbn [bind]. destruct (S _ ts b) as [x|] eqn:ES; [|right; right; split; [eauto|split; [eauto|reflexivity]]]. cbn [bind].
    apply generate_shape in EG. destruct EG as [EG _]. assert (L2 := bc_lists _ _ _ EG).
    apply good_of_fine, assign_fine; [eapply lists_indexed; eauto|]. unfold removeNegative. rewrite map_length. now apply SZ in ES.
  - rewrite explicitCalc_map by auto. cbn [bind]. apply good_of_fine, assign_fine; auto. apply map_length.
Qed.

Lemma pressure_lists S m ps ps' :
  (ps <- calNumberDensity (m_settings m) (s_reN (m_settings m)) ps ;; '(ps, x) <- calc S (m_calc m) ps ;; assignPressure x ps) = Ok ps' -> Forall2 same_lists ps ps'.
Proof.
  intros H. binds H. apply density_lists in E. binds H. destruct r0 as [v x]. apply assign_lists in H. eapply Forall2_trans; [apply same_lists_trans|exact E|].
  eapply Forall2_trans; [apply same_lists_trans| |exact H]. destruct (m_calc m) as [det q|n0 c]; cbn [calc] in E0; [|binds E0; inv E0; apply Forall2_same, same_lists_refl].
  unfold implicitCalc in E0. binds E0. destruct r0 as [w dd]. apply generate_shape in E1. binds E0. inv E0. now apply (bc_lists det r v).
Qed.

Lemma correct_good S m ps : nbrs_ok ps -> indexed ps -> good_end S m (stepCorrect m ps).
Proof.
  intros HN HI. apply good_of_fine. unfold stepCorrect. apply fine_bind; [now apply minp_fine|]. intros p1 E1.
  apply minp_lists in E1. assert (N1 := lists_nbrs _ _ E1 HN). assert (I1 := lists_indexed _ _ E1 HI).
  apply fine_bind; [apply fine_or; now apply gradient_fine|]. intros p2 E2.
  apply gradient_lists in E2. assert (I2 := lists_indexed _ _ E2 I1).
  destruct (m_calc m) as [det q|n0 c] eqn:K; [simpl; auto|]. assert (I3 := lists_indexed _ _ (correct_lists (m_settings m) p2) I2).
  rewrite explicitCalc_map by auto. cbn [bind]. apply assign_fine; auto. apply map_length.
Qed.

Lemma bind_fails {A B C} (o : outcome A) (k : A -> outcome B) (r : outcome C) : (forall a, o <> Ok a) -> fails_like o r -> fails_like (bind o k) r.
Proof. destruct o; simpl; auto. intros H. exfalso. now apply (H a). Qed.

Lemma search_indexed ns ps ns' ps' : setNeighbors ns ps = Ok (ns', ps') -> indexed ps -> indexed ps'.
Proof.
  intros E I. eapply same_id_indexed; [|exact I]. eapply Forall2_impl; [|eapply setNeighbors_evolves; eauto]. intros ? ? X; apply X.
Qed.

Lemma move_indexed m ns ps : indexed (m_ps m) -> stepMove m = Ok (ns, ps) -> indexed ps.
Proof.
  intros I H. unfold stepMove in H. binds H. destruct r as [n1 p1]. binds H. inv H. apply search_indexed in E; auto.
  eapply same_id_indexed; [eapply Forall2_impl; [|apply moveParticle_evolves]; intros ? ? X; apply X|].
  eapply lists_indexed; [eapply viscosity_lists; eauto|]. eapply lists_indexed; [apply gravity_lists|auto].
Qed.
Lemma collide_indexed m ns ps ns' ps' : indexed ps -> stepCollide m ns ps = Ok (ns', ps') -> indexed ps'.
Proof.
  intros I H. unfold stepCollide in H. binds H. destruct r as [n1 p1]. binds H. inv H. apply search_indexed in E; auto.
  eapply same_id_indexed; [eapply collision_same_id; eauto|auto].
Qed.

Lemma C51_lemma S m : sound m -> sized S ->
  good_end S m (stepForward S m) \/
  exists ns ps, fails_like (setNeighbors ns ps) (stepForward S m) /\
    ((ns = m_ns m /\ ps = m_ps m) \/ stepMove m = Ok (ns, ps) \/ exists ns0 ps0, stepMove m = Ok (ns0, ps0) /\ stepCollide m ns0 ps0 = Ok (ns, ps)).
Proof.
  intros (I & _ & _) SZ.
  destruct (setNeighbors (m_ns m) (m_ps m)) as [[n1 p1]| | | | |] eqn:E1;
    try (right; exists (m_ns m), (m_ps m); rewrite E1; split; [unfold stepForward, stepMove; rewrite E1; reflexivity|auto]).
  assert (N1 := search_ids _ _ _ _ E1). assert (I1 := search_indexed _ _ _ _ E1 I).
  assert (LG := gravity_lists (m_gravity m) p1).
  assert (FV := viscosity_fine (m_settings m) (m_rvL m) (s_reL (m_settings m)) _ (lists_nbrs _ _ LG N1)).
  destruct (calViscosity (m_settings m) (m_rvL m) (s_reL (m_settings m)) (calGravity (m_gravity m) p1)) as [p2| | | | |] eqn:EV; try contradiction.
  2:{ left. right. left. split; [unfold dbg_of; simpl in FV; now rewrite FV|]. unfold stepForward, stepMove. rewrite E1. cbn [bind]. rewrite EV. reflexivity. }
  assert (I2 : indexed (moveParticle (m_settings m) p2)).
  { eapply same_id_indexed; [eapply Forall2_impl; [|apply moveParticle_evolves]; intros ? ? X; apply X|]. eapply lists_indexed; [eapply viscosity_lists; eauto|]. eapply lists_indexed; eauto. }
  assert (EM : stepMove m = Ok (n1, moveParticle (m_settings m) p2)) by (unfold stepMove; rewrite E1; cbn [bind]; rewrite EV; reflexivity).
  set (p3 := moveParticle (m_settings m) p2) in *. clearbody p3.
  destruct (setNeighbors n1 p3) as [[n2 p4]| | | | |] eqn:E2;
    try (right; exists n1, p3; rewrite E2; split; [unfold stepForward; rewrite EM; cbn [bind]; unfold stepCollide; rewrite E2; reflexivity|auto]).
  assert (N2 := search_ids _ _ _ _ E2). assert (I3 := search_indexed _ _ _ _ E2 I2).
  assert (FC := collision_fine false (m_settings m) p4 N2).
  destruct (collision (m_settings m) p4) as [p5| | | | |] eqn:EC; try contradiction; [|discriminate FC].
  assert (EL : stepCollide m n1 p3 = Ok (n2, p5)) by (unfold stepCollide; rewrite E2; cbn [bind]; rewrite EC; reflexivity).
  assert (I5 : indexed p5) by (eapply same_id_indexed; [eapply collision_same_id; eauto|auto]).
  destruct (setNeighbors n2 p5) as [[n3 p6]| | | | |] eqn:E3;
    try (right; exists n2, p5; rewrite E3; split; [unfold stepForward; rewrite EM; cbn [bind]; rewrite EL; cbn [bind]; unfold stepPressure; rewrite E3; reflexivity|eauto 6]).
  left. assert (N3 := search_ids _ _ _ _ E3). assert (I6 := search_indexed _ _ _ _ E3 I5).
  assert (GP := pressure_good S m p6 SZ N3 I6).
  assert (EP : stepPressure S m n2 p5 = ps <- (ps <- calNumberDensity (m_settings m) (s_reN (m_settings m)) p6 ;; '(ps, x) <- calc S (m_calc m) ps ;; assignPressure x ps) ;; Ok (n3, ps)).
  { unfold stepPressure. rewrite E3. cbn [bind]. destruct (calNumberDensity _ _ p6) as [u| | | | |]; cbn [bind]; auto. destruct (calc S (m_calc m) u) as [[v x]| | | | |]; reflexivity. }
  unfold stepForward. rewrite EM. cbn [bind]. rewrite EL. cbn [bind]. rewrite EP.
  destruct GP as [[p7 E7]|[[D ->]|[D [D2 ->]]]]; cbn [bind]; [|right; left; auto|right; right; tauto]. rewrite E7. cbn [bind].
  assert (L7 : Forall2 same_lists p6 p7).
  { eapply pressure_lists; eauto. }
  destruct (correct_good S m p7 (lists_nbrs _ _ L7 N3) (lists_indexed _ _ L7 I6)) as [[p8 ->]|[[D ->]|[D [D2 ->]]]]; cbn [bind];
    [left; destruct (calCourant (m_settings m) p8); eauto|right; left; auto|right; right; tauto].
Qed.
End Safety.
