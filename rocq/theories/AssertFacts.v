(** * Which assertions can fail *)
From Coq Require Import Reals Lra PeanoNat Classical_Prop.
From Flocq Require Import Core.Core IEEE754.BinarySingleNaN.
From Verif Require Import TotalR DensityF NeighborProps.
From Verif Require Export SpecEndings.
From Verif Require Export SafetyFacts.
Open Scope list_scope.
Open Scope Z_scope.

Section Quiet.
Context {N : Num}.

(** no assertion fails *)
Definition quiet {A} (o : outcome A) : Prop := o <> AssertFail.
Lemma quiet_ok {A} (a : A) : quiet (Ok a). Proof. discriminate. Qed.
Lemma quiet_bind {A B} (o : outcome A) (k : A -> outcome B) : quiet o -> (forall a, o = Ok a -> quiet (k a)) -> quiet (bind o k).
Proof. unfold quiet. destruct o; cbn [bind]; auto; discriminate. Qed.
Lemma quiet_foldM {A St} (f : A -> St -> outcome St) xs : (forall x s, In x xs -> quiet (f x s)) -> forall s, quiet (foldM f xs s).
Proof. induction xs as [|x xs IH]; intros H s; cbn [foldM]; [apply quiet_ok|]. apply quiet_bind; [apply H; now left|]. intros s' _. apply IH. intros; apply H; now right. Qed.
Lemma quiet_mapM {A B} (f : A -> outcome B) l : (forall a, In a l -> quiet (f a)) -> quiet (mapM f l).
Proof.
  induction l as [|a l IH]; intros H; cbn [mapM]; [apply quiet_ok|]. apply quiet_bind; [apply H; now left|]. intros b _. apply quiet_bind; [apply IH; intros; apply H; now right|]. intros; apply quiet_ok.
Qed.
Lemma quiet_vget {A} (l : list A) i : quiet (vget l i). Proof. unfold vget. destruct (i <? 0); [discriminate|]. destruct (nth_error _ _); discriminate. Qed.
Lemma quiet_vset {A} (l : list A) i a : quiet (vset l i a). Proof. unfold vset. destruct (i <? 0); [discriminate|]. destruct (Nat.ltb _ _); discriminate. Qed.
Lemma quiet_vmod {A} (l : list A) i f : quiet (vmod l i f). Proof. apply quiet_bind; [apply quiet_vget|intros; apply quiet_vset]. Qed.
Lemma quiet_weight dbg d re : nlt (nofZ 0) d = true -> quiet (weight dbg d re).
Proof. intros H. unfold weight, cassert. rewrite H. cbn [negb]. rewrite andb_false_r. discriminate. Qed.

(** the distances in the lists of the particles that are not Ghost are positive *)
Definition spaced (ps : list particle) : Prop :=
  forall p nb, In p ps -> p_type p <> Ghost -> In nb (p_nbrs p) -> nlt (nofZ 0) (nb_dist nb) = true.
Lemma lists_spaced ps ps' : Forall2 same_lists ps ps' -> spaced ps -> spaced ps'.
Proof.
  intros F H p nb Hp Tp Hn. apply In_nth_error in Hp as [k Hp]. destruct (Forall2_nth_r _ _ _ _ _ F Hp) as (a & Ha & (_ & T & E)).
  apply (H a); [eapply nth_error_In; eauto|congruence|congruence].
Qed.
Lemma viscosity_quiet s rv re ps : spaced ps -> quiet (calViscosity s rv re ps).
Proof.
  intros H. rewrite calViscosity_mapM. apply quiet_mapM. intros p Hp. unfold calViscosity1. destruct (is_type p Fluid) eqn:T; [|apply quiet_ok]. apply is_type_eq in T. cbn [negb].
  apply quiet_bind; [|intros; apply quiet_ok]. apply quiet_foldM. intros nb v Hn. unfold visc_term. apply quiet_bind; [apply quiet_vget|]. intros q _. destruct (nlt _ _); [|apply quiet_ok].
  apply quiet_bind; [|intros; apply quiet_ok]. apply quiet_weight, (H p); auto. rewrite T. discriminate.
Qed.
Lemma collision_quiet s ps : quiet (collision s ps).
Proof.
  apply quiet_foldM. intros i u _. unfold collision1. apply quiet_bind; [apply quiet_vget|]. intros p _. destruct (negb _); [apply quiet_ok|]. apply quiet_foldM. intros nb v _.
  unfold collide. apply quiet_bind; [apply quiet_vget|]. intros a _. apply quiet_bind; [apply quiet_vget|]. intros b _. destruct (_ && _); [apply quiet_ok|]. destruct (nlt _ _); [|apply quiet_ok].
  cbv zeta. repeat (apply quiet_bind; [apply quiet_vmod|intros]). apply quiet_vmod.
Qed.
Lemma density_quiet s re ps : spaced ps -> quiet (calNumberDensity s re ps).
Proof.
  intros H. rewrite calNumberDensity_mapM. apply quiet_mapM. intros p Hp. unfold calNumberDensity1. destruct (is_type p Ghost) eqn:T; [apply quiet_ok|]. apply is_type_neq in T.
  apply quiet_bind; [|intros; apply quiet_ok]. apply quiet_foldM. intros nb v Hn. apply quiet_bind; [|intros; apply quiet_ok]. apply quiet_weight, (H p); auto.
Qed.
Lemma bc_quiet det ps : quiet (setBoundaryCondition det ps).
Proof.
  rewrite setBoundaryCondition_mapM. apply quiet_mapM. intros p Hp. unfold setBC1. destruct (ghost_or_dummy p); [apply quiet_ok|]. apply quiet_bind; [|intros; apply quiet_ok].
  unfold isFreeSurface. destruct det; [apply quiet_ok|]. destruct (nlt _ _); [|apply quiet_ok]. unfold subDetection. destruct (p_nbrs p) as [|nbh nbl] eqn:EN; [apply quiet_ok|].
  apply quiet_bind; [|intros; apply quiet_ok]. apply quiet_foldM. intros. apply quiet_bind; [apply quiet_vget|intros; apply quiet_ok].
Qed.
(** a row of the matrix is only computed for a particle that is not Ghost *)
Lemma row_alive det ps ps' d p : generateBC det ps = Ok (ps', d) -> In p ps' -> dbc_contains d (p_id p) = false -> p_type p <> Ghost.
Proof.
  intros E Hp HD T. apply generate_shape in E as [E ED]. assert (BI : p_bc p = Ignored).
  { rewrite setBoundaryCondition_mapM in E. apply mapM_ok in E. apply In_nth_error in Hp as [k Hp]. destruct (Forall2_nth_r _ _ _ _ _ E Hp) as (a & Ha & V).
    unfold setBC1 in V. destruct (ghost_or_dummy a) eqn:G; [inv V; reflexivity|]. binds V. inv V. simpl in T. apply god_not in G. contradiction. }
  assert (K : forall l d0, In p l -> dbc_contains (fold_left (fun d p => if fs_eqb (p_bc p) Inner then d else dbc_set d (p_id p) (nofZ 0)) l d0) (p_id p) = true).
  { assert (K0 : forall l d0 id, dbc_contains d0 id = true -> dbc_contains (fold_left (fun d p => if fs_eqb (p_bc p) Inner then d else dbc_set d (p_id p) (nofZ 0)) l d0) id = true).
    { induction l as [|a l IH]; intros d0 id Hd; simpl; auto. apply IH. destruct (fs_eqb (p_bc a) Inner); auto.
      unfold dbc_contains, dbc_find, dbc_set in *. simpl. destruct (p_id a =? id); auto. }
    induction l as [|a l IH]; intros d0 Hin; [contradiction|]. simpl. destruct Hin as [->|Hin]; [|now apply IH].
    rewrite BI. simpl. apply K0. unfold dbc_contains, dbc_find, dbc_set. simpl. now rewrite Z.eqb_refl. }
  rewrite ED, (K ps' [] Hp) in HD. discriminate.
Qed.
Lemma setup_quiet det q ps ps' d : spaced ps -> generateBC det ps = Ok (ps', d) -> quiet (ppe_setup q d ps').
Proof.
  intros H E. assert (H' : spaced ps') by (eapply lists_spaced; [eapply bc_lists; apply (proj1 (generate_shape _ _ _ _ E))|exact H]).
  unfold ppe_setup. apply quiet_bind.
  { apply quiet_foldM. intros p v _. apply quiet_bind; [|intros; apply quiet_vset]. unfold source1. destruct (dbc_contains _ _); [|apply quiet_ok]. unfold dbc_value. destruct (dbc_find _ _); discriminate. }
  intros b _. apply quiet_bind.
  { apply quiet_foldM. intros p ts Hp. unfold matrix_row. destruct (dbc_contains d (p_id p)) eqn:D; [apply quiet_ok|]. pose proof (row_alive _ _ _ _ _ E Hp D) as T.
    apply quiet_bind; [|intros [? ?] _; apply quiet_ok]. apply quiet_foldM. intros nb [ts1 c] Hn. unfold matrix_term. apply quiet_bind; [apply quiet_vget|]. intros pj _. destruct (fs_eqb _ _); [apply quiet_ok|].
    destruct (nlt _ _); [|apply quiet_ok]. apply quiet_bind; [|intros; apply quiet_ok]. apply quiet_weight, (H' p); auto. }
  intros ts _. destruct (negb _); [discriminate|]. apply quiet_bind; [|intros; apply quiet_ok]. induction b as [|[x|] b IH]; cbn [initialised]; [apply quiet_ok| |discriminate]. apply quiet_bind; [exact IH|intros; apply quiet_ok].
Qed.
Lemma explicit_quiet n0 c ps : quiet (explicitCalc n0 c ps).
Proof. apply quiet_foldM. intros; apply quiet_vset. Qed.
Lemma calc_quiet S k ps : spaced ps -> quiet (calc S k ps).
Proof.
  intros H. destruct k as [det q|n0 c]; cbn [calc]; [|apply quiet_bind; [apply explicit_quiet|intros; apply quiet_ok]]. unfold implicitCalc. apply quiet_bind.
  { unfold generateBC. apply quiet_bind; [apply bc_quiet|intros; apply quiet_ok]. }
  intros [ps' d] E. apply quiet_bind; [|intros; apply quiet_ok]. unfold ppe_solve. apply quiet_bind; [eapply setup_quiet; eauto|]. intros [ts b] _. destruct (S _ ts b); discriminate.
Qed.
Lemma assign_quiet x ps : quiet (assignPressure x ps).
Proof. rewrite assignPressure_mapM. apply quiet_mapM. intros p _. apply quiet_bind; [apply quiet_vget|intros; apply quiet_ok]. Qed.
Lemma minp_quiet re ps : quiet (setMinimumPressure re ps).
Proof.
  unfold setMinimumPressure. cbv zeta. apply quiet_foldM. intros i u _. unfold minp1. apply quiet_bind; [apply quiet_vget|]. intros p _. destruct (ghost_or_dummy p); [apply quiet_ok|]. apply quiet_foldM. intros nb v _.
  unfold minp_pair. apply quiet_bind; [apply quiet_vget|]. intros a _. apply quiet_bind; [apply quiet_vget|]. intros b _. destruct (ghost_or_dummy b); [apply quiet_ok|]. destruct (_ <? _); [apply quiet_ok|]. destruct (nlt _ _); [|apply quiet_ok].
  apply quiet_bind; [apply quiet_vmod|intros; apply quiet_vmod].
Qed.
Lemma gradient_quiet s rv re ps : spaced ps -> quiet (calPressureGradient s rv re ps).
Proof.
  intros H. rewrite calPressureGradient_mapM. apply quiet_mapM. intros p Hp. unfold calPressureGradient1. destruct (is_type p Fluid) eqn:T; [|apply quiet_ok]. apply is_type_eq in T. cbn [negb].
  apply quiet_bind; [|intros; apply quiet_ok]. apply quiet_foldM. intros nb v Hn. unfold grad_term. apply quiet_bind; [apply quiet_vget|]. intros pj _. destruct (ghost_or_dummy pj); [apply quiet_ok|]. destruct (nlt _ _); [|apply quiet_ok].
  apply quiet_bind; [|intros; apply quiet_ok]. apply quiet_weight, (H p); auto. rewrite T. discriminate.
Qed.

Lemma search_quiet ns ps : quiet (setNeighbors ns ps).
Proof.
  assert (QI : forall z, quiet (cint z)) by (intros z; unfold cint; destruct (in_int z); discriminate).
  assert (QT : forall x, quiet (to_int x)) by (intros x; unfold to_int; destruct (ntrunc x); [destruct (in_int _)|]; discriminate).
  assert (QC : forall d l x, quiet (cell d l x)) by (intros; unfold cell, cell1; repeat first [apply quiet_ok|apply QI|apply QT|apply quiet_bind; intros]).
  assert (QF : forall a b c, quiet (flat a b c)) by (intros a b [[x y] z]; unfold flat; repeat first [apply QI|apply quiet_bind; intros]).
  unfold setNeighbors. apply quiet_bind.
  { unfold storeParticles. destruct (negb _); [discriminate|]. destruct (negb _); [discriminate|]. cbv zeta. apply quiet_bind; [|intros [[[? ?] ?] ?] _; apply quiet_ok].
    apply quiet_foldM. intros i [[[first last] next] w] _. unfold store1. destruct (nth_error w i); [|discriminate]. destruct (is_type _ _); [apply quiet_ok|]. destruct (negb _); [apply quiet_ok|].
    apply quiet_bind; [apply QC|intros]. apply quiet_bind; [apply QF|intros]. apply quiet_bind; [apply quiet_vget|intros]. apply quiet_bind.
    - destruct (_ =? -1); (apply quiet_bind; [apply quiet_vset|intros; apply quiet_ok]).
    - intros [f n] _. apply quiet_bind; [apply quiet_vset|intros; apply quiet_ok]. }
  intros [b p1] _. apply quiet_bind; [|intros; apply quiet_ok]. apply quiet_foldM. intros i w _. destruct (nth_error w i); [|discriminate].
  apply quiet_bind; [|intros; apply quiet_ok]. unfold neighborsOf. destruct (is_type _ _); [apply quiet_ok|]. apply quiet_bind; [apply QC|intros]. apply quiet_bind; [|intros; apply quiet_ok].
  apply quiet_foldM. intros c acc _. apply quiet_bind; [apply QF|intros]. apply quiet_bind; [apply quiet_vget|intros j _].
  generalize j acc. generalize (Datatypes.S (List.length w)). intros fuel. match goal with |- forall j acc, quiet (walk ?f _ _ _ _ _ _) => generalize f end.
  intros fu. induction fu as [|fu IH]; intros k l; cbn [walk]; (destruct (k =? -1); [apply quiet_ok|]); [discriminate|]. apply quiet_bind; [apply quiet_vget|intros]. cbv zeta. apply quiet_bind; [apply quiet_vget|intros; apply IH].
Qed.

(** one of the three searches of a step *)
Definition searches (m : mps) (ns : searcher) (ps : list particle) : Prop :=
  (ns = m_ns m /\ ps = m_ps m) \/ stepMove m = Ok (ns, ps) \/ exists ns0 ps0, stepMove m = Ok (ns0, ps0) /\ stepCollide m ns0 ps0 = Ok (ns, ps).
Lemma step_quiet S m : (forall ns ps ns' ps', searches m ns ps -> setNeighbors ns ps = Ok (ns', ps') -> spaced ps') -> quiet (stepForward S m).
Proof.
  intros H. unfold stepForward. apply quiet_bind.
  { unfold stepMove. apply quiet_bind; [apply search_quiet|]. intros [n1 p1] E1. cbv zeta. apply quiet_bind; [|intros; apply quiet_ok]. apply viscosity_quiet.
    eapply lists_spaced; [apply gravity_lists|]. eapply H; [|exact E1]. left. auto. }
  intros [n1 p1] E1. apply quiet_bind.
  { unfold stepCollide. apply quiet_bind; [apply search_quiet|]. intros [n2 p2] _. apply quiet_bind; [apply collision_quiet|intros; apply quiet_ok]. }
  intros [n2 p2] E2.
  assert (SP : forall n3 p3, setNeighbors n2 p2 = Ok (n3, p3) -> spaced p3) by (intros n3 p3 E; eapply H; [|exact E]; right; right; eauto).
  apply quiet_bind.
  { unfold stepPressure. cbv zeta. apply quiet_bind; [apply search_quiet|]. intros [n3 p3] E3. apply SP in E3. apply quiet_bind; [now apply density_quiet|]. intros p4 E4. apply density_lists in E4.
    apply quiet_bind; [apply calc_quiet; eapply lists_spaced; eauto|]. intros [p5 x] _. apply quiet_bind; [apply assign_quiet|intros; apply quiet_ok]. }
  intros [n3 p3] E3. apply quiet_bind; [|intros p4 _; destruct (calCourant _ _); apply quiet_ok].
  assert (S3 : spaced p3).
  { unfold stepPressure in E3. cbv zeta in E3. apply bind_ok in E3 as ([n4 p4] & E4 & E3). apply bind_ok in E3 as (p5 & E5 & E3). apply bind_ok in E3 as ([p6 x] & E6 & E3). apply bind_ok in E3 as (p7 & E7 & E3). inv E3.
    apply SP in E4. eapply lists_spaced; [|exact E4]. eapply (pressure_lists S m). rewrite E5. cbn [bind]. rewrite E6. exact E7. }
  unfold stepCorrect. cbv zeta. apply quiet_bind; [apply minp_quiet|]. intros p4 E4. apply minp_lists in E4. apply quiet_bind; [apply gradient_quiet; eapply lists_spaced; eauto|]. intros p5 _.
  destruct (m_calc m); [apply quiet_ok|]. apply quiet_bind; [apply explicit_quiet|intros; apply assign_quiet].
Qed.
(** ** The entries of the lists are pairs of particles that are not Ghost *)
Definition kept (p p' : particle) : Prop := p_pos p' = p_pos p /\ p_id p' = p_id p /\ (p_type p' <> Ghost -> p_type p <> Ghost).
Definition entry (k : nat) (w : list particle) (j : Z) : Prop := j = -1 \/ exists q, 0 <= j /\ (Z.to_nat j < k)%nat /\ nth_error w (Z.to_nat j) = Some q /\ p_type q <> Ghost.
Lemma Forall_upd {A} (P : A -> Prop) l i a : Forall P l -> P a -> Forall P (upd l i a).
Proof. intros F H. apply Forall_forall. intros x Hx. apply In_nth_error in Hx as [j Hj]. rewrite nth_upd in Hj. rewrite Forall_forall in F. destruct (Nat.eqb i j); [destruct (nth_error l j); inv Hj; exact H|]. apply F. eapply nth_error_In; eauto. Qed.
Lemma store_entries d l nx ny ps n : forall k st st', indexed ps ->
  (let '(first, last, next, w) := st in Forall2 kept ps w /\ Forall (entry k w) first /\ Forall (entry k w) next) ->
  foldM (store1 d l nx ny) (seq k n) st = Ok st' ->
  let '(first, last, next, w) := st' in Forall2 kept ps w /\ Forall (entry (k + n) w) first /\ Forall (entry (k + n) w) next.
Proof.
  induction n as [|n IH]; intros k st st' I H E; cbn [seq foldM] in E; [inv E; rewrite Nat.add_0_r; exact H|]. apply bind_ok in E as (st1 & E1 & E). replace (k + S n)%nat with (S k + n)%nat by lia.
  refine (IH (S k) st1 st' I _ E). clear E IH st'. destruct st as [[[first last] next] w]. destruct H as (HK & HF & HN).
  assert (MO : forall j, entry k w j -> entry (S k) w j) by (intros j [J|(q & Q1 & Q2 & Q3)]; [left; exact J|right; exists q; split; [exact Q1|split; [lia|exact Q3]]]).
  unfold store1 in E1. destruct (nth_error w k) as [p|] eqn:Ek; [|discriminate]. destruct (is_type p Ghost) eqn:T.
  { inv E1. split; [exact HK|]. split; (eapply Forall_impl; [exact MO|assumption]). }
  apply is_type_neq in T. destruct (negb _).
  { inv E1. assert (LK : (k < List.length w)%nat) by (apply nth_error_Some; congruence).
    assert (MU : forall j, entry k w j -> entry (S k) (upd w k (set_type p Ghost)) j).
    { intros j [J|(q & Q1 & Q2 & Q3 & Q4)]; [left; exact J|right; exists q]. split; [exact Q1|]. split; [lia|]. split; [rewrite nth_upd_other by lia; exact Q3|exact Q4]. }
    split; [|split; (eapply Forall_impl; [exact MU|assumption])].
    clear - HK Ek. revert k Ek. induction HK as [|a b la lb H HK IH]; intros k Ek; [destruct k; discriminate|]. destruct k as [|k]; cbn [upd nth_error] in *.
    - inv Ek. constructor; [|exact HK]. destruct H as (H1 & H2 & H3). split; [exact H1|]. split; [exact H2|]. cbn [set_type p_type]. contradiction.
    - constructor; [exact H|]. apply IH. exact Ek. }
  apply bind_ok in E1 as (c & _ & E1). apply bind_ok in E1 as (ib & _ & E1). apply bind_ok in E1 as (la & _ & E1). apply bind_ok in E1 as ([f' n'] & E2 & E1). apply bind_ok in E1 as (l' & _ & E1). inv E1.
  assert (ID : entry (S k) w (p_id p)).
  { destruct (Forall2_nth_r _ _ _ _ _ HK Ek) as (p0 & Hp0 & (_ & EI & _)). rewrite EI, (I _ _ Hp0). right. exists p. rewrite Nat2Z.id. split; [lia|]. split; [lia|]. split; [exact Ek|exact T]. }
  assert (HF' := Forall_impl _ MO HF). assert (HN' := Forall_impl _ MO HN). split; [exact HK|].
  destruct (la =? -1); apply bind_ok in E2 as (x & E2 & E3); inv E3; apply vset_ok in E2 as (_ & _ & ->); (split; [|]); auto using Forall_upd.
Qed.
Lemma walk_entries re w next pi k : Forall (entry k w) next -> forall fuel j acc l, entry k w j ->
  (forall nb, In nb acc -> exists q, nth_error w (Z.to_nat (nb_id nb)) = Some q /\ 0 <= nb_id nb /\ nb_id nb <> p_id pi /\ p_type q <> Ghost /\ nb_dist nb = vnorm (vsub (p_pos q) (p_pos pi))) ->
  walk fuel re w next pi j acc = Ok l ->
  forall nb, In nb l -> exists q, nth_error w (Z.to_nat (nb_id nb)) = Some q /\ 0 <= nb_id nb /\ nb_id nb <> p_id pi /\ p_type q <> Ghost /\ nb_dist nb = vnorm (vsub (p_pos q) (p_pos pi)).
Proof.
  intros HN. induction fuel as [|fuel IH]; intros j acc l EJ A H; cbn [walk] in H; destruct (Z.eqb_spec j (-1)) as [J|J]; try discriminate; try (inv H; exact A).
  apply bind_ok in H as (pj & E & H). cbv zeta in H. apply bind_ok in H as (j' & E' & H). destruct EJ as [EJ|(q & Q1 & Q2 & Q3 & Q4)]; [contradiction|].
  apply vget_ok in E as (_ & E). assert (pj = q) by congruence. subst pj. apply vget_ok in E' as (_ & E'). rewrite Forall_forall in HN. refine (IH j' _ l (HN j' (nth_error_In _ _ E')) _ H).
  intros nb Hnb. destruct (negb (j =? p_id pi) && _) eqn:G; [|exact (A nb Hnb)]. apply andb_true_iff in G as (G & _). apply negb_true_iff, Z.eqb_neq in G.
  apply in_app_or in Hnb as [Hnb|[<-|[]]]; [exact (A nb Hnb)|]. exists q. cbn [nb_id nb_dist]. auto 6.
Qed.
Lemma search_pairs re d ns ps ns' ps' : grid_shape re d (List.length ps) ns -> indexed ps -> setNeighbors ns ps = Ok (ns', ps') ->
  forall p nb, In p ps' -> p_type p <> Ghost -> In nb (p_nbrs p) ->
  exists i j p0 q0, i <> j /\ nth_error ps i = Some p0 /\ nth_error ps j = Some q0 /\ p_type p0 <> Ghost /\ p_type q0 <> Ghost /\ nb_dist nb = vnorm (vsub (p_pos q0) (p_pos p0)).
Proof.
  intros G I H p nb Hp Tp Hn. unfold setNeighbors in H. apply bind_ok in H as ([b w] & E & H). apply bind_ok in H as (ps2 & E2 & H). inv H.
  unfold storeParticles in E. destruct (negb _); [discriminate|]. destruct (negb _); [discriminate|]. cbv zeta in E. apply bind_ok in E as ([[[first last] next] w'] & E & E'). inv E'.
  assert (SF : skipn (Z.to_nat (b_num (ns_bucket ns))) (b_first (ns_bucket ns)) = []) by (apply skipn_all2; pose proof (gs_first _ _ _ _ G); lia).
  assert (SN : skipn (List.length ps) (b_next (ns_bucket ns)) = []) by (apply skipn_all2; pose proof (gs_next _ _ _ _ G); lia).
  rewrite SF, SN, !app_nil_r in E. apply (store_entries _ _ _ _ ps) in E; [|exact I|].
  2:{ split; [|split; apply Forall_forall; intros x Hx; apply repeat_spec in Hx; left; exact Hx]. clear. induction ps; constructor; [unfold kept; auto|assumption]. }
  destruct E as (HK & HF & HN). cbn [plus] in HF, HN. rewrite (each_mapM p_pos) in E2; [|apply neighborsOf_reads|apply neighborsOf_pos]. apply mapM_ok in E2.
  apply In_nth_error in Hp as [i Hi]. destruct (Forall2_nth_r _ _ _ _ _ E2 Hi) as (a & Ha & V). destruct (Forall2_nth_r _ _ _ _ _ HK Ha) as (p0 & Hp0 & (P1 & P2 & P3)).
  unfold neighborsOf in V. destruct (is_type a Ghost) eqn:T; [inv V; apply is_type_eq in T; contradiction|]. apply is_type_neq in T. apply bind_ok in V as (c & _ & V). apply bind_ok in V as (l & L & V). inv V. cbn [p_nbrs set_nbrs] in Hn.
  cbn [b_numX b_numY b_first b_next] in L.
  assert (R : forall nb, In nb l -> exists q, nth_error w (Z.to_nat (nb_id nb)) = Some q /\ 0 <= nb_id nb /\ nb_id nb <> p_id a /\ p_type q <> Ghost /\ nb_dist nb = vnorm (vsub (p_pos q) (p_pos a))).
  { revert L. apply (foldM_inv (fun l => forall nb, In nb l -> exists q, nth_error w (Z.to_nat (nb_id nb)) = Some q /\ 0 <= nb_id nb /\ nb_id nb <> p_id a /\ p_type q <> Ghost /\ nb_dist nb = vnorm (vsub (p_pos q) (p_pos a)))); [intros ? []|].
    intros c' acc acc' _ A V. apply bind_ok in V as (jb & _ & V). apply bind_ok in V as (j & EJ & V). apply vget_ok in EJ as (_ & EJ). rewrite Forall_forall in HF.
    exact (walk_entries _ _ _ _ _ HN _ _ _ _ (HF j (nth_error_In _ _ EJ)) A V). }
  destruct (R nb Hn) as (q & Hq & Q1 & Q2 & Q3 & Q4). destruct (Forall2_nth_r _ _ _ _ _ HK Hq) as (q0 & Hq0 & (R1 & R2 & R3)).
  exists i, (Z.to_nat (nb_id nb)), p0, q0. split; [|rewrite <- R1, <- P1; auto 7].
  intros EI. apply Q2. rewrite P2, (I _ _ Hp0), EI. lia.
Qed.
(** ** The search ends: the links lead to larger indices *)
Definition onward (next : list Z) : Prop := forall i j, nth_error next i = Some j -> j = -1 \/ Z.of_nat i < j.
Lemma store_onward d l nx ny ps n : forall k st st', indexed ps ->
  (let '(first, last, next, w) := st in Forall2 kept ps w /\ Forall (fun j => j < Z.of_nat k) last /\ Forall (fun j => j < Z.of_nat k) next /\ onward next) ->
  foldM (store1 d l nx ny) (seq k n) st = Ok st' ->
  let '(first, last, next, w) := st' in Forall2 kept ps w /\ Forall (fun j => j < Z.of_nat (k + n)) last /\ Forall (fun j => j < Z.of_nat (k + n)) next /\ onward next.
Proof.
  induction n as [|n IH]; intros k st st' I H E; cbn [seq foldM] in E; [inv E; rewrite Nat.add_0_r; exact H|]. apply bind_ok in E as (st1 & E1 & E). replace (k + S n)%nat with (S k + n)%nat by lia.
  refine (IH (S k) st1 st' I _ E). clear E IH st'. destruct st as [[[first last] next] w]. destruct H as (HK & HL & HN & HO).
  assert (MO : forall j, j < Z.of_nat k -> j < Z.of_nat (S k)) by (intros; lia).
  unfold store1 in E1. destruct (nth_error w k) as [p|] eqn:Ek; [|discriminate]. destruct (is_type p Ghost) eqn:T.
  { inv E1. split; [exact HK|]. split; [|split; [|exact HO]]; (eapply Forall_impl; [exact MO|assumption]). }
  apply is_type_neq in T. destruct (negb _).
  { inv E1. split; [|split; [|split; [|exact HO]]; (eapply Forall_impl; [exact MO|assumption])].
    clear - HK Ek. revert k Ek. induction HK as [|a b la lb H HK IH]; intros k Ek; [destruct k; discriminate|]. destruct k as [|k]; cbn [upd nth_error] in *.
    - inv Ek. constructor; [|exact HK]. destruct H as (H1 & H2 & H3). split; [exact H1|]. split; [exact H2|]. cbn [set_type p_type]. contradiction.
    - constructor; [exact H|]. apply IH. exact Ek. }
  apply bind_ok in E1 as (c & _ & E1). apply bind_ok in E1 as (ib & _ & E1). apply bind_ok in E1 as (la & EL & E1). apply bind_ok in E1 as ([f' n'] & E2 & E1). apply bind_ok in E1 as (l' & E3 & E1). inv E1.
  assert (ID : p_id p = Z.of_nat k) by (destruct (Forall2_nth_r _ _ _ _ _ HK Ek) as (p0 & Hp0 & (_ & EI & _)); rewrite EI; exact (I _ _ Hp0)).
  assert (HL' := Forall_impl _ MO HL). assert (HN' := Forall_impl _ MO HN). split; [exact HK|]. apply vset_ok in E3 as (_ & _ & ->). rewrite ID. split; [apply Forall_upd; [exact HL'|lia]|].
  destruct (Z.eqb_spec la (-1)) as [LA|LA]; apply bind_ok in E2 as (x & E2 & E4); inv E4; [split; assumption|]. apply vset_ok in E2 as (B0 & B & ->). rewrite ID. split; [apply Forall_upd; [exact HN'|lia]|].
  apply vget_ok in EL as (_ & EL). rewrite Forall_forall in HL. apply nth_error_In, HL in EL. intros i j Hj. rewrite nth_upd in Hj. destruct (Nat.eqb_spec (Z.to_nat la) i) as [EI|EI]; [|exact (HO i j Hj)].
  destruct (nth_error next i); inv Hj. right. lia.
Qed.
Lemma walk_ends re w next pi (n : nat) : onward next -> Forall (fun j => j < Z.of_nat n) next -> forall fuel j acc, j < Z.of_nat n -> (Z.of_nat n - j <= Z.of_nat fuel \/ j = -1) ->
  walk fuel re w next pi j acc <> Diverge.
Proof.
  intros HO HN. induction fuel as [|fuel IH]; intros j acc B F; cbn [walk]; destruct (Z.eqb_spec j (-1)) as [J|J]; try discriminate; [lia|].
  intros H. destruct (vget w j) as [pj|u| |c| |] eqn:E; try discriminate H. 2:{ unfold vget in E. destruct (j <? 0); [discriminate|]. destruct (nth_error _ _); discriminate. }
  cbn [bind] in H. cbv zeta in H. destruct (vget next j) as [j'|u| |c| |] eqn:E'; try discriminate H. 2:{ unfold vget in E'. destruct (j <? 0); [discriminate|]. destruct (nth_error _ _); discriminate. }
  cbn [bind] in H. apply vget_ok in E' as (B0 & E'). assert (HJ := HO _ _ E'). rewrite Z2Nat.id in HJ by exact B0. rewrite Forall_forall in HN. assert (BJ := HN j' (nth_error_In _ _ E')).
  revert H. apply IH; [exact BJ|]. destruct HJ as [HJ|HJ]; [right; exact HJ|left; lia].
Qed.
Definition halts {A} (o : outcome A) : Prop := o <> Diverge.
Lemma halts_ok {A} (a : A) : halts (Ok a). Proof. discriminate. Qed.
Lemma halts_bind {A B} (o : outcome A) (k : A -> outcome B) : halts o -> (forall a, o = Ok a -> halts (k a)) -> halts (bind o k).
Proof. unfold halts. destruct o; cbn [bind]; auto; discriminate. Qed.
Lemma halts_foldM {A St} (f : A -> St -> outcome St) xs : (forall x s, In x xs -> halts (f x s)) -> forall s, halts (foldM f xs s).
Proof. induction xs as [|x xs IH]; intros H s; cbn [foldM]; [apply halts_ok|]. apply halts_bind; [apply H; now left|]. intros s' _. apply IH. intros; apply H; now right. Qed.
Lemma halts_vget {A} (l : list A) i : halts (vget l i). Proof. unfold vget. destruct (i <? 0); [discriminate|]. destruct (nth_error _ _); discriminate. Qed.
Lemma halts_vset {A} (l : list A) i a : halts (vset l i a). Proof. unfold vset. destruct (i <? 0); [discriminate|]. destruct (Nat.ltb _ _); discriminate. Qed.
Lemma search_ends re d ns ps : grid_shape re d (List.length ps) ns -> indexed ps -> halts (setNeighbors ns ps).
Proof.
  intros G I.
  assert (QI : forall z, halts (cint z)) by (intros z; unfold cint; destruct (in_int z); discriminate).
  assert (QT : forall x, halts (to_int x)) by (intros x; unfold to_int; destruct (ntrunc x); [destruct (in_int _)|]; discriminate).
  assert (QC : forall d l x, halts (cell d l x)) by (intros; unfold cell, cell1; repeat first [apply halts_ok|apply QI|apply QT|apply halts_bind; intros]).
  assert (QF : forall a b c, halts (flat a b c)) by (intros a b [[x y] z]; unfold flat; repeat first [apply QI|apply halts_bind; intros]).
  unfold setNeighbors. apply halts_bind.
  { unfold storeParticles. destruct (negb _); [discriminate|]. destruct (negb _); [discriminate|]. cbv zeta. apply halts_bind; [|intros [[[? ?] ?] ?] _; apply halts_ok].
    apply halts_foldM. intros i [[[first last] next] w] _. unfold store1. destruct (nth_error w i); [|discriminate]. destruct (is_type _ _); [apply halts_ok|]. destruct (negb _); [apply halts_ok|].
    apply halts_bind; [apply QC|intros]. apply halts_bind; [apply QF|intros]. apply halts_bind; [apply halts_vget|intros]. apply halts_bind.
    - destruct (_ =? -1); (apply halts_bind; [apply halts_vset|intros; apply halts_ok]).
    - intros [f n] _. apply halts_bind; [apply halts_vset|intros; apply halts_ok]. }
  intros [b w] E. assert (LN := storeParticles_lengths _ _ _ _ (gs_first _ _ _ _ G) (gs_last _ _ _ _ G) (gs_next _ _ _ _ G) E). destruct LN as (_ & _ & _ & _ & LN). rewrite (gs_next _ _ _ _ G) in LN.
  unfold storeParticles in E. destruct (negb _); [discriminate|]. destruct (negb _); [discriminate|]. cbv zeta in E. apply bind_ok in E as ([[[first last] next] w'] & E & E'). injection E' as <- _. cbn [b_next] in LN.
  assert (SF : skipn (Z.to_nat (b_num (ns_bucket ns))) (b_first (ns_bucket ns)) = []) by (apply skipn_all2; pose proof (gs_first _ _ _ _ G); lia).
  assert (SL : skipn (Z.to_nat (b_num (ns_bucket ns))) (b_last (ns_bucket ns)) = []) by (apply skipn_all2; pose proof (gs_last _ _ _ _ G); lia).
  assert (SN : skipn (List.length ps) (b_next (ns_bucket ns)) = []) by (apply skipn_all2; pose proof (gs_next _ _ _ _ G); lia).
  assert (K0 : Forall2 kept ps ps) by (clear; induction ps; constructor; [unfold kept; auto|assumption]).
  rewrite SF, SL, SN, !app_nil_r in E. assert (E1 := E). apply (store_entries _ _ _ _ ps) in E; [|exact I|].
  2:{ split; [exact K0|split; apply Forall_forall; intros x Hx; apply repeat_spec in Hx; left; exact Hx]. }
  apply (store_onward _ _ _ _ ps) in E1; [|exact I|].
  2:{ split; [exact K0|]. split; [|split]; [apply Forall_forall; intros x Hx; apply repeat_spec in Hx; lia..|]. intros i j Hj. apply nth_error_In, repeat_spec in Hj. left. exact Hj. }
  destruct E as (_ & HF & _). destruct E1 as (_ & _ & HN & HO). cbn [plus] in *.
  apply halts_bind; [|intros; apply halts_ok]. apply halts_foldM. intros i v _. destruct (nth_error v i) as [a|]; [|discriminate]. apply halts_bind; [|intros; apply halts_ok].
  unfold neighborsOf. destruct (is_type _ _); [apply halts_ok|]. apply halts_bind; [apply QC|intros c _]. apply halts_bind; [|intros; apply halts_ok].
  apply halts_foldM. intros c' acc _. apply halts_bind; [apply QF|intros]. apply halts_bind; [apply halts_vget|intros j EJ]. cbn [b_first b_next] in *.
  apply vget_ok in EJ as (_ & EJ). rewrite Forall_forall in HF. apply nth_error_In, HF in EJ. rewrite LN.
  assert (BJ : j = -1 \/ (0 <= j /\ j < Z.of_nat (List.length ps))) by (destruct EJ as [J|(q & Q1 & Q2 & _)]; [left; exact J|right; split; lia]).
  eapply walk_ends; [exact HO|exact HN| |]; lia.
Qed.
Lemma searched_state m ns ps : sound m -> searches m ns ps -> used_searcher (s_reMax (m_settings m)) (s_domain (m_settings m)) (List.length ps) ns /\ indexed ps.
Proof.
  intros (I & _ & US) W. destruct W as [[-> ->]|[W|(ns0 & ps0 & W0 & W)]]; auto.
  - split; [eapply move_searcher; eauto|]. eapply move_indexed; eauto.
  - assert (U0 : used_searcher (s_reMax (m_settings m)) (s_domain (m_settings m)) (List.length ps0) ns0) by (eapply move_searcher; eauto).
    split; [eapply collide_searcher; eauto|]. eapply collide_indexed; [|eauto]; eapply move_indexed; eauto.
Qed.
(** no step hangs *)
Lemma step_ends S m : sound m -> sized S -> stepForward S m <> Diverge.
Proof.
  intros SD SZ H. destruct (C51_lemma S m SD SZ) as [G|(ns & ps & F & W)].
  - rewrite H in G. destruct G as [(x & G)|[(_ & G)|(_ & _ & G)]]; discriminate.
  - destruct (searched_state m ns ps SD W) as (US & I). rewrite H in F. pose proof (search_ends _ _ ns ps (used_shape _ _ _ _ US) I) as E.
    destruct (setNeighbors ns ps); cbn [fails_like] in F; try discriminate F; [contradiction|]. exact (E eq_refl).
Qed.
End Quiet.

#[local] Remove Hints Rnum : typeclass_instances.

(** ** Doubles *)
Lemma step_asserts S (m : @mps F64) : sound m -> stepForward S m = AssertFail -> meets_pair m.
Proof.
  intros SD H. apply NNPP. intros NP.
  apply (step_quiet S m); [|exact H]. clear H. intros ns ps ns' ps' W E p nb Hp Tp Hn.
  destruct (searched_state m ns ps SD W) as [US I]. pose proof (search_near _ _ _ _ E) as SN. rewrite Forall_forall in SN. destruct (SN p Hp Tp nb Hn) as [P|P]; [exact P|].
  exfalso. apply NP. exists ns, ps. split; [exact W|]. destruct (search_pairs _ _ _ _ _ _ (used_shape _ _ _ _ US) I E p nb Hp Tp Hn) as (i & j & p0 & q0 & D & H1 & H2 & H3 & H4 & H5).
  exists i, j, p0, q0. repeat split; auto. congruence.
Qed.
