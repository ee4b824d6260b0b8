(** * A group of particles among others that stay out of reach: the search and the step (C83) *)
From Coq Require Import PeanoNat.
From Verif Require Import StepFacts NeighborProps ExplicitFacts ResumeFacts SafetyFacts.
From Verif Require Export ApartLoops.
Open Scope Z_scope.

Section Step.
Context {N : Num}.
Variable e : nat -> nat.
Notation linked := (linked e).
Notation piece := (piece e).
Notation lift := (lift e).
Notation carry := (carry e).

(** ** the search *)
Lemma present_live d p : present d p <-> live d p = true.
Proof. unfold present, live. rewrite andb_true_iff, negb_true_iff, is_type_neq, inDomain_outside. tauto. Qed.
Lemma live_carry d p : live d (carry p) = live d p. Proof. reflexivity. Qed.
Lemma ghostify_carry d p : ghostify d (carry p) = carry (ghostify d p).
Proof. unfold ghostify. change (is_type (carry p) Ghost) with (is_type p Ghost). change (p_pos (carry p)) with (p_pos p). destruct (is_type p Ghost); [reflexivity|]. destruct (isInDomain d (p_pos p)); reflexivity. Qed.
Lemma shape_of2 re d n n' ns ns' : grid_shape re d n ns -> grid_shape re d n' ns' -> shape_eq (ns_bucket ns) (ns_bucket ns').
Proof.
  intros [] []. destruct gs_x as (? & X1 & X2), gs_x0 as (? & X3 & X4), gs_y as (? & Y1 & Y2), gs_y0 as (? & Y3 & Y4), gs_z as (? & Z1 & Z2), gs_z0 as (? & Z3 & Z4).
  assert (x = x0) by congruence. assert (x1 = x2) by congruence. assert (x3 = x4) by congruence. subst. unfold shape_eq. repeat split; try congruence.
Qed.

Section Search.
Variables (re : num) (d : domain) (W A : list particle) (nsW nsA : searcher).
Hypothesis PC : piece W A.
Hypothesis IW : indexed W.
Hypothesis IA : indexed A.
Hypothesis GW : grid_shape re d (List.length W) nsW.
Hypothesis GA : grid_shape re d (List.length A) nsA.
Hypothesis SW : searcher_ok nsW (List.length W).
Hypothesis CW : cells_ok (ns_bucket nsW) W.
Hypothesis FAR : out_of_reach re d e (List.length A) W.

Lemma sok_A : searcher_ok nsA (List.length A).
Proof.
  destruct (shape_of2 _ _ _ _ _ _ GA GW) as (_ & X & Y & Z & _). destruct SW. destruct so_grid. apply (grid_shape_ok re d); [exact GA| | |]; lia.
Qed.
Lemma cells_A : cells_ok (ns_bucket nsA) A.
Proof.
  intros p I L. apply In_nth_error in I. destruct I as (i & P). destruct (shape_of2 _ _ _ _ _ _ GA GW) as (_ & X & Y & Z & B & D). rewrite D in *. rewrite X, Y, Z, B.
  apply (CW (carry p)); [|exact L]. eapply nth_error_In. apply (proj2 PC). exact P.
Qed.
Lemma far_pick i j p q : nth_error A i = Some p -> live d p = true -> stranger e (List.length A) j -> nth_error W j = Some q -> live d q = true ->
  nlt (pdist (carry p) q) re = false /\ nlt (pdist q (carry p)) re = false.
Proof.
  intros P LP ST Q LQ. assert (F := FAR i j (carry p) q (some_lt _ _ _ P) ST (proj2 PC i p P) Q). rewrite !present_live, live_carry in F. exact (F LP LQ).
Qed.
Lemma pick_A i j p : nth_error A i = Some p -> (j < List.length A)%nat ->
  pick re (map (ghostify d) W) (carry p) (e j) = map lift (pick re (map (ghostify d) A) p j).
Proof.
  intros P J. destruct (nth_error_ext_length A j J) as (q & Q). unfold pick. rewrite !BaseFacts.nth_error_map, Q, (proj2 PC j q Q). cbn [option_map]. rewrite ghostify_carry.
  change (pdist (carry p) (carry (ghostify d q))) with (pdist p (ghostify d q)).
  assert (E : (Z.of_nat (e j) =? p_id (carry p)) = (Z.of_nat j =? p_id p)).
  { unfold ApartFacts.carry. cbn [p_id]. rewrite (IA i p P), Nat2Z.id. destruct (Z.eqb_spec (Z.of_nat (e j)) (Z.of_nat (e i))) as [X|X], (Z.eqb_spec (Z.of_nat j) (Z.of_nat i)) as [Y|Y]; auto.
    - exfalso. apply Y. f_equal. apply (inj e (List.length A)); [apply PC|exact J|now apply some_lt in P|lia].
    - exfalso. apply X. assert (j = i) by lia. now subst. }
  rewrite E. destruct (negb _ && _); [|reflexivity]. cbn [map]. unfold ApartFacts.lift. cbn [nb_id nb_dist]. now rewrite Nat2Z.id.
Qed.
Lemma nlist_A i p : nth_error A i = Some p -> live d p = true -> nlist nsW W (carry p) = map lift (nlist nsA A p).
Proof.
  intros P LP. unfold nlist. destruct (shape_of2 _ _ _ _ _ _ GA GW) as (_ & X & Y & _ & B & D). destruct GW, GA. rewrite gs_dom, gs_dom0, gs_re, gs_re0. change (p_pos (carry p)) with (p_pos p).
  destruct (cell d re (p_pos p)) as [c| | | | |]; try reflexivity. rewrite map_flat_map. apply flat_map_ext. intros c'. rewrite X, Y. unfold mem. rewrite !flat_map_filter, map_flat_map.
  rewrite (flat_map_members _ e (List.length W) (List.length A)).
  - apply flat_map_eq. intros j J. apply in_seq in J. destruct (nth_error_ext_length A j ltac:(lia)) as (q & Q). rewrite Q, (proj2 PC j q Q), D, live_carry.
    assert (BK : bucketOf (ns_bucket nsW) (carry q) = bucketOf (ns_bucket nsA) q) by (unfold bucketOf; change (p_pos (carry q)) with (p_pos q); now rewrite D, B, X, Y).
    rewrite BK. destruct (_ && _); [|reflexivity]. apply (pick_A i); [exact P|lia].
  - apply PC.
  - intros j J. destruct (nth_error_ext_length A j J) as (q & Q). exact (some_lt _ _ _ (proj2 PC j q Q)).
  - intros j J ST. destruct (nth_error_ext_length W j J) as (q & Q). rewrite Q. rewrite gs_bdom. destruct (live d q) eqn:LQ; [|reflexivity]. cbn [andb]. destruct (_ =? _); [|reflexivity].
    unfold pick. rewrite BaseFacts.nth_error_map, Q. cbn [option_map]. rewrite (ghostify_live _ _ LQ). destruct (far_pick i j p q P LP ST Q LQ) as (F & _). rewrite F. now rewrite andb_false_r.
Qed.
Lemma searched_A i p : nth_error A i = Some p -> searched nsW W (carry p) = carry (searched nsA A p).
Proof.
  intros P. assert (NL := nlist_A i p P). unfold searched. destruct GW, GA. rewrite gs_dom, gs_dom0, live_carry. destruct (live d p); [|apply ghostify_carry]. rewrite (NL eq_refl). reflexivity.
Qed.
Lemma nlist_in ns ps p nb n : grid_shape re d n ns -> In nb (nlist ns ps p) -> exists k q, nth_error ps k = Some q /\ live d q = true /\ nb_id nb = Z.of_nat k /\ nlt (pdist p q) re = true.
Proof.
  intros G. unfold nlist. destruct G. rewrite gs_dom, gs_re. destruct (cell _ _ _); try contradiction. intros I. apply in_flat_map in I. destruct I as (c' & _ & I). apply in_flat_map in I. destruct I as (k & K & I).
  apply mem_in in K. destruct K as (_ & q & Q & LQ & _). rewrite gs_bdom in LQ. exists k, q. split; [exact Q|]. split; [exact LQ|]. unfold pick in I. rewrite BaseFacts.nth_error_map, Q in I. cbn [option_map] in I. rewrite (ghostify_live _ _ LQ) in I.
  destruct (negb _); [|contradiction]. cbn [andb] in I. destruct (nlt _ _) eqn:T; [|contradiction]. destruct I as [<-|[]]. auto.
Qed.

Lemma search_linked nsW' W' : setNeighbors nsW W = Ok (nsW', W') -> exists nsA' A', setNeighbors nsA A = Ok (nsA', A') /\ linked W' A'.
Proof.
  intros H. destruct (setNeighbors_run nsW W SW IW CW) as (ns1 & R1 & _). rewrite R1 in H. injection H as _ H. destruct (setNeighbors_run nsA A sok_A IA cells_A) as (ns2 & R2 & _).
  exists ns2, (map (searched nsA A) A). split; [exact R2|]. assert (IW' := search_indexed _ _ _ _ R1 IW). assert (IA' := search_indexed _ _ _ _ R2 IA). rewrite <- H. constructor; auto.
  - split; [rewrite map_length; apply PC|]. intros i p' P'. rewrite BaseFacts.nth_error_map in *. destruct (nth_error A i) as [p|] eqn:P; [|discriminate]. injection P' as <-. rewrite (proj2 PC i p P). cbn [option_map]. now rewrite (searched_A i).
  - intros i p' nb P' G I. rewrite map_length. rewrite BaseFacts.nth_error_map in P'. destruct (nth_error A i) as [p|] eqn:P; [|discriminate]. injection P' as <-. unfold searched in G, I. assert (GD := gs_dom _ _ _ _ GA). rewrite GD in *.
    destruct (live d p) eqn:LP; [|exfalso; apply G; now apply is_type_eq, ghostify_dead]. cbn [set_nbrs p_nbrs] in I. destruct (nlist_in _ _ _ _ _ GA I) as (k & q & Q & _ & E & _). exists k. split; [now apply some_lt in Q|exact E].
  - intros j q' nb ST Q' G I. rewrite map_length in ST |- *. rewrite BaseFacts.nth_error_map in Q'. destruct (nth_error W j) as [q|] eqn:Q; [|discriminate]. injection Q' as <-. unfold searched in G, I. assert (GD := gs_dom _ _ _ _ GW). rewrite GD in *.
    destruct (live d q) eqn:LQ; [|exfalso; apply G; now apply is_type_eq, ghostify_dead]. cbn [set_nbrs p_nbrs] in I. destruct (nlist_in _ _ _ _ _ GW I) as (k & u & U & LU & E & T). exists k. split; [exact E|].
    destruct (member_or_stranger e (List.length A) k) as [(i & Hi & Ei)|S]; [exfalso|exact S]. destruct (nth_error_ext_length A i Hi) as (p & P). rewrite <- Ei, (proj2 PC i p P) in U. injection U as <-. rewrite live_carry in LU.
    destruct (far_pick i j p q P LU ST Q LQ) as (_ & F). congruence.
Qed.
End Search.

(** ** the step *)
Definition searchable (re : num) (d : domain) : Prop := forall ns ps ns' ps', used_searcher re d (List.length ps) ns -> setNeighbors ns ps = Ok (ns', ps') ->
  searcher_ok ns (List.length ps) /\ cells_ok (ns_bucket ns) ps.
Lemma search_part re d W A nsW nsA nsW' W' : searchable re d -> piece W A -> indexed W -> indexed A -> used_searcher re d (List.length W) nsW -> used_searcher re d (List.length A) nsA ->
  out_of_reach re d e (List.length A) W -> setNeighbors nsW W = Ok (nsW', W') ->
  exists nsA' A', setNeighbors nsA A = Ok (nsA', A') /\ linked W' A' /\ used_searcher re d (List.length W') nsW' /\ used_searcher re d (List.length A') nsA'.
Proof.
  intros OKS PC IW IA UW UA FAR H. destruct (OKS _ _ _ _ UW H) as (SO & CO). destruct (search_linked re d W A nsW nsA PC IW IA (used_shape _ _ _ _ UW) (used_shape _ _ _ _ UA) SO CO FAR nsW' W' H) as (nsA' & A' & HA & L).
  exists nsA', A'. split; [exact HA|]. split; [exact L|]. split; [exact (used_next _ _ _ _ _ _ UW H)|exact (used_next _ _ _ _ _ _ UA HA)].
Qed.

Definition sub_machine (m r : mps) : Prop := same_setup m r /\ piece (m_ps m) (m_ps r).
Lemma gravity_linked g W A : linked W A -> linked (calGravity g W) (calGravity g A).
Proof.
  apply linked_map; intros p; unfold calGravity1; [change (is_type (carry p) Fluid) with (is_type p Fluid); destruct (is_type p Fluid); reflexivity|destruct (is_type p Fluid); unfold net; auto].
Qed.
Lemma moved_linked s W A : linked W A -> linked (moveParticle s W) (moveParticle s A).
Proof.
  apply linked_map; intros p; unfold moveParticle1; [change (is_type (carry p) Fluid) with (is_type p Fluid); destruct (is_type p Fluid); reflexivity|destruct (is_type p Fluid); unfold net; auto].
Qed.
Lemma corrected_linked s W A : linked W A -> linked (moveParticleUsingPressureGradient s W) (moveParticleUsingPressureGradient s A).
Proof.
  apply linked_map; intros p; unfold correct1; [change (is_type (carry p) Fluid) with (is_type p Fluid); destruct (is_type p Fluid); reflexivity|destruct (is_type p Fluid); unfold net; auto].
Qed.
(** pressures assigned to the members *)
Lemma assign_linked x y W A W' : linked W A -> (forall i, (i < List.length A)%nat -> nth_error y i = nth_error x (e i)) -> assignPressure x W = Ok W' -> exists A', assignPressure y A = Ok A' /\ linked W' A'.
Proof.
  intros L XY. rewrite !assignPressure_mapM. apply linked_mapM; auto.
  - intros i p P. assert (IP := l_A _ _ _ L i p P). unfold ApartFacts.carry at 1. cbn [p_id]. rewrite IP, Nat2Z.id. assert (E := XY i (some_lt _ _ _ P)). unfold vget. rewrite !Nat2Z.id, E. destruct (Z.ltb_spec (Z.of_nat (e i)) 0); [lia|]. destruct (Z.ltb_spec (Z.of_nat i) 0); [lia|].
    destruct (nth_error x (e i)); reflexivity.
  - intros p p' H. binds H. inv H. unfold net. auto.
  - intros p p' H. binds H. inv H. unfold net. auto.
Qed.
Lemma explicit_linked n0 c W A : linked W A -> forall i, (i < List.length A)%nat -> nth_error (map (explicit1 n0 c) A) i = nth_error (map (explicit1 n0 c) W) (e i).
Proof. intros L i I. destruct (nth_error_ext_length A i I) as (p & P). rewrite !BaseFacts.nth_error_map, P, (proj2 (l_piece _ _ _ L) i p P). reflexivity. Qed.

(** everything before the pressures *)
Lemma to_density m r n1 b n2 c n3 c1 c2 : let s := m_settings m in searchable (s_reMax s) (s_domain s) -> sound m -> sound r -> sub_machine m r -> never_reached e (List.length (m_ps r)) m ->
  stepMove m = Ok (n1, b) -> stepCollide m n1 b = Ok (n2, c) -> setNeighbors n2 c = Ok (n3, c1) -> calNumberDensity s (s_reN s) c1 = Ok c2 ->
  exists u1 b' u2 c' u3 c1' c2', stepMove r = Ok (u1, b') /\ stepCollide r u1 b' = Ok (u2, c') /\ setNeighbors u2 c' = Ok (u3, c1') /\ calNumberDensity s (s_reN s) c1' = Ok c2' /\ linked b b' /\ linked c c' /\ linked c1 c1' /\ linked c2 c2'.
Proof.
  intros s; subst s; intros OKS (IM & _ & UM) (IR & _ & UR) ((ES & EG & _ & _ & EL & _) & PC) (F1 & F2 & F3) H1 H2 H3 H4. specialize (F2 _ _ H1). specialize (F3 _ _ _ _ H1 H2).  rewrite <- ES in UR.
  pose proof H1 as K1. unfold stepMove in K1. binds K1. destruct r0 as [na a]. binds K1. inv K1.
  destruct (search_part _ _ _ _ _ _ _ _ OKS PC IM IR UM UR F1 E) as (na' & a' & Ea & La & Ua & Ua').
  destruct (viscosity_linked e _ _ _ _ _ _ (gravity_linked (m_gravity m) _ _ La) E0) as (a1 & Ev & Lv).
  assert (Lb := moved_linked (m_settings m) _ _ Lv).
  assert (M1 : stepMove r = Ok (na', moveParticle (m_settings m) a1)) by (unfold stepMove; rewrite Ea; cbn [bind]; rewrite <- EG, <- EL, <- ES; rewrite Ev; reflexivity).
  assert (LN : List.length (m_ps r) = List.length (moveParticle (m_settings m) a1)).
  { unfold moveParticle. rewrite map_length. apply calViscosity_evolves, Forall2_length in Ev. rewrite <- Ev. unfold calGravity. rewrite map_length. symmetry. eapply setNeighbors_length; eauto. }
  assert (UW := move_searcher _ _ _ _ _ UM H1). assert (UA : used_searcher (s_reMax (m_settings m)) (s_domain (m_settings m)) (List.length (moveParticle (m_settings m) a1)) na') by (eapply move_searcher; [exact UR|exact M1]).
  pose proof H2 as K2. unfold stepCollide in K2. binds K2. destruct r1 as [nb b1]. binds K2. inv K2. rename E1 into Eb, E2 into Ec.
  rewrite LN in F2. destruct (search_part _ _ _ _ _ _ _ _ OKS (l_piece _ _ _ Lb) (l_W _ _ _ Lb) (l_A _ _ _ Lb) UW UA F2 Eb) as (nb' & b1' & Eb' & Lb1 & Ub & Ub').
  destruct (collision_linked e _ _ _ _ Lb1 Ec) as (c' & Ec' & Lc).
  assert (M2 : stepCollide r na' (moveParticle (m_settings m) a1) = Ok (nb', c')) by (unfold stepCollide; rewrite Eb'; cbn [bind]; rewrite <- ES; rewrite Ec'; reflexivity).
  assert (UWc := collide_searcher _ _ _ _ _ _ _ UW H2). assert (UAc := collide_searcher _ _ _ _ _ _ _ UA M2).
  assert (LN2 : List.length (m_ps r) = List.length c'). { rewrite LN. rewrite <- (setNeighbors_length _ _ _ _ Eb'). apply collision_same_id, Forall2_length in Ec'. exact Ec'. }
  rewrite LN2 in F3. destruct (search_part _ _ _ _ _ _ _ _ OKS (l_piece _ _ _ Lc) (l_W _ _ _ Lc) (l_A _ _ _ Lc) UWc UAc F3 H3) as (nc' & c1' & Ed & Lc1 & _).
  destruct (density_linked e _ _ _ _ _ Lc1 H4) as (c2' & Ee & Lc2). exists na', (moveParticle (m_settings m) a1), nb', c', nc', c1', c2'. auto 12.
Qed.
(** everything after the pressures *)
Lemma correct_linked m r W A W' : same_setup m r -> linked W A -> stepCorrect m W = Ok W' -> exists A', stepCorrect r A = Ok A' /\ linked W' A'.
Proof.
  intros (ES & _ & _ & EG & _ & EK) L H. unfold stepCorrect in *. rewrite <- ES, <- EG, <- EK. binds H. binds H. destruct (minimum_linked e _ _ _ _ L E) as (A1 & -> & L1). cbn [bind]. destruct (gradient_linked e _ _ _ _ _ _ L1 E0) as (A2 & -> & L2). cbn [bind].
  assert (L3 := corrected_linked (m_settings m) _ _ L2). destruct (m_calc m) as [det q|n0 c]; [inv H; eauto|]. rewrite explicitCalc_map in * by apply L3. cbn [bind] in *. eapply assign_linked; [exact L3| |exact H]. now apply explicit_linked.
Qed.

Lemma step_explicit S1 S2 m r m' n0 c : let s := m_settings m in searchable (s_reMax s) (s_domain s) -> sound m -> sound r -> sub_machine m r -> never_reached e (List.length (m_ps r)) m -> m_calc m = Explicit n0 c ->
  stepForward S1 m = Ok m' -> exists r', stepForward S2 r = Ok r' /\ sub_machine m' r' /\ linked (m_ps m') (m_ps r').
Proof.
  intros s; subst s; intros OKS SM SR SB NR EX H. assert (H0 := H). unfold stepForward in H. binds H. destruct r0 as [n1 b]. binds H. destruct r0 as [n2 c0]. binds H. destruct r0 as [n3 w]. binds H. destruct (calCourant _ _) as [cr er] eqn:EC. inv H.
  pose proof E1 as K. unfold stepPressure in K. binds K. destruct r1 as [nn c1]. binds K. binds K. destruct r2 as [c3 x]. binds K. inv K.
  destruct (to_density m r _ _ _ _ _ _ _ OKS SM SR SB NR E E0 E3 E4) as (u1 & b' & u2 & c' & u3 & c1' & c2' & M1 & M2 & M3 & M4 & _ & _ & _ & L).
  assert (SS := proj1 SB). pose proof SS as (ES & EG & EN & EGr & EL & EK). rewrite EX in E5. cbn [calc] in E5. rewrite explicitCalc_map in E5 by apply L. cbn [bind] in E5. inv E5.
  destruct (assign_linked _ _ _ _ _ L (explicit_linked n0 c _ _ L) E6) as (A3 & X3 & L3).
  destruct (correct_linked m r _ _ _ SS L3 E2) as (A4 & X4 & L4).
  assert (P : stepPressure S2 r u2 c' = Ok (u3, A3)).
  { unfold stepPressure. rewrite M3. cbn [bind]. rewrite <- ES. rewrite M4. cbn [bind]. rewrite <- EK, EX. cbn [calc]. rewrite explicitCalc_map by apply L. cbn [bind]. rewrite X3. reflexivity. }
  unfold stepForward. rewrite M1. cbn [bind]. rewrite M2. cbn [bind]. rewrite P. cbn [bind]. rewrite X4. cbn [bind]. destruct (calCourant (m_settings r) A4) as [cr' er']. eexists. split; [reflexivity|].
  split; [|exact L4]. split; [|apply L4]. unfold same_setup. cbn. auto 8.
Qed.
End Step.
