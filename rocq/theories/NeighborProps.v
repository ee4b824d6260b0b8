(** * Lemmas behind the neighbour search properties *)
From Verif Require Export NeighborFacts.
From Coq Require Import PeanoNat.
Open Scope Z_scope.

Lemma skipn_nth {A} (l : list A) : forall i p, nth_error l i = Some p -> skipn i l = p :: skipn (S i) l.
Proof. induction l; destruct i; simpl; intros p H; try discriminate; [now inv H|exact (IHl _ _ H)]. Qed.
Lemma firstn_nth {A} (l : list A) : forall i p, nth_error l i = Some p -> firstn (S i) l = firstn i l ++ [p].
Proof. induction l; destruct i; intros p H; try discriminate; [now inv H|]. cbn [firstn app]. f_equal. exact (IHl _ _ H). Qed.

Lemma upd_app {A} (w : list A) a b t : upd (w ++ a :: t) (List.length w) b = w ++ b :: t.
Proof. induction w; simpl; congruence. Qed.

Section NP.
Context {N : Num}.
Lemma walk_pi fu : forall re w nx (p q : particle) j acc, p_id p = p_id q -> p_pos p = p_pos q ->
  walk fu re w nx q j acc = walk fu re w nx p j acc.
Proof.
  induction fu; simpl; intros re w nx p q j acc H1 H2; auto. destruct (j =? -1); auto. destruct (vget w j); simpl; auto.
  rewrite <- H1, <- H2. destruct (vget nx j); simpl; auto.
Qed.
Local Arguments walk : simpl never.

Lemma inDomain_outside d x : isInDomain d x = true <-> ~ outside d x.
Proof.
  unfold isInDomain, outside. rewrite !andb_true_iff, !negb_true_iff, !orb_false_iff.
  split.
  - intros H G. repeat (destruct G as [G|G]; [rewrite G in H; intuition discriminate|]).
    rewrite G in H; intuition discriminate.
  - intros H. repeat split; apply not_true_is_false; intros G; apply H; auto 10.
Qed.

Lemma inDomain_outside_false d x : isInDomain d x = false <-> outside d x.
Proof.
  destruct (isInDomain d x) eqn:E.
  - split; [discriminate|]. intros H. apply inDomain_outside in E. contradiction.
  - split; auto. intros _. unfold isInDomain in E.
    rewrite !andb_false_iff, !negb_false_iff, !orb_true_iff in E. unfold outside. tauto.
Qed.

(** storeParticles: what happens to the particles, with no assumption on the numbers *)
Lemma store_particles b ps b' ps' : storeParticles b ps = Ok (b', ps') ->
  ps' = map (ghostify (b_domain b)) ps /\
  (forall p, In p ps -> live (b_domain b) p = true -> exists c, cell (b_domain b) (b_length b) (p_pos p) = Ok c).
Proof.
  unfold storeParticles. destruct (negb _); [discriminate|]. destruct (negb _); [discriminate|]. intros H.
  binds H. destruct r as [[[f l] nx] ps1]. inv H.
  apply foldM_seq_inv with (P := fun i st =>
     snd st = map (ghostify (b_domain b)) (firstn i ps) ++ skipn i ps /\
     forall k p, (k < i)%nat -> nth_error ps k = Some p -> live (b_domain b) p = true ->
        exists c, cell (b_domain b) (b_length b) (p_pos p) = Ok c) in E.
  - simpl in E. rewrite firstn_all, skipn_all, app_nil_r in E. destruct E as [E1 E2]. split; auto.
    intros p Hp L. apply In_nth_error in Hp. destruct Hp as [k Hk]. eapply E2; eauto.
    apply nth_error_Some. congruence.
  - simpl. split; auto. intros; lia.
  - clear. intros i [[[f l] nx] ps1] t' Hi [Hs Hc] H. simpl in Hs. unfold store1 in H.
    destruct (nth_error ps i) as [p|] eqn:Ep.
    2:{ apply nth_error_None in Ep. lia. }
    pose proof (skipn_nth _ _ _ Ep) as Sk. pose proof (firstn_nth _ _ _ Ep) as Fk.
    assert (Li : List.length (map (ghostify (b_domain b)) (firstn i ps)) = i).
    { rewrite map_length, firstn_length. lia. }
    assert (Ep1 : nth_error ps1 i = Some p).
    { rewrite Hs, nth_error_app2 by lia. rewrite Li, Nat.sub_diag, Sk. reflexivity. }
    rewrite Ep1 in H.
    assert (Go : forall q, snd (f, l, nx, upd ps1 i q) = map (ghostify (b_domain b)) (firstn i ps) ++ q :: skipn (S i) ps).
    { intros q. cbn [snd]. rewrite Hs, Sk. pose proof (upd_app (map (ghostify (b_domain b)) (firstn i ps)) p q (skipn (S i) ps)) as U.
      now rewrite Li in U. }
    assert (Hc' : forall q, (live (b_domain b) q = true -> exists c, cell (b_domain b) (b_length b) (p_pos q) = Ok c) -> q = p ->
       forall k p, (k < S i)%nat -> nth_error ps k = Some p -> live (b_domain b) p = true ->
        exists c, cell (b_domain b) (b_length b) (p_pos p) = Ok c).
    { intros q Hq -> k p' Hk Hp' L. destruct (Nat.eq_dec k i) as [->|n].
      - assert (p' = p) by congruence. subst. auto.
      - eapply Hc; eauto. lia. }
    rewrite Fk, map_app, <- app_assoc. cbn [map app].
    destruct (is_type p Ghost) eqn:T.
    + inv H. split; [|apply (Hc' p); auto; unfold live; rewrite T; discriminate].
      cbn [snd]. replace (ghostify (b_domain b) p) with p by (unfold ghostify; now rewrite T). rewrite <- Sk. auto.
    + destruct (isInDomain (b_domain b) (p_pos p)) eqn:D; simpl in H.
      * binds H. binds H. binds H. binds H. destruct r2. binds H. inv H. split.
        -- cbn [snd]. replace (ghostify (b_domain b) p) with p by (unfold ghostify; now rewrite T, D). rewrite <- Sk. auto.
        -- apply (Hc' p); eauto.
      * inv H. split.
        -- rewrite Go. replace (ghostify (b_domain b) p) with (set_type p Ghost) by (unfold ghostify; now rewrite T, D). reflexivity.
        -- apply (Hc' p); auto. unfold live. rewrite D, andb_false_r. discriminate.
Qed.

Lemma each_ps {A B} (pr : A -> B) (body : list A -> A -> outcome A) v v' :
  (forall w a a', body w a = Ok a' -> pr a' = pr a) ->
  (forall w w' a, map pr w = map pr w' -> body w a = body w' a) -> each body v = Ok v' -> Forall2 (fun a b => body v a = Ok b) v v'.
Proof. intros H1 H2 H. rewrite (each_mapM pr) in H by auto. now apply mapM_ok in H. Qed.

Lemma neighborsOf_reads ns b w w' a : map p_pos w = map p_pos w' -> neighborsOf ns b w a = neighborsOf ns b w' a.
Proof.
  intros Hw. unfold neighborsOf. destruct (is_type a Ghost); auto.
  destruct (cell (ns_domain ns) (b_length b) (p_pos a)); simpl; auto.
  erewrite foldM_ext; [reflexivity|]. intros c acc _. simpl.
  destruct (flat (b_numX b) (b_numY b) c); simpl; auto.
  destruct (vget (b_first b) a1); simpl; auto.
  apply walk_ext; auto.
Qed.
Lemma neighborsOf_pos ns b w a a' : neighborsOf ns b w a = Ok a' -> p_pos a' = p_pos a.
Proof.
  intros H. unfold neighborsOf in H. destruct (is_type a Ghost); [now inv H|].
  binds H. binds H. inv H. reflexivity.
Qed.

(** C05, for every number type and with no assumption on the cells *)
Lemma search_frame re d ns ps ns' ps' :
  used_searcher re d (List.length ps) ns -> setNeighbors ns ps = Ok (ns', ps') ->
  List.length ps' = List.length ps /\
  forall i p, nth_error ps i = Some p -> exists p', nth_error ps' i = Some p' /\
    (p_type p = Ghost -> p' = p) /\
    (p_type p <> Ghost -> outside d (p_pos p) -> p' = set_type p Ghost) /\
    (p_type p <> Ghost -> ~ outside d (p_pos p) -> exists l, p' = set_nbrs p l).
Proof.
  intros U H. apply used_shape in U. destruct U. unfold setNeighbors in H. binds H. destruct r as [b ps1].
  binds H. inv H. pose proof (each_length _ _ _ E0) as L.
  apply store_particles in E. destruct E as [-> _]. rewrite map_length in L. split; [congruence|].
  apply each_ps with (pr := p_pos) in E0; [|apply neighborsOf_pos|apply neighborsOf_reads].
  intros i p Hp. eapply (Forall2_nth _ _ _ i) in E0; [|rewrite nth_error_map, Hp; reflexivity].
  destruct E0 as (p' & Hp' & E). exists p'. split; auto. rewrite gs_bdom in E.
  unfold neighborsOf in E. unfold ghostify in E. destruct (is_type p Ghost) eqn:T.
  - rewrite T in E. inv E. unfold is_type in T. apply Z.eqb_eq in T. repeat split; auto; intros; congruence.
  - assert (T' := T). unfold is_type in T'. apply Z.eqb_neq in T'. destruct (isInDomain _ (p_pos p)) eqn:D.
    + rewrite T in E. apply inDomain_outside in D. binds E. binds E. inv E.
      repeat split; intros; try contradiction. eauto.
    + simpl in E. apply inDomain_outside_false in D. inv E. repeat split; intros; try contradiction; auto.
Qed.

(** in short: only type and list change *)
Lemma search_only re d ns ps ns' ps' : used_searcher re d (List.length ps) ns -> setNeighbors ns ps = Ok (ns', ps') ->
  Forall2 (fun p p' => exists t l, p' = set_nbrs (set_type p t) l /\ (t = p_type p \/ t = Ghost)) ps ps'.
Proof.
  intros U E. destruct (search_frame _ _ _ _ _ _ U E) as [Ln HF]. apply Forall2_of_nth; auto.
  intros i p p' Hp Hp'. destruct (HF i p Hp) as (p1 & Hp1 & F1 & F2 & F3). assert (p1 = p') by congruence. subst p1.
  destruct (Z.eq_dec (p_type p) Ghost) as [e|n].
  - exists (p_type p), (p_nbrs p). split; auto. rewrite F1 by auto. now destruct p.
  - destruct (isInDomain d (p_pos p)) eqn:B.
    + apply inDomain_outside in B. destruct (F3 n B) as [l ->]. exists (p_type p), l. split; auto. 
    + apply inDomain_outside_false in B. exists Ghost, (p_nbrs p). rewrite (F2 n B). split; auto. 
Qed.

(** C06: the whole outcome is a function of the constructor arguments and the particles *)
(** a particle that is not Ghost afterwards was not before and kept everything but its list *)
Lemma search_kept re d ns ps ns' ps' i p' :
  used_searcher re d (List.length ps) ns -> setNeighbors ns ps = Ok (ns', ps') ->
  nth_error ps' i = Some p' -> p_type p' <> Ghost ->
  exists p, nth_error ps i = Some p /\ p_type p <> Ghost /\ p_type p' = p_type p /\ p_pos p' = p_pos p.
Proof.
  intros U E Hp Tp. destruct (search_frame re d ns ps ns' ps' U E) as [Ln FR].
  assert (Hi : (i < length ps)%nat) by (rewrite <- Ln; apply nth_error_Some; congruence).
  destruct (nth_error_ext_length _ _ Hi) as [p Hp0]. destruct (FR i p Hp0) as (p1 & E1 & F1 & F2 & F3).
  rewrite Hp in E1. inv E1. exists p. split; auto.
  destruct (Z.eq_dec (p_type p) Ghost) as [e|n]; [rewrite F1 in Tp by auto; contradiction|]. split; auto.
  destruct (isInDomain d (p_pos p)) eqn:D.
  - apply inDomain_outside in D. destruct (F3 n D) as [l ->]. auto.
  - apply inDomain_outside_false in D. rewrite (F2 n D) in Tp. simpl in Tp. congruence.
Qed.

Lemma search_history re d ps ns1 ns2 :
  used_searcher re d (List.length ps) ns1 -> used_searcher re d (List.length ps) ns2 ->
  setNeighbors ns1 ps = setNeighbors ns2 ps.
Proof.
  intros U1 U2. apply used_shape in U1, U2. pose proof (shape_of _ _ _ _ _ U1 U2) as Sh.
  destruct U1, U2. destruct Sh as (A & B & C & D & E & F).
  assert (X : storeParticles (ns_bucket ns1) ps = storeParticles (ns_bucket ns2) ps).
  { unfold storeParticles. rewrite <- A, <- B, <- C, <- D, <- E, <- F.
    replace (List.length (b_first (ns_bucket ns2))) with (List.length (b_first (ns_bucket ns1))) by lia.
    replace (List.length (b_last (ns_bucket ns2))) with (List.length (b_last (ns_bucket ns1))) by lia.
    rewrite gs_next, gs_next0.
    rewrite !skipn_all2 by lia. reflexivity. }
  unfold setNeighbors. rewrite X. destruct (storeParticles (ns_bucket ns2) ps) as [[b q]| | | | | ]; auto. simpl.
  assert (Y : neighborsOf ns1 b = neighborsOf ns2 b).
  { unfold neighborsOf. now rewrite gs_re, gs_re0, gs_dom, gs_dom0. }
  now rewrite Y, gs_re, gs_re0, gs_dom, gs_dom0.
Qed.

(** ... and, for the particles that stay, does not depend on their old lists *)
Definition stale (p q : particle) : Prop := p = q \/ (p_type p <> Ghost /\ same_but_nbrs p q).

Lemma sbn_fields p q : same_but_nbrs p q ->
  p_id p = p_id q /\ p_type p = p_type q /\ p_pos p = p_pos q /\ (forall l, set_nbrs p l = set_nbrs q l) /\
  same_but_nbrs (set_type p Ghost) (set_type q Ghost).
Proof.
  unfold same_but_nbrs, set_nbrs, set_type. destruct p, q; simpl. intros H. inv H. auto 10.
Qed.

Lemma stale_fields p q : stale p q -> p_id p = p_id q /\ p_type p = p_type q /\ p_pos p = p_pos q.
Proof. intros [->|[_ H]]; auto. apply sbn_fields in H. tauto. Qed.

Lemma Forall2_upd2 {A B} (R : A -> B -> Prop) l l' i a b : Forall2 R l l' -> R a b -> Forall2 R (upd l i a) (upd l' i b).
Proof. intros H; revert i; induction H; destruct i; simpl; constructor; auto. Qed.

Lemma search_stale ns ps qs ns' ps' : Forall2 stale ps qs -> setNeighbors ns ps = Ok (ns', ps') ->
  exists qs', setNeighbors ns qs = Ok (ns', qs') /\ Forall2 (fun p q => same_but_nbrs p q /\ (p_type p <> Ghost -> p = q)) ps' qs'.
Proof.
  intros S H. unfold setNeighbors in H. binds H. destruct r as [b ps1]. binds H. inv H.
  pose proof (Forall2_length _ _ _ S) as L.
  assert (X : exists qs1, storeParticles (ns_bucket ns) qs = Ok (b, qs1)).
  { unfold storeParticles in *. rewrite <- L. destruct (negb _); [discriminate|]. destruct (negb _); [discriminate|].
    binds E. destruct r as [[[f l] nx] pp]. inv E.
    match type of E1 with foldM _ _ (?f0, ?l0, ?n0, _) = _ => set (F0 := f0) in *; set (L0 := l0) in *; set (N0 := n0) in * end.
    assert (G : forall xs F L NX ps qs st, Forall2 same_but_nbrs ps qs ->
       foldM (store1 (b_domain (ns_bucket ns)) (b_length (ns_bucket ns)) (b_numX (ns_bucket ns)) (b_numY (ns_bucket ns))) xs (F, L, NX, ps) = Ok st ->
       exists q, foldM (store1 (b_domain (ns_bucket ns)) (b_length (ns_bucket ns)) (b_numX (ns_bucket ns)) (b_numY (ns_bucket ns))) xs (F, L, NX, qs) = Ok (fst st, q)).
    { clear. induction xs as [|i xs IH]; cbn [foldM]; intros F L NX ps qs st S H.
      - inv H. cbn [fst snd]. eauto.
      - binds H. unfold store1 in E at 1. destruct (nth_error ps i) as [p|] eqn:Ep; [|discriminate].
        destruct (Forall2_nth _ _ _ _ _ S Ep) as (q & Eq & Hpq). pose proof (sbn_fields _ _ Hpq) as (Q1 & Q2 & Q3 & _ & Q4).
        unfold store1 at 1. rewrite Eq. unfold is_type in *. rewrite <- Q2, <- Q3, <- Q1.
        destruct (p_type p =? Ghost); [inv E; simpl; eapply IH; eauto|].
        destruct (negb _); [inv E; simpl; eapply IH; [|eassumption]; apply Forall2_upd2; auto|].
        binds E. binds E. binds E. binds E. destruct r3. binds E. inv E.
        rewrite E0; simpl. rewrite E1; simpl. rewrite E2; simpl. rewrite E3; simpl. rewrite E4; simpl. eapply IH; eauto. }
    destruct (G _ _ _ _ _ qs _ ltac:(eapply Forall2_impl; [|exact S]; intros ? ? [->|[_ ?]]; auto; reflexivity) E1) as [q Hq].
    rewrite Hq. simpl. eauto. }
  destruct X as [qs1 X]. pose proof E as E1. apply store_particles in E1. destruct E1 as [-> _].
  pose proof X as X1. apply store_particles in X1. destruct X1 as [-> _].
  unfold setNeighbors. rewrite X. simpl.
  rewrite (each_mapM p_pos) in E0; [|apply neighborsOf_reads|apply neighborsOf_pos].
  rewrite (each_mapM p_pos); [|apply neighborsOf_reads|apply neighborsOf_pos].
  set (d := b_domain (ns_bucket ns)) in *.
  assert (W : map p_pos (map (ghostify d) ps) = map p_pos (map (ghostify d) qs)).
  { rewrite !map_map. eapply Forall2_map_eq; [|exact S]. intros p q Hpq. rewrite !ghostify_pos. now apply stale_fields in Hpq. }
  assert (G : forall l m r, Forall2 stale l m ->
     mapM (neighborsOf ns b (map (ghostify d) ps)) (map (ghostify d) l) = Ok r ->
     exists r', mapM (neighborsOf ns b (map (ghostify d) qs)) (map (ghostify d) m) = Ok r' /\
       Forall2 (fun p q => same_but_nbrs p q /\ (p_type p <> Ghost -> p = q)) r r').
  { intros l m r F; revert r. induction F as [|p q l m Hpq F IH]; simpl; intros r H.
    - inv H. eauto.
    - binds H. binds H. inv H. destruct (IH _ E2) as (r' & Hr' & HF). rewrite Hr'.
      rewrite <- (neighborsOf_reads _ _ _ _ _ W).
      destruct (stale_fields _ _ Hpq) as (Q1 & Q2 & Q3).
      assert (K : exists q', neighborsOf ns b (map (ghostify d) ps) (ghostify d q) = Ok q' /\ same_but_nbrs r0 q' /\ (p_type r0 <> Ghost -> r0 = q')).
      { destruct Hpq as [->|[NG SB]].
        - exists r0. repeat split; auto.
        - pose proof (sbn_fields _ _ SB) as (_ & _ & _ & SL & SG).
          unfold ghostify in *. unfold is_type in *. rewrite <- Q2, <- Q3. destruct (p_type p =? Ghost) eqn:T; [apply Z.eqb_eq in T; contradiction|].
          destruct (isInDomain d (p_pos p)).
          + unfold neighborsOf in *. unfold is_type in *. rewrite T in E1. rewrite <- Q2, T.
            binds E1. binds E1. inv E1. rewrite <- Q3, E3. simpl.
            erewrite foldM_ext; [rewrite E4|]. simpl. eexists. split; [reflexivity|]. rewrite SL. split; [reflexivity|auto].
            intros c acc _. simpl. destruct (flat _ _ c); simpl; auto. destruct (vget (b_first b) a); simpl; auto.
            now apply walk_pi.
          + unfold neighborsOf in E1. simpl in E1. inv E1. unfold neighborsOf. simpl. eexists. split; [reflexivity|].
            split; auto. intros C; exfalso; apply C; reflexivity. }
      destruct K as (q' & K1 & K2). rewrite K1. simpl. eexists. split; [reflexivity|]. constructor; auto. }
  destruct (G _ _ _ S E0) as (r' & R1 & R2). rewrite R1. simpl. eauto.
Qed.

(** C02, C03 in terms of the result only *)
Lemma around_sym c c' : In c' (around c) -> In c (around c').
Proof.
  destruct c as [[ix iy] iz], c' as [[jx jy] jz]. unfold around, three. rewrite !in_flat_map.
  intros (a & Ha & H). apply in_flat_map in H. destruct H as (b & Hb & H). apply in_map_iff in H.
  destruct H as (c & E & Hc). inv E. exists ix. split; [simpl in *; lia|]. apply in_flat_map. exists iy.
  split; [simpl in *; lia|]. apply in_map_iff. exists iz. split; auto. simpl in *; lia.
Qed.

Lemma near_sym d len p q : near_cells d len p q -> near_cells d len q p.
Proof. intros (c & c' & A & B & C). exists c', c. repeat split; auto. now apply around_sym. Qed.

Section Result.
Variables (ns : searcher) (ps : list particle).
Hypothesis SO : searcher_ok ns (List.length ps).
Hypothesis I : ids_ok ps.
Hypothesis C : cells_ok (ns_bucket ns) ps.

Lemma searched_alive i p' : nth_error (map (searched ns ps) ps) i = Some p' -> p_type p' <> Ghost ->
  exists p, nth_error ps i = Some p /\ live (ns_domain ns) p = true /\ p' = set_nbrs p (nlist ns ps p).
Proof.
  rewrite nth_error_map. destruct (nth_error ps i) as [p|] eqn:E; [|discriminate]. simpl. intros H NG. inv H.
  exists p. split; auto. unfold searched in *. destruct (live (ns_domain ns) p) eqn:L; auto.
  exfalso. apply NG. pose proof (ghostify_dead _ _ L) as G. unfold is_type in G. now apply Z.eqb_eq in G.
Qed.

Lemma searched_of_live i p : nth_error ps i = Some p -> live (ns_domain ns) p = true ->
  nth_error (map (searched ns ps) ps) i = Some (set_nbrs p (nlist ns ps p)) /\ p_type (set_nbrs p (nlist ns ps p)) <> Ghost.
Proof.
  intros E L. rewrite nth_error_map, E. simpl. unfold searched. rewrite L. split; auto.
  apply live_not_ghost in L. unfold is_type in L. now apply Z.eqb_neq in L.
Qed.

Lemma result_lists i p' : nth_error (map (searched ns ps) ps) i = Some p' -> p_type p' <> Ghost ->
  NoDup (map nb_id (p_nbrs p')) /\
  forall nb, In nb (p_nbrs p') -> exists j q, nb_id nb = Z.of_nat j /\ j <> i /\
     nth_error (map (searched ns ps) ps) j = Some q /\ p_type q <> Ghost /\
     nb_dist nb = vnorm (vsub (p_pos q) (p_pos p')) /\ nlt (nb_dist nb) (ns_re ns) = true.
Proof.
  intros H NG. destruct (searched_alive _ _ H NG) as (p & Hp & L & ->). simpl. split.
  - apply nlist_NoDup; auto. eapply nth_error_In; eauto.
  - intros nb Hnb. apply (nlist_in ns ps i p nb SO I C Hp L) in Hnb.
    destruct Hnb as (j & q & Hq & Lq & Hne & _ & Hd & ->). simpl.
    exists j. eexists. split; auto. split; auto. split; [apply (searched_of_live _ _ Hq Lq)|].
    split; [apply (searched_of_live _ _ Hq Lq)|]. simpl. split; auto.
Qed.

Lemma result_symmetric (Hsym : forall p q : particle, pdist p q = pdist q p) i j p' q' dist :
  nth_error (map (searched ns ps) ps) i = Some p' -> p_type p' <> Ghost ->
  nth_error (map (searched ns ps) ps) j = Some q' ->
  In (mkNb (Z.of_nat j) dist) (p_nbrs p') -> In (mkNb (Z.of_nat i) dist) (p_nbrs q').
Proof.
  intros H NG Hj Hin. destruct (searched_alive _ _ H NG) as (p & Hp & L & ->). simpl in Hin.
  apply (nlist_in ns ps i p _ SO I C Hp L) in Hin. destruct Hin as (j' & q & Hq & Lq & Hne & Hnear & Hd & E).
  inv E. assert (j' = j) by lia. subst j'.
  destruct (searched_of_live _ _ Hq Lq) as [K _]. rewrite K in Hj. inv Hj. simpl.
  apply (nlist_in ns ps j q _ SO I C Hq Lq). exists i, p. rewrite (Hsym q p). repeat split; auto.
  now apply near_sym.
Qed.
End Result.
End NP.
