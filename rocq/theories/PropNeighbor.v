(** * Properties of the neighbour search: C01 - C07, C46

    Only statements, each closed by a lemma, a concrete case meeting the hypotheses
    and the list of assumptions. *)
From Coq Require Import Reals Lra.
From Verif Require Import NeighborThms NeighborCases.
Open Scope R_scope.

(** C01 (exact arithmetic): the lists hold exactly the other non-Ghost particles closer than re. *)
Theorem C01_neighbour_search_exact re d ns (ps : list partR) :
  0 < re -> proper_domain d -> @used_searcher Rnum re d (List.length ps) ns -> indexed ps ->
  exists ns' ps', setNeighbors ns ps = Ok (ns', ps') /\
    forall i p, nth_error ps' i = Some p -> p_type p <> Ghost ->
    forall nb, In nb (p_nbrs p) <->
      exists j q, nth_error ps' j = Some q /\ j <> i /\ p_type q <> Ghost /\
        euclid (p_pos p) (p_pos q) < re /\ nb = @mkNb Rnum (Z.of_nat j) (euclid (p_pos p) (p_pos q)).
Proof. exact (C01_lemma re d ns ps). Qed.
Example C01_case : exists ns, 0 < 1 /\ proper_domain case_dom /\ @used_searcher Rnum 1 case_dom (List.length case_ps) ns /\ indexed case_ps.
Proof. destruct (case_searcher 3) as [ns H]. exists ns. repeat split; auto using case_indexed; try lra; simpl; lra. Qed.
Print Assumptions C01_neighbour_search_exact.

(** C02: no duplicates, no self entry, no Ghost, valid indices. *)
Theorem C02_neighbour_lists_exact re d ns (ps : list partR) :
  0 < re -> proper_domain d -> @used_searcher Rnum re d (List.length ps) ns -> indexed ps ->
  exists ns' ps', setNeighbors ns ps = Ok (ns', ps') /\
    forall i p, nth_error ps' i = Some p -> p_type p <> Ghost ->
      NoDup (map nb_id (p_nbrs p)) /\
      forall nb, In nb (p_nbrs p) -> exists j q, nb_id nb = Z.of_nat j /\ j <> i /\ nth_error ps' j = Some q /\ p_type q <> Ghost.
Proof. exact (C02_lemma_R re d ns ps). Qed.
Print Assumptions C02_neighbour_lists_exact.

Theorem C02_neighbour_lists_binary64 re d ns (ps : list partF) :
  radiusF re -> proper_domainF d -> @used_searcher F64 re d (List.length ps) ns -> indexed ps -> numeric ps ->
  exists ns' ps', setNeighbors ns ps = Ok (ns', ps') /\
    forall i p, nth_error ps' i = Some p -> p_type p <> Ghost ->
      NoDup (map nb_id (p_nbrs p)) /\
      forall nb, In nb (p_nbrs p) -> exists j q, nb_id nb = Z.of_nat j /\ j <> i /\ nth_error ps' j = Some q /\ p_type q <> Ghost.
Proof. exact (C02_lemma_F re d ns ps). Qed.
Example C02_case : exists ns, radiusF re31 /\ proper_domainF dam /\ @used_searcher F64 re31 dam (List.length missed) ns /\ indexed missed /\ numeric missed.
Proof.
  destruct (dam_searcher 2) as [ns H]. exists ns.
  exact (conj re31_radius (conj dam_proper (conj (used_new _ _ _ _ H) (conj missed_indexed missed_numeric)))).
Qed.
Print Assumptions C02_neighbour_lists_binary64.

(** C03: j in the list of i at distance d iff i in the list of j at distance d. *)
Theorem C03_symmetric_exact re d ns (ps : list partR) :
  0 < re -> proper_domain d -> @used_searcher Rnum re d (List.length ps) ns -> indexed ps ->
  exists ns' ps', setNeighbors ns ps = Ok (ns', ps') /\
    forall i j p q dist, nth_error ps' i = Some p -> p_type p <> Ghost -> nth_error ps' j = Some q ->
      In (mkNb (Z.of_nat j) dist) (p_nbrs p) -> In (mkNb (Z.of_nat i) dist) (p_nbrs q).
Proof. exact (C03_lemma_R re d ns ps). Qed.
Print Assumptions C03_symmetric_exact.

Theorem C03_symmetric_binary64 re d ns (ps : list partF) :
  radiusF re -> proper_domainF d -> @used_searcher F64 re d (List.length ps) ns -> indexed ps -> numeric ps ->
  exists ns' ps', setNeighbors ns ps = Ok (ns', ps') /\
    forall i j p q dist, nth_error ps' i = Some p -> p_type p <> Ghost -> nth_error ps' j = Some q ->
      In (mkNb (Z.of_nat j) dist) (p_nbrs p) -> In (mkNb (Z.of_nat i) dist) (p_nbrs q).
Proof. exact (C03_lemma_F re d ns ps). Qed.
Print Assumptions C03_symmetric_binary64.
(* hypotheses: C01_case and C02_case *)

(** C04: construction and search never leave the vectors, never overflow, always end.
    (Every failure is a different outcome from [Ok].) *)
Theorem C04_memory_safe_exact re d n :
  0 < re -> proper_domain d ->
  ((Zfloor (xLength d / re) + 3) * (Zfloor (yLength d / re) + 3) * (Zfloor (zLength d / re) + 3) <= int_max)%Z ->
  (exists ns, @newSearcher Rnum re d n = Ok ns) /\
  forall ns (ps : list partR), @used_searcher Rnum re d n ns -> List.length ps = n -> indexed ps ->
    exists ns' ps', setNeighbors ns ps = Ok (ns', ps').
Proof. exact (C04_lemma_R re d n). Qed.
Example C04_case : 0 < 1 /\ proper_domain case_dom /\
  ((Zfloor (xLength case_dom / 1) + 3) * (Zfloor (yLength case_dom / 1) + 3) * (Zfloor (zLength case_dom / 1) + 3) <= int_max)%Z.
Proof. exact (conj Rlt_0_1 (conj case_proper case_fits)). Qed.
Print Assumptions C04_memory_safe_exact.

Theorem C04_memory_safe_binary64 (re : f64) (d : domF) n :
  radiusF re -> proper_domainF d ->
  fin (@ndiv F64 (xLength d) re) = true -> fin (@ndiv F64 (yLength d) re) = true -> fin (@ndiv F64 (zLength d) re) = true ->
  ((Zfloor (F2r (@ndiv F64 (xLength d) re)) + 3) * (Zfloor (F2r (@ndiv F64 (yLength d) re)) + 3) * (Zfloor (F2r (@ndiv F64 (zLength d) re)) + 3) <= int_max)%Z ->
  (exists ns, @newSearcher F64 re d n = Ok ns) /\
  forall ns (ps : list partF), @used_searcher F64 re d n ns -> List.length ps = n -> indexed ps -> numeric ps ->
    exists ns' ps', setNeighbors ns ps = Ok (ns', ps').
Proof. exact (C04_lemma_F re d n). Qed.
Example C04_case_binary64 : fin (@ndiv F64 (xLength dam) re31) = true /\ fin (@ndiv F64 (yLength dam) re31) = true /\ fin (@ndiv F64 (zLength dam) re31) = true /\
  ((Zfloor (F2r (@ndiv F64 (xLength dam) re31)) + 3) * (Zfloor (F2r (@ndiv F64 (yLength dam) re31)) + 3) * (Zfloor (F2r (@ndiv F64 (zLength dam) re31)) + 3) <= int_max)%Z.
Proof. exact dam_fits. Qed.
Print Assumptions C04_memory_safe_binary64.

(** C05 (every arithmetic): a completed search turns exactly the non-Ghost particles
    outside the box into Ghost and otherwise touches nothing but neighbour lists. *)
Theorem C05_ghosts_and_frame (N : Num) re d ns ps ns' ps' :
  used_searcher re d (List.length ps) ns -> setNeighbors ns ps = Ok (ns', ps') ->
  List.length ps' = List.length ps /\
  forall i p, nth_error ps i = Some p -> exists p', nth_error ps' i = Some p' /\
    (p_type p = Ghost -> p' = p) /\
    (p_type p <> Ghost -> outside d (p_pos p) -> p' = set_type p Ghost) /\
    (p_type p <> Ghost -> ~ outside d (p_pos p) -> exists l, p' = set_nbrs p l).
Proof. exact (search_frame re d ns ps ns' ps'). Qed.
Example C05_case : exists ns ns' ps', @used_searcher F64 re31 dam (List.length missed) ns /\ setNeighbors ns missed = Ok (ns', ps').
Proof.
  destruct missed_run as (ns & ns' & p & q & H1 & H2 & _). exists ns, ns', [p; q]. split; [now apply used_new|exact H2].
Qed.
Print Assumptions C05_ghosts_and_frame.

(** C06 (every arithmetic): whatever the searcher object was used for before, the
    whole outcome, failures included, is the same ... *)
Theorem C06_history_independent (N : Num) re d ps ns1 ns2 :
  used_searcher re d (List.length ps) ns1 -> used_searcher re d (List.length ps) ns2 ->
  setNeighbors ns1 ps = setNeighbors ns2 ps.
Proof. exact (search_history re d ps ns1 ns2). Qed.
Example C06_case : exists ns1 ns2, @newSearcher F64 re31 dam 2 = Ok ns1 /\ @used_searcher F64 re31 dam 2 ns1 /\ @used_searcher F64 re31 dam 2 ns2 /\ ns1 <> ns2.
Proof. exact two_histories. Qed.
Print Assumptions C06_history_independent.

(** ... and old neighbour lists of non-Ghost particles have no influence, except that
    a particle that becomes Ghost keeps its old list. *)
Theorem C06_stale_lists (N : Num) ns ps qs ns' ps' :
  Forall2 (fun p q => p = q \/ (p_type p <> Ghost /\ same_but_nbrs p q)) ps qs ->
  setNeighbors ns ps = Ok (ns', ps') ->
  exists qs', setNeighbors ns qs = Ok (ns', qs') /\
    Forall2 (fun p q => same_but_nbrs p q /\ (p_type p <> Ghost -> p = q)) ps' qs'.
Proof. exact (search_stale ns ps qs ns' ps'). Qed.
Example C06_case_stale : exists qs, Forall2 (fun p q => p = q \/ (p_type p <> Ghost /\ same_but_nbrs p q)) missed qs /\ qs <> missed.
Proof.
  exists (map (fun p => set_nbrs p [@mkNb F64 7 c11]) missed). split; [|discriminate].
  unfold missed. cbn [map]. repeat (apply Forall2_cons; [right; split; [discriminate|reflexivity]|]). apply Forall2_nil.
Qed.
Print Assumptions C06_stale_lists.

(** C07: in binary64 the search is not exact: two particles inside the domain, closer
    than re, that do not find each other. *)
Theorem C07_exact_in_binary64_refuted :
  exists re d ns ps ns' p q,
    radiusF re /\ proper_domainF d /\ @newSearcher F64 re d (List.length ps) = Ok ns /\ indexed ps /\ numeric ps /\
    setNeighbors ns ps = Ok (ns', [p; q]) /\ p_type p = Fluid /\ p_type q = Fluid /\
    edistF (p_pos p) (p_pos q) < F2r re /\ ~ In 1%Z (map nb_id (p_nbrs p)) /\ ~ In 0%Z (map nb_id (p_nbrs q)).
Proof. exact C07_refuted_lemma. Qed.
Print Assumptions C07_exact_in_binary64_refuted.

(** ... but it is exact up to a relative margin of 2^-19 of the radius, whatever the
    domain and the number of particles. *)
Theorem C07_margin_binary64 re d ns (ps : list partF) :
  radiusF re -> b2 (-500) <= F2r re <= b2 500 -> proper_domainF d ->
  @used_searcher F64 re d (List.length ps) ns -> indexed ps -> numeric ps ->
  exists ns' ps', setNeighbors ns ps = Ok (ns', ps') /\
    forall i j p q, nth_error ps' i = Some p -> nth_error ps' j = Some q -> i <> j ->
      p_type p <> Ghost -> p_type q <> Ghost ->
      (edistF (p_pos p) (p_pos q) <= (1 - / 524288) * F2r re -> In (Z.of_nat j) (map nb_id (p_nbrs p))) /\
      (In (Z.of_nat j) (map nb_id (p_nbrs p)) -> edistF (p_pos p) (p_pos q) <= (1 + / 524288) * F2r re).
Proof. exact (C07_lemma re d ns ps). Qed.
Example C07_case : radiusF re31 /\ b2 (-500) <= F2r re31 <= b2 500 /\ proper_domainF dam.
Proof. exact (conj re31_radius (conj re31_range dam_proper)). Qed.
Print Assumptions C07_margin_binary64.

(** C46: a NaN coordinate is not contained: the run reaches undefined behaviour. *)
Theorem C46_nan_contained_refuted :
  exists re d ns ps, radiusF re /\ proper_domainF d /\ @newSearcher F64 re d (List.length ps) = Ok ns /\ indexed ps /\
    setNeighbors ns ps = Undef BadCast.
Proof. exact C46_refuted_lemma. Qed.
Print Assumptions C46_nan_contained_refuted.

(** ... and this is so for every particle set: no search completes once a particle
    that is not outside along another axis has a NaN coordinate. *)
Theorem C46_nan_never_completes (re : f64) d ns (ps : list partF) p ns' ps' :
  @used_searcher F64 re d (List.length ps) ns -> In p ps -> p_type p <> Ghost ->
  ~ no_nan (p_pos p) -> ~ outside d (p_pos p) -> setNeighbors ns ps <> Ok (ns', ps').
Proof. exact (C46_lemma re d ns ps p ns' ps'). Qed.
Example C46_case : exists p, In p lost /\ p_type p <> Ghost /\ ~ no_nan (p_pos p) /\ ~ outside dam (p_pos p).
Proof.
  exists (pt 1 Fluid cNaN). split; [simpl; auto|]. split; [discriminate|]. split.
  - intros (_ & H & _). vm_compute in H. discriminate.
  - apply inDomain_outside. vm_compute. reflexivity.
Qed.
Print Assumptions C46_nan_never_completes.
