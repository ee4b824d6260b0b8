(** * Property C81: the unit tests of the repository, over all their inputs

    The tests of /repo/test, each with its fixed inputs (the Examples) and as a statement
    about all inputs of that kind.  Where a test would fail on other inputs a [_refuted]
    theorem has them.  [double_eq] (EXPECT_DOUBLE_EQ), [brute_force], [reference_test],
    [loads_back]: SpecTests. *)
From Coq Require Import Reals Lra.
From Flocq Require Import Core IEEE754.BinarySingleNaN.
From Verif Require Import NeighborMargin Program TestCases.
Open Scope list_scope.
Open Scope R_scope.
#[local] Remove Hints Rnum : typeclass_instances.

(** test/weight_test.cpp: 1 at half the radius, 0 at the radius and beyond, in doubles *)
Theorem C81_weight_half dbg (re : f64) : fin re = true -> b2 (-1021) <= F2r re ->
  @weight F64 dbg (@ndiv F64 re (@nofZ F64 2)) re = Ok (@nofZ F64 1).
Proof. exact (weight_half dbg re). Qed.
Theorem C81_weight_beyond dbg (re d : f64) : @nlt F64 (@nofZ F64 0) d = true -> @nle F64 re d = true ->
  @weight F64 dbg d re = Ok (@nofZ F64 0).
Proof. exact (weight_beyond dbg re d). Qed.
Example C81_weight_case : exists w1 w2 w3, @weight F64 true (fq 1 2) (fz 1) = Ok w1 /\ double_eq w1 (fz 1) /\
  @weight F64 true (fz 1) (fz 1) = Ok w2 /\ double_eq w2 (fz 0) /\ @weight F64 true (fq 3 2) (fz 1) = Ok w3 /\ double_eq w3 (fz 0).
Proof. exact weight_test. Qed.
Print Assumptions C81_weight_half.
Print Assumptions C81_weight_beyond.

(** test/refvalues_test.cpp: the closed formulas are right for every particle distance *)
Theorem C81_reference dbg dim l0 : (dim = 2 \/ dim = 3)%Z -> 0 < l0 ->
  let re := 3 / 2 * l0 in let a := if (dim =? 2)%Z then 4 else 6 in let b := if (dim =? 2)%Z then 4 else 12 in
  let w1 := re / l0 - 1 in let w2 := re / (sqrt 2 * l0) - 1 in
  @newRefValues Rnum dbg dim l0 re = Ok (@mkRV Rnum (a * w1 + b * w2) ((a * (l0 * l0) * w1 + b * (2 * l0 * l0) * w2) / (a * w1 + b * w2))).
Proof. exact (reference_exact dbg dim l0). Qed.
Example C81_reference_plane_case : reference_test 2 4 4 tenth. Proof. exact ref2. Qed.
Example C81_reference_space_case : reference_test 3 6 12 tenth. Proof. exact ref3. Qed.
Print Assumptions C81_reference.
(** in doubles the comparison within 4 units in the last place holds for the 0.1 m of the
    test and not for all distances: for 0.008 m rounding in the sum of 728 terms exceeds it *)
Theorem C81_reference_refuted : exists l0 : f64, fin l0 = true /\ / 1000 < F2r l0 < / 100 /\ ~ reference_test 3 6 12 l0.
Proof. exact reference_fails. Qed.
Print Assumptions C81_reference_refuted.

(** test/neighbor_searcher_test.cpp: search and brute force agree, except for pairs whose
    distance differs from the radius by less than one part in 524288 *)
Theorem C81_neighbours re d ns (ps : list partF) : radiusF re -> b2 (-500) <= F2r re <= b2 500 -> proper_domainF d ->
  @used_searcher F64 re d (List.length ps) ns -> indexed ps -> numeric ps ->
  exists ns' ps', setNeighbors ns ps = Ok (ns', ps') /\
    forall i j p q, nth_error ps' i = Some p -> nth_error ps' j = Some q -> i <> j -> p_type p <> Ghost -> p_type q <> Ghost ->
      edistF (p_pos p) (p_pos q) <= (1 - / 524288) * F2r re \/ (1 + / 524288) * F2r re < edistF (p_pos p) (p_pos q) ->
      (In (Z.of_nat j) (map nb_id (p_nbrs p)) <-> brute_force re ps' i p (Z.of_nat j)).
Proof. exact (neighbour_test re d ns ps). Qed.
Example C81_neighbours_case : exists ns, radiusF tenth /\ b2 (-500) <= F2r tenth <= b2 500 /\ proper_domainF yard /\
  @used_searcher F64 tenth yard (List.length two) ns /\ indexed two /\ numeric two.
Proof.
  destruct (yard_searcher 2) as [ns E]. exists ns.
  exact (conj tenth_radius (conj tenth_range (conj yard_proper (conj (used_new _ _ _ _ E) (conj two_indexed two_numeric))))).
Qed.
Print Assumptions C81_neighbours.
(** with the radius and domain of the test: particles at (0, 0, 0) and (0.06, 0.08, 0) *)
Theorem C81_neighbours_refuted : exists re d ns (ps : list partF) ns' ps' i j p,
  radiusF re /\ proper_domainF d /\ @newSearcher F64 re d (List.length ps) = Ok ns /\ indexed ps /\ numeric ps /\
  @setNeighbors F64 ns ps = Ok (ns', ps') /\ nth_error ps' i = Some p /\ brute_force re ps' i p j /\ ~ In j (map nb_id (p_nbrs p)).
Proof. exact neighbour_test_fails. Qed.
Print Assumptions C81_neighbours_refuted.

(** test/particles_exporter_test.cpp: the exported file is there *)
Theorem C81_export big p (fs : filesystem) t n0 (ps : list Files.particle) : fs (parent p) = Some Folder -> fs p <> Some Folder ->
  write_file p (Ok (toProf t ps)) fs = (put fs p (File (toProf t ps)), Ok tt) /\
  write_file p (toVtu big false t n0 ps) fs = (put fs p (File (toVtuAscii big t n0 ps)), Ok tt).
Proof. exact (export_exists big p fs t n0 ps). Qed.
Example C81_export_case : let fs : filesystem := fun q => match q with [] => Some Folder | _ => None end in
  fs (parent [lit "test.prof"]) = Some Folder /\ fs [lit "test.prof"] <> Some Folder.
Proof. split; [reflexivity|discriminate]. Qed.
Print Assumptions C81_export.

(** test/vtu_loader.cpp: the two particles of the test are read back as they were; what is
    read back in general is C38 to C41.  Particles with a third in their coordinates are
    not read back as they were. *)
Theorem C81_vtu : exists t l, vtu_load true (fz 1000) (toVtuAscii false (fz 0) (fz 1) written) = Ok (t, l) /\ num_eq t (fz 0) /\ loads_back written l.
Proof. exact vtu_test. Qed.
Print Assumptions C81_vtu.
Theorem C81_vtu_refuted : exists (ps : list Files.particle) t l, vtu_load true (fz 1000) (toVtuAscii false (fz 0) (fz 1) ps) = Ok (t, l) /\ ~ loads_back ps l.
Proof. exact (ex_intro _ moved vtu_test_fails). Qed.
Print Assumptions C81_vtu_refuted.
