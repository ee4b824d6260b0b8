(** * Properties C08-C10: weight function, reference values, number density

    Exact arithmetic.  Vocabulary: [SpecR] (w_spec, lattice_part, lattice_dist, rsum,
    sum_others, apart, ...), [Spec] (used_searcher, indexed). *)
From Coq Require Import Reals Lra Permutation.
From Verif Require Import WeightR SolverCases.
Open Scope R_scope.
#[local] Remove Hints F64 : typeclass_instances.

(** C08 *)
Theorem C08_weight_law asserts re d :
  (d <= 0 -> @weight Rnum true d re = AssertFail) /\
  (0 < d -> exists w, @weight Rnum asserts d re = Ok w /\ 0 <= w /\ (d < re -> w = re / d - 1) /\ (re <= d -> w = 0)).
Proof. exact (C08_lemma asserts re d). Qed.
Print Assumptions C08_weight_law.

Theorem C08_weight_strictly_decreasing asserts re d1 d2 : 0 < d1 -> d1 < d2 -> d2 < re ->
  exists w1 w2, @weight Rnum asserts d1 re = Ok w1 /\ @weight Rnum asserts d2 re = Ok w2 /\ w2 < w1.
Proof. exact (C08_decreasing asserts re d1 d2). Qed.
Example C08_case_decreasing : 0 < 1 /\ 1 < 2 /\ 2 < 3.
Proof. lra. Qed.
Print Assumptions C08_weight_strictly_decreasing.

Theorem C08_weight_vanishes_at_re asserts re eps : 0 < re -> 0 < eps ->
  exists delta, 0 < delta /\ forall d, 0 < d -> re - delta < d -> exists w, @weight Rnum asserts d re = Ok w /\ 0 <= w < eps.
Proof. exact (C08_vanishes asserts re eps). Qed.
Example C08_case_vanishes : 0 < 3/2 /\ 0 < 1/1000.
Proof. lra. Qed.
Print Assumptions C08_weight_vanishes_at_re.

(** C09 *)
Theorem C09_reference_values asserts dim l0 re : (dim = 2 \/ dim = 3)%Z -> 0 < l0 -> l0 < re ->
  exists rv, @newRefValues Rnum asserts dim l0 re = Ok rv /\
    0 < rv_n0 rv /\ l0 ^ 2 <= rv_lambda rv < re ^ 2 /\
    (re <= 5 * l0 -> forall L, lattice_part dim 4 L ->
       rv_n0 rv = rsum (map (fun c => w_spec re (lattice_dist l0 c)) L) /\
       rv_lambda rv = rsum (map (fun c => lattice_dist l0 c ^ 2 * w_spec re (lattice_dist l0 c)) L) / rsum (map (fun c => w_spec re (lattice_dist l0 c)) L)) /\
    (5 * l0 < re -> forall L, lattice_part dim 5 L -> rv_n0 rv < rsum (map (fun c => w_spec re (lattice_dist l0 c)) L)).
Proof. exact (C09_lemma asserts dim l0 re). Qed.
Example C09_case : 0 < 1 /\ 1 < 31/10 /\ 31/10 <= 5 * 1 /\ lattice_part 2 4 (plane 4) /\ lattice_part 2 4 (plane 7) /\ lattice_part 2 5 (plane 5).
Proof.
  split; [lra|]. split; [lra|]. split; [lra|]. split; [apply plane_part|]. split; [|apply plane_part].
  destruct (plane_part 7) as (A & B & C). split; auto. split; auto. intros c O W. apply C; auto. destruct c as [[a b] e]. simpl in *. lia.
Qed.
Print Assumptions C09_reference_values.

(** C10 *)
Theorem C10_number_density re d ns (ps : list partR) s :
  0 < re -> proper_domain d -> @used_searcher Rnum re d (List.length ps) ns -> indexed ps -> s_reN s <= re -> apart ps ->
  exists ns1 ps1 ps2, setNeighbors ns ps = Ok (ns1, ps1) /\ calNumberDensity s (s_reN s) ps1 = Ok ps2 /\
    List.length ps2 = List.length ps1 /\
    forall i p, nth_error ps1 i = Some p -> exists p', nth_error ps2 i = Some p' /\
      (p_type p = Ghost -> p' = set_nd p 0) /\
      (p_type p <> Ghost -> p' = set_nd p (sum_others ps1 i (fun _ q => w_spec (s_reN s) (euclid (p_pos p) (p_pos q))))).
Proof. exact (C10_lemma re d ns ps s). Qed.
Example C10_case : exists ns, 0 < 3/2 /\ proper_domain box10 /\ @used_searcher Rnum (3/2) box10 (List.length trio) ns /\ indexed trio /\ s_reN set1 <= 3/2 /\ apart trio.
Proof.
  destruct (box10_searcher 3) as [ns H]. exists ns.
  exact (conj (ltac:(lra) : 0 < 3/2) (conj (proj1 set1_usable) (conj H (conj trio_indexed (conj (Rle_refl (3/2)) trio_apart))))).
Qed.
Print Assumptions C10_number_density.

(** the sum above is n0 where the surroundings are the full lattice (anything else
    being out of range) *)
Theorem C10_full_lattice asserts dim l0 re rv ps i p L far :
  (dim = 2 \/ dim = 3)%Z -> 0 < l0 -> l0 < re -> re <= 5 * l0 -> @newRefValues Rnum asserts dim l0 re = Ok rv ->
  lattice_part dim 4 L -> (forall x, In x far -> re <= euclid (p_pos p) x) ->
  Permutation (map p_pos (others ps i)) (map (lattice_at l0 (p_pos p)) L ++ far) ->
  sum_others ps i (fun _ q => w_spec re (euclid (p_pos p) (p_pos q))) = rv_n0 rv.
Proof. exact (C10_lattice_lemma asserts dim l0 re rv ps i p L far). Qed.
Example C10_case_lattice : exists rv, @newRefValues Rnum true 2 1 (31/10) = Ok rv /\ lattice_part 2 4 (plane 4) /\
  Permutation (map p_pos (others crystal 0)) (map (lattice_at 1 (p_pos centre)) (plane 4) ++ []).
Proof.
  destruct (C09_lemma true 2 1 (31/10)) as (rv & E & _); [left; reflexivity|lra|lra|]. exists rv. split; [exact E|]. split; [apply plane_part|].
  rewrite crystal_others. apply Permutation_refl.
Qed.
Print Assumptions C10_full_lattice.
