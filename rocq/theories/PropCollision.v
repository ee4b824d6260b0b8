(** * Properties C11-C14: collisions

    Vocabulary: [SpecR] (unitR, along, dotR, diffR, momentum, mass_centre,
    fluid_energy, dense, zeroR). *)
From Coq Require Import Reals Lra.
From Verif Require Import CollisionTrace CollisionR SolverCases.
Open Scope R_scope.
#[local] Remove Hints F64 : typeclass_instances.

(** C11: particle i (Fluid) meets particle j at distance d; n is the unit vector from i to j *)
Theorem C11_pair_collision (s : @settings Rnum) i j d (ps : list partR) pi pj :
  nth_error ps i = Some pi -> nth_error ps j = Some pj -> i <> j ->
  p_type pi = Fluid -> (p_type pj = Fluid -> (p_id pj < p_id pi)%Z) ->
  0 < p_dens pi -> (p_type pj = Fluid -> 0 < p_dens pj) -> p_pos pi <> p_pos pj -> d < s_colDist s ->
  let n := unitR (p_pos pi) (p_pos pj) in
  exists vi vj xi xj a b alpha beta,
    collide s i (@mkNb Rnum (Z.of_nat j) d) ps = Ok (upd (upd ps i (set_pos (set_vel pi vi) xi)) j (set_pos (set_vel pj vj) xj)) /\
    dotR n n = 1 /\
    (* velocities change along the line of centres only *)
    vi = along (p_vel pi) a n /\ vj = along (p_vel pj) b n /\
    (dotR (diffR (p_vel pj) (p_vel pi)) n < 0 -> dotR (diffR vj vi) n = - s_restitution s * dotR (diffR (p_vel pj) (p_vel pi)) n) /\
    (0 <= dotR (diffR (p_vel pj) (p_vel pi)) n -> a = 0 /\ b = 0) /\
    (p_type pj = Fluid -> p_dens pi * a + p_dens pj * b = 0) /\ (p_type pj <> Fluid -> b = 0) /\
    (* positions: pushed apart along the line of centres *)
    xi = along (p_pos pi) (- alpha) n /\ xj = along (p_pos pj) beta n /\
    0 <= alpha /\ 0 <= beta /\ alpha + beta = s_colDist s - d /\
    (p_type pj = Fluid -> p_dens pi * alpha = p_dens pj * beta) /\ (p_type pj <> Fluid -> beta = 0).
Proof. exact (C11_lemma s i j d ps pi pj). Qed.
Example C11_case : exists pi pj, nth_error trio 1%nat = Some pi /\ nth_error trio 0%nat = Some pj /\ p_type pi = Fluid /\ (p_id pj < p_id pi)%Z /\
  0 < p_dens pi /\ 0 < p_dens pj /\ p_pos pi <> p_pos pj /\ 1 < s_colDist set1 /\ euclid (p_pos pi) (p_pos pj) = 1.
Proof.
  do 2 eexists. split; [reflexivity|]. split; [reflexivity|]. split; [reflexivity|]. split; [simpl; lia|]. split; [simpl; lra|]. split; [simpl; lra|].
  split; [apply (trio_apart 1%nat 0%nat); auto; discriminate|]. split; [simpl; lra|]. apply euclid_at; lra.
Qed.
Print Assumptions C11_pair_collision.

(** C12 *)
Theorem C12_collisions_conserve (s : @settings Rnum) (ps ps' : list partR) :
  dense ps ->
  (* only fluid particles collide *)
  (forall p q nb, In p ps -> p_type p = Fluid -> In nb (p_nbrs p) -> nb_dist nb < s_colDist s ->
     nth_error ps (Z.to_nat (nb_id nb)) = Some q -> p_type q = Fluid) ->
  collision s ps = Ok ps' -> momentum ps' = momentum ps /\ mass_centre ps' = mass_centre ps.
Proof. exact (C12_lemma s ps ps'). Qed.
Example C12_case : exists ps', dense duo /\ (forall p q nb, In p duo -> p_type p = Fluid -> In nb (p_nbrs p) -> nb_dist nb < s_colDist set1 ->
     nth_error duo (Z.to_nat (nb_id nb)) = Some q -> p_type q = Fluid) /\ collision set1 duo = Ok ps'.
Proof. destruct (collision_ok duo duo_nbrs) as [ps' H]. exists ps'. exact (conj duo_dense (conj duo_fluid H)). Qed.
Print Assumptions C12_collisions_conserve.

(** C13 *)
Theorem C13_no_energy_from_collisions (s : @settings Rnum) (ps ps' : list partR) :
  0 <= s_restitution s <= 1 -> dense ps -> (forall p, In p ps -> p_type p <> Fluid -> p_vel p = zeroR) ->
  collision s ps = Ok ps' -> fluid_energy ps' <= fluid_energy ps.
Proof. exact (C13_lemma s ps ps'). Qed.
Example C13_case : exists ps', 0 <= s_restitution set1 <= 1 /\ dense trio /\ (forall p, In p trio -> p_type p <> Fluid -> p_vel p = zeroR) /\ collision set1 trio = Ok ps'.
Proof. destruct (collision_ok trio trio_nbrs) as [ps' H]. exists ps'. split; [simpl; lra|]. exact (conj trio_dense (conj trio_walls H)). Qed.
Print Assumptions C13_no_energy_from_collisions.

(** C14: the collision stage is a sequence of pair collisions that contains no pair
    twice (in either order); the pairs are those within the collision distance whose
    first member is Fluid *)
Theorem C14_each_pair_once (N : Num) s ps ps' :
  indexed ps -> (forall p, In p ps -> p_type p = Fluid -> NoDup (map nb_id (p_nbrs p))) ->
  collision s ps = Ok ps' ->
  exists tr : list (nat * neighbor),
    foldM (fun e => collide s (fst e) (snd e)) tr ps = Ok ps' /\
    (forall i nb, In (i, nb) tr <->
       exists p q, nth_error ps i = Some p /\ p_type p = Fluid /\ In nb (p_nbrs p) /\
         nth_error ps (Z.to_nat (nb_id nb)) = Some q /\ (p_type q = Fluid -> (nb_id nb < Z.of_nat i)%Z) /\
         nlt (nb_dist nb) (s_colDist s) = true) /\
    NoDup (map (fun e => (Z.min (Z.of_nat (fst e)) (nb_id (snd e)), Z.max (Z.of_nat (fst e)) (nb_id (snd e)))) tr).
Proof. exact (C14_trace s ps ps'). Qed.
Example C14_case : exists ps', indexed trio /\ (forall p, In p trio -> p_type p = Fluid -> NoDup (map nb_id (p_nbrs p))) /\ collision set1 trio = Ok ps'.
Proof. destruct (collision_ok trio trio_nbrs) as [ps' H]. exists ps'. exact (conj trio_indexed (conj trio_nodup H)). Qed.
Print Assumptions C14_each_pair_once.

Theorem C14_walls_immovable (s : @settings Rnum) (ps ps' : list partR) i p p' :
  collision s ps = Ok ps' -> nth_error ps i = Some p -> nth_error ps' i = Some p' -> p_type p <> Fluid ->
  p_pos p' = p_pos p /\ p_vel p' = p_vel p.
Proof. exact (C14_still_lemma s ps ps' i p p'). Qed.
(* hypotheses: C14_case, particle 2 of trio *)
Print Assumptions C14_walls_immovable.
