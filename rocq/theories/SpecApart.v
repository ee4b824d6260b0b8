(** * A group of particles among others that stay out of reach (C83) *)
From Verif Require Export SpecResume.
Open Scope Z_scope.

Section SpecApart.
Context {N : Num}.

(** distance of two particles as the search computes it (neighbor_searcher.cpp:33-34) *)
Definition separation (p q : particle) : num := vnorm (vsub (p_pos q) (p_pos p)).

(** particle number i of A is particle number e i of W, in the same order: e is increasing,
    and the two have the same type, place, velocity and density *)
Definition group (e : nat -> nat) (W A : list particle) : Prop :=
  (forall i j, (i < j < List.length A)%nat -> (e i < e j)%nat) /\
  forall i p, nth_error A i = Some p -> exists q, nth_error W (e i) = Some q /\
    p_type q = p_type p /\ p_pos q = p_pos p /\ p_vel q = p_vel p /\ p_dens q = p_dens p.
(** and also the same acceleration, pressure, number density, minimum pressure and, unless a
    Ghost, the same neighbours: members at the same distances *)
Definition same_group (e : nat -> nat) (W A : list particle) : Prop := group e W A /\
  forall i p q, nth_error A i = Some p -> nth_error W (e i) = Some q ->
    p_acc q = p_acc p /\ p_press q = p_press p /\ p_nd q = p_nd p /\ p_minp q = p_minp p /\
    (p_type p <> Ghost -> p_nbrs q = map (fun nb => mkNb (Z.of_nat (e (Z.to_nat (nb_id nb)))) (nb_dist nb)) (p_nbrs p)).

(** number j of W is none of the n of the group *)
Definition stranger (e : nat -> nat) (n j : nat) : Prop := forall i, (i < n)%nat -> e i <> j.

(** neither Ghost nor about to become one *)
Definition present (d : domain) (p : particle) : Prop := p_type p <> Ghost /\ ~ outside d (p_pos p).
(** no member of the group and no stranger are closer than re, in either direction *)
Definition out_of_reach (re : num) (d : domain) (e : nat -> nat) (n : nat) (W : list particle) : Prop :=
  forall i j p q, (i < n)%nat -> stranger e n j -> nth_error W (e i) = Some p -> nth_error W j = Some q ->
    present d p -> present d q -> nlt (separation p q) re = false /\ nlt (separation q p) re = false.

(** at each of the three searches of a step from m *)
Definition never_reached (e : nat -> nat) (n : nat) (m : mps) : Prop :=
  let re := s_reMax (m_settings m) in let d := s_domain (m_settings m) in
  out_of_reach re d e n (m_ps m) /\
  (forall n1 b, stepMove m = Ok (n1, b) -> out_of_reach re d e n b) /\
  (forall n1 b n2 c, stepMove m = Ok (n1, b) -> stepCollide m n1 b = Ok (n2, c) -> out_of_reach re d e n c).
End SpecApart.
