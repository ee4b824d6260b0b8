(** * Property C78: no pressure without compression

    Vocabulary: [SpecBody] (fallen, nominal, regular, relaxed, on_lattice), [SpecR] (ready, apart,
    euclid, exact_solver, addR, scaleR), [Spec] (steps). *)
From Coq Require Import Reals Lra.
From Verif Require Import StageCases WholeCases GaussR SymCases SolverCases BodyR BodyRun BodyCases SpecBody.
Open Scope R_scope.
#[local] Remove Hints F64 : typeclass_instances.

(** C78: fluid of one velocity that is nowhere denser than the reference state, touches nothing
    and stays in the box keeps its shape and falls like a rigid body, without pressure *)
Theorem C78_falling_body (S : @solver Rnum) n (m m' : @mps Rnum) v : ready m -> exact_solver S -> regular (m_calc m) (s_reMax (m_settings m)) ->
  (forall p, In p (m_ps m) -> 0 < p_dens p) -> steps S n m m' ->
  let s := m_settings m in let g := m_gravity m in let ps := m_ps m in
  apart ps -> (forall p, In p ps -> p_type p = Fluid -> p_vel p = v) ->
  (forall i j p q, nth_error ps i = Some p -> nth_error ps j = Some q -> i <> j -> p_type p = Fluid -> p_type q = Fluid -> s_colDist s <= euclid (p_pos p) (p_pos q)) ->
  (forall i p, nth_error ps i = Some p -> p_type p = Fluid -> relaxed (s_reN s) (nominal (m_calc m)) ps i p) ->
  (forall k p, (k <= n)%nat -> In p ps -> p_type p = Fluid -> let x := addR (p_pos p) (fallen (s_dt s) v g k) in in_box (s_domain s) x /\
     forall q, In q ps -> p_type q <> Ghost -> p_type q <> Fluid -> s_reMax s <= euclid x (p_pos q)) ->
  forall i p, nth_error ps i = Some p -> p_type p = Fluid ->
  exists p', nth_error (m_ps m') i = Some p' /\ p_type p' = Fluid /\ p_vel p' = addR v (scaleR (INR n * s_dt s) g) /\
    p_pos p' = addR (p_pos p) (fallen (s_dt s) v g n) /\ ((0 < n)%nat -> p_press p' = 0).
Proof. exact (falling S n m m' v). Qed.
Example C78_case_implicit : exists m m' v, ready m /\ exact_solver gauss /\ regular (m_calc m) (s_reMax (m_settings m)) /\ (exists det q, m_calc m = Implicit det q) /\
  (forall p, In p (m_ps m) -> 0 < p_dens p) /\ steps gauss 1 m m' /\ apart (m_ps m) /\ (forall p, In p (m_ps m) -> p_type p = Fluid -> p_vel p = v) /\
  (forall i p, nth_error (m_ps m) i = Some p -> p_type p = Fluid -> relaxed (s_reN (m_settings m)) (nominal (m_calc m)) (m_ps m) i p) /\
  (forall k p, (k <= 1)%nat -> In p (m_ps m) -> p_type p = Fluid -> in_box (s_domain (m_settings m)) (addR (p_pos p) (fallen (s_dt (m_settings m)) v (m_gravity m) k))).
Proof.
  destruct solo_implicit_step as (m & m' & RD & ES & EP & EG & EK & H). exists m, m', (@mkV Rnum 1 0 0). rewrite ES, EP, EG, EK.
  split; [exact RD|]. split; [exact gauss_exact|]. split; [unfold regular; simpl; repeat split; lra || lia|]. split; [do 2 eexists; reflexivity|].
  split; [intros p [<-|[]]; simpl; lra|]. split; [exact H|]. split; [exact solo_apart|]. split; [intros p [<-|[]] _; reflexivity|]. split.
  - intros [|[|i]] p Hp _; simpl in Hp; inv Hp. unfold relaxed, sum_others. simpl. lra.
  - intros k p Hk [<-|[]] _. assert (K : INR k = 0 \/ INR k = 1) by (destruct k as [|[|k]]; [left; reflexivity|right; reflexivity|lia]).
    unfold in_box, fallen. cbn. destruct K as [-> | ->]; lra.
Qed.
Print Assumptions C78_falling_body.

(** C78: in particular any piece cut out of the lattice of the reference values *)
Theorem C78_lattice (S : @solver Rnum) n (m m' : @mps Rnum) v : ready m -> exact_solver S -> regular (m_calc m) (s_reMax (m_settings m)) ->
  (forall p, In p (m_ps m) -> 0 < p_dens p) -> steps S n m m' ->
  let s := m_settings m in let g := m_gravity m in let ps := m_ps m in
  apart ps -> (forall p, In p ps -> p_type p = Fluid -> p_vel p = v) ->
  on_lattice (s_dim s) (s_l0 s) ps -> s_reN s <= 5 * s_l0 s -> s_colDist s <= s_l0 s -> rv_n0 (m_rvN m) <= nominal (m_calc m) ->
  (forall k p, (k <= n)%nat -> In p ps -> p_type p = Fluid -> let x := addR (p_pos p) (fallen (s_dt s) v g k) in in_box (s_domain s) x /\
     forall q, In q ps -> p_type q <> Ghost -> p_type q <> Fluid -> s_reMax s <= euclid x (p_pos q)) ->
  forall i p, nth_error ps i = Some p -> p_type p = Fluid ->
  exists p', nth_error (m_ps m') i = Some p' /\ p_type p' = Fluid /\ p_vel p' = addR v (scaleR (INR n * s_dt s) g) /\
    p_pos p' = addR (p_pos p) (fallen (s_dt s) v g n) /\ ((0 < n)%nat -> p_press p' = 0).
Proof. exact (falling_lattice S n m m' v). Qed.
(** two fluid particles in flight and a Wall (seven steps), for both theorems *)
Example C78_case_lattice : exists m m' v, ready m /\ exact_solver no_solver /\ regular (m_calc m) (s_reMax (m_settings m)) /\
  (forall p, In p (m_ps m) -> 0 < p_dens p) /\ steps no_solver 7 m m' /\ m_ps m = flock /\ m_gravity m = grav /\
  apart (m_ps m) /\ (forall p, In p (m_ps m) -> p_type p = Fluid -> p_vel p = v) /\
  (forall i j p q, nth_error (m_ps m) i = Some p -> nth_error (m_ps m) j = Some q -> i <> j -> p_type p = Fluid -> p_type q = Fluid -> s_colDist (m_settings m) <= euclid (p_pos p) (p_pos q)) /\
  on_lattice (s_dim (m_settings m)) (s_l0 (m_settings m)) (m_ps m) /\ s_reN (m_settings m) <= 5 * s_l0 (m_settings m) /\ s_colDist (m_settings m) <= s_l0 (m_settings m) /\
  rv_n0 (m_rvN m) <= nominal (m_calc m) /\
  (forall k p, (k <= 7)%nat -> In p (m_ps m) -> p_type p = Fluid -> let x := addR (p_pos p) (fallen (s_dt (m_settings m)) v (m_gravity m) k) in in_box (s_domain (m_settings m)) x /\
     forall q, In q (m_ps m) -> p_type q <> Ghost -> p_type q <> Fluid -> s_reMax (m_settings m) <= euclid x (p_pos q)).
Proof.
  destruct flock_falls as (m & m' & RD & ES & EP & EG & EK & P & H). exists m, m', (@mkV Rnum 2 0 0). rewrite ES, EP, EG, EK.
  split; [exact RD|]. split; [exact no_solver_exact|]. split; [split; [exact P|exact I]|]. split; [exact flock_dense|]. split; [exact H|]. split; [reflexivity|]. split; [reflexivity|].
  split; [exact flock_apart|]. split; [exact flock_vel|]. split; [exact flock_clear|]. split; [exact flock_lattice|]. split; [simpl; lra|]. split; [simpl; lra|].
  split; [simpl; lra|exact flock_free].
Qed.
Print Assumptions C78_lattice.

(** C78: without gravity, matter at rest that is nowhere denser than the reference state (walls
    included) stays where it is, without pressure *)
Theorem C78_rest (S : @solver Rnum) n (m m' : @mps Rnum) : ready m -> exact_solver S -> regular (m_calc m) (s_reMax (m_settings m)) ->
  (forall p, In p (m_ps m) -> 0 < p_dens p) -> steps S n m m' ->
  let s := m_settings m in let ps := m_ps m in
  apart ps -> m_gravity m = zeroR -> (forall p, In p ps -> p_type p <> Ghost -> p_vel p = zeroR) ->
  (forall p, In p ps -> p_type p = Fluid -> in_box (s_domain s) (p_pos p)) ->
  (forall i j p q, nth_error ps i = Some p -> nth_error ps j = Some q -> i <> j -> p_type p = Fluid -> p_type q <> Ghost -> s_colDist s <= euclid (p_pos p) (p_pos q)) ->
  (forall i p, nth_error ps i = Some p -> p_type p <> Ghost -> p_type p <> DummyWall -> relaxed (s_reN s) (nominal (m_calc m)) ps i p) ->
  forall i p, nth_error ps i = Some p -> p_type p <> Ghost ->
  exists p', nth_error (m_ps m') i = Some p' /\ p_vel p' = zeroR /\ p_pos p' = p_pos p /\ (p_type p = Fluid -> p_type p' = Fluid) /\
    ((0 < n)%nat -> p_type p <> DummyWall -> p_press p' = 0).
Proof. exact (resting S n m m'). Qed.
Example C78_case_rest : exists m m', ready m /\ exact_solver no_solver /\ regular (m_calc m) (s_reMax (m_settings m)) /\
  (forall p, In p (m_ps m) -> 0 < p_dens p) /\ steps no_solver 9 m m' /\ m_ps m = basin /\
  apart (m_ps m) /\ m_gravity m = zeroR /\ (forall p, In p (m_ps m) -> p_type p <> Ghost -> p_vel p = zeroR) /\
  (forall p, In p (m_ps m) -> p_type p = Fluid -> in_box (s_domain (m_settings m)) (p_pos p)) /\
  (forall i j p q, nth_error (m_ps m) i = Some p -> nth_error (m_ps m) j = Some q -> i <> j -> p_type p = Fluid -> p_type q <> Ghost -> s_colDist (m_settings m) <= euclid (p_pos p) (p_pos q)) /\
  (forall i p, nth_error (m_ps m) i = Some p -> p_type p <> Ghost -> p_type p <> DummyWall -> relaxed (s_reN (m_settings m)) (nominal (m_calc m)) (m_ps m) i p).
Proof.
  destruct (basin_stays 9) as (m & m' & RD & ES & EP & EG & EK & H). exists m, m'. rewrite ES, EP, EG, EK.
  split; [exact RD|]. split; [exact no_solver_exact|]. split; [split; [simpl; lra|exact I]|]. split; [intros p [<-|[<-|[<-|[<-|[]]]]]; simpl; lra|].
  split; [exact H|]. split; [reflexivity|]. split; [exact basin_apart|]. split; [reflexivity|]. split; [intros p [<-|[<-|[<-|[<-|[]]]]] _; reflexivity|].
  split; [intros p [<-|[<-|[<-|[<-|[]]]]] _; unfold in_box; simpl; lra|]. split.
  - intros i j p q Hp Hq N _ _. apply Rle_trans with 1; [simpl; lra|]. exact (basin_clear i j p q Hp Hq N).
  - intros i p Hp _ _. exact (basin_relaxed i p Hp).
Qed.
Print Assumptions C78_rest.
