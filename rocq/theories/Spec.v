(** * Vocabulary of the statements, for every number type

    Definitions used to state properties.  They mention the data types of the model
    but none of its algorithms, except [used_searcher], [steps] and [sound], which say
    how an object can have come about. *)
From Verif Require Export Step.
Open Scope Z_scope.

Section Spec.
Context {N : Num}.

(** the id of a particle is its index (established by Particles::add) *)
Definition indexed (ps : list particle) : Prop :=
  forall i p, nth_error ps i = Some p -> p_id p = Z.of_nat i.

(** strictly outside the closed box of the domain *)
Definition outside (d : domain) (x : vec) : Prop :=
  nlt (vx x) (xMin d) = true \/ nlt (xMax d) (vx x) = true \/
  nlt (vy x) (yMin d) = true \/ nlt (yMax d) (vy x) = true \/
  nlt (vz x) (zMin d) = true \/ nlt (zMax d) (vz x) = true.

(** a NeighborSearcher object built for [re], [d] and [n] particles, after any number
    of (completed) calls of setNeighbors on any particles *)
Inductive used_searcher (re : num) (d : domain) (n : nat) : searcher -> Prop :=
| used_new ns : newSearcher re d n = Ok ns -> used_searcher re d n ns
| used_call ns ps ns' ps' : used_searcher re d n ns -> List.length ps = n ->
    setNeighbors ns ps = Ok (ns', ps') -> used_searcher re d n ns'.

(** equal in everything but the neighbour list *)
Definition same_but_nbrs (p q : particle) : Prop := set_nbrs p [] = set_nbrs q [].

(** n completed calls of stepForward *)
Inductive steps (S : solver) : nat -> mps -> mps -> Prop :=
| steps_0 m : steps S 0 m m
| steps_S n m m1 m2 : steps S n m m1 -> stepForward S m1 = Ok m2 -> steps S (Datatypes.S n) m m2.

(** no acceleration left over *)
Definition at_rest (ps : list particle) : Prop := forall p, In p ps -> p_acc p = vzero.

(** a simulator object as it is between two time steps: particles numbered
    0..n-1, no acceleration, a searcher built for the search radius and domain of
    the settings and used any number of times *)
Definition sound (m : mps) : Prop :=
  indexed (m_ps m) /\ at_rest (m_ps m) /\
  used_searcher (s_reMax (m_settings m)) (s_domain (m_settings m)) (List.length (m_ps m)) (m_ns m).

(** a type code outside 0..3 replaced by Wall *)
Definition as_wall (t : Z) : Z := if (0 <=? t) && (t <=? 3) then t else Wall.
Definition retype (p : particle) : particle := set_type p (as_wall (p_type p)).

(** the same simulator object with other particles / another Courant limit *)
Definition with_ps (m : mps) (ps : list particle) : mps :=
  mkM (m_settings m) (m_gravity m) (m_rvN m) (m_rvG m) (m_rvL m) ps (m_calc m) (m_ns m) (m_courant m) (m_cflErrors m).
Definition with_cfl (s : settings) (c : num) : settings :=
  mkS (s_asserts s) (s_dim s) (s_l0 s) (s_dt s) (s_endTime s) (s_outputPeriod s) c (s_domain s) (s_nu s) (s_rho0 s)
      (s_xyzInput s) (s_gravity s) (s_gNorm s) (s_gAngle s) (s_sd_nd s) (s_sd_dist s) (s_sd_dist_thr s) (s_method s)
      (s_compress s) (s_relax s) (s_c s) (s_colDist s) (s_restitution s) (s_reN s) (s_reG s) (s_reL s) (s_reMax s)
      (s_particlesPath s) (s_vtkBinary s).
Definition limit_cfl (m : mps) (c : num) (errs : nat) : mps :=
  mkM (with_cfl (m_settings m) c) (m_gravity m) (m_rvN m) (m_rvG m) (m_rvL m) (m_ps m) (m_calc m) (m_ns m) (m_courant m) errs.
End Spec.

(** outcome with the value changed *)
Definition omap {A B} (f : A -> B) (o : outcome A) : outcome B := x <- o ;; Ok (f x).

(** the linear solver returns vectors of the size it was asked for *)
Definition sized {N : Num} (S : solver) : Prop := forall n ts b x, S n ts b = Some x -> List.length x = n.
