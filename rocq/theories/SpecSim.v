(** * Vocabulary of the statements about whole simulations *)
From Verif Require Export Spec Sim.
Open Scope Z_scope.

Section SpecSim.
Context {N : Num}.

(** a simulation as its constructor leaves it (newSim) *)
Definition fresh (st : sim) : Prop :=
  si_time st = si_start st /\ si_step st = 0 /\ si_file st = 0 /\ si_out st = [].

(** the state when the loop condition is evaluated for the (k+1)st time *)
Inductive reached (S : solver) (real : Z) (clk : nat -> Z * Z) (st0 : sim) : nat -> sim -> Prop :=
| reached_0 st : save st0 = Ok st -> reached S real clk st0 0 st
| reached_S k st st' : reached S real clk st0 k st -> nlt (si_time st) (si_end st) = true ->
    iteration S real (clk k) st = Ok st' -> reached S real clk st0 (Datatypes.S k) st'.

(** t + dt + ... + dt *)
Fixpoint time_at (t dt : num) (k : nat) : num :=
  match k with O => t | Datatypes.S k' => nadd (time_at t dt k') dt end.

(** file [j] is due at time [t] *)
Definition due (st : sim) (j : nat) (t : num) : Prop :=
  nle (nmul (si_period st) (nofZ (Z.of_nat j))) (nsub t (si_start st)) = true.

(** [log] is the list of outputs of a simulation that started as [st0], after [k] steps:
    - it is not empty and its first entry is the initial state;
    - entry [j] has number [j] and shows the state after [o_step] steps;
    - entry [j+1] comes at the first step after entry [j] at which it is due;
    - nothing is due since the last entry. *)
Definition schedule (S : solver) (st0 : sim) (k : nat) (log : list output) : Prop :=
  let at_ := time_at (si_start st0) (si_dt st0) in
  (exists o, nth_error log 0 = Some o /\ o_step o = 0) /\
  (forall j o, nth_error log j = Some o -> o_number o = Z.of_nat j /\
     exists s, (s <= k)%nat /\ o_step o = Z.of_nat s /\ o_time o = at_ s /\ steps S s (si_mps st0) (o_mps o)) /\
  (forall j o o', nth_error log j = Some o -> nth_error log (Datatypes.S j) = Some o' ->
     o_step o < o_step o' /\ due st0 (Datatypes.S j) (o_time o') /\
     forall s, o_step o < Z.of_nat s < o_step o' -> ~ due st0 (Datatypes.S j) (at_ s)) /\
  (forall j o, nth_error log j = Some o -> Datatypes.S j = List.length log ->
     forall s, o_step o < Z.of_nat s <= Z.of_nat k -> ~ due st0 (Datatypes.S j) (at_ s)).

(** the steps after which files are written, by counting: number of files, steps (newest
    first) *)
Fixpoint plan (st0 : sim) (k : nat) : Z * list Z :=
  match k with
  | O => (1, [0])
  | Datatypes.S k' =>
      let '(f, l) := plan st0 k' in
      if nle (nmul (si_period st0) (nofZ f)) (nsub (time_at (si_start st0) (si_dt st0) k) (si_start st0))
      then (f + 1, Z.of_nat k :: l) else (f, l)
  end.
End SpecSim.
