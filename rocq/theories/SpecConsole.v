(** * Vocabulary of the statements about the console *)
From Coq Require Import Reals.
From Verif Require Export SpecSim Console TextFacts.
Open Scope Z_scope.

Section SpecConsole.
Context {N : Num}.

(** the warnings about the particle with id [i] *)
Definition warnings (i : Z) (log : list event) : list event :=
  filter (fun e => match e with OutOfDomain id _ => id =? i | _ => false end) log.
Definition reports (log : list event) : list event :=
  filter (fun e => match e with Report _ _ _ _ _ _ _ _ _ _ => true | _ => false end) log.
Definition courant_errors (log : list event) : list event :=
  filter (fun e => match e with CourantError _ => true | _ => false end) log.
(** how many of the outputs were made before step [k] *)
Definition files_before (k : Z) (out : list output) : Z := Z.of_nat (List.length (filter (fun o => o_step o <? k) out)).
Definition warning (e : event) : Prop := exists id x, e = OutOfDomain id x.

(** [w] is what a run that started as [st0] prints during step [k] (steps counted from 1),
    which took from [fst c] to [snd c] on the clock and ends in [m]; [out] are the outputs
    of the whole run.  First the warnings, then the Courant number if it is too large, then
    the progress report. *)
Definition printed (st0 : sim) (real : Z) (c : Z * Z) (k : nat) (m : mps) (out : list output) (w : list event) : Prop :=
  exists warns T,
    let elapsed := snd c - real in
    let ave := ndiv (nofZ elapsed) (nmul (nofZ (Z.of_nat k)) (nofZ 1000000000)) in
    Forall warning warns /\
    to_int64 (nmul (ndiv (nmul ave (nsub (si_end st0) (si_start st0))) (si_dt st0)) (nofZ 1000000000)) = Ok T /\
    w = warns ++ (if nlt (s_cfl (m_settings (si_mps st0))) (m_courant m) then [CourantError (m_courant m)] else []) ++
        [Report (Z.of_nat k) (si_dt st0) (time_at (si_start st0) (si_dt st0) k) (si_end st0)
                ("elapsed=" ++ calHourMinuteSecond elapsed)%string ("remain=" ++ calHourMinuteSecond (T - elapsed))%string
                ave (nmul (nofZ (snd c - fst c)) (ndiv (nofZ 1) (nofZ 1000000000)))
                (files_before (Z.of_nat k) out) (m_courant m)].
End SpecConsole.

(** [s] shows the finite double [x] with [n] decimals: the decimal nearest to it, with as
    many digits before the point as needed and at least one *)
Definition decimals (n : nat) (x : f64) (s : string) : Prop :=
  exists whole frac : list Z,
    s = text (sign_text (Bsign x) ++ map digit_char whole ++ "."%char :: map digit_char frac) /\
    Forall digit (whole ++ frac) /\ (whole = [0] \/ exists d l, whole = d :: l /\ 0 < d) /\ List.length frac = n /\
    (Rabs (IZR (value (whole ++ frac)) - Rabs (B2R x) * IZR (10 ^ Z.of_nat n)) <= / 2)%R.
