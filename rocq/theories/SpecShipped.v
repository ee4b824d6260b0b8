(** * What the cases in /repo/input should be *)
From Verif Require Export SpecEnds SpecGenerator Yaml Shipped.
From Verif Require Import Types.
Open Scope list_scope.
Open Scope Z_scope.
#[local] Remove Hints Rnum : typeclass_instances.

(** the text of a settings file in [Shipped] *)
Fixpoint joined_lines (ls : list string) : list ascii :=
  match ls with
  | [] => []
  | [l] => lit l
  | l :: r => lit l ++ nl :: joined_lines r
  end.

(** the settings of the two cases; numbers are decimal fractions n/d, correctly rounded
    ([literal]), or products as the loader forms them *)
Definition shipped_settings (dbg : bool) (l0 dt tend period nu x0 x1 y0 y1 : f64) (file : string) : @settings F64 :=
  let zero := @nofZ F64 0 in
  @mkS F64 dbg 2 l0 dt tend period (literal 3 10)
    (@mkDom F64 x0 x1 y0 y1 zero zero (@nsub F64 x1 x0) (@nsub F64 y1 y0) (@nsub F64 zero zero))
    nu (literal 1000 1) true (@mkV F64 zero (literal (-98) 10) zero) (literal 98 10) zero
    (literal 97 100) true (literal 1 1) "Implicit" (literal 45 100000000000) (literal 2 10)
    (literal 171 10) (@nmul F64 (literal 5 10) l0) (literal 2 10)
    (@nmul F64 (literal 31 10) l0) (@nmul F64 (literal 21 10) l0) (@nmul F64 (literal 31 10) l0) (@nmul F64 (literal 31 10) l0)
    file true.
Definition dam_settings (dbg : bool) : string -> @settings F64 :=
  shipped_settings dbg (literal 25 1000) (literal 1 1000) (literal 2 1) (literal 4 100) (literal 1 1000000)
    (literal (-1) 10) (literal 11 10) (literal (-1) 10) (literal 2 1).
Definition hyd_settings (dbg : bool) : string -> @settings F64 :=
  shipped_settings dbg (literal 12 1000) (literal 2 1000) (literal 10 1) (literal 1 10) (literal 1 10000)
    (literal (-25) 100) (literal 25 100) (literal (-5) 100) (literal 6 10).

(** a disk with the files of a case in [dir] and an output directory that is free to use *)
Definition installed (fs : filesystem) (dir out : path) (yml : list string) (prof : list ascii) : Prop :=
  fs (dir ++ [lit "settings.yml"]) = Some (File (joined_lines yml)) /\ fs (dir ++ [lit "input.prof"]) = Some (File prof) /\
  fs (out ++ [lit "settings.yml"]) = None /\ fs (out ++ [lit "input.prof"]) = None /\ room out fs.

(** the centres of any two particles are at least d apart *)
Definition spaced (d : R) (qs : list (@particle F64)) : Prop :=
  forall i j p q, i <> j -> nth_error qs i = Some p -> nth_error qs j = Some q ->
  (d <= sqrt ((B2R (vx (p_pos p)) - B2R (vx (p_pos q))) ^ 2 + (B2R (vy (p_pos p)) - B2R (vy (p_pos q))) ^ 2 + (B2R (vz (p_pos p)) - B2R (vz (p_pos q))) ^ 2))%R.

(** the clock does not run backwards, and the run takes less than 2^48 ns (78 hours) *)
Definition usual_clock (real : Z) (clk : nat -> Z * Z) : Prop :=
  forall k, real <= fst (clk k) <= snd (clk k) /\ snd (clk k) - real <= 2 ^ 48.

(** The ends of a case of [n] steps: it completes and has saved the steps [saved]; or in some
    step an assertion fails, the solver gives up, or a coordinate that is NaN is converted to int *)
Definition case_ends (S : solver) (dbg : bool) (m : @mps F64) (n : Z) (saved : list Z) (o : outcome (@sim F64)) : Prop :=
  (exists st', o = Ok st' /\ si_step st' = n /\ map o_step (si_out st') = saved) \/
  exists k m', Z.of_nat k < n /\ steps S k m m' /\
    ((dbg = true /\ o = AssertFail) \/ ((exists j ts b, S j ts b = None) /\ o = Exit (-1)) \/ (meets_nan m' /\ o = Undef BadCast)).
