(** * Vocabulary of C79: causes of undefined behaviour *)
From Coq Require Import Reals.
From Flocq Require Import Core.Core IEEE754.BinarySingleNaN.
From Verif Require Export SpecEnds SpecFiles.
Open Scope list_scope.
Open Scope Z_scope.
#[local] Remove Hints Rnum : typeclass_instances.

(** ** The particle file *)
(** nothing follows the first newline *)
Definition one_line (file : list ascii) : Prop := forall a b, file = a ++ nl :: b -> b = [].
(** the third line, the header, lacks a column that is needed *)
Definition lacks_column (file : list ascii) : Prop :=
  exists l1 l2 h rest name, file = l1 ++ nl :: l2 ++ nl :: join h ++ rest /\ ~ In nl l1 /\ ~ In nl l2 /\ Forall plain h /\
    (rest = [] \/ exists r, rest = nl :: r) /\ In name required /\ ~ In name h.
(** reading one integer and [k] numbers from a stream *)
Fixpoint read_numbers (k : nat) (s : stream) : stream :=
  match k with O => s | S k' => read_numbers k' (snd (extract get_double s)) end.
Definition read_values (k : nat) (s : stream) : stream := read_numbers k (snd (extract get_int s)).
(** the stream of a prof file behind its first [k] rows of seven values *)
Fixpoint behind_rows (k : nat) (s : stream) : stream :=
  match k with O => s | S k' => behind_rows k' (read_values 6 s) end.
(** nothing more can be read: an earlier value was malformed, or only white space is left *)
Definition used_up (s : stream) : Prop := st_fail s = true \/ Forall (fun c => is_space c = true) (st_rest s).
(** the file announces [n] particles, and in one of their rows there is no sixth number to read *)
Definition cut_short (file : list ascii) : Prop :=
  let s := snd (extract get_double (mkStream file false)) in
  exists n k, fst (extract get_int s) = Some n /\ Z.of_nat k < n /\ used_up (read_values 5 (behind_rows k (snd (extract get_int s)))).
Definition bad_file (ext file : list ascii) (u : ub) : Prop :=
  (ext = lit ".csv" /\ ((u = NullDeref /\ one_line file) \/ (u = Uninit /\ lacks_column file))) \/
  (ext = lit ".prof" /\ u = Uninit /\ cut_short file).

(** ** The settings: radius or domain unusable, or more buckets than an int can count *)
Definition cells_along (len re : f64) : Z := Zfloor (B2R (@ndiv F64 len re)) + 3.
Definition bad_domain (s : @settings F64) : Prop :=
  let d := s_domain s in let re := s_reMax s in
  ~ radiusF re \/ ~ proper_domainF d \/
  is_finite (@ndiv F64 (xLength d) re) = false \/ is_finite (@ndiv F64 (yLength d) re) = false \/ is_finite (@ndiv F64 (zLength d) re) = false \/
  int_max < cells_along (xLength d) re * cells_along (yLength d) re * cells_along (zLength d) re.

(** ** The report of a step: a duration that does not fit into 64 bits *)
Definition fits64 (z : Z) : Prop := int64_min <= z <= int64_max.
Definition unreportable (real : Z) (clock : Z * Z) (start finish dt : f64) (steps : Z) : Prop :=
  let '(a, b) := clock in
  let average := @ndiv F64 (@nofZ F64 (b - real)) (@nmul F64 (@nofZ F64 steps) (@nofZ F64 1000000000)) in
  let total := @nmul F64 (@ndiv F64 (@nmul F64 average (@nsub F64 finish start)) dt) (@nofZ F64 1000000000) in
  ~ fits64 (b - real) \/ ~ fits64 (b - a) \/ is_finite total = false \/ ~ fits64 (Ztrunc (B2R total)) \/ ~ fits64 (Ztrunc (B2R total) - (b - real)).

(** ** The run of the machine [m] from time [t], with the files *)
Definition bad_run (S : @solver F64) (real : Z) (clk : nat -> Z * Z) (t : f64) (s : @settings F64) (m : @mps F64) (u : ub) : Prop :=
  (s_vtkBinary s = true /\ int_max < Z.of_nat (List.length (m_ps m)) * 3 /\ u = IntOverflow) \/
  exists k mk, steps S k m mk /\ @nlt F64 (time_at t (s_dt s) k) (s_endTime s) = true /\
    ((meets_nan mk /\ u = BadCast) \/
     (int_max <= Z.of_nat k + 1 /\ u = IntOverflow) \/
     (unreportable real (clk k) t (s_endTime s) (s_dt s) (Z.of_nat k + 1) /\ (u = IntOverflow \/ u = BadCast))).
