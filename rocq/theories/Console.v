(** * What a simulation prints
    (src/simulation.cpp, src/bucket.cpp:48-51, src/mps.cpp:253-255)

    The simulation with a record of what it prints, in the order of printing.  An event
    carries the values that are printed; the texts are below.  Only what has been printed
    when a run ends normally is recorded; Messages.v has the rest. *)
From Verif Require Export Sim Decimal.
Open Scope Z_scope.

Section Console.
Context {N : Num}.
Local Open Scope num_scope.

Inductive event :=
| Start                                  (* simulation.cpp:51-52 *)
| OutOfDomain (id : Z) (x : vec)         (* bucket.cpp:48-51 *)
| CourantError (c : num)                 (* mps.cpp:254 *)
| Report (step : Z) (dt t fin : num) (elapsed remain : string) (ave last : num) (files : Z) (c : num)   (* simulation.cpp:86-102 *)
| End (total : string).                  (* simulation.cpp:58-62 *)

(** the warnings of Bucket::storeParticles, src/bucket.cpp:36-55.  The loop changes no
    particle but the one it looks at. *)
Definition storeWarnings (d : domain) (ps : list particle) : list event :=
  flat_map (fun p => if is_type p Ghost then [] else if isInDomain d (p_pos p) then [] else [OutOfDomain (p_id p) (p_pos p)]) ps.
Definition searchWarnings (ns : searcher) (ps : list particle) : list event := storeWarnings (b_domain (ns_bucket ns)) ps.

(** MPS::stepForward, src/mps.cpp:34-63 (three neighbour searches) and MPS::calCourant,
    src/mps.cpp:242-256 *)
Definition stepLog (S : solver) (m : mps) : outcome (mps * list event) :=
  let w1 := searchWarnings (m_ns m) (m_ps m) in
  '(ns, ps) <- stepMove m ;;
  let w2 := searchWarnings ns ps in
  '(ns, ps) <- stepCollide m ns ps ;;
  let w3 := searchWarnings ns ps in
  m' <- stepForward S m ;;
  Ok (m', w1 ++ w2 ++ w3 ++ if nlt (s_cfl (m_settings m)) (m_courant m') then [CourantError (m_courant m')] else []).

(** Simulation::timeStepReport, src/simulation.cpp:65-103 *)
Definition reportLog (real : Z) (clock : Z * Z) (st : sim) : outcome event :=
  '(elapsed, remain) <- timeStepReport real clock st ;;
  let '(stepStart, stepEnd) := clock in
  let ave := if (si_step st =? 0)%Z then #0 else # (stepEnd - real) / (# (si_step st) * #1000000000) in
  let last := # (stepEnd - stepStart) * (#1 / #1000000000) in
  Ok (Report (si_step st) (si_dt st) (si_time st) (si_end st) elapsed remain ave last (si_file st) (m_courant (si_mps st))).

(** the loop of Simulation::run, src/simulation.cpp:34-45 *)
Definition iterationLog (S : solver) (real : Z) (clock : Z * Z) (st : sim) : outcome (sim * list event) :=
  '(m, w) <- stepLog S (si_mps st) ;;
  k <- cint (si_step st + 1)%Z ;;
  let st := mkSim m (si_start st) (si_time st + si_dt st) (si_end st) (si_dt st) (si_period st) k (si_file st) (si_out st) in
  r <- reportLog real clock st ;;
  st <- (if saveCondition st then save st else Ok st) ;;
  Ok (st, w ++ [r]).
Fixpoint loopLog (S : solver) (real : Z) (clk : nat -> Z * Z) (fuel k : nat) (st : sim) : outcome (sim * list event) :=
  if nlt (si_time st) (si_end st) then
    match fuel with
    | O => Diverge
    | Datatypes.S fuel' =>
        '(st, w) <- iterationLog S real (clk k) st ;;
        '(st, w') <- loopLog S real clk fuel' (Datatypes.S k) st ;;
        Ok (st, w ++ w')
    end
  else Ok (st, []).
(** Simulation::run, src/simulation.cpp:29-63; [fin] is realEndTime *)
Definition runLog (S : solver) (real fin : Z) (clk : nat -> Z * Z) (fuel : nat) (st : sim) : outcome (sim * list event) :=
  st <- save st ;;
  '(st, w) <- loopLog S real clk fuel 0 st ;;
  d <- cint64 (fin - real)%Z ;;
  Ok (st, Start :: w ++ [End (calHourMinuteSecond d)]).
End Console.

(** ** The texts *)

(** printf("%.*f", n, x): the exact value rounded to [n] decimals, ties to even; the sign
    is that of [x].  (n > 0 in all calls.) *)
Definition printF (n : nat) (x : f64) : string :=
  text (match x with
        | B754_nan => list_ascii_of_string "nan"
        | B754_infinity s => sign_text s ++ list_ascii_of_string "inf"
        | B754_zero s => sign_text s ++ "0"%char :: "."%char :: zeros n
        | B754_finite s m e _ =>
            let '(p, q) := ratio m e in
            let D := round_div (p * 10 ^ Z.of_nat n) q in
            let f := digit_text (D mod 10 ^ Z.of_nat n) in
            sign_text s ++ digit_text (D / 10 ^ Z.of_nat n) ++ "."%char :: zeros (n - List.length f) ++ f
        end).

(** printf("%.g", x): one significant digit (a missing precision after the point is 0, which
    %g takes as 1) *)
Definition dec1 (m : positive) (e : Z) : Z * Z :=
  let '(p, q) := ratio m e in
  let X := exp10 p q in
  let D := if X <=? 0 then round_div (p * 10 ^ (- X)) q else round_div p (q * 10 ^ X) in
  if D =? 10 then (1, X + 1) else (D, X).
Definition printG1 (x : f64) : string :=
  text (match x with
        | B754_nan => list_ascii_of_string "nan"
        | B754_infinity s => sign_text s ++ list_ascii_of_string "inf"
        | B754_zero s => sign_text s ++ ["0"%char]
        | B754_finite s m e _ =>
            let '(D, X) := dec1 m e in
            sign_text s ++
            (if (-4 <=? X) && (X <? 1)
             then (if X =? 0 then digit_text D else "0"%char :: "."%char :: zeros (Z.to_nat (- X - 1)) ++ digit_text D)
             else digit_text D ++ "e"%char :: (if X <? 0 then "-"%char else "+"%char)
                  :: (let es := digit_text (Z.abs X) in zeros (2 - List.length es) ++ es))
        end).

Definition newline : string := String "010" "".

(** stdout *)
Definition coutText (ev : @event F64) : string :=
  (match ev with
   | Start => newline ++ "*** START SIMULATION ***" ++ newline
   | Report k dt t fin el re ave last f c =>
       dec k ++ ": dt=" ++ printG1 dt ++ "s   t=" ++ printF 3 t ++ "s   fin=" ++ printF 1 fin ++ "s   " ++ el ++ "   " ++ re ++
       "   ave=" ++ printF 3 ave ++ "s/step   last=" ++ printF 3 last ++ "s/step   out=" ++ dec f ++ "files   Courant=" ++ printF 2 c ++ newline
   | End total => newline ++ "Total Simulation time = " ++ total ++ newline ++ newline ++ "*** END SIMULATION ***" ++ newline
   | _ => ""
   end)%string.
(** stderr *)
Definition cerrText (ev : @event F64) : string :=
  (match ev with
   | OutOfDomain id x => "WARNING: particle " ++ dec id ++ " is out of domain." ++ newline ++
                         "x = " ++ text (show (vx x)) ++ " y = " ++ text (show (vy x)) ++ " z = " ++ text (show (vz x)) ++ newline
   | CourantError c => "ERROR: Courant number is larger than CFL condition. Courant = " ++ text (show c) ++ newline
   | Report k dt t fin el re ave last f c => setw 4 " " (dec k) ++ ": t=" ++ printF 3 t ++ "s" ++ newline
   | _ => ""
   end)%string.
