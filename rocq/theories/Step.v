(** * The simulator object: construction and one time step
    (src/mps_factory.cpp, src/mps.cpp) *)
From Verif Require Export Pressure.

Section Step.
Context {N : Num}.
Local Open Scope num_scope.

(** MPS, src/mps.hpp:25-50.  [m_cflErrors] counts the "ERROR: Courant number ..."
    messages printed so far.  The member surfaceDetector is always null
    (mps_factory.cpp:45 moves it away before :73 passes it on) and is only used by
    MPS::setBoundaryCondition, which nothing calls; both are left out. *)
Record mps := mkM {
  m_settings : settings;
  m_gravity : vec;
  m_rvN : refValues; m_rvG : refValues; m_rvL : refValues;
  m_ps : list particle;
  m_calc : calculator;
  m_ns : searcher;
  m_courant : num;
  m_cflErrors : nat
}.

(** the loops src/mps.cpp:46-48 and 57-59 *)
Definition assignPressure (x : list num) (ps : list particle) : outcome (list particle) :=
  each (fun _ p => v <- vget x (p_id p) ;; Ok (set_press p v)) ps.

(** The stages of MPS::stepForward, src/mps.cpp:34-63.
    Prediction by gravity and viscosity (:35-38) ... *)
Definition stepMove (m : mps) : outcome (searcher * list particle) :=
  let s := m_settings m in
  '(ns, ps) <- setNeighbors (m_ns m) (m_ps m) ;;
  let ps := calGravity (m_gravity m) ps in
  ps <- calViscosity s (m_rvL m) (s_reL s) ps ;;
  Ok (ns, moveParticle s ps).

(** ... collision (:40-41) ... *)
Definition stepCollide (m : mps) (ns : searcher) (ps : list particle) : outcome (searcher * list particle) :=
  '(ns, ps) <- setNeighbors ns ps ;;
  ps <- collision (m_settings m) ps ;;
  Ok (ns, ps).

(** ... number density and pressures (:43-48) ... *)
Definition stepPressure (S : solver) (m : mps) (ns : searcher) (ps : list particle) : outcome (searcher * list particle) :=
  let s := m_settings m in
  '(ns, ps) <- setNeighbors ns ps ;;
  ps <- calNumberDensity s (s_reN s) ps ;;
  '(ps, x) <- calc S (m_calc m) ps ;;
  ps <- assignPressure x ps ;;
  Ok (ns, ps).

(** ... correction by the pressure gradient and the second explicit update (:50-60) *)
Definition stepCorrect (m : mps) (ps : list particle) : outcome (list particle) :=
  let s := m_settings m in
  ps <- setMinimumPressure (s_reG s) ps ;;
  ps <- calPressureGradient s (m_rvG m) (s_reG s) ps ;;
  let ps := moveParticleUsingPressureGradient s ps in
  match m_calc m with
  | Explicit n0 c => x <- explicitCalc n0 c ps ;; assignPressure x ps
  | Implicit _ _ => Ok ps
  end.

(** MPS::stepForward, src/mps.cpp:34-63 *)
Definition stepForward (S : solver) (m : mps) : outcome mps :=
  '(ns, ps) <- stepMove m ;;
  '(ns, ps) <- stepCollide m ns ps ;;
  '(ns, ps) <- stepPressure S m ns ps ;;
  ps <- stepCorrect m ps ;;
  let '(c, err) := calCourant (m_settings m) ps in
  Ok (mkM (m_settings m) (m_gravity m) (m_rvN m) (m_rvG m) (m_rvL m) ps (m_calc m) ns c
          (if (err : bool) then Datatypes.S (m_cflErrors m) else m_cflErrors m)).

(** MPS::MPS, src/mps.cpp:15-32 *)
Definition newMPS (s : settings) (ps : list particle) (g : vec) (k : calculator) : outcome mps :=
  ns <- newSearcher (s_reMax s) (s_domain s) (List.length ps) ;;
  rvN <- newRefValues (s_asserts s) (s_dim s) (s_l0 s) (s_reN s) ;;
  rvG <- newRefValues (s_asserts s) (s_dim s) (s_l0 s) (s_reG s) ;;
  rvL <- newRefValues (s_asserts s) (s_dim s) (s_l0 s) (s_reL s) ;;
  Ok (mkM s g rvN rvG rvL ps k ns #0 0).

(** gravity, src/mps_factory.cpp:12-20.  sin, cos and M_PI are parameters. *)
Definition factoryGravity (fsin fcos : num -> num) (M_PI : num) (s : settings) : vec :=
  if s_xyzInput s then s_gravity s
  else
    let theta := s_gAngle s * M_PI / #180 in
    mkV (s_gNorm s * fsin theta) (- s_gNorm s * fcos theta) #0.

(** the detector built at src/mps_factory.cpp:22-41 *)
Definition factoryDetector (s : settings) : outcome detector :=
  rv <- newRefValues (s_asserts s) (s_dim s) (s_l0 s) (s_reN s) ;;
  Ok (if s_sd_dist s then ByDistribution (rv_n0 rv) (s_l0 s) (s_sd_dist_thr s) (s_sd_nd s)
      else ByNumberDensity (s_sd_nd s) (rv_n0 rv)).

(** src/mps_factory.cpp:48-71 with the constructors implicit.cpp:13-37 and explicit.cpp:7-10 *)
Definition factoryCalculator (s : settings) (det : detector) : outcome calculator :=
  if String.eqb (s_method s) "Implicit" then
    rvN <- newRefValues (s_asserts s) (s_dim s) (s_l0 s) (s_reN s) ;;
    rvL <- newRefValues (s_asserts s) (s_dim s) (s_l0 s) (s_reL s) ;;
    Ok (Implicit det (mkPPE (s_asserts s) (s_dim s) (s_dt s) (s_relax s) (s_compress s)
                            (rv_n0 rvN) (rv_n0 rvL) (rv_lambda rvL) (s_reL s) (s_reN s)))
  else if String.eqb (s_method s) "Explicit" then
    rv <- newRefValues (s_asserts s) (s_dim s) (s_l0 s) (s_reN s) ;;
    Ok (Explicit (rv_n0 rv) (s_c s))
  else Exit (-1).

(** MPSFactory::create, src/mps_factory.cpp:11-74 *)
Definition factoryCreate (fsin fcos : num -> num) (M_PI : num) (s : settings) (ps : list particle) : outcome mps :=
  let g := factoryGravity fsin fcos M_PI s in
  det <- factoryDetector s ;;
  k <- factoryCalculator s det ;;
  newMPS s ps g k.
End Step.
