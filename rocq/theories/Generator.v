(** * The input generators (generator/generate_dambreak.cpp,
    generator/generate_hydrostatic.cpp, generator/generator_src/generator_dialogue.cpp) *)
From Verif Require Export Program.
Open Scope list_scope.
Open Scope Z_scope.

(** ** The particles *)
Section Generators.
Context {N : Num}.
Local Open Scope num_scope.

(** a decimal literal n/d of the source: the quotient of two integers below 2^53 is the
    double nearest to it *)
Definition dec (n d : Z) : num := #n / #d.

(** round() of <cmath>: half away from zero (x minus its integer part is exact) *)
Definition nround (x : num) : option Z :=
  match ntrunc x with
  | Some t => if nle (dec 1 2) (nabs (x - #t)) then Some (if nlt x #0 then t - 1 else t + 1)%Z else Some t
  | None => None
  end.
Definition round_int (x : num) : outcome Z :=
  match nround x with Some z => if in_int z then Ok z else Undef BadCast | None => Undef BadCast end.

(** for (int i = a; i < a + n; i++) a = f(i, a) *)
Fixpoint for_range {A} (n : nat) (i : Z) (f : Z -> A -> outcome A) (a : A) : outcome A :=
  match n with
  | O => Ok a
  | S n' => a <- f i a ;; for_range n' (i + 1)%Z f a
  end.

(** isInside, generate_dambreak.cpp:102-119; std::sort of two numbers *)
Definition sort2 (r : num * num) : num * num := if nlt (snd r) (fst r) then (snd r, fst r) else r.
Definition in_range (r : num * num) (eps x : num) : bool :=
  let '(lo, hi) := sort2 r in nlt (lo - eps) x && nlt x (hi + eps).
Definition isInside (pos : vec) (xr yr zr : num * num) (eps : num) : bool :=
  in_range xr eps (vx pos) && in_range yr eps (vy pos) && in_range zr eps (vz pos).

(** the type chosen at [pos], generate_dambreak.cpp:43-73 *)
Definition dam_type (l0 eps : num) (pos : vec) : Z :=
  let zr := (#0, #0) in
  let t := Ghost in
  let t := if isInside pos (- #4 * l0, #1 + #4 * l0) (- #4 * l0, dec 6 10) zr eps then DummyWall else t in
  let t := if isInside pos (- #2 * l0, #1 + #2 * l0) (- #2 * l0, dec 6 10) zr eps then Wall else t in
  let t := if isInside pos (- #4 * l0, #1 + #4 * l0) (dec 6 10 - #2 * l0, dec 6 10) zr eps then Wall else t in
  let t := if isInside pos (#0, #1) (#0, dec 6 10) zr eps then Ghost else t in
  if isInside pos (#0, dec 25 100) (#0, dec 50 100) zr eps then Fluid else t.

(** generate_dambreak.cpp:23-80 *)
Definition dam_l0 : num := dec 25 1000.
Definition dam_eps : num := dec 1 100 * dam_l0.
Definition dam_pos (ix iy : Z) : vec := mkV (#ix * dam_l0) (#iy * dam_l0) #0.
Definition dambreak (dbg : bool) : outcome (list particle) :=
  xb <- round_int (#0 / dam_l0) ;;
  xe <- round_int (#1 / dam_l0) ;;
  yb <- round_int (#0 / dam_l0) ;;
  ye <- round_int (dec 6 10 / dam_l0) ;;
  for_range (Z.to_nat (xe + 4 - (xb - 4) + 1)) (xb - 4)%Z (fun ix ps =>
    for_range (Z.to_nat (ye + 4 - (yb - 4) + 1)) (yb - 4)%Z (fun iy ps =>
      let pos := dam_pos ix iy in
      let t := dam_type dam_l0 dam_eps pos in
      if (t =? Ghost)%Z then Ok ps
      else add_particle dbg ps (newParticle (Z.of_nat (List.length ps)) t pos vzero #1000 0)) ps) [].

(** Box2d, generate_hydrostatic.cpp:15-30 *)
Record box := mkBox { bx_cx : num; bx_cy : num; bx_sx : num; bx_sy : num }.
Definition newBox (x0 x1 y0 y1 : num) : box := mkBox ((x0 + x1) / #2) ((y0 + y1) / #2) (x1 - x0) (y1 - y0).
Definition sdf (b : box) (rx ry : num) : num :=
  let qx := nabs (rx - bx_cx b) - bx_sx b / #2 in
  let qy := nabs (ry - bx_cy b) - bx_sy b / #2 in
  let mx := nmax qx #0 in let my := nmax qy #0 in
  nsqrt (mx * mx + my * my) + nmin (nmax qx qy) #0.

(** generate_hydrostatic.cpp:32-72 *)
Definition hyd_l0 : num := dec 12 1000.
Definition hyd_fluid : box := newBox (- dec 18 100) (dec 18 100) #0 (dec 48 100).
Definition hyd_empty : box := newBox (- dec 18 100) (dec 18 100) (dec 48 100) (dec 6 10).
Definition hyd_wall : box := newBox (- dec 18 100 - #2 * hyd_l0) (dec 18 100 + #2 * hyd_l0) (#(-2) * hyd_l0) (dec 6 10).
Definition hyd_dummy : box := newBox (- dec 18 100 - #4 * hyd_l0) (dec 18 100 + #4 * hyd_l0) (#(-4) * hyd_l0) (dec 6 10).
Definition hyd_at (i : Z) : num := hyd_l0 * (#i + dec 5 10).
Definition hyd_pos (ix iy : Z) : vec := mkV (hyd_at ix) (hyd_at iy) #0.
(** [Ghost]: no particle is made *)
Definition hyd_type (rx ry : num) : Z :=
  if nlt (sdf hyd_empty rx ry) #0 then Ghost
  else if nlt (sdf hyd_fluid rx ry) #0 then Fluid
  else if nlt (sdf hyd_wall rx ry) #0 then Wall
  else if nlt (sdf hyd_dummy rx ry) #0 then DummyWall
  else Ghost.
Definition hydrostatic (dbg : bool) : outcome (list particle) :=
  xb <- round_int (- dec 18 100 / hyd_l0) ;;
  xe <- round_int (dec 18 100 / hyd_l0) ;;
  yb <- round_int (#0 / hyd_l0) ;;
  ye <- round_int (dec 6 10 / hyd_l0) ;;
  r <- for_range (Z.to_nat (xe + 4 - (xb - 4))) (xb - 4)%Z (fun ix s =>
    for_range (Z.to_nat (ye - (yb - 4))) (yb - 4)%Z (fun iy '(ps, id) =>
      let t := hyd_type (hyd_at ix) (hyd_at iy) in
      if (t =? Ghost)%Z then Ok (ps, id)
      else ps <- add_particle dbg ps (newParticle id t (hyd_pos ix iy) vzero #1000 0) ;; Ok (ps, id + 1)%Z) s) ([], 0%Z) ;;
  Ok (fst r).
End Generators.

(** ** The dialogue *)

(** fs::create_directories *)
Fixpoint create_under (base rest : path) : act unit :=
  match rest with
  | [] => ret (Ok tt)
  | n :: r => _ <~ create_dir (base ++ [n]) ;; create_under (base ++ [n]) r
  end.
Definition create_directories (p : path) : act unit := create_under [] p.

(** the loop generator_dialogue.cpp:37-49 on the words of standard input.  At the end of
    the input cin >> response stores nothing: the old response is judged again. *)
Definition is_no (a : list ascii) : bool := text_eqb a (lit "n") || text_eqb a (lit "N").
Definition is_yes (a : list ascii) : bool := text_eqb a (lit "y") || text_eqb a (lit "Y").
Fixpoint ask (fuel : nat) (words : list (list ascii)) (response : list ascii) : outcome unit :=
  match fuel with
  | O => Diverge
  | S fuel' =>
      let '(response, words) := match words with a :: r => (a, r) | [] => (response, []) end in
      if is_no response then Exit 0
      else if is_yes response then Ok tt
      else ask fuel' words response
  end.

Section Dialogue.
Variable big : bool.
(** parentPath / ("input" + ext) *)
Definition inputPath (dir : path) (ext : list ascii) : path := dir ++ [lit "input" ++ ext].
Definition known_ext (e : list ascii) : bool := text_eqb e (lit ".prof") || text_eqb e (lit ".vtu") || text_eqb e (lit ".csv").
(** generator_dialogue.cpp:53-65; the defaults of toVtu are n0 = 1.0 and ascii
    (src/particles_exporter.hpp:75-80) *)
Definition export1 (dir : path) (ps : list (@Types.particle F64)) (e : list ascii) : act unit :=
  let zero := @nofZ F64 0 in
  if text_eqb e (lit ".prof") then write_file (inputPath dir e) (Ok (toProf zero ps))
  else if text_eqb e (lit ".vtu") then write_file (inputPath dir e) (toVtu big false zero (@nofZ F64 1) ps)
  else if text_eqb e (lit ".csv") then write_file (inputPath dir e) (Ok (toCsv zero ps))
  else ret (Ok tt).
Fixpoint exportAll (dir : path) (ps : list (@Types.particle F64)) (exts : list (list ascii)) : act unit :=
  match exts with
  | [] => ret (Ok tt)
  | e :: r => _ <~ export1 dir ps e ;; exportAll dir ps r
  end.
(** GeneratorDialogue::generatorDialogue, generator_dialogue.cpp:7-66 *)
Definition generatorDialogue (fuel : nat) (words : list (list ascii)) (dir : path) (ps : list (@Types.particle F64)) (exts : list (list ascii)) : act unit := fun fs =>
  match exts with
  | [] => (fs, Exit 0)
  | _ =>
      if negb (forallb known_ext exts) then (fs, Exit 0)
      else
        (_ <~ (if there fs dir then
                 if existsb (fun e => there fs (inputPath dir e)) exts then ret (ask fuel words []) else ret (Ok tt)
               else create_directories dir) ;;
         exportAll dir ps exts) fs
  end.
End Dialogue.

(** generate_dambreak and generate_hydrostatic, run in the directory [cwd] *)
Definition generate (big dbg : bool) (fuel : nat) (words : list (list ascii)) (cwd : path) (case : string) (particles : bool -> outcome (list (@Types.particle F64))) : act unit :=
  ps <~ ret (particles dbg) ;;
  generatorDialogue big fuel words (cwd ++ [lit "input"; lit case]) ps [lit ".prof"; lit ".vtu"].
