(** * What the input generators should make *)
From Coq Require Import Reals Lra.
From Verif Require Export Types NumR.
From Verif Require Import Loader.
Open Scope R_scope.

(** particle k has number k *)
Definition numbered {N : Num} (ps : list particle) : Prop :=
  forall k p, nth_error ps k = Some p -> p_id p = Z.of_nat k.
(** at rest, with density 1000 and the first fluid type, everything else as initialised *)
Definition at_rest {N : Num} (p : particle) : Prop :=
  p = newParticle (p_id p) (p_type p) (p_pos p) vzero (nofZ 1000) 0%Z.

(** x is a whole multiple of h, or halfway between two *)
Definition multiple (h x : R) : Prop := exists k : Z, x = IZR k * h.
Definition midpoint (h x : R) : Prop := exists k : Z, x = (IZR k + 1 / 2) * h.
Definition inside (x0 x1 y0 y1 x y : R) : Prop := x0 <= x <= x1 /\ y0 <= y <= y1.
Definition strictly (x0 x1 y0 y1 x y : R) : Prop := x0 < x < x1 /\ y0 < y < y1.

(** Dam break: a tank 1 m wide and 0.6 m high with a 0.25 m x 0.5 m column of water at its
    left, spacing 0.025 m.  Two layers of wall, then two of dummy wall; the top two rows
    of the side walls are wall all the way. *)
Definition dam_region (t : Z) (x y : R) : Prop :=
  let tank := inside 0 1 0 (6/10) x y in
  let walls := inside (-5/100) (105/100) (-5/100) (6/10) x y \/ inside (-1/10) (11/10) (55/100) (6/10) x y in
  let box := inside (-1/10) (11/10) (-1/10) (6/10) x y in
  (t = Fluid /\ inside 0 (25/100) 0 (5/10) x y) \/
  (t = Wall /\ walls /\ ~ tank) \/
  (t = DummyWall /\ box /\ ~ walls /\ ~ tank).

(** Hydrostatic: a basin 0.36 m wide filled to 0.48 m, rim at 0.6 m, particles in the
    middle of the cells of a grid of 0.012 m. *)
Definition hyd_region (t : Z) (x y : R) : Prop :=
  let fluid := strictly (-18/100) (18/100) 0 (48/100) x y in
  let empty := strictly (-18/100) (18/100) (48/100) (6/10) x y in
  let walls := strictly (-204/1000) (204/1000) (-24/1000) (6/10) x y in
  let box := strictly (-228/1000) (228/1000) (-48/1000) (6/10) x y in
  (t = Fluid /\ fluid) \/
  (t = Wall /\ walls /\ ~ fluid /\ ~ empty) \/
  (t = DummyWall /\ box /\ ~ walls /\ ~ fluid /\ ~ empty).

(** [ps] has one particle at every place of type t that [region] has on the grid *)
Definition fills (grid : R -> Prop) (region : Z -> R -> R -> Prop) (ps : list (@particle Rnum)) : Prop :=
  NoDup (map p_pos ps) /\ Forall at_rest ps /\ numbered ps /\
  forall t x y z, (exists p, In p ps /\ p_type p = t /\ p_pos p = mkV (x : @num Rnum) (y : @num Rnum) (z : @num Rnum)) <->
    (z = 0 /\ grid x /\ grid y /\ region t x y).

(** the same particle in binary64, its place off by at most 1e-15 *)
Definition off (x : f64) (r : R) : Prop := is_finite x = true /\ Rabs (B2R x - r) <= / 10 ^ 15.
Definition close (p : @particle Rnum) (q : @particle F64) : Prop :=
  p_id q = p_id p /\ p_type q = p_type p /\ at_rest q /\
  off (vx (p_pos q)) (vx (p_pos p)) /\ off (vy (p_pos q)) (vy (p_pos p)) /\ off (vz (p_pos q)) (vz (p_pos p)).
(** in the domain of a settings file, the bounds as decimal fractions n/d *)
Definition literal (n d : Z) : f64 := @ndiv F64 (@nofZ F64 n) (@nofZ F64 d).
Definition in_domain (x0 x1 y0 y1 : f64) (q : @particle F64) : Prop :=
  let le a b := @nle F64 a b = true in
  (le x0 (vx (p_pos q)) /\ le (vx (p_pos q)) x1) /\ (le y0 (vy (p_pos q)) /\ le (vy (p_pos q)) y1) /\
  (le (@nofZ F64 0) (vz (p_pos q)) /\ le (vz (p_pos q)) (@nofZ F64 0)).
(** domainMin, domainMax of input/dambreak/settings.yml and input/hydrostatic/settings.yml *)
Definition in_dam_domain : @particle F64 -> Prop := in_domain (literal (-1) 10) (literal 11 10) (literal (-1) 10) (literal 2 1).
Definition in_hyd_domain : @particle F64 -> Prop := in_domain (literal (-25) 100) (literal 25 100) (literal (-5) 100) (literal 6 10).

(** the files of a dialogue: [dir]/input.ext *)
Definition target (dir : path) (exts : list (list Ascii.ascii)) (p : path) : Prop :=
  exists e, In e exts /\ p = dir ++ [lit "input" ++ e].
Definition known (e : list Ascii.ascii) : Prop := e = lit ".prof" \/ e = lit ".vtu" \/ e = lit ".csv".
(** the first answer that is yes or no is yes *)
Definition says_yes (words : list (list Ascii.ascii)) : Prop :=
  exists before a after, words = before ++ a :: after /\ (a = lit "y" \/ a = lit "Y") /\
    Forall (fun w => ~ In w (map lit ["n"; "N"; "y"; "Y"]%string)) before.
Definition says_no (words : list (list Ascii.ascii)) : Prop :=
  exists before a after, words = before ++ a :: after /\ (a = lit "n" \/ a = lit "N") /\
    Forall (fun w => ~ In w (map lit ["n"; "N"; "y"; "Y"]%string)) before.
Definition says_neither (words : list (list Ascii.ascii)) : Prop := Forall (fun w => ~ In w (map lit ["n"; "N"; "y"; "Y"]%string)) words.
(** the root is a directory, and everything else is in a directory *)
Definition tree (fs : filesystem) : Prop := fs [] = Some Folder /\ forall p n, fs (p ++ [n]) <> None -> fs p = Some Folder.
(** no part of the path is a file *)
Definition creatable (fs : filesystem) (dir : path) : Prop := forall p q b, dir = p ++ q -> fs p <> Some (File b).
(** what the file with extension [e] should hold: the particles at time 0 *)
Definition exported (big : bool) (ps : list (@particle F64)) (e b : list Ascii.ascii) : Prop :=
  (e = lit ".prof" /\ b = toProf (@nofZ F64 0) ps) \/ (e = lit ".csv" /\ b = toCsv (@nofZ F64 0) ps) \/
  (e = lit ".vtu" /\ b = toVtuAscii big (@nofZ F64 0) (@nofZ F64 1) ps).
