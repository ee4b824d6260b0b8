(** * Properties C47, C48, C60: the input generators and the shipped input files

    Vocabulary: [SpecGenerator].  tree: a file system in which every entry is in a
    directory; target dir exts p: p is dir/input.ext for one of the extensions; says_yes,
    says_no: the first answer among y, Y, n, N is yes, is no; exported: the text the
    exporter writes for an extension at time 0; fills grid region ps: ps has exactly one
    particle on each grid point of the region, of the type the region says, numbered in
    order, at rest; close: the same particle with binary64 coordinates off by at most
    1e-15; file l: the file with the lines l.  [Shipped] holds the files of /repo/input. *)
From Coq Require Import Reals Lra String.
From Verif Require Import LoaderCases GeneratorCases.
Open Scope list_scope.
Open Scope Z_scope.

(** C47: whatever the answers, the file system and the outcome, an entry changes only if it
    is a directory on the way to [dir] that was missing, or a target that was missing or
    that the user agreed to overwrite; it then holds the exported particles *)
Theorem C47_changes big fuel words dir ps exts fs fs' o p : tree fs ->
  generatorDialogue big fuel words dir ps exts fs = (fs', o) ->
  fs' p = fs p \/
  (fs p = None /\ fs' p = Some Folder /\ exists q, dir = p ++ q) \/
  (Forall known exts /\ target dir exts p /\ fs p <> Some Folder /\ (fs p = None \/ says_yes words) /\
   exists e b, In e exts /\ p = dir ++ [lit "input" ++ e] /\ exported big ps e b /\ fs' p = Some (File b)).
Proof. exact (dialogue_changes big ps fuel words dir exts fs fs' o p). Qed.
Theorem C47_written big fuel words dir ps exts fs fs' : tree fs ->
  generatorDialogue big fuel words dir ps exts fs = (fs', Ok tt) ->
  exts <> [] /\ Forall (fun e => known e /\ exists b, exported big ps e b /\ fs' (dir ++ [lit "input" ++ e]) = Some (File b)) exts.
Proof. exact (dialogue_written big ps fuel words dir exts fs fs'). Qed.
Theorem C47_completes big fuel words dir ps exts fs : tree fs -> exts <> [] -> Forall known exts -> creatable fs dir ->
  (forall p, target dir exts p -> fs p <> Some Folder) ->
  (forall p, target dir exts p -> fs p = None) \/ (says_yes words /\ (List.length words <= fuel)%nat) ->
  exists fs', generatorDialogue big fuel words dir ps exts fs = (fs', Ok tt).
Proof. exact (dialogue_done big ps fuel words dir exts fs). Qed.
Theorem C47_cancelled big fuel words dir ps exts fs p : exts <> [] -> Forall known exts -> tree fs ->
  target dir exts p -> fs p <> None -> says_no words -> (List.length words <= fuel)%nat ->
  generatorDialogue big fuel words dir ps exts fs = (fs, Exit 0).
Proof. exact (dialogue_no big ps fuel words dir exts fs p). Qed.
Theorem C47_bad_extension big fuel words dir ps exts fs : exts = [] \/ ~ Forall known exts ->
  generatorDialogue big fuel words dir ps exts fs = (fs, Exit 0).
Proof. exact (dialogue_refused big ps fuel words dir exts fs). Qed.
Theorem C47_not_a_directory big fuel words dir ps exts fs b : tree fs -> exts <> [] -> Forall known exts ->
  fs dir = Some (File b) -> generatorDialogue big fuel words dir ps exts fs = (fs, Exit (-1)).
Proof. exact (dialogue_not_folder big ps fuel words dir exts fs b). Qed.
(** the question is repeated for ever when the input ends without an answer *)
Theorem C47_no_answer big fuel words dir ps exts fs p : exts <> [] -> Forall known exts -> tree fs ->
  target dir exts p -> fs p <> None -> says_neither words ->
  generatorDialogue big fuel words dir ps exts fs = (fs, Diverge).
Proof. exact (dialogue_eof big ps fuel words dir exts fs p). Qed.
Theorem C47_terminates_refuted : exists words dir exts fs, tree fs /\ Forall known exts /\
  forall fuel, snd (generatorDialogue false fuel words dir [] exts fs) = Diverge.
Proof. exact eof_case. Qed.
(** the hypotheses: a directory with an older input.prof *)
Example C47_case : tree old_disk /\ creatable old_disk old_dir /\
  let exts := [lit ".prof"; lit ".vtu"] in exts <> [] /\ Forall known exts /\
  target old_dir exts (old_dir ++ [lit "input.prof"]) /\ old_disk (old_dir ++ [lit "input.prof"]) = Some (File (lit "old")) /\
  says_yes [lit "what"; lit "Y"] /\ says_no [lit "what"; lit "n"; lit "y"] /\ says_neither [lit "yes"; lit "no"] /\
  (exists fs', generatorDialogue false 2 [lit "what"; lit "Y"] old_dir [] exts old_disk = (fs', Ok tt) /\ fs' (old_dir ++ [lit "input.prof"]) <> Some (File (lit "old"))).
Proof. exact old_case. Qed.
Print Assumptions C47_changes.
Print Assumptions C47_written.
Print Assumptions C47_completes.
Print Assumptions C47_cancelled.
Print Assumptions C47_bad_extension.
Print Assumptions C47_not_a_directory.
Print Assumptions C47_no_answer.
Print Assumptions C47_terminates_refuted.

(** C48 in exact arithmetic: the particles are the grid points of the intended shapes *)
Theorem C48_dambreak dbg : exists ps, @dambreak Rnum dbg = Ok ps /\ List.length ps = Z.to_nat 627 /\ fills (multiple (25/1000)) dam_region ps.
Proof. exact (dam_exact dbg). Qed.
Theorem C48_hydrostatic dbg : exists ps, @hydrostatic Rnum dbg = Ok ps /\ List.length ps = Z.to_nat 1752 /\ fills (midpoint (12/1000)) hyd_region ps.
Proof. exact (hyd_exact dbg). Qed.
Print Assumptions C48_dambreak.
Print Assumptions C48_hydrostatic.
(** C48 in binary64: the same particles up to 1e-15 m *)
Theorem C48_dambreak_float dbg : exists ps qs, @dambreak Rnum dbg = Ok ps /\ @dambreak F64 dbg = Ok qs /\ Forall2 close ps qs.
Proof. exact (dam_float dbg). Qed.
Theorem C48_hydrostatic_float dbg : exists ps qs, @hydrostatic Rnum dbg = Ok ps /\ @hydrostatic F64 dbg = Ok qs /\ Forall2 close ps qs.
Proof. exact (hyd_float dbg). Qed.
Print Assumptions C48_dambreak_float.
Print Assumptions C48_hydrostatic_float.
(** C48: a run of the generator writes the shipped input.prof, byte for byte *)
Theorem C48_dambreak_run big dbg fuel words cwd fs : let dir := cwd ++ [lit "input"; lit "dambreak"] in
  tree fs -> creatable fs dir -> (forall n, fs (dir ++ [n]) = None) \/
    (fs (dir ++ [lit "input.prof"]) <> Some Folder /\ fs (dir ++ [lit "input.vtu"]) <> Some Folder /\ says_yes words /\ (List.length words <= fuel)%nat) ->
  exists fs' qs, generate big dbg fuel words cwd "dambreak" (@dambreak F64) fs = (fs', Ok tt) /\ @dambreak F64 dbg = Ok qs /\
    fs' (dir ++ [lit "input.prof"]) = Some (File (file dambreak_prof)) /\
    fs' (dir ++ [lit "input.vtu"]) = Some (File (toVtuAscii big (@nofZ F64 0) (@nofZ F64 1) qs)) /\
    forall p, p <> dir ++ [lit "input.prof"] -> p <> dir ++ [lit "input.vtu"] -> fs' p = fs p \/ (fs p = None /\ fs' p = Some Folder /\ exists q, dir = p ++ q).
Proof. exact (dam_run big dbg fuel words cwd fs). Qed.
Theorem C48_hydrostatic_run big dbg fuel words cwd fs : let dir := cwd ++ [lit "input"; lit "hydrostatic"] in
  tree fs -> creatable fs dir -> (forall n, fs (dir ++ [n]) = None) \/
    (fs (dir ++ [lit "input.prof"]) <> Some Folder /\ fs (dir ++ [lit "input.vtu"]) <> Some Folder /\ says_yes words /\ (List.length words <= fuel)%nat) ->
  exists fs' qs, generate big dbg fuel words cwd "hydrostatic" (@hydrostatic F64) fs = (fs', Ok tt) /\ @hydrostatic F64 dbg = Ok qs /\
    fs' (dir ++ [lit "input.prof"]) = Some (File (file hydrostatic_prof)) /\
    fs' (dir ++ [lit "input.vtu"]) = Some (File (toVtuAscii big (@nofZ F64 0) (@nofZ F64 1) qs)) /\
    forall p, p <> dir ++ [lit "input.prof"] -> p <> dir ++ [lit "input.vtu"] -> fs' p = fs p \/ (fs p = None /\ fs' p = Some Folder /\ exists q, dir = p ++ q).
Proof. exact (hyd_run big dbg fuel words cwd fs). Qed.
Example C48_run_case : tree old_disk /\ creatable old_disk ([] ++ [lit "input"; lit "dambreak"]) /\
  old_disk ([] ++ [lit "input"; lit "dambreak"] ++ [lit "input.prof"]) = Some (File (lit "old")) /\
  old_disk ([] ++ [lit "input"; lit "dambreak"] ++ [lit "input.vtu"]) = None /\ says_yes [lit "what"; lit "Y"].
Proof. exact old_run_case. Qed.
Print Assumptions C48_dambreak_run.
Print Assumptions C48_hydrostatic_run.
(** C48: the shipped files load as these particles, inside the domain of their settings *)
Theorem C48_shipped_prof dbg :
  (exists ps qs, @dambreak Rnum dbg = Ok ps /\ prof_load dbg (@nofZ F64 1000) (file dambreak_prof) = Ok (@nofZ F64 0, qs) /\ Forall2 close ps qs /\ Forall in_dam_domain qs) /\
  (exists ps qs, @hydrostatic Rnum dbg = Ok ps /\ prof_load dbg (@nofZ F64 1000) (file hydrostatic_prof) = Ok (@nofZ F64 0, qs) /\ Forall2 close ps qs /\ Forall in_hyd_domain qs).
Proof. exact (shipped_prof dbg). Qed.
Theorem C48_shipped_csv dbg :
  (exists ps qs, @dambreak Rnum dbg = Ok ps /\ csv_load read_int read_dbl dbg (@nofZ F64 1000) (file dambreak_csv) = Ok (@nofZ F64 0, qs) /\ Forall2 close ps qs /\ Forall in_dam_domain qs) /\
  (exists ps qs, @hydrostatic Rnum dbg = Ok ps /\ csv_load read_int read_dbl dbg (@nofZ F64 1000) (file hydrostatic_csv) = Ok (@nofZ F64 0, qs) /\ Forall2 close ps qs /\ Forall in_hyd_domain qs).
Proof. exact (shipped_csv dbg). Qed.
Print Assumptions C48_shipped_prof.
Print Assumptions C48_shipped_csv.

(** C60: a VTU file without one of the arrays is not rejected: no positions, no particles;
    no types, all of them ghosts *)
Theorem C60_missing_arrays dbg rho bytes t ps : vtu_load dbg rho bytes = Ok (t, ps) ->
  (~ mentions bytes "Position" -> ps = []) /\ (~ mentions bytes "Velocity" -> Forall (fun p : @Types.particle F64 => p_vel p = vzero) ps) /\
  (~ mentions bytes "Particle Type" -> Forall (fun p : @Types.particle F64 => p_type p = Ghost) ps) /\ (~ mentions bytes "Fluid Type" -> Forall (fun p : @Types.particle F64 => p_fluidType p = 0) ps) /\
  (~ mentions bytes "Density" -> Forall (fun p : @Types.particle F64 => p_dens p = rho) ps).
Proof. exact (load_lacking dbg rho bytes t ps). Qed.
Example C60_missing_case : exists t p, vtu_load true (@nofZ F64 1000) (lines_text (map lit only_positions)) = Ok (t, [p]) /\ p_type p = Ghost.
Proof. exact only_positions_case. Qed.
(** the shipped VTU files are such files *)
Theorem C60_shipped_vtu_refuted : exists bytes t qs, bytes = file dambreak_vtu /\ vtu_load true (@nofZ F64 1000) bytes = Ok (t, []) /\
  prof_load true (@nofZ F64 1000) (file dambreak_prof) = Ok (@nofZ F64 0, qs) /\ List.length qs = Z.to_nat 627.
Proof. exact shipped_vtu. Qed.
Theorem C60_shipped_vtu_empty dbg : (exists t, vtu_load dbg (@nofZ F64 1000) (file dambreak_vtu) = Ok (t, [])) /\
  (exists t, vtu_load dbg (@nofZ F64 1000) (file hydrostatic_vtu) = Ok (t, [])).
Proof. exact (conj (dam_vtu dbg) (hyd_vtu dbg)). Qed.
Print Assumptions C60_missing_arrays.
Print Assumptions C60_shipped_vtu_refuted.
Print Assumptions C60_shipped_vtu_empty.
