(** * The input files of /repo, loaded *)
From Coq Require Import Reals Lra.
From Verif Require Import LoaderCases Files.
From Verif Require Export GeneratorFiles VtuMissing DialogueFacts SpecGenerator.
Open Scope list_scope.
Open Scope Z_scope.

(** the loaders number the particles themselves, so that the assertion in add cannot fail *)
Lemma prof_rows_dbg dbg rho n : forall s ps, prof_rows dbg rho n s ps = prof_rows false rho n s ps.
Proof.
  induction n as [|n IH]; intros s ps; cbn [prof_rows]; [reflexivity|]. destruct (extract get_int s) as [ty s1]. destruct (extract3 s1) as [pos s2]. destruct (extract3 s2) as [vel s3].
  destruct (stored3 pos) as [x|u| |c| |]; cbn [bind]; try reflexivity. destruct (stored3 vel) as [v|u| |c| |]; cbn [bind]; try reflexivity.
  rewrite !add_next. cbn [bind]. apply IH.
Qed.
Lemma prof_load_dbg dbg rho bytes : prof_load dbg rho bytes = prof_load false rho bytes.
Proof. unfold prof_load. destruct (extract get_double _) as [t s]. destruct (extract get_int s) as [n s1]. now rewrite prof_rows_dbg. Qed.
Lemma csv_rows_dbg ci cd dbg rho h ls : forall v ps, csv_rows ci cd dbg rho h ls v ps = csv_rows ci cd false rho h ls v ps.
Proof.
  induction ls as [|l ls IH]; intros v ps; cbn [csv_rows]; [reflexivity|]. destruct (read_row ci cd h l v) as [w|u| |c| |]; cbn [bind]; try reflexivity.
  destruct (stored3 (cv_x w, cv_y w, cv_z w)) as [x|u| |c| |]; cbn [bind]; try reflexivity. destruct (stored3 (cv_vx w, cv_vy w, cv_vz w)) as [x'|u| |c| |]; cbn [bind]; try reflexivity.
  destruct (Files.stored (cv_dens w)) as [d|u| |c| |]; cbn [bind]; try reflexivity. destruct (Files.stored (cv_type w)) as [ty|u| |c| |]; cbn [bind]; try reflexivity.
  destruct (Files.stored (cv_ftype w)) as [ft|u| |c| |]; cbn [bind]; try reflexivity. rewrite !add_next. cbn [bind]. apply IH.
Qed.
Lemma csv_load_dbg ci cd dbg rho bytes : csv_load ci cd dbg rho bytes = csv_load ci cd false rho bytes.
Proof.
  unfold csv_load. destruct (lines_of bytes []) as [|l1 [|l2 [|l3 rows]]]; try reflexivity. destruct (stod l1) as [t|u| |c| |]; cbn [bind]; try reflexivity.
  destruct (stod l2) as [t'|u| |c| |]; cbn [bind]; try reflexivity. destruct (read_header l3) as [h|u| |c| |]; cbn [bind]; try reflexivity. now rewrite csv_rows_dbg.
Qed.
Lemma vtu_build_dbg dbg rho v n : forall i ps, vtu_build dbg rho v i n ps = vtu_build false rho v i n ps.
Proof.
  induction n as [|n IH]; intros i ps; cbn [vtu_build]; [reflexivity|]. destruct (nth_error (v_pos v) i); [|reflexivity]. rewrite !add_next. cbn [bind]. apply IH.
Qed.
Lemma vtu_load_dbg dbg rho bytes : vtu_load dbg rho bytes = vtu_load false rho bytes.
Proof.
  unfold vtu_load. destruct (any_line _ _ _) as [[|]|u| |c| |]; cbn [bind]; try reflexivity. destruct (vtu_loop _ _ _ _) as [v|u| |c| |]; cbn [bind]; try reflexivity.
  now rewrite vtu_build_dbg.
Qed.
Notation rho1000 := (@nofZ F64 1000).
Lemma dam_prof_b : dam_loaded dam_sites (prof_load false rho1000 (file dambreak_prof)) = true.
Proof. vm_cast_no_check (eq_refl true). Qed.
Lemma hyd_prof_b : hyd_loaded hyd_sites (prof_load false rho1000 (file hydrostatic_prof)) = true.
Proof. vm_cast_no_check (eq_refl true). Qed.
Lemma dam_csv_b : dam_loaded dam_sites (csv_load read_int read_dbl false rho1000 (file dambreak_csv)) = true.
Proof. vm_cast_no_check (eq_refl true). Qed.
Lemma hyd_csv_b : hyd_loaded hyd_sites (csv_load read_int read_dbl false rho1000 (file hydrostatic_csv)) = true.
Proof. vm_cast_no_check (eq_refl true). Qed.
Lemma dam_loads dbg : exists ps, prof_load dbg rho1000 (file dambreak_prof) = Ok (@nofZ F64 0, ps) /\ Forall2 close (built dam_pos 0 dam_sites) ps /\ Forall in_dam_domain ps.
Proof. rewrite prof_load_dbg. apply dam_loaded_ok. exact dam_prof_b. Qed.
Lemma hyd_loads dbg : exists ps, prof_load dbg rho1000 (file hydrostatic_prof) = Ok (@nofZ F64 0, ps) /\ Forall2 close (built hyd_pos 0 hyd_sites) ps /\ Forall in_hyd_domain ps.
Proof. rewrite prof_load_dbg. apply hyd_loaded_ok. exact hyd_prof_b. Qed.
Lemma dam_loads_csv dbg : exists ps, csv_load read_int read_dbl dbg rho1000 (file dambreak_csv) = Ok (@nofZ F64 0, ps) /\ Forall2 close (built dam_pos 0 dam_sites) ps /\ Forall in_dam_domain ps.
Proof. rewrite csv_load_dbg. apply dam_loaded_ok. exact dam_csv_b. Qed.
Lemma hyd_loads_csv dbg : exists ps, csv_load read_int read_dbl dbg rho1000 (file hydrostatic_csv) = Ok (@nofZ F64 0, ps) /\ Forall2 close (built hyd_pos 0 hyd_sites) ps /\ Forall in_hyd_domain ps.
Proof. rewrite csv_load_dbg. apply hyd_loaded_ok. exact hyd_csv_b. Qed.
Definition none_loaded (o : outcome (f64 * list (@Types.particle F64))) : bool := match o with Ok (_, []) => true | _ => false end.
Lemma none_loaded_ok o : none_loaded o = true -> exists t, o = Ok (t, []).
Proof. destruct o as [[t [|p ps]]|u| |c| |]; try discriminate. eauto. Qed.
Lemma dam_vtu_b : none_loaded (vtu_load false rho1000 (file dambreak_vtu)) = true.
Proof. vm_cast_no_check (eq_refl true). Qed.
Lemma hyd_vtu_b : none_loaded (vtu_load false rho1000 (file hydrostatic_vtu)) = true.
Proof. vm_cast_no_check (eq_refl true). Qed.
Lemma dam_vtu dbg : exists t, vtu_load dbg rho1000 (file dambreak_vtu) = Ok (t, []).
Proof. rewrite vtu_load_dbg. apply none_loaded_ok. exact dam_vtu_b. Qed.
Lemma hyd_vtu dbg : exists t, vtu_load dbg rho1000 (file hydrostatic_vtu) = Ok (t, []).
Proof. rewrite vtu_load_dbg. apply none_loaded_ok. exact hyd_vtu_b. Qed.

(** ** Whole runs of the generators *)
Lemma built_length {N : Num} pos k l : List.length (built pos k l) = List.length l.
Proof. revert k. induction l as [|s l IH]; intros k; cbn [built]; [reflexivity|]. cbn. now rewrite IH. Qed.
Lemma dam_exact dbg : exists ps, @dambreak Rnum dbg = Ok ps /\ List.length ps = Z.to_nat 627 /\ fills (multiple (25/1000)) dam_region ps.
Proof. exists (built dam_pos 0 dam_sites). split; [apply dambreak_R|]. split; [rewrite built_length; apply dam_count|apply dam_fills]. Qed.
Lemma hyd_exact dbg : exists ps, @hydrostatic Rnum dbg = Ok ps /\ List.length ps = Z.to_nat 1752 /\ fills (midpoint (12/1000)) hyd_region ps.
Proof. exists (built hyd_pos 0 hyd_sites). split; [apply hydrostatic_R|]. split; [rewrite built_length; apply hyd_count|apply hyd_fills]. Qed.
Lemma dam_float dbg : exists ps qs, @dambreak Rnum dbg = Ok ps /\ @dambreak F64 dbg = Ok qs /\ Forall2 close ps qs.
Proof.
  exists (built dam_pos 0 dam_sites), (built dam_pos 0 dam_sites). split; [apply dambreak_R|]. split; [apply dambreak_F|].
  apply (checks_ok dam_pos (fun i => 25 * i) 1000); [lia|exact dam_frac|exact dam_round].
Qed.
Lemma hyd_float dbg : exists ps qs, @hydrostatic Rnum dbg = Ok ps /\ @hydrostatic F64 dbg = Ok qs /\ Forall2 close ps qs.
Proof.
  exists (built hyd_pos 0 hyd_sites), (built hyd_pos 0 hyd_sites). split; [apply hydrostatic_R|]. split; [apply hydrostatic_F|].
  apply (checks_ok hyd_pos (fun i => 12 * i + 6) 1000); [lia|exact hyd_frac|exact hyd_round].
Qed.
Lemma generate_done big dbg fuel words cwd case particles ps fs :
  particles dbg = Ok ps -> let dir := cwd ++ [lit "input"; lit case] in
  tree fs -> creatable fs dir -> (forall n, fs (dir ++ [n]) = None) \/
    (fs (dir ++ [lit "input.prof"]) <> Some Folder /\ fs (dir ++ [lit "input.vtu"]) <> Some Folder /\ says_yes words /\ (List.length words <= fuel)%nat) ->
  exists fs', generate big dbg fuel words cwd case particles fs = (fs', Ok tt) /\
    fs' (dir ++ [lit "input.prof"]) = Some (File (toProf (@nofZ F64 0) ps)) /\
    fs' (dir ++ [lit "input.vtu"]) = Some (File (toVtuAscii big (@nofZ F64 0) (@nofZ F64 1) ps)) /\
    forall p, p <> dir ++ [lit "input.prof"] -> p <> dir ++ [lit "input.vtu"] -> fs' p = fs p \/ (fs p = None /\ fs' p = Some Folder /\ exists q, dir = p ++ q).
Proof.
  intros P dir T C Y. unfold generate, after at 1, ret at 1. rewrite P. fold dir. set (exts := [lit ".prof"; lit ".vtu"]).
  assert (K : Forall known exts) by (repeat constructor; unfold known; auto).
  assert (NE : exts <> []) by discriminate.
  assert (X : forall p, target dir exts p -> p = dir ++ [lit "input.prof"] \/ p = dir ++ [lit "input.vtu"]).
  { intros p (e & [<-|[<-|[]]] & ->); [left|right]; reflexivity. }
  destruct (dialogue_done big ps fuel words dir exts fs T NE K C) as (fs' & H).
  - intros p Tp. destruct Y as [Y|(Y1 & Y2 & _)]; [|destruct (X p Tp) as [->| ->]; assumption]. destruct (X p Tp) as [->| ->]; rewrite Y; discriminate.
  - destruct Y as [Y|(Y1 & Y2 & Y3)]; [left|right; exact Y3]. intros p Tp. destruct (X p Tp) as [->| ->]; apply Y.
  - exists fs'. split; [exact H|]. pose proof (dialogue_written big ps fuel words dir exts fs fs' T H) as [_ W].
    assert (WP := Forall_inv W). assert (WV := Forall_inv (Forall_inv_tail W)). cbv beta in WP, WV. destruct WP as (_ & b & E & S). destruct WV as (_ & b' & E' & S').
    split; [|split].
    + destruct E as [(_ & ->)|[(Q & _)|(Q & _)]]; [exact S|vm_compute in Q; discriminate..].
    + destruct E' as [(Q & _)|[(Q & _)|(_ & ->)]]; [vm_compute in Q; discriminate..|exact S'].
    + intros p N1 N2. destruct (dialogue_changes big ps fuel words dir exts fs fs' (Ok tt) p T H) as [S1|[S1|(_ & Tp & _)]]; [auto|auto|]. destruct (X p Tp); contradiction.
Qed.
Lemma tree_put fs p n e : tree fs -> fs p = Some Folder -> fs (p ++ [n]) = None -> tree (put fs (p ++ [n]) e).
Proof.
  intros [R T] F N. split.
  - rewrite put_other; [exact R|]. now destruct p.
  - intros q m H. assert (Q : q <> p ++ [n] \/ q = p ++ [n]) by (destruct (path_dec q (p ++ [n])); auto). destruct Q as [Q|Q].
    + rewrite put_other by exact Q. destruct (path_dec (q ++ [m]) (p ++ [n])) as [E|D]; [apply app_inj_tail in E as [-> ->]; exact F|]. rewrite put_other in H by exact D. exact (T q m H).
    + subst q. exfalso. rewrite put_other in H; [|intros E; apply (f_equal (@List.length _)) in E; rewrite app_length in E; cbn in E; lia]. apply T in H. congruence.
Qed.
Definition blank_disk : filesystem := put (fun _ => None) [] Folder.
Lemma blank_tree : tree blank_disk.
Proof. split; [reflexivity|]. intros p n H. exfalso. apply H. unfold blank_disk. rewrite put_other by (now destruct p). reflexivity. Qed.
(** an input directory with an older input.prof *)
Definition old_dir : path := [lit "input"; lit "dambreak"].
Definition old_disk : filesystem := put (put (put blank_disk [lit "input"] Folder) old_dir Folder) (old_dir ++ [lit "input.prof"]) (File (lit "old")).
Lemma old_tree : tree old_disk.
Proof.
  apply (tree_put _ old_dir); [|reflexivity|reflexivity]. change old_dir with ([lit "input"] ++ [lit "dambreak"]).
  apply tree_put; [|reflexivity|reflexivity]. change [lit "input"] with ([] ++ [lit "input"]) at 1. apply tree_put; [exact blank_tree|reflexivity|reflexivity].
Qed.
Lemma old_creatable : creatable old_disk old_dir.
Proof.
  intros p q b E. destruct p as [|a p]; [vm_compute; discriminate|]. injection E as <- E. destruct p as [|c p]; [vm_compute; discriminate|]. injection E as <- E.
  destruct p as [|d p]; [vm_compute; discriminate|discriminate].
Qed.
Lemma old_target : target old_dir [lit ".prof"; lit ".vtu"] (old_dir ++ [lit "input.prof"]).
Proof. exists (lit ".prof"). split; [now left|reflexivity]. Qed.
Lemma two_known : Forall known [lit ".prof"; lit ".vtu"].
Proof. constructor; [left; reflexivity|constructor; [right; left; reflexivity|constructor]]. Qed.
Lemma eof_case : exists words dir exts fs, tree fs /\ Forall known exts /\ forall fuel, snd (generatorDialogue false fuel words dir [] exts fs) = Diverge.
Proof.
  exists [lit "yes"], old_dir, [lit ".prof"; lit ".vtu"], old_disk. split; [exact old_tree|]. split; [exact two_known|]. intros fuel.
  rewrite (dialogue_eof false [] fuel [lit "yes"] old_dir [lit ".prof"; lit ".vtu"] old_disk (old_dir ++ [lit "input.prof"])); [reflexivity|discriminate|exact two_known|exact old_tree|exact old_target|vm_compute; discriminate|].
  constructor; [|constructor]. vm_compute. intuition discriminate.
Qed.
Lemma what_other : ~ In (lit "what") (map lit ["n"; "N"; "y"; "Y"]%string).
Proof. vm_compute. intuition discriminate. Qed.
Lemma what_yes : says_yes [lit "what"; lit "Y"].
Proof. exists [lit "what"], (lit "Y"), []. split; [reflexivity|]. split; [now right|]. constructor; [exact what_other|constructor]. Qed.
Lemma old_case : tree old_disk /\ creatable old_disk old_dir /\
  let exts := [lit ".prof"; lit ".vtu"] in exts <> [] /\ Forall known exts /\
  target old_dir exts (old_dir ++ [lit "input.prof"]) /\ old_disk (old_dir ++ [lit "input.prof"]) = Some (File (lit "old")) /\
  says_yes [lit "what"; lit "Y"] /\ says_no [lit "what"; lit "n"; lit "y"] /\ says_neither [lit "yes"; lit "no"] /\
  (exists fs', generatorDialogue false 2 [lit "what"; lit "Y"] old_dir [] exts old_disk = (fs', Ok tt) /\ fs' (old_dir ++ [lit "input.prof"]) <> Some (File (lit "old"))).
Proof.
  split; [exact old_tree|]. split; [exact old_creatable|]. cbv zeta. split; [discriminate|]. split; [exact two_known|]. split; [exact old_target|]. split; [reflexivity|].
  split; [exact what_yes|]. split; [exists [lit "what"], (lit "n"), [lit "y"]; split; [reflexivity|]; split; [now left|]; constructor; [exact what_other|constructor]|].
  split; [repeat (constructor; [vm_compute; intuition discriminate|]); constructor|].
  eexists. split; [reflexivity|]. vm_compute. discriminate.
Qed.
Lemma old_run_case : tree old_disk /\ creatable old_disk ([] ++ [lit "input"; lit "dambreak"]) /\
  old_disk ([] ++ [lit "input"; lit "dambreak"] ++ [lit "input.prof"]) = Some (File (lit "old")) /\
  old_disk ([] ++ [lit "input"; lit "dambreak"] ++ [lit "input.vtu"]) = None /\ says_yes [lit "what"; lit "Y"].
Proof. split; [exact old_tree|]. split; [exact old_creatable|]. split; [reflexivity|]. split; [reflexivity|exact what_yes]. Qed.
Lemma dam_run big dbg fuel words cwd fs : let dir := cwd ++ [lit "input"; lit "dambreak"] in
  tree fs -> creatable fs dir -> (forall n, fs (dir ++ [n]) = None) \/
    (fs (dir ++ [lit "input.prof"]) <> Some Folder /\ fs (dir ++ [lit "input.vtu"]) <> Some Folder /\ says_yes words /\ (List.length words <= fuel)%nat) ->
  exists fs' qs, generate big dbg fuel words cwd "dambreak" (@dambreak F64) fs = (fs', Ok tt) /\ @dambreak F64 dbg = Ok qs /\
    fs' (dir ++ [lit "input.prof"]) = Some (File (file dambreak_prof)) /\
    fs' (dir ++ [lit "input.vtu"]) = Some (File (toVtuAscii big (@nofZ F64 0) (@nofZ F64 1) qs)) /\
    forall p, p <> dir ++ [lit "input.prof"] -> p <> dir ++ [lit "input.vtu"] -> fs' p = fs p \/ (fs p = None /\ fs' p = Some Folder /\ exists q, dir = p ++ q).
Proof.
  intros dir T C Y. destruct (generate_done big dbg fuel words cwd "dambreak" (@dambreak F64) _ fs (dambreak_F dbg) T C Y) as (fs' & H & P & V & O).
  exists fs', (built dam_pos 0 dam_sites). split; [exact H|]. split; [apply dambreak_F|]. split; [|split; [exact V|exact O]]. rewrite <- dam_file. exact P.
Qed.
Lemma hyd_run big dbg fuel words cwd fs : let dir := cwd ++ [lit "input"; lit "hydrostatic"] in
  tree fs -> creatable fs dir -> (forall n, fs (dir ++ [n]) = None) \/
    (fs (dir ++ [lit "input.prof"]) <> Some Folder /\ fs (dir ++ [lit "input.vtu"]) <> Some Folder /\ says_yes words /\ (List.length words <= fuel)%nat) ->
  exists fs' qs, generate big dbg fuel words cwd "hydrostatic" (@hydrostatic F64) fs = (fs', Ok tt) /\ @hydrostatic F64 dbg = Ok qs /\
    fs' (dir ++ [lit "input.prof"]) = Some (File (file hydrostatic_prof)) /\
    fs' (dir ++ [lit "input.vtu"]) = Some (File (toVtuAscii big (@nofZ F64 0) (@nofZ F64 1) qs)) /\
    forall p, p <> dir ++ [lit "input.prof"] -> p <> dir ++ [lit "input.vtu"] -> fs' p = fs p \/ (fs p = None /\ fs' p = Some Folder /\ exists q, dir = p ++ q).
Proof.
  intros dir T C Y. destruct (generate_done big dbg fuel words cwd "hydrostatic" (@hydrostatic F64) _ fs (hydrostatic_F dbg) T C Y) as (fs' & H & P & V & O).
  exists fs', (built hyd_pos 0 hyd_sites). split; [exact H|]. split; [apply hydrostatic_F|]. split; [|split; [exact V|exact O]]. rewrite <- hyd_file. exact P.
Qed.
Lemma shipped_prof dbg :
  (exists ps qs, @dambreak Rnum dbg = Ok ps /\ prof_load dbg rho1000 (file dambreak_prof) = Ok (@nofZ F64 0, qs) /\ Forall2 close ps qs /\ Forall in_dam_domain qs) /\
  (exists ps qs, @hydrostatic Rnum dbg = Ok ps /\ prof_load dbg rho1000 (file hydrostatic_prof) = Ok (@nofZ F64 0, qs) /\ Forall2 close ps qs /\ Forall in_hyd_domain qs).
Proof.
  split; eexists; [destruct (dam_loads dbg) as (qs & H)|destruct (hyd_loads dbg) as (qs & H)]; exists qs; (split; [|exact H]); [apply dambreak_R|apply hydrostatic_R].
Qed.
Lemma shipped_csv dbg :
  (exists ps qs, @dambreak Rnum dbg = Ok ps /\ csv_load read_int read_dbl dbg rho1000 (file dambreak_csv) = Ok (@nofZ F64 0, qs) /\ Forall2 close ps qs /\ Forall in_dam_domain qs) /\
  (exists ps qs, @hydrostatic Rnum dbg = Ok ps /\ csv_load read_int read_dbl dbg rho1000 (file hydrostatic_csv) = Ok (@nofZ F64 0, qs) /\ Forall2 close ps qs /\ Forall in_hyd_domain qs).
Proof.
  split; eexists; [destruct (dam_loads_csv dbg) as (qs & H)|destruct (hyd_loads_csv dbg) as (qs & H)]; exists qs; (split; [|exact H]); [apply dambreak_R|apply hydrostatic_R].
Qed.
Lemma shipped_vtu : exists bytes t qs, bytes = file dambreak_vtu /\ vtu_load true rho1000 bytes = Ok (t, []) /\
  prof_load true rho1000 (file dambreak_prof) = Ok (@nofZ F64 0, qs) /\ List.length qs = Z.to_nat 627.
Proof.
  destruct (dam_vtu true) as (t & H). destruct (dam_loads true) as (qs & P & F & _). exists (file dambreak_vtu), t, qs. split; [reflexivity|]. split; [exact H|]. split; [exact P|].
  apply Forall2_length in F. rewrite <- F, built_length. apply dam_count.
Qed.
Definition only_positions : list string := ["<DataArray Name='Position' format='ascii'>"; "1 2 0"; "</DataArray>"]%string.
Definition one_ghost (o : outcome (f64 * list (@Types.particle F64))) : bool := match o with Ok (_, [p]) => p_type p =? Ghost | _ => false end.
Lemma one_ghost_ok o : one_ghost o = true -> exists t p, o = Ok (t, [p]) /\ p_type p = Ghost.
Proof. destruct o as [[t [|p [|q ps]]]|u| |c| |]; try discriminate. intros H. apply Z.eqb_eq in H. eauto. Qed.
Lemma only_positions_case : exists t p, vtu_load true rho1000 (lines_text (map lit only_positions)) = Ok (t, [p]) /\ p_type p = Ghost.
Proof. apply one_ghost_ok. vm_cast_no_check (eq_refl true). Qed.
