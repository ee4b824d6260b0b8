(** * Concrete runs that are run again from one of their outputs *)
From Coq Require Import Reals String.
From Verif Require Import FloatFacts FilesFacts LoaderCases GeneratorFiles StepCasesF SimCases.
From Verif Require Export SpecRestart ResumeFiles.
Open Scope list_scope.
Open Scope Z_scope.

Definition conf_fall : node := LoaderCases.conf "0.25" "0.25" "0.75" "0.25" "40" "50" "Explicit" "./in.prof" "3".
Definition parse_fall (b : list ascii) : option node := if text_eqb b (lit "fall") then Some conf_fall else None.
Definition case_world (input : list ascii) : filesystem :=
  disk [([], Folder); ([lit "home"], Folder); (case_dir, Folder); (out_dir, Folder); (setting_path, File (lit "fall")); (particle_path, File input)].
Definition fall (dbg : bool) : filesystem -> filesystem * outcome (@sim F64) :=
  program parse_fall read_int read_dbl read_bool read_int read_dbl fid fid c20 false dbg solver0 0 tickF 10 setting_path out_dir.
(** output [n] of a completed run *)
Definition outputN (r : filesystem * outcome (@sim F64)) (n : nat) : option (@output F64) :=
  match snd r with Ok st => nth_error (si_out st) n | _ => None end.
Definition input_of (o : @output F64) : list ascii := toProf (o_time o) (m_ps (o_mps o)).

Definition same3 (v w : @vec F64) : bool := f64_eqb (vx v) (vx w) && f64_eqb (vy v) (vy w) && f64_eqb (vz v) (vz w).
Lemma same3_iff v w : same3 v w = true -> w = v.
Proof.
  unfold same3. intros H. apply andb_true_iff in H as (H & C). apply andb_true_iff in H as (A & B). apply f64_eqb_eq in A, B, C. destruct v as [a b c], w as [a' b' c']. cbn [vx vy vz] in *. congruence.
Qed.
(** what is read from the file of an output is what was written *)
Fixpoint same_places (ps qs : list Files.particle) : bool :=
  match ps, qs with
  | [], [] => true
  | p :: ps', q :: qs' => same3 (p_pos p) (p_pos q) && same3 (p_vel p) (p_vel q) && same_places ps' qs'
  | _, _ => false
  end.
Definition lossless (o : @output F64) : bool :=
  is_finite (o_time o : f64) && forallb LoaderCases.fine (m_ps (o_mps o)) && (Z.of_nat (List.length (m_ps (o_mps o))) <=? int_max) &&
  match prof_load false c00 (input_of o) with
  | Ok (t, ps) => f64_eqb (o_time o) t && same_places (m_ps (o_mps o)) ps
  | _ => false
  end.
Lemma lossless_iff o : lossless o = true -> exact (o_time o) /\ Forall printable (m_ps (o_mps o)) /\ Z.of_nat (List.length (m_ps (o_mps o))) <= int_max.
Proof.
  unfold lossless. intros H. apply andb_true_iff in H as (H & D). apply andb_true_iff in H as (H & C). apply andb_true_iff in H as (A & B). apply Z.leb_le in C. apply fine_writable in B.
  destruct (prof_round_trip false c00 (o_time o) (m_ps (o_mps o)) A B C) as (t & ps & E & T & L & R). unfold input_of in D. rewrite E in D. apply andb_true_iff in D as (D1 & D2). apply f64_eqb_eq in D1. subst t.
  split; [exact T|]. split; [|exact C]. clear - B D2 R. apply Forall_forall. intros p IP. rewrite Forall_forall in B. split; [now apply B|].
  assert (K : forall l l', same_places l l' = true -> forall i a b, nth_error l i = Some a -> nth_error l' i = Some b -> p_pos b = p_pos a /\ p_vel b = p_vel a).
  { induction l as [|x l IH]; intros [|y l'] S [|i] a b X Y; try discriminate; cbn [same_places nth_error] in *; apply andb_true_iff in S as (S & S3); apply andb_true_iff in S as (S1 & S2).
    - injection X as ->. injection Y as ->. split; now apply same3_iff.
    - eapply IH; eauto. }
  apply In_nth_error in IP. destruct IP as [i P]. destruct (R i p P) as (pos & vel & d & Q & X & Y & _). destruct (K _ _ D2 i _ _ P Q) as (E1 & E2). cbn in E1, E2. rewrite E1 in X. rewrite E2 in Y. split; [exact X|exact Y].
Qed.

(** two drops falling for three steps; printed without loss *)
Definition drops : list ascii := lines_text [lit "0"; lit "2"; lit "1 10 40 0 1 0 0"; lit "1 20 40.5 0 -0.5 0.25 0"].
Lemma ltF_irrefl (x : f64) : @nlt F64 x x = false.
Proof.
  cbn [nlt F64]. unfold Bltb, SpecFloat.SFltb. destruct x as [b|[]| |b m e h]; cbn; auto.
  destruct b; cbn; rewrite Z.compare_refl, Pos.compare_cont_refl; reflexivity.
Qed.
Section Go.
Variable go : filesystem -> filesystem * outcome (@sim F64).
Definition again_ok (input : list ascii) (n : nat) : bool :=
  let r := go (case_world input) in
  match snd r, outputN r n with
  | Ok st, Some o => lossless o && is_file (fst r) (outputPath out_dir "prof" (o_number o)) (input_of o) &&
      match snd (go (case_world (input_of o))) with Ok st2 => (0 <? si_step st2) && (0 <? o_step o) | _ => false end
  | _, _ => false
  end.
Lemma again_iff input n : again_ok input n = true -> exists fs' st o fs2' st2,
  go (case_world input) = (fs', Ok st) /\ In o (si_out st) /\ exact (o_time o) /\ Forall printable (m_ps (o_mps o)) /\ Z.of_nat (List.length (m_ps (o_mps o))) <= int_max /\
  case_world (input_of o) particle_path = fs' (outputPath out_dir "prof" (o_number o)) /\ go (case_world (input_of o)) = (fs2', Ok st2) /\ 0 < o_step o /\ 0 < si_step st2.
Proof.
  unfold again_ok, outputN. cbv zeta. destruct (go (case_world input)) as [fs' x]. cbn [fst snd]. destruct x as [st| | | | |]; try discriminate. destruct (nth_error (si_out st) n) as [o|] eqn:E; [|discriminate].
  intros H. apply andb_true_iff in H as (H & C). apply andb_true_iff in H as (A & B). destruct (go (case_world (input_of o))) as [fs2' y] eqn:F2. cbn [snd] in C. destruct y as [st2| | | | |]; try discriminate.
  apply andb_true_iff in C as (C1 & C2). apply Z.ltb_lt in C1, C2. apply lossless_iff in A as (A1 & A2 & A3). apply is_file_iff in B.
  exists fs', st, o, fs2', st2. split; [reflexivity|]. split; [now apply nth_error_In in E|]. split; [exact A1|]. split; [exact A2|]. split; [exact A3|]. split; [rewrite B; reflexivity|]. split; [exact F2|]. split; [exact C2|exact C1].
Qed.
(** an output from which the program does not even run *)
Definition aborts (r : filesystem * outcome (@sim F64)) : bool := match snd r with AssertFail => true | _ => false end.
Definition lost_ok (input : list ascii) (n : nat) : bool :=
  let r := go (case_world input) in
  match snd r, outputN r n with
  | Ok st, Some o => is_finite (o_time o : f64) && forallb LoaderCases.fine (m_ps (o_mps o)) && is_file (fst r) (outputPath out_dir "prof" (o_number o)) (input_of o) && aborts (go (case_world (input_of o)))
  | _, _ => false
  end.
Lemma lost_iff input n : lost_ok input n = true -> exists fs' st o,
  go (case_world input) = (fs', Ok st) /\ In o (si_out st) /\ finite (o_time o) /\ Forall writable (m_ps (o_mps o)) /\
  case_world (input_of o) particle_path = fs' (outputPath out_dir "prof" (o_number o)) /\ snd (go (case_world (input_of o))) = AssertFail.
Proof.
  unfold lost_ok, outputN, aborts. cbv zeta. destruct (go (case_world input)) as [fs' x]. cbn [fst snd]. destruct x as [st| | | | |]; try discriminate. destruct (nth_error (si_out st) n) as [o|] eqn:E; [|discriminate].
  intros H. apply andb_true_iff in H as (H & C). apply andb_true_iff in H as (H & B). apply andb_true_iff in H as (H & A). apply is_file_iff in B. apply fine_writable in A.
  exists fs', st, o. split; [reflexivity|]. split; [now apply nth_error_In in E|]. split; [exact H|]. split; [exact A|]. split; [rewrite B; reflexivity|]. destruct (snd (go (case_world (input_of o)))); try discriminate. reflexivity.
Qed.
(** an output from which the program ends elsewhere *)
Definition first_x (st : @sim F64) : option f64 := match m_ps (si_mps st) with p :: _ => Some (vx (p_pos p)) | [] => None end.
Definition elsewhere (input : list ascii) (n : nat) : bool :=
  let r := go (case_world input) in
  match snd r, outputN r n with
  | Ok st, Some o => is_finite (o_time o : f64) && forallb LoaderCases.fine (m_ps (o_mps o)) && is_file (fst r) (outputPath out_dir "prof" (o_number o)) (input_of o) &&
      match snd (go (case_world (input_of o))) with
      | Ok st2 => f64_eqb (si_time st) (si_time st2) && match first_x st, first_x st2 with Some x, Some y => @nlt F64 x y | _, _ => false end
      | _ => false
      end
  | _, _ => false
  end.
Lemma elsewhere_iff input n : elsewhere input n = true -> exists fs' st o fs2' st2,
  go (case_world input) = (fs', Ok st) /\ In o (si_out st) /\ finite (o_time o) /\ Forall writable (m_ps (o_mps o)) /\
  case_world (input_of o) particle_path = fs' (outputPath out_dir "prof" (o_number o)) /\ go (case_world (input_of o)) = (fs2', Ok st2) /\
  si_time st = si_time st2 /\ map p_pos (m_ps (si_mps st2)) <> map p_pos (m_ps (si_mps st)).
Proof.
  unfold elsewhere, outputN. cbv zeta. destruct (go (case_world input)) as [fs' x]. cbn [fst snd]. destruct x as [st| | | | |]; try discriminate. destruct (nth_error (si_out st) n) as [o|] eqn:E; [|discriminate].
  intros H. apply andb_true_iff in H as (H & C). apply andb_true_iff in H as (H & B). apply andb_true_iff in H as (H & A). apply is_file_iff in B. apply fine_writable in A.
  destruct (go (case_world (input_of o))) as [fs2' y] eqn:F2. cbn [snd] in C. destruct y as [st2| | | | |]; try discriminate. apply andb_true_iff in C as (C1 & C2). apply f64_eqb_eq in C1.
  exists fs', st, o, fs2', st2. split; [reflexivity|]. split; [now apply nth_error_In in E|]. split; [exact H|]. split; [exact A|]. split; [rewrite B; reflexivity|]. split; [exact F2|]. split; [exact C1|].
  unfold first_x in C2. destruct (m_ps (si_mps st)) as [|p l]; [discriminate|]. destruct (m_ps (si_mps st2)) as [|q l']; [discriminate|]. intros X. cbn [map] in X. injection X as X _. rewrite X in C2.
  rewrite ltF_irrefl in C2. discriminate.
Qed.
End Go.

Definition path_is (o : outcome (@settings F64 * path * Z)) (p : path) : bool := match o with Ok (_, q, _) => if list_eq_dec (list_eq_dec Ascii.ascii_dec) q p then true else false | _ => false end.
Lemma path_is_iff o p : path_is o p = true -> exists s cores, o = Ok (s, p, cores).
Proof. unfold path_is. destruct o as [[[s q] c]| | | | |]; try discriminate. destruct (list_eq_dec _ q p) as [->|]; [|discriminate]. eauto. Qed.
Lemma settings_path : path_is (@loadSettingYaml F64 read_int read_dbl read_bool true (parent setting_path) conf_fall) particle_path = true.
Proof. vm_compute. reflexivity. Qed.
Lemma drops_again : again_ok (fall true) drops 1 = true.
Proof. vm_compute. reflexivity. Qed.

Lemma drops_case : exists fs' st o fs2' st2 s cores,
  fall true (case_world drops) = (fs', Ok st) /\ In o (si_out st) /\
  case_world drops setting_path = Some (File (lit "fall")) /\ parse_fall (lit "fall") = Some conf_fall /\
  @loadSettingYaml F64 read_int read_dbl read_bool true (parent setting_path) conf_fall = Ok (s, particle_path, cores) /\ extension particle_path = lit ".prof" /\
  exact (o_time o) /\ Forall printable (m_ps (o_mps o)) /\ Z.of_nat (List.length (m_ps (o_mps o))) <= int_max /\
  case_world (input_of o) setting_path = case_world drops setting_path /\ case_world (input_of o) particle_path = fs' (outputPath out_dir "prof" (o_number o)) /\
  fall true (case_world (input_of o)) = (fs2', Ok st2) /\ 0 < o_step o /\ 0 < si_step st2.
Proof.
  destruct (again_iff _ _ _ drops_again) as (fs' & st & o & fs2' & st2 & A & B & C & D & E & F & G & H). destruct (path_is_iff _ _ settings_path) as (s & cores & L).
  exists fs', st, o, fs2', st2, s, cores. split; [exact A|]. split; [exact B|]. split; [reflexivity|]. split; [reflexivity|]. split; [exact L|]. split; [reflexivity|].
  split; [exact C|]. split; [exact D|]. split; [exact E|]. split; [reflexivity|]. split; [exact F|]. split; [exact G|]. exact H.
Qed.

(** ** lossy outputs: the two particles are 10^-7 apart, six digits put them in one place *)
Definition pair_close : list ascii := lines_text [lit "0"; lit "2"; lit "1 10 40 0 1 0 0"; lit "1 10.0000001 40 0 1 0 0"].
Lemma pair_lost : lost_ok (fall true) pair_close 0 = true.
Proof. vm_compute. reflexivity. Qed.
Definition drop_odd : list ascii := lines_text [lit "0"; lit "1"; lit "1 10.12345678 40 0 1 0 0"].
Lemma drop_elsewhere : elsewhere (fall true) drop_odd 1 = true.
Proof. vm_compute. reflexivity. Qed.
Lemma case_world_same input input2 p : p <> particle_path -> case_world input2 p = case_world input p.
Proof. intros H. unfold case_world. cbn [disk]. unfold put. repeat (destruct (path_dec p _); [try contradiction; reflexivity|]). reflexivity. Qed.
Lemma pair_case : exists fs fs' st o fs2,
  fall true fs = (fs', Ok st) /\ In o (si_out st) /\ finite (o_time o) /\ Forall writable (m_ps (o_mps o)) /\
  (forall p, p <> particle_path -> fs2 p = fs p) /\ fs2 particle_path = fs' (outputPath out_dir "prof" (o_number o)) /\ snd (fall true fs2) = AssertFail.
Proof.
  destruct (lost_iff _ _ _ pair_lost) as (fs' & st & o & A & B & C & D & E & F). exists (case_world pair_close), fs', st, o, (case_world (input_of o)).
  split; [exact A|]. split; [exact B|]. split; [exact C|]. split; [exact D|]. split; [intros p; apply case_world_same|]. split; [exact E|exact F].
Qed.
Lemma odd_case : exists fs fs' st o fs2 fs2' st2,
  fall true fs = (fs', Ok st) /\ In o (si_out st) /\ finite (o_time o) /\ Forall writable (m_ps (o_mps o)) /\
  (forall p, p <> particle_path -> fs2 p = fs p) /\ fs2 particle_path = fs' (outputPath out_dir "prof" (o_number o)) /\ fall true fs2 = (fs2', Ok st2) /\
  si_time st = si_time st2 /\ map p_pos (m_ps (si_mps st2)) <> map p_pos (m_ps (si_mps st)).
Proof.
  destruct (elsewhere_iff _ _ _ drop_elsewhere) as (fs' & st & o & fs2' & st2 & A & B & C & D & E & F & G). exists (case_world drop_odd), fs', st, o, (case_world (input_of o)), fs2', st2.
  split; [exact A|]. split; [exact B|]. split; [exact C|]. split; [exact D|]. split; [intros p; apply case_world_same|]. split; [exact E|]. split; [exact F|exact G].
Qed.
Lemma fall_eq dbg fs : fall dbg fs = program parse_fall read_int read_dbl read_bool read_int read_dbl fid fid c20 false dbg solver0 0 tickF 10 setting_path out_dir fs.
Proof. reflexivity. Qed.
Lemma resumed_case : exists s t0 ps0 m0 st o qs r st', @factoryCreate F64 fid fid c20 s ps0 = Ok m0 /\ indexed ps0 /\ at_rest ps0 /\ @run F64 solver0 0 tickF 10 (@newSim F64 t0 s m0) = Ok st /\ In o (si_out st) /\
  Forall2 alike (m_ps (o_mps o)) qs /\ at_rest qs /\ @factoryCreate F64 fid fid c20 s qs = Ok r /\ @run F64 solver0 0 tickF 10 (@newSim F64 (o_time o) s r) = Ok st' /\
  0 < o_step o /\ 0 < si_step st' /\ Forall2 (fun p q => p_bc p = p_bc q) ps0 qs.
Proof.
  destruct drops_case as (fs' & st & o & fs2' & st2 & s & cores & A & B & C & D & E & F & G & H & I & J & K & L & M & P).
  rewrite fall_eq in A, L.
  destruct (again_parts parse_fall read_int read_dbl read_bool read_int read_dbl fid fid c20 false true solver0 0 tickF 10 setting_path out_dir (case_world drops) fs' st o 0 tickF 10 out_dir (case_world (input_of o)) fs2' st2 (lit "fall") conf_fall s particle_path cores A B C D E F G H I J K L) as (t0 & ps0 & m & qs & r & M1 & C1 & R1 & AL & M2 & LN & C2 & R2).
  exists s, t0, ps0, m, st, o, qs, r, st2. split; [exact C1|]. split; [now apply made_indexed|]. split; [now apply made_rest|]. split; [exact R1|]. split; [exact B|]. split; [exact AL|]. split; [now apply made_rest|].
  split; [exact C2|]. split; [exact R2|]. split; [exact M|]. split; [exact P|]. now apply made_marks.
Qed.
Definition many (o : outcome (f64 * list Files.particle)) : bool := match o with Ok (_, ps) => Nat.eqb (List.length ps) 3 | _ => false end.
Lemma many_iff o : many o = true -> exists t ps, o = Ok (t, ps) /\ List.length ps = 3%nat.
Proof. unfold many. destruct o as [[t ps]| | | | |]; try discriminate. intros H. apply Nat.eqb_eq in H. eauto. Qed.
Lemma loaded_case : exists t ps, loadParticles read_int read_dbl true c20 (world "good" []) particle_path = Ok (t, ps) /\ List.length ps = 3%nat.
Proof. apply many_iff. vm_compute. reflexivity. Qed.
