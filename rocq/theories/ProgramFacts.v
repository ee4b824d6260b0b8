(** * The whole program: facts *)
From Coq Require Import String.
From Verif Require Import FilesFacts.
From Verif Require Export LoaderFacts SimFacts.
Open Scope list_scope.
Open Scope Z_scope.

Lemma lit_inj a b : lit a = lit b -> a = b.
Proof. intros E. rewrite <- (string_of_list_ascii_of_string a), <- (string_of_list_ascii_of_string b). unfold lit in E. now rewrite E. Qed.
Lemma outputPath_inj out kind kind' k k' : 0 <= k -> 0 <= k' -> outputPath out kind k = outputPath out kind' k' -> kind = kind' /\ k = k'.
Proof.
  intros P P' E. unfold outputPath in E. apply app_inv_head in E. injection E as E1 E2. apply lit_inj in E1, E2. subst.
  split; [reflexivity|]. apply (outputName_inj k k' (String "." kind') P P'). unfold outputName. rewrite E2. reflexivity.
Qed.
Lemma outputPath_deep out kind k n : outputPath out kind k <> out ++ [n].
Proof. unfold outputPath. intros E. apply app_inv_head in E. discriminate. Qed.
Lemma outputPath_parent out kind k : parent (outputPath out kind k) = out ++ [lit kind].
Proof. unfold outputPath, parent. change [lit kind; lit (outputName k ("." ++ kind))] with ([lit kind] ++ [lit (outputName k ("." ++ kind))]). rewrite app_assoc. apply removelast_last. Qed.

(** ** What changes *)
Lemma only_refl out fs : only_output out fs fs.
Proof. intros p. left; reflexivity. Qed.
Lemma only_trans out a b c : only_output out a b -> only_output out b c -> only_output out a c.
Proof.
  intros H K p. destruct (H p) as [E|[(E & X)|(E & X)]].
  - destruct (K p) as [E'|[(E' & X)|(E' & X)]].
    + left; congruence.
    + right; left; split; [congruence|exact X].
    + right; right; split; [congruence|exact X].
  - right; left; split; assumption.
  - right; right; split; assumption.
Qed.
Lemma only_put_new out fs n e : fs (out ++ [n]) = None -> only_output out fs (put fs (out ++ [n]) e).
Proof. intros E p. destruct (path_dec p (out ++ [n])) as [->|D]; [right; left; split; [exact E|eauto]|left; apply put_other, D]. Qed.
Lemma only_put_out out fs kind k e : In kind kinds -> 0 <= k -> fs (outputPath out kind k) <> Some Folder ->
  only_output out fs (put fs (outputPath out kind k) e).
Proof. intros I P E p. destruct (path_dec p (outputPath out kind k)) as [->|D]; [right; right; split; [exact E|eauto]|left; apply put_other, D]. Qed.

Lemma create_inv p fs fs' o : create_dir p fs = (fs', o) ->
  (o = Throw /\ fs' = fs) \/ (o = Ok tt /\ ((fs p = Some Folder /\ fs' = fs) \/ (fs p = None /\ fs (parent p) = Some Folder /\ fs' = put fs p Folder))).
Proof. unfold create_dir. destruct (fs p) as [[b|]|] eqn:E; [| |destruct (fs (parent p)) as [[b|]|] eqn:F]; intros [= <- <-]; tauto. Qed.
Lemma write_inv p text fs fs' o : write_file p text fs = (fs', o) ->
  (o = Exit (-1) /\ fs' = fs) \/
  (fs p <> Some Folder /\ fs (parent p) = Some Folder /\
   ((exists b, text = Ok b /\ o = Ok tt /\ fs' = put fs p (File b)) \/ (o <> Ok tt /\ fs' = put fs p (File [])))).
Proof.
  unfold write_file. intros H.
  destruct (fs p) as [[b|]|] eqn:E; destruct (fs (parent p)) as [[b'|]|] eqn:F; try (injection H as <- <-; left; split; reflexivity).
  all: right; split; [discriminate|]; split; [reflexivity|].
  all: destruct text as [t|u| |c| |]; simpl in H; injection H as <- <-.
  all: try (right; split; [discriminate|reflexivity]).
  all: left; exists t; auto.
Qed.
Lemma write_only out kind k text fs fs' o : In kind kinds -> 0 <= k -> write_file (outputPath out kind k) text fs = (fs', o) -> only_output out fs fs'.
Proof.
  intros I P H. apply write_inv in H as [(_ & ->)|(D & _ & [(b & _ & _ & ->)|(_ & ->)])]; [apply only_refl| |]; apply only_put_out; assumption.
Qed.
Lemma create_only out n fs fs' o : create_dir (out ++ [n]) fs = (fs', o) -> only_output out fs fs'.
Proof. intros H. apply create_inv in H as [(_ & ->)|(_ & [(_ & ->)|(E & _ & ->)])]; try apply only_refl. apply only_put_new, E. Qed.
Lemma saver_only out fs fs' o : newSaver out fs = (fs', o) -> only_output out fs fs'.
Proof.
  unfold newSaver. intros H. eapply (after_inv (only_output out)); [apply only_trans| | |exact H]; [intros; eapply create_only; eassumption|].
  intros f1 a f2 o2 _ K. eapply (after_inv (only_output out)); [apply only_trans| | |exact K]; [intros; eapply create_only; eassumption|].
  intros f3 a3 f4 o4 _ K4. exact (create_only _ _ _ _ _ K4).
Qed.

Lemma in_kinds : In "prof"%string kinds /\ In "vtu"%string kinds /\ In "csv"%string kinds.
Proof. unfold kinds; simpl; tauto. Qed.

Section Program.
Variable parse : list ascii -> option node.
Variable as_int : list ascii -> option Z.
Variable as_dbl : list ascii -> option f64.
Variable as_bool : list ascii -> option bool.
Variable cell_int : list ascii -> option Z.
Variable cell_dbl : list ascii -> option f64.
Variable fsin fcos : f64 -> f64.
Variable M_PI : f64.
Variable big : bool.
Variable dbg : bool.
Notation load := (load parse as_int as_dbl as_bool cell_int cell_dbl).
Notation stored_in := (stored_in big).
Notation vtu_fine := (vtu_fine big).
Notation saveFiles := (saveFiles big).
Notation saveAll := (saveAll big).
Notation loopFiles := (loopFiles big).
Notation runFiles := (runFiles big).
Notation program := (program parse as_int as_dbl as_bool cell_int cell_dbl fsin fcos M_PI big dbg).

Lemma files_only bin out (o : @output F64) fs fs' r : 0 <= o_number o -> saveFiles bin out o fs = (fs', r) -> only_output out fs fs'.
Proof.
  intros P H. destruct in_kinds as (K1 & K2 & K3).
  eapply (after_inv (only_output out)); [apply only_trans| | |exact H]; [intros; eapply write_only; [| |eassumption]; assumption|].
  intros f1 a f2 o2 _ K. eapply (after_inv (only_output out)); [apply only_trans| | |exact K]; [intros; eapply write_only; [| |eassumption]; assumption|].
  intros f3 a3 f4 o4 _ K4. exact (write_only _ _ _ _ _ _ _ K3 P K4).
Qed.
Lemma all_only bin out l : forall fs fs' r, Forall (fun o : @output F64 => 0 <= o_number o) l -> saveAll bin out l fs = (fs', r) -> only_output out fs fs'.
Proof.
  induction l as [|o l IH]; intros fs fs' r P H; simpl in H.
  - injection H as <- _. apply only_refl.
  - inversion P; subst. eapply (after_inv (only_output out)); [apply only_trans| | |exact H]; [intros; eapply files_only; eassumption|].
    intros f3 a3 f4 o4 _ K4. exact (IH _ _ _ H3 K4).
Qed.

(** what one iteration adds to the record *)
Definition adds (st st' : @sim F64) (l : list output) : Prop :=
  si_out st' = si_out st ++ l /\
  ((l = [] /\ si_file st' = si_file st) \/ (exists o, l = [o] /\ o_number o = si_file st /\ si_file st' = si_file st + 1)).
Lemma news_of st st' l : adds st st' l -> news st st' = l.
Proof. intros (E & _). unfold news. rewrite E, skipn_app, skipn_all, Nat.sub_diag. reflexivity. Qed.
Lemma save_adds (st st' : @sim F64) : save st = Ok st' -> exists l, adds st st' l.
Proof. intros E. apply save_inv in E. subst. eexists. split; [reflexivity|]. right. eexists. split; [reflexivity|]. split; reflexivity. Qed.
Lemma iteration_adds S real c (st st' : @sim F64) : iteration S real c st = Ok st' -> exists l, adds st st' l.
Proof.
  intros E. apply iteration_inv in E as (m & st1 & _ & -> & E). destruct (saveCondition _).
  - apply save_adds in E. exact E.
  - subst. exists []. split; [simpl; now rewrite app_nil_r|]. left. split; reflexivity.
Qed.

Lemma adds_nonneg st st' l : 0 <= si_file st -> adds st st' l -> Forall (fun o : @output F64 => 0 <= o_number o) l /\ 0 <= si_file st'.
Proof. intros P (_ & [(-> & F)|(o & -> & E & F)]); (split; [repeat constructor; lia|lia]). Qed.

Lemma loop_only S real clk bin out : forall fuel k (st : @sim F64) fs fs' r, 0 <= si_file st ->
  loopFiles S real clk bin out fuel k st fs = (fs', r) -> only_output out fs fs'.
Proof.
  induction fuel as [|fuel IH]; intros k st fs fs' r P H; cbn [Program.loopFiles] in H; destruct (nlt (si_time st) (si_end st)); try (injection H as <- _; apply only_refl).
  eapply (after_inv (only_output out)); [apply only_trans| | |exact H]; [intros f1 o1 [= <- _]; apply only_refl|].
  intros f1 st' f2 o2 [= <- E] K. destruct (iteration_adds _ _ _ _ _ E) as (l & A). rewrite (news_of _ _ _ A) in K.
  destruct (adds_nonneg _ _ _ P A) as (P1 & P2).
  eapply (after_inv (only_output out)); [apply only_trans| | |exact K]; [intros; eapply all_only; eassumption|].
  intros f3 a3 f4 o4 _ K4. exact (IH _ _ _ _ _ P2 K4).
Qed.
Lemma run_only S real clk bin out fuel (st : @sim F64) fs fs' r : 0 <= si_file st ->
  runFiles S real clk bin out fuel st fs = (fs', r) -> only_output out fs fs'.
Proof.
  intros P H. unfold Program.runFiles in H.
  eapply (after_inv (only_output out)); [apply only_trans| | |exact H]; [intros f1 o1 [= <- _]; apply only_refl|].
  intros f1 st' f2 o2 [= <- E] K. destruct (save_adds _ _ E) as (l & A). rewrite (news_of _ _ _ A) in K.
  destruct (adds_nonneg _ _ _ P A) as (P1 & P2).
  eapply (after_inv (only_output out)); [apply only_trans| | |exact K]; [intros; eapply all_only; eassumption|].
  intros f3 a3 f4 o4 _ K4. exact (loop_only _ _ _ _ _ _ _ _ _ _ _ P2 K4).
Qed.
Lemma load_only setting out fs fs' r : load dbg setting out fs = (fs', r) -> only_output out fs fs'.
Proof.
  intros H. apply load_copies in H as [->|[(T & b & ->)|(pp & b & b' & T & T2 & ->)]].
  - apply only_refl.
  - apply only_put_new, T.
  - eapply only_trans; apply only_put_new; assumption.
Qed.
Lemma program_only S real clk fuel setting out fs fs' r : program S real clk fuel setting out fs = (fs', r) -> only_output out fs fs'.
Proof.
  unfold Program.program. destruct (fs setting) as [es|]; [|intros [= <- _]; apply only_refl]. destruct (fs out) as [[b|]|]; try (intros [= <- _]; apply only_refl).
  intros H. eapply (after_inv (only_output out)); [apply only_trans| | |exact H]; [intros; eapply load_only; eassumption|].
  clear H. intros f1 i f2 o2 _ H. eapply (after_inv (only_output out)); [apply only_trans| | |exact H]; [intros; eapply saver_only; eassumption|].
  clear H. intros f3 [] f4 o4 _ H. eapply (after_inv (only_output out)); [apply only_trans| | |exact H]; [intros f5 o5 [= <- _]; apply only_refl|].
  clear H. intros f5 m f6 o6 _ H. eapply run_only; [|exact H]. simpl. lia.
Qed.

(** ** What a run leaves behind *)
Lemma write_ok p text fs fs' : write_file p text fs = (fs', Ok tt) -> exists b, text = Ok b /\ fs' = put fs p (File b).
Proof. intros H. apply write_inv in H as [(F & _)|(_ & _ & [(b & -> & _ & ->)|(F & _)])]; try congruence. eauto. Qed.

Lemma vtu_file_iff bin (o : @output F64) b : vtu_file big bin o b <-> toVtu big bin (o_time o) (rv_n0 (m_rvN (o_mps o))) (m_ps (o_mps o)) = Ok b.
Proof.
  unfold vtu_file, toVtu. destruct bin; split.
  - intros (A & _). exact (A eq_refl).
  - intros A. split; [intros _; exact A|discriminate].
  - intros (_ & A). rewrite (A eq_refl). reflexivity.
  - intros [= <-]. split; [discriminate|reflexivity].
Qed.
Lemma files_ok bin out (o : @output F64) fs fs' : 0 <= o_number o -> saveFiles bin out o fs = (fs', Ok tt) ->
  stored_in bin out fs' o /\ forall p, (forall kind, p <> outputPath out kind (o_number o)) -> fs' p = fs p.
Proof.
  intros P H. unfold Program.saveFiles in H.
  apply after_ok in H as (f1 & [] & H1 & H). apply write_ok in H1 as (b1 & [= <-] & ->).
  apply after_ok in H as (f2 & [] & H2 & H). apply write_ok in H2 as (b2 & V & ->).
  apply write_ok in H as (b3 & [= <-] & ->).
  split.
  - unfold SpecLoader.stored_in. repeat split.
    + rewrite put_other, put_other, put_same; [reflexivity| |]; intros E; apply outputPath_inj in E as (E & _); auto; discriminate.
    + exists b2. split; [apply vtu_file_iff, V|]. rewrite put_other, put_same; [reflexivity|]. intros E; apply outputPath_inj in E as (E & _); auto; discriminate.
    + apply put_same.
  - intros p D. rewrite !put_other by apply D. reflexivity.
Qed.

Lemma all_ok bin out (st st' : @sim F64) l fs fs' : adds st st' l -> 0 <= si_file st ->
  saveAll bin out l fs = (fs', Ok tt) ->
  Forall (stored_in bin out fs) (si_out st) -> Forall (fun o => 0 <= o_number o < si_file st) (si_out st) ->
  Forall (stored_in bin out fs') (si_out st') /\ Forall (fun o => 0 <= o_number o < si_file st') (si_out st') /\ 0 <= si_file st' /\
  (forall n, fs' (out ++ [n]) = fs (out ++ [n])).
Proof.
  intros (A & [(-> & F)|(o & -> & E & F)]) P H W R; rewrite A.
  - injection H as <-. rewrite app_nil_r, F. repeat split; auto.
  - simpl in H. apply after_ok in H as (f1 & [] & H & H'). injection H' as <-. apply files_ok in H as (W' & D); [|lia].
    repeat split; [| |lia|intros n; apply D; intros kind E'; symmetry in E'; exact (outputPath_deep _ _ _ _ E')].
    + apply Forall_app. split; [|constructor; [exact W'|constructor]].
      rewrite Forall_forall in *. intros o' I. specialize (W o' I). specialize (R o' I). simpl in R.
      assert (NE : forall k1 k2, outputPath out k1 (o_number o') <> outputPath out k2 (o_number o)).
      { intros k1 k2 Q. apply outputPath_inj in Q as (_ & Q); lia. }
      destruct W as (W1 & (b & V & W2) & W3). unfold SpecLoader.stored_in. rewrite !D by (intros; apply NE). eauto.
    + apply Forall_app. split; [|constructor; [lia|constructor]]. eapply Forall_impl; [|exact R]. simpl. intros; lia.
Qed.

Lemma loop_ok S real clk bin out : forall fuel k (st st' : @sim F64) fs fs',
  loopFiles S real clk bin out fuel k st fs = (fs', Ok st') -> 0 <= si_file st ->
  Forall (stored_in bin out fs) (si_out st) -> Forall (fun o => 0 <= o_number o < si_file st) (si_out st) ->
  loop S real clk fuel k st = Ok st' /\ Forall (stored_in bin out fs') (si_out st') /\ forall n, fs' (out ++ [n]) = fs (out ++ [n]).
Proof.
  induction fuel as [|fuel IH]; intros k st st' fs fs' H P W R; cbn [Program.loopFiles loop] in *; destruct (nlt (si_time st) (si_end st)); try discriminate; try (injection H as <- <-; auto).
  apply after_ok in H as (f1 & st1 & E & H). injection E as <- E. destruct (iteration_adds _ _ _ _ _ E) as (l & A). rewrite (news_of _ _ _ A) in H.
  apply after_ok in H as (f2 & [] & K & H). destruct (all_ok bin out st st1 l fs f2 A P K W R) as (W' & R' & P' & D).
  destruct (IH _ _ _ _ _ H P' W' R') as (L & W2 & D2). rewrite E. cbn [bind]. split; [exact L|]. split; [exact W2|]. intros n. rewrite D2. apply D.
Qed.
Lemma runFiles_ok S real clk bin out fuel (st st' : @sim F64) fs fs' : si_file st = 0 -> si_out st = [] ->
  runFiles S real clk bin out fuel st fs = (fs', Ok st') ->
  run S real clk fuel st = Ok st' /\ Forall (stored_in bin out fs') (si_out st') /\ forall n, fs' (out ++ [n]) = fs (out ++ [n]).
Proof.
  intros F O H. unfold Program.runFiles in H. apply after_ok in H as (f1 & st1 & E & H). injection E as <- E.
  destruct (save_adds _ _ E) as (l & A). rewrite (news_of _ _ _ A) in H.
  apply after_ok in H as (f2 & [] & K & H). assert (P0 : 0 <= si_file st) by lia.
  assert (W0 : Forall (stored_in bin out fs) (si_out st)) by (rewrite O; constructor).
  assert (R0 : Forall (fun o => 0 <= o_number o < si_file st) (si_out st)) by (rewrite O; constructor).
  destruct (all_ok bin out st st1 l fs f2 A P0 K W0 R0) as (W' & R' & P' & D).
  destruct (loop_ok _ _ _ _ _ _ _ _ _ _ _ H P' W' R') as (L & W2 & D2).
  unfold run. rewrite E. cbn [bind]. split; [exact L|]. split; [exact W2|]. intros n. rewrite D2. apply D.
Qed.

Lemma create_keeps p fs fs' o q e : create_dir p fs = (fs', o) -> fs q = Some e -> fs' q = Some e.
Proof. intros H E. apply create_inv in H as [(_ & ->)|(_ & [(_ & ->)|(N & _ & ->)])]; auto. rewrite put_other; [exact E|congruence]. Qed.
Lemma saver_keeps out fs fs' o : newSaver out fs = (fs', o) -> preserved fs fs'.
Proof.
  intros H. unfold newSaver in H.
  eapply (after_inv preserved); [apply preserved_trans| | |exact H]; [intros f o1 K q e; exact (create_keeps _ _ _ _ _ _ K)|].
  intros f1 a f2 o2 _ K. eapply (after_inv preserved); [apply preserved_trans| | |exact K]; [intros f o1 K1 q e; exact (create_keeps _ _ _ _ _ _ K1)|].
  intros f3 [] f o1 _ K1 q e. exact (create_keeps _ _ _ _ _ _ K1).
Qed.

Lemma program_ok S real clk fuel setting out fs fs' st :
  program S real clk fuel setting out fs = (fs', Ok st) ->
  exists sb y pp cores pb i m,
    fs setting = Some (File sb) /\ parse sb = Some y /\
    @loadSettingYaml F64 as_int as_dbl as_bool dbg (parent setting) y = Ok (i_settings i, pp, cores) /\
    loadParticles cell_int cell_dbl dbg (s_rho0 (i_settings i)) fs pp = Ok (i_start i, i_particles i) /\
    fs pp = Some (File pb) /\
    factoryCreate fsin fcos M_PI (i_settings i) (i_particles i) = Ok m /\
    run S real clk fuel (newSim (i_start i) (i_settings i) m) = Ok st /\
    fs' (out ++ [filename setting]) = Some (File sb) /\ fs' (out ++ [filename pp]) = Some (File pb) /\
    Forall (stored_in (s_vtkBinary (i_settings i)) out fs') (si_out st).
Proof.
  unfold Program.program. destruct (fs setting) as [es|] eqn:Es; [|discriminate]. destruct (fs out) as [[b|]|] eqn:Eo; try discriminate.
  intros H. apply after_ok in H as (f1 & i & L & H). apply load_ok in L as (sb & y & pp & cores & pb & S1 & P1 & L1 & Q1 & B1 & O1 & T1 & T2 & NE & ->).
  apply after_ok in H as (f2 & [] & V & H). apply after_ok in H as (f3 & m & M & H). injection M as <- M.
  apply runFiles_ok in H as (R & W & D); try reflexivity.
  pose proof (saver_keeps _ _ _ _ V) as K.
  exists sb, y, pp, cores, pb, i, m. rewrite <- Es. repeat split; try assumption.
  - rewrite D. apply K. rewrite put_other; [apply put_same|]. intros E. apply app_inv_head in E. congruence.
  - rewrite D. apply K. apply put_same.
Qed.

(** ** When a run completes *)
(** the output directory can take the files *)
Definition roomy (out : path) (fs : filesystem) : Prop :=
  forall kind, In kind kinds -> fs (out ++ [lit kind]) = Some Folder /\ forall k, 0 <= k -> fs (outputPath out kind k) <> Some Folder.
Lemma roomy_put out fs kind k b : roomy out fs -> roomy out (put fs (outputPath out kind k) (File b)).
Proof.
  intros R kd I. destruct (R kd I) as (R1 & R2). split.
  - rewrite put_other; [exact R1|]. intros E. symmetry in E. exact (outputPath_deep _ _ _ _ E).
  - intros k' P. destruct (path_dec (outputPath out kd k') (outputPath out kind k)) as [->|D]; [rewrite put_same; discriminate|rewrite put_other by exact D; apply R2, P].
Qed.
Lemma write_done out fs kind k b : roomy out fs -> In kind kinds -> 0 <= k ->
  write_file (outputPath out kind k) (Ok b) fs = (put fs (outputPath out kind k) (File b), Ok tt).
Proof.
  intros R I P. destruct (R kind I) as (R1 & R2). specialize (R2 k P). unfold write_file. rewrite outputPath_parent, R1.
  destruct (fs (outputPath out kind k)) as [[b'|]|]; congruence.
Qed.
Lemma files_done bin out (o : @output F64) fs : roomy out fs -> 0 <= o_number o -> vtu_fine bin o ->
  exists fs', saveFiles bin out o fs = (fs', Ok tt) /\ roomy out fs'.
Proof.
  intros R P (b & V). apply vtu_file_iff in V. destruct in_kinds as (K1 & K2 & K3). unfold Program.saveFiles, after.
  rewrite (write_done out fs "prof" (o_number o) _ R K1 P). pose proof (roomy_put out fs "prof" (o_number o) (toProf (o_time o) (m_ps (o_mps o))) R) as R1.
  rewrite V, (write_done out _ "vtu" (o_number o) _ R1 K2 P). pose proof (roomy_put out _ "vtu" (o_number o) b R1) as R2.
  rewrite (write_done out _ "csv" (o_number o) _ R2 K3 P). eexists. split; [reflexivity|]. apply roomy_put, R2.
Qed.
Lemma all_done bin out l : forall fs, roomy out fs -> Forall (fun o : @output F64 => 0 <= o_number o) l -> Forall (vtu_fine bin) l ->
  exists fs', saveAll bin out l fs = (fs', Ok tt) /\ roomy out fs'.
Proof.
  induction l as [|o l IH]; intros fs R P V; simpl.
  - exists fs. split; [reflexivity|exact R].
  - inversion P; inversion V; subst. destruct (files_done bin out o fs R) as (f1 & E & R1); auto.
    destruct (IH f1 R1) as (f2 & E2 & R2); auto. exists f2. unfold after. rewrite E. auto.
Qed.
Lemma loop_extends S real clk : forall fuel k (st st' : @sim F64), loop S real clk fuel k st = Ok st' -> exists l, si_out st' = si_out st ++ l.
Proof.
  induction fuel as [|fuel IH]; intros k st st' H; cbn [loop] in H; destruct (nlt (si_time st) (si_end st)); try discriminate; try (injection H as <-; exists []; now rewrite app_nil_r).
  binds H. destruct (iteration_adds _ _ _ _ _ E) as (l & A & _). destruct (IH _ _ _ H) as (l' & A'). exists (l ++ l'). rewrite A', A, app_assoc. reflexivity.
Qed.
Lemma loop_done S real clk bin out : forall fuel k (st st' : @sim F64) fs, loop S real clk fuel k st = Ok st' ->
  0 <= si_file st -> roomy out fs -> Forall (vtu_fine bin) (si_out st') -> exists fs', loopFiles S real clk bin out fuel k st fs = (fs', Ok st').
Proof.
  induction fuel as [|fuel IH]; intros k st st' fs H P R V; cbn [Program.loopFiles loop] in *; destruct (nlt (si_time st) (si_end st)); try discriminate; try (injection H as <-; exists fs; reflexivity).
  binds H. destruct (iteration_adds _ _ _ _ _ E) as (l & A). destruct (adds_nonneg _ _ _ P A) as (P1 & P2).
  destruct (loop_extends _ _ _ _ _ _ _ H) as (l' & A').
  assert (V' : Forall (vtu_fine bin) l).
  { rewrite A', (proj1 A), <- app_assoc in V. apply Forall_app in V as (_ & V). apply Forall_app in V as (V & _). exact V. }
  destruct (all_done bin out l fs R P1 V') as (f1 & E1 & R1). destruct (IH _ _ _ f1 H P2 R1 V) as (f2 & E2).
  exists f2. unfold after, ret. rewrite E, (news_of _ _ _ A), E1. exact E2.
Qed.
Lemma runFiles_done S real clk bin out fuel (st st' : @sim F64) fs : run S real clk fuel st = Ok st' -> 0 <= si_file st ->
  roomy out fs -> Forall (vtu_fine bin) (si_out st') -> exists fs', runFiles S real clk bin out fuel st fs = (fs', Ok st').
Proof.
  intros H P R V. unfold run in H. binds H. destruct (save_adds _ _ E) as (l & A). destruct (adds_nonneg _ _ _ P A) as (P1 & P2).
  destruct (loop_extends _ _ _ _ _ _ _ H) as (l' & A').
  assert (V' : Forall (vtu_fine bin) l).
  { rewrite A', (proj1 A), <- app_assoc in V. apply Forall_app in V as (_ & V). apply Forall_app in V as (V & _). exact V. }
  destruct (all_done bin out l fs R P1 V') as (f1 & E1 & R1). destruct (loop_done _ _ _ bin out _ _ _ _ f1 H P2 R1 V) as (f2 & E2).
  exists f2. unfold Program.runFiles, after, ret. rewrite E, (news_of _ _ _ A), E1. exact E2.
Qed.

Lemma out_self (out : path) n : out <> out ++ [n].
Proof. intros E. rewrite <- (app_nil_r out) in E at 1. apply app_inv_head in E. discriminate. Qed.
Lemma create_done out fs n : fs out = Some Folder -> fs (out ++ [n]) = None \/ fs (out ++ [n]) = Some Folder ->
  exists fs', create_dir (out ++ [n]) fs = (fs', Ok tt) /\ fs' (out ++ [n]) = Some Folder /\ forall p, p <> out ++ [n] -> fs' p = fs p.
Proof.
  intros O [E|E]; unfold create_dir; rewrite parent_snoc, E, ?O.
  - exists (put fs (out ++ [n]) Folder). split; [reflexivity|]. split; [apply put_same|]. intros p D. apply put_other, D.
  - exists fs. auto.
Qed.
Lemma snoc_neq (out : path) a b : a <> b -> out ++ [a] <> out ++ [b].
Proof. intros D E. apply app_inv_head in E. congruence. Qed.
Lemma saver_done out fs : room out fs -> exists fs', newSaver out fs = (fs', Ok tt) /\ roomy out fs'.
Proof.
  intros (O & R). destruct in_kinds as (K1 & K2 & K3).
  destruct (R _ K1) as (A1 & B1), (R _ K2) as (A2 & B2), (R _ K3) as (A3 & B3).
  destruct (create_done out fs (lit "prof") O A1) as (f1 & E1 & F1 & D1).
  assert (O1 : f1 out = Some Folder) by (rewrite D1; [exact O|apply out_self]).
  rewrite <- D1 in A2, A3 by (apply snoc_neq; discriminate).
  destruct (create_done out f1 (lit "vtu") O1 A2) as (f2 & E2 & F2 & D2).
  assert (O2 : f2 out = Some Folder) by (rewrite D2; [exact O1|apply out_self]).
  rewrite <- D2 in A3 by (apply snoc_neq; discriminate).
  destruct (create_done out f2 (lit "csv") O2 A3) as (f3 & E3 & F3 & D3).
  exists f3. split; [unfold newSaver, after; rewrite E1, E2, E3; reflexivity|].
  assert (S : forall kind k, f3 (outputPath out kind k) = fs (outputPath out kind k)).
  { intros kind k. rewrite D3, D2, D1; [reflexivity| | |]; apply outputPath_deep. }
  intros kind I. split.
  - simpl in I. destruct I as [<-|[<-|[<-|[]]]].
    + rewrite D3, D2; [exact F1| |]; apply snoc_neq; discriminate.
    + rewrite D3; [exact F2|]. apply snoc_neq; discriminate.
    + exact F3.
  - intros k P. rewrite S. apply R; assumption.
Qed.

Lemma program_done S real clk fuel setting out fs sb y s pp cores pb t ps m st :
  fs setting = Some (File sb) -> parse sb = Some y ->
  @loadSettingYaml F64 as_int as_dbl as_bool dbg (parent setting) y = Ok (s, pp, cores) ->
  loadParticles cell_int cell_dbl dbg (s_rho0 s) fs pp = Ok (t, ps) -> fs pp = Some (File pb) ->
  factoryCreate fsin fcos M_PI s ps = Ok m -> run S real clk fuel (newSim t s m) = Ok st -> Forall (vtu_fine (s_vtkBinary s)) (si_out st) ->
  room out fs -> fs (out ++ [filename setting]) = None -> fs (out ++ [filename pp]) = None -> filename setting <> filename pp ->
  ~ In (filename setting) (map lit kinds) -> ~ In (filename pp) (map lit kinds) ->
  exists fs', program S real clk fuel setting out fs = (fs', Ok st).
Proof.
  intros S1 P1 L1 Q1 B1 M R V (O & Rm) T1 T2 NE I1 I2.
  pose proof (load_complete parse as_int as_dbl as_bool cell_int cell_dbl dbg setting out fs sb y s pp cores t ps pb S1 P1 L1 Q1 B1 O T1 T2 NE) as L.
  set (f1 := put (put fs (out ++ [filename setting]) (File sb)) (out ++ [filename pp]) (File pb)) in *.
  assert (D : forall p, p <> out ++ [filename setting] -> p <> out ++ [filename pp] -> f1 p = fs p) by (intros p N1 N2; unfold f1; rewrite !put_other by assumption; reflexivity).
  assert (Rm1 : room out f1).
  { split; [rewrite D by apply out_self; exact O|]. intros kind I. destruct (Rm kind I) as (A & B). split.
    - rewrite D; [exact A| |]; apply snoc_neq; intros E; [apply I1|apply I2]; rewrite <- E; apply in_map, I.
    - intros k P. rewrite D; [apply B, P| |]; apply outputPath_deep. }
  destruct (saver_done out f1 Rm1) as (f2 & E2 & R2).
  destruct (runFiles_done S real clk (s_vtkBinary s) out fuel (@newSim F64 t s m) st f2 R) as (f3 & E3); [simpl; lia|exact R2|exact V|].
  exists f3. unfold Program.program, after, ret. rewrite S1, O, L, E2. cbn [i_settings i_particles i_start]. rewrite M. exact E3.
Qed.

Lemma others_kept S real clk fuel setting out fs fs' o p e :
  program S real clk fuel setting out fs = (fs', o) -> fs p = Some e ->
  (forall kind k, In kind kinds -> 0 <= k -> p <> outputPath out kind k) \/ e = Folder -> fs' p = Some e.
Proof.
  intros H E C. destruct (program_only _ _ _ _ _ _ _ _ _ H p) as [->|[(F & _)|(F & kind & k & I & P & Q)]]; [exact E|congruence|].
  destruct C as [C|C]; [exfalso; exact (C kind k I P Q)|congruence].
Qed.

(** reading an output file back *)
Lemma from_dot_some l m : from_dot m <> None -> from_dot (l ++ m) = from_dot m.
Proof. intros H. induction l as [|c l IH]; [reflexivity|]. cbn [app from_dot]. rewrite IH. destruct (from_dot m); congruence. Qed.
Lemma extension_prof out k : extension (outputPath out "prof" k) = lit ".prof".
Proof.
  unfold extension, outputPath, filename. change [lit "prof"; lit (outputName k ("." ++ "prof"))] with ([lit "prof"] ++ [lit (outputName k ".prof")]).
  rewrite app_assoc, last_last. unfold outputName.
  assert (A : forall a b : string, lit (a ++ b) = lit a ++ lit b) by (induction a as [|c a IH]; intros b; simpl; [reflexivity|now rewrite IH]).
  rewrite !A. change (lit "output_") with ("o"%char :: lit "utput_"). cbn [app]. rewrite (app_assoc (lit "utput_")).
  rewrite from_dot_some; [reflexivity|discriminate].
Qed.
Lemma restart S real clk fuel setting out fs fs' st o rho :
  program S real clk fuel setting out fs = (fs', Ok st) ->
  In o (si_out st) -> finite (o_time o) -> Forall writable (m_ps (o_mps o)) -> Z.of_nat (List.length (m_ps (o_mps o))) <= int_max ->
  exists t ps, loadParticles cell_int cell_dbl dbg rho fs' (outputPath out "prof" (o_number o)) = Ok (t, ps) /\
    as_printed (o_time o) t /\ restored as_printed (fun _ d => d = rho) (fun _ => 0) (m_ps (o_mps o)) ps.
Proof.
  intros H I F W L. apply program_ok in H as (sb & y & pp & cores & pb & i & m & _ & _ & _ & _ & _ & _ & _ & _ & _ & St).
  rewrite Forall_forall in St. destruct (St o I) as (P & _).
  unfold loadParticles. rewrite extension_prof. change (text_eqb (lit ".prof") (lit ".csv")) with false. change (text_eqb (lit ".prof") (lit ".prof")) with true.
  cbv iota. rewrite P. cbn [bytes_of]. exact (prof_round_trip dbg rho (o_time o) (m_ps (o_mps o)) F W L).
Qed.
End Program.
