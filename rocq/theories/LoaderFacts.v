(** * The loader: facts *)
From Verif Require Export SpecLoader BaseFacts.
From Verif Require Import CsvFacts.
Open Scope list_scope.
Open Scope Z_scope.

Lemma assoc_some k l v : assoc k l = Some v <-> entry_of l k v.
Proof.
  unfold entry_of. induction l as [|[k' w] l IH]; simpl.
  - split; [discriminate|]. intros (l1 & l2 & E & _). destruct l1; discriminate.
  - destruct (text_eqb k' k) eqn:E.
    + apply text_eqb_iff in E as ->. split.
      * intros [= ->]. exists [], l. split; [reflexivity|intros []].
      * intros ([|[a b] l1] & l2 & H & NI); simpl in H; inversion H; subst; [reflexivity|]. simpl in NI. tauto.
    + assert (K : k' <> k) by (intros ->; assert (text_eqb k k = true) by (apply text_eqb_iff; reflexivity); congruence).
      rewrite IH. split.
      * intros (l1 & l2 & -> & NI). exists ((k', w) :: l1), l2. split; [reflexivity|]. simpl. intros [F|F]; [congruence|exact (NI F)].
      * intros ([|[a b] l1] & l2 & H & NI); simpl in H; inversion H; subst; [congruence|]. exists l1, l2. split; [reflexivity|]. simpl in NI. tauto.
Qed.
Lemma assoc_none k l : assoc k l = None <-> ~ In k (map fst l).
Proof.
  induction l as [|[k' w] l IH]; simpl; [tauto|].
  destruct (text_eqb k' k) eqn:E.
  - apply text_eqb_iff in E. split; [discriminate|]. intros H; exfalso; apply H; left; exact E.
  - rewrite IH. assert (k' <> k) by (intros ->; assert (text_eqb k k = true) by (apply text_eqb_iff; reflexivity); congruence). tauto.
Qed.

Lemma at_key_some y k v : at_key (Some y) (lit k) = Ok (Some v) <-> has_entry y k v.
Proof.
  unfold has_entry. destruct y as [|t|l|l]; simpl.
  1-3: split; [discriminate|intros (l' & E & _); discriminate].
  split.
  - intros H. exists l. split; [reflexivity|]. apply assoc_some. congruence.
  - intros (l' & [= <-] & E). apply assoc_some in E. rewrite E. reflexivity.
Qed.
Lemma at_key_none y k : at_key (Some y) (lit k) = Ok None <-> lacks y k.
Proof. unfold lacks. destruct y as [|t|l|l]; simpl; try (split; [discriminate|tauto]); try tauto. rewrite <- assoc_none. split; congruence. Qed.

Lemma as_ok {A} (conv : list ascii -> option A) n a : as_ conv n = Ok a <-> exists t, n = Some (Scalar t) /\ conv t = Some a.
Proof.
  split.
  - destruct n as [[|t|l|l]|]; simpl; try discriminate. destruct (conv t) eqn:E; [|discriminate]. intros [= ->]. exists t. auto.
  - intros (t & -> & E). simpl. rewrite E. reflexivity.
Qed.
Lemma req_ok {A} (conv : list ascii -> option A) y k a : req conv y k = Ok a <-> says conv y k a.
Proof.
  unfold req, says. split.
  - intros H. binds H. apply as_ok in H as (t & -> & C). exists t. split; [apply at_key_some; exact E|exact C].
  - intros (t & E & C). apply at_key_some in E. rewrite E. simpl. rewrite C. reflexivity.
Qed.
Lemma req_string_ok y k t : req_string y k = Ok t <-> says_text y k t.
Proof.
  unfold req_string, says_text. split.
  - intros H. binds H. destruct r as [[|t'|l|l]|]; simpl in H; try discriminate; injection H as <-; [right|left]; [split; [apply at_key_some; exact E|reflexivity]|apply at_key_some; exact E].
  - intros [E|[E ->]]; apply at_key_some in E; rewrite E; reflexivity.
Qed.
Lemma opt_ok {A} (conv : list ascii -> option A) y k d a : opt conv y k d = Ok a <-> says_or conv y k d a.
Proof.
  unfold opt, says_or. split.
  - intros H. binds H. destruct r as [n|].
    + left. apply req_ok. unfold req. rewrite E. exact H.
    + right. split; [apply at_key_none; exact E|congruence].
  - intros [E|[E ->]].
    + destruct E as (t & E & C). apply at_key_some in E. rewrite E. simpl. rewrite C. reflexivity.
    + apply at_key_none in E. rewrite E. reflexivity.
Qed.
Lemma at_index_ok v i w : at_index (Some v) i = Ok (Some w) <-> element v i w.
Proof.
  destruct v as [|t|l|l]; simpl; try (split; [discriminate|tauto]).
  - split; congruence.
  - rewrite <- assoc_some. split; congruence.
Qed.
Lemma req_at_ok {A} (conv : list ascii -> option A) y k i a : req_at conv y k i = Ok a <-> says_at conv y k i a.
Proof.
  unfold req_at, says_at. split.
  - intros H. binds H. binds H. apply as_ok in H as (t & -> & C). destruct r as [v|]; [|discriminate].
    exists v, t. split; [apply at_key_some; exact E|]. split; [apply at_index_ok; exact E0|exact C].
  - intros (v & t & E & I & C). apply at_key_some in E. apply at_index_ok in I. rewrite E. cbn [bind]. rewrite I. simpl. rewrite C. reflexivity.
Qed.

(** ** Paths in the settings *)
Lemma text_eqb_spec a b : Bool.reflect (a = b) (text_eqb a b).
Proof. apply Bool.iff_reflect. symmetry. apply text_eqb_iff. Qed.
Lemma names_from_spec l : forall cur, ~ In "/"%char cur -> exists n ns, names_from cur l = (rev cur ++ n) :: ns /\ l = joined n ns /\ forall m, In m (n :: ns) -> ~ In "/"%char m.
Proof.
  induction l as [|c l IH]; intros cur NC; cbn [names_from].
  - exists [], []. rewrite app_nil_r. repeat split. intros m [<-|[]] [].
  - destruct (Ascii.eqb_spec c "/"%char) as [->|NE].
    + destruct (IH [] (fun K => K)) as (n & ns & E & -> & F). exists [], (n :: ns). rewrite E, app_nil_r. repeat split.
      intros m [<-|K]; [intros []|exact (F m K)].
    + destruct (IH (c :: cur)) as (n & ns & E & -> & F). { intros [K|K]; [congruence|exact (NC K)]. }
      exists (c :: n), ns. rewrite E. cbn [rev]. rewrite <- app_assoc. repeat split.
      intros m [<-|K]; [|apply F; right; exact K]. intros [K|K]; [congruence|]. exact (F n (or_introl eq_refl) K).
Qed.
Lemma joined_inj n ns : forall n' ns', joined n ns = joined n' ns' -> (forall m, In m (n :: ns) -> ~ In "/"%char m) ->
  (forall m, In m (n' :: ns') -> ~ In "/"%char m) -> n = n' /\ ns = ns'.
Proof.
  revert n. induction ns as [|b ns IHs].
  - intros n. induction n as [|c n IH]; intros n' ns' E F F'.
    + destruct n' as [|c' n']; [|discriminate E]. destruct ns' as [|b' ns']; [split; reflexivity|discriminate E].
    + destruct n' as [|c' n'].
      * destruct ns' as [|b' ns']; [discriminate E|]. injection E as -> _. destruct (F _ (or_introl eq_refl)). left. reflexivity.
      * injection E as -> E. destruct (IH n' ns' E) as [-> ->]; [| |split; reflexivity].
        -- intros m [<-|[]] K. exact (F _ (or_introl eq_refl) (or_intror K)).
        -- intros m [<-|K] L; [exact (F' _ (or_introl eq_refl) (or_intror L))|exact (F' _ (or_intror K) L)].
  - intros n. induction n as [|c n IH]; intros n' ns' E F F'.
    + destruct n' as [|c' n'].
      * destruct ns' as [|b' ns']; [discriminate E|]. injection E as E. destruct (IHs b b' ns' E) as [-> ->]; [| |split; reflexivity].
        -- intros m K. exact (F m (or_intror K)).
        -- intros m K. exact (F' m (or_intror K)).
      * injection E as <- _. destruct (F' _ (or_introl eq_refl)). left. reflexivity.
    + destruct n' as [|c' n'].
      * destruct ns' as [|b' ns']; [discriminate E|]. injection E as -> _. destruct (F _ (or_introl eq_refl)). left. reflexivity.
      * injection E as -> E. destruct (IH n' ns' E) as [-> Q]; [| |split; [reflexivity|exact Q]].
        -- intros m [<-|K] L; [exact (F _ (or_introl eq_refl) (or_intror L))|exact (F _ (or_intror K) L)].
        -- intros m [<-|K] L; [exact (F' _ (or_introl eq_refl) (or_intror L))|exact (F' _ (or_intror K) L)].
Qed.
Lemma walk_leads ns : forall p q, fold_left Loader.walk ns p = q <-> leads p ns q.
Proof.
  induction ns as [|n ns IH]; intros p q; cbn [fold_left].
  - split; [intros <-; constructor|]. intros H. inversion H. reflexivity.
  - rewrite IH. unfold Loader.walk. destruct (text_eqb_spec n []) as [->|N0]; [cbn [orb]|destruct (text_eqb_spec n (lit ".")) as [->|N1]; [cbn [orb]|cbn [orb]; destruct (text_eqb_spec n (lit "..")) as [->|N2]]].
    + split; [intros H; constructor; [left; reflexivity|exact H]|]. intros H. inversion H; subst; [assumption|congruence].
    + split; [intros H; constructor; [right; reflexivity|exact H]|]. intros H. inversion H; subst; [assumption|unfold lit in *; cbn in *; congruence].
    + split.
      * intros H. destruct p as [|m p _] using rev_ind; [exact (leads_top _ _ H)|]. rewrite removelast_last in H. exact (leads_up _ _ _ _ H).
      * intros H. inversion H as [|? ? ? ? [K|K]| | |? ? ? ? A B C]; subst; [discriminate K|discriminate K|rewrite removelast_last; assumption|assumption|destruct (C eq_refl)].
    + split; [intros H; apply leads_down; assumption|]. intros H. inversion H as [|? ? ? ? [K|K]| | |]; subst; [destruct (N0 eq_refl)|destruct (N1 eq_refl)|destruct (N2 eq_refl)|destruct (N2 eq_refl)|assumption].
Qed.
Lemma resolve_iff dir t q : denotes dir t q <-> q = resolve dir t.
Proof.
  destruct (names_from_spec t [] (fun K => K)) as (n & ns & E & T & F). cbn [rev app] in E. unfold resolve. rewrite E. unfold denotes. split.
  - intros (n' & ns' & T' & F' & H). rewrite T in T'. destruct (joined_inj n ns n' ns' T' F F') as [<- <-].
    symmetry. apply walk_leads. rewrite T. destruct H as [(-> & NN & H)|[H L]].
    + destruct ns as [|b ns]; [destruct (NN eq_refl)|]. cbn. constructor; [left; reflexivity|exact H].
    + destruct n as [|c n]; cbn.
      * destruct H as [H| ->]; [destruct (H eq_refl)|exact L].
      * destruct (Ascii.eqb_spec c "/"%char) as [->|_]; [|exact L]. destruct (F _ (or_introl eq_refl)). left. reflexivity.
  - intros H. symmetry in H. apply walk_leads in H. exists n, ns. split; [exact T|]. split; [exact F|]. rewrite T in H. destruct n as [|c n]; cbn in H.
    + destruct ns as [|b ns]; cbn in H; [right; split; [right; reflexivity|exact H]|]. left. split; [reflexivity|]. split; [discriminate|].
      inversion H; subst; [assumption|congruence].
    + right. split; [left; discriminate|]. destruct (Ascii.eqb_spec c "/"%char) as [->|_]; [|exact H]. destruct (F _ (or_introl eq_refl)). left. reflexivity.
Qed.

Section Settings.
Context {N : Num}.
Variable as_int : list ascii -> option Z.
Variable as_dbl : list ascii -> option num.
Variable as_bool : list ascii -> option bool.

Lemma settings_loaded dbg dir y s pp cores :
  loadSettingYaml as_int as_dbl as_bool dbg dir y = Ok (s, pp, cores) <->
  s_asserts s = dbg /\ settings_in as_int as_dbl as_bool y dir s pp cores /\ s_reMax s = max3 (s_reN s) (s_reG s) (s_reL s).
Proof.
  unfold settings_in. split.
  - unfold loadSettingYaml. intros H.
    do 35 (binds H).
    repeat match goal with
    | E : req _ _ _ = Ok _ |- _ => apply req_ok in E
    | E : req_at _ _ _ _ = Ok _ |- _ => apply req_at_ok in E
    | E : opt _ _ _ _ = Ok _ |- _ => apply opt_ok in E
    | E : req_string _ _ = Ok _ |- _ => apply req_string_ok in E
    end.
    injection H as <- <- <-.
    cbn [s_asserts s_dim s_l0 s_dt s_endTime s_outputPeriod s_cfl s_domain s_nu s_rho0 s_xyzInput s_gravity s_gNorm s_gAngle s_sd_nd s_sd_dist s_sd_dist_thr s_method s_compress s_relax s_c s_colDist s_restitution s_reN s_reG s_reL s_reMax s_particlesPath s_vtkBinary vx vy vz xMin xMax yMin yMax zMin zMax xLength yLength zLength].
    repeat match goal with |- _ /\ _ => split | |- exists _, _ => eexists | |- let _ := _ in _ => intro end; try reflexivity; try eassumption; apply resolve_iff; reflexivity.
  - intros (A & H & M). destruct s as [asserts dim l0 dt endTime period cfl d nu rho xyz g gn ga snd sd sdt meth comp relax c col rest reN reG reL reMax pt bin]. destruct d as [d1 d2 d3 d4 d5 d6 d7 d8 d9]. destruct g as [g1 g2 g3].
    cbn [s_asserts s_dim s_l0 s_dt s_endTime s_outputPeriod s_cfl s_domain s_nu s_rho0 s_xyzInput s_gravity s_gNorm s_gAngle s_sd_nd s_sd_dist s_sd_dist_thr s_method s_compress s_relax s_c s_colDist s_restitution s_reN s_reG s_reL s_reMax s_particlesPath s_vtkBinary vx vy vz xMin xMax yMin yMax zMin zMax xLength yLength zLength] in *.
    cbv zeta in H.
    repeat match type of H with _ /\ _ => let E := fresh "E" in destruct H as [E H] end.
    repeat match goal with
    | E : exists _, _ |- _ => destruct E
    | E : _ /\ _ |- _ => destruct E
    end.
    repeat match goal with
    | E : says _ _ _ _ |- _ => apply req_ok in E
    | E : says_at _ _ _ _ _ |- _ => apply req_at_ok in E
    | E : says_or _ _ _ _ _ |- _ => apply opt_ok in E
    | E : says_text _ _ _ |- _ => apply req_string_ok in E
    | E : denotes _ _ _ |- _ => apply resolve_iff in E
    end.
    subst.
    unfold loadSettingYaml.
    repeat match goal with E : ?x = Ok _ |- context [ bind ?x _ ] => rewrite E; cbn [bind] end.
    reflexivity.
Qed.
End Settings.

(** ** File system *)
Lemma put_same fs p e : put fs p e p = Some e.
Proof. unfold put. destruct (path_dec p p); congruence. Qed.
Lemma put_other fs p e q : q <> p -> put fs p e q = fs q.
Proof. unfold put. destruct (path_dec q p); congruence. Qed.
Lemma put_fresh fs p e : fs p = None -> preserved fs (put fs p e).
Proof. intros N q e' E. rewrite put_other; [exact E|]. intros ->. congruence. Qed.
Lemma preserved_refl fs : preserved fs fs.
Proof. intros p e E; exact E. Qed.
Lemma preserved_trans a b c : preserved a b -> preserved b c -> preserved a c.
Proof. intros H K p e E. apply K, H, E. Qed.
Lemma parent_snoc (p : path) n : parent (p ++ [n]) = p.
Proof. apply removelast_last. Qed.
Lemma filename_snoc (p : path) n : filename (p ++ [n]) = n.
Proof. apply last_last. Qed.
Lemma there_none fs p : there fs p = false <-> fs p = None.
Proof. unfold there. destruct (fs p); split; congruence. Qed.

Lemma after_ok {A B} (m : act A) (k : A -> act B) fs fs' b : after m k fs = (fs', Ok b) -> exists fs1 a, m fs = (fs1, Ok a) /\ k a fs1 = (fs', Ok b).
Proof. unfold after. destruct (m fs) as [fs1 [a|u| |c| |]]; intros H; try discriminate. exists fs1, a. auto. Qed.
(** what holds of every file system reached by the parts holds of the whole *)
Lemma after_inv {A B} (P : filesystem -> filesystem -> Prop) (m : act A) (k : A -> act B) fs fs' o :
  (forall a b c, P a b -> P b c -> P a c) ->
  (forall fs1 o1, m fs = (fs1, o1) -> P fs fs1) -> (forall fs1 a fs2 o2, m fs = (fs1, Ok a) -> k a fs1 = (fs2, o2) -> P fs1 fs2) ->
  after m k fs = (fs', o) -> P fs fs'.
Proof.
  intros T H K E. unfold after in E. destruct (m fs) as [fs1 o1] eqn:M. specialize (H fs1 o1 eq_refl).
  destruct o1 as [a|u| |c| |]; try (injection E as <- <-; exact H).
  eapply T; [exact H|]. eapply K; [reflexivity|exact E].
Qed.

(** a copy: the target did not exist, and gets the bytes of the source *)
Lemma copy_inv p out fs fs' o : copyInputFile p out fs = (fs', o) ->
  (fs' = fs /\ ((o = Exit (-1) /\ fs (out ++ [filename p]) <> None) \/ (o = Throw /\ fs (out ++ [filename p]) = None)))
  \/ (o = Ok tt /\ fs (out ++ [filename p]) = None /\ fs out = Some Folder /\
      exists b, fs p = Some (File b) /\ fs' = put fs (out ++ [filename p]) (File b)).
Proof.
  unfold copyInputFile, copy_file. rewrite parent_snoc. destruct (there fs (out ++ [filename p])) eqn:T.
  - intros [= <- <-]. left. split; [reflexivity|]. left. split; [reflexivity|]. intros N. apply there_none in N. congruence.
  - apply there_none in T. destruct (fs p) as [[b|]|] eqn:Sp; destruct (fs out) as [[b'|]|] eqn:So; intros [= <- <-];
      try (left; split; [reflexivity|right; split; [reflexivity|exact T]]).
    right. repeat split; try assumption. exists b. auto.
Qed.
Lemma copy_done p out fs b : fs p = Some (File b) -> fs out = Some Folder -> fs (out ++ [filename p]) = None ->
  copyInputFile p out fs = (put fs (out ++ [filename p]) (File b), Ok tt).
Proof. intros S O T. unfold copyInputFile, copy_file. rewrite parent_snoc. apply there_none in T. rewrite T, S, O. reflexivity. Qed.
Lemma copy_preserved p out fs fs' o : copyInputFile p out fs = (fs', o) -> preserved fs fs'.
Proof. intros H. apply copy_inv in H as [[-> _]|(_ & T & _ & b & _ & ->)]; [apply preserved_refl|apply put_fresh, T]. Qed.

Section Load.
Variable parse : list ascii -> option node.
Variable as_int : list ascii -> option Z.
Variable as_dbl : list ascii -> option f64.
Variable as_bool : list ascii -> option bool.
Variable cell_int : list ascii -> option Z.
Variable cell_dbl : list ascii -> option f64.
Notation load := (load parse as_int as_dbl as_bool cell_int cell_dbl).
Notation loadParticles := (loadParticles cell_int cell_dbl).
Notation loadSettings := (@loadSettingYaml F64 as_int as_dbl as_bool).

Lemma yaml_ok fs p y : yaml_file parse fs p = Ok y <-> exists b, fs p = Some (File b) /\ parse b = Some y.
Proof.
  unfold yaml_file. split.
  - destruct (fs p) as [[b|]|]; try discriminate. destruct (parse b) eqn:E; [|discriminate]. intros [= ->]. exists b. auto.
  - intros (b & -> & ->). reflexivity.
Qed.

Lemma load_copies dbg setting out fs fs' o : load dbg setting out fs = (fs', o) ->
  fs' = fs \/ (fs (out ++ [filename setting]) = None /\ exists b, fs' = put fs (out ++ [filename setting]) (File b)) \/
  (exists pp b b', fs (out ++ [filename setting]) = None /\ put fs (out ++ [filename setting]) (File b) (out ++ [filename pp]) = None /\
     fs' = put (put fs (out ++ [filename setting]) (File b)) (out ++ [filename pp]) (File b')).
Proof.
  unfold Loader.load, ret, after.
  destruct (yaml_file parse fs setting) as [y|u| |c| |]; try (intros [= <- <-]; left; reflexivity).
  destruct (loadSettings dbg (parent setting) y) as [[[s pp] cores]|u| |c| |]; try (intros [= <- <-]; left; reflexivity).
  destruct (loadParticles dbg (s_rho0 s) fs pp) as [[t ps]|u| |c| |]; try (intros [= <- <-]; left; reflexivity).
  destruct (copyInputFile setting out fs) as [fs1 o1] eqn:C1. apply copy_inv in C1 as [[-> [[-> T]|[-> T]]]|(-> & T & O & b & S & ->)];
    try (intros [= <- <-]; left; reflexivity).
  destruct (copyInputFile pp out _) as [fs2 o2] eqn:C2. apply copy_inv in C2 as [[-> [[-> T2]|[-> T2]]]|(-> & T2 & O2 & b2 & S2 & ->)];
    intros [= <- <-]; right; [left; eauto|left; eauto|right]. exists pp, b, b2. auto.
Qed.

Lemma load_preserved dbg setting out fs fs' o : load dbg setting out fs = (fs', o) -> preserved fs fs'.
Proof.
  intros H. apply load_copies in H as [->|[(T & b & ->)|(pp & b & b' & T & T2 & ->)]].
  - apply preserved_refl.
  - apply put_fresh, T.
  - eapply preserved_trans; apply put_fresh; assumption.
Qed.

Lemma load_ok dbg setting out fs fs' i : load dbg setting out fs = (fs', Ok i) ->
  exists sb y pp cores pb,
    fs setting = Some (File sb) /\ parse sb = Some y /\
    loadSettings dbg (parent setting) y = Ok (i_settings i, pp, cores) /\
    loadParticles dbg (s_rho0 (i_settings i)) fs pp = Ok (i_start i, i_particles i) /\
    fs pp = Some (File pb) /\ fs out = Some Folder /\
    fs (out ++ [filename setting]) = None /\ fs (out ++ [filename pp]) = None /\ filename setting <> filename pp /\
    fs' = put (put fs (out ++ [filename setting]) (File sb)) (out ++ [filename pp]) (File pb).
Proof.
  unfold Loader.load. intros H.
  apply after_ok in H as (f1 & y & H1 & H). injection H1 as <- H1. apply yaml_ok in H1 as (sb & S & P).
  apply after_ok in H as (f1 & [[s pp] cores] & H2 & H). injection H2 as <- H2.
  apply after_ok in H as (f1 & [t ps] & H3 & H). injection H3 as <- H3.
  apply after_ok in H as (f1 & [] & H4 & H). apply copy_inv in H4 as [[_ [[F _]|[F _]]]|(_ & T & O & b & S' & ->)]; try discriminate.
  apply after_ok in H as (f2 & [] & H5 & H). apply copy_inv in H5 as [[_ [[F _]|[F _]]]|(_ & T' & O' & b' & S2 & ->)]; try discriminate.
  injection H as <- <-. rewrite S in S'. injection S' as <-.
  assert (NE : filename setting <> filename pp).
  { intros E. rewrite E in T'. rewrite put_same in T'. discriminate. }
  assert (T2 : fs (out ++ [filename pp]) = None).
  { rewrite put_other in T'; [exact T'|]. intros E. apply app_inv_head in E. congruence. }
  exists sb, y, pp, cores, b'. cbn [i_settings i_start i_particles]. repeat split; try assumption.
  (* the source of the second copy is not the first copy *)
  destruct (path_dec pp (out ++ [filename setting])) as [E|E].
  - exfalso. apply NE. rewrite E. rewrite filename_snoc. reflexivity.
  - rewrite put_other in S2 by exact E. exact S2.
Qed.

Lemma load_complete dbg setting out fs sb y s pp cores t ps pb :
  fs setting = Some (File sb) -> parse sb = Some y ->
  loadSettings dbg (parent setting) y = Ok (s, pp, cores) ->
  loadParticles dbg (s_rho0 s) fs pp = Ok (t, ps) -> fs pp = Some (File pb) -> fs out = Some Folder ->
  fs (out ++ [filename setting]) = None -> fs (out ++ [filename pp]) = None -> filename setting <> filename pp ->
  load dbg setting out fs = (put (put fs (out ++ [filename setting]) (File sb)) (out ++ [filename pp]) (File pb), Ok (mkI s ps t)).
Proof.
  intros S P L Q B O T1 T2 NE.
  assert (OS : forall n, out <> out ++ [n]) by (intros n E; rewrite <- (app_nil_r out) in E at 1; apply app_inv_head in E; discriminate).
  unfold Loader.load, ret, after. assert (Y : yaml_file parse fs setting = Ok y) by (apply yaml_ok; eauto). rewrite Y, L, Q.
  rewrite (copy_done setting out fs sb S O T1). rewrite (copy_done pp out _ pb); [reflexivity| | |].
  - rewrite put_other; [exact B|]. intros E. rewrite E, filename_snoc in NE. congruence.
  - rewrite put_other; [exact O|apply OS].
  - rewrite put_other; [exact T2|]. intros E. apply app_inv_head in E. congruence.
Qed.

(** the reasons for exit(-1) *)
Lemma load_bad_extension dbg setting out fs sb y s pp cores :
  fs setting = Some (File sb) -> parse sb = Some y ->
  loadSettings dbg (parent setting) y = Ok (s, pp, cores) ->
  ~ In (extension pp) [lit ".csv"; lit ".prof"; lit ".vtu"] ->
  load dbg setting out fs = (fs, Exit (-1)).
Proof.
  intros S P L X. unfold Loader.load, ret, after. assert (Y : yaml_file parse fs setting = Ok y) by (apply yaml_ok; eauto). rewrite Y, L.
  unfold Loader.loadParticles. rewrite !text_eqb_neq; [reflexivity| | |]; intros E; apply X; rewrite E; simpl; auto.
Qed.
Lemma load_target_exists dbg setting out fs sb y s pp cores t ps :
  fs setting = Some (File sb) -> parse sb = Some y ->
  loadSettings dbg (parent setting) y = Ok (s, pp, cores) ->
  loadParticles dbg (s_rho0 s) fs pp = Ok (t, ps) -> fs out = Some Folder ->
  fs (out ++ [filename setting]) <> None \/ fs (out ++ [filename pp]) <> None ->
  snd (load dbg setting out fs) = Exit (-1).
Proof.
  intros S P L Q O X. unfold Loader.load, ret, after. assert (Y : yaml_file parse fs setting = Ok y) by (apply yaml_ok; eauto). rewrite Y, L, Q.
  unfold copyInputFile at 1. destruct (there fs (out ++ [filename setting])) eqn:T1; [reflexivity|].
  apply there_none in T1. destruct X as [X|X]; [congruence|].
  unfold copy_file. rewrite parent_snoc, S, O.
  unfold copyInputFile. replace (there (put fs (out ++ [filename setting]) (File sb)) (out ++ [filename pp])) with true; [reflexivity|].
  unfold there. destruct (path_dec (out ++ [filename pp]) (out ++ [filename setting])) as [E|E].
  - rewrite E, put_same. reflexivity.
  - rewrite put_other by exact E. destruct (fs (out ++ [filename pp])); congruence.
Qed.
End Load.

Lemma settings_accepted {N : Num} as_int as_dbl as_bool dbg dir y s pp cores :
  settings_in as_int as_dbl as_bool y dir s pp cores ->
  exists s', loadSettingYaml as_int as_dbl as_bool dbg dir y = Ok (s', pp, cores) /\ settings_in as_int as_dbl as_bool y dir s' pp cores.
Proof.
  intros H.
  pose (s' := mkS dbg (s_dim s) (s_l0 s) (s_dt s) (s_endTime s) (s_outputPeriod s) (s_cfl s) (s_domain s) (s_nu s) (s_rho0 s) (s_xyzInput s) (s_gravity s) (s_gNorm s)
    (s_gAngle s) (s_sd_nd s) (s_sd_dist s) (s_sd_dist_thr s) (s_method s) (s_compress s) (s_relax s) (s_c s) (s_colDist s) (s_restitution s) (s_reN s) (s_reG s) (s_reL s)
    (max3 (s_reN s) (s_reG s) (s_reL s)) (s_particlesPath s) (s_vtkBinary s)).
  assert (H' : settings_in as_int as_dbl as_bool y dir s' pp cores) by exact H.
  exists s'. split; [|exact H']. apply settings_loaded. split; [reflexivity|]. split; [exact H'|reflexivity].
Qed.
