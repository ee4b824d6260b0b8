(** * Where undefined behaviour can come from *)
From Coq Require Import Reals Lra String Classical_Prop.
From Flocq Require Import Core.Core IEEE754.BinarySingleNaN.
From Verif Require Import FloatFacts SimF TotalR NanFacts CsvFacts ResumeFiles ResumeRun StepCasesF BinFacts.
From Verif Require Export SpecInventory ProgramEnds.
Open Scope list_scope.
Open Scope Z_scope.
#[local] Remove Hints Rnum : typeclass_instances.

Definition clean {A} (o : outcome A) : Prop := forall u, o <> Undef u.
Lemma bind_undef {A B} (o : outcome A) (k : A -> outcome B) u : bind o k = Undef u -> o = Undef u \/ exists a, o = Ok a /\ k a = Undef u.
Proof. destruct o; cbn; intros H; try discriminate; [right; eauto|left; congruence]. Qed.
Lemma after_undef {A B} (m : act A) (k : A -> act B) fs fs' u : after m k fs = (fs', Undef u) ->
  m fs = (fs', Undef u) \/ exists f1 a, m fs = (f1, Ok a) /\ k a f1 = (fs', Undef u).
Proof. unfold after. destruct (m fs) as [f1 [a|v| |c| |]] eqn:E; intros H; try discriminate; [right; eauto|left; congruence]. Qed.
Lemma clean_bind {A B} (o : outcome A) (k : A -> outcome B) : clean o -> (forall a, clean (k a)) -> clean (bind o k).
Proof. intros H K u E. apply bind_undef in E as [E|(a & _ & E)]; [exact (H u E)|exact (K a u E)]. Qed.
Lemma clean_ok {A} (a : A) : clean (Ok a). Proof. intros u; discriminate. Qed.
Lemma clean_throw {A} : clean (@Throw A). Proof. intros u; discriminate. Qed.
Lemma clean_exit {A} c : clean (@Exit A c). Proof. intros u; discriminate. Qed.
Lemma clean_assert b c : clean (cassert b c). Proof. unfold cassert. intros u. repeat match goal with |- context [if ?x then _ else _] => destruct x end; discriminate. Qed.
#[local] Hint Resolve clean_ok clean_throw clean_exit clean_assert : clean.

(** ** Settings *)
Section Yaml.
Context {N : Num}.
Lemma clean_at_key n k : clean (at_key n k). Proof. destruct n as [[| | |]|]; cbn; auto with clean. Qed.
Lemma clean_at_index n k : clean (at_index n k). Proof. destruct n as [[| | |]|]; cbn; auto with clean. Qed.
Lemma clean_as {A} (conv : list ascii -> option A) n : clean (as_ conv n). Proof. destruct n as [[| | |]|]; cbn; auto with clean. destruct (conv t); auto with clean. Qed.
Lemma clean_as_string n : clean (as_string n). Proof. destruct n as [[| | |]|]; cbn; auto with clean. Qed.
Lemma clean_req {A} (conv : list ascii -> option A) y k : clean (req conv y k). Proof. apply clean_bind; intros; [apply clean_at_key|apply clean_as]. Qed.
Lemma clean_req_string y k : clean (req_string y k). Proof. apply clean_bind; intros; [apply clean_at_key|apply clean_as_string]. Qed.
Lemma clean_req_at {A} (conv : list ascii -> option A) y k i : clean (req_at conv y k i). Proof. apply clean_bind; intros; [apply clean_at_key|]. apply clean_bind; intros; [apply clean_at_index|apply clean_as]. Qed.
Lemma clean_opt {A} (conv : list ascii -> option A) y k d : clean (opt conv y k d). Proof. apply clean_bind; intros; [apply clean_at_key|]. destruct a; [apply clean_as|apply clean_ok]. Qed.
Lemma clean_settings as_int as_dbl as_bool dbg dir y : clean (loadSettingYaml as_int as_dbl as_bool dbg dir y).
Proof. unfold loadSettingYaml. repeat (apply clean_bind; [first [apply clean_req|apply clean_req_at|apply clean_opt|apply clean_req_string]|intros]). apply clean_ok. Qed.

(** ** Construction *)
Lemma clean_foldM {A B} (f : A -> B -> outcome B) : (forall a b, clean (f a b)) -> forall l b, clean (foldM f l b).
Proof. intros H. induction l as [|a l IH]; intros b; cbn [foldM]; [apply clean_ok|]. apply clean_bind; auto. Qed.
Lemma clean_ref dbg dim l0 re : clean (newRefValues dbg dim l0 re).
Proof.
  unfold newRefValues. apply clean_bind; [apply clean_assert|intros]. apply clean_bind; [apply clean_assert|intros]. apply clean_bind; [|intros [? ?]; apply clean_ok].
  apply clean_foldM. intros [[iX iY] iZ] [x1 x2]. unfold ref_step. cbv zeta. apply clean_bind; [|intros; apply clean_ok].
  unfold weight. apply clean_bind; [apply clean_assert|intros; apply clean_ok].
Qed.
Lemma clean_factory fsin fcos pi s ps u : factoryCreate fsin fcos pi s ps = Undef u -> newSearcher (s_reMax s) (s_domain s) (List.length ps) = Undef u.
Proof.
  unfold factoryCreate. cbv zeta. intros H. apply bind_undef in H as [H|(det & _ & H)].
  { exfalso. revert H. unfold factoryDetector. apply clean_bind; [apply clean_ref|intros; apply clean_ok]. }
  apply bind_undef in H as [H|(k & _ & H)].
  { exfalso. revert H. unfold factoryCalculator. destruct (String.eqb _ _); [|destruct (String.eqb _ _); [|apply clean_exit]]; repeat (apply clean_bind; [apply clean_ref|intros]); apply clean_ok. }
  unfold newMPS in H. apply bind_undef in H as [H|(ns & _ & H)]; [exact H|]. exfalso. revert H. repeat (apply clean_bind; [apply clean_ref|intros]). apply clean_ok.
Qed.
End Yaml.

Lemma domain_fits (s : @settings F64) : ~ bad_domain s -> radiusF (s_reMax s) /\ proper_domainF (s_domain s) /\
  forall n u, @newSearcher F64 (s_reMax s) (s_domain s) n <> Undef u.
Proof.
  unfold bad_domain. cbv zeta. intros H. apply not_or_and in H as (H1 & H). apply not_or_and in H as (H2 & H). apply not_or_and in H as (H3 & H). apply not_or_and in H as (H4 & H). apply not_or_and in H as (H5 & H6).
  apply NNPP in H1, H2. apply not_false_is_true in H3, H4, H5. split; [exact H1|]. split; [exact H2|]. intros n u E.
  destruct (C04_lemma_F (s_reMax s) (s_domain s) n H1 H2 H3 H4 H5) as ((ns & E') & _); [unfold cells_along in H6; apply Z.nlt_ge in H6; exact H6|]. congruence.
Qed.

(** ** Particle files *)
Lemma clean_add dbg (ps : list Files.particle) p : clean (add_particle dbg ps p).
Proof. unfold add_particle. apply clean_bind; [apply clean_assert|intros; apply clean_ok]. Qed.
Lemma stored3_undef o u : stored3 o = Undef u -> u = Uninit /\ (let '(x, y, z) := o in x = None \/ y = None \/ z = None).
Proof.
  destruct o as [[x y] z]. cbn. destruct x; cbn; [|intros [= <-]; auto]. destruct y; cbn; [|intros [= <-]; auto]. destruct z; cbn; [discriminate|intros [= <-]; auto].
Qed.

(** *** prof *)
Lemma skip_all l : skip_ws l = [] <-> Forall (fun c => is_space c = true) l.
Proof.
  induction l as [|c l IH]; cbn [skip_ws]; [split; [constructor|reflexivity]|]. destruct (is_space c) eqn:E.
  - rewrite IH. split; [constructor; auto|]. intros H. inversion H; auto.
  - split; [discriminate|]. intros H. inversion H; congruence.
Qed.
Lemma extract_none {A} (get : list ascii -> A * bool * list ascii) s : fst (extract get s) = None <-> used_up s.
Proof.
  unfold used_up, extract. destruct (st_fail s); [split; auto|]. rewrite <- skip_all. destruct (skip_ws (st_rest s)) as [|c l]; [split; auto|].
  destruct (get (c :: l)) as [[a ok] r]. cbn. split; [discriminate|]. intros [K|K]; discriminate.
Qed.
Lemma used_next {A} (get : list ascii -> A * bool * list ascii) s : used_up s -> used_up (snd (extract get s)).
Proof.
  unfold used_up, extract. destruct (st_fail s) eqn:E; [intros _; left; exact E|]. rewrite <- skip_all. intros [K|K]; [discriminate|]. rewrite K. left; reflexivity.
Qed.
Lemma used_numbers k : forall s, used_up s -> used_up (read_numbers k s).
Proof. induction k as [|k IH]; intros s H; cbn [read_numbers]; [exact H|]. apply IH, used_next, H. Qed.
Lemma used_values k s : used_up s -> used_up (read_values k s).
Proof. intros H. apply used_numbers, used_next, H. Qed.
Lemma used_rows k : forall s, used_up s -> used_up (behind_rows k s).
Proof. induction k as [|k IH]; intros s H; cbn [behind_rows]; [exact H|]. apply IH, used_values, H. Qed.

Lemma extract3_eq s : extract3 s = (fst (extract get_double s), fst (extract get_double (read_numbers 1 s)), fst (extract get_double (read_numbers 2 s)), read_numbers 3 s).
Proof.
  unfold extract3. cbn [read_numbers]. destruct (extract get_double s) as [x s1]. cbn [fst snd]. destruct (extract get_double s1) as [y s2]. cbn [fst snd]. destruct (extract get_double s2) as [z s3]. reflexivity.
Qed.
Lemma numbers_add a : forall b s, read_numbers b (read_numbers a s) = read_numbers (a + b) s.
Proof. induction a as [|a IH]; intros b s; cbn [read_numbers Nat.add]; [reflexivity|]. apply IH. Qed.
(** one row *)
Lemma row_eq dbg rho n s ps : prof_rows dbg rho (Datatypes.S n) s ps =
  (pos <- stored3 (fst (extract get_double (read_values 0 s)), fst (extract get_double (read_values 1 s)), fst (extract get_double (read_values 2 s))) ;;
   vel <- stored3 (fst (extract get_double (read_values 3 s)), fst (extract get_double (read_values 4 s)), fst (extract get_double (read_values 5 s))) ;;
   ps <- add_particle dbg ps (newParticle (Z.of_nat (List.length ps)) (or_else (fst (extract get_int s)) 0) pos vel rho 0) ;;
   prof_rows dbg rho n (read_values 6 s) ps).
Proof.
  cbn [prof_rows]. unfold read_values. destruct (extract get_int s) as [ty s1]. cbn [fst snd]. rewrite extract3_eq. rewrite extract3_eq. rewrite !numbers_add. reflexivity.
Qed.
Lemma used_mono i j s : (i <= j)%nat -> used_up (read_values i s) -> used_up (read_values j s).
Proof. intros L H. unfold read_values in *. replace j with (i + (j - i))%nat by lia. rewrite <- numbers_add. now apply used_numbers. Qed.
Lemma stored3_used s i j k u : (i <= 5)%nat -> (j <= 5)%nat -> (k <= 5)%nat ->
  stored3 (fst (extract get_double (read_values i s)), fst (extract get_double (read_values j s)), fst (extract get_double (read_values k s))) = Undef u -> u = Uninit /\ used_up (read_values 5 s).
Proof.
  intros I J K E. apply stored3_undef in E as (E & H). split; [exact E|]. destruct H as [H|[H|H]]; apply extract_none in H; [apply (used_mono i)|apply (used_mono j)|apply (used_mono k)]; assumption.
Qed.

Lemma prof_rows_undef dbg rho u : forall n s ps, prof_rows dbg rho n s ps = Undef u -> u = Uninit /\ exists k, (k < n)%nat /\ used_up (read_values 5 (behind_rows k s)).
Proof.
  induction n as [|n IH]; intros s ps H; [discriminate|]. rewrite row_eq in H. apply bind_undef in H as [H|(pos & _ & H)].
  { apply stored3_used in H as (E & H); try lia. split; [exact E|]. exists 0%nat. split; [lia|exact H]. }
  apply bind_undef in H as [H|(vel & _ & H)].
  { apply stored3_used in H as (E & H); try lia. split; [exact E|]. exists 0%nat. split; [lia|exact H]. }
  apply bind_undef in H as [H|(ps1 & _ & H)]; [exfalso; exact (clean_add _ _ _ _ H)|].
  destruct (IH _ _ H) as (E & k & L & K). split; [exact E|]. exists (Datatypes.S k). split; [lia|exact K].
Qed.
Lemma stored3_ways o : (exists v, stored3 o = Ok v) \/ stored3 o = Undef Uninit.
Proof. destruct o as [[[x|] [y|]] [z|]]; cbn; eauto. Qed.
Lemma stored3_last x y : forall v, stored3 (x, y, None) <> Ok v.
Proof. destruct x, y; discriminate. Qed.
Lemma prof_rows_cut rho k : forall n s ps, (k < n)%nat -> used_up (read_values 5 (behind_rows k s)) -> prof_rows false rho n s ps = Undef Uninit.
Proof.
  induction k as [|k IH]; intros n s ps L H; (destruct n as [|n]; [lia|]); rewrite row_eq.
  - destruct (stored3_ways (fst (extract get_double (read_values 0 s)), fst (extract get_double (read_values 1 s)), fst (extract get_double (read_values 2 s)))) as [(v & ->)| ->]; [|reflexivity]. cbn [bind].
    cbn [behind_rows] in H. apply (extract_none get_double) in H. rewrite H.
    destruct (stored3_ways (fst (extract get_double (read_values 3 s)), fst (extract get_double (read_values 4 s)), None)) as [(w & E)| ->]; [exfalso; exact (stored3_last _ _ _ E)|reflexivity].
  - destruct (stored3_ways (fst (extract get_double (read_values 0 s)), fst (extract get_double (read_values 1 s)), fst (extract get_double (read_values 2 s)))) as [(v & ->)| ->]; [|reflexivity]. cbn [bind].
    destruct (stored3_ways (fst (extract get_double (read_values 3 s)), fst (extract get_double (read_values 4 s)), fst (extract get_double (read_values 5 s)))) as [(w & ->)| ->]; [|reflexivity]. cbn [bind].
    unfold add_particle, cassert. cbn [andb bind]. apply IH; [lia|exact H].
Qed.
Lemma prof_eq dbg rho file : let s := snd (extract get_double (mkStream file false)) in
  prof_load dbg rho file = (ps <- prof_rows dbg rho (Z.to_nat (or_else (fst (extract get_int s)) 0)) (snd (extract get_int s)) [] ;; Ok (or_else (fst (extract get_double (mkStream file false))) B754_nan, ps)).
Proof. cbv zeta. unfold prof_load. destruct (extract get_double (mkStream file false)) as [t s]. cbn [fst snd]. destruct (extract get_int s) as [n s1]. reflexivity. Qed.
Lemma prof_undef dbg rho file u : prof_load dbg rho file = Undef u -> u = Uninit /\ cut_short file.
Proof.
  rewrite prof_eq. intros H. apply bind_undef in H as [H|(ps & _ & H)]; [|discriminate]. apply prof_rows_undef in H as (E & k & L & K). split; [exact E|].
  unfold cut_short. cbv zeta. destruct (fst (extract get_int (snd (extract get_double (mkStream file false))))) as [n|]; cbn [or_else] in L; [|cbn in L; lia].
  exists n, k. split; [reflexivity|]. split; [lia|exact K].
Qed.
Lemma prof_cut rho file : cut_short file -> prof_load false rho file = Undef Uninit.
Proof.
  unfold cut_short. cbv zeta. intros (n & k & E & L & K). rewrite prof_eq, E. cbn [or_else]. rewrite (prof_rows_cut rho k); [reflexivity|lia|exact K].
Qed.
Lemma prof_exactly rho file : (exists u, prof_load false rho file = Undef u) <-> cut_short file.
Proof. split; [intros (u & H); exact (proj2 (prof_undef _ _ _ _ H))|]. intros H. exists Uninit. exact (prof_cut _ _ H). Qed.

(** *** csv *)
Lemma lines_head : forall l cur x xs, lines_of l cur = x :: xs -> exists a, x = cur ++ a /\ ~ In nl a /\ ((l = a /\ xs = []) \/ exists r, l = a ++ nl :: r /\ lines_of r [] = xs).
Proof.
  induction l as [|c l IH]; intros cur x xs H; cbn [lines_of] in H.
  - destruct cur; [discriminate|]. injection H as <- <-. exists []. rewrite app_nil_r. split; [reflexivity|]. split; [intros []|]. left; auto.
  - destruct (Ascii.eqb_spec c nl) as [->|D].
    + injection H as <- <-. exists []. rewrite app_nil_r. split; [reflexivity|]. split; [intros []|]. right. exists l. auto.
    + destruct (IH _ _ _ H) as (a & -> & NI & K). exists (c :: a). rewrite <- app_assoc. split; [reflexivity|]. split; [intros [I|I]; [congruence|contradiction]|].
      destruct K as [(-> & K)|(r & -> & K)]; [left; auto|right; exists r; auto].
Qed.
Lemma lines_none l : lines_of l [] = [] -> l = [].
Proof.
  destruct l as [|c l]; [reflexivity|]. cbn [lines_of app]. destruct (Ascii.eqb c nl); [discriminate|]. revert c. intros c0. generalize (@nil ascii). intros cur H. exfalso. revert cur H.
  induction l as [|c l IH]; intros cur H; cbn [lines_of] in H.
  - discriminate.
  - destruct (Ascii.eqb c nl); [discriminate|]. exact (IH _ H).
Qed.
Lemma one_line_none : one_line [].
Proof. intros [|x a] b H; discriminate H. Qed.
Lemma one_line_one l x : lines_of l [] = [x] -> one_line l.
Proof.
  intros H. destruct (lines_head _ _ _ _ H) as (a & _ & NI & [(-> & _)|(r & -> & K)]).
  - intros a' b E. exfalso. apply NI. rewrite E. apply in_or_app. right. left. reflexivity.
  - apply lines_none in K. subst r. clear H x. intros a'. revert a NI. induction a' as [|c a' IH]; intros [|d a] NI b E; cbn [app] in E.
    + congruence.
    + injection E as -> E. exfalso. apply NI. left. reflexivity.
    + injection E as -> E. destruct a'; discriminate E.
    + injection E as -> E. apply (IH a); [|exact E]. intros I. apply NI. right. exact I.
Qed.
Lemma cells_nonempty : forall l cur, exists a r, cells_from cur l = a :: r.
Proof. induction l as [|c l IH]; intros cur; cbn [cells_from]; [eauto|]. destruct (Ascii.eqb c comma); eauto. Qed.
Lemma join_cells : forall l cur, join (cells_from cur l) = cur ++ l.
Proof.
  induction l as [|c l IH]; intros cur; cbn [cells_from]; [cbn [join]; now rewrite app_nil_r|]. destruct (Ascii.eqb_spec c comma) as [->|D].
  - specialize (IH []). destruct (cells_nonempty l []) as (a & r & E). rewrite E in *. cbn [join] in *. rewrite IH. reflexivity.
  - rewrite IH, <- app_assoc. reflexivity.
Qed.
Lemma cells_plain : forall l cur, ~ In nl l -> plain cur -> Forall plain (cells_from cur l).
Proof.
  induction l as [|c l IH]; intros cur NI P; cbn [cells_from]; [constructor; auto|]. assert (NL : ~ In nl l) by (intros I; apply NI; now right).
  destruct (Ascii.eqb_spec c comma) as [->|D].
  - constructor; [exact P|]. apply IH; [exact NL|]. split; intros [].
  - apply IH; [exact NL|]. destruct P as (P1 & P2). split; intros I; apply in_app_or in I as [I|[I|[]]]; try contradiction. apply NI. left. congruence.
Qed.
Lemma header_undef_free l : clean (read_header l).
Proof. unfold read_header. cbv zeta. destruct (_ && _); [apply clean_ok|apply clean_throw]. Qed.
Lemma stod_clean l : clean (stod l).
Proof.
  unfold stod. cbv zeta. destruct (numeral _) as [[[[neg n] e] r]|].
  - destruct (negb _); [apply clean_throw|]. destruct (_ =? 0); [apply clean_ok|]. destruct (nlt _ _); [apply clean_throw|apply clean_ok].
  - destruct (scan_sign _) as [neg l1]. destruct (Files.prefix _ _); [apply clean_ok|]. destruct (Files.prefix _ _); [apply clean_ok|apply clean_throw].
Qed.
Section Csv.
Variable cell_int : list ascii -> option Z.
Variable cell_dbl : list ascii -> option f64.
Lemma cell_clean {A} (conv : list ascii -> option A) c old : clean (read_cell conv c old).
Proof. unfold read_cell. destruct c; [destruct (conv l)|]; auto with clean. Qed.
Lemma row_clean h l v : clean (read_row cell_int cell_dbl h l v).
Proof. unfold read_row. cbv zeta. destruct (negb _); [apply clean_throw|]. repeat (apply clean_bind; [apply cell_clean|intros]). apply clean_ok. Qed.
Lemma under_some name : forall h r, List.length r = List.length h -> In name h -> exists c, under name h r = Some c.
Proof.
  induction h as [|a h IH]; intros r L I; [destruct I|]. destruct r as [|b r]; [discriminate|]. injection L as L. cbn [under]. destruct (text_eqb a name) eqn:E; [eauto|].
  destruct I as [->|I]; [|eauto]. assert (text_eqb name name = true) by now apply CsvFacts.text_eqb_iff. congruence.
Qed.
Lemma cell_some {A} (conv : list ascii -> option A) name h r old o : List.length r = List.length h -> In name h -> read_cell conv (under name h r) old = Ok o -> exists a, o = Some a.
Proof. intros L I H. destruct (under_some name h r L I) as (c & E). rewrite E in H. cbn in H. destruct (conv c); [|discriminate]. inv H. eauto. Qed.
Lemma cell_keeps {A} (conv : list ascii -> option A) c old o : (exists a, old = Some a) -> read_cell conv c old = Ok o -> exists a, o = Some a.
Proof. intros (a & ->) H. destruct c as [t|]; cbn in H; [destruct (conv t); [|discriminate]|]; inv H; eauto. Qed.
Definition partly (v : csv_vars) : Prop := (exists a, cv_ftype v = Some a) /\ (exists a, cv_dens v = Some a).
Lemma csv_rows_undef dbg rho h u : forall ls v ps, partly v -> csv_rows cell_int cell_dbl dbg rho h ls v ps = Undef u -> u = Uninit /\ ~ incl required h.
Proof.
  induction ls as [|l ls IH]; intros v ps PV H; cbn [csv_rows] in H; [discriminate|]. apply bind_undef in H as [H|(v1 & E & H)]; [exfalso; exact (row_clean _ _ _ _ H)|].
  assert (F : partly v1 /\ (incl required h -> (exists a, cv_type v1 = Some a) /\ (exists a, cv_x v1 = Some a) /\ (exists a, cv_y v1 = Some a) /\ (exists a, cv_z v1 = Some a) /\
    (exists a, cv_vx v1 = Some a) /\ (exists a, cv_vy v1 = Some a) /\ (exists a, cv_vz v1 = Some a))).
  { unfold read_row in E. cbv zeta in E. destruct (List.length (cells l) =? List.length h)%nat eqn:EL; [|discriminate]. apply Nat.eqb_eq in EL. cbn [negb] in E.
    apply bind_ok in E as (ty & E1 & E). apply bind_ok in E as (ft & E2 & E). apply bind_ok in E as (x & E3 & E). apply bind_ok in E as (y & E4 & E). apply bind_ok in E as (z & E5 & E).
    apply bind_ok in E as (x' & E6 & E). apply bind_ok in E as (y' & E7 & E). apply bind_ok in E as (z' & E8 & E). apply bind_ok in E as (d & E9 & E). inv E. cbn [cv_type cv_ftype cv_x cv_y cv_z cv_vx cv_vy cv_vz cv_dens].
    destruct PV as (P1 & P2). split; [split; [exact (cell_keeps _ _ _ _ P1 E2)|exact (cell_keeps _ _ _ _ P2 E9)]|].
    intros I. assert (K : forall name, In name required -> In name h) by (intros; now apply I).
    repeat split; (eapply cell_some; [exact EL| |eassumption]; apply K; inn). }
  destruct F as (PV1 & F). destruct (stored3_ways (cv_x v1, cv_y v1, cv_z v1)) as [(pos & EP)|EP]; rewrite EP in H; cbn [bind] in H.
  2:{ inv H. split; [reflexivity|]. intros I. destruct (F I) as (_ & (x & X) & (y & Y) & (z & Z') & _). rewrite X, Y, Z' in EP. discriminate. }
  destruct (stored3_ways (cv_vx v1, cv_vy v1, cv_vz v1)) as [(vel & EV)|EV]; rewrite EV in H; cbn [bind] in H.
  2:{ inv H. split; [reflexivity|]. intros I. destruct (F I) as (_ & _ & _ & _ & (x & X) & (y & Y) & (z & Z')). rewrite X, Y, Z' in EV. discriminate. }
  destruct PV1 as ((ft & PF) & (d & PD)). rewrite PD in H. cbn [Files.stored bind] in H.
  destruct (cv_type v1) as [ty|] eqn:ET; cbn [Files.stored bind] in H.
  2:{ inv H. split; [reflexivity|]. intros I. destruct (F I) as ((t & T) & _). discriminate. }
  rewrite PF in H. cbn [Files.stored bind] in H. apply bind_undef in H as [H|(ps1 & _ & H)]; [exfalso; exact (clean_add _ _ _ _ H)|].
  apply IH in H; [exact H|]. split; cbn; eauto.
Qed.
Lemma csv_undef dbg rho file u : csv_load cell_int cell_dbl dbg rho file = Undef u -> (u = NullDeref /\ one_line file) \/ (u = Uninit /\ lacks_column file).
Proof.
  unfold csv_load. destruct (lines_of file []) as [|l1 rest] eqn:E1; intros H.
  { inv H. left. split; [reflexivity|]. apply lines_none in E1. subst file. apply one_line_none. }
  apply bind_undef in H as [H|(t & _ & H)]; [exfalso; exact (stod_clean _ _ H)|]. destruct rest as [|l2 rest].
  { inv H. left. split; [reflexivity|]. eapply one_line_one; eauto. }
  apply bind_undef in H as [H|(c & _ & H)]; [exfalso; exact (stod_clean _ _ H)|]. destruct rest as [|l3 rows]; [discriminate|].
  apply bind_undef in H as [H|(h & EH & H)]; [exfalso; exact (header_undef_free _ _ H)|]. apply bind_undef in H as [H|(ps & _ & H)]; [|discriminate].
  apply csv_rows_undef in H as (EU & NR); [|split; cbn; eauto]. right. split; [exact EU|].
  destruct (lines_head _ _ _ _ E1) as (a1 & -> & N1 & [(_ & K)|(r1 & -> & K1)]); [discriminate|].
  destruct (lines_head _ _ _ _ K1) as (a2 & -> & N2 & [(_ & K)|(r2 & -> & K2)]); [discriminate|].
  destruct (lines_head _ _ _ _ K2) as (a3 & -> & N3 & K3). cbn [app] in *.
  assert (EC : h = cells a3) by (unfold read_header in EH; cbv zeta in EH; destruct (_ && _); [inv EH; reflexivity|discriminate]). subst h.
  assert (EJ : join (cells a3) = a3) by apply (join_cells a3 []).
  assert (EX : exists name, In name required /\ ~ In name (cells a3)).
  { apply NNPP. intros NE. apply NR. intros name I. apply NNPP. intros NI. apply NE. eauto. }
  destruct EX as (name & I1 & I2). exists a1, a2, (cells a3).
  assert (PL : Forall plain (cells a3)) by (apply cells_plain; [exact N3|split; intros []]).
  destruct K3 as [(-> & _)|(r & -> & _)].
  - exists [], name. rewrite EJ, app_nil_r. repeat split; auto.
  - exists (nl :: r), name. rewrite EJ. repeat split; auto. right. eauto.
Qed.
End Csv.

(** *** vtu *)
Lemma not_used {A} (get : list ascii -> A * bool * list ascii) s : st_fail (snd (extract get s)) = false -> exists a, fst (extract get s) = Some a.
Proof.
  unfold extract. destruct (st_fail s) eqn:E; [cbn; congruence|]. destruct (skip_ws (st_rest s)) as [|c l]; [discriminate|]. destruct (get (c :: l)) as [[a ok] r]. cbn. eauto.
Qed.
Lemma fail_stays {A} (get : list ascii -> A * bool * list ascii) s : st_fail (snd (extract get s)) = false -> st_fail s = false.
Proof. unfold extract. destruct (st_fail s) eqn:E; [cbn; congruence|reflexivity]. Qed.
Lemma line3_clean l : clean (line3 l).
Proof.
  unfold line3. rewrite extract3_eq. destruct (st_fail (read_numbers 3 (mkStream l false))) eqn:F; [apply clean_throw|].
  change (read_numbers 3 (mkStream l false)) with (snd (extract get_double (read_numbers 2 (mkStream l false)))) in F.
  destruct (not_used _ _ F) as (z & ->). apply fail_stays in F. change (read_numbers 2 (mkStream l false)) with (snd (extract get_double (read_numbers 1 (mkStream l false)))) in F.
  destruct (not_used _ _ F) as (y & ->). apply fail_stays in F. change (read_numbers 1 (mkStream l false)) with (snd (extract get_double (mkStream l false))) in F.
  destruct (not_used _ _ F) as (x & ->). apply clean_ok.
Qed.
Lemma line1_clean {A} (get : list ascii -> A * bool * list ascii) l : clean (line1 get l).
Proof.
  unfold line1. destruct (extract get (mkStream l false)) as [a s] eqn:E. destruct (st_fail s) eqn:F; [apply clean_throw|].
  replace s with (snd (extract get (mkStream l false))) in F by now rewrite E. destruct (not_used _ _ F) as (x & X). rewrite E in X. cbn [fst] in X. subst a. apply clean_ok.
Qed.
Lemma clean_diverge {A} : clean (@Diverge A). Proof. intros u; discriminate. Qed.
Lemma block_clean {A} (rd : list ascii -> outcome A) : (forall l, clean (rd l)) -> forall fuel i line acc, clean (block rd fuel i line acc).
Proof.
  intros H. induction fuel as [|fuel IH]; intros i line acc; cbn [block]; [apply clean_diverge|]. destruct (getline i line) as [[ok i1] line1]. destruct (_ && _); [|apply clean_ok].
  apply clean_bind; auto.
Qed.
Lemma body_clean fuel i line v : clean (vtu_body fuel i line v).
Proof.
  unfold vtu_body. repeat (apply clean_bind; [|intros [[? ?] ?]]).
  1:{ destruct (contains _ _); [|apply clean_ok]. destruct (getline i line) as [[ok i1] line1]. apply clean_bind; [apply stod_clean|intros; apply clean_ok]. }
  all: destruct (contains _ _); [|apply clean_ok]; apply clean_bind; [apply block_clean; first [exact line3_clean|exact (line1_clean _)]|intros [[? ?] ?]; apply clean_ok].
Qed.
Lemma vtu_loop_clean : forall fuel i line v, clean (vtu_loop fuel i line v).
Proof.
  induction fuel as [|fuel IH]; intros i line v; cbn [vtu_loop]; [apply clean_diverge|]. destruct (getline i line) as [[ok i1] line1]. destruct ok; [|apply clean_ok].
  apply clean_bind; [apply body_clean|]. intros [[i2 line2] v2]. apply IH.
Qed.
Lemma any_clean pat : forall fuel i, clean (any_line fuel pat i).
Proof.
  induction fuel as [|fuel IH]; intros i; cbn [any_line]; [apply clean_diverge|]. destruct (getline i []) as [[ok i1] line1]. destruct ok; [|apply clean_ok]. destruct (contains _ _); [apply clean_ok|apply IH].
Qed.
Lemma build_clean dbg rho v : forall n i ps, (i + n <= List.length (v_pos v))%nat -> clean (vtu_build dbg rho v i n ps).
Proof.
  induction n as [|n IH]; intros i ps L; cbn [vtu_build]; [apply clean_ok|]. destruct (nth_error (v_pos v) i) eqn:E; [|apply nth_error_None in E; lia].
  cbv zeta. apply clean_bind; [apply clean_add|]. intros ps1. apply IH. lia.
Qed.
Lemma vtu_clean dbg rho file : clean (vtu_load dbg rho file).
Proof.
  unfold vtu_load. cbv zeta. apply clean_bind; [apply any_clean|]. intros [|]; [apply clean_exit|]. apply clean_bind; [apply vtu_loop_clean|]. intros v.
  apply clean_bind; [apply build_clean; lia|intros; apply clean_ok].
Qed.
Lemma particles_undef ci cd dbg rho fs pp u : loadParticles ci cd dbg rho fs pp = Undef u -> exists e, fs pp = Some e /\ bad_file (extension pp) (bytes_of e) u.
Proof.
  unfold loadParticles, bad_file. cbv zeta. destruct (text_eqb (extension pp) (lit ".csv")) eqn:E1.
  { destruct (fs pp) as [e|]; [|discriminate]. intros H. exists e. split; [reflexivity|]. left. split; [now apply CsvFacts.text_eqb_iff|]. now apply csv_undef in H. }
  destruct (text_eqb (extension pp) (lit ".prof")) eqn:E2.
  { destruct (fs pp) as [e|]; [|discriminate]. intros H. exists e. split; [reflexivity|]. right. split; [now apply CsvFacts.text_eqb_iff|]. now apply prof_undef in H. }
  destruct (text_eqb (extension pp) (lit ".vtu")); [|intros H; discriminate H]. destruct (fs pp); [|intros H; discriminate H]. intros H. exfalso. exact (vtu_clean _ _ _ _ H).
Qed.

(** ** Files written *)
Lemma write_undef p text fs fs' u : write_file p text fs = (fs', Undef u) -> text = Undef u.
Proof.
  unfold write_file. destruct (fs p) as [[b|]|]; destruct (fs (parent p)) as [[b'|]|]; try discriminate; destruct text; cbn; intros H; congruence.
Qed.
Lemma vtu_undef big bin t n0 ps u : toVtu big bin t n0 ps = Undef u -> bin = true /\ int_max < Z.of_nat (List.length ps) * 3 /\ u = IntOverflow.
Proof.
  unfold toVtu. destruct bin; [|discriminate]. intros H. destruct (Z.le_gt_cases (Z.of_nat (List.length ps) * 3) int_max) as [L|L].
  - unfold toVtuBinary in H. rewrite cint_small in H by lia. discriminate.
  - split; [reflexivity|]. rewrite vtu_overflow in H by exact L. split; [exact L|congruence].
Qed.
Lemma all_undef big bin out l : forall fs fs' u, saveAll big bin out l fs = (fs', Undef u) ->
  exists o : @output F64, In o l /\ bin = true /\ int_max < Z.of_nat (List.length (m_ps (o_mps o))) * 3 /\ u = IntOverflow.
Proof.
  induction l as [|o l IH]; intros fs fs' u H; cbn [saveAll] in H; [discriminate|]. apply after_undef in H as [H|(f1 & [] & _ & H)].
  - unfold saveFiles in H. cbv zeta in H. apply after_undef in H as [H|(f1 & [] & _ & H)]; [apply write_undef in H; discriminate|].
    apply after_undef in H as [H|(f2 & [] & _ & H)]; [|apply write_undef in H; discriminate]. apply write_undef, vtu_undef in H. exists o. split; [now left|exact H].
  - apply IH in H as (o' & I & H). exists o'. split; [now right|exact H].
Qed.

(** ** The loop *)
Section Loop.
Variables (big : bool) (S : @solver F64) (real : Z) (clk : nat -> Z * Z) (bin : bool) (out : path) (st0 : @sim F64).
Hypothesis F0 : fresh st0.
Definition wide (u : ub) : Prop := bin = true /\ int_max < Z.of_nat (List.length (m_ps (si_mps st0))) * 3 /\ u = IntOverflow.
Lemma out_length k st o : reached S real clk st0 k st -> In o (si_out st) -> List.length (m_ps (o_mps o)) = List.length (m_ps (si_mps st0)).
Proof.
  intros R I. destruct (reached_schedule _ _ _ _ _ _ F0 R) as (_ & SC & _). apply In_nth_error in I. destruct I as [j I]. destruct (SC j o I) as (_ & s & _ & _ & _ & St).
  exact (steps_length _ _ _ _ St).
Qed.
Lemma news_in st st' o : In o (@news st st') -> In o (si_out st').
Proof. unfold news. intros I. rewrite <- (firstn_skipn (List.length (si_out st)) (si_out st')). apply in_or_app. now right. Qed.
Lemma loop_undef : forall fuel k st fs fs' u, reached S real clk st0 k st -> loopFiles big S real clk bin out fuel k st fs = (fs', Undef u) ->
  wide u \/ exists k1 st1, reached S real clk st0 k1 st1 /\ nlt (si_time st1) (si_end st1) = true /\ iteration S real (clk k1) st1 = Undef u.
Proof.
  induction fuel as [|fuel IH]; intros k st fs fs' u R H; cbn [loopFiles] in H; destruct (nlt (si_time st) (si_end st)) eqn:L; try discriminate.
  apply after_undef in H as [H|(f1 & st' & H1 & H)]; [right; exists k, st; split; [exact R|]; split; [exact L|]; unfold ret in H; congruence|].
  injection H1 as <- H1. assert (R' := reached_S _ _ _ _ _ _ _ R L H1). apply after_undef in H as [H|(f2 & [] & _ & H)]; [|exact (IH _ _ _ _ _ R' H)].
  left. apply all_undef in H as (o & I & B & Lg & E). split; [exact B|]. split; [|exact E]. rewrite <- (out_length _ _ o R'); [exact Lg|]. exact (news_in _ _ _ I).
Qed.
Lemma runFiles_undef fuel fs fs' u : runFiles big S real clk bin out fuel st0 fs = (fs', Undef u) ->
  wide u \/ exists k1 st1, reached S real clk st0 k1 st1 /\ nlt (si_time st1) (si_end st1) = true /\ iteration S real (clk k1) st1 = Undef u.
Proof.
  unfold runFiles. intros H. apply after_undef in H as [H|(f1 & st' & H1 & H)].
  { exfalso. unfold ret in H. injection H as <- H. unfold save in H. rewrite (proj1 (proj2 (proj2 F0))) in H. discriminate. }
  injection H1 as <- H1. assert (R' := reached_0 S real clk _ _ H1). apply after_undef in H as [H|(f2 & [] & _ & H)]; [|exact (loop_undef _ _ _ _ _ _ R' H)].
  left. apply all_undef in H as (o & I & B & Lg & E). split; [exact B|]. split; [|exact E]. rewrite <- (out_length _ _ o R'); [exact Lg|]. exact (news_in _ _ _ I).
Qed.
End Loop.

(** ** One iteration *)
Lemma cint64_undef z u : cint64 z = Undef u -> u = IntOverflow /\ ~ fits64 z.
Proof.
  unfold cint64, in_int64, fits64. destruct (int64_min <=? z) eqn:A; destruct (z <=? int64_max) eqn:B; cbn [andb]; intros H; try discriminate; inv H; split; try reflexivity; lia.
Qed.
Lemma cint64_ok z z' : cint64 z = Ok z' -> z' = z.
Proof. unfold cint64. destruct (in_int64 z); [|discriminate]. intros H. now inv H. Qed.
Lemma to_int64_undef (x : f64) u : @to_int64 F64 x = Undef u -> u = BadCast /\ (is_finite x = false \/ ~ fits64 (Ztrunc (B2R x))).
Proof.
  unfold to_int64. cbn [ntrunc F64]. destruct (is_finite x) eqn:F; [|intros H; inv H; auto]. rewrite Btrunc_Ztrunc. unfold in_int64, fits64.
  match goal with |- context [if ?b then _ else _] => destruct b eqn:I end; intros H; [discriminate|]. inv H. split; [reflexivity|]. right. apply andb_false_iff in I as [I|I]; apply Z.leb_gt in I; lia.
Qed.
Lemma to_int64_ok (x : f64) z : @to_int64 F64 x = Ok z -> z = Ztrunc (B2R x).
Proof.
  unfold to_int64. cbn [ntrunc F64]. destruct (is_finite x) eqn:F; [|discriminate]. rewrite Btrunc_Ztrunc. destruct (in_int64 _); [|discriminate]. intros H. now inv H.
Qed.
Lemma report_undef real clock (st : @sim F64) u : 0 < si_step st -> timeStepReport real clock st = Undef u ->
  unreportable real clock (si_start st) (si_end st) (si_dt st) (si_step st) /\ (u = IntOverflow \/ u = BadCast).
Proof.
  intros P H. unfold timeStepReport in H. unfold unreportable. destruct clock as [a b]. cbv zeta.
  apply bind_undef in H as [H|(el & E & H)]; [apply cint64_undef in H as (-> & H); auto|]. apply cint64_ok in E. subst el.
  replace (si_step st =? 0) with false in H by (symmetry; apply Z.eqb_neq; lia). apply bind_undef in H as [H|(rem & E & H)].
  2:{ apply bind_undef in H as [H|(x & _ & H)]; [|discriminate]. apply cint64_undef in H as (-> & H). auto. }
  cbv zeta in H. apply bind_undef in H as [H|(tot & E & H)]; [apply to_int64_undef in H as (-> & [H|H]); auto 6|]. apply to_int64_ok in E. subst tot.
  apply bind_undef in H as [H|(d & _ & H)]; [|discriminate]. apply cint64_undef in H as (-> & H). auto 7.
Qed.
Lemma cint_undef z u : 0 <= z -> cint z = Undef u -> u = IntOverflow /\ int_max < z.
Proof.
  intros P H. destruct (Z.le_gt_cases z int_max) as [L|L]; [rewrite cint_small in H by assumption; discriminate|]. split; [|exact L].
  unfold cint in H. destruct (in_int z); [discriminate|]. congruence.
Qed.
Lemma iteration_undef S real clk (st0 st : @sim F64) k u : fresh st0 -> sound (si_mps st0) -> sized S ->
  radiusF (s_reMax (m_settings (si_mps st0))) -> proper_domainF (s_domain (m_settings (si_mps st0))) ->
  reached S real clk st0 k st -> iteration S real (clk k) st = Undef u ->
  (meets_nan (si_mps st) /\ u = BadCast) \/ (int_max <= Z.of_nat k + 1 /\ u = IntOverflow) \/
  (unreportable real (clk k) (si_start st0) (si_end st0) (si_dt st0) (Z.of_nat k + 1) /\ (u = IntOverflow \/ u = BadCast)).
Proof.
  intros Fr SD SZ RF PD R H. destruct (reached_inv _ _ _ _ _ _ Fr R) as ((C1 & C2 & C3 & C4) & T & K & M & _). unfold iteration in H.
  apply bind_undef in H as [H|(m' & Em & H)].
  { left. destruct (steps_static _ _ _ _ M) as (ES & _). pose proof (steps_sound _ _ _ _ M SD) as SD1.
    destruct (step_exact S (si_mps st) SD1 SZ) as [G|[NN G]]; [rewrite ES; exact RF|rewrite ES; exact PD| |split; [exact NN|congruence]].
    exfalso. destruct G as [(x & G)|[(_ & G)|(_ & _ & G)]]; congruence. }
  right. apply bind_undef in H as [H|(k' & Ek & H)].
  { left. apply cint_undef in H as (E & H); [|lia]. split; [lia|exact E]. }
  assert (k' = Z.of_nat k + 1). { unfold cint in Ek. destruct (in_int _); [|discriminate]. inv Ek. lia. } subst k'. cbv zeta in H.
  apply bind_undef in H as [H|(r & _ & H)].
  { right. apply report_undef in H; [|cbn [si_step]; lia]. cbn [si_start si_end si_dt si_step] in H. rewrite C1, C2, C3 in H. exact H. }
  left. destruct (saveCondition _); [|discriminate]. unfold save in H. cbn [si_file] in H. pose proof (files_bound _ _ _ _ _ _ Fr R) as FB.
  apply bind_undef in H as [H|(f & _ & H)]; [|discriminate]. apply cint_undef in H as (E & H); [|lia]. split; [lia|exact E].
Qed.

(** ** The program *)
Section Program.
Variable parse : list ascii -> option node.
Variable as_int : list ascii -> option Z.
Variable as_dbl : list ascii -> option f64.
Variable as_bool : list ascii -> option bool.
Variable cell_int : list ascii -> option Z.
Variable cell_dbl : list ascii -> option f64.
Variable fsin fcos : f64 -> f64.
Variable M_PI : f64.
Variable big : bool.
Variable dbg : bool.
Lemma copy_clean p out fs fs' u : copyInputFile p out fs <> (fs', Undef u).
Proof. unfold copyInputFile, copy_file. destruct (there _ _); [discriminate|]. destruct (fs p) as [[b|]|]; try discriminate. destruct (fs (parent _)) as [[b'|]|]; discriminate. Qed.
Lemma create_dir_clean p fs fs' u : create_dir p fs <> (fs', Undef u).
Proof. unfold create_dir. destruct (fs p) as [[b|]|]; try discriminate. destruct (fs (parent _)) as [[b'|]|]; discriminate. Qed.
Lemma saver_clean out fs fs' u : newSaver out fs <> (fs', Undef u).
Proof.
  unfold newSaver. intros H. apply after_undef in H as [H|(f1 & [] & _ & H)]; [exact (create_dir_clean _ _ _ _ H)|].
  apply after_undef in H as [H|(f2 & [] & _ & H)]; exact (create_dir_clean _ _ _ _ H).
Qed.
Lemma inventory S real clk fuel setting out fs fs' u : sized S ->
  program parse as_int as_dbl as_bool cell_int cell_dbl fsin fcos M_PI big dbg S real clk fuel setting out fs = (fs', Undef u) ->
  exists sb y s pp cores, fs setting = Some (File sb) /\ parse sb = Some y /\
    @loadSettingYaml F64 as_int as_dbl as_bool dbg (parent setting) y = Ok (s, pp, cores) /\
    ((exists e, fs pp = Some e /\ bad_file (extension pp) (bytes_of e) u) \/
     bad_domain s \/
     exists t ps m, loadParticles cell_int cell_dbl dbg (s_rho0 s) fs pp = Ok (t, ps) /\ @factoryCreate F64 fsin fcos M_PI s ps = Ok m /\ bad_run S real clk t s m u).
Proof.
  intros SZ H. unfold program in H. destruct (fs setting) as [es|] eqn:Es; [|discriminate]. destruct (fs out) as [[b|]|]; try discriminate.
  assert (PL : exists sb y s pp cores, fs setting = Some (File sb) /\ parse sb = Some y /\ @loadSettingYaml F64 as_int as_dbl as_bool dbg (parent setting) y = Ok (s, pp, cores) /\
    (loadParticles cell_int cell_dbl dbg (s_rho0 s) fs pp = Undef u \/
     exists f1 t ps, loadParticles cell_int cell_dbl dbg (s_rho0 s) fs pp = Ok (t, ps) /\
       (_ <~ newSaver out ;; m <~ ret (@factoryCreate F64 fsin fcos M_PI s ps) ;; runFiles big S real clk (s_vtkBinary s) out fuel (@newSim F64 t s m)) f1 = (fs', Undef u))).
  { apply after_undef in H as [H|(f1 & i & L & H)].
    - unfold load in H. apply after_undef in H as [H|(f1 & y & Y & H)].
      { exfalso. injection H as _ H. unfold yaml_file in H. rewrite Es in H. destruct es as [sb|]; [destruct (parse sb)|]; discriminate. }
      injection Y as <- Y. unfold yaml_file in Y. rewrite Es in Y. destruct es as [sb|]; [|discriminate]. destruct (parse sb) as [y'|] eqn:EP; [|discriminate]. injection Y as ->.
      apply after_undef in H as [H|(f1 & [[s pp] cores] & Y & H)]; [exfalso; injection H as _ H; exact (clean_settings _ _ _ _ _ _ _ H)|]. injection Y as <- Y.
      exists sb, y, s, pp, cores. split; [exact Es|]. split; [exact EP|]. split; [exact Y|]. left.
      apply after_undef in H as [H|(f1 & [t ps] & Y1 & H)]; [injection H as _ H; exact H|]. exfalso.
      apply after_undef in H as [H|(f2 & [] & _ & H)]; [exact (copy_clean _ _ _ _ _ H)|]. apply after_undef in H as [H|(f3 & [] & _ & H)]; [exact (copy_clean _ _ _ _ _ H)|]. discriminate H.
    - apply load_ok in L as (sb & y & pp & cores & pb & S1 & P1 & L1 & Q1 & _). exists sb, y, (i_settings i), pp, cores. split; [exact S1|]. split; [exact P1|]. split; [exact L1|].
      right. exists f1, (i_start i), (i_particles i). split; [exact Q1|exact H]. }
  clear H. destruct PL as (sb & y & s & pp & cores & H1 & H2 & H3 & H). exists sb, y, s, pp, cores. rewrite <- Es. split; [exact H1|]. split; [exact H2|]. split; [exact H3|].
  destruct H as [H|(f1 & t & ps & LP & H)]; [left; exact (particles_undef _ _ _ _ _ _ _ H)|]. right. destruct (classic (bad_domain s)) as [BD|BD]; [left; exact BD|right].
  destruct (domain_fits s BD) as (RF & PD & NS). apply after_undef in H as [H|(f2 & [] & _ & H)]; [exfalso; exact (saver_clean _ _ _ _ H)|].
  apply after_undef in H as [H|(f3 & m & C & H)]; [exfalso; injection H as _ H; exact (NS _ _ (clean_factory _ _ _ _ _ _ H))|]. injection C as <- C.
  exists t, ps, m. split; [exact LP|]. split; [exact C|]. assert (MD := loaded_made _ _ _ _ _ _ _ _ LP).
  destruct (factory_sound _ _ _ _ _ _ C (made_indexed _ MD) (made_rest _ MD)) as (SD & EP & ES).
  apply runFiles_undef in H as [H|(k & st & R & L & H)]; [| |apply fresh_new].
  - left. exact H.
  - right. pose proof (fresh_new t s m) as Fr. destruct (reached_inv _ _ _ _ _ _ Fr R) as ((C1 & C2 & C3 & C4) & T & K & M & _). exists k, (si_mps st).
    split; [exact M|]. split; [rewrite C2, T in L; exact L|].
    apply (iteration_undef S real clk _ _ _ _ Fr) in H; [exact H|exact SD|exact SZ| | |exact R]; cbn [newSim si_mps]; rewrite ES; assumption.
Qed.
End Program.
