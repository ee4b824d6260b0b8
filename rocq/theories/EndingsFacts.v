(** * The other ways in which a run can end *)
From Coq Require Import Reals Lra String Classical_Prop.
From Flocq Require Import Core.Core IEEE754.BinarySingleNaN.
From Verif Require Import FloatFacts SimF TotalR CsvFacts ResumeFiles ResumeRun StepCasesF BinFacts.
From Verif Require Export SpecEndings InventoryFacts AssertFacts.
Open Scope list_scope.
Open Scope Z_scope.
#[local] Remove Hints Rnum : typeclass_instances.

(** ends other than completion *)
Inductive stop := SU (u : ub) | SA | SE (c : Z) | ST | SD.
Definition stop_of {A} (o : outcome A) : option stop :=
  match o with Ok _ => None | Undef u => Some (SU u) | AssertFail => Some SA | Exit c => Some (SE c) | Throw => Some ST | Diverge => Some SD end.
Lemma bind_stop {A B} (o : outcome A) (k : A -> outcome B) b : stop_of (bind o k) = Some b -> stop_of o = Some b \/ exists a, o = Ok a /\ stop_of (k a) = Some b.
Proof. destruct o; cbn; intros H; eauto. Qed.
Lemma after_stop {A B} (m : act A) (k : A -> act B) fs fs' o b : after m k fs = (fs', o) -> stop_of o = Some b ->
  (exists o1, m fs = (fs', o1) /\ stop_of o1 = Some b) \/ exists f1 a, m fs = (f1, Ok a) /\ k a f1 = (fs', o).
Proof.
  unfold after. destruct (m fs) as [f1 [a|v| |c| |]] eqn:E; intros H S; [right; eauto|..]; left; injection H as <- <-; eexists; (split; [reflexivity|exact S]).
Qed.
(** [o] can stop only as [L] says *)
Definition can (L : stop -> Prop) {A} (o : outcome A) : Prop := forall b, stop_of o = Some b -> L b.
Lemma can_ok L {A} (a : A) : can L (Ok a). Proof. intros b; discriminate. Qed.
Lemma can_throw (L : stop -> Prop) {A} : L ST -> can L (@Throw A). Proof. intros H b [= <-]. exact H. Qed.
Lemma can_exit (L : stop -> Prop) {A} c : L (SE c) -> can L (@Exit A c). Proof. intros H b [= <-]. exact H. Qed.
Lemma can_undef (L : stop -> Prop) {A} u : L (SU u) -> can L (@Undef A u). Proof. intros H b [= <-]. exact H. Qed.
Lemma can_diverge (L : stop -> Prop) {A} : L SD -> can L (@Diverge A). Proof. intros H b [= <-]. exact H. Qed.
Lemma can_bind L {A B} (o : outcome A) (k : A -> outcome B) : can L o -> (forall a, o = Ok a -> can L (k a)) -> can L (bind o k).
Proof. intros H K b E. apply bind_stop in E as [E|(a & Ea & E)]; [exact (H b E)|exact (K a Ea b E)]. Qed.
Lemma can_assert (L : stop -> Prop) d c : (d = true -> L SA) -> can L (cassert d c).
Proof. intros H b. unfold cassert. destruct d, c; cbn; intros E; try discriminate. injection E as <-. auto. Qed.
Lemma can_weaken (L L' : stop -> Prop) {A} (o : outcome A) : can L o -> (forall b, L b -> L' b) -> can L' o.
Proof. intros H K b E. apply K, H, E. Qed.

(** ** Settings *)
Section Yaml.
Context {N : Num}.
Notation T := (eq ST).
Ltac thr := first [apply can_ok|apply can_throw; reflexivity].
Lemma can_at_key n k : can T (at_key n k). Proof. destruct n as [[| | |]|]; cbn; thr. Qed.
Lemma can_at_index n k : can T (at_index n k). Proof. destruct n as [[| | |]|]; cbn; thr. Qed.
Lemma can_as {A} (conv : list ascii -> option A) n : can T (as_ conv n). Proof. destruct n as [[| | |]|]; cbn; try thr. destruct (conv t); thr. Qed.
Lemma can_as_string n : can T (as_string n). Proof. destruct n as [[| | |]|]; cbn; thr. Qed.
Lemma can_req {A} (conv : list ascii -> option A) y k : can T (req conv y k). Proof. apply can_bind; intros; [apply can_at_key|apply can_as]. Qed.
Lemma can_req_string y k : can T (req_string y k). Proof. apply can_bind; intros; [apply can_at_key|apply can_as_string]. Qed.
Lemma can_req_at {A} (conv : list ascii -> option A) y k i : can T (req_at conv y k i). Proof. apply can_bind; intros; [apply can_at_key|]. apply can_bind; intros; [apply can_at_index|apply can_as]. Qed.
Lemma can_opt {A} (conv : list ascii -> option A) y k d : can T (opt conv y k d). Proof. apply can_bind; intros; [apply can_at_key|]. destruct a; [apply can_as|apply can_ok]. Qed.
Lemma can_settings as_int as_dbl as_bool dbg dir y : can T (loadSettingYaml as_int as_dbl as_bool dbg dir y).
Proof. unfold loadSettingYaml. repeat (apply can_bind; [first [apply can_req|apply can_req_at|apply can_opt|apply can_req_string]|intros]). apply can_ok. Qed.
Lemma settings_asserts as_int as_dbl as_bool dbg dir y s pp cores : loadSettingYaml as_int as_dbl as_bool dbg dir y = Ok (s, pp, cores) -> s_asserts s = dbg.
Proof. unfold loadSettingYaml. intros H. repeat (apply bind_ok in H as (? & _ & H)). injection H as <- _ _. reflexivity. Qed.

(** ** Construction *)
Lemma can_foldM L {A B} (f : A -> B -> outcome B) : (forall a b, can L (f a b)) -> forall l b, can L (foldM f l b).
Proof. intros H. induction l as [|a l IH]; intros b; cbn [foldM]; [apply can_ok|]. apply can_bind; auto. Qed.
(** the assertions of one set of reference values *)
Definition bad_ref (dim : Z) (l0 re : num) : Prop :=
  (dim <> 2 /\ dim <> 3) \/ nlt l0 re = false \/ exists a b e, lattice_point dim (a, b, e) /\
    let x := nmul l0 (nofZ a) in let y := nmul l0 (nofZ b) in let z := nmul l0 (nofZ e) in nlt (nofZ 0) (nsqrt (nadd (nadd (nmul x x) (nmul y y)) (nmul z z))) = false.
Lemma range_in lo hi k : In k (zrange lo hi) -> lo <= k < hi.
Proof. unfold zrange. intros H. apply in_map_iff in H as (j & <- & H). apply in_seq in H. lia. Qed.
Lemma offset_point dim c : In c (ref_offsets dim) -> lattice_point dim c.
Proof.
  unfold ref_offsets. destruct c as [[a b] e]. destruct (if dim =? 2 then (0, 1) else (-4, 5)) as [z0 z1] eqn:D. intros H. apply filter_In in H as (H & NZ).
  apply in_flat_map in H as (x & Hx & H). apply in_flat_map in H as (y & Hy & H). apply in_map_iff in H as (z & E & Hz). apply range_in in Hx, Hy, Hz. injection E as -> -> ->.
  split; [intros K; injection K as -> -> ->; discriminate NZ|]. destruct (Z.eqb_spec dim 2); injection D as <- <-; split; lia.
Qed.
Lemma foldM_can_in L {A B} (f : A -> B -> outcome B) : forall l b, (forall a b, In a l -> can L (f a b)) -> can L (foldM f l b).
Proof. induction l as [|a l IH]; intros b H; cbn [foldM]; [apply can_ok|]. apply can_bind; [apply H; now left|]. intros b' _. apply IH. intros; apply H; now right. Qed.
Lemma assert_can (L : stop -> Prop) d c : (d = true -> c = false -> L SA) -> can L (cassert d c).
Proof. intros H b. unfold cassert. destruct d, c; cbn; intros E; try discriminate. injection E as <-. auto. Qed.
Lemma can_ref dbg dim l0 re : can (fun b => b = SA /\ dbg = true /\ bad_ref dim l0 re) (newRefValues dbg dim l0 re).
Proof.
  unfold newRefValues. apply can_bind.
  { apply assert_can. intros D E. apply orb_false_iff in E as (E1 & E2). apply Z.eqb_neq in E1, E2. split; [reflexivity|]. split; [exact D|]. left. auto. }
  intros _ _. apply can_bind; [apply assert_can; intros D E; split; [reflexivity|]; split; [exact D|]; right; left; exact E|]. intros _ _. apply can_bind; [|intros [? ?] ?; apply can_ok].
  apply foldM_can_in. intros [[iX iY] iZ] [x1 x2] Hin. apply offset_point in Hin. unfold ref_step. cbv zeta. apply can_bind; [|intros; apply can_ok].
  unfold weight. apply can_bind; [|intros; apply can_ok]. apply assert_can. intros D E. split; [reflexivity|]. split; [exact D|]. right. right. exists iX, iY, iZ. split; [exact Hin|exact E].
Qed.
Definition bad_refs (s : settings) : Prop := exists re, In re [s_reN s; s_reG s; s_reL s] /\ bad_ref (s_dim s) (s_l0 s) re.
Lemma can_cint z : can (fun s => exists u, s = SU u) (cint z).
Proof. unfold cint. destruct (in_int _); [apply can_ok|apply can_undef; eauto]. Qed.
Lemma can_to_int x : can (fun s => exists u, s = SU u) (to_int x).
Proof. unfold to_int. destruct (ntrunc x); [destruct (in_int _)|]; first [apply can_ok|apply can_undef; eauto]. Qed.
Lemma can_factory fsin fcos pi s ps : can (fun b => (b = SA /\ s_asserts s = true /\ bad_refs s) \/ (b = SE (-1) /\ s_method s <> "Implicit" /\ s_method s <> "Explicit")%string \/
  stop_of (newSearcher (s_reMax s) (s_domain s) (List.length ps)) = Some b) (factoryCreate fsin fcos pi s ps).
Proof.
  assert (R : forall re, In re [s_reN s; s_reG s; s_reL s] -> can (fun b => (b = SA /\ s_asserts s = true /\ bad_refs s) \/ (b = SE (-1) /\ s_method s <> "Implicit" /\ s_method s <> "Explicit")%string \/
    stop_of (newSearcher (s_reMax s) (s_domain s) (List.length ps)) = Some b) (newRefValues (s_asserts s) (s_dim s) (s_l0 s) re)).
  { intros re I. eapply can_weaken; [apply can_ref|]. intros b (E & D & B). left. split; [exact E|]. split; [exact D|]. exists re. auto. }
  assert (RN := R _ (or_introl eq_refl)). assert (RG := R _ (or_intror (or_introl eq_refl))). assert (RL := R _ (or_intror (or_intror (or_introl eq_refl)))).
  unfold factoryCreate. cbv zeta. apply can_bind; [unfold factoryDetector; apply can_bind; [exact RN|intros; apply can_ok]|]. intros det _. apply can_bind.
  { unfold factoryCalculator. destruct (String.eqb_spec (s_method s) "Implicit") as [E|E].
    - repeat (apply can_bind; [first [exact RN|exact RG|exact RL]|intros]). apply can_ok.
    - destruct (String.eqb_spec (s_method s) "Explicit") as [E'|E']; [repeat (apply can_bind; [first [exact RN|exact RG|exact RL]|intros]); apply can_ok|]. apply can_exit. auto. }
  intros k _. unfold newMPS. apply can_bind; [intros b H; auto|]. intros ns _. repeat (apply can_bind; [first [exact RN|exact RG|exact RL]|intros]). apply can_ok.
Qed.

(** ** The neighbour search *)
Notation searching := (fun b => (exists u, b = SU u) \/ b = SD).
Lemma s_int z : can searching (cint z). Proof. eapply can_weaken; [apply can_cint|auto]. Qed.
Lemma s_to x : can searching (to_int x). Proof. eapply can_weaken; [apply can_to_int|auto]. Qed.
Lemma s_get {A} (l : list A) i : can searching (vget l i).
Proof. unfold vget. destruct (i <? 0); [apply can_undef; eauto|]. destruct (nth_error _ _); [apply can_ok|apply can_undef; eauto]. Qed.
Lemma s_set {A} (l : list A) i a : can searching (vset l i a).
Proof. unfold vset. destruct (i <? 0); [apply can_undef; eauto|]. destruct (Nat.ltb _ _); [apply can_ok|apply can_undef; eauto]. Qed.
Lemma s_cell d l x : can searching (cell d l x).
Proof. unfold cell, cell1. repeat first [apply can_ok|apply s_int|apply s_to|apply can_bind; intros]. Qed.
Lemma s_flat a b c : can searching (flat a b c).
Proof. destruct c as [[x y] z]. unfold flat. repeat first [apply s_int|apply can_bind; intros]. Qed.
Lemma s_store d l a b i st : can searching (store1 d l a b i st).
Proof.
  destruct st as [[[first last] next] ps]. unfold store1. destruct (nth_error ps i); [|apply can_undef; eauto]. destruct (is_type _ _); [apply can_ok|]. destruct (negb _); [apply can_ok|].
  apply can_bind; [apply s_cell|intros]. apply can_bind; [apply s_flat|intros]. apply can_bind; [apply s_get|intros]. apply can_bind.
  { destruct (_ =? -1); (apply can_bind; [apply s_set|intros; apply can_ok]). }
  intros [f n] _. apply can_bind; [apply s_set|intros; apply can_ok].
Qed.
Lemma s_walk : forall fuel re ps next pi j acc, can searching (walk fuel re ps next pi j acc).
Proof.
  induction fuel as [|fuel IH]; intros re ps next pi j acc; cbn [walk]; (destruct (j =? -1); [apply can_ok|]); [apply can_diverge; auto|].
  apply can_bind; [apply s_get|intros]. cbv zeta. apply can_bind; [apply s_get|intros; apply IH].
Qed.
Lemma s_search ns ps : can searching (setNeighbors ns ps).
Proof.
  unfold setNeighbors. apply can_bind.
  { unfold storeParticles. destruct (negb _); [apply can_undef; eauto|]. destruct (negb _); [apply can_undef; eauto|]. cbv zeta. apply can_bind; [|intros [[[? ?] ?] ?] _; apply can_ok].
    apply can_foldM. intros; apply s_store. }
  intros [b p1] _. apply can_bind; [|intros; apply can_ok]. unfold each. apply can_foldM. intros i w. destruct (nth_error w i); [|apply can_undef; eauto].
  apply can_bind; [|intros; apply can_ok]. unfold neighborsOf. destruct (is_type _ _); [apply can_ok|]. apply can_bind; [apply s_cell|intros]. apply can_bind; [|intros; apply can_ok].
  apply can_foldM. intros c acc. apply can_bind; [apply s_flat|intros]. apply can_bind; [apply s_get|intros; apply s_walk].
Qed.
End Yaml.

(** ** Particle files *)
(** the loaders number the particles in order, so the assertion in push_back holds *)
Lemma can_add (L : stop -> Prop) dbg (ps : list Files.particle) p : p_id p = Z.of_nat (List.length ps) -> can L (add_particle dbg ps p).
Proof. intros H. unfold add_particle. rewrite H, Z.eqb_refl. unfold cassert. rewrite andb_false_r. apply can_ok. Qed.
Lemma can_stored3 (L : stop -> Prop) o : L (SU Uninit) -> can L (stored3 o).
Proof. intros H. destruct (stored3_ways o) as [(v & ->)| ->]; [apply can_ok|apply can_undef, H]. Qed.
Lemma can_stored (L : stop -> Prop) {A} (o : option A) : L (SU Uninit) -> can L (Files.stored o).
Proof. intros H. destruct o; [apply can_ok|apply can_undef, H]. Qed.
Lemma can_stod (L : stop -> Prop) l : L ST -> can L (stod l).
Proof.
  intros H. unfold stod. cbv zeta. destruct (numeral _) as [[[[neg n] e] r]|].
  - destruct (negb _); [apply can_throw, H|]. destruct (_ =? 0); [apply can_ok|]. destruct (nlt _ _); [apply can_throw, H|apply can_ok].
  - destruct (scan_sign _) as [neg l1]. destruct (Files.prefix _ _); [apply can_ok|]. destruct (Files.prefix _ _); [apply can_ok|apply can_throw, H].
Qed.
Lemma can_prof dbg rho file : can (fun b => exists u, b = SU u) (prof_load dbg rho file).
Proof.
  rewrite prof_eq. apply can_bind; [|intros; apply can_ok]. match goal with |- can _ (prof_rows _ _ ?n ?s ?ps) => generalize n s ps end.
  induction n as [|n IH]; intros s ps; [apply can_ok|]. rewrite row_eq. apply can_bind; [apply can_stored3; eauto|intros]. apply can_bind; [apply can_stored3; eauto|intros].
  apply can_bind; [apply can_add; reflexivity|intros; apply IH].
Qed.
Section Csv.
Variable cell_int : list ascii -> option Z.
Variable cell_dbl : list ascii -> option f64.
Notation csv_ends := (fun b => (exists u, b = SU u) \/ b = ST).
Lemma can_cell (L : stop -> Prop) {A} (conv : list ascii -> option A) c old : L ST -> can L (read_cell conv c old).
Proof. intros H. unfold read_cell. destruct c; [destruct (conv l)|]; first [apply can_ok|apply can_throw, H]. Qed.
Lemma can_row (L : stop -> Prop) h l v : L ST -> can L (read_row cell_int cell_dbl h l v).
Proof. intros H. unfold read_row. cbv zeta. destruct (negb _); [apply can_throw, H|]. repeat (apply can_bind; [apply can_cell, H|intros]). apply can_ok. Qed.
Lemma can_rows dbg rho h : forall ls v ps, can csv_ends (csv_rows cell_int cell_dbl dbg rho h ls v ps).
Proof.
  induction ls as [|l ls IH]; intros v ps; cbn [csv_rows]; [apply can_ok|]. apply can_bind; [apply can_row; auto|intros]. apply can_bind; [apply can_stored3; eauto|intros].
  apply can_bind; [apply can_stored3; eauto|intros]. apply can_bind; [apply can_stored; eauto|intros]. apply can_bind; [apply can_stored; eauto|intros]. apply can_bind; [apply can_stored; eauto|intros].
  apply can_bind; [apply can_add; reflexivity|intros; apply IH].
Qed.
Lemma can_csv dbg rho file : can csv_ends (csv_load cell_int cell_dbl dbg rho file).
Proof.
  unfold csv_load. destruct (lines_of file []) as [|l1 rest]; [apply can_undef; eauto|]. apply can_bind; [apply can_stod; auto|intros]. destruct rest as [|l2 rest]; [apply can_undef; eauto|].
  apply can_bind; [apply can_stod; auto|intros]. destruct rest as [|l3 rows]; [apply can_throw; auto|]. apply can_bind.
  { unfold read_header. cbv zeta. destruct (_ && _); [apply can_ok|apply can_throw; auto]. }
  intros. apply can_bind; [apply can_rows|intros; apply can_ok].
Qed.
End Csv.
(** *** vtu: the fuel suffices *)
Definition left_over (i : instream) : nat := if in_eof i then 0%nat else Datatypes.S (List.length (in_rest i)).
Lemma upto_shape : forall l a f r, upto_nl l = (a, f, r) -> if f then l = a ++ nl :: r else l = a /\ r = [].
Proof.
  induction l as [|c l IH]; intros a f r H; cbn [upto_nl] in H; [inv H; auto|]. destruct (Ascii.eqb_spec c nl) as [->|D]; [inv H; reflexivity|].
  destruct (upto_nl l) as [[a1 f1] r1] eqn:E. inv H. specialize (IH _ _ _ eq_refl). destruct f; [rewrite IH; reflexivity|]. destruct IH as (-> & ->). auto.
Qed.
Lemma getline_left i line ok i' line' : getline i line = (ok, i', line') -> (left_over i' <= left_over i)%nat /\ (ok = true -> (left_over i' < left_over i)%nat /\ exists r, in_rest i = line' ++ r /\ (in_rest i' = [] \/ r = nl :: in_rest i')).
Proof.
  unfold getline, left_over. destruct (in_eof i) eqn:E; [intros H; inv H; rewrite E; split; [lia|discriminate]|]. destruct (in_rest i) as [|c l] eqn:R; [intros H; inv H; cbn; split; [lia|discriminate]|].
  destruct (upto_nl (c :: l)) as [[a f] r] eqn:U. intros H. inv H. cbn [in_eof in_rest]. apply upto_shape in U. destruct f; cbn [negb].
  - rewrite U. rewrite app_length. cbn [List.length]. split; [lia|]. intros _. split; [lia|]. exists (nl :: in_rest (mkIn r false)). auto.
  - destruct U as (-> & ->). split; [lia|]. intros _. split; [lia|]. exists []. rewrite app_nil_r. auto.
Qed.
Lemma clean_line3 l : can (eq ST) (line3 l).
Proof. unfold line3. pose proof (line3_clean l) as C. unfold line3 in C. destruct (extract3 _) as [[[x y] z] s]. destruct (st_fail s); [apply can_throw; reflexivity|]. destruct (stored3_ways (x, y, z)) as [(v & E)|E]; rewrite E in *; [apply can_ok|exfalso; exact (C _ eq_refl)]. Qed.
Lemma clean_line1 {A} (get : list ascii -> A * bool * list ascii) l : can (eq ST) (line1 get l).
Proof. pose proof (line1_clean get l) as C. unfold line1 in *. destruct (extract get _) as [a s]. destruct (st_fail s); [apply can_throw; reflexivity|]. destruct a; [apply can_ok|exfalso; exact (C _ eq_refl)]. Qed.
Lemma can_block {A} (rd : list ascii -> outcome A) : (forall l, can (eq ST) (rd l)) -> forall fuel i line acc, (left_over i < fuel)%nat ->
  can (eq ST) (block rd fuel i line acc) /\ forall acc' i' line', block rd fuel i line acc = Ok (acc', i', line') -> (left_over i' <= left_over i)%nat.
Proof.
  intros H. induction fuel as [|fuel IH]; intros i line acc L; [lia|]. cbn [block]. destruct (getline i line) as [[ok i1] line1] eqn:G. apply getline_left in G as (G1 & G2).
  destruct (ok && _) eqn:E; [|split; [apply can_ok|intros ? ? ? [= _ <- _]; exact G1]]. apply andb_true_iff in E as (-> & _). destruct (G2 eq_refl) as (G3 & _). split.
  - apply can_bind; [apply H|]. intros a _. apply IH. lia.
  - intros acc' i' line' K. apply bind_ok in K as (a & _ & K). apply IH in K; lia.
Qed.
Lemma can_body fuel i line v : (left_over i < fuel)%nat -> can (eq ST) (vtu_body fuel i line v) /\ forall i' line' v', vtu_body fuel i line v = Ok (i', line', v') -> (left_over i' <= left_over i)%nat.
Proof.
  intros L. set (P := fun (j : instream) {A} (o : outcome (instream * list ascii * A)) => can (eq ST) o /\ forall i' line' (v' : A), o = Ok (i', line', v') -> (left_over i' <= left_over j)%nat).
  assert (PB : forall j (o : outcome (instream * list ascii * vtu)) (k : instream * list ascii * vtu -> outcome (instream * list ascii * vtu)),
    P j vtu o -> (forall j' l' w, (left_over j' <= left_over j)%nat -> P j' vtu (k (j', l', w))) -> P j vtu (bind o k)).
  { intros j o k (P1 & P2) K. split.
    - apply can_bind; [exact P1|]. intros [[j' l'] w] E. apply (K j' l' w (P2 _ _ _ E)).
    - intros i' line' v' E. apply bind_ok in E as ([[j' l'] w] & E1 & E2). pose proof (P2 _ _ _ E1). pose proof (proj2 (K j' l' w (P2 _ _ _ E1)) _ _ _ E2). lia. }
  assert (PK : forall j (w : vtu) (l : list ascii), P j vtu (Ok (j, l, w))) by (intros; split; [apply can_ok|intros ? ? ? [= <- _ _]; lia]).
  assert (PR : forall {A} (rd : list ascii -> outcome A) j l acc (f : list A -> vtu), (forall l, can (eq ST) (rd l)) -> (left_over j <= left_over i)%nat ->
    P j vtu ('(x, j1, l1) <- block rd fuel j l acc ;; Ok (j1, l1, f x))).
  { intros A rd j l acc f R LJ. destruct (can_block rd R fuel j l acc) as (B1 & B2); [lia|]. split.
    - apply can_bind; [exact B1|]. intros [[x j1] l1] _. apply can_ok.
    - intros i' line' v' E. apply bind_ok in E as ([[x j1] l1] & E1 & E2). inv E2. exact (B2 _ _ _ E1). }
  change (P i vtu (vtu_body fuel i line v)). unfold vtu_body. apply PB.
  { destruct (contains _ _); [|apply PK]. destruct (getline i line) as [[ok i1] line1] eqn:G. apply getline_left in G as (G1 & _). split.
    - apply can_bind; [apply can_stod; reflexivity|intros; apply can_ok].
    - intros i' line' v' E. apply bind_ok in E as (t & _ & E). inv E. exact G1. }
  intros j1 l1 w1 L1. apply PB; [destruct (contains _ _); [apply PR; [exact clean_line3|lia]|apply PK]|].
  intros j2 l2 w2 L2. apply PB; [destruct (contains _ _); [apply PR; [exact clean_line3|lia]|apply PK]|].
  intros j3 l3 w3 L3. apply PB; [destruct (contains _ _); [apply PR; [exact (clean_line1 _)|lia]|apply PK]|].
  intros j4 l4 w4 L4. apply PB; [destruct (contains _ _); [apply PR; [exact (clean_line1 _)|lia]|apply PK]|].
  intros j5 l5 w5 L5. destruct (contains _ _); [apply PR; [exact (clean_line1 _)|lia]|apply PK].
Qed.
Lemma can_loop : forall fuel i line v, (left_over i < fuel)%nat -> can (eq ST) (vtu_loop fuel i line v).
Proof.
  induction fuel as [|fuel IH]; intros i line v L; [lia|]. cbn [vtu_loop]. destruct (getline i line) as [[ok i1] line1] eqn:G. apply getline_left in G as (_ & G2).
  destruct ok; [|apply can_ok]. destruct (G2 eq_refl) as (G3 & _). destruct (can_body fuel i1 line1 v) as (B1 & B2); [lia|]. apply can_bind; [exact B1|]. intros [[i2 line2] v2] E. apply IH. apply B2 in E. lia.
Qed.
Lemma prefix_split : forall p l, Files.prefix p l = true -> exists r, l = p ++ r.
Proof.
  induction p as [|c p IH]; intros l H; [exists l; reflexivity|]. destruct l as [|d l]; [discriminate|]. cbn [Files.prefix] in H. apply andb_true_iff in H as (E & H). apply Ascii.eqb_eq in E. subst d.
  destruct (IH l H) as (r & ->). exists r. reflexivity.
Qed.
Lemma contains_split p : forall l, contains p l = true -> exists a b, l = a ++ p ++ b.
Proof.
  induction l as [|c l IH]; intros H; cbn [contains] in H; apply orb_true_iff in H as [H|H].
  - apply prefix_split in H as (r & H). exists [], r. exact H.
  - discriminate.
  - apply prefix_split in H as (r & H). exists [], r. exact H.
  - destruct (IH H) as (a & b & ->). exists (c :: a), b. reflexivity.
Qed.
Lemma can_any pat : forall fuel i, (left_over i < fuel)%nat -> can (fun _ => False) (any_line fuel pat i) /\ (any_line fuel pat i = Ok true -> occurs pat (in_rest i)).
Proof.
  induction fuel as [|fuel IH]; intros i L; [lia|]. cbn [any_line]. destruct (getline i []) as [[ok i1] line1] eqn:G. apply getline_left in G as (_ & G2).
  destruct ok; [|split; [apply can_ok|discriminate]]. destruct (G2 eq_refl) as (G3 & r & ER & RR). destruct (contains pat line1) eqn:C.
  - split; [apply can_ok|]. intros _. apply contains_split in C as (a & b & ->). exists a, (b ++ r). rewrite ER, <- !app_assoc. reflexivity.
  - destruct (IH i1) as (I1 & I2); [lia|]. split; [exact I1|]. intros K. destruct (I2 K) as (a & b & E). destruct RR as [RR| ->].
    + rewrite RR in E. exists (in_rest i ++ a), b. rewrite <- app_assoc, <- E. now rewrite app_nil_r.
    + exists (line1 ++ nl :: a), b. rewrite ER, E. rewrite <- app_assoc. reflexivity.
Qed.
Lemma can_vtu dbg rho file : can (fun b => b = ST \/ (b = SE (-1) /\ occurs (lit "<AppendedData") file)) (vtu_load dbg rho file).
Proof.
  unfold vtu_load. cbv zeta. assert (L : (left_over (mkIn file false) < Datatypes.S (Datatypes.S (List.length file)))%nat) by (cbn; lia).
  destruct (can_any (lit "<AppendedData") _ _ L) as (A1 & A2). apply can_bind; [eapply can_weaken; [exact A1|intros b []]|]. intros [|] E.
  - apply can_exit. right. split; [reflexivity|]. exact (A2 E).
  - apply can_bind; [eapply can_weaken; [apply can_loop, L|intros b <-; auto]|]. intros v _. apply can_bind; [|intros; apply can_ok].
    assert (B : forall n i ps, (i + n <= List.length (v_pos v))%nat -> can (fun b => b = ST \/ (b = SE (-1) /\ occurs (lit "<AppendedData") file)) (vtu_build dbg rho v i n ps)).
    { induction n as [|n IH]; intros i ps LN; cbn [vtu_build]; [apply can_ok|]. destruct (nth_error (v_pos v) i) eqn:EN; [|apply nth_error_None in EN; lia]. cbv zeta.
      apply can_bind; [apply can_add; reflexivity|]. intros ps1 _. apply IH. lia. }
    apply B. lia.
Qed.
Lemma can_particles ci cd dbg rho fs pp : can (fun b => (exists u, b = SU u) \/ b = ST \/
  (b = SE (-1) /\ ((fs pp = None /\ extension pp <> lit ".csv") \/ ~ In (extension pp) formats \/ (extension pp = lit ".vtu" /\ exists e, fs pp = Some e /\ occurs (lit "<AppendedData") (bytes_of e)))))
  (loadParticles ci cd dbg rho fs pp).
Proof.
  unfold loadParticles. cbv zeta. destruct (text_eqb (extension pp) (lit ".csv")) eqn:E1.
  { destruct (fs pp) as [e|]; [|apply can_throw; auto]. eapply can_weaken; [apply can_csv|]. intros b [H|H]; auto. }
  assert (NC : extension pp <> lit ".csv") by (intros K; apply CsvFacts.text_eqb_iff in K; congruence).
  destruct (text_eqb (extension pp) (lit ".prof")) eqn:E2.
  { destruct (fs pp) as [e|]; [|apply can_exit; right; right; auto]. eapply can_weaken; [apply can_prof|]. intros b H; auto. }
  destruct (text_eqb (extension pp) (lit ".vtu")) eqn:E3.
  { destruct (fs pp) as [e|]; [|apply can_exit; right; right; auto]. eapply can_weaken; [apply can_vtu|]. apply CsvFacts.text_eqb_iff in E3. intros b [H|(H & K)]; auto. right. right. split; [exact H|]. right. right. eauto. }
  apply can_exit. right. right. split; [reflexivity|]. right. left. unfold formats. cbn [map In]. intros [H|[H|[H|[]]]]; symmetry in H; apply CsvFacts.text_eqb_iff in H; congruence.
Qed.

(** ** Output files *)
Section Out.
Variables (big : bool) (out : path) (fs0 : filesystem).
Definition tidy (f : filesystem) : Prop :=
  (forall kind, In kind kinds -> f (out ++ [lit kind]) = Some Folder) /\
  (forall kind k, f (outputPath out kind k) = Some Folder -> fs0 (outputPath out kind k) = Some Folder).
Definition blocked : Prop := exists kind k, In kind kinds /\ 0 <= k /\ fs0 (outputPath out kind k) = Some Folder.
Lemma tidy_put f kind k b : tidy f -> tidy (put f (outputPath out kind k) (File b)).
Proof.
  intros (T1 & T2). split.
  - intros kd I. rewrite put_other; [auto|]. intros E. symmetry in E. exact (outputPath_deep _ _ _ _ E).
  - intros kd j. destruct (path_dec (outputPath out kd j) (outputPath out kind k)) as [->|D]; [rewrite put_same; discriminate|rewrite put_other by exact D; apply T2].
Qed.
Lemma write_stop f kind k text f' o : tidy f -> In kind kinds -> 0 <= k -> write_file (outputPath out kind k) text f = (f', o) ->
  tidy f' /\ can (fun b => (b = SE (-1) /\ blocked) \/ stop_of text = Some b) o.
Proof.
  intros T I P H. unfold write_file in H. rewrite outputPath_parent, (proj1 T kind I) in H. destruct (f (outputPath out kind k)) as [[b|]|] eqn:E.
  2:{ inv H. split; [exact T|]. apply can_exit. left. split; [reflexivity|]. exists kind, k. split; [exact I|]. split; [exact P|]. exact (proj2 T _ _ E). }
  all: destruct text as [t|u| |c| |]; cbn [bind] in H; inv H; (split; [apply tidy_put, T|]); intros s HS; cbn in HS; first [discriminate|right; exact HS].
Qed.
Lemma can_toVtu bin t n0 ps : can (fun b => exists u, b = SU u) (toVtu big bin t n0 ps).
Proof. unfold toVtu. destruct bin; [|apply can_ok]. unfold toVtuBinary. apply can_bind; [apply can_cint|intros; apply can_ok]. Qed.
Notation file_ends := (fun b => (b = SE (-1) /\ blocked) \/ exists u, b = SU u).
Lemma after_can {A B} (m : act A) (k : A -> act B) (T : filesystem -> Prop) L f f' o : after m k f = (f', o) ->
  (forall f1 o1, m f = (f1, o1) -> T f1 /\ can L o1) -> (forall f1 a f2 o2, m f = (f1, Ok a) -> T f1 -> k a f1 = (f2, o2) -> T f2 /\ can L o2) -> T f' /\ can L o.
Proof.
  unfold after. intros H M K. destruct (m f) as [f1 [a|u| |c| |]] eqn:E; destruct (M _ _ eq_refl) as (T1 & C1); [exact (K _ _ _ _ eq_refl T1 H)|..]; injection H as <- <-; (split; [exact T1|]); intros b Hb; apply C1; exact Hb.
Qed.
Lemma files_stop bin (o : @output F64) f f' r : tidy f -> 0 <= o_number o -> saveFiles big bin out o f = (f', r) -> tidy f' /\ can file_ends r.
Proof.
  intros T P H. destruct in_kinds as (K1 & K2 & K3). unfold saveFiles in H. cbv zeta in H.
  eapply (after_can _ _ tidy); [exact H| |].
  { intros f1 o1 W. apply write_stop in W as (W1 & W2); auto. split; [exact W1|]. eapply can_weaken; [exact W2|]. intros b [Hb|Hb]; [auto|discriminate]. }
  clear H. intros f1 [] f2 o2 _ T1 H. eapply (after_can _ _ tidy); [exact H| |].
  { intros f3 o1 W. apply write_stop in W as (W1 & W2); auto. split; [exact W1|]. eapply can_weaken; [exact W2|]. intros b [Hb|Hb]; [auto|]. right. exact (can_toVtu _ _ _ _ _ Hb). }
  clear H. intros f3 [] f4 o4 _ T3 W. apply write_stop in W as (W1 & W2); auto. split; [exact W1|]. eapply can_weaken; [exact W2|]. intros b [Hb|Hb]; [auto|discriminate].
Qed.
Lemma saveAll_stop bin l : forall f f' r, tidy f -> Forall (fun o : @output F64 => 0 <= o_number o) l -> saveAll big bin out l f = (f', r) -> tidy f' /\ can file_ends r.
Proof.
  induction l as [|o l IH]; intros f f' r T P H; cbn [saveAll] in H; [injection H as <- <-; split; [exact T|apply can_ok]|]. inversion P; subst.
  eapply (after_can _ _ tidy); [exact H|intros; eapply files_stop; eassumption|]. intros f1 [] f2 o2 _ T1 K. eapply IH; eauto.
Qed.

(** ** The loop *)
Variables (S : @solver F64) (real : Z) (clk : nat -> Z * Z) (bin : bool) (st0 : @sim F64).
Hypothesis F0 : fresh st0.
Definition stops (n : nat) (b : stop) : Prop :=
  (b = SE (-1) /\ blocked) \/ (exists u, b = SU u) \/
  (exists k1 st1, reached S real clk st0 k1 st1 /\ nlt (si_time st1) (si_end st1) = true /\ stop_of (iteration S real (clk k1) st1) = Some b) \/
  (b = SD /\ exists st1, reached S real clk st0 n st1 /\ nlt (si_time st1) (si_end st1) = true).
Lemma loop_stop : forall fuel k st f f' r, tidy f -> reached S real clk st0 k st -> loopFiles big S real clk bin out fuel k st f = (f', r) -> can (stops (k + fuel)) r.
Proof.
  induction fuel as [|fuel IH]; intros k st f f' r T R H; cbn [loopFiles] in H; destruct (nlt (si_time st) (si_end st)) eqn:L; try (injection H as <- <-; apply can_ok).
  - injection H as <- <-. apply can_diverge. right. right. right. split; [reflexivity|]. exists st. rewrite Nat.add_0_r. auto.
  - intros b Hb. destruct (after_stop _ _ _ _ _ _ H Hb) as [(o1 & H1 & Hb1)|(f1 & st' & H1 & H2)].
    { injection H1 as <- <-. right. right. left. exists k, st. auto. }
    injection H1 as <- H1. assert (R' := reached_S _ _ _ _ _ _ _ R L H1). destruct (iteration_adds _ _ _ _ _ H1) as (l & A).
    pose proof (files_bound _ _ _ _ _ _ F0 R) as FB. assert (P0 : 0 <= si_file st) by lia. destruct (adds_nonneg _ _ _ P0 A) as (P1 & P2). rewrite (news_of _ _ _ A) in H2.
    destruct (after_stop _ _ _ _ _ _ H2 Hb) as [(o1 & H3 & Hb1)|(f2 & [] & H3 & H4)].
    { destruct (saveAll_stop _ _ _ _ _ T P1 H3) as (_ & C). destruct (C _ Hb1) as [X|X]; [left; exact X|right; left; exact X]. }
    destruct (saveAll_stop _ _ _ _ _ T P1 H3) as (T2 & _). replace (k + Datatypes.S fuel)%nat with (Datatypes.S k + fuel)%nat by lia. exact (IH _ _ _ _ _ T2 R' H4 b Hb).
Qed.
Lemma runFiles_stop fuel f f' r : tidy f -> runFiles big S real clk bin out fuel st0 f = (f', r) -> can (stops fuel) r.
Proof.
  intros T H b Hb. unfold runFiles in H. destruct (after_stop _ _ _ _ _ _ H Hb) as [(o1 & H1 & Hb1)|(f1 & st' & H1 & H2)].
  { exfalso. injection H1 as <- <-. unfold save in Hb1. rewrite (proj1 (proj2 (proj2 F0))) in Hb1. discriminate. }
  injection H1 as <- H1. assert (R' := reached_0 S real clk _ _ H1). destruct (save_adds _ _ H1) as (l & A).
  assert (P0 : 0 <= si_file st0) by (rewrite (proj1 (proj2 (proj2 F0))); lia). destruct (adds_nonneg _ _ _ P0 A) as (P1 & P2). rewrite (news_of _ _ _ A) in H2.
  destruct (after_stop _ _ _ _ _ _ H2 Hb) as [(o1 & H3 & Hb1)|(f2 & [] & H3 & H4)].
  { destruct (saveAll_stop _ _ _ _ _ T P1 H3) as (_ & C). destruct (C _ Hb1) as [X|X]; [left; exact X|right; left; exact X]. }
  destruct (saveAll_stop _ _ _ _ _ T P1 H3) as (T2 & _). exact (loop_stop _ _ _ _ _ _ T2 R' H4 b Hb).
Qed.
End Out.

(** ** One iteration *)
Lemma iteration_stop S real clk (st0 st : @sim F64) k b : fresh st0 -> sound (si_mps st0) -> sized S ->
  reached S real clk st0 k st -> stop_of (iteration S real (clk k) st) = Some b ->
  (exists u, b = SU u) \/ (b = SA /\ asserts (si_mps st0) = true /\ meets_pair (si_mps st)) \/ (b = SE (-1) /\ (exists det q, m_calc (si_mps st0) = Implicit det q) /\ exists n ts c, S n ts c = None).
Proof.
  intros Fr SD0 SZ R H. destruct (reached_inv _ _ _ _ _ _ Fr R) as ((C1 & C2 & C3 & C4) & T & K & M & _). unfold iteration in H.
  destruct (steps_static _ _ _ _ M) as (ES & _ & EC & _). pose proof (steps_sound _ _ _ _ M SD0) as SD1.
  assert (U : forall A (o : outcome A), can (fun b => exists u, b = SU u) o -> stop_of o = Some b -> exists u, b = SU u) by (intros A o C E; exact (C b E)).
  apply bind_stop in H as [H|(m' & Em & H)].
  { destruct (C51_lemma S (si_mps st) SD1 SZ) as [G|(ns & ps & F & _)].
    - destruct G as [(x & G)|[(D & G)|((det & q & Q) & F & G)]]; rewrite G in H; cbn in H; [discriminate| |]; injection H as <-.
      + right. left. split; [reflexivity|]. split; [unfold dbg_of in D; rewrite ES, EC in D; exact D|]. exact (step_asserts _ _ SD1 G).
      + right. right. split; [reflexivity|]. split; [|exact F]. exists det, q. congruence.
    - pose proof (@s_search F64 ns ps) as C. destruct (setNeighbors ns ps) as [x|u| |c| |]; cbn [fails_like] in F; [contradiction|..]; rewrite F in H; cbn in H; injection H as <-.
      + left. eauto.
      + destruct (C SA eq_refl) as [(u & X)|X]; discriminate.
      + destruct (C (SE c) eq_refl) as [(u & X)|X]; discriminate.
      + destruct (C ST eq_refl) as [(u & X)|X]; discriminate.
      + exfalso. exact (step_ends S (si_mps st) SD1 SZ F). }
  left. apply bind_stop in H as [H|(k' & Ek & H)]; [exact (can_cint _ _ H)|]. cbv zeta in H. apply bind_stop in H as [H|(r & _ & H)].
  { unfold timeStepReport in H. destruct (clk k) as [a c].
    assert (C64 : forall z, can (fun b => exists u, b = SU u) (cint64 z)) by (intros z; unfold cint64; destruct (in_int64 z); [apply can_ok|apply can_undef; eauto]).
    assert (T64 : forall x : f64, can (fun b => exists u, b = SU u) (@to_int64 F64 x)) by (intros x; unfold to_int64; destruct (@ntrunc F64 x); [destruct (in_int64 _)|]; first [apply can_ok|apply can_undef; eauto]).
    refine (U _ _ _ H). apply can_bind; [apply C64|intros]. cbv zeta. apply can_bind.
    - destruct (_ =? 0); [apply can_ok|]. cbv zeta. apply can_bind; [apply T64|intros]. apply can_bind; [apply C64|intros; apply can_ok].
    - intros. apply can_bind; [apply C64|intros; apply can_ok]. }
  destruct (saveCondition _); [|discriminate]. unfold save in H. refine (U _ _ _ H). apply can_bind; [apply can_cint|intros; apply can_ok].
Qed.

(** ** The program *)
Lemma create_stop p f f' o : create_dir p f = (f', o) -> can (fun b => b = ST /\ ((exists c, f p = Some (File c)) \/ f (parent p) <> Some Folder)) o.
Proof.
  unfold create_dir. destruct (f p) as [[c|]|]; [|intros H; inv H; apply can_ok|].
  - intros H. inv H. apply can_throw. split; [reflexivity|left; eauto].
  - destruct (f (parent p)) as [[c|]|] eqn:E; intros H; inv H; first [apply can_ok|apply can_throw; split; [reflexivity|right; congruence]].
Qed.
Lemma create_done p f f' : create_dir p f = (f', Ok tt) -> f' p = Some Folder /\ forall q, q <> p -> f' q = f q.
Proof. intros H. apply create_inv in H as [(F & _)|(_ & [(E & ->)|(_ & _ & ->)])]; [discriminate|auto|]. split; [apply put_same|intros q D; now apply put_other]. Qed.
Lemma parent_child (out : path) n : parent (out ++ [n]) = out. Proof. apply removelast_last. Qed.
Lemma child_neq (out : path) n : out <> out ++ [n].
Proof. intros E. apply (f_equal (@List.length _)) in E. rewrite app_length in E. cbn in E. lia. Qed.
Lemma kind_neq out a b : a <> b -> out ++ [lit a] <> out ++ [lit b].
Proof. intros N E. apply app_inv_head in E. injection E as E. apply lit_inj in E. contradiction. Qed.
Lemma saver_stop out f f' o : f out = Some Folder -> newSaver out f = (f', o) ->
  can (fun b => b = ST /\ exists kind c, In kind kinds /\ f (out ++ [lit kind]) = Some (File c)) o /\
  (o = Ok tt -> (forall kind, In kind kinds -> f' (out ++ [lit kind]) = Some Folder) /\ forall p, (forall n, p <> out ++ [n]) -> f' p = f p).
Proof.
  intros O H. destruct in_kinds as (K1 & K2 & K3). unfold newSaver in H. split.
  - intros b Hb. destruct (after_stop _ _ _ _ _ _ H Hb) as [(o1 & H1 & Hb1)|(f1 & [] & H1 & H2)].
    { destruct (create_stop _ _ _ _ H1 b Hb1) as (E & [(c & F)|F]); [split; [exact E|]; exists "prof"%string, c; auto|]. rewrite parent_child in F. contradiction. }
    apply create_done in H1 as (D1 & D1').
    destruct (after_stop _ _ _ _ _ _ H2 Hb) as [(o1 & H3 & Hb1)|(f2 & [] & H3 & H4)].
    { destruct (create_stop _ _ _ _ H3 b Hb1) as (E & [(c & F)|F]); [split; [exact E|]; exists "vtu"%string, c; rewrite D1' in F by (apply kind_neq; discriminate); auto|].
      rewrite parent_child, D1' in F by apply child_neq. contradiction. }
    apply create_done in H3 as (D2 & D2'). destruct (create_stop _ _ _ _ H4 b Hb) as (E & [(c & F)|F]).
    + split; [exact E|]. exists "csv"%string, c. rewrite D2', D1' in F by (apply kind_neq; discriminate). auto.
    + rewrite parent_child, D2', D1' in F by apply child_neq. contradiction.
  - intros ->. apply after_ok in H as (f1 & [] & H1 & H). apply after_ok in H as (f2 & [] & H2 & H3). apply create_done in H1 as (D1 & D1'), H2 as (D2 & D2'), H3 as (D3 & D3'). split.
    + intros kind I. cbn [kinds In] in I. destruct I as [<-|[<-|[<-|[]]]].
      * rewrite D3', D2' by (apply kind_neq; discriminate). exact D1.
      * rewrite D3' by (apply kind_neq; discriminate). exact D2.
      * exact D3.
    + intros p N. rewrite D3', D2', D1' by apply N. reflexivity.
Qed.
Lemma copy_stop p out f f' o : copyInputFile p out f = (f', o) ->
  can (fun b => (b = SE (-1) /\ f (out ++ [filename p]) <> None) \/ (b = ST /\ (f p <> None -> (f p = Some Folder \/ f out <> Some Folder)))) o.
Proof.
  unfold copyInputFile, copy_file, there. rewrite parent_child. destruct (f (out ++ [filename p])); [intros H; inv H; apply can_exit; left; split; [reflexivity|discriminate]|].
  destruct (f p) as [[c|]|]; [|intros H; inv H; apply can_throw; right; auto|intros H; inv H; apply can_throw; right; split; [reflexivity|congruence]].
  destruct (f out) as [[c'|]|]; intros H; inv H; [|apply can_ok|]; apply can_throw; right; (split; [reflexivity|]); intros _; right; discriminate.
Qed.
Lemma loaded_format ci cd dbg rho fs pp r : loadParticles ci cd dbg rho fs pp = Ok r -> In (extension pp) formats /\ fs pp <> None.
Proof.
  unfold loadParticles, formats. cbv zeta. cbn [map In]. destruct (text_eqb (extension pp) (lit ".csv")) eqn:E1.
  { apply CsvFacts.text_eqb_iff in E1. rewrite E1. destruct (fs pp); [|discriminate]. split; [auto|discriminate]. }
  destruct (text_eqb (extension pp) (lit ".prof")) eqn:E2.
  { apply CsvFacts.text_eqb_iff in E2. rewrite E2. destruct (fs pp); [|discriminate]. split; [auto|discriminate]. }
  destruct (text_eqb (extension pp) (lit ".vtu")) eqn:E3; [|discriminate]. apply CsvFacts.text_eqb_iff in E3. rewrite E3. destruct (fs pp); [|discriminate]. split; [auto|discriminate].
Qed.
Lemma format_name pp kind : In (extension pp) formats -> In kind kinds -> filename pp <> lit kind.
Proof.
  intros F K E. assert (X : extension pp = []). { unfold extension. rewrite E. cbn [kinds In] in K. destruct K as [<-|[<-|[<-|[]]]]; reflexivity. }
  rewrite X in F. unfold formats in F. cbn [map In] in F. destruct F as [F|[F|[F|[]]]]; discriminate F.
Qed.
Lemma factory_asserts {N : Num} fsin fcos pi s ps m : factoryCreate fsin fcos pi s ps = Ok m ->
  m_settings m = s /\ forall det q, m_calc m = Implicit det q -> s_method s = "Implicit"%string /\ q_asserts q = s_asserts s.
Proof.
  unfold factoryCreate, factoryCalculator, newMPS. cbv zeta. intros H. apply bind_ok in H as (det & _ & H). apply bind_ok in H as (k & K & H).
  apply bind_ok in H as (ns & _ & H). apply bind_ok in H as (r1 & _ & H). apply bind_ok in H as (r2 & _ & H). apply bind_ok in H as (r3 & _ & H). injection H as <-. cbn [m_settings m_calc].
  split; [reflexivity|]. destruct (String.eqb_spec (s_method s) "Implicit") as [E|E].
  - apply bind_ok in K as (a & _ & K). apply bind_ok in K as (b & _ & K). injection K as <-. intros d q [= _ <-]. auto.
  - destruct (String.eqb (s_method s) "Explicit"); [|discriminate K]. apply bind_ok in K as (a & _ & K). injection K as <-. intros; discriminate.
Qed.
Lemma can_searcher {N : Num} re d n : can (fun b => (exists u, b = SU u) \/ b = ST) (newSearcher re d n).
Proof.
  assert (I : forall z, can (fun b => (exists u, b = SU u) \/ b = ST) (cint z)) by (intros; eapply can_weaken; [apply can_cint|auto]).
  assert (J : forall x, can (fun b => (exists u, b = SU u) \/ b = ST) (to_int x)) by (intros; eapply can_weaken; [apply can_to_int|auto]).
  unfold newSearcher. apply can_bind; [|intros; apply can_ok]. unfold newBucket, grid_count.
  repeat first [apply can_ok|apply I|apply J|apply can_bind; intros|match goal with |- can _ (if ?c then _ else _) => destruct c end|apply can_throw; auto].
Qed.
Lemma domain_builds (s : @settings F64) : ~ bad_domain s -> radiusF (s_reMax s) /\ proper_domainF (s_domain s) /\
  forall n, exists ns, @newSearcher F64 (s_reMax s) (s_domain s) n = Ok ns.
Proof.
  unfold bad_domain. cbv zeta. intros H. apply not_or_and in H as (H1 & H). apply not_or_and in H as (H2 & H). apply not_or_and in H as (H3 & H). apply not_or_and in H as (H4 & H). apply not_or_and in H as (H5 & H6).
  apply NNPP in H1, H2. apply not_false_is_true in H3, H4, H5. split; [exact H1|]. split; [exact H2|]. intros n.
  destruct (C04_lemma_F (s_reMax s) (s_domain s) n H1 H2 H3 H4 H5) as ((ns & E') & _); [unfold cells_along in H6; apply Z.nlt_ge in H6; exact H6|]. eauto.
Qed.
Lemma ret_stop {A} (o : outcome A) fs fs' o' b : ret o fs = (fs', o') -> stop_of o' = Some b -> stop_of o = Some b.
Proof. intros H. injection H as _ <-. auto. Qed.

Lemma refs_lattice (s : @settings F64) : bad_refs s -> bad_lattice s.
Proof. intros (re & I & [B|[B|B]]); [left; exact B|right; left; exists re; auto|right; right; exact B]. Qed.

Section Program.
Variables (parse : list ascii -> option node) (as_int cell_int : list ascii -> option Z) (as_dbl cell_dbl : list ascii -> option f64) (as_bool : list ascii -> option bool).
Variables (fsin fcos : f64 -> f64) (M_PI : f64) (big dbg : bool) (S : @solver F64) (real : Z) (clk : nat -> Z * Z) (fuel : nat) (setting out : path) (fs : filesystem).
Hypothesis SZ : sized S.
Notation loaded s pp := (loadParticles cell_int cell_dbl dbg (s_rho0 s) fs pp).
Definition endless (s : @settings F64) (pp : path) : Prop :=
  exists t ps m, loaded s pp = Ok (t, ps) /\ @factoryCreate F64 fsin fcos M_PI s ps = Ok m /\ goes_on S fuel t s m.
Definition met (s : @settings F64) (pp : path) : Prop :=
  exists t ps m, loaded s pp = Ok (t, ps) /\ @factoryCreate F64 fsin fcos M_PI s ps = Ok m /\ in_one_place_later S t s m.
Definition ends_of (s : @settings F64) (pp : path) (b : stop) : Prop :=
  (exists u, b = SU u) \/ (b = SA /\ dbg = true /\ (bad_lattice s \/ met s pp)) \/ (b = SE (-1) /\ refused S fs setting out pp s) \/
  (b = ST /\ (bad_domain s \/ thrown fs setting out pp (loaded s pp))) \/ (b = SD /\ endless s pp).
Definition ends (b : stop) : Prop :=
  (b = SE (-1) /\ (fs setting = None \/ fs out <> Some Folder)) \/ (b = ST /\ fs setting = Some Folder) \/
  exists sb, fs setting = Some (File sb) /\ ((b = ST /\ parse sb = None) \/ exists y, parse sb = Some y /\
    ((b = ST /\ @loadSettingYaml F64 as_int as_dbl as_bool dbg (parent setting) y = Throw) \/
     exists s pp cores, @loadSettingYaml F64 as_int as_dbl as_bool dbg (parent setting) y = Ok (s, pp, cores) /\ ends_of s pp b)).
Lemma copies_stop sb s pp t ps (i : input) b f1 o : fs setting = Some (File sb) -> fs out = Some Folder -> loaded s pp = Ok (t, ps) ->
  (_ <~ copyInputFile setting out ;; _ <~ copyInputFile pp out ;; ret (Ok i)) fs = (f1, o) -> stop_of o = Some b -> ends_of s pp b.
Proof.
  intros ES EO LP H Hb. destruct (loaded_format _ _ _ _ _ _ _ LP) as (FM & PN). destruct (after_stop _ _ _ _ _ _ H Hb) as [(o1 & C & Cb)|(f2 & [] & C & H2)]; clear H.
  { destruct (copy_stop _ _ _ _ _ C b Cb) as [(E & F)|(E & F)].
    - right. right. left. split; [exact E|]. unfold refused. do 3 right. left. exact F.
    - exfalso. destruct F as [F|F]; [rewrite ES; discriminate|congruence|contradiction]. }
  apply copy_inv in C as [(_ & [(F & _)|(F & _)])|(_ & EC & _ & c & EN & ->)]; [discriminate F|discriminate F|]. destruct (after_stop _ _ _ _ _ _ H2 Hb) as [(o1 & C & Cb)|(f3 & [] & C & H3)]; clear H2.
  2:{ injection H3 as _ <-. discriminate Hb. }
  assert (EO' : put fs (out ++ [filename setting]) (File c) out = Some Folder) by (rewrite put_other by apply child_neq; exact EO).
  destruct (copy_stop _ _ _ _ _ C b Cb) as [(E & F)|(E & F)].
  - right. right. left. split; [exact E|]. unfold refused. do 4 right. destruct (path_dec (out ++ [filename pp]) (out ++ [filename setting])) as [Q|Q].
    + right. left. apply app_inv_head in Q. injection Q as Q. exact Q.
    + left. rewrite put_other in F by exact Q. exact F.
  - right. right. right. left. split; [exact E|]. right. unfold thrown. right. left. destruct (path_dec pp (out ++ [filename setting])) as [Q|Q]; [exfalso|].
    + rewrite Q, put_same in F. destruct F as [F|F]; [discriminate|discriminate|]. contradiction.
    + rewrite put_other in F by exact Q. destruct F as [F|F]; [exact PN|exact F|contradiction].
Qed.
Lemma after_load sb y s pp cores t ps f1 f2 o b : fs setting = Some (File sb) -> fs out = Some Folder ->
  @loadSettingYaml F64 as_int as_dbl as_bool dbg (parent setting) y = Ok (s, pp, cores) -> loaded s pp = Ok (t, ps) ->
  (forall p, fs p = f1 p \/ (exists c, f1 p = Some (File c)) /\ (p = out ++ [filename setting] \/ p = out ++ [filename pp])) ->
  (_ <~ newSaver out ;; m <~ ret (@factoryCreate F64 fsin fcos M_PI s ps) ;; runFiles big S real clk (s_vtkBinary s) out fuel (@newSim F64 t s m)) f1 = (f2, o) ->
  stop_of o = Some b -> ends_of s pp b.
Proof.
  intros ES EO EY LP EF H Hb. destruct (loaded_format _ _ _ _ _ _ _ LP) as (FM & PN). pose proof (settings_asserts _ _ _ _ _ _ _ _ _ EY) as DB.
  assert (O1 : f1 out = Some Folder). { destruct (EF out) as [E|(_ & [E|E])]; [congruence|exfalso; exact (child_neq _ _ E)..]. }
  destruct (after_stop _ _ _ _ _ _ H Hb) as [(o1 & C & Cb)|(f3 & [] & C & H2)]; clear H.
  { destruct (proj1 (saver_stop _ _ _ _ O1 C) b Cb) as (E & kind & c & I & F). right. right. right. left. split; [exact E|]. right. unfold thrown. right. right. exists kind. split; [exact I|].
    destruct (EF (out ++ [lit kind])) as [Q|(_ & [Q|Q])]; [left; exists c; congruence|apply app_inv_head in Q; injection Q as Q; auto|].
    exfalso. apply app_inv_head in Q. injection Q as Q. exact (format_name _ _ FM I (eq_sym Q)). }
  destruct (proj2 (saver_stop _ _ _ _ O1 C) eq_refl) as (T1 & T2).
  assert (T : tidy out fs f3).
  { split; [exact T1|]. intros kind k F. rewrite T2 in F by (intros n E; symmetry in E; exact (outputPath_deep _ _ _ _ (eq_sym E))).
    destruct (EF (outputPath out kind k)) as [Q|((c & Q) & _)]; congruence. }
  destruct (after_stop _ _ _ _ _ _ H2 Hb) as [(o1 & R & Rb)|(f4 & m & R & H3)]; clear H2.
  { injection R as _ <-. destruct (can_factory _ _ _ _ _ b Rb) as [(E & D & A)|[(E & A)|A]].
    - right. left. split; [exact E|]. split; [congruence|]. left. exact (refs_lattice _ A).
    - right. right. left. split; [exact E|]. unfold refused. do 6 right. left. exact A.
    - destruct (can_searcher _ _ _ b A) as [U|E]; [left; exact U|]. right. right. right. left. split; [exact E|]. left. apply NNPP. intros BD. destruct (domain_builds s BD) as (_ & _ & B).
      destruct (B (List.length ps)) as (ns & B'). rewrite B' in A. discriminate. }
  injection R as <- R. destruct (factory_asserts _ _ _ _ _ _ R) as (EM & QA). assert (MD := loaded_made _ _ _ _ _ _ _ _ LP).
  destruct (factory_sound _ _ _ _ _ _ R (made_indexed _ MD) (made_rest _ MD)) as (SD & EP & _). pose proof (fresh_new t s m) as Fr.
  destruct (runFiles_stop big out fs S real clk (s_vtkBinary s) _ Fr fuel _ _ _ T H3 b Hb) as [(E & BL)|[U|[(k & st & RR & L & I)|(E & st & RR & L)]]].
  - right. right. left. split; [exact E|]. unfold refused. do 8 right. exact BL.
  - left. exact U.
  - destruct (reached_inv _ _ _ _ _ _ Fr RR) as ((C1 & C2 & C3 & C4) & TT & K & M & _). cbn [newSim si_mps] in M.
    destruct (iteration_stop _ _ _ _ _ _ _ Fr SD SZ RR I) as [U|[(E & A & MP)|(E & (det & q & Q) & G)]]; cbn [newSim si_mps] in *.
    + left. exact U.
    + right. left. split; [exact E|]. split.
      * unfold asserts in A. rewrite EM, DB in A. destruct dbg; [reflexivity|]. cbn [orb] in A. destruct (m_calc m) as [det q|n0 c] eqn:MC; [|discriminate]. rewrite (proj2 (QA _ _ eq_refl)) in A. congruence.
      * right. exists t, ps, m. split; [exact LP|]. split; [exact R|]. exists k, (si_mps st). split; [exact M|]. split; [rewrite C2, TT in L; exact L|exact MP].
    + right. right. left. split; [exact E|]. unfold refused. do 7 right. left. split; [|exact G]. exact (proj1 (QA _ _ Q)).
  - right. right. right. right. split; [exact E|]. destruct (reached_inv _ _ _ _ _ _ Fr RR) as ((C1 & C2 & C3 & C4) & TT & K & M & _). exists t, ps, m. split; [exact LP|]. split; [exact R|].
    exists (si_mps st). split; [exact M|]. rewrite C2, TT in L. exact L.
Qed.
Lemma program_stop fs' o b : program parse as_int as_dbl as_bool cell_int cell_dbl fsin fcos M_PI big dbg S real clk fuel setting out fs = (fs', o) -> stop_of o = Some b -> ends b.
Proof.
  intros H Hb. unfold program in H. destruct (fs setting) as [es|] eqn:Es; [|injection H as _ <-; injection Hb as <-; left; auto].
  destruct (fs out) as [[c|]|] eqn:Eo; [injection H as _ <-; injection Hb as <-; left; split; [reflexivity|right; rewrite Eo; discriminate]| |injection H as _ <-; injection Hb as <-; left; split; [reflexivity|right; rewrite Eo; discriminate]].
  right. destruct es as [sb|].
  2:{ left. split; [|exact Es]. destruct (after_stop _ _ _ _ _ _ H Hb) as [(o1 & L & Lb)|(f1 & i & L & _)]; unfold load in L.
      - destruct (after_stop _ _ _ _ _ _ L Lb) as [(o2 & Y & Yb)|(f2 & y & Y & _)]; unfold ret, yaml_file in Y; rewrite Es in Y; injection Y as _ Y; [rewrite <- Y in Yb; injection Yb as <-; reflexivity|discriminate].
      - apply after_ok in L as (f2 & y & Y & _). unfold ret, yaml_file in Y. rewrite Es in Y. discriminate. }
  right. exists sb. split; [exact Es|]. destruct (parse sb) as [y|] eqn:EP.
  2:{ left. split; [|reflexivity]. destruct (after_stop _ _ _ _ _ _ H Hb) as [(o1 & L & Lb)|(f1 & i & L & _)]; unfold load in L.
      - destruct (after_stop _ _ _ _ _ _ L Lb) as [(o2 & Y & Yb)|(f2 & y & Y & _)]; unfold ret, yaml_file in Y; rewrite Es, EP in Y; injection Y as _ Y; [rewrite <- Y in Yb; injection Yb as <-; reflexivity|discriminate].
      - apply after_ok in L as (f2 & y & Y & _). unfold ret, yaml_file in Y. rewrite Es, EP in Y. discriminate. }
  right. exists y. split; [reflexivity|]. destruct (after_stop _ _ _ _ _ _ H Hb) as [(o1 & L & Lb)|(f1 & i & L & H2)]; clear H.
  - unfold load in L. destruct (after_stop _ _ _ _ _ _ L Lb) as [(o2 & Y & Yb)|(f2 & y' & Y & L2)]; clear L; unfold ret, yaml_file in Y; rewrite Es, EP in Y; [injection Y as _ <-; discriminate|].
    injection Y as <- <-. destruct (after_stop _ _ _ _ _ _ L2 Lb) as [(o2 & Y & Yb)|(f2 & [[s pp] cores] & Y & L3)]; clear L2; injection Y as <- Y.
    { left. rewrite <- Y in Yb. pose proof (eq_sym (can_settings _ _ _ _ _ _ b Yb)) as E. split; [exact E|]. rewrite E in Yb. destruct (loadSettingYaml _ _ _ _ _ _); first [reflexivity|discriminate Yb]. }
    right. exists s, pp, cores. split; [exact Y|]. destruct (after_stop _ _ _ _ _ _ L3 Lb) as [(o2 & Z & Zb)|(f2 & [t ps] & Z & L4)]; clear L3; injection Z as <- Z.
    { rewrite <- Z in Zb. destruct (can_particles _ _ _ _ _ _ b Zb) as [U|[E|(E & R)]]; [left; exact U| |].
      - right. right. right. left. split; [exact E|]. right. left. rewrite E in Zb. destruct (loadParticles _ _ _ _ _ _); first [reflexivity|discriminate Zb].
      - right. right. left. split; [exact E|]. unfold refused. destruct R as [R|[R|R]]; auto. }
    exact (copies_stop _ _ _ _ _ _ _ _ _ Es Eo Z L4 Lb).
  - right. apply load_ok in L as (sb' & y' & pp & cores & pb & S1 & P1 & L1 & Q1 & _ & _ & _ & _ & _ & EF). rewrite Es in S1. injection S1 as <-. rewrite EP in P1. injection P1 as <-.
    exists (i_settings i), pp, cores. split; [exact L1|]. eapply after_load; [exact Es|exact Eo|exact L1|exact Q1| |exact H2|exact Hb].
    intros p. rewrite EF. destruct (path_dec p (out ++ [filename pp])) as [->|D1]; [right; rewrite put_same; eauto|]. rewrite put_other by exact D1.
    destruct (path_dec p (out ++ [filename setting])) as [->|D2]; [right; rewrite put_same; eauto|]. rewrite put_other by exact D2. left. reflexivity.
Qed.
Notation run fs' o := (program parse as_int as_dbl as_bool cell_int cell_dbl fsin fcos M_PI big dbg S real clk fuel setting out fs = (fs', o)).
Notation settings_read sb y s pp cores := (fs setting = Some (File sb) /\ parse sb = Some y /\ @loadSettingYaml F64 as_int as_dbl as_bool dbg (parent setting) y = Ok (s, pp, cores)).
Ltac stop_cases H H1 E :=
  destruct (program_stop _ _ _ H eq_refl) as [(H1 & E)|[(H1 & E)|(sb & Es & [(H1 & E)|(y & Ep & [(H1 & E)|(s & pp & cores & Ey & [(? & H1)|[(H1 & E)|[(H1 & E)|[(H1 & E)|(H1 & E)]]]])])])]];
    try discriminate H1.
Lemma end_assert fs' : run fs' AssertFail -> dbg = true /\ exists sb y s pp cores, settings_read sb y s pp cores /\ (bad_lattice s \/
  exists t ps m, loaded s pp = Ok (t, ps) /\ @factoryCreate F64 fsin fcos M_PI s ps = Ok m /\ in_one_place_later S t s m).
Proof. intros H. stop_cases H H1 E. destruct E as (D & E). split; [exact D|]. exists sb, y, s, pp, cores. auto. Qed.
Lemma end_exit fs' c : run fs' (Exit c) -> c = -1 /\ (fs setting = None \/ fs out <> Some Folder \/
  exists sb y s pp cores, settings_read sb y s pp cores /\ refused S fs setting out pp s).
Proof.
  intros H. stop_cases H H1 E; injection H1 as ->; (split; [reflexivity|]).
  - destruct E as [E|E]; auto.
  - right. right. exists sb, y, s, pp, cores. auto.
Qed.
Lemma end_throw fs' : run fs' Throw -> fs setting = Some Folder \/ exists sb, fs setting = Some (File sb) /\ (parse sb = None \/
  exists y, parse sb = Some y /\ (@loadSettingYaml F64 as_int as_dbl as_bool dbg (parent setting) y = Throw \/
    exists s pp cores, @loadSettingYaml F64 as_int as_dbl as_bool dbg (parent setting) y = Ok (s, pp, cores) /\ (bad_domain s \/ thrown fs setting out pp (loaded s pp)))).
Proof.
  intros H. stop_cases H H1 E; [left; exact E|right; exists sb; (split; [exact Es|])..].
  - left. exact E.
  - right. exists y. split; [exact Ep|]. left. exact E.
  - right. exists y. split; [exact Ep|]. right. exists s, pp, cores. auto.
Qed.
Lemma end_diverge fs' : run fs' Diverge -> exists sb y s pp cores, settings_read sb y s pp cores /\
  exists t ps m, loaded s pp = Ok (t, ps) /\ @factoryCreate F64 fsin fcos M_PI s ps = Ok m /\ goes_on S fuel t s m.
Proof. intros H. stop_cases H H1 E. exists sb, y, s, pp, cores. auto. Qed.
End Program.
