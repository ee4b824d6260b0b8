(** * VTU files that lack one of the arrays *)
From Verif Require Export VtuFacts.
Open Scope list_scope.
Open Scope Z_scope.

Lemma prefix_iff p l : Files.prefix p l = true <-> exists b, l = p ++ b.
Proof.
  revert l. induction p as [|c p IH]; intros [|d l]; cbn [Files.prefix app].
  - split; [exists []; reflexivity|reflexivity].
  - split; [eexists; reflexivity|reflexivity].
  - split; [discriminate|intros (b & E); discriminate].
  - rewrite andb_true_iff, Ascii.eqb_eq, IH. split.
    + intros [-> (b & ->)]. now exists b.
    + intros (b & E). injection E as -> ->. eauto.
Qed.
Lemma contains_iff p l : contains p l = true <-> exists a b, l = a ++ p ++ b.
Proof.
  induction l as [|c l IH]; cbn [contains]; rewrite orb_true_iff, prefix_iff.
  - split; [intros [(b & E)|E]; [exists [], b; exact E|discriminate]|]. intros (a & b & E). symmetry in E. apply app_eq_nil in E as [-> E]. left. exists b. now rewrite E.
  - rewrite IH. split.
    + intros [(b & E)|(a & b & ->)]; [exists [], b; exact E|exists (c :: a), b; reflexivity].
    + intros (a & b & E). destruct a as [|x a]; [left; exists b; exact E|]. injection E as -> ->. right. eauto.
Qed.
Lemma contains_false p l : contains p l = false <-> forall a b, l <> a ++ p ++ b.
Proof.
  rewrite <- not_true_iff_false, contains_iff. split; [intros H a b E; apply H; eauto|]. intros H (a & b & E). exact (H a b E).
Qed.
Lemma contains_part p a m b : contains p (a ++ m ++ b) = false -> contains p m = false.
Proof. rewrite !contains_false. intros H x y E. apply (H (a ++ x) (y ++ b)). rewrite E, <- !app_assoc. reflexivity. Qed.
Lemma upto_nl_eq l a f r : upto_nl l = (a, f, r) -> l = a ++ (if f then [nl] else []) ++ r.
Proof.
  revert a f r. induction l as [|c l IH]; intros a f r; cbn [upto_nl]; [intros [= <- <- <-]; reflexivity|].
  destruct (Ascii.eqb c nl) eqn:E; [apply Ascii.eqb_eq in E as ->; intros [= <- <- <-]; reflexivity|].
  destruct (upto_nl l) as [[a' f'] r'] eqn:U. intros [= <- <- <-]. cbn [app]. now rewrite (IH _ _ _ eq_refl).
Qed.
Section Lacks.
Variable k : list ascii.
Hypothesis k_ne : k <> [].
Definition lacking (i : instream) (line : list ascii) : Prop := contains k (in_rest i) = false /\ contains k line = false.
Lemma lacking_nil : contains k [] = false.
Proof. apply contains_false. intros a b E. symmetry in E. apply app_eq_nil in E as [_ E]. apply app_eq_nil in E as [E _]. contradiction. Qed.
Lemma getline_lacking i line ok i' line' : lacking i line -> getline i line = (ok, i', line') -> lacking i' line'.
Proof.
  intros [A B]. unfold getline. destruct (in_eof i); [intros [= <- <- <-]; now split|]. destruct (in_rest i) as [|c l] eqn:R; [intros [= <- <- <-]; split; exact lacking_nil|].
  destruct (upto_nl (c :: l)) as [[a f] r] eqn:U. intros [= <- <- <-]. apply upto_nl_eq in U. rewrite U in A. split; cbn [in_rest].
  - apply (contains_part k (a ++ (if f then [nl] else [])) r []). now rewrite app_nil_r, <- app_assoc.
  - exact (contains_part k [] _ _ A).
Qed.
Lemma block_lacking {A} (rd : list ascii -> outcome A) fuel i line acc l i' line' : lacking i line -> block rd fuel i line acc = Ok (l, i', line') -> lacking i' line'.
Proof.
  revert i line acc. induction fuel as [|fuel IH]; intros i line acc L; cbn [block]; [discriminate|]. destruct (getline i line) as [[ok j] ln] eqn:G.
  apply getline_lacking in G; [|exact L]. destruct (ok && negb (contains (lit "</DataArray>") ln)).
  - destruct (rd ln) as [a|u| |c| |]; cbn [bind]; try discriminate. apply IH, G.
  - intros [= <- <- <-]. exact G.
Qed.
Ltac stage L :=
  match goal with
  | |- bind (if contains ?p ?ln then _ else _) _ = _ -> _ => destruct (contains p ln) eqn:?; cbn [bind]
  | |- bind (bind (block ?rd ?f ?i ?ln ?acc) _) _ = _ -> _ =>
      let B := fresh "B" in destruct (block rd f i ln acc) as [[[? ?] ?]|?| |?| |] eqn:B; cbn [bind]; try discriminate; apply block_lacking in B; [|exact L]
  end.
(** every stage keeps the keyword out of sight, so the array of that keyword is not touched *)
Lemma body_lacking fuel i line v i' line' v' : lacking i line -> vtu_body fuel i line v = Ok (i', line', v') ->
  lacking i' line' /\ (k = lit "Position" -> v_pos v' = v_pos v) /\ (k = lit "Velocity" -> v_vel v' = v_vel v) /\
  (k = lit "Particle Type" -> v_types v' = v_types v) /\ (k = lit "Fluid Type" -> v_ftypes v' = v_ftypes v) /\ (k = lit "Density" -> v_dens v' = v_dens v).
Proof.
  intros L. unfold vtu_body.
  assert (S1 : forall o, (if contains (lit "Time") line then
      let '(_, i, line) := getline i line in
      t <- stod line ;; Ok (i, line, mkVtu t (v_pos v) (v_vel v) (v_types v) (v_ftypes v) (v_dens v))
    else Ok (i, line, v)) = o -> match o with Ok (i1, l1, v1) => lacking i1 l1 /\ v_pos v1 = v_pos v /\ v_vel v1 = v_vel v /\ v_types v1 = v_types v /\ v_ftypes v1 = v_ftypes v /\ v_dens v1 = v_dens v | _ => True end).
  { intros o <-. destruct (contains (lit "Time") line); [|auto 7]. destruct (getline i line) as [[ok j] ln] eqn:G. apply getline_lacking in G; [|exact L].
    destruct (stod ln) as [t|u| |c| |]; cbn [bind]; auto 7. }
  specialize (S1 _ eq_refl). destruct (if contains (lit "Time") line then _ else _) as [[[i1 l1] v1]|u| |c| |]; cbn [bind]; try discriminate.
  destruct S1 as (L1 & P & V & T & F & D). rewrite <- P, <- V, <- T, <- F, <- D. clear P V T F D v L i line. revert i' line' v'.
  assert (S : forall {A} p (rd : list ascii -> outcome A) acc (mk : list A -> vtu) (P : vtu -> vtu -> Prop) j ln w (kk : instream * list ascii * vtu -> outcome (instream * list ascii * vtu)) r,
    lacking j ln -> P w w -> (k <> p -> forall l, P w (mk l)) ->
    (forall j' ln' w', lacking j' ln' -> P w w' -> kk (j', ln', w') = Ok r -> P w (snd r) /\ lacking (fst (fst r)) (snd (fst r))) ->
    bind (if contains p ln then '(l, j', ln') <- block rd fuel j ln acc ;; Ok (j', ln', mk l) else Ok (j, ln, w)) kk = Ok r -> P w (snd r) /\ lacking (fst (fst r)) (snd (fst r))).
  { intros A p rd acc mk P j ln w kk r Lj R M K. destruct (contains p ln) eqn:C; cbn [bind]; [|now apply K].
    destruct (block rd fuel j ln acc) as [[[l j'] ln']|u| |c| |] eqn:B; cbn [bind]; try discriminate. apply block_lacking in B; [|exact Lj]. apply K; [exact B|].
    apply M. intros ->. destruct Lj as [_ Lj]. congruence. }
  set (P := fun a b : vtu => (k = lit "Position" -> v_pos b = v_pos a) /\ (k = lit "Velocity" -> v_vel b = v_vel a) /\
    (k = lit "Particle Type" -> v_types b = v_types a) /\ (k = lit "Fluid Type" -> v_ftypes b = v_ftypes a) /\ (k = lit "Density" -> v_dens b = v_dens a)).
  assert (PR : forall a, P a a) by (intros a; unfold P; auto 6).
  assert (PT : forall a b c, P a b -> P b c -> P a c).
  { intros a b c (A1 & A2 & A3 & A4 & A5) (B1 & B2 & B3 & B4 & B5). unfold P. repeat split; intros E; [rewrite B1, A1|rewrite B2, A2|rewrite B3, A3|rewrite B4, A4|rewrite B5, A5]; auto. }
  intros i' line' v' H. cut (P v1 (snd (i', line', v')) /\ lacking (fst (fst (i', line', v'))) (snd (fst (i', line', v')))); [cbn [fst snd]; unfold P; tauto|].
  revert H. generalize (i', line', v'). intros r.
  apply S; [exact L1|apply PR| |].
  { intros N l. unfold P. cbn. split; [intros E; contradiction|auto 6]. }
  intros i2 l2 v2 L2 Q2.
  intros H. cut (P v2 (snd r) /\ lacking (fst (fst r)) (snd (fst r))); [intros [X Y]; split; [now apply (PT v1 v2)|exact Y]|]. revert H.
  apply S; [exact L2|apply PR| |].
  { intros N l. unfold P. cbn. split; [auto|]. split; [intros E; contradiction|auto 6]. }
  intros i3 l3 v3 L3 Q3 H. cut (P v3 (snd r) /\ lacking (fst (fst r)) (snd (fst r))); [intros [X Y]; split; [now apply (PT v2 v3)|exact Y]|]. revert H.
  apply S; [exact L3|apply PR| |].
  { intros N l. unfold P. cbn. split; [auto|]. split; [auto|]. split; [intros E; contradiction|auto 6]. }
  intros i4 l4 v4 L4 Q4 H. cut (P v4 (snd r) /\ lacking (fst (fst r)) (snd (fst r))); [intros [X Y]; split; [now apply (PT v3 v4)|exact Y]|]. revert H.
  apply S; [exact L4|apply PR| |].
  { intros N l. unfold P. cbn. split; [auto|]. split; [auto|]. split; [auto|]. split; [intros E; contradiction|auto 6]. }
  intros i5 l5 v5 L5 Q5 H. cut (P v5 (snd r) /\ lacking (fst (fst r)) (snd (fst r))); [intros [X Y]; split; [now apply (PT v4 v5)|exact Y]|].
  assert (H' : bind (if contains (lit "Density") l5 then '(l, j', ln') <- block (line1 get_double) fuel i5 l5 (v_dens v5) ;; Ok (j', ln', mkVtu (v_time v5) (v_pos v5) (v_vel v5) (v_types v5) (v_ftypes v5) l) else Ok (i5, l5, v5)) (fun x => Ok x) = Ok r).
  { rewrite H. reflexivity. }
  revert H'. apply (S _ _ _ _ (fun l => mkVtu (v_time v5) (v_pos v5) (v_vel v5) (v_types v5) (v_ftypes v5) l)); [exact L5|apply PR| |].
  { intros N l. unfold P. cbn. split; [auto|]. split; [auto|]. split; [auto|]. split; [auto|]. intros E; contradiction. }
  intros i6 l6 v6 L6 Q6 E. injection E as <-. cbn [fst snd]. auto.
Qed.
Lemma loop_lacking fuel i line v v' : lacking i line -> vtu_loop fuel i line v = Ok v' ->
  (k = lit "Position" -> v_pos v' = v_pos v) /\ (k = lit "Velocity" -> v_vel v' = v_vel v) /\
  (k = lit "Particle Type" -> v_types v' = v_types v) /\ (k = lit "Fluid Type" -> v_ftypes v' = v_ftypes v) /\ (k = lit "Density" -> v_dens v' = v_dens v).
Proof.
  revert i line v. induction fuel as [|fuel IH]; intros i line v L; cbn [vtu_loop]; [discriminate|]. destruct (getline i line) as [[ok j] ln] eqn:G.
  apply getline_lacking in G; [|exact L]. destruct ok; [|intros [= <-]; auto 6]. destruct (vtu_body fuel j ln v) as [[[i1 l1] v1]|u| |c| |] eqn:B; cbn [bind]; try discriminate.
  intros H. apply body_lacking in B as (L1 & A1 & A2 & A3 & A4 & A5); [|exact G]. apply IH in H as (B1 & B2 & B3 & B4 & B5); [|exact L1].
  repeat split; intros E; [rewrite B1, A1|rewrite B2, A2|rewrite B3, A3|rewrite B4, A4|rewrite B5, A5]; auto.
Qed.
End Lacks.

(** the particles that are built *)
Lemma add_ok dbg (ps : list (@Types.particle F64)) p ps' : add_particle dbg ps p = Ok ps' -> ps' = ps ++ [p].
Proof. unfold add_particle. destruct (cassert _ _) as [x|u| |c| |]; cbn [bind]; congruence. Qed.
Lemma build_lacking dbg rho v n : forall i ps ps', vtu_build dbg rho v i n ps = Ok ps' ->
  exists l, ps' = ps ++ l /\ (v_types v = [] -> Forall (fun p => p_type p = 0) l) /\ (v_vel v = [] -> Forall (fun p => p_vel p = vzero) l) /\
    (v_ftypes v = [] -> Forall (fun p => p_fluidType p = 0) l) /\ (v_dens v = [] -> Forall (fun p => p_dens p = rho) l) /\ (n = List.length l).
Proof.
  induction n as [|n IH]; intros i ps ps'; cbn [vtu_build]; [intros [= <-]; exists []; rewrite app_nil_r; repeat split; constructor|].
  destruct (nth_error (v_pos v) i) as [pos|]; [|discriminate].
  match goal with |- bind (add_particle dbg ps ?p) _ = _ -> _ => set (q := p); destruct (add_particle dbg ps q) as [ps1|u| |c| |] eqn:A; cbn [bind]; try discriminate end.
  apply add_ok in A. subst ps1. intros H. apply IH in H as (l & -> & T & V & F & D & E). exists (q :: l). split; [now rewrite <- app_assoc|].
  repeat split; try (intros Z0; constructor; [|auto]; subst q; cbn; rewrite Z0; now destruct i). cbn. now rewrite E.
Qed.
Definition mentions (file : list ascii) (word : string) : Prop := exists a b, file = a ++ lit word ++ b.
Lemma load_lacking dbg rho file t ps : vtu_load dbg rho file = Ok (t, ps) ->
  (~ mentions file "Position" -> ps = []) /\ (~ mentions file "Velocity" -> Forall (fun p => p_vel p = vzero) ps) /\
  (~ mentions file "Particle Type" -> Forall (fun p => p_type p = Ghost) ps) /\ (~ mentions file "Fluid Type" -> Forall (fun p => p_fluidType p = 0) ps) /\
  (~ mentions file "Density" -> Forall (fun p => p_dens p = rho) ps).
Proof.
  unfold vtu_load. destruct (any_line _ _ _) as [[|]|u| |c| |]; cbn [bind]; try discriminate.
  destruct (vtu_loop _ _ _ _) as [v|u| |c| |] eqn:L; cbn [bind]; try discriminate. destruct (vtu_build _ _ _ _ _ _) as [qs|u| |c| |] eqn:B; cbn [bind]; try discriminate.
  intros [= <- <-]. apply build_lacking in B as (l & -> & T & V & F & D & E). cbn [app].
  assert (K : forall w, lit w <> [] -> ~ mentions file w -> lacking (lit w) (mkIn file false) []).
  { intros w N M. split; [|now apply lacking_nil]. cbn [in_rest]. apply contains_false. intros a b Q. apply M. exists a, b. exact Q. }
  repeat split; intros M.
  - apply K in M; [|vm_compute; discriminate]. apply (loop_lacking (lit "Position")) in L; [|vm_compute; discriminate|exact M]. destruct L as (L & _). rewrite (L eq_refl) in E. now destruct l.
  - apply V. apply K in M; [|vm_compute; discriminate]. apply (loop_lacking (lit "Velocity")) in L; [|vm_compute; discriminate|exact M]. destruct L as (_ & L & _). exact (L eq_refl).
  - apply T. apply K in M; [|vm_compute; discriminate]. apply (loop_lacking (lit "Particle Type")) in L; [|vm_compute; discriminate|exact M]. destruct L as (_ & _ & L & _). exact (L eq_refl).
  - apply F. apply K in M; [|vm_compute; discriminate]. apply (loop_lacking (lit "Fluid Type")) in L; [|vm_compute; discriminate|exact M]. destruct L as (_ & _ & _ & L & _). exact (L eq_refl).
  - apply D. apply K in M; [|vm_compute; discriminate]. apply (loop_lacking (lit "Density")) in L; [|vm_compute; discriminate|exact M]. destruct L as (_ & _ & _ & _ & L). exact (L eq_refl).
Qed.
