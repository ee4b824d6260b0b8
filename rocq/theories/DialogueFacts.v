(** * The dialogue of the generators *)
From Verif Require Export Generator LoaderFacts ProgramFacts SpecGenerator.
From Verif Require Import Generator.
Open Scope list_scope.
Open Scope Z_scope.

Lemma text_eqb_iff a b : text_eqb a b = true <-> a = b.
Proof. unfold text_eqb. destruct (list_eq_dec ascii_dec a b); split; congruence. Qed.
Lemma is_no_iff a : is_no a = true <-> a = lit "n" \/ a = lit "N".
Proof. unfold is_no. now rewrite orb_true_iff, !text_eqb_iff. Qed.
Lemma is_yes_iff a : is_yes a = true <-> a = lit "y" \/ a = lit "Y".
Proof. unfold is_yes. now rewrite orb_true_iff, !text_eqb_iff. Qed.
Lemma no_not_yes a : is_no a = true -> is_yes a = true -> False.
Proof. rewrite is_no_iff, is_yes_iff. intros [->| ->] [H|H]; vm_compute in H; congruence. Qed.
Notation other_word := (fun w : list ascii => ~ In w (map lit ["n"; "N"; "y"; "Y"]%string)).
Lemma other_iff a : other_word a <-> is_no a = false /\ is_yes a = false.
Proof.
  rewrite <- !not_true_iff_false, is_no_iff, is_yes_iff. cbn [map In]. split; [intros H; split; intros [->| ->]; apply H; auto|].
  intros [H K] [<-|[<-|[<-|[<-|[]]]]]; auto.
Qed.
(** the last answer counts at the end of the input *)
Lemma ask_ok fuel words r o : other_word r -> ask fuel words r = o ->
  (o = Ok tt -> says_yes words) /\ (o = Exit 0 -> says_no words) /\ (o = Ok tt \/ o = Exit 0 \/ o = Diverge).
Proof.
  revert words r o. induction fuel as [|fuel IH]; intros words r o W.
  - cbn [ask]. intros <-. split; [|split]; try discriminate; auto.
  - cbn [ask]. destruct words as [|a words].
    + apply other_iff in W as W'. destruct W' as [-> ->]. intros H. exact (IH [] r o W H).
    + destruct (is_no a) eqn:EN.
      * intros <-. split; [discriminate|]. split; [|auto]. intros _. exists [], a, words. split; [reflexivity|]. split; [now apply is_no_iff|constructor].
      * destruct (is_yes a) eqn:EY.
        -- intros <-. split; [|split; [discriminate|auto]]. intros _. exists [], a, words. split; [reflexivity|]. split; [now apply is_yes_iff|constructor].
        -- assert (WA : other_word a) by (apply other_iff; auto). intros H. destruct (IH words a o WA H) as (A & B & C). split; [|split; [|exact C]].
           ++ intros E. destruct (A E) as (b & x & c & -> & X & F). exists (a :: b), x, c. split; [reflexivity|]. split; [exact X|]. now constructor.
           ++ intros E. destruct (B E) as (b & x & c & -> & X & F). exists (a :: b), x, c. split; [reflexivity|]. split; [exact X|]. now constructor.
Qed.
Lemma ask_first fuel before a after r : Forall other_word before -> is_no a || is_yes a = true -> (List.length before < fuel)%nat ->
  ask fuel (before ++ a :: after) r = if is_no a then Exit 0 else Ok tt.
Proof.
  revert fuel r. induction before as [|w before IH]; intros fuel r F A L; (destruct fuel as [|fuel]; [cbn in L; lia|]); cbn [app ask].
  - destruct (is_no a); [reflexivity|]. cbn [orb] in A. now rewrite A.
  - inversion_clear F as [|? ? W F']. apply other_iff in W as [-> ->]. apply IH; [exact F'|exact A|cbn in L; lia].
Qed.
Lemma says_long (words b : list (list ascii)) x c fuel : words = b ++ x :: c -> (List.length words <= fuel)%nat -> (List.length b < fuel)%nat.
Proof. intros -> L. rewrite app_length in L. cbn in L. lia. Qed.
Lemma ask_yes fuel words r : says_yes words -> (List.length words <= fuel)%nat -> ask fuel words r = Ok tt.
Proof.
  intros (b & x & c & E & X & F) L. apply is_yes_iff in X. pose proof (says_long _ _ _ _ _ E L) as L'. subst words. rewrite ask_first; auto.
  - destruct (is_no x) eqn:N; [exfalso; eapply no_not_yes; eauto|reflexivity].
  - rewrite X. apply orb_true_r.
Qed.
Lemma ask_no fuel words r : says_no words -> (List.length words <= fuel)%nat -> ask fuel words r = Exit 0.
Proof.
  intros (b & x & c & E & X & F) L. apply is_no_iff in X. pose proof (says_long _ _ _ _ _ E L) as L'. subst words. rewrite ask_first; auto; now rewrite X.
Qed.
Lemma ask_neither fuel words r : says_neither words -> other_word r -> ask fuel words r = Diverge.
Proof.
  revert words r. induction fuel as [|fuel IH]; intros words r F W; cbn [ask]; [reflexivity|]. destruct words as [|a words].
  - apply other_iff in W as W'. destruct W' as [-> ->]. now apply IH.
  - inversion_clear F as [|? ? WA F']. apply other_iff in WA as W'. destruct W' as [-> ->]. now apply IH.
Qed.
Lemma blank_other : other_word [].
Proof. vm_compute. intuition discriminate. Qed.
Lemma known_iff e : known_ext e = true <-> known e.
Proof. unfold known_ext, known. rewrite !orb_true_iff, !text_eqb_iff. tauto. Qed.

Section D.
Variable big : bool.
Variable ps : list (@Types.particle F64).
Lemma export1_eq dir e : known e -> exists b, exported big ps e b /\ export1 big dir ps e = write_file (inputPath dir e) (Ok b).
Proof.
  intros [->|[->| ->]]; eexists; (split; [|reflexivity]); [left|right; right|right; left]; auto.
Qed.
Lemma target_snoc dir exts p : target dir exts p <-> exists e, In e exts /\ p = inputPath dir e.
Proof. reflexivity. Qed.
Lemma input_inj dir e e' : inputPath dir e = inputPath dir e' -> e = e'.
Proof. unfold inputPath. intros H. apply app_inj_tail in H as [_ H]. now apply app_inv_head in H. Qed.
Lemma exported_fun e b b' : exported big ps e b -> exported big ps e b' -> b = b'.
Proof.
  intros [(-> & ->)|[(-> & ->)|(-> & ->)]] [(E & ->)|[(E & ->)|(E & ->)]]; auto; exfalso; vm_compute in E; discriminate.
Qed.
Lemma write_text p b fs fs' o : write_file p (Ok b) fs = (fs', o) ->
  (o = Exit (-1) /\ fs' = fs /\ (fs p = Some Folder \/ fs (parent p) <> Some Folder)) \/
  (o = Ok tt /\ fs' = put fs p (File b) /\ fs p <> Some Folder /\ fs (parent p) = Some Folder).
Proof.
  unfold write_file. destruct (fs p) as [[c|]|]; destruct (fs (parent p)) as [[c'|]|]; intros [= <- <-];
    try (left; split; [reflexivity|]; split; [reflexivity|]; try (left; reflexivity); right; discriminate);
    right; split; [reflexivity| |reflexivity|]; split; [reflexivity| |reflexivity|]; split; try reflexivity; discriminate.
Qed.
(** the export changes targets only, and never a directory *)
Lemma exportAll_only dir exts fs fs' o : Forall known exts -> exportAll big dir ps exts fs = (fs', o) ->
  (o = Ok tt \/ o = Exit (-1)) /\
  (forall p, fs' p = fs p \/ (target dir exts p /\ fs p <> Some Folder /\ exists e b, In e exts /\ p = inputPath dir e /\ exported big ps e b /\ fs' p = Some (File b))) /\
  (o = Ok tt -> Forall (fun e => exists b, exported big ps e b /\ fs' (inputPath dir e) = Some (File b)) exts).
Proof.
  revert fs. induction exts as [|e exts IH]; intros fs K H.
  - injection H as <- <-. split; [auto|]. split; [auto|constructor].
  - inversion_clear K as [|? ? K1 K2]. cbn [exportAll] in H. destruct (export1_eq dir e K1) as (b & X & E). unfold after in H. rewrite E in H.
    destruct (write_file (inputPath dir e) (Ok b) fs) as [fs1 o1] eqn:W. apply write_text in W as [(-> & -> & _)|(-> & -> & NF & PF)].
    + injection H as <- <-. split; [auto|]. split; [auto|discriminate].
    + apply IH in H; [|exact K2]. destruct H as (A & B & C). split; [exact A|]. split.
      * intros p. destruct (B p) as [S|(T & NF' & e' & b' & I & -> & X' & S)].
        -- destruct (path_dec p (inputPath dir e)) as [->|D].
           ++ right. split; [exists e; split; [now left|reflexivity]|]. split; [exact NF|]. exists e, b. split; [now left|]. split; [reflexivity|]. split; [exact X|]. rewrite S. apply put_same.
           ++ left. rewrite S. now apply put_other.
        -- right. split; [exists e'; split; [now right|reflexivity]|]. split.
           { destruct (path_dec (inputPath dir e') (inputPath dir e)) as [->|D]; [exact NF|]. now rewrite put_other in NF'. }
           exists e', b'. split; [now right|auto].
      * intros Eo. specialize (C Eo). constructor; [|exact C]. exists b. split; [exact X|].
        destruct (B (inputPath dir e)) as [S|(_ & _ & e' & b' & I & Q & X' & S)]; [rewrite S; apply put_same|].
        apply input_inj in Q. subst e'. rewrite S. now rewrite (exported_fun _ _ _ X X').
Qed.
Lemma exportAll_done dir exts fs : Forall known exts -> fs dir = Some Folder -> (forall e, In e exts -> fs (inputPath dir e) <> Some Folder) ->
  exists fs', exportAll big dir ps exts fs = (fs', Ok tt).
Proof.
  revert fs. induction exts as [|e exts IH]; intros fs K D T; [eexists; reflexivity|]. inversion_clear K as [|? ? K1 K2].
  cbn [exportAll]. destruct (export1_eq dir e K1) as (b & X & E). unfold after. rewrite E.
  destruct (write_file (inputPath dir e) (Ok b) fs) as [fs1 o1] eqn:W. apply write_text in W as [(_ & _ & [F|F])|(-> & -> & NF & PF)].
  - exfalso. apply (T e); [now left|exact F].
  - exfalso. apply F. unfold inputPath. now rewrite parent_snoc.
  - apply IH; [exact K2| |].
    + rewrite put_other; [exact D|]. apply out_self.
    + intros e' I. destruct (path_dec (inputPath dir e') (inputPath dir e)) as [->|N]; [rewrite put_same; discriminate|]. rewrite put_other by exact N. apply T. now right.
Qed.
Lemma exportAll_blocked dir exts fs : Forall known exts -> exts <> [] -> fs dir <> Some Folder -> exportAll big dir ps exts fs = (fs, Exit (-1)).
Proof.
  intros K NE D. destruct exts as [|e exts]; [congruence|]. inversion_clear K as [|? ? K1 K2]. cbn [exportAll]. destruct (export1_eq dir e K1) as (b & X & E). unfold after. rewrite E.
  destruct (write_file (inputPath dir e) (Ok b) fs) as [fs1 o1] eqn:W. apply write_text in W as [(-> & -> & _)|(-> & -> & NF & PF)]; [reflexivity|].
  exfalso. apply D. unfold inputPath in PF. now rewrite parent_snoc in PF.
Qed.

(** ** New directories *)
Lemma create_under_only base rest fs fs' o : create_under base rest fs = (fs', o) ->
  (o = Ok tt \/ o = Throw) /\
  (forall p, fs' p = fs p \/ (fs p = None /\ fs' p = Some Folder /\ exists a n b, p = base ++ a ++ [n] /\ rest = a ++ n :: b)).
Proof.
  revert base fs. induction rest as [|n rest IH]; intros base fs H.
  - injection H as <- <-. auto.
  - cbn [create_under] in H. unfold after in H. destruct (create_dir (base ++ [n]) fs) as [fs1 o1] eqn:C.
    apply create_inv in C as [(-> & ->)|(-> & [(E & ->)|(E & P & ->)])].
    + injection H as <- <-. auto.
    + apply IH in H as (A & B). split; [exact A|]. intros p. destruct (B p) as [S|(N & F & a & m & c & -> & ->)]; [auto|].
      right. split; [exact N|]. split; [exact F|]. exists (n :: a), m, c. split; [now rewrite <- app_assoc|reflexivity].
    + apply IH in H as (A & B). split; [exact A|]. intros p. destruct (B p) as [S|(N & F & a & m & c & -> & ->)].
      * destruct (path_dec p (base ++ [n])) as [->|D].
        -- right. split; [exact E|]. split; [rewrite S; apply put_same|]. exists [], n, rest. split; reflexivity.
        -- left. rewrite S. now apply put_other.
      * right. split.
        { rewrite put_other in N; [exact N|]. rewrite <- app_assoc. intros Q. apply app_inv_head in Q. cbn in Q. injection Q as Q. now destruct a. }
        split; [exact F|]. exists (n :: a), m, c. split; [now rewrite <- app_assoc|reflexivity].
Qed.
Lemma create_under_done base rest fs : fs base = Some Folder -> (forall a c b, rest = a ++ c -> fs (base ++ a) <> Some (File b)) ->
  exists fs', create_under base rest fs = (fs', Ok tt) /\ fs' (base ++ rest) = Some Folder.
Proof.
  revert base fs. induction rest as [|n rest IH]; intros base fs B C.
  - exists fs. rewrite app_nil_r. split; [reflexivity|exact B].
  - cbn [create_under]. unfold after. destruct (create_dir (base ++ [n]) fs) as [fs1 o1] eqn:E.
    assert (X : o1 = Ok tt /\ fs1 (base ++ [n]) = Some Folder /\ forall p, p <> base ++ [n] -> fs1 p = fs p).
    { unfold create_dir in E. rewrite parent_snoc, B in E. destruct (fs (base ++ [n])) as [[c|]|] eqn:Q; injection E as <- <-.
      - exfalso. apply (C [n] rest c); [reflexivity|exact Q].
      - auto.
      - split; [reflexivity|]. split; [apply put_same|]. intros p D. now apply put_other. }
    destruct X as (-> & F & O). destruct (IH (base ++ [n]) fs1 F) as (fs' & H & K).
    + intros a c b Q. destruct a as [|m a]; [rewrite app_nil_r, F; discriminate|]. rewrite O.
      * rewrite <- app_assoc. apply (C (n :: m :: a) c). now rewrite Q.
      * rewrite <- app_assoc. intros Z'. apply app_inv_head in Z'. discriminate.
    + exists fs'. split; [exact H|]. now rewrite <- app_assoc in K.
Qed.

(** ** The dialogue *)
Lemma tree_below fs dir n : tree fs -> there fs dir = false -> fs (dir ++ [n]) = None.
Proof.
  intros [_ T] D. apply there_none in D. destruct (fs (dir ++ [n])) eqn:E; [|reflexivity]. exfalso. specialize (T dir n). rewrite E in T. rewrite T in D by discriminate. discriminate.
Qed.
Lemma all_known exts : forallb known_ext exts = true <-> Forall known exts.
Proof. rewrite forallb_forall, Forall_forall. split; intros H e I; apply known_iff, H, I. Qed.
Lemma any_target fs dir exts : existsb (fun e => there fs (inputPath dir e)) exts = true <-> exists p, target dir exts p /\ fs p <> None.
Proof.
  rewrite existsb_exists. split.
  - intros (e & I & H). exists (inputPath dir e). split; [exists e; auto|]. intros N. apply there_none in N. congruence.
  - intros (p & (e & I & ->) & H). exists e. split; [exact I|]. destruct (there fs (inputPath dir e)) eqn:E; [reflexivity|]. apply there_none in E. contradiction.
Qed.
Variables (fuel : nat) (words : list (list ascii)) (dir : path) (exts : list (list ascii)) (fs : filesystem).
Notation dialogue := (generatorDialogue big fuel words dir ps exts fs).
Lemma dialogue_refused : exts = [] \/ ~ Forall known exts -> dialogue = (fs, Exit 0).
Proof.
  unfold generatorDialogue. destruct exts as [|e r]; [reflexivity|]. intros [E|E]; [discriminate|]. rewrite <- all_known in E. apply not_true_is_false in E. now rewrite E.
Qed.
Lemma dialogue_go : exts <> [] -> Forall known exts ->
  dialogue = (_ <~ (if there fs dir then
                 if existsb (fun e => there fs (inputPath dir e)) exts then ret (ask fuel words []) else ret (Ok tt)
               else create_directories dir) ;;
         exportAll big dir ps exts) fs.
Proof. intros NE K. unfold generatorDialogue. apply all_known in K. destruct exts as [|e r]; [congruence|]. now rewrite K. Qed.
Lemma target_there p : tree fs -> target dir exts p -> fs p <> None -> there fs dir = true.
Proof. intros T (e & _ & ->) N. destruct (there fs dir) eqn:E; [reflexivity|]. exfalso. apply N. now apply tree_below. Qed.
Lemma dialogue_asks p : exts <> [] -> Forall known exts -> tree fs -> target dir exts p -> fs p <> None ->
  dialogue = (_ <~ ret (ask fuel words []) ;; exportAll big dir ps exts) fs.
Proof.
  intros NE K T X N. rewrite dialogue_go by assumption. rewrite (target_there p T X N).
  assert (A : existsb (fun e => there fs (inputPath dir e)) exts = true) by (apply any_target; eauto). now rewrite A.
Qed.
Lemma dialogue_no p : exts <> [] -> Forall known exts -> tree fs -> target dir exts p -> fs p <> None -> says_no words -> (List.length words <= fuel)%nat ->
  dialogue = (fs, Exit 0).
Proof. intros NE K T X N Y L. rewrite (dialogue_asks p) by assumption. unfold after, ret. now rewrite ask_no. Qed.
Lemma dialogue_eof p : exts <> [] -> Forall known exts -> tree fs -> target dir exts p -> fs p <> None -> says_neither words ->
  dialogue = (fs, Diverge).
Proof. intros NE K T X N Y. rewrite (dialogue_asks p) by assumption. unfold after, ret. rewrite ask_neither; [reflexivity|exact Y|exact blank_other]. Qed.
(** the four ways it can go *)
Lemma dialogue_cases fs' o : tree fs -> dialogue = (fs', o) ->
  (fs' = fs /\ ((o = Exit 0 /\ (exts = [] \/ ~ Forall known exts)) \/
     (Forall known exts /\ (exists p, target dir exts p /\ fs p <> None) /\ ((o = Exit 0 /\ says_no words) \/ o = Diverge)))) \/
  (Forall known exts /\ exts <> [] /\ fs dir = None /\ o = Throw /\ create_directories dir fs = (fs', Throw)) \/
  (Forall known exts /\ exts <> [] /\ exists fs1, ((fs1 = fs /\ fs dir <> None) \/ (fs dir = None /\ create_directories dir fs = (fs1, Ok tt))) /\
    (says_yes words \/ (forall p, target dir exts p -> fs p = None)) /\ exportAll big dir ps exts fs1 = (fs', o)).
Proof.
  intros T H. destruct (list_eq_dec (list_eq_dec ascii_dec) exts []) as [E0|NE]; [rewrite dialogue_refused in H by auto; injection H as <- <-; left; auto|].
  destruct (forallb known_ext exts) eqn:EK; [|rewrite dialogue_refused in H; [injection H as <- <-; left; split; [reflexivity|]; left; split; [reflexivity|]; right|right]; intros K; apply all_known in K; congruence].
  apply all_known in EK as K. rewrite dialogue_go in H by assumption. destruct (there fs dir) eqn:ED.
  - assert (D : fs dir <> None) by (intros N; apply there_none in N; congruence).
    destruct (existsb (fun e => there fs (inputPath dir e)) exts) eqn:EX.
    + apply any_target in EX as (p & X & N). unfold after, ret in H. destruct (ask_ok fuel words [] _ blank_other eq_refl) as (Y & Nn & C).
      destruct C as [C|[C|C]]; rewrite C in H.
      * right. right. split; [exact K|]. split; [exact NE|]. exists fs. split; [auto|]. split; [left; now apply Y|exact H].
      * injection H as <- <-. left. split; [reflexivity|]. right. split; [exact K|]. split; [eauto|]. left. auto.
      * injection H as <- <-. left. split; [reflexivity|]. right. split; [exact K|]. split; [eauto|]. now right.
    + right. right. split; [exact K|]. split; [exact NE|]. exists fs. split; [auto|]. split; [|exact H]. right. intros p X. destruct (fs p) eqn:E; [|reflexivity].
      exfalso. apply not_true_iff_false in EX. apply EX. apply any_target. exists p. split; [exact X|]. congruence.
  - apply there_none in ED as ED'. unfold after in H. destruct (create_directories dir fs) as [fs1 o1] eqn:C. pose proof C as C'. apply create_under_only in C as ([->| ->] & _).
    + right. right. split; [exact K|]. split; [exact NE|]. exists fs1. split; [auto|]. split; [|exact H]. right. intros p (e & _ & ->). now apply tree_below.
    + injection H as <- <-. right. left. auto.
Qed.
Lemma created_only fs1 p : create_directories dir fs = (fs1, Ok tt) \/ create_directories dir fs = (fs1, Throw) ->
  fs1 p = fs p \/ (fs p = None /\ fs1 p = Some Folder /\ exists q, dir = p ++ q).
Proof.
  intros H. assert (H' : exists o, create_directories dir fs = (fs1, o)) by (destruct H; eauto). destruct H' as (o & H').
  apply create_under_only in H' as (_ & B). destruct (B p) as [S|(N & F & a & n & b & -> & E)]; [auto|]. right. split; [exact N|]. split; [exact F|]. exists b. cbn [app]. rewrite E, <- app_assoc. reflexivity.
Qed.
(** what changes *)
Lemma dialogue_changes fs' o p : tree fs -> dialogue = (fs', o) ->
  fs' p = fs p \/
  (fs p = None /\ fs' p = Some Folder /\ exists q, dir = p ++ q) \/
  (Forall known exts /\ target dir exts p /\ fs p <> Some Folder /\ (fs p = None \/ says_yes words) /\
   exists e b, In e exts /\ p = dir ++ [lit "input" ++ e] /\ exported big ps e b /\ fs' p = Some (File b)).
Proof.
  intros T H. apply dialogue_cases in H; [|exact T]. destruct H as [(-> & _)|[(_ & _ & _ & _ & C)|(K & NE & fs1 & D & Y & H)]].
  - now left.
  - destruct (created_only fs' p (or_intror C)) as [S|S]; auto.
  - apply exportAll_only in H as (_ & B & _); [|exact K].
    assert (D' : fs1 p = fs p \/ (fs p = None /\ fs1 p = Some Folder /\ exists q, dir = p ++ q)).
    { destruct D as [(-> & _)|(_ & C)]; [now left|]. apply created_only. now left. }
    destruct (B p) as [S|(X & NF & e & b & I & Q & E & S)].
    + rewrite S. destruct D' as [D'|D']; auto.
    + right. right. split; [exact K|]. split; [exact X|]. destruct D' as [D'|(_ & F & _)]; [|congruence]. rewrite D' in NF. split; [exact NF|]. split.
      * destruct Y as [Y|Y]; [now right|left; now apply Y].
      * exists e, b. auto.
Qed.
Lemma dialogue_written fs' : tree fs -> dialogue = (fs', Ok tt) ->
  exts <> [] /\ Forall (fun e => known e /\ exists b, exported big ps e b /\ fs' (dir ++ [lit "input" ++ e]) = Some (File b)) exts.
Proof.
  intros T H. apply dialogue_cases in H; [|exact T]. destruct H as [(-> & [(E & _)|(_ & _ & [(E & _)|E])])|[(_ & _ & _ & E & C)|(K & NE & fs1 & D & Y & H)]]; try discriminate.
  split; [exact NE|]. apply exportAll_only in H as (_ & _ & W); [|exact K]. specialize (W eq_refl). rewrite Forall_forall in *. intros e I. split; [now apply K|]. now apply W.
Qed.
Lemma dialogue_done : tree fs -> exts <> [] -> Forall known exts -> creatable fs dir -> (forall p, target dir exts p -> fs p <> Some Folder) ->
  (forall p, target dir exts p -> fs p = None) \/ (says_yes words /\ (List.length words <= fuel)%nat) ->
  exists fs', dialogue = (fs', Ok tt).
Proof.
  intros T NE K C F Y. rewrite dialogue_go by assumption. destruct (there fs dir) eqn:ED.
  - assert (D : fs dir = Some Folder).
    { destruct (fs dir) as [[b|]|] eqn:E; [|reflexivity|apply there_none in E; congruence]. exfalso. apply (C dir [] b); [now rewrite app_nil_r|exact E]. }
    assert (A : (if existsb (fun e => there fs (inputPath dir e)) exts then ret (ask fuel words []) else ret (Ok tt)) fs = (fs, Ok tt)).
    { destruct (existsb _ exts) eqn:EX; [|reflexivity]. apply any_target in EX as (p & X & N). destruct Y as [Y|(Y & L)]; [now apply Y in X|]. unfold ret. now rewrite ask_yes. }
    unfold after. rewrite A. apply exportAll_done; [exact K|exact D|]. intros e I. apply F. exists e. auto.
  - assert (X := create_under_done [] dir fs (proj1 T)). destruct X as (fs1 & H & D).
    { intros a c b E. now apply (C a c b). }
    unfold after, create_directories. rewrite H. apply exportAll_done; [exact K|exact D|]. intros e I.
    destruct (created_only fs1 (inputPath dir e) (or_introl H)) as [S|(_ & _ & q & Q)].
    + rewrite S. apply F. exists e; auto.
    + exfalso. unfold inputPath in Q. apply (f_equal (@List.length _)) in Q. rewrite !app_length in Q. cbn in Q. lia.
Qed.
Lemma dialogue_not_folder b : tree fs -> exts <> [] -> Forall known exts -> fs dir = Some (File b) -> dialogue = (fs, Exit (-1)).
Proof.
  intros T NE K D. rewrite dialogue_go by assumption. assert (E : there fs dir = true) by (unfold there; now rewrite D). rewrite E.
  destruct (existsb (fun e => there fs (inputPath dir e)) exts) eqn:EX.
  - exfalso. apply any_target in EX as (p & (e & _ & ->) & N). destruct T as [_ T]. apply T in N. congruence.
  - unfold after, ret. apply exportAll_blocked; [exact K|exact NE|]. congruence.
Qed.
End D.
