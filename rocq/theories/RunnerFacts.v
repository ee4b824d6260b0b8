(** * The runner scripts *)
From Coq Require Import FunctionalExtensionality.
From Verif Require Import ProgramFacts ShippedCases ScriptFacts SimF SpecScripts.
Open Scope list_scope.
Open Scope Z_scope.
#[local] Remove Hints Rnum : typeclass_instances.

Lemma starred_app root a q : starred (root ++ a) (root ++ q) = starred a q.
Proof. induction root as [|n root IH]; [reflexivity|]. cbn [app starred]. destruct (list_eq_dec ascii_dec n n); [exact IH|congruence]. Qed.
Lemma starred_below out q : starred out q = true -> below out q.
Proof.
  revert q. induction out as [|a out IH]; intros q H.
  - destruct q as [|[|c n] q]; try discriminate H. exists (c :: n), q. reflexivity.
  - destruct q as [|b q]; [discriminate H|]. cbn [starred] in H. destruct (list_eq_dec ascii_dec a b) as [<-|]; [|discriminate H]. destruct (IH q H) as (n & r & ->). exists n, r. reflexivity.
Qed.
Lemma not_below_self out : ~ below out out.
Proof. intros (n & r & E). apply (f_equal (@List.length _)) in E. rewrite app_length in E. cbn in E. lia. Qed.
Lemma starred_self out : starred out out = false.
Proof. destruct (starred out out) eqn:E; [|reflexivity]. destruct (not_below_self out (starred_below _ _ E)). Qed.
Lemma starred_name out c n r : Ascii.eqb c "." = false -> starred out (out ++ (c :: n) :: r) = true.
Proof. intros H. pose proof (starred_app out [] ((c :: n) :: r)) as E. rewrite app_nil_r in E. rewrite E. cbn [starred]. now rewrite H. Qed.

Lemma put_same fs p e : put fs p e p = Some e.
Proof. unfold put. destruct (path_dec p p); congruence. Qed.
Lemma put_other fs p e q : q <> p -> put fs p e q = fs q.
Proof. unfold put. destruct (path_dec q p); congruence. Qed.

(** mkdir -p of two names *)
Lemma mkdir_two base a b fs : usable fs (base ++ [a]) -> usable fs (base ++ [a; b]) ->
  let fs1 := fst (mkdir_p base [a; b] fs) in
  fs1 (base ++ [a]) = Some Folder /\ fs1 (base ++ [a; b]) = Some Folder /\ forall q, q <> base ++ [a] -> q <> base ++ [a; b] -> fs1 q = fs q.
Proof.
  intros A B. cbn [mkdir_p]. assert (E : (base ++ [a]) ++ [b] = base ++ [a; b]) by (rewrite <- app_assoc; reflexivity).
  assert (N : base ++ [a; b] <> base ++ [a]) by (intros K; apply app_inv_head in K; discriminate).
  destruct A as [A|A]; rewrite A, E.
  - rewrite (put_other _ _ _ _ N). destruct B as [B|B]; rewrite B; cbn [fst].
    + split; [rewrite put_other by congruence; apply put_same|]. split; [apply put_same|]. intros q H1 H2. now rewrite !put_other.
    + split; [apply put_same|]. split; [now rewrite put_other|]. intros q H1 H2. now rewrite put_other.
  - destruct B as [B|B]; rewrite B; cbn [fst].
    + split; [now rewrite put_other by congruence|]. split; [apply put_same|]. intros q H1 H2. now rewrite put_other.
    + auto.
Qed.
(** mkdir -p in general: nothing that is there is lost *)
Lemma mkdir_kept rest : forall done fs, preserved fs (fst (mkdir_p done rest fs)).
Proof.
  induction rest as [|n r IH]; intros done fs p e H; [exact H|]. cbn [mkdir_p]. destruct (fs (done ++ [n])) as [[b|]|] eqn:E; [exact H|now apply IH|].
  apply IH. rewrite put_other; [exact H|]. intros ->. congruence.
Qed.

Lemma starred_visible out q : starred out q = true <-> visible out q.
Proof.
  split.
  - revert q. induction out as [|a out IH]; intros q H.
    + destruct q as [|[|c n] q]; try discriminate H. exists c, n, q. split; [|reflexivity]. intros ->. discriminate H.
    + destruct q as [|b q]; [discriminate H|]. cbn [starred] in H. destruct (list_eq_dec ascii_dec a b) as [<-|]; [|discriminate H]. destruct (IH q H) as (c & n & r & N & ->). exists c, n, r. now split.
  - intros (c & n & r & N & ->). apply starred_name. now apply Ascii.eqb_neq.
Qed.

Section Run.
Variables (root : path) (project : name).
Hypothesis NB : has_blank root = false.
Let out := root ++ [lit "result"; project].
(** the file system when the program starts *)
Definition prepared (err con : list ascii) (fs : filesystem) : filesystem :=
  put (put (remove_all out (fst (mkdir_p root [lit "result"; project] fs))) (out ++ [lit "error.log"]) (File err)) (out ++ [lit "console.log"]) (File con).
Lemma out_below c n r : Ascii.eqb c "." = false -> starred out (out ++ (c :: n) :: r) = true.
Proof. apply starred_name. Qed.
Lemma checkout_prepared yml prof fs err con : checkout root project yml prof fs ->
  installed (prepared err con fs) (root ++ [lit "input"; project]) out yml prof /\ prepared err con fs out = Some Folder /\
  (forall mps cwd, runner mps err con root cwd project fs = mps (root ++ [lit "input"; project; lit "settings.yml"]) out (prepared err con fs)).
Proof.
  intros ((b & HB) & HS & HP & R1 & R2). destruct (mkdir_two root (lit "result") project fs R1 R2) as (F1 & F2 & F3). unfold prepared.
  set (fs1 := fst (mkdir_p root [lit "result"; project] fs)) in *.
  assert (NI : forall l, hd [] l <> lit "result" -> remove_all out fs1 (root ++ l) = fs (root ++ l)).
  { intros l Hl. unfold remove_all, out. rewrite starred_app. destruct l as [|n l]; [cbn; rewrite app_nil_r; apply F3; intros K; [|rewrite <- (app_nil_r root) in K at 1; apply app_inv_head in K; discriminate];
      rewrite <- (app_nil_r root) in K at 1; apply app_inv_head in K; discriminate|].
    cbn [starred]. destruct (list_eq_dec ascii_dec (lit "result") n) as [<-|_]; [destruct Hl; reflexivity|].
    apply F3; intros K; apply app_inv_head in K; injection K as -> ; destruct Hl; reflexivity. }
  assert (PO : forall l e k, hd [] l <> lit "result" -> root ++ l <> out ++ [e] /\ root ++ l <> out ++ [k]).
  { intros l e k Hl. unfold out. rewrite <- !app_assoc. split; intros K; apply app_inv_head in K; subst l; apply Hl; reflexivity. }
  assert (OUT : forall c n r, Ascii.eqb c "." = false -> (c :: n) :: r <> [lit "error.log"] -> (c :: n) :: r <> [lit "console.log"] ->
     put (put (remove_all out fs1) (out ++ [lit "error.log"]) (File err)) (out ++ [lit "console.log"]) (File con) (out ++ (c :: n) :: r) = None).
  { intros c n r C E1 E2. rewrite !put_other by (intros K; apply app_inv_head in K; contradiction). unfold remove_all. now rewrite out_below. }
  assert (OF : put (put (remove_all out fs1) (out ++ [lit "error.log"]) (File err)) (out ++ [lit "console.log"]) (File con) out = Some Folder).
  { rewrite !put_other by (intros K; rewrite <- (app_nil_r out) in K at 1; apply app_inv_head in K; discriminate). unfold remove_all. rewrite starred_self. exact F2. }
  split; [|split; [exact OF|]].
  - assert (IN : forall f, hd [] [lit "input"; project; f] <> lit "result") by (intros f K; discriminate K).
    unfold installed. rewrite <- !app_assoc. cbn [app]. split; [|split; [|split; [|split]]].
    + rewrite !put_other by (first [exact (proj1 (PO _ _ (lit "") (IN _)))|exact (proj2 (PO _ (lit "") _ (IN _)))]). rewrite (NI _ (IN _)). exact HS.
    + rewrite !put_other by (first [exact (proj1 (PO _ _ (lit "") (IN _)))|exact (proj2 (PO _ (lit "") _ (IN _)))]). rewrite (NI _ (IN _)). exact HP.
    + apply (OUT "s"%char (lit "ettings.yml") []); [reflexivity|discriminate|discriminate].
    + apply (OUT "i"%char (lit "nput.prof") []); [reflexivity|discriminate|discriminate].
    + split; [exact OF|]. intros kind K. split.
      * left. destruct K as [<-|[<-|[<-|[]]]]; [apply (OUT "p"%char (lit "rof") [])|apply (OUT "v"%char (lit "tu") [])|apply (OUT "c"%char (lit "sv") [])]; try reflexivity; discriminate.
      * intros k _. unfold outputPath. destruct K as [<-|[<-|[<-|[]]]];
          [rewrite (OUT "p"%char (lit "rof") [_])|rewrite (OUT "v"%char (lit "tu") [_])|rewrite (OUT "c"%char (lit "sv") [_])]; try reflexivity; discriminate.
  - intros mps cwd. unfold runner. rewrite NB. fold out. fold fs1. unfold launch.
    assert (RF : remove_all out fs1 out = Some Folder) by (unfold remove_all; rewrite starred_self; exact F2). rewrite RF.
    assert (LG : forall c n, Ascii.eqb c "." = false -> remove_all out fs1 (out ++ [c :: n]) = None) by (intros c n C; unfold remove_all; now rewrite out_below).
    assert (LE : remove_all out fs1 (out ++ [lit "error.log"]) = None) by exact (LG "e"%char (lit "rror.log") eq_refl).
    assert (LC : remove_all out fs1 (out ++ [lit "console.log"]) = None) by exact (LG "c"%char (lit "onsole.log") eq_refl). rewrite LE, LC.
    rewrite (NI [lit "build"; lit "mps"]) by (intros K; discriminate K). rewrite HB. reflexivity.
Qed.

(** what is visible in the result directory does not matter *)
Lemma runner_same mps err con cwd fs fs0 :
  usable fs (root ++ [lit "result"]) -> usable fs out -> usable fs0 (root ++ [lit "result"]) -> usable fs0 out ->
  (forall q, q <> root ++ [lit "result"] -> q <> out -> ~ visible out q -> fs q = fs0 q) ->
  runner mps err con root cwd project fs = runner mps err con root cwd project fs0.
Proof.
  intros A B A0 B0 H. unfold runner. rewrite NB. fold out. destruct (mkdir_two _ _ _ _ A B) as (F1 & F2 & F3). destruct (mkdir_two _ _ _ _ A0 B0) as (G1 & G2 & G3).
  f_equal. apply functional_extensionality. intros q. unfold remove_all. destruct (starred out q) eqn:E; [reflexivity|].
  assert (NV : ~ visible out q) by (intros K; apply starred_visible in K; congruence).
  destruct (path_dec q (root ++ [lit "result"])) as [->|N1]; [now rewrite F1, G1|]. destruct (path_dec q out) as [->|N2]; [unfold out; now rewrite F2, G2|].
  rewrite (F3 q N1 N2), (G3 q N1 N2). auto.
Qed.

Lemma only_elsewhere fs fs' p : only_output out fs fs' -> ~ below out p -> fs' p = fs p.
Proof.
  intros H N. destruct (H p) as [E|[(_ & n & ->)|(_ & kind & k & _ & _ & ->)]]; [exact E| |]; exfalso; apply N; unfold outputPath; eexists; eexists; reflexivity.
Qed.
Lemma checkout_again yml prof fs err con cwd parse as_int as_dbl as_bool cell_int cell_dbl fsin fcos pi big dbg S real clk fuel : checkout root project yml prof fs ->
  checkout root project yml prof (fst (runner (program parse as_int as_dbl as_bool cell_int cell_dbl fsin fcos pi big dbg S real clk fuel) err con root cwd project fs)).
Proof.
  intros C. destruct (checkout_prepared yml prof fs err con C) as (I & OF & R). rewrite R.
  destruct (program parse as_int as_dbl as_bool cell_int cell_dbl fsin fcos pi big dbg S real clk fuel _ out (prepared err con fs)) as [fs' o] eqn:E. cbn [fst].
  apply program_only in E.
  assert (K : forall l, ~ below out (root ++ l) -> fs' (root ++ l) = prepared err con fs (root ++ l)) by (intros l H; exact (only_elsewhere _ _ _ E H)).
  assert (NBL : forall n l, n <> lit "result" -> ~ below out (root ++ n :: l)).
  { intros n l H (a & r & X). unfold out in X. rewrite <- app_assoc in X. apply app_inv_head in X. injection X as X _. contradiction. }
  assert (PO : forall n l, n <> lit "result" -> prepared err con fs (root ++ n :: l) = fs (root ++ n :: l)).
  { intros n l H. unfold prepared. destruct C as (_ & _ & _ & R1 & R2). destruct (mkdir_two root (lit "result") project fs R1 R2) as (_ & _ & F3).
    rewrite !put_other by (unfold out; rewrite <- app_assoc; intros X; apply app_inv_head in X; injection X as X _; contradiction).
    unfold remove_all. destruct (starred out (root ++ n :: l)) eqn:ST; [apply starred_below in ST; destruct (NBL n l H ST)|].
    apply F3; intros X; apply app_inv_head in X; injection X as X; contradiction. }
  destruct C as ((b & HB) & HS & HP & R1 & R2).
  split; [|split; [|split; [|split]]].
  - exists b. rewrite K by (apply NBL; discriminate). rewrite PO by discriminate. exact HB.
  - rewrite K by (apply NBL; discriminate). rewrite PO by discriminate. exact HS.
  - rewrite K by (apply NBL; discriminate). rewrite PO by discriminate. exact HP.
  - right. rewrite K.
    + destruct (mkdir_two root (lit "result") project fs R1 R2) as (F1 & _). unfold prepared.
      rewrite !put_other by (unfold out; rewrite <- app_assoc; intros X; apply app_inv_head in X; discriminate).
      unfold remove_all, out. rewrite starred_app. cbn [starred]. destruct (list_eq_dec ascii_dec (lit "result") (lit "result")); exact F1.
    + intros (a & r & X). unfold out in X. rewrite <- app_assoc in X. apply app_inv_head in X. discriminate.
  - right. fold out. rewrite (only_elsewhere _ _ _ E (not_below_self out)). exact OF.
Qed.
Lemma checkout_kept yml prof fs fs' : runs_of root project fs fs' -> checkout root project yml prof fs -> checkout root project yml prof fs'.
Proof. induction 1 as [|fs fs1]; intros C; [exact C|]. apply checkout_again. auto. Qed.
End Run.

(** safe_runner.sh into a directory of its own *)
Section Safe.
Variables (root : path) (project folder : name).
Hypothesis NB : has_blank root = false.
Let out := root ++ [lit "result"; folder].
Lemma not_out_self l n : out ++ n :: l <> out.
Proof. intros E. apply (f_equal (@List.length _)) in E. rewrite app_length in E. cbn in E. lia. Qed.
Lemma safe_kept parse as_int as_dbl as_bool cell_int cell_dbl fsin fcos pi big dbg S real clk fuel err con cwd fs : (forall q, below out q -> fs q = None) ->
  preserved fs (fst (safe_runner (program parse as_int as_dbl as_bool cell_int cell_dbl fsin fcos pi big dbg S real clk fuel) err con root cwd project folder fs)).
Proof.
  intros H p e E. unfold safe_runner. rewrite NB. fold out. pose proof (mkdir_kept [lit "result"; folder] root fs p e E) as K. set (fs1 := fst (mkdir_p root [lit "result"; folder] fs)) in *.
  assert (NP : ~ below out p) by (intros X; rewrite (H p X) in E; discriminate).
  assert (NE : forall n, p <> out ++ [n]) by (intros n X; apply NP; exists n, []; exact X).
  unfold launch. destruct (fs1 out) as [[b|]|]; [exact K| |exact K]. 
  assert (PUT : forall n b, put fs1 (out ++ [n]) (File b) p = Some e) by (intros n b; now rewrite put_other).
  assert (PUT2 : forall n b n2 b2, put (put fs1 (out ++ [n]) (File b)) (out ++ [n2]) (File b2) p = Some e) by (intros n b n2 b2; rewrite put_other by apply NE; apply PUT).
  assert (GO : forall f, f p = Some e -> fst (match fs1 (root ++ [lit "build"; lit "mps"]) with Some (File _) =>
     program parse as_int as_dbl as_bool cell_int cell_dbl fsin fcos pi big dbg S real clk fuel (root ++ [lit "input"; project; lit "settings.yml"]) out f | _ => (f, Exit 127) end) p = Some e).
  { intros f Hf. destruct (fs1 (root ++ [lit "build"; lit "mps"])) as [[b|]|]; [|exact Hf|exact Hf].
    destruct (program parse as_int as_dbl as_bool cell_int cell_dbl fsin fcos pi big dbg S real clk fuel _ out f) as [f' o] eqn:EP. cbn [fst]. apply program_only in EP.
    rewrite <- Hf. destruct (EP p) as [X|[(_ & n & X)|(_ & kind & k & _ & _ & X)]]; [exact X| |]; exfalso; apply NP; rewrite X; unfold outputPath; eexists; eexists; reflexivity. }
  destruct (fs1 (out ++ [lit "error.log"])) as [[b|]|]; [|exact K|]; destruct (fs1 (out ++ [lit "console.log"])) as [[b2|]|]; apply GO; first [apply PUT2|apply PUT].
Qed.
Lemma safe_prepared yml prof fs err con : checkout root project yml prof fs -> usable fs out -> (forall q, below out q -> fs q = None) ->
  exists fs1, installed fs1 (root ++ [lit "input"; project]) out yml prof /\
  (forall mps cwd, safe_runner mps err con root cwd project folder fs = mps (root ++ [lit "input"; project; lit "settings.yml"]) out fs1).
Proof.
  intros ((b & HB) & HS & HP & R1 & R2) R3 H. destruct (mkdir_two root (lit "result") folder fs R1 R3) as (F1 & F2 & F3).
  set (fs1 := fst (mkdir_p root [lit "result"; folder] fs)) in *.
  exists (put (put fs1 (out ++ [lit "error.log"]) (File err)) (out ++ [lit "console.log"]) (File con)).
  assert (NI : forall n l, n <> lit "result" -> fs1 (root ++ n :: l) = fs (root ++ n :: l)).
  { intros n l Hn. apply F3; intros K; apply app_inv_head in K; injection K; intros; contradiction. }
  assert (PO : forall n l e, n <> lit "result" -> root ++ n :: l <> out ++ [e]).
  { intros n l e Hn. unfold out. rewrite <- app_assoc. intros K; apply app_inv_head in K; injection K as K _. contradiction. }
  assert (BL : forall n r, fs1 (out ++ n :: r) = None).
  { intros n r. rewrite F3; [apply H; exists n, r; reflexivity| |apply not_out_self].
    unfold out. rewrite <- app_assoc. intros K. apply app_inv_head in K. discriminate. }
  assert (OF : put (put fs1 (out ++ [lit "error.log"]) (File err)) (out ++ [lit "console.log"]) (File con) out = Some Folder).
  { rewrite !put_other by (intros K; symmetry in K; now apply not_out_self in K). exact F2. }
  assert (OUT : forall n r, n :: r <> [lit "error.log"] -> n :: r <> [lit "console.log"] ->
     put (put fs1 (out ++ [lit "error.log"]) (File err)) (out ++ [lit "console.log"]) (File con) (out ++ n :: r) = None).
  { intros n r E1 E2. rewrite !put_other by (intros K; apply app_inv_head in K; contradiction). apply BL. }
  split.
  - unfold installed. rewrite <- !app_assoc. cbn [app]. split; [|split; [|split; [|split]]].
    + rewrite !put_other by (apply PO; discriminate). rewrite NI by discriminate. exact HS.
    + rewrite !put_other by (apply PO; discriminate). rewrite NI by discriminate. exact HP.
    + apply OUT; discriminate.
    + apply OUT; discriminate.
    + split; [exact OF|]. intros kind K. split.
      * left. destruct K as [<-|[<-|[<-|[]]]]; apply OUT; discriminate.
      * intros k _. unfold outputPath. destruct K as [<-|[<-|[<-|[]]]]; rewrite OUT; discriminate.
  - intros mps cwd. unfold safe_runner. rewrite NB. fold out. fold fs1. unfold launch.
    assert (RF : fs1 out = Some Folder) by exact F2. rewrite RF, !BL, (NI (lit "build") [lit "mps"]) by discriminate. rewrite HB. reflexivity.
Qed.
End Safe.
