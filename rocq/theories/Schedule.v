(** * Parallel loops: programs of memory accesses and their interleavings

    [#pragma omp parallel for] runs the iterations of a loop on several threads.  An
    iteration is written as a program of single reads and writes of memory
    locations; a parallel execution is any interleaving of the accesses of all
    iterations (each thread running its share of the iterations one after the other
    is a special case).  C++ gives a meaning to a parallel execution only if it has
    no data race, and then it is such an interleaving. *)
From Verif Require Export BaseFacts.

Section Schedule.
Context {loc heap : Type} {val : loc -> Type}.

(** A computation returning an [A].  [Fail] is any way of not completing. *)
Inductive prog (A : Type) : Type :=
| Ret (a : A)
| Fail (e : outcome Empty_set)
| Rd (l : loc) (k : val l -> prog A)
| Wr (l : loc) (v : val l) (p : prog A).
Arguments Ret {A}. Arguments Fail {A}. Arguments Rd {A}. Arguments Wr {A}.


Fixpoint bindP {A B} (p : prog A) (f : A -> prog B) : prog B :=
  match p with
  | Ret a => f a
  | Fail e => Fail e
  | Rd l k => Rd l (fun v => bindP (k v) f)
  | Wr l v p => Wr l v (bindP p f)
  end.
Fixpoint foldP {S A} (f : A -> S -> prog S) (xs : list A) (s : S) : prog S :=
  match xs with
  | [] => Ret s
  | x :: xs' => bindP (f x s) (foldP f xs')
  end.
Definition fail_as {A} (e : outcome Empty_set) : outcome A :=
  match e with
  | Ok x => match x with end
  | Undef u => Undef u | AssertFail => AssertFail | Exit c => Exit c | Throw => Throw | Diverge => Diverge
  end.
Definition lift {A} (o : outcome A) : prog A :=
  match o with
  | Ok a => Ret a
  | Undef u => Fail (Undef u) | AssertFail => Fail AssertFail | Exit c => Fail (Exit c) | Throw => Fail Throw | Diverge => Fail Diverge
  end.

(** The memory.  [None] is an access outside of it. *)
Variable rd : heap -> forall l : loc, option (val l).
Variable wr : heap -> forall l : loc, val l -> option heap.

(** one access *)
Definition act {A} (p : prog A) (h : heap) : option (prog A * heap) :=
  match p with
  | Ret _ | Fail _ => None
  | Rd l k => match rd h l with Some v => Some (k v, h) | None => None end
  | Wr l v p => match wr h l v with Some h' => Some (p, h') | None => None end
  end.

(** running one program alone, and a list of programs one after the other *)
Fixpoint run {A} (p : prog A) (h : heap) : outcome (A * heap) :=
  match p with
  | Ret a => Ok (a, h)
  | Fail e => fail_as e
  | Rd l k => match rd h l with Some v => run (k v) h | None => Undef OutOfBounds end
  | Wr l v p => match wr h l v with Some h' => run p h' | None => Undef OutOfBounds end
  end.
Definition seqrun (ts : list (prog unit)) (h : heap) : outcome heap :=
  foldM (fun p h => '(_, h) <- run p h ;; Ok h) ts h.

(** interleaved execution: any iteration may do the next access *)
Definition config : Type := list (prog unit) * heap.
Inductive cstep : config -> config -> Prop :=
| cstep_i i ts h p p' h' : nth_error ts i = Some p -> act p h = Some (p', h') -> cstep (ts, h) (upd ts i p', h').
Inductive reach : config -> config -> Prop :=
| reach_0 c : reach c c
| reach_S c c1 c2 : cstep c c1 -> reach c1 c2 -> reach c c2.
Definition finished (ts : list (prog unit)) : Prop := forall p, In p ts -> p = Ret tt.

(** the next access of two iterations is to the same location, and one of them writes *)
Definition next_is (p : prog unit) (l : loc) (w : bool) : Prop :=
  match p with Rd l' _ => l' = l /\ w = false | Wr l' _ _ => l' = l /\ w = true | _ => False end.
Definition race (ts : list (prog unit)) : Prop :=
  exists i j p q l w, i <> j /\ nth_error ts i = Some p /\ nth_error ts j = Some q /\ next_is p l true /\ next_is q l w.

(** ** Proofs *)

(** every location has at most one iteration that may write it, and nobody else may
    access it; [ok] restricts the values found in some locations *)
Variable ok : forall l : loc, val l -> Prop.
Variable owns : nat -> loc -> Prop.
Definition hok (h : heap) : Prop := forall l v, rd h l = Some v -> ok l v.

Inductive within (i : nat) {A} : prog A -> Prop :=
| w_ret a : within i (Ret a)
| w_fail e : within i (Fail e)
| w_rd l k : (forall j, owns j l -> j = i) -> (forall v, ok l v -> within i (k v)) -> within i (Rd l k)
| w_wr l v p : owns i l -> ok l v -> within i p -> within i (Wr l v p).

Hypothesis loc_dec : forall l l' : loc, {l = l'} + {l <> l'}.
Hypothesis owns_one : forall i j l, owns i l -> owns j l -> i = j.
Hypothesis rd_wr : forall h l v h' l', wr h l v = Some h' -> l <> l' -> rd h' l' = rd h l'.
Hypothesis rd_wr_same : forall h l v h', wr h l v = Some h' -> rd h' l = Some v.
Hypothesis wr_wr : forall h l v h1 l' v' h2, wr h l v = Some h1 -> wr h l' v' = Some h2 -> l <> l' -> exists h3, wr h1 l' v' = Some h3 /\ wr h2 l v = Some h3.
Hypothesis wr_back : forall h l v h1 l' v' h3, wr h l v = Some h1 -> l <> l' -> wr h1 l' v' = Some h3 -> exists h2, wr h l' v' = Some h2.

Lemma hok_wr h l v h' : hok h -> ok l v -> wr h l v = Some h' -> hok h'.
Proof.
  intros H O W l' v' R. destruct (loc_dec l l') as [->|N].
  - rewrite (rd_wr_same _ _ _ _ W) in R. now inv R.
  - rewrite (rd_wr _ _ _ _ _ W N) in R. auto.
Qed.
Lemma act_within {A} i (p : prog A) h p' h' : within i p -> hok h -> act p h = Some (p', h') -> within i p' /\ hok h'.
Proof.
  intros Wi H E. destruct Wi as [a|e|l k F K|l v p O V Wi]; simpl in E; try discriminate.
  - destruct (rd h l) as [v|] eqn:R; [|discriminate]. inv E. auto.
  - destruct (wr h l v) eqn:R; [|discriminate]. inv E. split; auto. eapply hok_wr; eauto.
Qed.

Lemma act_act {A B} i j (p : prog A) (q : prog B) h p' h1 q' h2 : i <> j -> within i p -> within j q ->
  act p h = Some (p', h1) -> act q h = Some (q', h2) -> exists h3, act q h1 = Some (q', h3) /\ act p h2 = Some (p', h3).
Proof.
  intros N Wp Wq E1 E2. destruct Wp as [a|e|l k F K|l v p O V Wi]; simpl in E1; try discriminate;
  destruct Wq as [a'|e'|l' k' F' K'|l' v' q O' V' Wj]; simpl in E2; try discriminate.
  - destruct (rd h l) as [v|] eqn:R; [|discriminate]. destruct (rd h l') as [v'|] eqn:R'; [|discriminate]. inv E1. inv E2.
    exists h2. simpl. now rewrite R, R'.
  - destruct (rd h l) as [v|] eqn:R; [|discriminate]. destruct (wr h l' v') eqn:R'; [|discriminate]. inv E1. inv E2.
    exists h2. simpl. rewrite R'. split; auto. rewrite (rd_wr _ _ _ _ _ R'), R; auto. intros ->. apply N. symmetry. auto.
  - destruct (wr h l v) eqn:R; [|discriminate]. destruct (rd h l') as [v'|] eqn:R'; [|discriminate]. inv E1. inv E2.
    exists h1. simpl. rewrite R. split; auto. rewrite (rd_wr _ _ _ _ _ R), R'; auto. intros ->. apply N. auto.
  - destruct (wr h l v) eqn:R; [|discriminate]. destruct (wr h l' v') eqn:R'; [|discriminate]. inv E1. inv E2.
    destruct (wr_wr _ _ _ _ _ _ _ R R') as (h3 & X & Y). { intros ->. apply N. eauto. }
    exists h3. simpl. now rewrite X, Y.
Qed.
Lemma act_back {A B} i j (p : prog A) (q : prog B) h p' h1 q' h3 : i <> j -> within i p -> within j q ->
  act p h = Some (p', h1) -> act q h1 = Some (q', h3) -> exists h2, act q h = Some (q', h2).
Proof.
  intros N Wp Wq E1 E2. destruct Wp as [a|e|l k F K|l v p O V Wi]; simpl in E1; try discriminate.
  - destruct (rd h l) as [v|] eqn:R; [|discriminate]. inv E1. eauto.
  - destruct (wr h l v) as [ha|] eqn:R; [|discriminate]. inv E1.
    destruct Wq as [a'|e'|l' k' F' K'|l' v' q O' V' Wj]; simpl in E2; try discriminate; simpl.
    + rewrite (rd_wr _ _ _ _ _ R) in E2 by (intros ->; apply N; auto). destruct (rd h l'); [|discriminate]. inv E2. eauto.
    + destruct (wr h1 l' v') eqn:R'; [|discriminate]. inv E2. assert (N' : l <> l') by (intros ->; apply N; eauto).
      destruct (wr_back _ _ _ _ _ _ _ R N' R') as [h2 X]. rewrite X. eauto.
Qed.

Lemma act_rd {B} i j l (q : prog B) h q' h2 : i <> j -> (forall k, owns k l -> k = i) -> within j q -> act q h = Some (q', h2) -> rd h2 l = rd h l.
Proof.
  intros N F Wq E. destruct Wq as [a'|e'|l' k' F' K'|l' v' q O' V' Wj]; simpl in E; try discriminate.
  - destruct (rd h l'); [|discriminate]. now inv E.
  - destruct (wr h l' v') eqn:R; [|discriminate]. inv E. apply (rd_wr _ _ _ _ _ R). intros ->. apply N. symmetry. auto.
Qed.

Lemma run_act {A} (p : prog A) h p' h' : act p h = Some (p', h') -> run p h = run p' h'.
Proof.
  destruct p as [a|e|l k|l v p]; simpl; intros E; try discriminate.
  - destruct (rd h l); [|discriminate]. now inv E.
  - destruct (wr h l v); [|discriminate]. now inv E.
Qed.

(** an access of another iteration commutes with a whole iteration *)
Lemma run_commute {A B} i j (p : prog A) (q : prog B) h a h1 q' h2 : i <> j -> within i p -> within j q -> hok h ->
  run p h = Ok (a, h1) -> act q h = Some (q', h2) -> exists h3, run p h2 = Ok (a, h3) /\ act q h1 = Some (q', h3).
Proof.
  intros N Wp Wq. revert h h1 h2. induction Wp as [x|e|l k F K IH|l v p O V Wi IH]; intros h h1 h2 H R E.
  - simpl in *. inv R. eauto.
  - destruct e; simpl in R; try discriminate. destruct a0.
  - assert (exists v, rd h l = Some v) as [v Rv] by (simpl in R; destruct (rd h l); [eauto|discriminate]).
    assert (Ep : act (Rd l k) h = Some (k v, h)) by (simpl; now rewrite Rv).
    assert (Wi' : within i (Rd l k)) by now constructor.
    destruct (act_act i j _ _ _ _ _ _ _ N Wi' Wq Ep E) as (h3 & X & Y).
    assert (h3 = h2) as -> by (rewrite E in X; now inv X).
    rewrite (run_act _ _ _ _ Ep) in R. rewrite (run_act _ _ _ _ Y). eapply IH; eauto.
  - assert (exists ha, wr h l v = Some ha) as [ha Rv] by (simpl in R; destruct (wr h l v); [eauto|discriminate]).
    assert (Ep : act (Wr l v p) h = Some (p, ha)) by (simpl; now rewrite Rv).
    assert (Wi' : within i (Wr l v p)) by now constructor.
    destruct (act_act i j _ _ _ _ _ _ _ N Wi' Wq Ep E) as (h3 & X & Y).
    rewrite (run_act _ _ _ _ Ep) in R. rewrite (run_act _ _ _ _ Y). assert (Ha : hok ha) by (eapply act_within; [exact Wi'|exact H|exact Ep]). exact (IH ha h1 h3 Ha R X).
Qed.

(** ... and an access that can follow an iteration could have come before it *)
Lemma run_before {A B} i j (p : prog A) (q : prog B) h a h1 q' h3 : i <> j -> within i p -> within j q -> hok h ->
  run p h = Ok (a, h1) -> act q h1 = Some (q', h3) -> exists h2, act q h = Some (q', h2).
Proof.
  intros N Wp Wq. revert h. induction Wp as [x|e|l k F K IH|l v p O V Wi IH]; intros h H R E.
  - simpl in *. inv R. eauto.
  - destruct e; simpl in R; try discriminate. destruct a0.
  - simpl in R. destruct (rd h l) as [v|] eqn:Rv; [|discriminate]. eapply IH; eauto.
  - simpl in R. destruct (wr h l v) as [ha|] eqn:Rv; [|discriminate].
    destruct (IH ha) as [h2 X]; auto. { eapply hok_wr; eauto. }
    apply (act_back i j (Wr l v p) q h p ha q' h2); auto. { now constructor. } simpl. now rewrite Rv.
Qed.
(** an access that comes before an iteration could as well follow it *)
Lemma run_after {A B} i j (p : prog A) (q : prog B) h a q' h2 h3 : i <> j -> within i p -> within j q -> hok h ->
  act q h = Some (q', h2) -> run p h2 = Ok (a, h3) -> exists h1, run p h = Ok (a, h1) /\ act q h1 = Some (q', h3).
Proof.
  intros N Wp Wq. revert h h2. induction Wp as [x|e|l k F K IH|l v p O V Wi IH]; intros h h2 H E R.
  - simpl in *. inv R. eauto.
  - destruct e; simpl in R; try discriminate. destruct a0.
  - simpl in R. rewrite (act_rd i j l q h q' h2 N F Wq E) in R. simpl. destruct (rd h l) as [v|] eqn:Rv; [|discriminate]. eapply IH; eauto.
  - simpl in R. destruct (wr h2 l v) as [hb|] eqn:Rv; [|discriminate].
    assert (Ep : act (Wr l v p) h2 = Some (p, hb)) by (simpl; now rewrite Rv).
    assert (Wi' : within i (Wr l v p)) by now constructor.
    destruct (act_back j i q (Wr l v p) h q' h2 p hb) as [ha X]; auto.
    destruct (act_act i j (Wr l v p) q h p ha q' h2) as (h4 & Y & Z); auto. rewrite Ep in Z. inv Z.
    assert (Ha : hok ha) by (eapply act_within; [exact Wi'|exact H|exact X]).
    destruct (IH ha h4 Ha Y R) as (h1 & R1 & E1). exists h1. split; auto. now rewrite (run_act _ _ _ _ X).
Qed.

(** *** Lists of iterations, numbered from [b] *)
Definition wf (b : nat) (ts : list (prog unit)) : Prop := forall i p, nth_error ts i = Some p -> within (b + i) p.
Lemma wf_tail b p ts : wf b (p :: ts) -> within b p /\ wf (S b) ts.
Proof. intros H. split. - specialize (H O p eq_refl). now rewrite Nat.add_0_r in H. - intros i q Hq. specialize (H (S i) q Hq). now replace (S b + i)%nat with (b + S i)%nat by lia. Qed.
Lemma wf_step b ts h ts' h' : wf b ts -> hok h -> cstep (ts, h) (ts', h') -> wf b ts' /\ hok h'.
Proof.
  intros Wt H S. inv S. destruct (act_within _ _ _ _ _ (Wt _ _ H3) H H5) as [A B]. split; auto.
  intros k q Hq. rewrite nth_upd in Hq. destruct (Nat.eqb_spec i k) as [->|]; [|auto]. destruct (nth_error ts k); inv Hq. auto.
Qed.
Lemma run_hok {A} i (p : prog A) h a h' : within i p -> hok h -> run p h = Ok (a, h') -> hok h'.
Proof.
  intros Wp. revert h. induction Wp as [x|e|l k F K IH|l v p O V Wi IH]; intros h H R; simpl in R.
  - now inv R.
  - destruct e; simpl in R; try discriminate. destruct a0.
  - destruct (rd h l) eqn:E; [|discriminate]. eauto.
  - destruct (wr h l v) eqn:E; [|discriminate]. eapply IH; [|exact R]. eapply hok_wr; eauto.
Qed.

Lemma cstep_split p ts h ts' h' : cstep (p :: ts, h) (ts', h') ->
  (exists p', act p h = Some (p', h') /\ ts' = p' :: ts) \/
  (exists j q q', nth_error ts j = Some q /\ act q h = Some (q', h') /\ ts' = p :: upd ts j q').
Proof. intros S. inv S. destruct i as [|i]; simpl in *. - inv H2. left. eauto. - right. exists i, p0, p'. auto. Qed.

(** no access changes what the sequential run from here on computes *)
Lemma step_seq ts : forall b h ts1 h1 h', wf b ts -> hok h -> cstep (ts, h) (ts1, h1) -> seqrun ts h = Ok h' -> seqrun ts1 h1 = Ok h'.
Proof.
  induction ts as [|p ts IH]; intros b h ts1 h1 h' Wt H S R.
  - inv S. destruct i; discriminate.
  - apply wf_tail in Wt. destruct Wt as [Wp Wt]. unfold seqrun in *. simpl in R. binds R. binds E. destruct r0 as [[] ha]. inv E.
    apply cstep_split in S. destruct S as [(p' & A & ->)|(j & q & q' & Hq & A & ->)].
    + simpl. rewrite <- (run_act _ _ _ _ A), E0. exact R.
    + assert (N : b <> (S b + j)%nat) by lia.
      destruct (run_commute b (S b + j) p q h tt r q' h1 N Wp (Wt _ _ Hq) H E0 A) as (h3 & R3 & A3).
      simpl. rewrite R3. simpl. apply (IH (S b) r); auto. { eapply run_hok; eauto. } econstructor; eauto.
Qed.
Lemma reach_seq b c c' h' : reach c c' -> wf b (fst c) -> hok (snd c) -> seqrun (fst c) (snd c) = Ok h' ->
  wf b (fst c') /\ hok (snd c') /\ seqrun (fst c') (snd c') = Ok h'.
Proof.
  induction 1 as [c|c c1 c2 S _ IH]; intros Wt H R; auto.
  destruct c as [ts h], c1 as [ts1 h1]. simpl in *. destruct (wf_step _ _ _ _ _ Wt H S) as [W1 H1]. apply IH; auto. exact (step_seq _ _ _ _ _ _ Wt H S R).
Qed.
Lemma reach_wf b c c' : reach c c' -> wf b (fst c) -> hok (snd c) -> wf b (fst c') /\ hok (snd c').
Proof.
  induction 1 as [c|c c1 c2 S _ IH]; intros Wt H; auto.
  destruct c as [ts h], c1 as [ts1 h1]. simpl in *. destruct (wf_step _ _ _ _ _ Wt H S). auto.
Qed.

(** no iteration is stuck while the sequential run completes *)
Lemma seq_progress ts : forall b h h' i p, wf b ts -> hok h -> seqrun ts h = Ok h' -> nth_error ts i = Some p ->
  p = Ret tt \/ exists p' h1, act p h = Some (p', h1).
Proof.
  induction ts as [|p ts IH]; intros b h h' i q Wt H R Hq; [destruct i; discriminate|].
  apply wf_tail in Wt. destruct Wt as [Wp Wt]. unfold seqrun in R. simpl in R. binds R. binds E. destruct r0 as [[] ha]. inv E.
  destruct i as [|i]; simpl in Hq.
  - inv Hq. destruct q as [[]|e|l k|l v q]; auto; simpl in *.
    + destruct e; simpl in E0; try discriminate. destruct a.
    + destruct (rd h l); [eauto|discriminate].
    + destruct (wr h l v); [eauto|discriminate].
  - assert (Hr : hok r) by (eapply run_hok; eauto).
    destruct (IH (S b) r h' i q Wt Hr R Hq) as [|(q' & h1 & A)]; auto. right.
    assert (N : b <> (S b + i)%nat) by lia.
    destruct (run_before b (S b + i) p q h tt r q' h1 N Wp (Wt _ _ Hq) H E0 A) as [h2 X]. eauto.
Qed.

(** a complete interleaving is a sequential run *)
Lemma finished_seq ts h : finished ts -> seqrun ts h = Ok h.
Proof.
  unfold seqrun. induction ts as [|p ts IH]; intros F; auto. simpl. rewrite (F p (or_introl eq_refl)). simpl. apply IH. intros q Hq. apply F. now right.
Qed.
Lemma step_seq_back ts : forall b h ts1 h1 h', wf b ts -> hok h -> cstep (ts, h) (ts1, h1) -> seqrun ts1 h1 = Ok h' -> seqrun ts h = Ok h'.
Proof.
  induction ts as [|p ts IH]; intros b h ts1 h1 h' Wt H S R.
  - inv S. destruct i; discriminate.
  - apply wf_tail in Wt. destruct Wt as [Wp Wt]. unfold seqrun in *.
    apply cstep_split in S. destruct S as [(p' & A & ->)|(j & q & q' & Hq & A & ->)]; simpl in R |- *.
    + rewrite (run_act _ _ _ _ A). exact R.
    + binds R. binds E. destruct r0 as [[] ha]. inv E. assert (N : b <> (S b + j)%nat) by lia.
      destruct (run_after b (S b + j) p q h tt q' h1 r N Wp (Wt _ _ Hq) H A E0) as (h3 & R3 & A3).
      rewrite R3. simpl. apply (IH (S b) h3 (upd ts j q') r); auto. { eapply run_hok; eauto. } econstructor; eauto.
Qed.
Lemma inter_seq b c c' : reach c c' -> wf b (fst c) -> hok (snd c) -> finished (fst c') -> seqrun (fst c) (snd c) = Ok (snd c').
Proof.
  induction 1 as [c|c c1 c2 S _ IH]; intros Wt H F.
  - now apply finished_seq.
  - destruct c as [ts h], c1 as [ts1 h1]. simpl in *. destruct (wf_step _ _ _ _ _ Wt H S) as [W1 H1]. exact (step_seq_back _ _ _ _ _ _ Wt H S (IH W1 H1 F)).
Qed.

Lemma no_race b ts : wf b ts -> ~ race ts.
Proof.
  intros Wt (i & j & p & q & l & w & N & Hp & Hq & Np & Nq). apply Wt in Hp, Hq.
  destruct Hp as [a|e|l1 k F K|l1 v p O V Wi]; simpl in Np; try tauto. { destruct Np; discriminate. } destruct Np as [-> _].
  destruct Hq as [a|e|l2 k F K|l2 v2 q O2 V2 Wj]; simpl in Nq; try tauto; destruct Nq as [-> _].
  - apply F in O. lia.
  - pose proof (owns_one _ _ _ O O2). lia.
Qed.

(** every execution is finite *)
Definition sub (p' p : prog unit) : Prop :=
  match p with Rd l k => exists v, p' = k v | Wr l v q => p' = q | _ => False end.
Lemma sub_acc p : Acc sub p.
Proof. induction p; constructor; intros y S; simpl in S; try tauto. - destruct S as [v ->]; auto. - now subst. Qed.
Definition subs (ts' ts : list (prog unit)) : Prop := exists i p p', nth_error ts i = Some p /\ sub p' p /\ ts' = upd ts i p'.
Lemma subs_cons : forall p, Acc sub p -> forall ts, Acc subs ts -> Acc subs (p :: ts).
Proof.
  induction 1 as [p _ IHp]. induction 1 as [ts At IHt]. constructor. intros y (i & q & q' & Hq & S & ->). destruct i as [|i]; simpl in *.
  - inv Hq. apply IHp; auto. now constructor.
  - apply IHt. exists i, q, q'. auto.
Qed.
Lemma subs_acc ts : Acc subs ts.
Proof.
  induction ts as [|p ts IH].
  - constructor. intros y (i & q & q' & Hq & _). destruct i; discriminate.
  - apply subs_cons; auto. apply sub_acc.
Qed.
Lemma cstep_acc ts : forall h, Acc (fun c c' => cstep c' c) (ts, h).
Proof.
  induction (subs_acc ts) as [ts _ IH]. intros h. constructor. intros [ts' h'] S. inv S. apply IH. exists i, p, p'. split; auto. split; auto.
  destruct p as [a|e|l k|l v p]; simpl in H4; try discriminate.
  - destruct (rd h l); [|discriminate]. inv H4. simpl. eauto.
  - destruct (wr h l v); [|discriminate]. now inv H4.
Qed.
End Schedule.
Arguments Ret {loc val A}. Arguments Fail {loc val A}. Arguments Rd {loc val A}. Arguments Wr {loc val A}.
