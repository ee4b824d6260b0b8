(** * Lemmas about vectors, loops and outcomes *)
From Verif Require Export Base.
From Coq Require Import PeanoNat.
Open Scope Z_scope.

Ltac inv H := inversion H; subst; clear H.

Lemma bind_ok {A B} (m : outcome A) (k : A -> outcome B) b :
  bind m k = Ok b -> exists a, m = Ok a /\ k a = Ok b.
Proof. destruct m; simpl; intros; try discriminate. eauto. Qed.

Ltac binds H :=
  let a := fresh "r" in let E := fresh "E" in
  apply bind_ok in H; destruct H as [a [E H]].

Lemma length_upd {A} (l : list A) i a : length (upd l i a) = length l.
Proof. revert i; induction l; destruct i; simpl; auto. Qed.

Lemma nth_upd_same {A} (l : list A) i a : (i < length l)%nat -> nth_error (upd l i a) i = Some a.
Proof. revert i; induction l; destruct i; simpl; intros; try lia; auto. apply IHl; lia. Qed.

Lemma nth_upd_other {A} (l : list A) i j a : i <> j -> nth_error (upd l i a) j = nth_error l j.
Proof. revert i j; induction l; destruct i, j; simpl; intros; auto; try congruence. Qed.

Lemma upd_oob {A} (l : list A) i a : (length l <= i)%nat -> upd l i a = l.
Proof. revert i; induction l; destruct i; simpl; intros; auto; try lia. f_equal. apply IHl; lia. Qed.

Lemma nth_upd {A} (l : list A) i j a :
  nth_error (upd l i a) j = if Nat.eqb i j then (match nth_error l j with Some _ => Some a | None => None end) else nth_error l j.
Proof.
  destruct (Nat.eqb_spec i j) as [->|].
  - destruct (nth_error l j) eqn:E.
    + apply nth_upd_same. apply nth_error_Some. congruence.
    + apply nth_error_None in E. rewrite upd_oob by lia. now apply nth_error_None.
  - now apply nth_upd_other.
Qed.

Lemma map_upd {A B} (f : A -> B) l i a : map f (upd l i a) = upd (map f l) i (f a).
Proof. revert i; induction l; destruct i; simpl; congruence. Qed.

Lemma upd_same {A} (l : list A) i a : nth_error l i = Some a -> upd l i a = l.
Proof. revert i; induction l; destruct i; simpl; intros; try congruence. f_equal; auto. Qed.

Lemma list_ext {A} (l l' : list A) : (forall i, nth_error l i = nth_error l' i) -> l = l'.
Proof.
  revert l'; induction l as [|a l IH]; destruct l' as [|b l']; intros H; auto.
  - specialize (H O); discriminate.
  - specialize (H O); discriminate.
  - pose proof (H O) as H0; simpl in H0. injection H0 as ->. f_equal. apply IH.
    intros i. exact (H (S i)).
Qed.

Lemma vget_ok {A} (l : list A) i a : vget l i = Ok a <-> 0 <= i /\ nth_error l (Z.to_nat i) = Some a.
Proof.
  unfold vget. destruct (Z.ltb_spec i 0).
  - split; [discriminate | lia].
  - destruct (nth_error l (Z.to_nat i)); split; intros G.
    + injection G as ->; auto.
    + destruct G as [_ G]; congruence.
    + discriminate.
    + destruct G as [_ G]; congruence.
Qed.

Lemma vget_nat {A} (l : list A) i a : nth_error l i = Some a -> vget l (Z.of_nat i) = Ok a.
Proof. intros. apply vget_ok. rewrite Nat2Z.id. split; auto; lia. Qed.

Lemma vget_nat_inv {A} (l : list A) i a : vget l (Z.of_nat i) = Ok a -> nth_error l i = Some a.
Proof. intros H. apply vget_ok in H. rewrite Nat2Z.id in H. tauto. Qed.

Lemma vset_ok {A} (l : list A) i a l' :
  vset l i a = Ok l' <-> 0 <= i /\ (Z.to_nat i < length l)%nat /\ l' = upd l (Z.to_nat i) a.
Proof.
  unfold vset. destruct (Z.ltb_spec i 0).
  - split; [discriminate | lia].
  - destruct (Nat.ltb_spec (Z.to_nat i) (length l)); split; intros H1.
    + injection H1 as <-; auto.
    + destruct H1 as (_ & _ & ->); auto.
    + discriminate.
    + lia.
Qed.

Lemma vset_nat {A} (l : list A) i a : (i < length l)%nat -> vset l (Z.of_nat i) a = Ok (upd l i a).
Proof. intros. apply vset_ok. rewrite Nat2Z.id. repeat split; auto; lia. Qed.

Lemma vmod_ok {A} (l : list A) i f l' :
  vmod l i f = Ok l' <-> exists a, 0 <= i /\ nth_error l (Z.to_nat i) = Some a /\ l' = upd l (Z.to_nat i) (f a).
Proof.
  unfold vmod. split.
  - intros H. binds H. apply vget_ok in E. apply vset_ok in H.
    destruct E as [? E], H as (? & ? & ->). exists r; auto.
  - intros (a & H & E & ->).
    assert (Hg : vget l i = Ok a) by (apply vget_ok; auto).
    rewrite Hg; simpl. apply vset_ok. repeat split; auto.
    apply nth_error_Some. congruence.
Qed.

Lemma vmod_nat {A} (l : list A) i f a :
  nth_error l i = Some a -> vmod l (Z.of_nat i) f = Ok (upd l i (f a)).
Proof. intros. apply vmod_ok. exists a. rewrite Nat2Z.id. repeat split; auto; lia. Qed.

Lemma cint_ok z : in_int z = true -> cint z = Ok z.
Proof. unfold cint; now intros ->. Qed.
Lemma cint_inv z z' : cint z = Ok z' -> z' = z /\ in_int z = true.
Proof. unfold cint; destruct (in_int z); intros H; inv H; auto. Qed.
Lemma in_int_spec z : in_int z = true <-> int_min <= z <= int_max.
Proof. unfold in_int. rewrite andb_true_iff, !Z.leb_le. tauto. Qed.

Lemma foldM_app {S A} (f : A -> S -> outcome S) xs ys s :
  foldM f (xs ++ ys) s = bind (foldM f xs s) (foldM f ys).
Proof.
  revert s; induction xs; simpl; intros; auto.
  destruct (f a s); simpl; auto.
Qed.

(** invariant rule for loops that end normally *)
Lemma foldM_inv {S A} (P : S -> Prop) (f : A -> S -> outcome S) xs s s' :
  P s -> (forall x t t', In x xs -> P t -> f x t = Ok t' -> P t') -> foldM f xs s = Ok s' -> P s'.
Proof.
  revert s; induction xs; simpl; intros s Hs Hstep H.
  - now inv H.
  - binds H. eapply IHxs; [| |exact H]; eauto.
Qed.

Lemma foldM_ext {S A} (f g : A -> S -> outcome S) xs s :
  (forall x t, In x xs -> f x t = g x t) -> foldM f xs s = foldM g xs s.
Proof.
  revert s; induction xs; simpl; intros s H; auto.
  rewrite H by auto. destruct (g a s); simpl; auto.
Qed.

(** rule for proving that a loop ends normally *)
Lemma foldM_total {S A} (P : S -> Prop) (f : A -> S -> outcome S) xs s :
  P s -> (forall x t, In x xs -> P t -> exists t', f x t = Ok t' /\ P t') ->
  exists s', foldM f xs s = Ok s' /\ P s'.
Proof.
  revert s; induction xs; simpl; intros s Hs Hstep.
  - eauto.
  - destruct (Hstep a s) as (t & E & Ht); auto. rewrite E; simpl. apply IHxs; auto.
Qed.

Lemma foldM_Ok {S A} (f : A -> S -> S) xs s :
  foldM (fun x s => Ok (f x s)) xs s = Ok (fold_left (fun s x => f x s) xs s).
Proof. revert s; induction xs; simpl; auto. Qed.

(** index loops with a state-and-position invariant *)
Lemma foldM_seq_total {S} (P : nat -> S -> Prop) (f : nat -> S -> outcome S) a n s :
  P a s ->
  (forall i t, (a <= i < a + n)%nat -> P i t -> exists t', f i t = Ok t' /\ P (Datatypes.S i) t') ->
  exists s', foldM f (seq a n) s = Ok s' /\ P (a + n)%nat s'.
Proof.
  revert a s; induction n; simpl; intros a s Hs Hstep.
  - exists s. rewrite Nat.add_0_r. auto.
  - destruct (Hstep a s) as (t & E & Ht); [lia|auto|]. rewrite E; simpl.
    replace (a + Datatypes.S n)%nat with (Datatypes.S a + n)%nat by lia. apply IHn; auto.
    intros; apply Hstep; auto; lia.
Qed.

Lemma foldM_seq_inv {S} (P : nat -> S -> Prop) (f : nat -> S -> outcome S) a n s s' :
  P a s ->
  (forall i t t', (a <= i < a + n)%nat -> P i t -> f i t = Ok t' -> P (Datatypes.S i) t') ->
  foldM f (seq a n) s = Ok s' -> P (a + n)%nat s'.
Proof.
  revert a s; induction n; simpl; intros a s Hs Hstep H.
  - inv H. now rewrite Nat.add_0_r.
  - binds H.
    replace (a + Datatypes.S n)%nat with (Datatypes.S a + n)%nat by lia. eapply IHn; [| |exact H]; eauto.
    + eapply Hstep; [lia|exact Hs|exact E].
    + intros; eapply Hstep; eauto; lia.
Qed.

(** sequential map with outcomes *)
Fixpoint mapM {A B} (f : A -> outcome B) (l : list A) : outcome (list B) :=
  match l with
  | [] => Ok []
  | a :: l' => b <- f a ;; r <- mapM f l' ;; Ok (b :: r)
  end.

Lemma mapM_ok {A B} (f : A -> outcome B) l l' : mapM f l = Ok l' <-> Forall2 (fun a b => f a = Ok b) l l'.
Proof.
  revert l'; induction l; simpl; intros l'; split; intros H.
  - inv H; constructor.
  - inv H; auto.
  - binds H. binds H. inv H. constructor; auto. now apply IHl.
  - inv H. rewrite H2; simpl. apply IHl in H4. rewrite H4. auto.
Qed.

Lemma mapM_ext {A B} (f g : A -> outcome B) l : (forall a, In a l -> f a = g a) -> mapM f l = mapM g l.
Proof.
  induction l; simpl; intros H; auto. rewrite H by auto. rewrite IHl by auto. auto.
Qed.

Lemma Forall2_nth {A B} (R : A -> B -> Prop) l l' i a :
  Forall2 R l l' -> nth_error l i = Some a -> exists b, nth_error l' i = Some b /\ R a b.
Proof.
  intros H; revert i; induction H; destruct i; simpl; intros; try discriminate; eauto.
  inv H1; eauto.
Qed.

Lemma Forall2_nth_r {A B} (R : A -> B -> Prop) l l' i b :
  Forall2 R l l' -> nth_error l' i = Some b -> exists a, nth_error l i = Some a /\ R a b.
Proof.
  intros H; revert i; induction H; destruct i; simpl; intros; try discriminate; eauto.
  inv H1; eauto.
Qed.

Lemma mapM_total {A B} (f : A -> outcome B) l :
  (forall a, In a l -> exists b, f a = Ok b) -> exists l', mapM f l = Ok l'.
Proof.
  induction l; simpl; intros H.
  - eauto.
  - destruct (H a) as [b E]; auto. destruct IHl as [l' E']; auto.
    rewrite E, E'; simpl; eauto.
Qed.

(** [each] is [mapM] when the body reads other elements only through a projection
    [pr] that it does not change *)
Lemma each_mapM {A B} (pr : A -> B) (body : list A -> A -> outcome A) (v : list A) :
  (forall w w' a, map pr w = map pr w' -> body w a = body w' a) ->
  (forall w a a', body w a = Ok a' -> pr a' = pr a) ->
  each body v = mapM (body v) v.
Proof.
  intros Hread Hpr. unfold each.
  assert (G : forall todo done w0,
    map pr (done ++ todo) = map pr v ->
    length done = w0 ->
    foldM (fun i w => match nth_error w i with
                      | Some a => a' <- body w a ;; Ok (upd w i a')
                      | None => Undef OutOfBounds
                      end) (seq w0 (length todo)) (done ++ todo)
    = bind (mapM (body v) todo) (fun r => Ok (done ++ r))).
  { induction todo as [|a todo IH]; intros done w0 Hm Hl; simpl.
    - reflexivity.
    - subst w0. rewrite nth_error_app2, Nat.sub_diag by lia. simpl.
      rewrite (Hread (done ++ a :: todo) v a Hm).
      destruct (body v a) eqn:E; simpl; auto.
      assert (U : upd (done ++ a :: todo) (length done) a0 = (done ++ [a0]) ++ todo).
      { clear. induction done; simpl; auto. now rewrite IHdone. }
      rewrite U. rewrite IH.
      + destruct (mapM (body v) todo); simpl; auto. now rewrite <- app_assoc.
      + rewrite <- Hm, !map_app; simpl. rewrite (Hpr _ _ _ E). now rewrite <- app_assoc.
      + rewrite app_length; simpl; lia. }
  etransitivity; [exact (G v [] O eq_refl eq_refl)|]. destruct (mapM (body v) v); auto.
Qed.

Lemma mapM_Ok {A B} (f : A -> B) l : mapM (fun a => Ok (f a)) l = Ok (map f l).
Proof. induction l; simpl; auto. now rewrite IHl. Qed.

Lemma Forall2_length {A B} (R : A -> B -> Prop) l l' : Forall2 R l l' -> length l = length l'.
Proof. induction 1; simpl; auto. Qed.

Lemma Forall2_impl {A B} (R Q : A -> B -> Prop) l l' :
  (forall a b, R a b -> Q a b) -> Forall2 R l l' -> Forall2 Q l l'.
Proof. induction 2; constructor; auto. Qed.

Lemma Forall2_map_eq {A B C} (f : A -> C) (g : B -> C) (R : A -> B -> Prop) l l' :
  (forall a b, R a b -> f a = g b) -> Forall2 R l l' -> map f l = map g l'.
Proof. induction 2; simpl; f_equal; auto. Qed.

Lemma nth_error_map {A B} (f : A -> B) l i : nth_error (map f l) i = option_map f (nth_error l i).
Proof. revert i; induction l; destruct i; simpl; auto. Qed.

Lemma nth_error_repeat {A} (a : A) n i : (i < n)%nat -> nth_error (repeat a n) i = Some a.
Proof. revert i; induction n; destruct i; simpl; intros; try lia; auto. apply IHn; lia. Qed.

Lemma nth_error_ext_length {A} (l : list A) i : (i < length l)%nat -> exists a, nth_error l i = Some a.
Proof. intros H. destruct (nth_error l i) eqn:E; eauto. apply nth_error_None in E. lia. Qed.

Lemma filter_length_le {A} (f : A -> bool) l : (length (filter f l) <= length l)%nat.
Proof. induction l; simpl; auto. destruct (f a); simpl; lia. Qed.

Lemma nth_error_ext_eq {A} (l l' : list A) : (forall i, nth_error l i = nth_error l' i) -> l = l'.
Proof.
  revert l'. induction l as [|a l IH]; intros [|b l'] H; auto.
  - specialize (H 0%nat). discriminate H.
  - specialize (H 0%nat). discriminate H.
  - f_equal; [specialize (H 0%nat); now inv H|]. apply IH. intros i. apply (H (S i)).
Qed.

Lemma Forall2_of_nth {A B} (P : A -> B -> Prop) l l' : length l' = length l ->
  (forall i a b, nth_error l i = Some a -> nth_error l' i = Some b -> P a b) -> Forall2 P l l'.
Proof.
  revert l'. induction l as [|a l IH]; intros [|b l'] L H; simpl in L; try discriminate; constructor.
  - apply (H 0%nat); auto.
  - apply IH; [lia|]. intros i. apply (H (S i)).
Qed.
