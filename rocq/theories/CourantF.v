(** * The Courant number in doubles (C22) *)
From Verif Require Export MinPressureF.

Lemma nmax_number (a b : f64) : numberF a -> numberF (@nmax F64 a b) /\ leF a (@nmax F64 a b) /\ (numberF b -> leF b (@nmax F64 a b)) /\ (@nmax F64 a b = a \/ @nmax F64 a b = b).
Proof.
  intros A. unfold nmax. destruct (@nlt F64 a b) eqn:E.
  - assert (L : leF a b) by (apply nlt_nle, E). destruct (leF_number _ _ L) as [_ B]. repeat split; auto. intros _. now apply leF_refl.
  - repeat split; auto; [now apply leF_refl|]. intros B. now apply leF_total.
Qed.
Definition courant_of (s : @settings F64) (p : @particle F64) : f64 := @ndiv F64 (@nmul F64 (@vnorm F64 (p_vel p)) (s_dt s)) (s_l0 s).
Lemma courant_fold (s : @settings F64) ps (c : f64) : numberF c -> let c' := fold_left (@courant1 F64 s) ps c in
  numberF c' /\ leF c c' /\ (forall p, In p ps -> p_type p = Fluid -> numberF (courant_of s p) -> leF (courant_of s p) c') /\
  (c' = c \/ exists p, In p ps /\ p_type p = Fluid /\ c' = courant_of s p).
Proof.
  revert c. induction ps as [|p ps IH]; intros c C; cbn [fold_left].
  { repeat split; auto; [now apply leF_refl|intros p []]. }
  assert (K : numberF (@courant1 F64 s c p) /\ leF c (@courant1 F64 s c p) /\ (p_type p = Fluid -> numberF (courant_of s p) -> leF (courant_of s p) (@courant1 F64 s c p)) /\
    (@courant1 F64 s c p = c \/ p_type p = Fluid /\ @courant1 F64 s c p = courant_of s p)).
  { unfold courant1. destruct (is_type p Fluid) eqn:T.
    - apply is_type_eq in T. destruct (nmax_number c (courant_of s p) C) as (A & B & D & E). fold (courant_of s p). split; auto. split; auto. split; auto. destruct E; auto.
    - apply is_type_neq in T. repeat split; auto; [now apply leF_refl|contradiction]. }
  destruct K as (A & B & D & E). destruct (IH _ A) as (A' & B' & D' & E'). split; auto. split; [eapply leF_trans; eauto|]. split.
  - intros q [<-|I] T NQ; auto. eapply leF_trans; [apply D; auto|exact B'].
  - destruct E' as [E'|(q & I & T & E')]; [|right; exists q; simpl; auto]. rewrite E'. destruct E as [->|[T ->]]; auto. right. exists p. simpl. auto.
Qed.
Lemma C22_F (s : @settings F64) ps : let '(c, err) := @calCourant F64 s ps in
  @nle F64 (@nofZ F64 0) c = true /\
  (forall p, In p ps -> p_type p = Fluid -> let v := @ndiv F64 (@nmul F64 (@vnorm F64 (p_vel p)) (s_dt s)) (s_l0 s) in numberF v -> @nle F64 v c = true) /\
  (c = @nofZ F64 0 \/ exists p, In p ps /\ p_type p = Fluid /\ c = @ndiv F64 (@nmul F64 (@vnorm F64 (p_vel p)) (s_dt s)) (s_l0 s)) /\
  err = @nlt F64 (s_cfl s) c.
Proof. unfold calCourant. destruct (courant_fold s ps (@nofZ F64 0) eq_refl) as (_ & A & B & C). split; auto. Qed.
