(** * Facts about decimal text *)
From Verif Require Export Text BaseFacts.

Definition value (l : list Z) : Z := fold_left (fun a d => a * 10 + d) l 0.
Definition digit (d : Z) : Prop := 0 <= d <= 9.
Lemma value_acc l : forall a, fold_left (fun a d => a * 10 + d) l a = a * 10 ^ Z.of_nat (List.length l) + value l.
Proof.
  unfold value. induction l as [|d l IH]; intros a. { simpl. lia. } cbn [fold_left List.length]. rewrite IH, (IH (0 * 10 + d)).
  rewrite Nat2Z.inj_succ, Z.pow_succ_r by lia. ring.
Qed.
Lemma value_cons d l : value (d :: l) = d * 10 ^ Z.of_nat (List.length l) + value l.
Proof. unfold value at 1. cbn [fold_left]. rewrite value_acc. ring. Qed.
Lemma value_bound l : Forall digit l -> 0 <= value l < 10 ^ Z.of_nat (List.length l).
Proof.
  induction 1 as [|d l D _ IH]. { unfold value. simpl. lia. } rewrite value_cons. cbn [List.length]. rewrite Nat2Z.inj_succ, Z.pow_succ_r by lia.
  unfold digit in D. nia.
Qed.

(** [digits_from] produces digits with the right value, and no leading zero *)
Lemma digits_from_spec fuel : forall z acc, 0 <= z < 2 ^ (Z.of_nat fuel + 1) -> Forall digit acc ->
  Forall digit (digits_from fuel z acc) /\ value (digits_from fuel z acc) = z * 10 ^ Z.of_nat (List.length acc) + value acc /\
  (0 < z -> exists d l, digits_from fuel z acc = d :: l /\ 0 < d).
Proof.
  induction fuel as [|fuel IH]; intros z acc B D; cbn [digits_from].
  - change (2 ^ (Z.of_nat 0 + 1)) with 2 in B. repeat split; [constructor; auto; unfold digit; lia|now rewrite value_cons|]. intros; exists z, acc; auto.
  - destruct (Z.ltb_spec z 10).
    + repeat split; [constructor; auto; unfold digit; lia|now rewrite value_cons|]. intros; exists z, acc; auto.
    + pose proof (Z.mod_pos_bound z 10 ltac:(lia)) as M. pose proof (Z.div_mod z 10 ltac:(lia)) as DM.
      rewrite Nat2Z.inj_succ in B. replace (Z.succ (Z.of_nat fuel) + 1) with (Z.succ (Z.of_nat fuel + 1)) in B by lia. rewrite Z.pow_succ_r in B by lia.
      destruct (IH (z / 10) (z mod 10 :: acc)) as (F & V & L).
      { split. - apply Z.div_pos; lia. - apply Z.div_lt_upper_bound; lia. }
      { constructor; auto. unfold digit. lia. }
      split; [exact F|split].
      * rewrite V, value_cons. cbn [List.length]. rewrite Nat2Z.inj_succ, Z.pow_succ_r by lia. rewrite DM at 3. ring.
      * intros _. apply L. apply Z.div_str_pos. lia.
Qed.
Lemma digits_spec z : 0 <= z -> Forall digit (digits z) /\ value (digits z) = z /\ (0 < z -> exists d l, digits z = d :: l /\ 0 < d).
Proof.
  intros P. unfold digits. destruct (digits_from_spec (Z.to_nat (Z.log2 z)) z []) as (F & V & L); auto.
  - split; auto. rewrite Z2Nat.id by apply Z.log2_nonneg. destruct (Z.eq_dec z 0) as [->|]; [reflexivity|]. now apply Z.log2_spec; lia.
  - split; auto. split; auto. rewrite V. simpl. unfold value. simpl. ring.
Qed.
Lemma digits_0 : digits 0 = [0]. Proof. reflexivity. Qed.
Lemma digits_nonempty z : 0 <= z -> digits z <> [].
Proof. intros P. destruct (Z.eq_dec z 0) as [->|]; [discriminate|]. destruct (digits_spec z P) as (_ & _ & L). destruct L as (d & l & -> & _); [lia|discriminate]. Qed.
Lemma digits_inj z z' : 0 <= z -> 0 <= z' -> digits z = digits z' -> z = z'.
Proof. intros P P' E. destruct (digits_spec z P) as (_ & V & _). destruct (digits_spec z' P') as (_ & V' & _). congruence. Qed.
(** the number of digits *)
Lemma digits_length z n : 0 <= z -> (0 < n)%nat -> (List.length (digits z) <= n)%nat <-> z < 10 ^ Z.of_nat n.
Proof.
  intros P Pn. destruct (digits_spec z P) as (F & V & L). pose proof (value_bound _ F) as B. rewrite V in B. split; intros H.
  - eapply Z.lt_le_trans; [apply B|]. apply Z.pow_le_mono_r; lia.
  - destruct (Z.eq_dec z 0) as [->|]; [exact Pn|]. destruct L as (d & l & E & D); [lia|]. rewrite E in *. cbn [List.length] in *.
    rewrite value_cons in V. inversion F; subst. pose proof (value_bound l ltac:(assumption)) as B'.
    destruct (Nat.le_gt_cases (Datatypes.S (List.length l)) n); auto. exfalso.
    assert (10 ^ Z.of_nat n <= 10 ^ Z.of_nat (List.length l)) by (apply Z.pow_le_mono_r; lia). nia.
Qed.

(** characters *)
Lemma digit_char_N d : digit d -> N_of_ascii (digit_char d) = Z.to_N (48 + d).
Proof. intros D. unfold digit_char. apply N_ascii_embedding. unfold digit in D. lia. Qed.
Lemma digit_char_inj d d' : digit d -> digit d' -> digit_char d = digit_char d' -> d = d'.
Proof. intros D D' E. apply (f_equal N_of_ascii) in E. rewrite !digit_char_N in E by auto. unfold digit in *. lia. Qed.
Lemma map_digit_inj l : forall l', Forall digit l -> Forall digit l' -> map digit_char l = map digit_char l' -> l = l'.
Proof.
  induction l as [|d l IH]; intros [|d' l'] F F' E; try discriminate; auto. inversion F; inversion F'; subst. simpl in E. injection E as E1 E2.
  f_equal; auto. now apply digit_char_inj.
Qed.
Lemma text_inj l l' : text l = text l' -> l = l'.
Proof. intros E. apply (f_equal list_ascii_of_string) in E. unfold text in E. now rewrite !list_ascii_of_string_of_list_ascii in E. Qed.
Lemma text_app l l' : text (l ++ l') = String.append (text l) (text l').
Proof. unfold text. induction l as [|c l IH]; simpl; auto. now rewrite IH. Qed.
Lemma text_length l : String.length (text l) = List.length l.
Proof. unfold text. induction l; simpl; auto. Qed.
Lemma append_assoc a b c : String.append (String.append a b) c = String.append a (String.append b c).
Proof. induction a; simpl; auto. now rewrite IHa. Qed.
Lemma append_inj_l a b c : String.append a b = String.append a c -> b = c.
Proof. induction a; simpl; auto. intros E. apply IHa. congruence. Qed.
Lemma digit_not_minus d : digit d -> digit_char d <> "-"%char.
Proof. intros D E. apply (f_equal N_of_ascii) in E. rewrite digit_char_N in E by auto. change (N_of_ascii "-") with 45%N in E. unfold digit in D. lia. Qed.
Lemma map_digits_inj z z' : 0 <= z -> 0 <= z' -> map digit_char (digits z) = map digit_char (digits z') -> z = z'.
Proof. intros P P' E. apply digits_inj; auto. apply map_digit_inj; auto; apply digits_spec; auto. Qed.
Lemma dec_inj z z' : dec z = dec z' -> z = z'.
Proof.
  unfold dec. intros E. apply text_inj in E.
  assert (X : forall a l, 0 <= a -> map digit_char (digits a) = "-"%char :: l -> False).
  { intros a l P Ea. destruct (digits_spec a P) as (F & _). destruct (digits a) as [|d ds]; [discriminate|]. simpl in Ea. injection Ea as E1 E2. inversion F; subst. now apply (digit_not_minus d). }
  destruct (Z.ltb_spec z 0), (Z.ltb_spec z' 0).
  - injection E as E. apply map_digits_inj in E; lia.
  - symmetry in E. exfalso. eapply X; eauto.
  - exfalso. eapply X; eauto.
  - apply map_digits_inj in E; lia.
Qed.
Lemma dec_nonneg z : 0 <= z -> dec z = text (map digit_char (digits z)).
Proof. intros P. unfold dec. destruct (Z.ltb_spec z 0); [lia|auto]. Qed.
Lemma dec_length z : 0 <= z -> String.length (dec z) = List.length (digits z).
Proof. intros P. now rewrite dec_nonneg, text_length, map_length. Qed.

(** padding with zeros *)
Definition padded (n : nat) (z : Z) : list Z := repeat 0 (n - List.length (digits z)) ++ digits z.
Lemma setw_dec n z : 0 <= z -> setw n "0" (dec z) = text (map digit_char (padded n z)).
Proof. intros P. unfold setw, padded. rewrite dec_length, map_app, text_app, dec_nonneg by auto. f_equal. f_equal. induction (n - _)%nat as [|k IHk]; simpl; auto. now rewrite IHk. Qed.
Lemma value_zeros k l : value (repeat 0 k ++ l) = value l.
Proof. induction k; simpl; auto. Qed.
Lemma padded_digit n z : 0 <= z -> Forall digit (padded n z).
Proof. intros P. unfold padded. apply Forall_app. split; [|now apply digits_spec]. apply Forall_forall. intros x Hx. apply repeat_spec in Hx. subst. unfold digit. lia. Qed.
Lemma padded_value n z : 0 <= z -> value (padded n z) = z.
Proof. intros P. unfold padded. rewrite value_zeros. now apply digits_spec. Qed.
Lemma padded_length n z : 0 <= z < 10 ^ Z.of_nat n -> (0 < n)%nat -> List.length (padded n z) = n.
Proof. intros P Pn. unfold padded. rewrite app_length, repeat_length. pose proof (proj2 (digits_length z n ltac:(lia) Pn) ltac:(lia)). lia. Qed.
Lemma setw_dec_inj n z z' : 0 <= z -> 0 <= z' -> setw n "0" (dec z) = setw n "0" (dec z') -> z = z'.
Proof.
  intros P P' E. rewrite !setw_dec in E by auto. apply text_inj, map_digit_inj in E; try now apply padded_digit.
  apply (f_equal value) in E. now rewrite !padded_value in E.
Qed.

(** *** alphabetical order *)
Lemma digit_compare d d' : digit d -> digit d' -> Ascii.compare (digit_char d) (digit_char d') = (d ?= d').
Proof.
  intros D D'. unfold Ascii.compare. rewrite !digit_char_N by auto. unfold digit in *. 
  rewrite (Z2N.inj_compare (48 + d) (48 + d')) by lia. apply Z.add_compare_mono_l.
Qed.
Lemma text_compare l : forall l' r r', List.length l = List.length l' -> Forall digit l -> Forall digit l' -> value l < value l' ->
  String.compare (String.append (text (map digit_char l)) r) (String.append (text (map digit_char l')) r') = Lt.
Proof.
  induction l as [|d l IH]; intros [|d' l'] r r' L F F' V; try discriminate. 
  inversion F; inversion F'; subst. rewrite !value_cons in V. simpl in L. injection L as L. rewrite L in V.
  cbn [map text string_of_list_ascii String.append String.compare]. rewrite digit_compare by auto.
  pose proof (value_bound l ltac:(auto)) as B. pose proof (value_bound l' ltac:(auto)) as B'. rewrite L in B.
  destruct (Z.compare_spec d d') as [->|X|X]; auto.
  - apply IH; auto. lia.
  - exfalso. nia.
Qed.
Lemma append_compare a r r' : String.compare (String.append a r) (String.append a r') = String.compare r r'.
Proof. induction a as [|c a IH]; simpl; auto. unfold Ascii.compare. now rewrite N.compare_refl. Qed.
