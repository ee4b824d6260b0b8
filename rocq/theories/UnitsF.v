(** * Rounding makes the place of a problem matter *)
From Coq Require Import Reals Lra Lia String.
From Verif Require Import BaseFacts StepCasesF.
From Verif Require Export SpecUnits.
Open Scope Z_scope.
#[local] Remove Hints Rnum : typeclass_instances.

(** two fluid particles exactly the radius of influence apart: not neighbours; four
    metres further to the right they are *)
Definition apart2 : list partF := [ pf 0 Fluid c00 half; pf 1 Fluid re31 half ].
Definition four_right : @vec F64 := @mkV F64 (@nofZ F64 4) c00 c00.
Definition degrees (m : @mps F64) : list nat := map (fun p => List.length (p_nbrs p)) (m_ps m).
Definition apart_machine : outcome (@mps F64) := factoryCreate fid fid c20 (settingsF "Explicit") apart2.

Lemma apart2_indexed : indexed apart2.
Proof. intros [|[|[|i]]] p H; simpl in H; inv H; reflexivity. Qed.
Lemma apart2_rest : at_rest apart2.
Proof. intros p H. simpl in H. intuition (subst; reflexivity). Qed.
Lemma apart2_numeric : numeric apart2.
Proof. intros p H _. simpl in H. intuition (subst; repeat split; vm_compute; reflexivity). Qed.

Definition same_list (a b : list nat) : bool := if list_eq_dec Nat.eq_dec a b then true else false.
Lemma same_list_eq a b : same_list a b = true -> a = b.
Proof. unfold same_list. now destruct (list_eq_dec Nat.eq_dec a b). Qed.

Definition shift_check (o : outcome (@mps F64)) : bool :=
  match o with
  | Ok m => match stepForward solver0 m, stepForward solver0 (@shift_mps F64 four_right c00 m) with
            | Ok m1, Ok m2 => same_list (degrees m1) [0; 0]%nat && same_list (degrees m2) [1; 1]%nat
            | _, _ => false
            end
  | _ => false
  end.

Lemma shift_checked o : shift_check o = true -> exists m m1 m2, o = Ok m /\ stepForward solver0 m = Ok m1 /\
  stepForward solver0 (@shift_mps F64 four_right c00 m) = Ok m2 /\ degrees m1 = [0; 0]%nat /\ degrees m2 = [1; 1]%nat.
Proof.
  unfold shift_check. destruct o as [m| | | | |]; try discriminate. destruct (stepForward solver0 m) as [m1| | | | |] eqn:E1; try discriminate.
  destruct (stepForward solver0 (shift_mps four_right c00 m)) as [m2| | | | |] eqn:E2; try discriminate.
  intros B. apply andb_prop in B. destruct B as [B1 B2]. exists m, m1, m2. do 3 (split; [auto; fail|]). split; apply same_list_eq; assumption.
Qed.
Lemma C66_refuted_lemma : exists (v : @vec F64) (m m1 m2 : @mps F64), sound m /\ numeric (m_ps m) /\
  stepForward solver0 m = Ok m1 /\ stepForward solver0 (@shift_mps F64 v c00 m) = Ok m2 /\
  map (fun p => List.length (p_nbrs p)) (m_ps m1) = [0; 0]%nat /\ map (fun p => List.length (p_nbrs p)) (m_ps m2) = [1; 1]%nat.
Proof.
  exists four_right.
  assert (B : shift_check apart_machine = true) by (vm_compute; reflexivity).
  apply shift_checked in B. destruct B as (m & m1 & m2 & E & E1 & E2 & D1 & D2).
  destruct (factory_sound _ _ _ _ _ _ E apart2_indexed apart2_rest) as (SD & EP & _).
  exists m, m1, m2. rewrite EP. split; [exact SD|]. split; [apply apart2_numeric|]. split; [exact E1|]. split; [exact E2|]. split; assumption.
Qed.
