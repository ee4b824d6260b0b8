(** * A loop run under an interleaved schedule *)
From Verif Require Export LoopFacts StepCasesF.
Open Scope Z_scope.
#[local] Remove Hints Rnum : typeclass_instances.

Section Cases.
Context {N : Num}.
(** the accesses in the order a schedule (a list of iteration numbers) gives *)
Fixpoint drive (sched : list nat) (c : list (P unit) * heap) : option (list (P unit) * heap) :=
  match sched with
  | [] => Some c
  | i :: sched' =>
      match nth_error (fst c) i with
      | Some p => match act read write p (snd c) with Some (p', h') => drive sched' (upd (fst c) i p', h') | None => None end
      | None => None
      end
  end.
Lemma drive_reach sched : forall c c', drive sched c = Some c' -> reach read write c c'.
Proof.
  induction sched as [|i sched IH]; intros [ts h] c' E; simpl in E.
  - inv E. constructor.
  - destruct (nth_error ts i) eqn:Ei; [|discriminate]. destruct (act read write p h) as [[p' h']|] eqn:Ea; [|discriminate].
    eapply reach_S; [|apply IH; exact E]. econstructor; eauto.
Qed.
Definition is_ret (p : P unit) : bool := match p with Ret _ => true | _ => false end.
Lemma all_ret ts : forallb is_ret ts = true -> finished ts.
Proof. intros H p Hp. rewrite forallb_forall in H. specialize (H p Hp). destruct p as [[]| | |]; simpl in H; congruence. Qed.
End Cases.


(** The six particles of [cross], given the same acceleration: MPS::moveParticle, one
    access of each iteration in turn, last iteration first.  The wall particle is done
    after two accesses, the others after eight. *)
Definition pushed : list partF := calGravity (@mkV F64 (@nofZ F64 1) c20 c00) cross.
Definition pushed_heap : @heap F64 := mkH pushed [] [] [] [] [].
Definition in_turn : list nat := ([5;4;3;2;1;0] ++ [5;4;3;2;1;0] ++ flat_map (fun _ => [4;3;2;1;0]) [tt;tt;tt;tt;tt;tt])%nat.
Definition moving : @omp_loop F64 := MoveParticle (settingsF "Explicit").
Lemma pushed_starts : starts moving pushed_heap.
Proof.
  split; [|exact I]. intros i p E. unfold pushed_heap, pushed, calGravity in E. cbn [h_ps] in E. rewrite BaseFacts.nth_error_map in E.
  destruct (nth_error cross i) as [q|] eqn:Q; [|discriminate]. inv E. rewrite <- (cross_indexed _ _ Q). unfold calGravity1. now destruct (is_type q Fluid).
Qed.
Definition turn_check : bool :=
  match drive in_turn (iterations moving pushed_heap, pushed_heap) with Some (ts, _) => forallb is_ret ts | None => false end.
Lemma turn_ok : turn_check = true.
Proof. vm_compute. reflexivity. Qed.
Lemma in_turn_finishes : exists ts h, reach read write (iterations moving pushed_heap, pushed_heap) (ts, h) /\ finished ts.
Proof.
  pose proof turn_ok as T. unfold turn_check in T. destruct (drive in_turn _) as [[ts h]|] eqn:E; [|discriminate].
  exists ts, h. split; [now apply drive_reach in E|now apply all_ret].
Qed.
