(** * Property C31: the parallel loops under every schedule

    Vocabulary: [Schedule] (programs of single memory accesses, interleavings [reach],
    [race], [finished]), [Loops] (the fourteen loops, [iterations], [sequential],
    [starts]). *)
From Verif Require Import Schedule Loops LoopFacts ScheduleCases.

(** C31.  For every [omp parallel for] loop of the simulator started in any memory with
    ids equal to indices, and any interleaving of the accesses of its iterations:
    no data race is reachable; if all iterations end, the memory is the one the
    sequential loop leaves; if the sequential loop succeeds, no interleaving gets stuck
    and all end; and no interleaving goes on for ever. *)
Theorem C31_parallel_loops (N : Num) L h : starts L h ->
  (forall ts h', reach read write (iterations L h, h) (ts, h') -> ~ race ts) /\
  (forall ts h', reach read write (iterations L h, h) (ts, h') -> finished ts -> sequential L h = Ok h') /\
  (forall hf, sequential L h = Ok hf -> forall ts h', reach read write (iterations L h, h) (ts, h') ->
     (finished ts /\ h' = hf) \/ (exists c, cstep read write (ts, h') c)) /\
  Acc (fun c c' => cstep read write c' c) (iterations L h, h).
Proof. exact (C31_lemma L h). Qed.
Print Assumptions C31_parallel_loops.
Example C31_applies : starts moving pushed_heap /\
  exists ts h, reach read write (iterations moving pushed_heap, pushed_heap) (ts, h) /\ finished ts.
Proof. exact (conj pushed_starts in_turn_finishes). Qed.

(** The sequential loops of C31 are the ones the model runs one after the other. *)
Theorem C31_iterations_in_order (N : Num) L h : starts L h -> seqrun read write (iterations L h) h = sequential L h.
Proof. exact (sequential_run L h). Qed.
Print Assumptions C31_iterations_in_order.
Example C31_in_order_applies : starts moving pushed_heap.
Proof. exact pushed_starts. Qed.
