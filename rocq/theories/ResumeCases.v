(** * Concrete case for C71: particles that remember something else *)
From Coq Require Import Reals Lra.
From Verif Require Import StageCases SpecResume ResumeRun.
Open Scope R_scope.
#[local] Remove Hints F64 : typeclass_instances.

(** another pressure, number density, minimum pressure and neighbours *)
Definition littered (p : partR) : partR := set_nbrs (set_minp (set_nd (set_press p 7) 5) (-3)) [nb 2 9; nb 17 0].

Lemma littered_case : exists m r m' : @mps Rnum, sound m /\ sound r /\ same_setup m r /\ Forall2 alike (m_ps m) (m_ps r) /\ steps no_solver 3 m m' /\ List.length (m_ps m) = 3%nat /\
  ~ Forall2 same_result (m_ps m) (m_ps r) /\ same_marks m r.
Proof.
  destruct (runs trio 3 trio_indexed trio_rest) as (m & m' & RD & ES & EP & EG & EK & H).
  exists m, (with_ps m (map littered trio)), m'.
  destruct RD as ((I & A & U) & _).
  split; [exact (conj I (conj A U))|]. split.
  { split; [|split].
    - intros [|[|[|i]]] p X; simpl in X; try (destruct i; discriminate X); inv X; reflexivity.
    - intros p X. simpl in X. repeat (destruct X as [<-|X]; [reflexivity|]). contradiction.
    - cbn [with_ps m_ps m_settings m_ns]. rewrite map_length, <- EP. exact U. }
  split; [repeat split; reflexivity|]. rewrite EP.
  split; [cbn [with_ps m_ps map trio]; repeat constructor|]. split; [exact H|]. split; [reflexivity|].
  split.
  - intros X. cbn [with_ps m_ps map trio] in X. inversion X as [|a b l l' Y _]; subst. destruct Y as (_ & _ & Y & _). cbv in Y. lra.
  - unfold same_marks. rewrite EP. cbn [with_ps m_ps map trio]. repeat constructor.
Qed.
