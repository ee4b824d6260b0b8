(** * A particle that is listed twice: the run (C86) *)
From Coq Require Import String.
From Flocq Require Import BinarySingleNaN.
From Verif Require Import LoaderFacts ResumeFiles StepCasesF NanFacts TwinFacts ProgramEnds NeighborF SpecEnds.
Open Scope list_scope.
Open Scope Z_scope.
#[local] Remove Hints Rnum : typeclass_instances.

Lemma run_meets S real clk fuel t (s : @settings F64) (m : @mps F64) : sound m -> radiusF (s_reMax (m_settings m)) -> proper_domainF (s_domain (m_settings m)) -> meets_nan m ->
  @nlt F64 t (s_endTime s) = true -> run S real clk (Datatypes.S fuel) (newSim t s m) = Undef BadCast.
Proof.
  intros SD RF PD M L. unfold run, save. cbn [newSim si_file]. rewrite cint_small by (unfold int_max; lia). cbn [bind loop si_time si_end newSim]. rewrite L.
  unfold iteration. cbn [si_mps newSim]. rewrite (step_trapped S m SD RF PD M). reflexivity.
Qed.
Lemma listed_twice parse as_int as_dbl as_bool cell_int cell_dbl fsin fcos M_PI big dbg S real clk fuel setting out fs f1 i m a b p q :
  load parse as_int as_dbl as_bool cell_int cell_dbl dbg setting out fs = (f1, Ok i) -> room out f1 -> factoryCreate fsin fcos M_PI (i_settings i) (i_particles i) = Ok m ->
  (s_vtkBinary (i_settings i) = true -> Z.of_nat (List.length (i_particles i)) * 3 <= int_max) ->
  radiusF (s_reMax (i_settings i)) -> proper_domainF (s_domain (i_settings i)) -> s_asserts (i_settings i) = false -> @nlt F64 (B754_zero false) (s_reL (i_settings i)) = true ->
  @nlt F64 (i_start i) (s_endTime (i_settings i)) = true ->
  nth_error (i_particles i) a = Some p -> nth_error (i_particles i) b = Some q -> a <> b -> p_type p = Fluid -> p_type q <> Ghost ->
  p_pos q = p_pos p -> p_vel q = p_vel p -> ~ outside (s_domain (i_settings i)) (p_pos p) ->
  snd (program parse as_int as_dbl as_bool cell_int cell_dbl fsin fcos M_PI big dbg S real clk (Datatypes.S fuel) setting out fs) = Undef BadCast.
Proof.
  intros L R M B RF PD AS RE ST HP HQ NE TP TQ EP EV OUT. pose proof L as L'. apply load_ok in L' as (sb & y & pp & cores & pb & F1 & _ & _ & LP & _ & FO & _).
  rewrite (program_ends parse as_int as_dbl as_bool cell_int cell_dbl fsin fcos M_PI big dbg S real clk (Datatypes.S fuel) setting out fs f1 i m); [|rewrite F1; discriminate|exact FO|exact L|exact R|exact M|exact B].
  assert (MD := loaded_made _ _ _ _ _ _ _ _ LP). destruct (factory_sound _ _ _ _ _ _ M (made_indexed _ MD) (made_rest _ MD)) as (SD & EQ & ES).
  apply run_meets; [exact SD|rewrite ES; exact RF|rewrite ES; exact PD| |exact ST].
  apply (twins_meet m a b p q); rewrite ?ES, ?EQ; assumption.
Qed.
Lemma run_asserts S real clk fuel t (s : @settings F64) (m : @mps F64) : stepForward S m = AssertFail -> @nlt F64 t (s_endTime s) = true -> run S real clk (Datatypes.S fuel) (newSim t s m) = AssertFail.
Proof.
  intros E L. unfold run, save. cbn [newSim si_file]. rewrite cint_small by (unfold int_max; lia). cbn [bind loop si_time si_end newSim]. rewrite L.
  unfold iteration. cbn [si_mps newSim]. rewrite E. reflexivity.
Qed.
Lemma listed_assert parse as_int as_dbl as_bool cell_int cell_dbl fsin fcos M_PI big dbg S real clk fuel setting out fs f1 i m a b p q :
  load parse as_int as_dbl as_bool cell_int cell_dbl dbg setting out fs = (f1, Ok i) -> room out f1 -> factoryCreate fsin fcos M_PI (i_settings i) (i_particles i) = Ok m ->
  (s_vtkBinary (i_settings i) = true -> Z.of_nat (List.length (i_particles i)) * 3 <= int_max) ->
  radiusF (s_reMax (i_settings i)) -> proper_domainF (s_domain (i_settings i)) -> s_asserts (i_settings i) = true -> @nlt F64 (B754_zero false) (s_reL (i_settings i)) = true ->
  @nlt F64 (i_start i) (s_endTime (i_settings i)) = true -> numeric (i_particles i) ->
  nth_error (i_particles i) a = Some p -> nth_error (i_particles i) b = Some q -> a <> b -> p_type p = Fluid -> p_type q <> Ghost ->
  p_pos q = p_pos p -> ~ outside (s_domain (i_settings i)) (p_pos p) ->
  snd (program parse as_int as_dbl as_bool cell_int cell_dbl fsin fcos M_PI big dbg S real clk (Datatypes.S fuel) setting out fs) = AssertFail.
Proof.
  intros L R M B RF PD AS RE ST NU HP HQ NE TP TQ EP OUT. pose proof L as L'. apply load_ok in L' as (sb & y & pp & cores & pb & F1 & _ & _ & LP & _ & FO & _).
  rewrite (program_ends parse as_int as_dbl as_bool cell_int cell_dbl fsin fcos M_PI big dbg S real clk (Datatypes.S fuel) setting out fs f1 i m); [|rewrite F1; discriminate|exact FO|exact L|exact R|exact M|exact B].
  assert (MD := loaded_made _ _ _ _ _ _ _ _ LP). destruct (factory_sound _ _ _ _ _ _ M (made_indexed _ MD) (made_rest _ MD)) as (SD & EQ & ES).
  rewrite run_asserts; [reflexivity| |exact ST].
  apply (twins_assert S m a b p q); rewrite ?ES, ?EQ; assumption.
Qed.
