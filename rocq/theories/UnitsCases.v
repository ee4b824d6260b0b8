(** * Units and origin: a solver that respects units, the special case of a mere shift,
    and what rounding does to it *)
From Coq Require Import Reals Lra Lia String.
From Verif Require Import BaseFacts GaussR WholeR SimCases StepCasesF.
From Verif Require Export UnitsR SpecUnits.
Open Scope R_scope.

Section Exact.
#[local] Remove Hints F64 : typeclass_instances.

(** ** elimination respects units *)
Lemma solve_scale (r : nat -> R) k n : forall A b A' b', k <> 0 -> (forall i, r i <> 0) ->
  (forall i j, A' i j = r i / k * A i j) -> (forall i, b' i = r i * b i) -> forall i, solve n A' b' i = k * solve n A b i.
Proof.
  induction n as [|n IH]; intros A b A' b' K Rn EA EB i; cbn [solve]; [ring|].
  assert (QN : r n / k <> 0) by (apply Rmult_integral_contrapositive_currified; [apply Rn|apply Rinv_neq_0_compat, K]).
  assert (QI : forall x y, r n / k * x / (r n / k * y) = x / y).
  { intros x y. rewrite div_scale. replace (r n / k / (r n / k)) with 1 by (field; split; [exact K|apply Rn]). ring. }
  assert (X : forall j, solve n (fun i j => A' i j - A' i n * A' n j / A' n n) (fun i => b' i - A' i n * b' n / A' n n) j =
                        k * solve n (fun i j => A i j - A i n * A n j / A n n) (fun i => b i - A i n * b n / A n n) j).
  { apply IH; auto.
    - intros a c. rewrite !EA. replace (r a / k * A a n * (r n / k * A n c)) with (r n / k * (r a / k * A a n * A n c)) by ring. rewrite QI. unfold Rdiv. ring.
    - intros a. rewrite !EA, !EB. replace (r a / k * A a n * (r n * b n)) with (r n / k * (r a * A a n * b n)) by (field; exact K). rewrite QI. unfold Rdiv. ring. }
  set (x' := solve n (fun i j => A' i j - A' i n * A' n j / A' n n) (fun i => b' i - A' i n * b' n / A' n n)) in *.
  set (x := solve n (fun i j => A i j - A i n * A n j / A n n) (fun i => b i - A i n * b n / A n n)) in *.
  destruct (Nat.eqb i n); [|apply X]. rewrite EA, EB.
  rewrite (sum_to_ext n _ (fun j => r n * (A n j * x j))).
  - rewrite sum_to_mul. rewrite <- Rmult_minus_distr_l.
    replace (r n * (b n - sum_to n (fun j => A n j * x j))) with (r n / k * (k * (b n - sum_to n (fun j => A n j * x j)))) by (field; exact K).
    rewrite QI. unfold Rdiv. ring.
  - intros j _. rewrite EA, X. field. exact K.
Qed.

Lemma entry_scale (r : Z -> R) k ts i j : entry (map (fun t => @mkT Rnum (t_row t) (t_col t) (r (t_row t) / k * t_val t)) ts) i j = r i / k * entry ts i j.
Proof.
  unfold entry. assert (forall a, fold_left (fun a t => if ((t_row t =? i) && (t_col t =? j))%Z then @nadd Rnum a (t_val t) else a)
     (map (fun t => @mkT Rnum (t_row t) (t_col t) (r (t_row t) / k * t_val t)) ts) (r i / k * a) =
     r i / k * fold_left (fun a t => if ((t_row t =? i) && (t_col t =? j))%Z then @nadd Rnum a (t_val t) else a) ts a) as G.
  { induction ts as [|t ts IH]; intros a; [reflexivity|]. cbn [map fold_left t_row t_col t_val].
    destruct (Z.eqb_spec (t_row t) i) as [E|]; cbn [andb]; [|apply IH]. destruct (t_col t =? j)%Z; [|apply IH].
    rewrite <- IH. f_equal. rewrite E. cbn. match goal with |- ?a = ?b => change (@eq R a b) end. ring. }
  specialize (G 0). rewrite Rmult_0_r in G. exact G.
Qed.

Lemma rhs_nth (r : Z -> R) (b : list R) i : @nth R i (map (fun e => r (Z.of_nat (fst e)) * snd e) (combine (seq 0 (length b)) b)) 0 = r (Z.of_nat i) * @nth R i b 0.
Proof.
  destruct (Nat.lt_ge_cases i (length b)) as [H|H].
  - apply nth_error_nth. rewrite nth_error_map, combine_seq_nth. rewrite (nth_error_nth' b 0 H). reflexivity.
  - rewrite !nth_overflow; [ring|exact H|]. rewrite map_length, combine_length, seq_length. lia.
Qed.

Lemma gauss_units u : proper_units u -> u_solver u gauss gauss.
Proof.
  intros PU n ts b r HR.
  assert (K : k_press u <> 0) by (apply Rgt_not_eq, kpp, PU).
  assert (Rn : forall i, r i <> 0). { intros i. destruct (HR i) as [-> | ->]; [|exact K]. apply Rinv_neq_0_compat. pose proof (Tp u PU). nra. }
  cbn [u_system fst snd]. unfold gauss. change (@num Rnum) with R in *.
  set (ts' := map _ ts). set (b' := map _ (combine (seq 0 (length b)) b)).
  assert (LB : length b' = length b) by (unfold b'; rewrite map_length, combine_length, seq_length; lia). rewrite LB.
  assert (EA : forall i j, matrix ts' i j = r (Z.of_nat i) / k_press u * matrix ts i j) by (intros; apply entry_scale).
  assert (EB : forall i, @nth R i b' 0 = r (Z.of_nat i) * @nth R i b 0) by (intros; apply rhs_nth).
  assert (EX : map (solve n (matrix ts') (fun i => @nth R i b' 0)) (seq 0 n) = map (Rmult (k_press u)) (map (solve n (matrix ts) (fun i => @nth R i b 0)) (seq 0 n))).
  { rewrite map_map. apply map_ext. intros i. apply (solve_scale (fun i => r (Z.of_nat i))); auto. }
  rewrite EX. set (x := map (solve n _ _) _).
  destruct (Nat.eqb (length b) n); [|reflexivity]. cbn [andb].
  assert (EF : forall i, Req_bool (sum_to n (fun j => matrix ts' i j * @nth R j (map (Rmult (k_press u)) x) 0)) (@nth R i b' 0) =
                         Req_bool (sum_to n (fun j => matrix ts i j * @nth R j x 0)) (@nth R i b 0)).
  { intros i. rewrite EB. rewrite (sum_to_ext n _ (fun j => r (Z.of_nat i) * (matrix ts i j * @nth R j x 0))).
    - rewrite sum_to_mul. pose proof (Rn (Z.of_nat i)) as NZ.
      destruct (Req_bool_spec (sum_to n (fun j => matrix ts i j * @nth R j x 0)) (@nth R i b 0)) as [E|E].
      + apply Req_bool_true. now rewrite E.
      + apply Req_bool_false. intros H. apply E. eapply Rmult_eq_reg_l; [exact H|exact NZ].
    - intros j _. rewrite EA. replace (@nth R j (map (Rmult (k_press u)) x) 0) with (k_press u * @nth R j x 0).
      + field. exact K.
      + rewrite <- (Rmult_0_r (k_press u)) at 2. symmetry. apply map_nth. }
  clearbody x.
  assert (EL : forall l, forallb (fun i => Req_bool (sum_to n (fun j => matrix ts' i j * @nth R j (map (Rmult (k_press u)) x) 0)) (@nth R i b' 0)) l =
                         forallb (fun i => Req_bool (sum_to n (fun j => matrix ts i j * @nth R j x 0)) (@nth R i b 0)) l).
  { induction l as [|i l IH]; [reflexivity|]. cbn [forallb]. now rewrite IH, EF. }
  rewrite EL. destruct (forallb _ _); reflexivity.
Qed.

(** ** a shift is a change of origins only *)
Definition origin (v : @vec Rnum) (t : R) : units := mkU 1 1 1 v t.
Lemma origin_proper v t : proper_units (origin v t).
Proof. unfold proper_units, origin. cbn. lra. Qed.
Lemma k1 v t : k_vel (origin v t) = 1 /\ k_acc (origin v t) = 1 /\ k_dens (origin v t) = 1 /\ k_press (origin v t) = 1 /\ k_visc (origin v t) = 1 /\ k_compr (origin v t) = 1.
Proof. unfold k_vel, k_acc, k_dens, k_press, k_visc, k_compr, origin. cbn. repeat split; field. Qed.
Lemma scale1 (a : @vec Rnum) : u_scale 1 a = a.
Proof. apply vec_eq; cbn; apply Rmult_1_l. Qed.
Lemma map_same {A} (f : A -> A) l : (forall a, f a = a) -> map f l = l.
Proof. intros E. rewrite (map_ext f (fun a => a) E). apply map_id. Qed.

Lemma origin_particle v t p : u_particle (origin v t) p = @shift_particle Rnum v p.
Proof.
  destruct (k1 v t) as (E1 & E2 & E3 & E4 & _). unfold u_particle. rewrite E1, E2, E3, E4, !scale1. unfold shift_particle, set_pos.
  rewrite (map_same (u_neighbor (origin v t))).
  - assert (u_pos (origin v t) (p_pos p) = vadd (p_pos p) v) as -> by (apply vec_eq; cbn; now rewrite Rmult_1_l).
    rewrite !Rmult_1_l. reflexivity.
  - intros [j d]. unfold u_neighbor, origin. cbn. now rewrite Rmult_1_l.
Qed.
Lemma origin_domain v t d : u_domain (origin v t) d = @shift_domain Rnum v d.
Proof. unfold u_domain, shift_domain, origin. cbn. now rewrite !Rmult_1_l. Qed.
Lemma origin_settings v t s : u_settings (origin v t) s = @shift_settings Rnum v t s.
Proof.
  destruct (k1 v t) as (E1 & E2 & E3 & E4 & E5 & E6). unfold u_settings. rewrite E1, E2, E3, E5, E6, scale1, origin_domain. unfold shift_settings, u_clock, origin. cbn.
  now rewrite !Rmult_1_l.
Qed.
Lemma origin_ref v t r : u_ref (origin v t) r = r.
Proof. destruct r. unfold u_ref, origin. cbn. now rewrite !Rmult_1_l. Qed.
Lemma origin_bucket v t b : u_bucket (origin v t) b = @shift_bucket Rnum v b.
Proof. unfold u_bucket, shift_bucket. rewrite origin_domain. unfold origin. cbn [u_len]. now rewrite Rmult_1_l. Qed.
Lemma origin_searcher v t n : u_searcher (origin v t) n = @shift_searcher Rnum v n.
Proof. unfold u_searcher, shift_searcher. rewrite origin_domain, origin_bucket. unfold origin. cbn [u_len]. now rewrite Rmult_1_l. Qed.
Lemma origin_calculator v t k : u_calculator (origin v t) k = k.
Proof.
  destruct (k1 v t) as (E1 & _ & _ & _ & _ & E6). destruct k as [det q|n0 c]; cbn [u_calculator].
  - f_equal.
    + destruct det; cbn [u_detector]; [reflexivity|]. unfold origin. cbn [u_len]. now rewrite Rmult_1_l.
    + destruct q. unfold u_ppe. rewrite E6. unfold origin. cbn. now rewrite !Rmult_1_l.
  - now rewrite E1, Rmult_1_l.
Qed.
Lemma origin_mps v t m : u_mps (origin v t) m = @shift_mps Rnum v t m.
Proof.
  destruct (k1 v t) as (_ & E2 & _). unfold u_mps, shift_mps. rewrite origin_settings, !origin_ref, origin_calculator, origin_searcher, E2, scale1. f_equal.
  apply map_ext. intros p. apply origin_particle.
Qed.
Lemma origin_clock v t x : u_clock (origin v t) x = x + t.
Proof. unfold u_clock, origin. cbn. now rewrite Rmult_1_l. Qed.
Lemma origin_sim v t st : u_sim (origin v t) st = @shift_sim Rnum v t st.
Proof.
  unfold u_sim, shift_sim. rewrite origin_mps, !origin_clock. unfold origin at 1 2. cbn [u_time]. rewrite !Rmult_1_l. f_equal.
  apply map_ext. intros o. unfold u_output, shift_output. now rewrite origin_mps, origin_clock.
Qed.
Lemma origin_solver v t S : u_solver (origin v t) S S.
Proof.
  intros n ts b r HR. destruct (k1 v t) as (_ & _ & _ & E4 & _). rewrite E4 in *.
  assert (R1 : forall i, r i = 1). { intros i. destruct (HR i) as [-> | ->]; [|reflexivity]. unfold origin. cbn. field. }
  cbn [u_system fst snd]. rewrite E4. rewrite (map_same (fun t => @mkT Rnum _ _ _)).
  - replace (map (fun e => r (Z.of_nat (fst e)) * snd e) (combine (seq 0 (length b)) b)) with b.
    + destruct (S n ts b) as [x|]; [|reflexivity]. cbn. f_equal. symmetry. apply map_same. intros a. apply Rmult_1_l.
    + rewrite (map_ext _ snd) by (intros e; rewrite R1; apply Rmult_1_l).
      generalize 0%nat. clear. induction b as [|x b IH]; intros a; [reflexivity|]. cbn. f_equal. apply IH.
  - intros [i j x]. cbn. rewrite R1. f_equal. match goal with |- ?a = ?b => change (@eq R a b) end. field.
Qed.

Lemma C66_step_lemma v t S m : stepForward S (@shift_mps Rnum v t m) = converted (@shift_mps Rnum v t) (stepForward S m).
Proof.
  rewrite <- (origin_mps v t m), (u_stepForward _ (origin_proper v t) S S (origin_solver v t S)).
  destruct (stepForward S m); cbn; try reflexivity. now rewrite origin_mps.
Qed.
Lemma C66_run_lemma v t S real clk fuel st : run S real clk fuel (@shift_sim Rnum v t st) = converted (@shift_sim Rnum v t) (run S real clk fuel st).
Proof.
  rewrite <- (origin_sim v t st), (u_run _ (origin_proper v t) S S (origin_solver v t S)).
  destruct (run S real clk fuel st); cbn; try reflexivity. now rewrite origin_sim.
Qed.
Lemma C66_create_lemma v t fsin fcos pi s ps : factoryCreate fsin fcos pi (@shift_settings Rnum v t s) (map (@shift_particle Rnum v) ps) =
  converted (@shift_mps Rnum v t) (factoryCreate fsin fcos pi s ps).
Proof.
  rewrite <- (origin_settings v t s). rewrite (map_ext _ (u_particle (origin v t))) by (intros; symmetry; apply origin_particle).
  rewrite (u_factoryCreate _ (origin_proper v t)). destruct (factoryCreate _ _ _ _ _); cbn; try reflexivity. now rewrite origin_mps.
Qed.

(** ** concrete cases *)
Definition cgs : units := mkU 100 1000 1000 (@mkV Rnum 100 50 0) 0.
Lemma cgs_proper : proper_units cgs.
Proof. unfold proper_units. simpl. lra. Qed.
Lemma any_solver S S' (m : @mps Rnum) n0 c : m_calc m = Explicit n0 c -> stepForward S m = stepForward S' m.
Proof. intros E. unfold stepForward, stepPressure. rewrite E. reflexivity. Qed.
Lemma units_case : exists u (m m' : @mps Rnum), proper_units u /\ u_solver u gauss gauss /\ u_len u = 100 /\ u_time u = 1000 /\ u_mass u = 1000 /\
  m_ps m = duo /\ stepForward gauss m = Ok m' /\ stepForward gauss (u_mps u m) = Ok (u_mps u m').
Proof.
  destruct (runs duo 1 duo_indexed duo_rest) as (m & m' & RD & ES & EP & EG & EK & ST).
  assert (E : stepForward gauss m = Ok m').
  { inversion ST as [|? ? ? ? ST0 E0]; subst. inversion ST0; subst. rewrite <- E0. eapply any_solver. exact EK. }
  exists cgs, m, m'. split; [apply cgs_proper|]. split; [apply gauss_units, cgs_proper|]. do 3 (split; [reflexivity|]). split; [exact EP|]. split; [exact E|].
  rewrite (u_stepForward cgs cgs_proper gauss gauss (gauss_units cgs cgs_proper)), E. reflexivity.
Qed.
Lemma create_case : exists u (m : @mps Rnum), proper_units u /\ u_len u = 100 /\ factoryCreate id id 3 set1 duo = Ok m /\
  factoryCreate id id 3 (u_settings u set1) (map (u_particle u) duo) = Ok (u_mps u m).
Proof.
  assert (H : exists m, @factoryCreate Rnum id id 3 set1 duo = Ok m).
  { unfold factoryCreate, factoryDetector. change (s_asserts set1) with false. destruct (newRefValues_total (s_dim set1) (s_l0 set1) (s_reN set1)) as [rv E].
    rewrite E. cbn [bind]. unfold factoryCalculator. change (s_asserts set1) with false. change (s_method set1) with "Explicit"%string. cbn [String.eqb Ascii.eqb Bool.eqb]. rewrite E. cbn [bind].
    apply newMPS_total; [apply set1_usable|apply set1_fits]. }
  destruct H as [m E]. exists cgs, m. split; [apply cgs_proper|]. split; [reflexivity|]. split; [exact E|]. rewrite (u_factoryCreate cgs cgs_proper), E. reflexivity.
Qed.
Lemma units_run_case : exists u m st', proper_units u /\ u_solver u gauss gauss /\ u_len u = 100 /\ run gauss 0 tick 3 (trip m) = Ok st' /\
  run gauss 0 tick 3 (u_sim u (trip m)) = Ok (u_sim u st').
Proof.
  destruct (machine duo kex duo_indexed duo_rest) as (m & _ & RD & ES & EP & EG & EK).
  destruct (C32_completes_lemma gauss 0 tick (trip m)) as [st' E]; auto using trip_fresh, trip_clock, exact_sized, gauss_exact.
  - simpl. lra.
  - simpl. now rewrite ES.
  - simpl. intros det q K. rewrite EK in K. discriminate.
  - rewrite trip_needed. reflexivity.
  - rewrite trip_needed in E. exists cgs, m, st'. split; [apply cgs_proper|]. split; [apply gauss_units, cgs_proper|]. split; [reflexivity|]. split; [exact E|].
    rewrite (u_run cgs cgs_proper gauss gauss (gauss_units cgs cgs_proper)). change (Z.to_nat 3) with 3%nat in E. now rewrite E.
Qed.
Lemma gauss_one : exists x, gauss 1%nat [@mkT Rnum 0 0 2] [6] = Some x.
Proof.
  apply gauss_total; [reflexivity|]. intros i Hi. assert (i = 0)%nat by lia. subst. unfold GaussR.others, sum_to, matrix, entry. cbn. rewrite Rplus_0_l. rewrite Rabs_pos_eq by lra. lra.
Qed.
Lemma shift_case : exists m st', run no_solver 0 tick 3 (trip m) = Ok st' /\
  run no_solver 0 tick 3 (shift_sim (@mkV Rnum 3 (-2) 1) 7 (trip m)) = Ok (shift_sim (@mkV Rnum 3 (-2) 1) 7 st') /\ si_time st' = 1 + 3 * (1 / 100).
Proof.
  destruct trip_runs as (m & st' & _ & _ & E). exists m, st'. split; [exact E|]. split; [rewrite C66_run_lemma, E; reflexivity|].
  destruct (C32_count_lemma _ _ _ _ _ _ (trip_fresh m) ltac:(simpl; lra) E) as (_ & ET & _). rewrite trip_needed in ET. exact ET.
Qed.
End Exact.
