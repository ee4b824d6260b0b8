(** * Cases for C84: three particles in a row *)
From Coq Require Import Reals Lra PeanoNat.
From Verif Require Import GaussR StageCases SolverCases WholeCases ApartCases.
From Verif Require Export BoundR.
Open Scope R_scope.
#[local] Remove Hints F64 : typeclass_instances.

Lemma implicit_completes det (q : @ppe Rnum) rs (ps : list partR) : listed rs ps -> indexed ps -> apart ps -> q_reL q <= rs ->
  0 < q_compress q -> q_dt q <> 0 -> 0 < q_n0L q -> 0 < q_lambda q -> (0 <= q_dim q)%Z ->
  (forall p, In p ps -> p_type p <> Ghost -> p_type p <> DummyWall -> 0 < p_dens p) -> exists ps' y, implicitCalc gauss det q ps = Ok (ps', y).
Proof.
  intros L I A Hr CO DT NL LA DI DP. destruct (C28_matrix_lemma det q rs ps L I A Hr) as (ps' & d & ts & b & G & S & LN & LB & _). destruct (ppe_dominant det q rs ps ps' d ts b) as (_ & LB' & D); auto.
  assert (LN' : List.length ps' = List.length ps) by exact LN. destruct (gauss_total (List.length ps') ts b ltac:(rewrite LN'; exact LB) ltac:(rewrite LN'; exact D)) as (x & E). exists ps', (removeNegative x).
  unfold implicitCalc. rewrite G. cbn [bind]. unfold ppe_solve. rewrite S. cbn [bind]. rewrite E. reflexivity.
Qed.

(** number densities a, b, c *)
Definition row3 (a b c : R) : list partR := [ set_nd (at3 0 Fluid 4 5 1 [nb 1 1]) a; set_nd (at3 1 Fluid 5 5 (-1) [nb 0 1; nb 2 1]) b; set_nd (at3 2 Wall 6 5 0 [nb 1 1]) c ].
Section Row.
Variables a b c : R.
Lemma row3_listed : listed (3/2) (row3 a b c).
Proof. eapply listed_ext; [|exact trio_listed]. reflexivity. Qed.
Lemma row3_indexed : indexed (row3 a b c).
Proof. intros [|[|[|[|i]]]] p H; simpl in H; inv H; reflexivity. Qed.
Lemma row3_apart : apart (row3 a b c).
Proof.
  intros [|[|[|[|i]]]] [|[|[|[|j]]]] p q Hp Hq N _ _; simpl in Hp, Hq; try congruence; inv Hp; inv Hq; intros X; apply (f_equal vx) in X; simpl in X; lra.
Qed.
Lemma row3_dense : forall p, In p (row3 a b c) -> p_type p <> Ghost -> p_type p <> DummyWall -> 0 < p_dens p.
Proof. intros p H _ _. simpl in H. destruct H as [<-|[<-|[<-|[]]]]; simpl; lra. Qed.
Hypotheses (HA : 0 <= a) (HB : 0 <= b) (HC : 0 <= c).
Lemma row3_inner i p : nth_error (row3 a b c) i = Some p -> solved_for det_none (3/2) (row3 a b c) i p.
Proof using HA HB HC.
  intros H. destruct i as [|[|[|[|i]]]]; simpl in H; inv H; (split; [discriminate|]; split; [discriminate|]); unfold surface, det_none; simpl; lra.
Qed.
Lemma row3_solved : exists ps' y, implicitCalc gauss det_none ppe1 (row3 a b c) = Ok (ps', y).
Proof.
  apply (implicit_completes det_none ppe1 (3/2) _ row3_listed row3_indexed row3_apart); try (simpl; lra); [simpl; lia|exact row3_dense].
Qed.
End Row.
(** the Wall particle is compressed, the first Fluid particle two distances away is fed through the second one *)
Lemma row3_fed : fed det_none (3/2) (q_n0N ppe1) (q_reL ppe1) (row3 4 4 5) 0.
Proof.
  assert (I := row3_inner 4 4 5 ltac:(lra) ltac:(lra) ltac:(lra)).
  apply (fed_next det_none (3/2) (q_n0N ppe1) (q_reL ppe1) (row3 4 4 5) 0%nat _ 1%nat _ eq_refl (I 0%nat _ eq_refl) eq_refl); [discriminate|cbn [set_nd p_pos]; erewrite (euclid_at _ _ _ _ _ _ _ _ _ _ _ 1); simpl; lra|].
  apply (fed_next det_none (3/2) (q_n0N ppe1) (q_reL ppe1) (row3 4 4 5) 1%nat _ 2%nat _ eq_refl (I 1%nat _ eq_refl) eq_refl); [discriminate|cbn [set_nd p_pos]; erewrite (euclid_at _ _ _ _ _ _ _ _ _ _ _ 1); simpl; lra|].
  apply (fed_self det_none (3/2) (q_n0N ppe1) (q_reL ppe1) (row3 4 4 5) 2%nat _ eq_refl (I 2%nat _ eq_refl)). simpl. lra.
Qed.
Lemma row3_denser : denser det_none (3/2) (row3 4 4 4) (row3 4 4 5).
Proof.
  assert (I := row3_inner 4 4 4 ltac:(lra) ltac:(lra) ltac:(lra)). assert (J := row3_inner 4 4 5 ltac:(lra) ltac:(lra) ltac:(lra)).
  split; [reflexivity|]. intros i p q P Q. assert (X := I i p P). assert (Y := J i q Q). destruct i as [|[|[|[|i]]]]; cbn [nth_error row3] in P, Q; try discriminate; injection P as <-; injection Q as <-; (split; [reflexivity|]; split; [reflexivity|]; split; [reflexivity|]; split; [simpl; lra|tauto]).
Qed.
(** two Wall particles a fifth of the particle distance apart *)
Definition tight : list partR := [ wallR 0 2; wallR 1 (11/5) ].
Lemma tight_indexed : indexed tight.
Proof. intros [|[|[|i]]] p H; simpl in H; inv H; reflexivity. Qed.
Lemma tight_rest : at_rest tight.
Proof. intros p H. simpl in H. intuition (subst; reflexivity). Qed.
Lemma tight_dens : forall p, In p tight -> 0 < p_dens p.
Proof. intros p H. simpl in H. intuition (subst; simpl; lra). Qed.
Lemma tight_dry : dryR tight.
Proof. intros p H. simpl in H. intuition (subst; discriminate). Qed.
Lemma tight_apart : apart tight.
Proof.
  intros [|[|[|i]]] [|[|[|j]]] p q Hp Hq N _ _; simpl in Hp, Hq; try congruence; inv Hp; inv Hq; intros X; apply (f_equal vx) in X; simpl in X; lra.
Qed.
Lemma tight_far i j p q : nth_error tight i = Some p -> nth_error tight j = Some q -> i <> j -> w_spec (3/2) (euclid (p_pos p) (p_pos q)) = 13/2.
Proof.
  intros P Q N. assert (E : euclid (p_pos p) (p_pos q) = 1/5).
  { destruct i as [|[|[|i]]]; destruct j as [|[|[|j]]]; cbn [nth_error tight] in P, Q; try discriminate; try congruence; injection P as <-; injection Q as <-; unfold euclid; cbn;
      (replace (_ + _ + _) with ((1/5) ^ 2) by field; apply sqrt_pow2; lra). }
  rewrite E, w_in by lra. field.
Qed.
Lemma tight_case : exists m m', m_ps m = tight /\ ready m /\ exact_solver gauss /\ m_calc m = Implicit det_none ppe2 /\ sensible (m_calc m) (s_reMax (m_settings m)) /\ positive_compress (m_calc m) /\
  (forall p, In p (m_ps m) -> 0 < p_dens p) /\ spread m /\ stepForward gauss m = Ok m' /\
  (forall p, In p (m_ps m') -> p_type p <> Ghost -> p_type p <> DummyWall -> q_gamma ppe2 * compression (q_n0N ppe2) p <= q_compress ppe2 * (1/4)).
Proof.
  destruct (walls_complete 1 tight tight_indexed tight_rest tight_dry tight_apart tight_dens) as (m & m' & EM & RM & SM & PM & KM & HM). exists m, m'. split; [exact PM|]. split; [exact RM|]. split; [exact gauss_exact|]. split; [exact KM|].
  assert (SN : sensible (m_calc m) (s_reMax (m_settings m))) by (rewrite KM, SM; simpl; repeat split; lra). split; [exact SN|]. split; [rewrite KM; simpl; split; [lra|lia]|].
  assert (DN : forall p, In p (m_ps m) -> 0 < p_dens p) by (rewrite PM; exact tight_dens). split; [exact DN|]. assert (D : dryR (m_ps m)) by (rewrite PM; exact tight_dry).
  assert (SP : spread m) by (apply stands_spread; [exact D|rewrite PM; exact tight_apart]). split; [exact SP|].
  inversion HM as [|k a b c HM1 H]; subst. inversion HM1; subst. split; [exact H|].
  destruct (step_stages gauss b m' RM gauss_exact SN DN H) as (aa & u & u1 & v & c1 & e & (n1 & n2 & n3 & n4 & H1 & _ & H2 & H3 & F) & _ & _ & _ & _ & _ & ST).
  destruct (ST (SP _ _ _ _ _ _ H1 H2 H3)) as ((LE & CT) & _ & (LC & CR)).
  assert (SC : stands tight c1).
  { rewrite <- PM. assert (E1 := move_stands _ _ _ H1). assert (D1 := stands_dry _ _ E1 D). assert (E2 := collide_stands _ _ _ _ _ D1 H2). eapply stands_trans; [exact E1|]. eapply stands_trans; [exact E2|]. exact (setNeighbors_evolves _ _ _ _ H3). }
  intros p Hp G _. apply In_nth_error in Hp. destruct Hp as (i & Hp). destruct (nth_error e i) as [p1|] eqn:P1; [|apply nth_error_None in P1; assert (i < List.length (m_ps m'))%nat by (apply nth_error_Some; congruence); lia].
  destruct (CR i p1 P1) as (p' & P' & T1 & _ & _ & N1 & _). assert (p' = p) by congruence. subst p'.
  destruct (nth_error c1 i) as [p0|] eqn:P0; [|apply nth_error_None in P0; assert (i < List.length e)%nat by (apply nth_error_Some; congruence); lia].
  destruct (CT i p0 P0) as (p' & P'' & T0 & _ & _ & _ & _ & ND). assert (p' = p1) by congruence. subst p'.
  assert (NV : p_nd p <= 13/2).
  { rewrite N1, ND by congruence. rewrite SM. cbn [s_reN set1].
    assert (W : forall j r, nth_error c1 j = Some r -> j <> i -> w_spec (3/2) (euclid (p_pos p0) (p_pos r)) = 13/2).
    { intros j r R N. destruct (stands_pos _ _ _ _ tight_dry SC P0) as (x & X & -> & _). destruct (stands_pos _ _ _ _ tight_dry SC R) as (y & Y & -> & _). exact (tight_far i j x y X Y (fun e => N (eq_sym e))). }
    assert (LN : List.length c1 = 2%nat) by (symmetry; exact (Forall2_length _ _ _ SC)).
    unfold sum_others. rewrite LN. cbn [seq map rsum fold_right]. 
    assert (I : (i < 2)%nat) by (rewrite <- LN; apply nth_error_Some; congruence).
    destruct c1 as [|r0 [|r1 [|r2 c1]]]; try discriminate. assert (W0 := W 0%nat r0 eq_refl). assert (W1 := W 1%nat r1 eq_refl). cbn [nth_error].
    destruct i as [|[|i]]; [| |lia].
    - rewrite (W1 ltac:(discriminate)). cbn [Nat.eqb orb]. destruct (p_type r1 =? Ghost)%Z; unfold rsum; cbn [fold_right]; lra.
    - rewrite (W0 ltac:(discriminate)). cbn [Nat.eqb orb]. destruct (p_type r0 =? Ghost)%Z; unfold rsum; cbn [fold_right]; lra. }
  unfold compression. simpl. simpl in NV. lra.
Qed.
