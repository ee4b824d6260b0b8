(** * Cases for the statements in doubles *)
From Coq Require Import Reals Lra String.
From Flocq Require Import Core.
From Verif Require Export StepFCases ExplicitF CourantF NeighborThms.
#[local] Remove Hints Rnum : typeclass_instances.

(** the lists built by the search are mutual *)
Lemma search_mutual re d ns (ps : list partF) : radiusF re -> proper_domainF d -> @used_searcher F64 re d (List.length ps) ns -> indexed ps -> numeric ps ->
  exists ns' ps', setNeighbors ns ps = Ok (ns', ps') /\ mutual ps'.
Proof.
  intros A B C D E. destruct (C02_lemma_F re d ns ps A B C D E) as (n1 & p1 & E1 & H1). destruct (C03_lemma_F re d ns ps A B C D E) as (n2 & p2 & E2 & H2).
  rewrite E1 in E2. inv E2. exists n2, p2. split; auto. intros i p nb Hp T Hin. destruct (H1 i p Hp T) as [_ K]. destruct (K nb Hin) as (j & q & Ej & N & Hq & Tq).
  exists j, q. repeat split; auto. eapply H2; eauto. rewrite <- Ej. destruct nb; auto.
Qed.

Definition c3 := @nofZ F64 3.
Definition c1 := @nofZ F64 1.
Definition c2 := @nofZ F64 2.
Definition duo : list (@particle F64) :=
  [ @set_nd F64 (@set_press F64 (@set_nbrs F64 (pf 0 Fluid c00 c00) [@mkNb F64 1 c1]) c3) c3;
    @set_nd F64 (@set_press F64 (@set_nbrs F64 (pf 1 Wall c1 c00) [@mkNb F64 0 c1]) c1) c1 ].
Lemma duo_indexed : indexed duo.
Proof. intros [|[|[|i]]] p H; simpl in H; inv H; reflexivity. Qed.
Lemma duo_mutual : mutual duo.
Proof.
  intros [|[|[|i]]] p nb H T I; simpl in H; inv H; destruct I as [<-|[]].
  - exists 1%nat. eexists. split; [reflexivity|]. split; [discriminate|]. split; [reflexivity|]. split; [discriminate|]. left. reflexivity.
  - exists 0%nat. eexists. split; [reflexivity|]. split; [discriminate|]. split; [reflexivity|]. split; [discriminate|]. left. reflexivity.
Qed.
Lemma duo_pressures p : In p duo -> numberF (p_press p).
Proof. intros [<-|[<-|[]]]; reflexivity. Qed.
Ltac value x := rewrite <- SF2R_B2SF; let v := eval vm_compute in (B2SF x) in replace (B2SF x) with v by (vm_compute; reflexivity); unfold SF2R, F2R; simpl; lra.
Lemma small_within x : (1 <= x <= 1000)%R -> ranged 100 x.
Proof.
  intros [A B]. split.
  - apply Rle_trans with 1%R; auto. change 1%R with (bpow radix2 0). apply bpow_le. lia.
  - apply Rle_trans with (bpow radix2 10); [simpl; lra|apply bpow_le; lia].
Qed.
Lemma accuracy_case : exists p, In p duo /\ fin c2 = true /\ fin c3 = true /\ fin (p_dens p) = true /\ fin (p_nd p) = true /\
  ranged 100 (F2r c2) /\ ranged 100 (Rabs (F2r c3)) /\ ranged 100 (F2r (p_dens p)) /\ ranged 100 (F2r (p_nd p)) /\ p_type p <> Ghost /\ (F2r c2 < F2r (p_nd p))%R.
Proof.
  assert (E2 : F2r c2 = 2%R) by (value c2). assert (E3 : F2r c3 = 3%R) by (value c3). assert (ED : F2r (@nofZ F64 1000) = 1000%R) by (value (@nofZ F64 1000)).
  assert (R2 : ranged 100 (F2r c2)) by (apply small_within; rewrite E2; lra).
  assert (R3 : ranged 100 (F2r c3)) by (apply small_within; rewrite E3; lra).
  assert (R3' : ranged 100 (Rabs (F2r c3))) by (apply small_within; rewrite E3, Rabs_pos_eq; lra).
  assert (RD : ranged 100 (F2r (@nofZ F64 1000))) by (apply small_within; rewrite ED; lra).
  assert (L : (F2r c2 < F2r c3)%R) by (rewrite E2, E3; lra).
  exists (nth 0 duo (pf 0 Ghost c00 c00)). split; [left; reflexivity|].
  refine (conj eq_refl (conj eq_refl (conj eq_refl (conj eq_refl (conj R2 (conj R3' (conj RD (conj R3 (conj _ L))))))))). discriminate.
Qed.
Lemma planar_case : exists m m' : @mps F64, steps solver0 1 m m' /\ sound m /\ zero_or_nan (vz (m_gravity m)) /\ planarF (m_ps m).
Proof.
  assert (B : match machineF "Explicit" with Ok m => match (vz (m_gravity m) : f64) with B754_zero _ => true | _ => false end | _ => false end = true) by (vm_compute; reflexivity).
  destruct (cross_step "Explicit" (or_intror eq_refl)) as (m & m' & E & SD & EP & _ & _ & H). rewrite E in B. exists m, m'. split; [exact H|]. split; [exact SD|]. split.
  - left. destruct (vz (m_gravity m) : f64) as [s| | |] eqn:G; try discriminate B. exists s. reflexivity.
  - rewrite EP. intros p Hp. simpl in Hp. intuition (subst; left; exists false; reflexivity).
Qed.
