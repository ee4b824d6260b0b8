(** * Concrete cases for the neighbour search theorems *)
From Coq Require Import Reals Lra.
From Flocq Require Import Core.
From Verif Require Export NeighborThms.
Open Scope R_scope.

(** a 2 x 2 box, radius 1, two particles in range of each other and one outside *)
Definition case_dom : domR := @mkDom Rnum 0 2 0 2 0 0 2 2 0.
Definition case_ps : list partR :=
  [ @newParticle Rnum 0 Fluid (@mkV Rnum 1 1 0) (@vzero Rnum) 1000 0;
    @newParticle Rnum 1 Wall (@mkV Rnum (3/2) 1 0) (@vzero Rnum) 1000 0;
    @newParticle Rnum 2 Fluid (@mkV Rnum 3 1 0) (@vzero Rnum) 1000 0 ].

Lemma case_proper : proper_domain case_dom.
Proof. unfold proper_domain, case_dom; simpl. lra. Qed.
Lemma case_indexed : indexed case_ps.
Proof. intros [|[|[|[|i]]]] p H; simpl in H; inv H; reflexivity. Qed.
Lemma case_fits : ((Zfloor (xLength case_dom / 1) + 3) * (Zfloor (yLength case_dom / 1) + 3) * (Zfloor (zLength case_dom / 1) + 3) <= int_max)%Z.
Proof.
  simpl. replace (2 / 1) with (IZR 2) by lra. replace (0 / 1) with (IZR 0) by lra. rewrite !Zfloor_IZR. unfold int_max. lia.
Qed.
Lemma case_searcher n : exists ns, @used_searcher Rnum 1 case_dom n ns.
Proof.
  destruct (C04_lemma_R 1 case_dom n ltac:(lra) case_proper case_fits) as ((ns & E) & _). exists ns. now apply used_new.
Qed.

(** dam-break domain of the shipped input (settings.yml), radius 3.1 * 0.025, in doubles *)
Definition m01 : f64 := bits 0xbfb999999999999a.  (* -0.1 *)
Definition c11 : f64 := bits 0x3ff199999999999a.  (* 1.1 *)
Definition c20 : f64 := bits 0x4000000000000000.  (* 2.0 *)
Definition c00 : f64 := bits 0.
Definition dam : domF := @mkDom F64 m01 c11 m01 c20 c00 c00 (@nsub F64 c11 m01) (@nsub F64 c20 m01) (@nsub F64 c00 c00).
Definition re31 : f64 := bits 0x3fb3d70a3d70a3d8.  (* 0.07750000000000001 = 3.1 * 0.025 *)
Definition ya : f64 := bits 0x3ffea3d70a3d70a5.    (* 1.9150000000000003 *)
Definition yb : f64 := bits 0x3fffe147ae147ae2.    (* 1.9925000000000002 *)

Definition pt (id : Z) (t : Z) (y : f64) : partF := @newParticle F64 id t (@mkV F64 c00 y c00) (@vzero F64) (@nofZ F64 1000) 0.
Definition missed : list partF := [ pt 0 Fluid ya; pt 1 Fluid yb ].

Lemma dam_proper : proper_domainF dam.
Proof. repeat split; vm_compute; reflexivity. Qed.
Lemma re31_radius : radiusF re31.
Proof. split; vm_compute; reflexivity. Qed.
Lemma missed_indexed : indexed missed.
Proof. intros [|[|[|i]]] p H; simpl in H; inv H; reflexivity. Qed.
Lemma missed_numeric : numeric missed.
Proof. intros p [<-|[<-|[]]] _; repeat split; vm_compute; reflexivity. Qed.

Definition sf_val (x : f64) : R := SF2R radix2 (B2SF x).
Lemma F2r_sf (x : f64) : F2r x = sf_val x.
Proof. unfold sf_val. now rewrite SF2R_B2SF. Qed.

Definition ok_of {A} (o : outcome A) (dflt : A) : A := match o with Ok a => a | _ => dflt end.

Lemma dam_searcher n : exists ns, newSearcher re31 dam n = Ok ns.
Proof.
  apply newSearcher_total with 15%Z 27%Z 0%Z; try (vm_compute; reflexivity); try lia.
  intros; vm_compute; discriminate.
Qed.

Lemma re31_range : b2 (-500) <= F2r re31 <= b2 500.
Proof.
  assert (E : F2r re31 = IZR 5584463537939416 * b2 (-56)).
  { rewrite F2r_sf. unfold sf_val. vm_compute B2SF. unfold SF2R, F2R. reflexivity. }
  rewrite E. split.
  - apply Rle_trans with (1 * b2 (-56)); [rewrite Rmult_1_l; apply bpow_le; lia|].
    apply Rmult_le_compat_r; [left; apply bpow_gt_0|]. lra.
  - apply Rle_trans with (b2 100 * b2 (-56)); [|rewrite <- bpow_plus; apply bpow_le; lia].
    apply Rmult_le_compat_r; [left; apply bpow_gt_0|]. simpl; lra.
Qed.

(** the pair is closer than the radius ... *)
Lemma missed_close : edistF (@mkV F64 c00 ya c00) (@mkV F64 c00 yb c00) < F2r re31.
Proof.
  unfold edistF. cbn [vx vy vz].
  assert (E0 : F2r c00 = 0) by reflexivity.
  assert (E1 : F2r ya = IZR 8624393286414501 * b2 (-52)).
  { rewrite F2r_sf. unfold sf_val. vm_compute B2SF. unfold SF2R, F2R. reflexivity. }
  assert (E2 : F2r yb = IZR 8973422257535714 * b2 (-52)).
  { rewrite F2r_sf. unfold sf_val. vm_compute B2SF. unfold SF2R, F2R. reflexivity. }
  assert (E3 : F2r re31 = IZR 5584463537939416 * b2 (-56)).
  { rewrite F2r_sf. unfold sf_val. vm_compute B2SF. unfold SF2R, F2R. reflexivity. }
  rewrite E0, E1, E2, E3. replace (b2 (-52)) with (16 * b2 (-56)) by (simpl; lra).
  assert (P : 0 < b2 (-56)) by apply bpow_gt_0.
  apply Rlt_le_trans with (sqrt ((5584463537939415 + 1 / 2) * b2 (-56) * ((5584463537939415 + 1 / 2) * b2 (-56)))).
  - apply sqrt_lt_1_alt. split.
    + repeat apply Rplus_le_le_0_compat; apply pow2_ge_0.
    + match goal with |- ?a < _ => replace a with ((5584463537939408 * b2 (-56)) ^ 2) by ring end. nra.
  - rewrite sqrt_square; [nra|]. nra.
Qed.

(** ... and the search does not find it *)
Lemma missed_run : exists ns ns' p q, @newSearcher F64 re31 dam 2 = Ok ns /\ @setNeighbors F64 ns missed = Ok (ns', [p; q]) /\
  p_type p = Fluid /\ p_type q = Fluid /\ p_pos p = @mkV F64 c00 ya c00 /\ p_pos q = @mkV F64 c00 yb c00 /\ p_nbrs p = [] /\ p_nbrs q = [].
Proof.
  destruct (dam_searcher 2) as [ns E1].
  assert (U : @used_searcher F64 re31 dam (List.length missed) ns) by (apply used_new; exact E1).
  destruct (@setNeighbors F64 ns missed) as [[ns' ps']| | | | |] eqn:E2.
  2-6: destruct (run_F _ _ _ _ re31_radius dam_proper U missed_indexed missed_numeric) as (_ & _ & _ & _ & ns' & E); congruence.
  destruct (search_frame _ _ _ _ _ _ U E2) as [L H].
  destruct ps' as [|p [|q [|? ?]]]; try discriminate L.
  destruct (H 0%nat _ eq_refl) as (p' & P1 & _ & _ & P2). injection P1 as <-.
  destruct (H 1%nat _ eq_refl) as (q' & Q1 & _ & _ & Q2). injection Q1 as <-.
  destruct P2 as [lp P2]; [discriminate|apply inDomain_outside; vm_compute; reflexivity|].
  destruct Q2 as [lq Q2]; [discriminate|apply inDomain_outside; vm_compute; reflexivity|].
  assert (B : match @newSearcher F64 re31 dam 2 with
              | Ok ns => match @setNeighbors F64 ns missed with
                         | Ok (_, [p; q]) => match p_nbrs p, p_nbrs q with [], [] => true | _, _ => false end
                         | _ => false end
              | _ => false end = true) by (vm_compute; reflexivity).
  rewrite E1, E2 in B. exists ns, ns', p, q. subst p q. cbn [p_nbrs set_nbrs] in B.
  destruct lp; [|discriminate B]. destruct lq; [|discriminate B]. repeat split; auto.
Qed.

(** a particle whose y coordinate is NaN *)
Definition cNaN : f64 := bits 0x7ff8000000000000.
Definition lost : list partF := [ pt 0 Fluid ya; pt 1 Fluid cNaN ].
Lemma lost_run : exists ns, @newSearcher F64 re31 dam 2 = Ok ns /\ @setNeighbors F64 ns lost = Undef BadCast.
Proof.
  destruct (dam_searcher 2) as [ns E1].
  exists ns. split; auto.
  assert (B : match @newSearcher F64 re31 dam 2 with
              | Ok ns => match @setNeighbors F64 ns lost with Undef BadCast => true | _ => false end
              | _ => false end = true) by (vm_compute; reflexivity).
  rewrite E1 in B. destruct (@setNeighbors F64 ns lost) as [|[]| | | |]; try discriminate B; reflexivity.
Qed.

Lemma dam_fits : fin (@ndiv F64 (xLength dam) re31) = true /\ fin (@ndiv F64 (yLength dam) re31) = true /\ fin (@ndiv F64 (zLength dam) re31) = true /\
  ((Zfloor (F2r (@ndiv F64 (xLength dam) re31)) + 3) * (Zfloor (F2r (@ndiv F64 (yLength dam) re31)) + 3) * (Zfloor (F2r (@ndiv F64 (zLength dam) re31)) + 3) <= int_max)%Z.
Proof.
  split; [vm_compute; reflexivity|]. split; [vm_compute; reflexivity|]. split; [vm_compute; reflexivity|].
  assert (X : forall x : f64, (0 <=? Btrunc x)%Z = true -> fin x = true -> 0 <= F2r x -> Zfloor (F2r x) = Btrunc x).
  { intros x _ _ Hx. rewrite Btrunc_Ztrunc, Ztrunc_floor by auto. reflexivity. }
  assert (P : forall x : f64, Bsign x = false -> 0 <= F2r x).
  { intros [s|s| |s m e B] Hs; simpl in *; try lra. subst. apply F2R_ge_0. simpl. lia. }
  rewrite !X; try (apply P; vm_compute; reflexivity); try (vm_compute; reflexivity).
  vm_compute; discriminate.
Qed.

Lemma two_histories : exists ns1 ns2, @newSearcher F64 re31 dam 2 = Ok ns1 /\ @used_searcher F64 re31 dam 2 ns1 /\ @used_searcher F64 re31 dam 2 ns2 /\ ns1 <> ns2.
Proof.
  destruct missed_run as (ns & ns' & p & q & H1 & H2 & _). exists ns, ns'.
  split; auto. split; [now apply used_new|]. split.
  - apply used_call with ns missed [p; q]; [apply used_new; exact H1|reflexivity|exact H2].
  - intros E. subst ns'.
    assert (B : match @newSearcher F64 re31 dam 2 with
              | Ok ns => match @setNeighbors F64 ns missed with
                         | Ok (ns', _) => existsb (fun k => negb (nth k (b_first (ns_bucket ns)) 0 =? nth k (b_first (ns_bucket ns')) 0)%Z) (seq 0 2000)
                         | _ => false end
              | _ => false end = true) by (vm_compute; reflexivity).
    rewrite H1, H2 in B. apply existsb_exists in B. destruct B as (k & _ & B). rewrite Z.eqb_refl in B. discriminate B.
Qed.

Lemma C07_refuted_lemma :
  exists re d ns ps ns' p q,
    radiusF re /\ proper_domainF d /\ @newSearcher F64 re d (List.length ps) = Ok ns /\ indexed ps /\ numeric ps /\
    @setNeighbors F64 ns ps = Ok (ns', [p; q]) /\ p_type p = Fluid /\ p_type q = Fluid /\
    edistF (p_pos p) (p_pos q) < F2r re /\ ~ In 1%Z (map nb_id (p_nbrs p)) /\ ~ In 0%Z (map nb_id (p_nbrs q)).
Proof.
  destruct missed_run as (ns & ns' & p & q & H1 & H2 & H3 & H4 & H5 & H6 & H7 & H8).
  exists re31, dam, ns, missed, ns', p, q. rewrite H5, H6, H7, H8.
  exact (conj re31_radius (conj dam_proper (conj H1 (conj missed_indexed (conj missed_numeric (conj H2 (conj H3 (conj H4
    (conj missed_close (conj (fun f => f) (fun f => f))))))))))).
Qed.

Lemma C46_refuted_lemma :
  exists re d ns ps, radiusF re /\ proper_domainF d /\ @newSearcher F64 re d (List.length ps) = Ok ns /\ indexed ps /\
    @setNeighbors F64 ns ps = Undef BadCast.
Proof.
  destruct lost_run as (ns & H1 & H2). exists re31, dam, ns, lost.
  split; [exact re31_radius|]. split; [exact dam_proper|]. split; [exact H1|]. split; [|exact H2].
  intros [|[|[|i]]] p H; simpl in H; inv H; reflexivity.
Qed.
