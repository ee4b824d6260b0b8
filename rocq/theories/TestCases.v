(** * The tests of the repository as they are, and inputs on which they would fail *)
From Coq Require Import Reals Lra.
From Flocq Require Import Core IEEE754.BinarySingleNaN.
From Verif Require Import NeighborMargin.
From Verif Require Export NeighborCases TestFacts TestRef FilesCases.
Open Scope list_scope.
Open Scope Z_scope.
#[local] Remove Hints Rnum : typeclass_instances.

Definition tenth : f64 := bits 0x3fb999999999999a.  (* 0.1 *)
Definition fifth : f64 := bits 0x3fc999999999999a.  (* 0.2 *)
Definition mm8 : f64 := bits 0x3f80624dd2f1a9fc.    (* 0.008 *)

Lemma double_eq_ok (x y : f64) : match encoding x, encoding y with Some a, Some b => Z.abs (a - b) <=? 4 | _, _ => false end = true -> double_eq x y.
Proof. unfold double_eq. destruct (encoding x) as [a|], (encoding y) as [b|]; try discriminate. intros H. apply Z.leb_le in H. exists a, b. auto. Qed.

(** ** test/weight_test.cpp:5-13 *)
Lemma weight_test : exists w1 w2 w3, @weight F64 true (fq 1 2) (fz 1) = Ok w1 /\ double_eq w1 (fz 1) /\
  @weight F64 true (fz 1) (fz 1) = Ok w2 /\ double_eq w2 (fz 0) /\ @weight F64 true (fq 3 2) (fz 1) = Ok w3 /\ double_eq w3 (fz 0).
Proof.
  exists (fz 1), (fz 0), (fz 0). split; [|split; [apply double_eq_ok; reflexivity|]]; [|split; [|split; [apply double_eq_ok; reflexivity|split; [|apply double_eq_ok; reflexivity]]]].
  - apply weight_half; [reflexivity|]. replace (F2r (fz 1)) with 1%R by (vm_compute; lra). change 1%R with (b2 0). apply bpow_le. lia.
  - apply weight_beyond; vm_compute; reflexivity.
  - apply weight_beyond; vm_compute; reflexivity.
Qed.

(** ** test/refvalues_test.cpp:7-30 *)
Definition near4 (x y : f64) : bool := match encoding x, encoding y with Some a, Some b => Z.abs (a - b) <=? 4 | _, _ => false end.
Definition ref_check (dim a b : Z) (l0 : f64) : option bool :=
  let re := radius_of_test l0 in
  match @newRefValues F64 true dim l0 re, @weight F64 true l0 re, @weight F64 true (@nmul F64 (@nsqrt F64 (@nofZ F64 2)) l0) re with
  | Ok rv, Ok w1, Ok w2 => Some (near4 (rv_n0 rv) (n0_expected a b l0 w1 w2) && near4 (rv_lambda rv) (lambda_expected a b l0 w1 w2))
  | _, _, _ => None
  end.
Lemma near4_iff x y : near4 x y = true <-> double_eq x y.
Proof.
  split; [apply double_eq_ok|]. intros (a & b & A & B & C). unfold near4. rewrite A, B. now apply Z.leb_le.
Qed.
Lemma ref_check_ok dim a b l0 : ref_check dim a b l0 = Some true <-> reference_test dim a b l0.
Proof.
  unfold ref_check, reference_test. set (re := radius_of_test l0). cbv zeta.
  destruct (@newRefValues F64 true dim l0 re) as [rv| | | | |]; [|split; [discriminate|intros (? & ? & ? & ? & _); discriminate]..].
  destruct (@weight F64 true l0 re) as [w1| | | | |]; [|split; [discriminate|intros (? & ? & ? & ? & ? & _); discriminate]..].
  destruct (@weight F64 true (@nmul F64 (@nsqrt F64 (@nofZ F64 2)) l0) re) as [w2| | | | |]; [|split; [discriminate|intros (? & ? & ? & ? & ? & ? & _); discriminate]..].
  split.
  - intros [= H]. apply andb_true_iff in H. exists rv, w1, w2. rewrite <- !near4_iff. repeat (split; [reflexivity|]). exact H.
  - intros (r & u & v & [= <-] & [= <-] & [= <-] & A & B). apply near4_iff in A, B. now rewrite A, B.
Qed.
Lemma ref2 : reference_test 2 4 4 tenth. Proof. apply ref_check_ok. vm_compute. reflexivity. Qed.
Lemma ref3 : reference_test 3 6 12 tenth. Proof. apply ref_check_ok. vm_compute. reflexivity. Qed.
Lemma ref3_fails : ~ reference_test 3 6 12 mm8.
Proof. rewrite <- ref_check_ok. assert (E : ref_check 3 6 12 mm8 = Some false) by (vm_compute; reflexivity). rewrite E. discriminate. Qed.

(** ** test/neighbor_searcher_test.cpp:8-51: the domain and radius of the test, and two
    particles at the distance 0.1 *)
Definition yard : domF := @mkDom F64 (fz 0) (fz 1) (fz 0) (fz 2) (fz 0) (fz 0) (@nsub F64 (fz 1) (fz 0)) (@nsub F64 (fz 2) (fz 0)) (@nsub F64 (fz 0) (fz 0)).
Definition six : f64 := bits 0x3faeb851eb851eb8.    (* 0.06 *)
Definition eight : f64 := bits 0x3fb47ae147ae147b.  (* 0.08 *)
Definition spot (id : Z) (x y : f64) : partF := @newParticle F64 id Fluid (@mkV F64 x y (fz 0)) (@vzero F64) (fz 1) 0.
Definition two : list partF := [spot 0 (fz 0) (fz 0); spot 1 six eight].
Lemma yard_proper : proper_domainF yard.
Proof. repeat split; vm_compute; reflexivity. Qed.
Lemma tenth_radius : radiusF tenth.
Proof. split; vm_compute; reflexivity. Qed.
Lemma tenth_range : (b2 (-500) <= F2r tenth <= b2 500)%R.
Proof.
  assert (E : F2r tenth = (IZR 7205759403792794 * b2 (-56))%R).
  { rewrite F2r_sf. unfold sf_val. vm_compute B2SF. unfold SF2R, F2R. reflexivity. }
  rewrite E. split.
  - apply Rle_trans with (1 * b2 (-56))%R; [rewrite Rmult_1_l; apply bpow_le; lia|]. apply Rmult_le_compat_r; [left; apply bpow_gt_0|]. simpl; lra.
  - apply Rle_trans with (b2 100 * b2 (-56))%R; [|rewrite <- bpow_plus; apply bpow_le; lia].
    apply Rmult_le_compat_r; [left; apply bpow_gt_0|]. simpl; lra.
Qed.
Lemma two_indexed : indexed two.
Proof. intros [|[|[|i]]] p H; simpl in H; inv H; reflexivity. Qed.
Lemma two_numeric : numeric two.
Proof. intros p [<-|[<-|[]]] _; repeat split; vm_compute; reflexivity. Qed.
Lemma yard_searcher n : exists ns, newSearcher tenth yard n = Ok ns.
Proof.
  apply newSearcher_total with 10%Z 20%Z 0%Z; try (vm_compute; reflexivity); try lia.
  intros; vm_compute; discriminate.
Qed.
Lemma two_run : exists ns ns' p q, @newSearcher F64 tenth yard 2 = Ok ns /\ @setNeighbors F64 ns two = Ok (ns', [p; q]) /\
  p_nbrs p = [] /\ brute_force tenth [p; q] 0 p 1.
Proof.
  destruct (yard_searcher 2) as [ns E1].
  assert (U : @used_searcher F64 tenth yard (List.length two) ns) by (apply used_new; exact E1).
  destruct (@setNeighbors F64 ns two) as [[ns' ps']| | | | |] eqn:E2.
  2-6: destruct (run_F _ _ _ _ tenth_radius yard_proper U two_indexed two_numeric) as (_ & _ & _ & _ & ns' & E); congruence.
  destruct (search_frame _ _ _ _ _ _ U E2) as [L H].
  destruct ps' as [|p [|q [|? ?]]]; try discriminate L.
  destruct (H 0%nat _ eq_refl) as (p' & P1 & _ & _ & P2). injection P1 as <-.
  destruct (H 1%nat _ eq_refl) as (q' & Q1 & _ & _ & Q2). injection Q1 as <-.
  destruct P2 as [lp P2]; [discriminate|apply inDomain_outside; vm_compute; reflexivity|].
  destruct Q2 as [lq Q2]; [discriminate|apply inDomain_outside; vm_compute; reflexivity|].
  assert (B : match @newSearcher F64 tenth yard 2 with
              | Ok ns => match @setNeighbors F64 ns two with
                         | Ok (_, [p; q]) => match p_nbrs p with [] => true | _ => false end
                         | _ => false end
              | _ => false end = true) by (vm_compute; reflexivity).
  rewrite E1, E2 in B. exists ns, ns', p, q. subst p q. cbn [p_nbrs set_nbrs] in B.
  destruct lp; [|discriminate B]. split; [exact E1|]. split; [exact E2|]. split; [reflexivity|].
  exists 1%nat. eexists. split; [reflexivity|]. split; [reflexivity|]. split; [discriminate|]. cbn [p_pos set_nbrs spot newParticle]. vm_compute. reflexivity.
Qed.
Lemma neighbour_test_fails : exists re d ns (ps : list partF) ns' ps' i j p,
  radiusF re /\ proper_domainF d /\ @newSearcher F64 re d (List.length ps) = Ok ns /\ indexed ps /\ numeric ps /\
  @setNeighbors F64 ns ps = Ok (ns', ps') /\ nth_error ps' i = Some p /\ brute_force re ps' i p j /\ ~ In j (map nb_id (p_nbrs p)).
Proof.
  destruct two_run as (ns & ns' & p & q & H1 & H2 & H3 & H4). exists tenth, yard, ns, two, ns', [p; q], 0%nat, 1, p. rewrite H3.
  exact (conj tenth_radius (conj yard_proper (conj H1 (conj two_indexed (conj two_numeric (conj H2 (conj eq_refl (conj H4 (fun f => f))))))))).
Qed.

(** ** test/vtu_loader.cpp:26-61 *)
Definition all (x : f64) : @vec F64 := @mkV F64 x x x.
Definition written : list Files.particle :=
  [newParticle 0 Fluid (all (fz 0)) (all tenth) (fz 2000) 1; newParticle 1 Fluid (all (fz 1)) (all fifth) (fz (-1)) 2].
Definition feqb (x y : f64) : bool := @nle F64 x y && @nle F64 y x.
Definition veqb (x y : @vec F64) : bool := feqb (vx x) (vx y) && feqb (vy x) (vy y) && feqb (vz x) (vz y).
Definition peqb (p q : Files.particle) : bool := (p_id q =? p_id p) && (p_type q =? p_type p) && veqb (p_pos q) (p_pos p) && veqb (p_vel q) (p_vel p).
Fixpoint leqb (l k : list Files.particle) : bool :=
  match l, k with [], [] => true | p :: l, q :: k => peqb p q && leqb l k | _, _ => false end.
Lemma feqb_iff x y : feqb x y = true <-> num_eq x y. Proof. apply andb_true_iff. Qed.
Lemma veqb_iff x y : veqb x y = true <-> vec_eq x y. Proof. unfold veqb, vec_eq. rewrite !andb_true_iff, !feqb_iff. tauto. Qed.
Lemma leqb_iff l : forall k, leqb l k = true <-> loads_back l k.
Proof.
  induction l as [|p l IH]; intros [|q k]; cbn [leqb]; try (split; [discriminate|intros H; inversion H]).
  - split; [constructor|reflexivity].
  - rewrite andb_true_iff, IH. unfold peqb. rewrite !andb_true_iff, !veqb_iff, !Z.eqb_eq. split.
    + intros ((((A & B) & C) & D) & E). constructor; auto.
    + intros H. inversion H; subst. tauto.
Qed.
Definition vtu_check (t : f64) (l : list Files.particle) : option bool :=
  match vtu_load true (fz 1000) (toVtuAscii false t (fz 1) l) with Ok (t', l') => Some (feqb t' t && leqb l l') | _ => None end.
Lemma vtu_check_true t l : vtu_check t l = Some true -> exists t' l', vtu_load true (fz 1000) (toVtuAscii false t (fz 1) l) = Ok (t', l') /\ num_eq t' t /\ loads_back l l'.
Proof.
  unfold vtu_check. destruct (vtu_load true (fz 1000) (toVtuAscii false t (fz 1) l)) as [[t' l']| | | | |]; try discriminate. intros [= H]. apply andb_true_iff in H as [A B].
  exists t', l'. split; [reflexivity|]. split; [now apply feqb_iff|now apply leqb_iff].
Qed.
Lemma vtu_check_false t l : match vtu_load true (fz 1000) (toVtuAscii false t (fz 1) l) with Ok (t', l') => leqb l l' = false | _ => False end ->
  exists t' l', vtu_load true (fz 1000) (toVtuAscii false t (fz 1) l) = Ok (t', l') /\ ~ loads_back l l'.
Proof.
  destruct (vtu_load true (fz 1000) (toVtuAscii false t (fz 1) l)) as [[t' l']| | | | |]; try contradiction. intros H. exists t', l'. split; [reflexivity|]. rewrite <- leqb_iff. congruence.
Qed.
Lemma vtu_test : exists t l, vtu_load true (fz 1000) (toVtuAscii false (fz 0) (fz 1) written) = Ok (t, l) /\ num_eq t (fz 0) /\ loads_back written l.
Proof. apply vtu_check_true. vm_compute. reflexivity. Qed.
(** the same particles displaced by 1/3 *)
Definition moved : list Files.particle :=
  [newParticle 0 Fluid (all (fq 1 3)) (all tenth) (fz 2000) 1; newParticle 1 Fluid (all (fq 4 3)) (all fifth) (fz (-1)) 2].
Lemma vtu_test_fails : exists t l, vtu_load true (fz 1000) (toVtuAscii false (fz 0) (fz 1) moved) = Ok (t, l) /\ ~ loads_back moved l.
Proof. apply vtu_check_false. vm_compute. reflexivity. Qed.
Lemma reference_fails : exists l0 : f64, fin l0 = true /\ (/ 1000 < F2r l0 < / 100)%R /\ ~ reference_test 3 6 12 l0.
Proof.
  exists mm8. split; [reflexivity|]. split; [|exact ref3_fails].
  assert (E : F2r mm8 = (IZR 4611686018427388 * b2 (-59))%R).
  { rewrite F2r_sf. unfold sf_val. vm_compute B2SF. unfold SF2R, F2R. reflexivity. }
  rewrite E. simpl. lra.
Qed.
