(** * Concrete cases: lattices, collisions, pressure systems *)
From Coq Require Import Reals Lra Permutation.
From Flocq Require Import Core.
From Verif Require Export StageCases.
Open Scope R_scope.
#[local] Remove Hints F64 : typeclass_instances.

(** ** a part of the plane lattice that contains the box of half width m *)
Definition plane (m : Z) : list (Z * Z * Z) :=
  filter (fun c => negb ((fst (fst c) =? 0) && (snd (fst c) =? 0))%Z)
    (flat_map (fun a => map (fun b => (a, b, 0%Z)) (zrange (- m) (m + 1))) (zrange (- m) (m + 1))).
Lemma plane_part m : lattice_part 2 m (plane m).
Proof.
  assert (IN : forall c, In c (plane m) <-> c <> (0, 0, 0)%Z /\ snd c = 0%Z /\ within m c \/ False).
  { intros [[a b] e]. unfold plane. rewrite filter_In, in_flat_map. simpl. split.
    - intros ((x & Hx & H) & N). apply in_map_iff in H. destruct H as (y & E & Hy). inv E. apply zrange_in in Hx, Hy. left. split; [|split; [auto|lia]].
      intros E. inv E. discriminate N.
    - intros [(N & E & W)|[]]. subst e. split.
      + exists a. split; [apply zrange_in; lia|]. apply in_map_iff. exists b. split; auto. apply zrange_in. lia.
      + destruct (Z.eqb_spec a 0), (Z.eqb_spec b 0); simpl; auto. subst. congruence. }
  split; [|split].
  - unfold plane. apply NoDup_filter, WeightR.NoDup_flat_map; [apply zrange_NoDup| |].
    + intros a _. apply FinFun.Injective_map_NoDup; [intros x y E; now inv E|apply zrange_NoDup].
    + intros a a' c _ _ H H'. apply in_map_iff in H, H'. destruct H as (x & <- & _), H' as (y & E & _). now inv E.
  - intros c Hc. apply IN in Hc. destruct Hc as [(A & B & _)|[]]. split; auto.
  - intros c [A B] W. apply IN. left. split; auto.
Qed.

(** a particle in the middle of a full lattice *)
Definition centre : partR := at3 0 Fluid 5 5 0 [].
Definition crystal : list partR := centre :: map (fun c => @newParticle Rnum 0 Fluid (lattice_at 1 (p_pos centre) c) (@vzero Rnum) 1000 0) (plane 4).
Lemma others_head (p : partR) qs : (forall q, In q qs -> p_type q <> Ghost) -> others (p :: qs) 0 = qs.
Proof.
  intros H. unfold others. simpl List.length. cbn [seq flat_map]. simpl nth_error at 1. simpl Nat.eqb at 1. cbn [orb app].
  rewrite <- seq_shift, flat_map_concat_map, map_map. simpl. clear p.
  assert (K : forall n l, (forall q, In q l -> In q qs) -> (forall k, (k < List.length l)%nat -> nth_error qs (n + k) = nth_error l k) ->
    concat (map (fun j => match nth_error qs j with Some q => if (p_type q =? Ghost)%Z then [] else [q] | None => [] end) (seq n (List.length l))) = l).
  { intros n l. revert n. induction l as [|q l IH]; intros n Hin Hn; simpl; auto. pose proof (Hn 0%nat ltac:(simpl; lia)) as E. rewrite Nat.add_0_r in E. rewrite E. simpl.
    destruct (Z.eqb_spec (p_type q) Ghost) as [T|T]; [exfalso; exact (H q (Hin q (or_introl eq_refl)) T)|]. simpl. f_equal. apply IH; [intros; apply Hin; simpl; auto|].
    intros k Hk. specialize (Hn (S k) ltac:(simpl; lia)). rewrite Nat.add_succ_r in Hn. exact Hn. }
  apply (K 0%nat qs); auto.
Qed.
Lemma crystal_others : map p_pos (others crystal 0) = map (lattice_at 1 (p_pos centre)) (plane 4) ++ [].
Proof.
  unfold crystal. rewrite others_head.
  - rewrite map_map, app_nil_r. apply map_ext. reflexivity.
  - intros q Hq. apply in_map_iff in Hq. destruct Hq as (c & <- & _). discriminate.
Qed.

(** ** collisions that complete *)
Lemma duo_nbrs : nbrs_ok duo.
Proof. intros p n [<-|[<-|[]]] _ H; simpl in H; destruct H as [<-|[]]; simpl; lia. Qed.
Lemma trio_nbrs : nbrs_ok trio.
Proof. intros p n [<-|[<-|[<-|[]]]] _ H; simpl in H; intuition (subst; simpl; lia). Qed.
Lemma collision_ok ps : nbrs_ok ps -> exists ps', @collision Rnum set1 ps = Ok ps'.
Proof. intros H. assert (F := collision_fine false set1 ps H). destruct (collision set1 ps) as [ps'| | | | |]; try contradiction; [eauto|discriminate]. Qed.
Lemma duo_fluid : forall p q n, In p duo -> p_type p = Fluid -> In n (p_nbrs p) -> nb_dist n < s_colDist set1 ->
  nth_error duo (Z.to_nat (nb_id n)) = Some q -> p_type q = Fluid.
Proof. intros p q n [<-|[<-|[]]] _ H _ E; simpl in H; destruct H as [<-|[]]; simpl in E; inv E; reflexivity. Qed.
Lemma trio_walls : forall p, In p trio -> p_type p <> Fluid -> p_vel p = zeroR.
Proof. intros p [<-|[<-|[<-|[]]]] H; try (exfalso; apply H; reflexivity). reflexivity. Qed.
Lemma trio_nodup : forall p, In p trio -> p_type p = Fluid -> NoDup (map nb_id (p_nbrs p)).
Proof. intros p [<-|[<-|[<-|[]]]] _; simpl; repeat constructor; simpl; intuition discriminate. Qed.

(** ** an exact solver for diagonal systems *)
Definition diagonal (n : nat) (ts : list (@triplet Rnum)) : bool :=
  forallb (fun i => negb (Req_bool (entry ts (Z.of_nat i) (Z.of_nat i)) 0) &&
                    forallb (fun j => Nat.eqb i j || Req_bool (entry ts (Z.of_nat i) (Z.of_nat j)) 0) (seq 0 n)) (seq 0 n).
Definition diag_solver : @solver Rnum := fun n ts b =>
  if diagonal n ts && Nat.eqb (List.length b) n
  then Some (map (fun i => @nth R i b 0 / entry ts (Z.of_nat i) (Z.of_nat i)) (seq 0 n)) else None.
Lemma rsum_single n i (f : nat -> R) : (i < n)%nat -> (forall j, (j < n)%nat -> j <> i -> f j = 0) -> rsum (map f (seq 0 n)) = f i.
Proof.
  intros Hi H. rewrite (rsum_ext f (fun j => if Nat.eqb j i then f i else 0)).
  - assert (K : forall a n, rsum (map (fun j => if Nat.eqb j i then f i else 0) (seq a n)) = if (Nat.leb a i && Nat.ltb i (a + n))%bool then f i else 0).
    { intros a k. revert a. induction k as [|k IH]; intros a; simpl.
      - destruct (Nat.leb_spec a i), (Nat.ltb_spec i (a + 0)); simpl; auto; lia.
      - rewrite IH. destruct (Nat.eqb_spec a i), (Nat.leb_spec a i), (Nat.leb_spec (S a) i), (Nat.ltb_spec i (a + S k)), (Nat.ltb_spec i (S a + k)); simpl; try lia; lra. }
    rewrite K. destruct (Nat.leb_spec 0 i), (Nat.ltb_spec i (0 + n)); simpl; auto; lia.
  - intros j Hj. apply in_seq in Hj. destruct (Nat.eqb_spec j i); [now subst|]. apply H; auto. lia.
Qed.
Lemma diag_exact : exact_solver diag_solver.
Proof.
  intros n ts b x H. unfold diag_solver in H. destruct (diagonal n ts) eqn:D; [|discriminate]. destruct (Nat.eqb_spec (List.length b) n) as [L|L]; [|discriminate]. inv H.
  set (n := List.length b) in *. split; [now rewrite map_length, seq_length|]. split; [reflexivity|]. intros i Hi.
  unfold diagonal in D. rewrite forallb_forall in D. specialize (D i ltac:(apply in_seq; lia)). apply andb_prop in D. destruct D as [D1 D2]. rewrite forallb_forall in D2.
  destruct (Req_bool_spec (entry ts (Z.of_nat i) (Z.of_nat i)) 0) as [|NZ]; [discriminate|]. clear D1.
  assert (NT : forall j, (j < n)%nat -> @nth R j (map (fun i => @nth R i b 0 / entry ts (Z.of_nat i) (Z.of_nat i)) (seq 0 n)) 0 = @nth R j b 0 / entry ts (Z.of_nat j) (Z.of_nat j)).
  { intros j Hj. rewrite (nth_indep _ 0 ((fun i => @nth R i b 0 / entry ts (Z.of_nat i) (Z.of_nat i)) 0%nat)) by (rewrite map_length, seq_length; lia).
    rewrite (map_nth (fun i => @nth R i b 0 / entry ts (Z.of_nat i) (Z.of_nat i))). now rewrite seq_nth by lia. }
  rewrite (rsum_single n i).
  - rewrite NT by auto. simpl. field. exact NZ.
  - exact Hi.
  - intros j Hj N. specialize (D2 j ltac:(apply in_seq; lia)). destruct (Nat.eqb_spec i j); [congruence|]. simpl in D2.
    destruct (Req_bool_spec (entry ts (Z.of_nat i) (Z.of_nat j)) 0) as [E|]; [|discriminate]. rewrite E. apply Rmult_0_l.
Qed.

(** an inner fluid particle, and a DummyWall particle out of reach *)
Definition pool : list partR := [ set_nd (at3 0 Fluid 4 5 0 []) 5; at3 1 DummyWall 8 5 0 [] ].
Definition det0 : @detector Rnum := @ByNumberDensity Rnum (97/100) 4.
Definition ppe1 : @ppe Rnum := @mkPPE Rnum true 2 (1/100) (1/5) (1/2) 4 4 2 (3/2) (3/2).
Lemma pool_indexed : indexed pool.
Proof. intros [|[|[|i]]] p H; simpl in H; inv H; reflexivity. Qed.
Lemma pool_apart : apart pool.
Proof. intros [|[|[|i]]] [|[|[|j]]] p q Hp Hq N _ _; simpl in Hp, Hq; try congruence; inv Hp; inv Hq; intros X; apply (f_equal vx) in X; simpl in X; lra. Qed.
Lemma pool_listed : listed (3/2) pool.
Proof.
  intros [|[|[|i]]] p H _; simpl in H; try discriminate; inv H; (split; [constructor|]); intros n; (split; [intros []|]);
    intros ([|[|[|j]]] & q & Hq & N & _ & D & _); simpl in Hq; try discriminate; try congruence; inv Hq; exfalso; revert D.
  - change (p_pos (set_nd (at3 0 Fluid 4 5 0 []) 5)) with (p_pos (at3 0 Fluid 4 5 0 [])). rewrite (euclid_at _ _ _ _ _ _ _ _ _ _ _ 4) by lra. lra.
  - change (p_pos (set_nd (at3 0 Fluid 4 5 0 []) 5)) with (p_pos (at3 0 Fluid 4 5 0 [])). rewrite (euclid_at _ _ _ _ _ _ _ _ _ _ _ 4) by lra. lra.
Qed.
Lemma pool_dense : forall p, In p pool -> p_type p <> Ghost -> p_type p <> DummyWall -> 0 < p_dens p.
Proof. intros p [<-|[<-|[]]] _ _; simpl; lra. Qed.

Lemma pool_solved : exists ps' x p q, implicitCalc diag_solver det0 ppe1 pool = Ok (ps', x) /\ ps' = [p; q] /\ p_bc p = Inner /\ prescribed q.
Proof.
  destruct (C28_matrix_lemma det0 ppe1 (3/2) pool pool_listed pool_indexed pool_apart) as (ps' & d & ts & b & EG & ES & L & LB & H); [simpl; lra|].
  destruct (generate_shape _ _ _ _ EG) as [EB _].
  destruct (C29_lemma det0 (3/2) pool pool_listed) as (ps2 & EB2 & L2 & HB). rewrite EB in EB2. inv EB2.
  destruct (HB 0%nat _ eq_refl) as (b0 & E0 & _ & _ & I0). destruct (HB 1%nat _ eq_refl) as (b1 & E1 & G1 & _ & _).
  assert (b0 = Inner). { apply I0. split; [discriminate|]. split; [discriminate|]. simpl. lra. } subst b0.
  assert (b1 = Ignored). { apply G1. right. reflexivity. } subst b1. clear HB I0 G1.
  destruct ps2 as [|p [|q [|]]]; try discriminate L2. simpl in E0, E1. inv E0. inv E1.
  destruct (H 0%nat _ eq_refl) as [_ H0]. destruct (H0 eq_refl) as (_ & OFF & SUM). destruct (H 1%nat _ eq_refl) as [H1 _]. destruct (H1 ltac:(discriminate)) as (_ & ID). clear H H0 H1.
  assert (O01 : entry ts 0 1 = 0). { specialize (OFF 1%nat _ eq_refl ltac:(discriminate)). simpl in OFF. exact OFF. }
  assert (O00 : entry ts 0 0 = 5000). { simpl in SUM. rewrite O01 in SUM. simpl in SUM. lra. }
  assert (O10 := ID 0%nat). assert (O11 := ID 1%nat). simpl in O10, O11.
  assert (SO : exists x, diag_solver 2%nat ts b = Some x).
  { unfold diag_solver. rewrite LB. assert (D : diagonal 2%nat ts = true).
    { unfold diagonal. simpl. rewrite O00, O01, O10, O11. destruct (Req_bool_spec 5000 0); [lra|]. destruct (Req_bool_spec 0 0); [|congruence]. destruct (Req_bool_spec 1 0); [lra|]. reflexivity. }
    rewrite D. simpl. eauto. }
  destruct SO as [x SO]. eexists. exists (removeNegative x). do 2 eexists. split.
  - unfold implicitCalc. rewrite EG. cbn [bind]. unfold ppe_solve. rewrite ES. cbn [bind]. simpl List.length. rewrite SO. reflexivity.
  - split; [reflexivity|]. split; [reflexivity|]. right. left. reflexivity.
Qed.

Definition ppe2 : @ppe Rnum := @mkPPE Rnum false 2 (1/100) (1/5) (1/2) 4 4 2 (3/2) (3/2).
Lemma solo_surface : exists ps1 ps2 p1, setBoundaryCondition (@ByDistribution Rnum 4 1 (17/20) (97/100)) solo = Ok ps1 /\
  setBoundaryCondition (@ByNumberDensity Rnum (97/100) 4) solo = Ok ps2 /\ nth_error ps1 0 = Some p1 /\ p_bc p1 = FreeSurface.
Proof.
  assert (L : listed (3/2) solo).
  { intros [|[|i]] p H _; simpl in H; try discriminate; inv H. split; [constructor|]. intros n. split; [intros []|].
    intros ([|[|j]] & q & Hq & N & _); simpl in Hq; try discriminate; congruence. }
  destruct (C29_lemma (@ByDistribution Rnum 4 1 (17/20) (97/100)) (3/2) solo L) as (ps1 & E1 & _ & H1).
  destruct (C29_lemma (@ByNumberDensity Rnum (97/100) 4) (3/2) solo L) as (ps2 & E2 & _ & _).
  destruct (H1 0%nat _ eq_refl) as (b & Hb & _ & F & _). exists ps1, ps2. eexists. split; [exact E1|]. split; [exact E2|]. split; [exact Hb|]. simpl. apply F.
  split; [discriminate|]. split; [discriminate|]. split; [simpl; lra|]. left. intros [|[|j]] q Hq N; simpl in Hq; try discriminate; congruence.
Qed.
