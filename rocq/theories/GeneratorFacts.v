(** * The generators make one particle per site of a lattice *)
From Verif Require Export Generator.
Open Scope list_scope.
Open Scope Z_scope.

(** ** Loops *)
Section Loop.
Context {N : Num}.
Variable pos : Z -> Z -> vec.
Variable dbg : bool.

(** a site: type and lattice indices *)
Definition site := (Z * Z * Z)%type.
Definition made (id : Z) (s : site) : particle :=
  let '(t, ix, iy) := s in newParticle id t (pos ix iy) vzero (nofZ 1000) 0.
Fixpoint built (k : nat) (l : list site) : list particle :=
  match l with
  | [] => []
  | s :: r => made (Z.of_nat k) s :: built (S k) r
  end.
Lemma built_length k l : List.length (built k l) = List.length l.
Proof. revert k. induction l as [|s l IH]; intros k; cbn; auto. Qed.
Lemma built_app k l1 l2 : built k (l1 ++ l2) = built k l1 ++ built (k + List.length l1) l2.
Proof.
  revert k. induction l1 as [|s l IH]; intros k; cbn; [now rewrite Nat.add_0_r|].
  rewrite IH. do 3 f_equal. lia.
Qed.
Lemma built_nth k l i p : nth_error (built k l) i = Some p -> exists s, nth_error l i = Some s /\ p = made (Z.of_nat (k + i)) s.
Proof.
  revert k i. induction l as [|s l IH]; intros k [|i]; cbn; try discriminate.
  - intros H. injection H as <-. exists s. now rewrite Nat.add_0_r.
  - intros H. apply IH in H as (s' & H1 & H2). exists s'. split; [exact H1|]. rewrite H2. f_equal. lia.
Qed.

Variable f : Z -> Z -> Z.
Fixpoint column (ix : Z) (n : nat) (iy : Z) : list site :=
  match n with
  | O => []
  | S n' => (if f ix iy =? Ghost then [] else [(f ix iy, ix, iy)]) ++ column ix n' (iy + 1)
  end.
Fixpoint lattice (m : nat) (ix : Z) (n : nat) (iy : Z) : list site :=
  match m with
  | O => []
  | S m' => column ix n iy ++ lattice m' (ix + 1) n iy
  end.
Lemma column_in s ix n iy : In s (column ix n iy) <-> exists t j, s = (t, ix, j) /\ iy <= j < iy + Z.of_nat n /\ t = f ix j /\ t <> Ghost.
Proof.
  revert iy. induction n as [|n IH]; intros iy; cbn [column].
  - split; [intros []|]. intros (t & j & _ & H & _). lia.
  - rewrite in_app_iff, IH. split.
    + intros [H|(t & j & H1 & H2 & H3)].
      * destruct (Z.eqb_spec (f ix iy) Ghost) as [E|E]; [destruct H|]. destruct H as [H|[]]. exists (f ix iy), iy. split; [now rewrite H|]. split; [lia|auto].
      * exists t, j. split; [exact H1|]. split; [lia|exact H3].
    + intros (t & j & H1 & H2 & H3 & H4). destruct (Z.eq_dec j iy) as [->|D].
      * left. subst t. destruct (Z.eqb_spec (f ix iy) Ghost) as [E|E]; [now destruct H4|]. now left.
      * right. exists t, j. split; [exact H1|]. split; [lia|auto].
Qed.
Lemma lattice_in s m ix n iy : In s (lattice m ix n iy) <-> exists t i j, s = (t, i, j) /\ ix <= i < ix + Z.of_nat m /\ iy <= j < iy + Z.of_nat n /\ t = f i j /\ t <> Ghost.
Proof.
  revert ix. induction m as [|m IH]; intros ix; cbn [lattice].
  - split; [intros []|]. intros (t & i & j & _ & H & _). lia.
  - rewrite in_app_iff, IH, column_in. split.
    + intros [(t & j & H1 & H2)|(t & i & j & H1 & H2 & H3)].
      * exists t, ix, j. split; [exact H1|]. split; [lia|exact H2].
      * exists t, i, j. split; [exact H1|]. split; [lia|exact H3].
    + intros (t & i & j & H1 & H2 & H3). destruct (Z.eq_dec i ix) as [->|D].
      * left. exists t, j. auto.
      * right. exists t, i, j. split; [exact H1|]. split; [lia|auto].
Qed.
Lemma column_nodup ix n iy : NoDup (map (fun '(_, i, j) => (i, j)) (column ix n iy)).
Proof.
  revert iy. induction n as [|n IH]; intros iy; cbn [column]; [constructor|].
  destruct (f ix iy =? Ghost); [apply IH|]. cbn [app map]. constructor; [|apply IH].
  intros H. apply in_map_iff in H as ([[t i] j] & E & H). injection E as -> ->. apply column_in in H as (t' & j' & E & H & _). injection E as -> <-. lia.
Qed.
Lemma nodup_app {A} (a b : list A) : NoDup a -> NoDup b -> (forall x, In x a -> In x b -> False) -> NoDup (a ++ b).
Proof.
  induction 1 as [|x a H1 H2 IH]; intros H3 H4; [exact H3|]. cbn. constructor.
  - rewrite in_app_iff. intros [H|H]; [auto|]. apply (H4 x); [now left|exact H].
  - apply IH; [exact H3|]. intros y Hy. apply H4. now right.
Qed.
Lemma lattice_nodup m ix n iy : NoDup (map (fun '(_, i, j) => (i, j)) (lattice m ix n iy)).
Proof.
  revert ix. induction m as [|m IH]; intros ix; cbn [lattice]; [constructor|]. rewrite map_app.
  apply nodup_app; [apply column_nodup|apply IH|].
  intros [i j] H1 H2. apply in_map_iff in H1 as ([[t1 i1] j1] & E1 & H1). apply in_map_iff in H2 as ([[t2 i2] j2] & E2 & H2).
  injection E1 as -> ->. injection E2 as -> ->.
  apply column_in in H1 as (t & j' & E & _). injection E as -> -> ->. apply lattice_in in H2 as (t' & i' & j'' & E & H & _). injection E as -> <- <-. lia.
Qed.

Definition step (ix iy : Z) (ps : list particle) : outcome (list particle) :=
  if f ix iy =? Ghost then Ok ps
  else add_particle dbg ps (newParticle (Z.of_nat (List.length ps)) (f ix iy) (pos ix iy) vzero (nofZ 1000) 0).
Lemma step_ok ix iy ps k : ps = built 0 k -> step ix iy ps = Ok (built 0 (k ++ if f ix iy =? Ghost then [] else [(f ix iy, ix, iy)])).
Proof.
  intros ->. unfold step. destruct (f ix iy =? Ghost); [now rewrite app_nil_r|].
  unfold add_particle, cassert. cbn [p_id newParticle]. rewrite Z.eqb_refl. cbn [negb]. rewrite andb_false_r. cbn [bind].
  rewrite built_app. cbn [Nat.add built made]. now rewrite built_length.
Qed.
Lemma column_ok g ix n iy k : (forall j ps, iy <= j < iy + Z.of_nat n -> g j ps = step ix j ps) ->
  for_range n iy g (built 0 k) = Ok (built 0 (k ++ column ix n iy)).
Proof.
  revert iy k. induction n as [|n IH]; intros iy k H; cbn [for_range column]; [now rewrite app_nil_r|].
  rewrite H by lia. rewrite (step_ok ix iy _ k eq_refl). cbn [bind]. rewrite IH by (intros; apply H; lia). now rewrite app_assoc.
Qed.
Lemma lattice_ok g m ix n iy k : (forall i j ps, ix <= i < ix + Z.of_nat m -> iy <= j < iy + Z.of_nat n -> g i j ps = step i j ps) ->
  for_range m ix (fun i => for_range n iy (g i)) (built 0 k) = Ok (built 0 (k ++ lattice m ix n iy)).
Proof.
  revert ix k. induction m as [|m IH]; intros ix k H; cbn [for_range lattice]; [now rewrite app_nil_r|].
  rewrite (column_ok (g ix) ix) by (intros; apply H; lia). cbn [bind]. rewrite IH by (intros; apply H; lia). now rewrite app_assoc.
Qed.
End Loop.

(** the same with the number of particles kept in a variable *)
Section Loop2.
Context {N : Num}.
Variable pos : Z -> Z -> vec.
Variable dbg : bool.
Variable f : Z -> Z -> Z.
Definition state (k : list site) : list particle * Z := (built pos 0 k, Z.of_nat (List.length k)).
Definition step2 (ix iy : Z) (s : list particle * Z) : outcome (list particle * Z) :=
  let '(ps, id) := s in
  if f ix iy =? Ghost then Ok (ps, id)
  else ps <- add_particle dbg ps (newParticle id (f ix iy) (pos ix iy) vzero (nofZ 1000) 0) ;; Ok (ps, id + 1).
Lemma step2_ok ix iy k : step2 ix iy (state k) = Ok (state (k ++ if f ix iy =? Ghost then [] else [(f ix iy, ix, iy)])).
Proof.
  unfold step2, state. destruct (f ix iy =? Ghost); [now rewrite app_nil_r|].
  unfold add_particle, cassert. cbn [p_id newParticle]. rewrite built_length, Z.eqb_refl. cbn [negb]. rewrite andb_false_r. cbn [bind].
  rewrite built_app, app_length. cbn [Nat.add built made List.length]. do 3 f_equal. lia.
Qed.
Lemma column2_ok g ix n iy k : (forall j s, iy <= j < iy + Z.of_nat n -> g j s = step2 ix j s) ->
  for_range n iy g (state k) = Ok (state (k ++ column f ix n iy)).
Proof.
  revert iy k. induction n as [|n IH]; intros iy k H; cbn [for_range column]; [now rewrite app_nil_r|].
  rewrite H by lia. rewrite (step2_ok ix iy k). cbn [bind]. rewrite IH by (intros; apply H; lia). now rewrite app_assoc.
Qed.
Lemma lattice2_ok g m ix n iy k : (forall i j s, ix <= i < ix + Z.of_nat m -> iy <= j < iy + Z.of_nat n -> g i j s = step2 i j s) ->
  for_range m ix (fun i => for_range n iy (g i)) (state k) = Ok (state (k ++ lattice f m ix n iy)).
Proof.
  revert ix k. induction m as [|m IH]; intros ix k H; cbn [for_range lattice]; [now rewrite app_nil_r|].
  rewrite (column2_ok (g ix) ix) by (intros; apply H; lia). cbn [bind]. rewrite IH by (intros; apply H; lia). now rewrite app_assoc.
Qed.
End Loop2.

(** ** The two lattices in integers *)
Definition range (a b i : Z) : bool := (a <=? i) && (i <=? b).
Lemma range_iff a b i : range a b i = true <-> a <= i <= b.
Proof. unfold range. rewrite andb_true_iff, !Z.leb_le. tauto. Qed.
Definition dam_site (ix iy : Z) : Z :=
  if range 0 10 ix && range 0 20 iy then Fluid
  else if range 0 40 ix && range 0 24 iy then Ghost
  else if range (-4) 44 ix && range 22 24 iy then Wall
  else if range (-2) 42 ix && range (-2) 24 iy then Wall
  else if range (-4) 44 ix && range (-4) 24 iy then DummyWall
  else Ghost.
Definition dam_sites : list site := lattice dam_site 49 (-4) 33 (-4).
Definition hyd_site (ix iy : Z) : Z :=
  if range (-15) 14 ix && range 40 49 iy then Ghost
  else if range (-15) 14 ix && range 0 39 iy then Fluid
  else if range (-17) 16 ix && range (-2) 49 iy then Wall
  else if range (-19) 18 ix && range (-4) 49 iy then DummyWall
  else Ghost.
Definition hyd_sites : list site := lattice hyd_site 38 (-19) 54 (-4).

Section Sites.
Context {N : Num}.
Local Open Scope num_scope.
(** ** What has to be checked for an arithmetic *)
Record dam_x (ix : Z) : Prop := {
  dx1 : in_range (- #4 * dam_l0, #1 + #4 * dam_l0) dam_eps (#ix * dam_l0) = range (-4) 44 ix;
  dx2 : in_range (- #2 * dam_l0, #1 + #2 * dam_l0) dam_eps (#ix * dam_l0) = range (-2) 42 ix;
  dx3 : in_range (#0, #1) dam_eps (#ix * dam_l0) = range 0 40 ix;
  dx4 : in_range (#0, dec 25 100) dam_eps (#ix * dam_l0) = range 0 10 ix }.
Record dam_y (iy : Z) : Prop := {
  dy1 : in_range (- #4 * dam_l0, dec 6 10) dam_eps (#iy * dam_l0) = range (-4) 24 iy;
  dy2 : in_range (- #2 * dam_l0, dec 6 10) dam_eps (#iy * dam_l0) = range (-2) 24 iy;
  dy3 : in_range (dec 6 10 - #2 * dam_l0, dec 6 10) dam_eps (#iy * dam_l0) = range 22 24 iy;
  dy4 : in_range (#0, dec 6 10) dam_eps (#iy * dam_l0) = range 0 24 iy;
  dy5 : in_range (#0, dec 50 100) dam_eps (#iy * dam_l0) = range 0 20 iy }.
Record dam_bounds : Prop := {
  db1 : round_int (#0 / dam_l0) = Ok 0%Z;
  db2 : round_int (#1 / dam_l0) = Ok 40%Z;
  db3 : round_int (dec 6 10 / dam_l0) = Ok 24%Z;
  db4 : in_range (#0, #0) dam_eps #0 = true }.
Lemma dam_type_site ix iy : dam_bounds -> dam_x ix -> dam_y iy -> dam_type dam_l0 dam_eps (dam_pos ix iy) = dam_site ix iy.
Proof.
  intros [_ _ _ Z0] [X1 X2 X3 X4] [Y1 Y2 Y3 Y4 Y5]. unfold dam_type, isInside, dam_site. cbn [dam_pos vx vy vz].
  rewrite X1, X2, X3, X4, Y1, Y2, Y3, Y4, Y5, Z0, !andb_true_r.
  destruct (range 0 10 ix && range 0 20 iy); [reflexivity|]. destruct (range 0 40 ix && range 0 24 iy); [reflexivity|].
  destruct (range (-4) 44 ix && range 22 24 iy); [reflexivity|]. destruct (range (-2) 42 ix && range (-2) 24 iy); reflexivity.
Qed.
Lemma dambreak_sites dbg : dam_bounds -> (forall ix, (-4 <= ix <= 44)%Z -> dam_x ix) -> (forall iy, (-4 <= iy <= 28)%Z -> dam_y iy) ->
  dambreak dbg = Ok (built dam_pos 0 dam_sites).
Proof.
  intros B X Y. unfold dambreak. rewrite (db1 B), (db2 B), (db3 B). cbn [bind].
  change (Z.to_nat (40 + 4 - (0 - 4) + 1)) with 49%nat. change (Z.to_nat (24 + 4 - (0 - 4) + 1)) with 33%nat. change (0 - 4)%Z with (-4)%Z.
  apply (lattice_ok dam_pos dbg dam_site (fun ix iy ps => let pos := dam_pos ix iy in let t := dam_type dam_l0 dam_eps pos in
    if (t =? Ghost)%Z then Ok ps else add_particle dbg ps (newParticle (Z.of_nat (List.length ps)) t pos vzero #1000 0)) 49 (-4) 33 (-4) []).
  intros i j ps Hi Hj. cbv zeta. unfold step. rewrite dam_type_site; [reflexivity|exact B|apply X; lia|apply Y; lia].
Qed.

(** |r - centre| - size/2 < 0 *)
Definition within (c s r : num) : bool := nlt (nabs (r - c) - s / #2) #0.
Record hyd_x (ix : Z) : Prop := {
  hx1 : within (bx_cx hyd_empty) (bx_sx hyd_empty) (hyd_at ix) = range (-15) 14 ix;
  hx2 : within (bx_cx hyd_fluid) (bx_sx hyd_fluid) (hyd_at ix) = range (-15) 14 ix;
  hx3 : within (bx_cx hyd_wall) (bx_sx hyd_wall) (hyd_at ix) = range (-17) 16 ix;
  hx4 : within (bx_cx hyd_dummy) (bx_sx hyd_dummy) (hyd_at ix) = range (-19) 18 ix }.
Record hyd_y (iy : Z) : Prop := {
  hy1 : within (bx_cy hyd_empty) (bx_sy hyd_empty) (hyd_at iy) = range 40 49 iy;
  hy2 : within (bx_cy hyd_fluid) (bx_sy hyd_fluid) (hyd_at iy) = range 0 39 iy;
  hy3 : within (bx_cy hyd_wall) (bx_sy hyd_wall) (hyd_at iy) = range (-2) 49 iy;
  hy4 : within (bx_cy hyd_dummy) (bx_sy hyd_dummy) (hyd_at iy) = range (-4) 49 iy }.
Record hyd_bounds : Prop := {
  hb1 : round_int (- dec 18 100 / hyd_l0) = Ok (-15)%Z;
  hb2 : round_int (dec 18 100 / hyd_l0) = Ok 15%Z;
  hb3 : round_int (#0 / hyd_l0) = Ok 0%Z;
  hb4 : round_int (dec 6 10 / hyd_l0) = Ok 50%Z }.
Definition sdf_separates : Prop :=
  forall b rx ry, nlt (sdf b rx ry) #0 = within (bx_cx b) (bx_sx b) rx && within (bx_cy b) (bx_sy b) ry.
Lemma hyd_type_site ix iy : sdf_separates -> hyd_x ix -> hyd_y iy -> hyd_type (hyd_at ix) (hyd_at iy) = hyd_site ix iy.
Proof.
  intros S [X1 X2 X3 X4] [Y1 Y2 Y3 Y4]. unfold hyd_type, hyd_site. now rewrite !S, X1, X2, X3, X4, Y1, Y2, Y3, Y4.
Qed.
Lemma hydrostatic_sites dbg : sdf_separates -> hyd_bounds -> (forall ix, (-19 <= ix <= 18)%Z -> hyd_x ix) -> (forall iy, (-4 <= iy <= 49)%Z -> hyd_y iy) ->
  hydrostatic dbg = Ok (built hyd_pos 0 hyd_sites).
Proof.
  intros S B X Y. unfold hydrostatic. rewrite (hb1 B), (hb2 B), (hb3 B), (hb4 B). cbn [bind].
  change (Z.to_nat (15 + 4 - (-15 - 4))) with 38%nat. change (Z.to_nat (50 - (0 - 4))) with 54%nat. change (0 - 4)%Z with (-4)%Z. change (-15 - 4)%Z with (-19)%Z.
  pose proof (lattice2_ok hyd_pos dbg hyd_site (fun ix iy '(ps, id) => let t := hyd_type (hyd_at ix) (hyd_at iy) in
      if (t =? Ghost)%Z then Ok (ps, id)
      else ps <- add_particle dbg ps (newParticle id t (hyd_pos ix iy) vzero #1000 0) ;; Ok (ps, id + 1)%Z) 38 (-19) 54 (-4) []) as L.
  unfold state in L. cbn [built List.length app] in L. change (Z.of_nat 0) with 0%Z in L. 
  refine (eq_trans (f_equal (fun o => bind o (fun r => Ok (fst r))) (L _)) _); [|reflexivity].
  intros i j [ps id] Hi Hj. cbv zeta. unfold step2. rewrite hyd_type_site; [reflexivity|exact S|apply X; lia|apply Y; lia].
Qed.
End Sites.
Lemma dam_count : List.length dam_sites = Z.to_nat 627.
Proof. vm_compute. reflexivity. Qed.
Lemma hyd_count : List.length hyd_sites = Z.to_nat 1752.
Proof. vm_compute. reflexivity. Qed.
