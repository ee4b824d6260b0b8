(** * Correctness of the bucket grid and the neighbour search, for every number type

    Everything here is about the model in Neighbor.v and holds whatever the numbers
    are, provided the cell coordinates of the particles inside the domain come out
    inside the grid ([cells_ok]).  NeighborR.v and NeighborF.v show that they do. *)
From Verif Require Export Spec BaseFacts.
From Coq Require Import PeanoNat FinFun.
Open Scope Z_scope.

Section NF.
Context {N : Num}.

(** the index of a particle in the vector is its id (particles.cpp:26-31) *)
Definition ids_ok (ps : list particle) : Prop :=
  forall i p, nth_error ps i = Some p -> p_id p = Z.of_nat i.

Definition live (d : domain) (p : particle) : bool :=
  negb (is_type p Ghost) && isInDomain d (p_pos p).

Definition ghostify (d : domain) (p : particle) : particle :=
  if is_type p Ghost then p else if isInDomain d (p_pos p) then p else set_type p Ghost.

Definition flatZ (nX nY : Z) (c : Z * Z * Z) : Z :=
  let '(ix, iy, iz) := c in ix + iy * nX + iz * nX * nY.

Definition in_grid (nX nY nZ : Z) (c : Z * Z * Z) : Prop :=
  let '(ix, iy, iz) := c in 0 <= ix < nX /\ 0 <= iy < nY /\ 0 <= iz < nZ.

(** strictly inside: a cell all of whose 27 surrounding cells are in the grid *)
Definition inner_grid (nX nY nZ : Z) (c : Z * Z * Z) : Prop :=
  let '(ix, iy, iz) := c in 1 <= ix <= nX - 2 /\ 1 <= iy <= nY - 2 /\ 1 <= iz <= nZ - 2.

Record grid_ok (b : bucket) (n : nat) : Prop := {
  g_num : b_num b = b_numX b * b_numY b * b_numZ b;
  g_X : 0 < b_numX b; g_Y : 0 < b_numY b; g_Z : 0 < b_numZ b;
  g_int : b_num b <= int_max;
  g_first : Z.of_nat (List.length (b_first b)) = b_num b;
  g_last : Z.of_nat (List.length (b_last b)) = b_num b;
  g_next : List.length (b_next b) = n
}.

Lemma flat_ok nX nY nZ c :
  0 < nX -> 0 < nY -> 0 < nZ -> nX * nY * nZ <= int_max -> in_grid nX nY nZ c ->
  flat nX nY c = Ok (flatZ nX nY c) /\ 0 <= flatZ nX nY c < nX * nY * nZ.
Proof.
  destruct c as [[ix iy] iz]. simpl. intros HX HY HZ Hmax (Hx & Hy & Hz).
  assert (A1 : 0 <= iy * nX <= (nY - 1) * nX) by nia.
  assert (A2 : nX * nY <= nX * nY * nZ) by nia.
  assert (A3 : 0 <= iz * nX * nY <= (nZ - 1) * (nX * nY)) by nia.
  assert (A4 : 0 <= iz * nX <= iz * nX * nY) by nia.
  assert (A5 : (nY - 1) * nX + nX = nX * nY) by ring.
  assert (A6 : (nZ - 1) * (nX * nY) + nX * nY = nX * nY * nZ) by ring.
  unfold int_max in Hmax.
  assert (I : forall z, 0 <= z < nX * nY * nZ -> cint z = Ok z).
  { intros z Hz'. apply cint_ok, in_int_spec. unfold int_min, int_max. lia. }
  rewrite (I (iy * nX)) by lia. simpl. rewrite I by lia. simpl.
  rewrite (I (iz * nX)) by lia. simpl. rewrite I by lia. simpl. rewrite I by lia.
  split; [f_equal|]; lia.
Qed.

Lemma flatZ_inj nX nY nZ c c' :
  0 < nX -> 0 < nY -> in_grid nX nY nZ c -> in_grid nX nY nZ c' ->
  flatZ nX nY c = flatZ nX nY c' -> c = c'.
Proof.
  destruct c as [[ix iy] iz], c' as [[jx jy] jz]. simpl. intros HX HY (Hx & Hy & Hz) (Hx' & Hy' & Hz') E.
  assert (E1 : ix + nX * (iy + nY * iz) = jx + nX * (jy + nY * jz)) by lia.
  assert (ix = jx).
  { assert (M := f_equal (fun z => z mod nX) E1). simpl in M.
    rewrite !(Z.mul_comm nX), !Z.mod_add, !Z.mod_small in M by lia. exact M. }
  subst jx. assert (E2 : iy + nY * iz = jy + nY * jz) by nia.
  assert (iy = jy).
  { assert (M := f_equal (fun z => z mod nY) E2). simpl in M.
    rewrite !(Z.mul_comm nY), !Z.mod_add, !Z.mod_small in M by lia. exact M. }
  subst jy. assert (iz = jz) by nia. congruence.
Qed.

(** ** chains *)
Definition hdZ (l : list nat) : Z := match l with [] => -1 | j :: _ => Z.of_nat j end.
Definition lastZ (l : list nat) : Z := match rev l with [] => -1 | j :: _ => Z.of_nat j end.
Fixpoint chain (next : list Z) (l : list nat) : Prop :=
  match l with
  | [] => True
  | j :: t => nth_error next j = Some (hdZ t) /\ chain next t
  end.

Lemma chain_upd_notin next l j z : ~ In j l -> chain next l -> chain (upd next j z) l.
Proof.
  induction l; simpl; auto. intros Hn [H1 H2]. split.
  - rewrite nth_upd_other; auto.
  - apply IHl; auto.
Qed.

Lemma chain_snoc next l j i :
  NoDup (l ++ [j]) -> ~ In i (l ++ [j]) -> chain next (l ++ [j]) -> nth_error next i = Some (-1) ->
  chain (upd next j (Z.of_nat i)) (l ++ [j; i]).
Proof.
  induction l as [|a l IH]; simpl; intros Hnd Hni Hc Hi.
  - destruct Hc as [Hc _]. repeat split.
    + apply nth_upd_same. apply nth_error_Some. congruence.
    + rewrite nth_upd_other by (intros ->; tauto). exact Hi.
  - inv Hnd. destruct Hc as [H0 H3]. split.
    + rewrite nth_upd_other.
      * rewrite H0. f_equal. destruct l; reflexivity.
      * intros ->. apply H1. apply in_app_iff; simpl; auto.
    + apply IH; auto.
Qed.

Lemma lastZ_snoc l j : lastZ (l ++ [j]) = Z.of_nat j.
Proof. unfold lastZ. now rewrite rev_app_distr. Qed.

(** ** the state after storing the first i particles *)
Section Store.
Variables (b : bucket) (ps0 : list particle).
Let d := b_domain b.
Let n := List.length ps0.

Definition bucketOf (p : particle) : Z :=
  match cell d (b_length b) (p_pos p) with Ok c => flatZ (b_numX b) (b_numY b) c | _ => -1 end.

Definition mem (i : nat) (k : Z) : list nat :=
  filter (fun j => match nth_error ps0 j with Some p => live d p && (bucketOf p =? k) | None => false end) (seq 0 i).

Definition cells_ok : Prop :=
  forall p, In p ps0 -> live d p = true ->
    exists c, cell d (b_length b) (p_pos p) = Ok c /\ inner_grid (b_numX b) (b_numY b) (b_numZ b) c.

Lemma mem_in i k j : In j (mem i k) <->
  (j < i)%nat /\ exists p, nth_error ps0 j = Some p /\ live d p = true /\ bucketOf p = k.
Proof.
  unfold mem. rewrite filter_In, in_seq. split.
  - intros [H1 H2]. split; [lia|]. destruct (nth_error ps0 j); [|discriminate].
    apply andb_true_iff in H2. destruct H2 as [H2 H3]. apply Z.eqb_eq in H3. eauto.
  - intros [H1 (p & -> & -> & ->)]. split; [lia|]. now rewrite Z.eqb_refl.
Qed.

Lemma mem_S i k : mem (S i) k =
  mem i k ++ (match nth_error ps0 i with Some p => if live d p && (bucketOf p =? k) then [i] else [] | None => [] end).
Proof.
  unfold mem. rewrite seq_S, filter_app. simpl. f_equal.
  destruct (nth_error ps0 i); auto.
Qed.

Lemma mem_NoDup i k : NoDup (mem i k).
Proof. apply NoDup_filter, seq_NoDup. Qed.

Record store_inv (i : nat) (st : list Z * list Z * list Z * list particle) : Prop := {
  si_first : Z.of_nat (List.length (fst (fst (fst st)))) = b_num b;
  si_last : Z.of_nat (List.length (snd (fst (fst st)))) = b_num b;
  si_next : List.length (snd (fst st)) = n;
  si_ps : forall j, nth_error (snd st) j = (if Nat.ltb j i then option_map (ghostify d) (nth_error ps0 j) else nth_error ps0 j);
  si_hd : forall k, 0 <= k < b_num b -> nth_error (fst (fst (fst st))) (Z.to_nat k) = Some (hdZ (mem i k));
  si_tl : forall k, 0 <= k < b_num b -> nth_error (snd (fst (fst st))) (Z.to_nat k) = Some (lastZ (mem i k));
  si_chain : forall k, 0 <= k < b_num b -> chain (snd (fst st)) (mem i k);
  si_free : forall j, (i <= j < n)%nat -> nth_error (snd (fst st)) j = Some (-1)
}.

Lemma bucketOf_range p : grid_ok b n -> cells_ok -> In p ps0 -> live d p = true ->
  exists c, cell d (b_length b) (p_pos p) = Ok c /\ inner_grid (b_numX b) (b_numY b) (b_numZ b) c /\
            flat (b_numX b) (b_numY b) c = Ok (bucketOf p) /\ bucketOf p = flatZ (b_numX b) (b_numY b) c /\
            0 <= bucketOf p < b_num b.
Proof.
  intros G C Hin Hl. destruct (C p Hin Hl) as (c & Hc & Hg). exists c.
  assert (IG : in_grid (b_numX b) (b_numY b) (b_numZ b) c)
    by (destruct c as [[ix iy] iz]; simpl in *; lia).
  destruct G. rewrite g_num0 in g_int0.
  destruct (flat_ok _ _ _ c g_X0 g_Y0 g_Z0 g_int0 IG) as [F R].
  assert (B : bucketOf p = flatZ (b_numX b) (b_numY b) c) by (unfold bucketOf; now rewrite Hc).
  rewrite B. repeat split; auto; try lia.
Qed.

Lemma store1_step i st : grid_ok b n -> cells_ok -> ids_ok ps0 -> (i < n)%nat -> store_inv i st ->
  exists st', store1 d (b_length b) (b_numX b) (b_numY b) i st = Ok st' /\ store_inv (S i) st'.
Proof.
  intros G C I Hi Inv. destruct st as [[[first last] next] ps]. destruct Inv; simpl in *.
  destruct (nth_error_ext_length ps0 i Hi) as [p Hp].
  assert (Hps : nth_error ps i = Some p) by (rewrite si_ps0, Nat.ltb_irrefl; auto).
  assert (Hlen : (i < List.length ps)%nat) by (apply nth_error_Some; congruence).
  assert (Hid := I _ _ Hp).
  assert (PS : forall q, q = ghostify d p -> forall j, nth_error (upd ps i q) j =
     (if Nat.ltb j (S i) then option_map (ghostify d) (nth_error ps0 j) else nth_error ps0 j)).
  { intros q -> j. rewrite nth_upd. destruct (Nat.eqb_spec i j).
    - subst j. rewrite Hps. replace (Nat.ltb i (S i)) with true by (symmetry; apply Nat.ltb_lt; lia).
      now rewrite Hp.
    - rewrite si_ps0. destruct (Nat.ltb_spec j i), (Nat.ltb_spec j (S i)); auto; lia. }
  assert (Same : live d p = false -> forall k, mem (S i) k = mem i k).
  { intros L k. rewrite mem_S, Hp, L. simpl. apply app_nil_r. }
  unfold store1. rewrite Hps.
  destruct (is_type p Ghost) eqn:Tg.
  { (* already a ghost *)
    assert (L : live d p = false) by (unfold live; now rewrite Tg).
    exists (first, last, next, ps). split; [reflexivity|].
    constructor; simpl; auto; try (intros; rewrite Same by auto; auto).
    - intros j. rewrite <- (PS p).
      + rewrite upd_same; auto.
      + unfold ghostify. now rewrite Tg.
    - intros; apply si_free0; lia. }
  destruct (isInDomain d (p_pos p)) eqn:D; simpl.
  2: { (* leaves the domain *)
    assert (L : live d p = false) by (unfold live; rewrite D; apply andb_false_r).
    eexists; split; [reflexivity|].
    constructor; simpl; auto; try (intros; rewrite Same by auto; auto).
    - apply PS. unfold ghostify. now rewrite Tg, D.
    - intros; apply si_free0; lia. }
  (* stored *)
  assert (L : live d p = true) by (unfold live; now rewrite Tg, D).
  destruct (bucketOf_range p G C (nth_error_In _ _ Hp) L) as (c & Hc & _ & Hf & _ & Hr).
  rewrite Hc. simpl. rewrite Hf. simpl.
  set (k := bucketOf p) in *.
  assert (Hk : nth_error last (Z.to_nat k) = Some (lastZ (mem i k))) by auto.
  assert (Gk : vget last k = Ok (lastZ (mem i k))) by (apply vget_ok; split; [lia|auto]).
  rewrite Gk; simpl. rewrite Hid.
  assert (PS' : forall j, nth_error ps j = (if Nat.ltb j (S i) then option_map (ghostify d) (nth_error ps0 j) else nth_error ps0 j)).
  { intros j. rewrite <- (PS p).
    - rewrite upd_same; auto.
    - unfold ghostify. now rewrite Tg, D. }
  assert (Mk : mem (S i) k = mem i k ++ [i]) by (rewrite mem_S, Hp, L; fold k; now rewrite Z.eqb_refl).
  assert (Mo : forall k', k' <> k -> mem (S i) k' = mem i k').
  { intros k' Hk'. rewrite mem_S, Hp, L. fold k. rewrite (proj2 (Z.eqb_neq k k')) by auto. simpl. apply app_nil_r. }
  assert (Hni : forall k', ~ In i (mem i k')) by (intros k' Hin; apply mem_in in Hin; lia).
  assert (Sl : vset last k (Z.of_nat i) = Ok (upd last (Z.to_nat k) (Z.of_nat i))).
  { apply vset_ok. repeat split; auto; lia. }
  assert (Kne : forall k', 0 <= k' < b_num b -> k' <> k -> Z.to_nat k <> Z.to_nat k') by (intros; lia).
  assert (TL : forall k', 0 <= k' < b_num b -> nth_error (upd last (Z.to_nat k) (Z.of_nat i)) (Z.to_nat k') = Some (lastZ (mem (S i) k'))).
  { intros k' Hk'. destruct (Z.eq_dec k' k) as [->|Hne].
    - rewrite Mk, lastZ_snoc. apply nth_upd_same. apply nth_error_Some. congruence.
    - rewrite Mo, nth_upd_other by auto. auto. }
  destruct (mem i k) as [|a l0] eqn:Em.
  - (* empty bucket *)
    simpl. change (lastZ []) with (-1). simpl.
    assert (Sf : vset first k (Z.of_nat i) = Ok (upd first (Z.to_nat k) (Z.of_nat i))).
    { apply vset_ok. repeat split; auto; lia. }
    rewrite Sf; simpl. rewrite Sl; simpl. eexists; split; [reflexivity|].
    constructor; simpl; auto; try (rewrite length_upd; auto).
    + intros k' Hk'. destruct (Z.eq_dec k' k) as [->|Hne].
      * rewrite Mk. simpl. apply nth_upd_same. lia.
      * rewrite Mo, nth_upd_other by auto. auto.
    + intros k' Hk'. destruct (Z.eq_dec k' k) as [->|Hne].
      * rewrite Mk. simpl. split; auto. all: apply si_free0; lia.
      * rewrite Mo by auto. auto.
    + intros; apply si_free0; lia.
  - (* append to the chain *)
    rewrite <- Em in *.
    assert (Hex : exists l j, mem i k = l ++ [j]).
    { destruct (exists_last (l := mem i k)) as (l & j & E); [rewrite Em; discriminate|eauto]. }
    destruct Hex as (l & j & E).
    assert (Hlast : lastZ (mem i k) = Z.of_nat j) by (rewrite E; apply lastZ_snoc).
    rewrite Hlast. rewrite (proj2 (Z.eqb_neq (Z.of_nat j) (-1))) by lia.
    assert (Hj : (j < i)%nat).
    { assert (In j (mem i k)) as Hin by (rewrite E; apply in_app_iff; simpl; auto). apply mem_in in Hin. tauto. }
    rewrite vset_nat by lia. simpl. rewrite Sl; simpl. eexists; split; [reflexivity|].
    constructor; simpl; auto; try (rewrite length_upd; auto).
    + intros k' Hk'. destruct (Z.eq_dec k' k) as [->|Hne].
      * rewrite Mk, si_hd0 by auto. rewrite Em. reflexivity.
      * rewrite Mo by auto. auto.
    + intros k' Hk'. destruct (Z.eq_dec k' k) as [->|Hne].
      * rewrite Mk, E, <- app_assoc. simpl. apply chain_snoc.
        -- rewrite <- E. apply mem_NoDup.
        -- rewrite <- E. auto.
        -- rewrite <- E. auto.
        -- apply si_free0. lia.
      * rewrite Mo by auto. apply chain_upd_notin; auto.
        intros Hin. apply mem_in in Hin. destruct Hin as (_ & q & Hq & _ & Hb).
        assert (In j (mem i k)) as Hin' by (rewrite E; apply in_app_iff; simpl; auto).
        apply mem_in in Hin'. destruct Hin' as (_ & q' & Hq' & _ & Hb'). congruence.
    + intros j' Hj'. rewrite nth_upd_other by lia. apply si_free0; lia.
Qed.

Definition shape_eq (x y : bucket) : Prop :=
  b_num x = b_num y /\ b_numX x = b_numX y /\ b_numY x = b_numY y /\ b_numZ x = b_numZ y /\
  b_length x = b_length y /\ b_domain x = b_domain y.

Record stored (b' : bucket) (ps' : list particle) : Prop := {
  st_shape : shape_eq b' b;
  st_grid : grid_ok b' n;
  st_ps : ps' = map (ghostify d) ps0;
  st_hd : forall k, 0 <= k < b_num b -> nth_error (b_first b') (Z.to_nat k) = Some (hdZ (mem n k));
  st_chain : forall k, 0 <= k < b_num b -> chain (b_next b') (mem n k)
}.

Lemma storeParticles_ok : grid_ok b n -> cells_ok -> ids_ok ps0 ->
  exists b' ps', storeParticles b ps0 = Ok (b', ps') /\ stored b' ps'.
Proof.
  intros G C I. pose proof G as G'. destruct G'. unfold storeParticles.
  rewrite g_first0, g_last0, Z.leb_refl, g_next0. fold n. rewrite Nat.leb_refl. simpl.
  assert (Z0 : 0 <= b_num b) by (rewrite g_num0; nia).
  replace (skipn (Z.to_nat (b_num b)) (b_first b)) with (@nil Z) by (symmetry; apply skipn_all2; lia).
  replace (skipn (Z.to_nat (b_num b)) (b_last b)) with (@nil Z) by (symmetry; apply skipn_all2; lia).
  replace (skipn n (b_next b)) with (@nil Z) by (symmetry; apply skipn_all2; lia).
  rewrite !app_nil_r. fold d.
  destruct (foldM_seq_total store_inv (store1 d (b_length b) (b_numX b) (b_numY b)) 0 n
    (repeat (-1) (Z.to_nat (b_num b)), repeat (-1) (Z.to_nat (b_num b)), repeat (-1) n, ps0)) as (st & E & Inv).
  - constructor; simpl; try rewrite repeat_length; auto; try lia.
    + intros k Hk. apply nth_error_repeat. lia.
    + intros k Hk. apply nth_error_repeat. lia.
    + intros j Hj. apply nth_error_repeat. lia.
  - intros i t Hi Ht. apply store1_step; auto. lia.
  - rewrite E. destruct st as [[[first last] next] ps]. simpl. destruct Inv; simpl in *.
    eexists _, _. split; [reflexivity|]. constructor; simpl; auto.
    + repeat split.
    + constructor; simpl; auto.
    + apply list_ext. intros j. rewrite si_ps0, nth_error_map.
      destruct (Nat.ltb_spec j n); auto.
      rewrite (proj2 (nth_error_None ps0 j)) by (fold n; lia). reflexivity.
Qed.

Lemma mem_length k : (List.length (mem n k) <= n)%nat.
Proof.
  unfold mem. etransitivity; [apply filter_length_le|]. now rewrite seq_length.
Qed.
End Store.

(** ** walking a chain *)
Definition pdist (p q : particle) : num := vnorm (vsub (p_pos q) (p_pos p)).

Definition pick (re : num) (ps : list particle) (pi : particle) (j : nat) : list neighbor :=
  match nth_error ps j with
  | Some pj => if negb (Z.of_nat j =? p_id pi) && nlt (pdist pi pj) re then [mkNb (Z.of_nat j) (pdist pi pj)] else []
  | None => []
  end.

Lemma walk_ok re ps next pi l : forall fuel acc,
  chain next l -> (forall j, In j l -> (j < List.length ps)%nat) -> (List.length l <= fuel)%nat ->
  walk fuel re ps next pi (hdZ l) acc = Ok (acc ++ flat_map (pick re ps pi) l).
Proof.
  induction l as [|j l IH]; intros fuel acc Hc Hin Hf.
  - simpl. rewrite app_nil_r. destruct fuel; reflexivity.
  - destruct Hc as [Hj Hc]. destruct fuel as [|fuel]; [simpl in Hf; lia|].
    simpl. replace (Z.of_nat j =? -1) with false by (symmetry; apply Z.eqb_neq; lia).
    destruct (nth_error_ext_length ps j (Hin j (or_introl eq_refl))) as [pj Hpj].
    rewrite (vget_nat _ _ _ Hpj). simpl. rewrite (vget_nat _ _ _ Hj). simpl.
    rewrite IH; auto.
    + unfold pick at 2. rewrite Hpj. fold (pdist pi pj).
      destruct (negb (Z.of_nat j =? p_id pi) && nlt (pdist pi pj) re); simpl; auto.
      now rewrite <- app_assoc.
    + intros; apply Hin; simpl; auto.
    + simpl in Hf; lia.
Qed.

Lemma walk_ext re next pi w w' : map p_pos w = map p_pos w' ->
  forall fuel j acc, walk fuel re w next pi j acc = walk fuel re w' next pi j acc.
Proof.
  intros Hw. induction fuel; intros j acc'; simpl; auto. destruct (j =? -1); auto.
  unfold vget. destruct (j <? 0); auto.
  assert (Hn : option_map p_pos (nth_error w (Z.to_nat j)) = option_map p_pos (nth_error w' (Z.to_nat j)))
    by (rewrite <- !nth_error_map; congruence).
  destruct (nth_error w (Z.to_nat j)) as [u|], (nth_error w' (Z.to_nat j)) as [u'|]; simpl in *; try discriminate; auto.
  injection Hn as Hn. rewrite Hn. destruct (nth_error next (Z.to_nat j)); simpl; auto.
Qed.

Local Arguments walk : simpl never.

(** ** the whole search *)
Record searcher_ok (ns : searcher) (n : nat) : Prop := {
  so_grid : grid_ok (ns_bucket ns) n;
  so_dom : b_domain (ns_bucket ns) = ns_domain ns;
  so_len : b_length (ns_bucket ns) = ns_re ns
}.

Definition nlist (ns : searcher) (ps : list particle) (pi : particle) : list neighbor :=
  match cell (ns_domain ns) (ns_re ns) (p_pos pi) with
  | Ok c => flat_map (fun c' => flat_map (pick (ns_re ns) (map (ghostify (ns_domain ns)) ps) pi)
                        (mem (ns_bucket ns) ps (List.length ps) (flatZ (b_numX (ns_bucket ns)) (b_numY (ns_bucket ns)) c')))
                     (around c)
  | _ => []
  end.

Definition searched (ns : searcher) (ps : list particle) (p : particle) : particle :=
  let d := ns_domain ns in
  if live d p then set_nbrs p (nlist ns ps p) else ghostify d p.

Lemma around_in_grid nX nY nZ c c' : inner_grid nX nY nZ c -> In c' (around c) -> in_grid nX nY nZ c'.
Proof.
  destruct c as [[ix iy] iz], c' as [[jx jy] jz]. unfold around, three. intros H Hin.
  apply in_flat_map in Hin. destruct Hin as (a & Ha & Hin).
  apply in_flat_map in Hin. destruct Hin as (b & Hb & Hin).
  apply in_map_iff in Hin. destruct Hin as (e & Ee & He). inv Ee.
  simpl in *. lia.
Qed.

Lemma ghostify_live d p : live d p = true -> ghostify d p = p.
Proof.
  unfold live, ghostify. intros H. apply andb_true_iff in H. destruct H as [H1 H2].
  rewrite H2. destruct (is_type p Ghost); auto.
Qed.
Lemma ghostify_dead d p : live d p = false -> is_type (ghostify d p) Ghost = true.
Proof.
  unfold live, ghostify. destruct (is_type p Ghost) eqn:E; simpl; auto.
  destruct (isInDomain d (p_pos p)); simpl; try discriminate. reflexivity.
Qed.
Lemma ghostify_pos d p : p_pos (ghostify d p) = p_pos p.
Proof. unfold ghostify. destruct (is_type p Ghost), (isInDomain d (p_pos p)); reflexivity. Qed.

Lemma live_not_ghost d p : live d p = true -> is_type p Ghost = false.
Proof. unfold live. destruct (is_type p Ghost); simpl; auto. Qed.

Theorem setNeighbors_run ns ps :
  searcher_ok ns (List.length ps) -> ids_ok ps -> cells_ok (ns_bucket ns) ps ->
  exists ns', setNeighbors ns ps = Ok (ns', map (searched ns ps) ps) /\
    searcher_ok ns' (List.length ps) /\ ns_re ns' = ns_re ns /\ ns_domain ns' = ns_domain ns /\
    shape_eq (ns_bucket ns') (ns_bucket ns).
Proof.
  intros SO I C. destruct SO.
  destruct (storeParticles_ok _ _ so_grid0 C I) as (b' & ps' & E & St).
  unfold setNeighbors. rewrite E. simpl. destruct St.
  destruct st_shape0 as (Sn & SX & SY & SZ & Sl & Sd).
  exists (mkNS (ns_re ns) (ns_domain ns) b').
  split; [|split; [constructor; simpl; auto; congruence|unfold shape_eq; simpl; tauto]].
  rewrite (each_mapM p_pos).
  - assert (M : mapM (neighborsOf ns b' ps') ps' = Ok (map (searched ns ps) ps)).
    { apply mapM_ok. subst ps'.
      assert (H : forall l, (forall p, In p l -> In p ps) ->
        Forall2 (fun a b => neighborsOf ns b' (map (ghostify (b_domain (ns_bucket ns))) ps) a = Ok b)
                (map (ghostify (b_domain (ns_bucket ns))) l) (map (searched ns ps) l)).
      { induction l as [|p l IH]; simpl; intros Hin; constructor; auto. clear IH.
        specialize (Hin p (or_introl eq_refl)).
        unfold neighborsOf, searched. rewrite so_dom0.
        destruct (live (ns_domain ns) p) eqn:L.
        - rewrite ghostify_live by auto. rewrite (live_not_ghost _ _ L).
          rewrite Sl, so_len0. unfold nlist.
          assert (L' : live (b_domain (ns_bucket ns)) p = true) by now rewrite so_dom0.
          destruct (bucketOf_range _ _ p so_grid0 C Hin L') as (c & Hc & Hg & _).
          rewrite so_dom0, so_len0 in Hc. rewrite Hc. simpl.
          assert (F : forall cs acc, (forall c', In c' cs -> in_grid (b_numX (ns_bucket ns)) (b_numY (ns_bucket ns)) (b_numZ (ns_bucket ns)) c') ->
             foldM (fun c' acc =>
                  jb <- flat (b_numX b') (b_numY b') c' ;;
                  j <- vget (b_first b') jb ;;
                  walk (S (List.length (b_next b'))) (ns_re ns) (map (ghostify (ns_domain ns)) ps) (b_next b') p j acc) cs acc
             = Ok (acc ++ flat_map (fun c' => flat_map (pick (ns_re ns) (map (ghostify (ns_domain ns)) ps) p)
                        (mem (ns_bucket ns) ps (List.length ps) (flatZ (b_numX (ns_bucket ns)) (b_numY (ns_bucket ns)) c'))) cs)).
          { induction cs as [|c' cs IH]; simpl; intros acc Hcs.
            - now rewrite app_nil_r.
            - destruct so_grid0. rewrite g_num0 in g_int0.
              destruct (flat_ok _ _ _ c' g_X0 g_Y0 g_Z0 g_int0 (Hcs _ (or_introl eq_refl))) as [Hf Hr].
              rewrite SX, SY, Hf. simpl.
              rewrite <- g_num0 in Hr.
              assert (Hv : vget (b_first b') (flatZ (b_numX (ns_bucket ns)) (b_numY (ns_bucket ns)) c') =
                 Ok (hdZ (mem (ns_bucket ns) ps (List.length ps) (flatZ (b_numX (ns_bucket ns)) (b_numY (ns_bucket ns)) c')))).
              { apply vget_ok. split; [lia|]. apply st_hd0. lia. }
              rewrite Hv. cbn [bind]. rewrite walk_ok.
              + cbn [bind]. rewrite SX, SY in IH. rewrite IH by auto. now rewrite <- app_assoc.
              + apply st_chain0. lia.
              + intros j Hj. rewrite map_length. apply mem_in in Hj. tauto.
              + destruct st_grid0. rewrite g_next1. pose proof (mem_length (ns_bucket ns) ps (flatZ (b_numX (ns_bucket ns)) (b_numY (ns_bucket ns)) c')). lia. }
          rewrite F; [reflexivity|]. intros c' Hc'. eapply around_in_grid; eauto.
        - rewrite (ghostify_dead _ _ L). reflexivity. }
      apply H; auto. }
    rewrite M. reflexivity.
  - intros w w' a Hw. unfold neighborsOf. destruct (is_type a Ghost); auto.
    destruct (cell (ns_domain ns) (b_length b') (p_pos a)); simpl; auto.
    erewrite foldM_ext; [reflexivity|]. intros c acc _. simpl.
    destruct (flat (b_numX b') (b_numY b') c); simpl; auto.
    destruct (vget (b_first b') a1); simpl; auto.
    apply walk_ext; auto.
  - intros w a a' H. unfold neighborsOf in H. destruct (is_type a Ghost); [now inv H|].
    binds H. binds H. inv H. reflexivity.
Qed.

(** membership in the neighbour list *)
Definition near_cells (d : domain) (len : num) (p q : particle) : Prop :=
  exists c c', cell d len (p_pos p) = Ok c /\ cell d len (p_pos q) = Ok c' /\ In c' (around c).

Lemma nlist_in ns ps i pi nb :
  searcher_ok ns (List.length ps) -> ids_ok ps -> cells_ok (ns_bucket ns) ps ->
  nth_error ps i = Some pi -> live (ns_domain ns) pi = true ->
  (In nb (nlist ns ps pi) <->
   exists j pj, nth_error ps j = Some pj /\ live (ns_domain ns) pj = true /\ j <> i /\
     near_cells (ns_domain ns) (ns_re ns) pi pj /\ nlt (pdist pi pj) (ns_re ns) = true /\
     nb = mkNb (Z.of_nat j) (pdist pi pj)).
Proof.
  intros SO I C Hpi L. destruct SO. unfold nlist.
  destruct (C pi (nth_error_In _ _ Hpi)) as (c & Hc & Hg); [now rewrite so_dom0|].
  rewrite so_dom0, so_len0 in Hc. rewrite Hc. rewrite in_flat_map. split.
  - intros (c' & Hc' & H). apply in_flat_map in H. destruct H as (j & Hj & H).
    apply mem_in in Hj. destruct Hj as (Hlt & pj & Hpj & Lj & Bj). rewrite so_dom0 in Lj.
    unfold pick in H. rewrite nth_error_map, Hpj in H. simpl in H. rewrite ghostify_live in H by auto.
    destruct (negb (Z.of_nat j =? p_id pi) && nlt (pdist pi pj) (ns_re ns)) eqn:E; [|contradiction].
    apply andb_true_iff in E. destruct E as [E1 E2].
    destruct H as [H|[]]. subst nb. exists j, pj. repeat split; auto.
    + rewrite (I _ _ Hpi) in E1. intros ->. rewrite Z.eqb_refl in E1. discriminate.
    + assert (Lj' : live (b_domain (ns_bucket ns)) pj = true) by now rewrite so_dom0.
      destruct (bucketOf_range _ _ pj so_grid0 C (nth_error_In _ _ Hpj) Lj') as (cj & Hcj & Hgj & _ & Bf & _).
      rewrite so_dom0, so_len0 in Hcj. exists c, cj. repeat split; auto.
      replace cj with c'; auto. destruct so_grid0.
      apply (flatZ_inj (b_numX (ns_bucket ns)) (b_numY (ns_bucket ns)) (b_numZ (ns_bucket ns))); auto.
      * apply (around_in_grid _ _ _ c); auto.
      * destruct cj as [[? ?] ?]; simpl in *; lia.
      * congruence.
  - intros (j & pj & Hpj & Lj & Hne & (c1 & c' & Hc1 & Hc' & Hin) & Hd & ->).
    assert (c1 = c) by congruence. subst c1. exists c'. split; auto.
    apply in_flat_map. exists j. split.
    + apply mem_in. split; [apply nth_error_Some; congruence|]. exists pj.
      rewrite so_dom0. repeat split; auto. unfold bucketOf. rewrite so_dom0, so_len0, Hc'. reflexivity.
    + unfold pick. rewrite nth_error_map, Hpj. simpl. rewrite ghostify_live by auto.
      rewrite Hd, (I _ _ Hpi). rewrite (proj2 (Z.eqb_neq (Z.of_nat j) (Z.of_nat i))) by lia. simpl. auto.
Qed.

Lemma NoDup_flat_map {A B} (f : A -> list B) l :
  NoDup l -> (forall a, In a l -> NoDup (f a)) ->
  (forall a a' b, In a l -> In a' l -> a <> a' -> In b (f a) -> ~ In b (f a')) ->
  NoDup (flat_map f l).
Proof.
  induction 1 as [|a l Hn Hnd IH]; simpl; intros H1 H2; [constructor|].
  assert (A1 : NoDup (f a)) by auto.
  assert (A2 : NoDup (flat_map f l)) by (apply IH; intros; eauto).
  assert (A3 : forall b, In b (f a) -> ~ In b (flat_map f l)).
  { intros b Hb Hc. apply in_flat_map in Hc. destruct Hc as (a' & Ha' & Hb').
    apply (H2 a a' b); auto. intros ->; auto. }
  clear - A1 A2 A3. induction A1; simpl; auto. constructor.
  - rewrite in_app_iff. intros [?|?]; auto. apply (A3 x); simpl; auto.
  - apply IHA1. intros; apply A3; simpl; auto.
Qed.

Lemma around_NoDup c : NoDup (around c).
Proof.
  destruct c as [[ix iy] iz]. unfold around.
  assert (T : forall i, NoDup (three i)).
  { intros i. unfold three. repeat constructor; simpl; lia. }
  apply NoDup_flat_map; auto.
  - intros a _. apply NoDup_flat_map; auto.
    + intros b _. apply FinFun.Injective_map_NoDup; auto. intros x y H; congruence.
    + intros b b' e _ _ Hne H H'. apply in_map_iff in H, H'.
      destruct H as (? & <- & _), H' as (? & E & _). congruence.
  - intros a a' e _ _ Hne H H'. apply in_flat_map in H, H'.
    destruct H as (? & _ & H), H' as (? & _ & H'). apply in_map_iff in H, H'.
    destruct H as (? & <- & _), H' as (? & E & _). congruence.
Qed.

Lemma nlist_NoDup ns ps pi :
  searcher_ok ns (List.length ps) -> cells_ok (ns_bucket ns) ps ->
  In pi ps -> live (ns_domain ns) pi = true ->
  NoDup (map nb_id (nlist ns ps pi)).
Proof.
  intros SO C Hpi L. destruct SO. unfold nlist.
  destruct (C pi Hpi) as (c & Hc & Hg); [now rewrite so_dom0|].
  rewrite so_dom0, so_len0 in Hc. rewrite Hc.
  rewrite flat_map_concat_map, concat_map, map_map, <- flat_map_concat_map.
  assert (K : forall l, NoDup l -> NoDup (map nb_id (flat_map (pick (ns_re ns) (map (ghostify (ns_domain ns)) ps) pi) l))
     /\ forall z, In z (map nb_id (flat_map (pick (ns_re ns) (map (ghostify (ns_domain ns)) ps) pi) l)) -> exists j, In j l /\ z = Z.of_nat j).
  { induction 1 as [|j l Hn Hnd IH]; simpl.
    - split; [constructor|tauto].
    - destruct IH as [IH1 IH2]. rewrite map_app. unfold pick at 1 3.
      destruct (nth_error (map (ghostify (ns_domain ns)) ps) j) as [q|]; simpl; [destruct (negb (Z.of_nat j =? p_id pi) && nlt (pdist pi q) (ns_re ns)); simpl|].
      + split.
        * constructor; auto. intros H. destruct (IH2 _ H) as (j' & H1 & H2). assert (j = j') by lia. subst; auto.
        * intros z [<-|H]; eauto. destruct (IH2 _ H) as (j' & H1 & H2); eauto.
      + split; auto. intros z H. destruct (IH2 _ H) as (j' & H1 & H2); eauto.
      + split; auto. intros z H. destruct (IH2 _ H) as (j' & H1 & H2); eauto. }
  apply NoDup_flat_map.
  - apply around_NoDup.
  - intros c' _. apply K. apply mem_NoDup.
  - intros c1 c2 z H1 H2 Hne Hz Hz'.
    destruct (K _ (mem_NoDup (ns_bucket ns) ps (List.length ps) (flatZ (b_numX (ns_bucket ns)) (b_numY (ns_bucket ns)) c1))) as [_ K1].
    destruct (K _ (mem_NoDup (ns_bucket ns) ps (List.length ps) (flatZ (b_numX (ns_bucket ns)) (b_numY (ns_bucket ns)) c2))) as [_ K2].
    destruct (K1 _ Hz) as (j & Hj & ->). destruct (K2 _ Hz') as (j' & Hj' & E). assert (j = j') by lia. subst j'.
    apply mem_in in Hj, Hj'. destruct Hj as (_ & q & Hq & _ & Hb), Hj' as (_ & q' & Hq' & _ & Hb').
    apply Hne. destruct so_grid0. apply (flatZ_inj (b_numX (ns_bucket ns)) (b_numY (ns_bucket ns)) (b_numZ (ns_bucket ns))); auto.
    + apply (around_in_grid _ _ _ c); auto.
    + apply (around_in_grid _ _ _ c); auto.
    + congruence.
Qed.
End NF.

(** ** Construction, and states a searcher can be in *)
Section Reach.
Context {N : Num}.


Record grid_shape (re : num) (d : domain) (n : nat) (ns : searcher) : Prop := {
  gs_x : exists q, to_int (ndiv (xLength d) re) = Ok q /\ b_numX (ns_bucket ns) = q + 3;
  gs_y : exists q, to_int (ndiv (yLength d) re) = Ok q /\ b_numY (ns_bucket ns) = q + 3;
  gs_z : exists q, to_int (ndiv (zLength d) re) = Ok q /\ b_numZ (ns_bucket ns) = q + 3;
  gs_num : b_num (ns_bucket ns) = b_numX (ns_bucket ns) * b_numY (ns_bucket ns) * b_numZ (ns_bucket ns);
  gs_int : 0 <= b_num (ns_bucket ns) <= int_max;
  gs_first : Z.of_nat (List.length (b_first (ns_bucket ns))) = b_num (ns_bucket ns);
  gs_last : Z.of_nat (List.length (b_last (ns_bucket ns))) = b_num (ns_bucket ns);
  gs_next : List.length (b_next (ns_bucket ns)) = n;
  gs_re : ns_re ns = re; gs_dom : ns_domain ns = d;
  gs_blen : b_length (ns_bucket ns) = re; gs_bdom : b_domain (ns_bucket ns) = d
}.

Lemma newSearcher_shape re d n ns : newSearcher re d n = Ok ns -> grid_shape re d n ns.
Proof.
  unfold newSearcher. intros H. binds H. inv H.
  unfold newBucket in E. binds E. binds E. binds E. binds E. binds E.
  unfold grid_count in E0, E1, E2. binds E0. binds E1. binds E2.
  apply cint_inv in E0, E1, E2, E3, E4. destruct E0, E1, E2, E3, E4. subst.
  destruct (_ <? 0) eqn:Neg in E; [discriminate|]. apply Z.ltb_ge in Neg.
  inv E. constructor; simpl; eauto; try (rewrite repeat_length; auto).
  - apply in_int_spec in H8. split; [auto|tauto].
  - now rewrite Z2Nat.id.
  - now rewrite Z2Nat.id.
Qed.

Lemma vset_length {A} (l : list A) i a l' : vset l i a = Ok l' -> List.length l' = List.length l.
Proof. intros H. apply vset_ok in H. destruct H as (_ & _ & ->). apply length_upd. Qed.

Lemma each_length {A} (body : list A -> A -> outcome A) v v' : each body v = Ok v' -> List.length v' = List.length v.
Proof.
  unfold each. apply foldM_inv with (P := fun w => List.length w = List.length v); auto.
  intros i t t' _ Ht H. destruct (nth_error t i); [|discriminate]. binds H. inv H. now rewrite length_upd.
Qed.

Lemma storeParticles_lengths b ps b' ps' :
  Z.of_nat (List.length (b_first b)) = b_num b -> Z.of_nat (List.length (b_last b)) = b_num b ->
  List.length (b_next b) = List.length ps ->
  storeParticles b ps = Ok (b', ps') ->
  shape_eq b' b /\ List.length ps' = List.length ps /\
  List.length (b_first b') = List.length (b_first b) /\ List.length (b_last b') = List.length (b_last b) /\
  List.length (b_next b') = List.length (b_next b).
Proof.
  unfold storeParticles. intros Hf Hl Hx H.
  destruct (negb _) in H; [discriminate|]. destruct (negb _) in H; [discriminate|].
  binds H. destruct r as [[[first last] next] ps1]. inv H.
  apply foldM_inv with (P := fun st => List.length (fst (fst (fst st))) = List.length (b_first b) /\
     List.length (snd (fst (fst st))) = List.length (b_last b) /\ List.length (snd (fst st)) = List.length (b_next b) /\
     List.length (snd st) = List.length ps) in E; simpl in *.
  - unfold shape_eq; simpl. tauto.
  - repeat split; auto; rewrite app_length, repeat_length, skipn_length; lia.
  - clear. intros i [[[first last] next] ps1] t' _ (H1 & H2 & H3 & H4) H. simpl in *. unfold store1 in H.
    destruct (nth_error ps1 i); [|discriminate]. destruct (is_type p Ghost); [inv H; auto|].
    destruct (negb _) in H; [inv H; simpl; rewrite length_upd; auto|].
    binds H. binds H. binds H. binds H. destruct r2 as [f' n']. binds H. inv H. simpl.
    apply vset_length in E3. destruct (r1 =? -1); binds E2; inv E2; apply vset_length in E4; repeat split; congruence.
Qed.

Lemma setNeighbors_shape re d n ns ps ns' ps' :
  List.length ps = n -> grid_shape re d n ns -> setNeighbors ns ps = Ok (ns', ps') ->
  grid_shape re d n ns' /\ List.length ps' = n.
Proof.
  intros Hn G H. unfold setNeighbors in H. binds H. destruct r as [b ps1]. binds H. inv H.
  destruct G. apply storeParticles_lengths in E; auto.
  destruct E as ((Sn & SX & SY & SZ & Sl & Sd) & L & Lf & Ll & Ln).
  apply each_length in E0.
  split; [constructor; simpl; rewrite ?SX, ?SY, ?SZ, ?Sn, ?Lf, ?Ll, ?Ln; auto; congruence|congruence].
Qed.

Lemma used_shape re d n ns : used_searcher re d n ns -> grid_shape re d n ns.
Proof.
  induction 1.
  - now apply newSearcher_shape.
  - eapply setNeighbors_shape; eauto.
Qed.

Lemma grid_shape_ok re d n ns :
  grid_shape re d n ns -> 0 < b_numX (ns_bucket ns) -> 0 < b_numY (ns_bucket ns) -> 0 < b_numZ (ns_bucket ns) ->
  searcher_ok ns n.
Proof.
  intros [] ? ? ?. repeat split; auto; try congruence; try lia.
Qed.

(** [mem], [nlist] and [searched] do not depend on the searcher's vectors *)
Lemma mem_shape b b' ps i k : shape_eq b b' -> mem b ps i k = mem b' ps i k.
Proof.
  intros (A & B & C & D & E & F). unfold mem. apply filter_ext. intros j.
  destruct (nth_error ps j); auto. unfold bucketOf. rewrite B, C, E, F. reflexivity.
Qed.

Lemma shape_of re d n ns ns' : grid_shape re d n ns -> grid_shape re d n ns' -> shape_eq (ns_bucket ns) (ns_bucket ns').
Proof.
  intros [] []. destruct gs_x0 as (? & X1 & X2), gs_x1 as (? & X3 & X4), gs_y0 as (? & Y1 & Y2), gs_y1 as (? & Y3 & Y4),
    gs_z0 as (? & Z1 & Z2), gs_z1 as (? & Z3 & Z4).
  assert (x = x0) by congruence. assert (x1 = x2) by congruence. assert (x3 = x4) by congruence. subst.
  unfold shape_eq. repeat split; try congruence.
Qed.

Lemma searched_shape re d n ns ns' ps p : grid_shape re d n ns -> grid_shape re d n ns' ->
  searched ns ps p = searched ns' ps p.
Proof.
  intros G G'. pose proof (shape_of _ _ _ _ _ G G') as Sh. destruct G, G'.
  unfold searched. rewrite gs_dom0, gs_dom1. destruct (live d p); auto. f_equal.
  unfold nlist. rewrite gs_dom0, gs_dom1, gs_re0, gs_re1.
  destruct (cell d re (p_pos p)); auto. destruct Sh as (A & B & C & D & E & F).
  apply flat_map_ext. intros c'. rewrite B, C. rewrite (mem_shape _ (ns_bucket ns')); auto. repeat split; auto.
Qed.
End Reach.
