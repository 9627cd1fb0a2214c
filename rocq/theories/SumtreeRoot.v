(** * SumtreeRoot: the tree of one tick and direction, seen from its root. *)
From Verif Require Import Base Dec Types State Sumtree TreeDefs Exec SumtreeProofs SumtreeRebalance SumtreeInsert PrefixSum.

(** ** Height and fuel *)
Lemma height_keys t : theight t <= Z.of_nat (length (keys t)).
Proof.
  induction t as [k e v|k l IHl r IHr]; cbn [theight keys length]; [lia|].
  rewrite app_length. pose proof (theight_pos l). pose proof (theight_pos r). lia.
Qed.

Lemma keys_leaves t : Z.of_nat (length (keys t)) = 2 * Z.of_nat (length (leaves t)) - 1.
Proof.
  induction t as [k e v|k l IHl r IHr]; cbn [keys leaves length]; [lia|]. rewrite !app_length. lia.
Qed.

(** A tree of n leaves has height at most 2 log2 n + 1. *)
Lemma avl_height t : avl t -> 2 ^ (theight t / 2) <= Z.of_nat (length (leaves t)).
Proof.
  induction t as [k e v|k l IHl r IHr]; cbn [theight leaves length avl]; intros Ha.
  - reflexivity.
  - destruct Ha as (Hl & Hr & Hb). specialize (IHl Hl). specialize (IHr Hr). rewrite app_length.
    pose proof (theight_pos l). pose proof (theight_pos r).
    set (h := Z.max (theight l) (theight r) + 1).
    assert (Hle : 2 ^ (h / 2 - 1) <= 2 ^ (theight l / 2)) by (apply Z.pow_le_mono_r; [lia|unfold h; Z.to_euclidean_division_equations; lia]).
    assert (Hre : 2 ^ (h / 2 - 1) <= 2 ^ (theight r / 2)) by (apply Z.pow_le_mono_r; [lia|unfold h; Z.to_euclidean_division_equations; lia]).
    assert (Hh : 1 <= h / 2) by (unfold h; Z.to_euclidean_division_equations; lia).
    replace (2 ^ (h / 2)) with (2 * 2 ^ (h / 2 - 1)).
    2:{ rewrite <- Z.pow_succ_r by lia. f_equal. lia. }
    lia.
Qed.

Fixpoint fib (n : nat) : Z :=
  match n with O => 0 | S n' => match n' with O => 1 | S n'' => fib n' + fib n'' end end.
Lemma fib_SS n : fib (S (S n)) = fib (S n) + fib n.
Proof. reflexivity. Qed.
Lemma fib_mono n : 0 <= fib n <= fib (S n).
Proof.
  induction n as [|n IH]; [cbn; lia|]. rewrite fib_SS.
  destruct n; [cbn; lia|]. pose proof (proj1 IH). rewrite fib_SS in *. lia.
Qed.
Lemma fib_mono_le a b : (a <= b)%nat -> fib a <= fib b.
Proof. induction 1; [lia|]. pose proof (fib_mono m). lia. Qed.
(** The Fibonacci bound of AVL trees. *)
Lemma avl_fib t : avl t -> fib (S (Z.to_nat (theight t))) <= Z.of_nat (length (leaves t)).
Proof.
  induction t as [k e v|k l IHl r IHr]; cbn [theight leaves length avl]; intros Ha.
  - reflexivity.
  - destruct Ha as (Hl & Hr & Hb). specialize (IHl Hl). specialize (IHr Hr). rewrite app_length.
    pose proof (theight_pos l). pose proof (theight_pos r).
    replace (Z.to_nat (Z.max (theight l) (theight r) + 1)) with (S (Z.to_nat (Z.max (theight l) (theight r)))) by lia.
    rewrite fib_SS.
    destruct (Z.le_gt_cases (theight l) (theight r)).
    + replace (Z.max (theight l) (theight r)) with (theight r) by lia.
      pose proof (fib_mono_le (Z.to_nat (theight r)) (S (Z.to_nat (theight l))) ltac:(lia)). lia.
    + replace (Z.max (theight l) (theight r)) with (theight l) by lia.
      pose proof (fib_mono_le (Z.to_nat (theight l)) (S (Z.to_nat (theight r))) ltac:(lia)). lia.
Qed.

Lemma nodup_bound (l : list Z) n :
  NoDup l -> Forall (fun k => 1 <= k <= n) l -> Z.of_nat (length l) <= Z.max 0 n.
Proof.
  intros Hnd HF. assert (Hsub : l ⊆+ seqZ 1 n).
  { apply NoDup_submseteq; [exact Hnd|]. intros x Hx. rewrite Forall_forall in HF.
    apply elem_of_seqZ. specialize (HF x Hx). lia. }
  apply submseteq_length in Hsub. rewrite seqZ_length in Hsub. lia.
Qed.

Lemma keys_size (tick : Z) (m : gmap (Z * Z) tnode) (K : list Z) :
  NoDup K -> (forall k, k ∈ K -> is_Some (m !! (tick, k))) -> (length K <= size m)%nat.
Proof.
  intros Hnd HK. rewrite <- size_dom.
  assert (Hs : (list_to_set (map (pair tick) K) : gset (Z * Z)) ⊆ dom m).
  { intros x Hx. apply elem_of_list_to_set in Hx. apply elem_of_list_fmap in Hx as (k & -> & Hk).
    apply elem_of_dom. auto. }
  apply subseteq_size in Hs. rewrite size_list_to_set in Hs.
  - rewrite map_length in Hs. exact Hs.
  - apply (NoDup_fmap_2 (pair tick)). exact Hnd.
Qed.

(** ** The tree of a tick and direction *)
Inductive tree_rep (tick : Z) (d : dir) (m : gmap (Z * Z) tnode) (tr : gmap (Z * dir) Z)
  : list (Z * Z) -> list Z -> Prop :=
| rep_none : (forall id, tr !! (tick, d) = Some id -> m !! (tick, id) = None) -> tree_rep tick d m tr [] []
| rep_one k kl e v :
    tr !! (tick, d) = Some k -> k <> kl ->
    m !! (tick, k) = Some (mkNode k tick d (Some kl) None None (NInternal v e (v + e) 2)) ->
    m !! (tick, kl) = Some (mkNode kl tick d None None (Some k) (NLeaf v e)) ->
    tree_rep tick d m tr [(e, v)] [k; kl]
| rep_full k l r :
    tr !! (tick, d) = Some k -> repr tick d m None (TNode k l r) -> NoDup (keys (TNode k l r)) ->
    avl (TNode k l r) -> tree_rep tick d m tr (leaves (TNode k l r)) (keys (TNode k l r)).

(** The node store of one tick: a tree per direction, node ids bounded by the counter. *)
Record store_ok (tick : Z) (m : gmap (Z * Z) tnode) (tr : gmap (Z * dir) Z) (ctr : Z)
       (L : dir -> list (Z * Z)) : Prop := {
  so_rep : forall d, exists K, tree_rep tick d m tr (L d) K;
  so_nodes : forall q n, m !! (tick, q) = Some n -> 1 <= q <= ctr;
  so_root : forall d id, tr !! (tick, d) = Some id -> 1 <= id <= ctr;
  so_pos : 0 <= ctr;
  so_only : forall q n, m !! (tick, q) = Some n -> exists d K, tree_rep tick d m tr (L d) K /\ q ∈ K
}.
(** The keys of a stored tree are determined by the store. *)
Lemma repr_unique tick d m : forall t1 t2 p, repr tick d m p t1 -> repr tick d m p t2 -> tkey t1 = tkey t2 -> t1 = t2.
Proof.
  induction t1 as [k e v|k l IHl r IHr]; intros t2 p H1 H2 E; destruct t2 as [k2 e2 v2|k2 l2 r2]; destruct H1 as (E1 & H1); destruct H2 as (E2 & H2); cbn [tkey] in E, E1, E2; subst k2; rewrite E1 in E2; cbn [node_of] in E2; try discriminate.
  - injection E2 as -> ->. reflexivity.
  - destruct H1 as [L1 R1]. destruct H2 as [L2 R2]. assert (El : tkey l = tkey l2) by congruence. assert (Er : tkey r = tkey r2) by congruence.
    rewrite (IHl l2 _ L1 L2 El), (IHr r2 _ R1 R2 Er). reflexivity.
Qed.
Lemma tree_rep_unique tick d m tr L K L' K' : tree_rep tick d m tr L K -> tree_rep tick d m tr L' K' -> K = K'.
Proof.
  intros H1 H2. destruct H1 as [N1|k kl e v T1 _ A1 B1|k l r T1 R1 _ _]; destruct H2 as [N2|k2 kl2 e2 v2 T2 _ A2 B2|k2 l2 r2 T2 R2 _ _]; try reflexivity;
    try (rewrite T1 in T2; injection T2 as <-).
  - rewrite (N1 _ T2) in A2. discriminate.
  - pose proof (N1 _ T2) as N. destruct R2 as [R2 _]. cbn in R2. congruence.
  - rewrite (N2 _ T1) in A1. discriminate.
  - rewrite A1 in A2. injection A2 as -> _ _. reflexivity.
  - destruct R2 as [R2 _]. cbn in R2. rewrite A1 in R2. discriminate.
  - pose proof (N2 _ T1) as N. destruct R1 as [R1 _]. cbn in R1. congruence.
  - destruct R1 as [R1 _]. cbn in R1. rewrite A2 in R1. discriminate.
  - f_equal. eapply repr_unique; eauto.
Qed.

Lemma tree_rep_dir tick d m tr L K q :
  tree_rep tick d m tr L K -> q ∈ K -> exists n, m !! (tick, q) = Some n /\ n_dir n = d.
Proof.
  intros H Hq. destruct H.
  - inversion Hq.
  - rewrite !elem_of_cons, elem_of_nil in Hq. destruct Hq as [->|[->|[]]]; eauto.
  - destruct (repr_key_lookup _ _ _ _ _ _ H0 Hq) as (n & E & _ & ?). eauto.
Qed.

Lemma tree_rep_frame tick d m m' tr tr' L K :
  tree_rep tick d m tr L K ->
  (forall q, q ∈ K -> m' !! (tick, q) = m !! (tick, q)) ->
  (forall id, tr !! (tick, d) = Some id -> m !! (tick, id) = None -> m' !! (tick, id) = None) ->
  tr' !! (tick, d) = tr !! (tick, d) -> tree_rep tick d m' tr' L K.
Proof.
  intros H Hm Hn Ht. destruct H as [H|k kl e v H1 H2 H3 H4|k l r H1 H2 H3 H4].
  - apply rep_none. intros id E. rewrite Ht in E. auto.
  - apply rep_one; try assumption; [congruence| |].
    + rewrite Hm by set_solver. assumption.
    + rewrite Hm by set_solver. assumption.
  - apply rep_full; try assumption; [congruence|]. eapply repr_frame; eauto.
Qed.

(** The root returned by get_or_init_root_node. *)
Lemma get_or_init_spec tick d s m tr c ctr L K :
  tree_rep tick d m tr L K ->
  unwrap_or (c !! tick) 0 = ctr -> (L = [] -> ctr + 1 <= U64_MAX) ->
  exists root tr0 c0 ctr0,
    get_or_init_root_node tick d (upd s m tr c) = (upd s m tr0 c0, Ok root) /\
    (L = [] /\ root = new_node tick d (ctr + 1) ntype_default /\ tr0 = <[(tick, d) := ctr + 1]> tr
       /\ c0 = <[tick := ctr + 1]> c /\ ctr0 = ctr + 1
     \/ L <> [] /\ tr0 = tr /\ c0 = c /\ ctr0 = ctr /\
        exists k, tr !! (tick, d) = Some k /\ m !! (tick, k) = Some root).
Proof.
  intros H Hc HU. unfold get_or_init_root_node. rewrite bind_read.
  unfold get_root_node. cbn [upd set_nodectr set_tree set_nodes s_tree s_nodes].
  change (set_nodectr c (set_tree tr (set_nodes m s))) with (upd s m tr c).
  destruct H as [H|k kl e v H1 H2 H3 H4|k l r H1 H2 H3 H4].
  - assert (E : exists er, (let? root_id := ok_or (tr !! (tick, d)) EStd in ok_or (m !! (tick, root_id)) EStd) = Err er).
    { destruct (tr !! (tick, d)) as [id|]; cbn [ok_or rbind]; [|eauto]. rewrite (H id eq_refl). cbn. eauto. }
    destruct E as [er ->].
    erewrite bind_ok.
    2:{ unfold generate_node_id. rewrite bind_read. cbn [upd set_nodectr set_tree set_nodes s_nodectr].
        rewrite Hc. specialize (HU eq_refl). destruct (Z.leb_spec (ctr + 1) U64_MAX); [|lia].
        change (set_nodectr c (set_tree tr (set_nodes m s))) with (upd s m tr c). reflexivity. }
    rewrite bind_mod. eexists _, _, _, _. split; [reflexivity|]. left. repeat split; reflexivity.
  - rewrite H1. cbn [ok_or rbind]. rewrite H3. cbn [ok_or]. eexists _, _, _, _. split; [reflexivity|].
    right. split; [discriminate|]. repeat split. eauto.
  - rewrite H1. cbn [ok_or rbind]. destruct H2 as [H2 H2']. cbn [tkey] in H2. rewrite H2. cbn [ok_or].
    eexists _, _, _, _. split; [reflexivity|].
    right. split; [apply leaves_nonempty|]. repeat split. eauto.
Qed.

Lemma generate_spec tick s m tr c ctr :
  unwrap_or (c !! tick) 0 = ctr -> ctr + 1 <= U64_MAX ->
  generate_node_id tick (upd s m tr c) = (upd s m tr (<[tick := ctr + 1]> c), Ok (ctr + 1)).
Proof.
  intros Hc HU. unfold generate_node_id. rewrite bind_read. cbn [upd set_nodectr set_tree set_nodes s_nodectr].
  rewrite Hc. destruct (Z.leb_spec (ctr + 1) U64_MAX); [|lia]. reflexivity.
Qed.

Lemma fuel_ok s tick d m tr c t p :
  repr tick d m p t -> NoDup (keys t) -> theight t <= Z.of_nat (tree_fuel (upd s m tr c)) - 2.
Proof.
  intros Hr Hnd. unfold tree_fuel. change (s_nodes (upd s m tr c)) with m.
  pose proof (height_keys t).
  assert (length (keys t) <= size m)%nat.
  { apply (keys_size tick); [exact Hnd|]. intros k Hk. destruct (repr_key_lookup _ _ _ _ _ _ Hr Hk) as (n & E & _). eauto. }
  lia.
Qed.

Lemma height_small t ctr : avl t -> NoDup (keys t) -> Forall (fun q => 1 <= q <= ctr) (keys t) ->
  ctr <= U64_MAX -> theight t < 2 ^ 31 - 1.
Proof.
  intros Ha Hnd HK Hc. pose proof (nodup_bound _ _ Hnd HK) as Hlen. pose proof (keys_leaves t).
  pose proof (avl_height t Ha) as Hh. pose proof (theight_pos t). pose proof U64_val.
  destruct (Z.lt_ge_cases (theight t) 200) as [|Hge]; [lia|]. exfalso.
  assert (2 ^ 100 <= 2 ^ (theight t / 2)) by (apply Z.pow_le_mono_r; [lia|Z.to_euclidean_division_equations; lia]).
  assert (2 ^ 100 > 2 * U64_MAX) by (vm_compute; reflexivity). lia.
Qed.

Lemma tree_rep_keys tick d m tr L K : tree_rep tick d m tr L K -> NoDup K.
Proof.
  intros H. destruct H; [constructor| |assumption].
  apply NoDup_cons. split; [rewrite elem_of_list_singleton; congruence|]. apply NoDup_singleton.
Qed.

Lemma store_keys tick m tr ctr L d K :
  store_ok tick m tr ctr L -> tree_rep tick d m tr (L d) K -> Forall (fun q => 1 <= q <= ctr) K.
Proof.
  intros Hs Hr. apply Forall_forall. intros q Hq. destruct (tree_rep_dir _ _ _ _ _ _ _ Hr Hq) as (n & E & _).
  eapply so_nodes; eauto.
Qed.

(** Re-establishing the store after changing the tree of direction [d] only. *)
Lemma store_ok_change tick m tr ctr L d K m' tr' ctr' K' L' :
  store_ok tick m tr ctr L -> tree_rep tick d m tr (L d) K ->
  tree_rep tick d m' tr' L' K' ->
  ctr <= ctr' ->
  (forall q, q ∈ K' -> 1 <= q <= ctr') ->
  (forall q, q ∉ K' -> m' !! (tick, q) = m !! (tick, q)) ->
  (forall q, q ∈ K' -> q ∈ K \/ ctr < q) -> (forall q, q ∈ K -> q ∈ K') ->
  (forall d', d' <> d -> tr' !! (tick, d') = tr !! (tick, d')) ->
  (forall id, tr' !! (tick, d) = Some id -> 1 <= id <= ctr') ->
  store_ok tick m' tr' ctr' (fun d' => if decide (d' = d) then L' else L d').
Proof.
  intros Hs HK HK' Hle Hb Hf Hsub Hsup Htr Hroot.
  assert (Hother : forall d' Kd, d' <> d -> tree_rep tick d' m tr (L d') Kd -> tree_rep tick d' m' tr' (L d') Kd).
  { intros d' Kd Hne HKd. eapply tree_rep_frame; [exact HKd| | |auto].
    + intros q Hq. apply Hf. intros Hin.
      destruct (tree_rep_dir _ _ _ _ _ _ _ HKd Hq) as (n & E & Ed).
      destruct (Hsub q Hin) as [Hin'|Hgt].
      * destruct (tree_rep_dir _ _ _ _ _ _ _ HK Hin') as (n2 & E2 & Ed2). congruence.
      * pose proof (so_nodes _ _ _ _ _ Hs _ _ E). lia.
    + intros id Eid En. rewrite Hf; [exact En|]. intros Hin.
      destruct (Hsub id Hin) as [Hin'|Hgt].
      * destruct (tree_rep_dir _ _ _ _ _ _ _ HK Hin') as (n2 & E2 & Ed2). congruence.
      * pose proof (so_root _ _ _ _ _ Hs _ _ Eid). lia. }
  split.
  - intros d'. destruct (decide (d' = d)) as [->|Hne]; [eauto|].
    destruct (so_rep _ _ _ _ _ Hs d') as [Kd HKd]. exists Kd. apply Hother; assumption.
  - intros q n E. destruct (decide (q ∈ K')) as [Hin|Hnin]; [auto|].
    rewrite Hf in E by exact Hnin. pose proof (so_nodes _ _ _ _ _ Hs _ _ E). lia.
  - intros d' id E. destruct (decide (d' = d)) as [->|Hne]; [auto|].
    rewrite Htr in E by exact Hne. pose proof (so_root _ _ _ _ _ Hs _ _ E). lia.
  - pose proof (so_pos _ _ _ _ _ Hs). lia.
  - intros q n E. destruct (decide (q ∈ K')) as [Hin|Hnin].
    + exists d, K'. split; [|exact Hin]. destruct (decide (d = d)); [exact HK'|congruence].
    + rewrite Hf in E by exact Hnin. destruct (so_only _ _ _ _ _ Hs _ _ E) as (d0 & K0 & HK0 & Hq). destruct (decide (d0 = d)) as [->|Hne].
      * exfalso. apply Hnin, Hsup. rewrite (tree_rep_unique _ _ _ _ _ _ _ _ HK HK0). exact Hq.
      * exists d0, K0. split; [|exact Hq]. destruct (decide (d0 = d)); [contradiction|]. apply Hother; assumption.
Qed.

Lemma tree_rep_nil tick d m tr L K : tree_rep tick d m tr L K -> L = [] -> K = [].
Proof.
  intros H. destruct H as [|k kl e v|k l r]; [reflexivity|discriminate|]. intros E. exfalso. cbn [leaves] in E. apply app_eq_nil in E as [E _]. destruct l as [|? l1 ?]; [discriminate|].
  revert E. clear. intros E. assert (H : forall t, leaves t <> []) by (induction t as [|? l IH r _]; cbn; [discriminate|]; intros K; apply app_eq_nil in K as [K _]; auto). exact (H _ E).
Qed.
Lemma store_ok_ext tick m tr ctr L L' :
  store_ok tick m tr ctr L -> (forall d, L' d = L d) -> store_ok tick m tr ctr L'.
Proof.
  intros [H1 H2 H3 H4 H5] E. split; auto.
  - intros d. rewrite E. apply H1.
  - intros q n Eq. destruct (H5 q n Eq) as (d & K & HK). exists d, K. rewrite E. exact HK.
Qed.

(** get_or_init_root_node keeps the store. *)
Lemma get_or_init_store tick d s m tr c ctr L :
  store_ok tick m tr ctr L -> unwrap_or (c !! tick) 0 = ctr -> (L d = [] -> ctr + 1 <= U64_MAX) ->
  exists root tr0 c0 ctr0,
    get_or_init_root_node tick d (upd s m tr c) = (upd s m tr0 c0, Ok root) /\
    store_ok tick m tr0 ctr0 L /\
    unwrap_or (c0 !! tick) 0 = ctr0 /\ ctr <= ctr0 <= ctr + 1 /\
    (L d = [] /\ root = new_node tick d ctr0 ntype_default /\ tr0 !! (tick, d) = Some ctr0
       /\ m !! (tick, ctr0) = None /\ ctr0 = ctr + 1
     \/ L d <> [] /\ ctr0 = ctr /\
        exists k, tr0 !! (tick, d) = Some k /\ m !! (tick, k) = Some root) /\
    (forall td, td <> (tick, d) -> tr0 !! td = tr !! td) /\
    (forall t', t' <> tick -> c0 !! t' = c !! t').
Proof.
  intros Hs Hc HU. destruct (so_rep _ _ _ _ _ Hs d) as [K HK].
  destruct (get_or_init_spec tick d s m tr c ctr (L d) K HK Hc HU) as (root & tr0 & c0 & ctr0 & E & Hcase).
  exists root, tr0, c0, ctr0. split; [exact E|].
  destruct Hcase as [(HL & -> & -> & -> & ->)|(HL & -> & -> & -> & k & Hk & Hkm)].
  - assert (Hfresh : m !! (tick, ctr + 1) = None).
    { destruct (m !! (tick, ctr + 1)) eqn:Em; [|reflexivity]. pose proof (so_nodes _ _ _ _ _ Hs _ _ Em). lia. }
    pose proof (so_pos _ _ _ _ _ Hs) as Hpos.
    split; [|split; [|split; [|split; [|split]]]].
    + eapply store_ok_ext.
      * apply (store_ok_change tick m tr ctr L d K m _ (ctr + 1) [] [] Hs HK); try lia.
        -- apply rep_none. intros id Eid. rewrite lookup_insert in Eid. injection Eid as <-. exact Hfresh.
        -- intros q Hq. inversion Hq.
        -- reflexivity.
        -- intros q Hq. inversion Hq.
        -- intros q Hq. rewrite (tree_rep_nil _ _ _ _ _ _ HK HL) in Hq. inversion Hq.
        -- intros d' Hd'. apply lookup_insert_ne. congruence.
        -- intros id Eid. rewrite lookup_insert in Eid. injection Eid as <-. lia.
      * intros d'. cbn. destruct (decide (d' = d)) as [->|]; congruence.
    + rewrite lookup_insert. reflexivity.
    + lia.
    + left. repeat split; try assumption. apply lookup_insert.
    + intros td Htd. apply lookup_insert_ne. congruence.
    + intros t' Ht'. apply lookup_insert_ne. congruence.
  - split; [exact Hs|]. split; [exact Hc|]. split; [lia|]. split; [|auto].
    right. eauto.
Qed.

(** ** Prefix sum from the root *)
Lemma real_zero F L : segs_ok L -> (forall p, p ∈ L -> F < p.1) -> real F 0 L = 0.
Proof.
  intros Hok H. destruct L as [|[e v] L]; cbn; [reflexivity|].
  specialize (H (e, v) ltac:(constructor)). cbn in H. destruct (Z.leb_spec e (F + 0)); [lia|reflexivity].
Qed.

Lemma root_prefix tick d s m tr c ctr L F prev :
  store_ok tick m tr ctr L -> segs_ok (L d) ->
  unwrap_or (c !! tick) 0 = ctr -> ctr <= U64_MAX -> (L d = [] -> ctr + 1 <= U64_MAX) ->
  0 <= F -> 0 <= prev <= lsum (L d) -> okprev F prev 0 (L d) -> F + lsum (L d) <= U256_MAX ->
  (forall q, q ∈ L d -> q.1 + q.2 <= U256_MAX) ->
  exists root tr0 c0 ctr0,
    get_or_init_root_node tick d (upd s m tr c) = (upd s m tr0 c0, Ok root) /\
    get_prefix_sum (upd s m tr0 c0) root (F + prev) prev = Ok (real F 0 (L d)) /\
    store_ok tick m tr0 ctr0 L /\
    unwrap_or (c0 !! tick) 0 = ctr0 /\ ctr <= ctr0 <= ctr + 1 /\ ctr0 <= U64_MAX /\
    (forall td, td <> (tick, d) -> tr0 !! td = tr !! td) /\
    (forall t', t' <> tick -> c0 !! t' = c !! t').
Proof.
  intros Hs Hok Hc HU0 HU HF Hprev Hokp Hsum Hends.
  destruct (get_or_init_store tick d s m tr c ctr L Hs Hc HU)
    as (root & tr0 & c0 & ctr0 & E & Hs0 & Hc0 & Hle & Hcase & Htr & Hcc).
  assert (HU' : ctr0 <= U64_MAX).
  { destruct Hcase as [(HL & _ & _ & _ & ->)|(_ & -> & _)]; [auto|lia]. }
  exists root, tr0, c0, ctr0. split; [exact E|]. split; [|auto 10].
  destruct Hcase as [(HL & -> & _ & _ & _)|(HL & _ & k & Hk & Hkm)].
  - rewrite HL in *. cbn in Hprev. assert (prev = 0) as -> by lia. unfold get_prefix_sum, tree_fuel. cbn [prefix_sum_walk].
    cbn [get_min_range get_max_range new_node ntype_default n_type get_value real].
    destruct (Z.ltb_spec (F + 0) U256_MAX); [reflexivity|]. cbn [rbind].
    destruct (Z.leb_spec 0 (F + 0)); [reflexivity|lia].
  - destruct (so_rep _ _ _ _ _ Hs0 d) as [K HK]. remember (L d) as Ld eqn:ELd.
    destruct HK as [HK|k1 kl e v H1 H2 H3 H4|k1 l r H1 H2 H3 H4].
    + congruence.
    + rewrite H1 in Hk. injection Hk as <-. rewrite H3 in Hkm. injection Hkm as <-.
      cbn [lsum] in Hprev, Hsum. cbn [snd] in Hprev, Hsum.
      destruct (segs_ok_pos _ (e, v) Hok ltac:(constructor)) as [He Hv]. cbn in He, Hv.
      specialize (Hends (e, v) ltac:(constructor)). cbn in Hends.
      destruct Hokp as [Hx _].
      unfold get_prefix_sum, tree_fuel. change (s_nodes (upd s m tr0 c0)) with m.
      cbn [prefix_sum_walk get_min_range get_max_range n_type get_value is_internal negb rbind].
      unfold get_left, get_right. cbn [n_left n_right n_tick load_child].
      change (s_nodes (upd s m tr0 c0)) with m. rewrite H4.
      cbn [rbind get_min_range get_max_range n_type get_value option_map unwrap_or is_internal negb].
      cbn [real].
      destruct (Z.ltb_spec (F + prev) e) as [Hlt|Hge].
      { destruct (Z.leb_spec e (F + 0)) as [Hle2|]; [|reflexivity].
        exfalso. lia. }
      assert (Hreal : e <= F + 0).
      { destruct (Z.lt_ge_cases 0 prev) as [Hp|Hp]; [specialize (Hx Hp); lia|lia]. }
      destruct (Z.leb_spec e (F + 0)); [|lia].
      destruct (Z.leb_spec (v + e) (F + prev)); [reflexivity|].
      rewrite checked_add_ok by lia. cbn [rbind].
      destruct (Z.ltb_spec (F + prev) (v + e)); [|lia].
      rewrite checked_sub_ok by lia. cbn [rbind].
      destruct (Z.leb_spec (v + e) (F + prev)); f_equal; lia.
    + rewrite H1 in Hk. injection Hk as <-.
      pose proof (repr_lookup _ _ _ _ _ H2) as Hroot. cbn [tkey] in Hroot. assert (root = node_of tick d None (TNode k1 l r)) as -> by congruence.
      unfold get_prefix_sum. rewrite node_of_value.
      change (s_nodes (upd s m tr0 c0)) with m in *.
      assert (Hfuel := fuel_ok s tick d m tr0 c0 _ _ H2 H3).
      assert (Htmax : tmax (TNode k1 l r) <= U256_MAX).
      { destruct (tmax_in (TNode k1 l r)) as (q & Hq & Eq). specialize (Hends q Hq). lia. }
      destruct (Z.le_gt_cases (tmin (TNode k1 l r)) (F + prev)) as [Hmin|Hmin].
      * pose proof (walk_spec tick d (upd s m tr0 c0) F prev (TNode k1 l r) (tree_fuel (upd s m tr0 c0)) None 0) as W.
        replace (Z.max 0 prev) with prev in W by lia. cbn [Z.add] in W.
        replace (0 + tsum (TNode k1 l r)) with (tsum (TNode k1 l r)) in W by lia.
        apply W; try assumption; try lia.
        rewrite (tsum_lsum (TNode k1 l r)). lia.
      * unfold tree_fuel. cbn [prefix_sum_walk]. rewrite node_of_min.
        destruct (Z.ltb_spec (F + prev) (tmin (TNode k1 l r))); [|lia].
        f_equal. symmetry. apply real_zero; [exact Hok|].
        intros q Hq. pose proof (tmin_le _ _ Hok Hq). lia.
Qed.

(** ** Inserting a cancelled range from the root *)
Lemma sync_one_spec tick d s m tr c k kl e v p pl x1 x2 x3 x4 :
  m !! (tick, kl) = Some (mkNode kl tick d None None pl (NLeaf v e)) -> v + e <= U256_MAX -> 0 <= e ->
  sync_range_and_value (mkNode k tick d (Some kl) None p (NInternal x1 x2 x3 x4)) (upd s m tr c) =
  (upd s (<[(tick, k) := mkNode k tick d (Some kl) None p (NInternal v e (v + e) 2)]> m) tr c,
   Ok (mkNode k tick d (Some kl) None p (NInternal v e (v + e) 2))).
Proof.
  intros Hm Hmax He. unfold sync_range_and_value.
  rewrite bind_ensure by reflexivity. rewrite !bind_read.
  unfold get_left, get_right. cbn [n_left n_right n_tick load_child].
  change (s_nodes (upd s m tr c)) with m. rewrite Hm.
  cbn [has_child n_left n_right negb get_max_range get_min_range n_type].
  rewrite checked_add_ok by exact Hmax. cbn [rbind]. rewrite bind_lift_ok. cbn [fst snd].
  cbn [set_min_range set_max_range n_type n_set_type n_key n_tick n_dir n_left n_right n_parent]. rewrite !bind_lift_ok.
  cbn [set_min_range set_max_range n_type n_set_type n_key n_tick n_dir n_left n_right n_parent]. rewrite ?bind_lift_ok.
  cbn [option_map unwrap_or get_value get_weight n_type].
  rewrite checked_add_ok by lia. rewrite ?bind_lift_ok.
  cbn [set_value set_weight n_type n_set_type n_key n_tick n_dir n_left n_right n_parent]. rewrite ?bind_lift_ok.
  cbn [Z.max Z.compare Z.add]. change (2 <=? U64_MAX) with true. cbn [Pos.compare Pos.compare_cont].
  rewrite ?bind_lift_ok. cbn [set_value set_weight n_type n_set_type n_key n_tick n_dir n_left n_right n_parent].
  rewrite ?bind_lift_ok. rewrite Z.add_0_r. reflexivity.
Qed.

(** State and result of inserting range [(e, v)] under a fresh node id. *)
Record ins_result (tick : Z) (d : dir) (m m' : gmap (Z * Z) tnode) (tr tr' : gmap (Z * dir) Z) (c c' : gmap Z Z)
  (ctr : Z) (L : dir -> list (Z * Z)) (e v : Z) (n' : tnode) : Prop := {
  ir_split : exists L1 L2, L d = L1 ++ L2 /\ segs_ok (L1 ++ (e, v) :: L2) /\
               store_ok tick m' tr' (unwrap_or (c' !! tick) 0)
                        (fun d' => if decide (d' = d) then L1 ++ (e, v) :: L2 else L d');
  ir_ctr : ctr <= unwrap_or (c' !! tick) 0 <= ctr + 3;
  ir_max : unwrap_or (c' !! tick) 0 <= U64_MAX;
  ir_self : m' !! (n_tick n', n_key n') = Some n';
  ir_nodes : forall t q, t <> tick -> m' !! (t, q) = m !! (t, q);
  ir_tree : forall td, td <> (tick, d) -> tr' !! td = tr !! td;
  ir_ctrs : forall t, t <> tick -> c' !! t = c !! t
}.

Lemma root_insert tick d s m tr c ctr L e v :
  store_ok tick m tr ctr L -> segs_ok (L d) ->
  unwrap_or (c !! tick) 0 = ctr ->
  (L d = [] -> ctr + 2 <= U64_MAX) -> ctr + 1 <= U64_MAX -> (2 <= Z.of_nat (length (L d)) -> ctr + 2 <= U64_MAX) ->
  0 <= e -> 0 < v -> apart e v (L d) -> e + v <= U256_MAX ->
  (forall q, q ∈ L d -> q.1 + q.2 <= U256_MAX) ->
  exists root tr0 c0 kn c1 m' tr' c' n' nw,
    get_or_init_root_node tick d (upd s m tr c) = (upd s m tr0 c0, Ok root) /\
    generate_node_id tick (upd s m tr0 c0) = (upd s m tr0 c1, Ok kn) /\
    tree_insert root (new_node tick d kn (NLeaf v e)) (upd s m tr0 c1) = (upd s m' tr' c', Ok (n', nw)) /\
    ins_result tick d m m' tr tr' c c' ctr L e v n'.
Proof.
  intros Hs Hok Hc HU0 HU1 HU2 He Hv Hap Hmax Hends.
  destruct (get_or_init_store tick d s m tr c ctr L Hs Hc ltac:(lia))
    as (root & tr0 & c0 & ctr0 & E & Hs0 & Hc0 & Hle & Hcase & Htr & Hcc).
  pose proof (so_pos _ _ _ _ _ Hs0) as Hpos0.
  assert (HUk : ctr0 + 1 <= U64_MAX).
  { destruct Hcase as [(HL & _ & _ & _ & ->)|(_ & -> & _)]; [specialize (HU0 HL)|]; lia. }
  assert (E2 := generate_spec tick s m tr0 c0 ctr0 Hc0 HUk).
  set (kn := ctr0 + 1) in *. set (c1 := <[tick := kn]> c0) in *.
  assert (Hc1 : unwrap_or (c1 !! tick) 0 = kn) by (unfold c1; rewrite lookup_insert; reflexivity).
  assert (Hknm : m !! (tick, kn) = None).
  { destruct (m !! (tick, kn)) eqn:Em; [|reflexivity]. pose proof (so_nodes _ _ _ _ _ Hs0 _ _ Em). unfold kn in *. lia. }
  exists root, tr0, c0, kn, c1.
  destruct (so_rep _ _ _ _ _ Hs0 d) as [K HK].
  destruct Hcase as [(HL & -> & Hroot & Hnone & Hc0e)|(HL & Hc0e & k & Hk & Hkm)].
  - (* first range of this tick and direction: Case 7 *)
    rewrite HL in HK. destruct (so_rep _ _ _ _ _ Hs d) as [K0 HK0].
    set (nl := mkNode kn tick d None None (Some ctr0) (NLeaf v e)).
    set (nr := mkNode ctr0 tick d (Some kn) None None (NInternal v e (v + e) 2)).
    assert (Hne : (tick, ctr0) <> (tick, kn)) by (unfold kn; intros [=]; lia).
    set (r0 := mkNode ctr0 tick d (Some kn) None None (NInternal 0 U256_MAX 0 0)).
    exists (<[(tick, ctr0) := nr]> (<[(tick, ctr0) := r0]> (<[(tick, kn) := nl]> m))), tr0, c1, nr, nl.
    split; [exact E|]. split; [exact E2|]. split.
    + unfold tree_insert, tree_fuel. cbn [node_insert].
      rewrite !bind_ensure by reflexivity. rewrite !bind_read.
      unfold get_left, get_right. cbn [new_node n_left n_right n_tick load_child].
      rewrite bind_ensure by reflexivity. cbn [map_or_false]. rewrite !bind_lift_ok.
      cbn [n_set_left n_set_parent n_key n_tick n_dir n_left n_right n_parent n_type new_node ntype_default].
      change (n_set_left (new_node tick d ctr0 ntype_default) (Some kn)) with r0.
      change (n_set_parent (new_node tick d kn (NLeaf v e)) (Some ctr0)) with nl.
      erewrite bind_ok by apply save_upd. erewrite bind_ok by apply save_upd.
      change (n_tick r0, n_key r0) with (tick, ctr0). change (n_tick nl, n_key nl) with (tick, kn).
      set (m1 := <[(tick, ctr0) := r0]> (<[(tick, kn) := nl]> m)).
      assert (Hm1k : m1 !! (tick, ctr0) = Some r0) by apply lookup_insert.
      assert (Hm1l : m1 !! (tick, kn) = Some nl).
      { unfold m1. rewrite lookup_insert_ne by exact Hne. apply lookup_insert. }
      erewrite bind_ok.
      2:{ unfold rebalance. erewrite bind_ok.
          2:{ unfold node_sync, mreadr. change (n_tick r0, n_key r0) with (tick, ctr0). change (s_nodes (upd s m1 tr0 c1)) with m1.
              rewrite Hm1k. reflexivity. }
          rewrite !bind_ensure by reflexivity. rewrite bind_read.
          unfold get_balance_factor, get_left, get_right. cbn [r0 n_tick n_left n_right load_child].
          change (s_nodes (upd s m1 tr0 c1)) with m1. rewrite Hm1l.
          cbn [option_map unwrap_or nl get_weight n_type]. change (Z.abs (as_i32 0 - as_i32 1) <=? 1) with true. cbv iota.
          apply (sync_one_spec tick d s m1 tr0 c1 ctr0 kn e v None (Some ctr0)); [exact Hm1l|lia|exact He]. }
      reflexivity.
    + assert (Hsub : forall q, q <> ctr0 -> q <> kn ->
        <[(tick, ctr0) := nr]> (<[(tick, ctr0) := r0]> (<[(tick, kn) := nl]> m)) !! (tick, q) = m !! (tick, q)).
      { intros q H1 H2. rewrite !lookup_insert_ne by congruence. reflexivity. }
      split.
      * exists [], []. split; [exact HL|]. split; [apply segs_ok_singleton; assumption|]. rewrite Hc1.
        cbn [app]. eapply (store_ok_change tick m tr ctr L d K0 _ tr0 kn [ctr0; kn]); try assumption.
        -- apply rep_one; [exact Hroot|unfold kn; lia|apply lookup_insert|].
           rewrite !lookup_insert_ne by exact Hne. apply lookup_insert.
        -- unfold kn; lia.
        -- intros q Hq. rewrite !elem_of_cons, elem_of_nil in Hq. unfold kn in *.
           pose proof (so_pos _ _ _ _ _ Hs). destruct Hq as [->|[->|[]]]; lia.
        -- intros q Hq. rewrite !elem_of_cons, elem_of_nil in Hq. apply Hsub; tauto.
        -- intros q Hq. rewrite !elem_of_cons, elem_of_nil in Hq. unfold kn in *. right.
           destruct Hq as [->|[->|[]]]; lia.
        -- intros q Hq. rewrite (tree_rep_nil _ _ _ _ _ _ HK0 HL) in Hq. inversion Hq.
        -- intros d' Hd'. apply Htr. congruence.
        -- intros id Eid. rewrite Hroot in Eid. injection Eid as <-. pose proof (so_pos _ _ _ _ _ Hs); unfold kn; lia.
      * rewrite Hc1. unfold kn. lia.
      * rewrite Hc1. exact HUk.
      * cbn [nr n_tick n_key]. apply lookup_insert.
      * intros t q Ht. rewrite !lookup_insert_ne by congruence. reflexivity.
      * exact Htr.
      * intros t Ht. unfold c1. rewrite lookup_insert_ne by congruence. auto.
  - clear Hc0. subst ctr0. remember (L d) as Ld eqn:ELd.
    destruct HK as [HK|k1 kl e1 v1 H1 H2 H3 H4|k1 l r H1 H2 H3 H4].
    + congruence.
    + (* one range so far: Cases 6 and 8 *)
      rewrite H1 in Hk. injection Hk as <-. rewrite H3 in Hkm. injection Hkm as <-.
      destruct (segs_ok_pos _ (e1, v1) Hok ltac:(constructor)) as [He1 Hv1]. cbn in He1, Hv1.
      specialize (Hends (e1, v1) ltac:(constructor)). cbn in Hends.
      pose proof (so_nodes _ _ _ _ _ Hs0 _ _ H3) as Hk1b. pose proof (so_nodes _ _ _ _ _ Hs0 _ _ H4) as Hklb.
      set (root := mkNode k1 tick d (Some kl) None None (NInternal v1 e1 (v1 + e1) 2)) in *.
      set (nw := mkNode kn tick d None None (Some k1) (NLeaf v e)).
      set (lo := TLeaf kl e1 v1). set (ln := TLeaf kn e v).
      assert (Hord : (e + v <= e1 \/ e1 + v1 <= e)).
      { destruct (Hap (e1, v1) ltac:(constructor)) as [Hx|Hx]; unfold seg_before in Hx; cbn in Hx; lia. }
      set (l := if v + e <=? e1 then ln else lo). set (r := if v + e <=? e1 then lo else ln).
      set (self := mkNode k1 tick d (Some (tkey l)) (Some (tkey r)) None (NInternal v1 e1 (v1 + e1) 2)).
      set (m1 := <[(tick, k1) := self]> (<[(tick, kn) := nw]> m)).
      assert (Hkne : kn <> k1 /\ kn <> kl) by (unfold kn; lia).
      assert (Hm1k : m1 !! (tick, k1) = Some self) by apply lookup_insert.
      assert (Hm1n : m1 !! (tick, kn) = Some nw).
      { unfold m1. rewrite lookup_insert_ne by (intros [=]; lia). apply lookup_insert. }
      assert (Hm1l : m1 !! (tick, kl) = Some (mkNode kl tick d None None (Some k1) (NLeaf v1 e1))).
      { unfold m1. rewrite !lookup_insert_ne by (intros [=]; lia). exact H4. }
      destruct (rebalance_spec tick d s m1 tr0 c1 None k1 l r v1 e1 (v1 + e1) 2 self) as (m' & t' & n' & Er & Hb);
        try reflexivity; try exact Hm1k.
      { split.
        - unfold l. destruct (v + e <=? e1); (split; [cbn; assumption|exact I]).
        - unfold r. destruct (v + e <=? e1); (split; [cbn; assumption|exact I]).
        - unfold l, r. destruct (v + e <=? e1); cbn; rewrite !NoDup_cons, !elem_of_cons, !elem_of_nil;
            (repeat split; [lia|lia|tauto|constructor]).
        - unfold l, r. destruct (Z.leb_spec (v + e) e1); cbn.
          + apply (segs_insert [] [(e1, v1)]); try assumption; [intros q Hq; inversion Hq|].
            intros q Hq. apply elem_of_list_singleton in Hq as ->. unfold seg_before. cbn. lia.
          + apply (segs_insert [(e1, v1)] []); try assumption; [|intros q Hq; inversion Hq].
            intros q Hq. apply elem_of_list_singleton in Hq as ->. unfold seg_before. cbn. lia.
        - unfold r. destruct (v + e <=? e1); cbn; lia.
        - exact I.
        - discriminate.
        - unfold l, r. destruct (v + e <=? e1); cbn; lia. }
      { unfold l. destruct (v + e <=? e1); exact I. }
      { unfold r. destruct (v + e <=? e1); exact I. }
      { unfold l, r. destruct (v + e <=? e1); cbn; lia. }
      { intros _. exact H1. }
      exists m', (<[(tick, d) := tkey t']> tr0), c1, n', nw.
      split; [exact E|]. split; [exact E2|]. split.
      * unfold tree_insert, tree_fuel. cbn [node_insert].
        rewrite !bind_ensure by reflexivity. rewrite !bind_read.
        unfold get_left, get_right. cbn [root new_node n_left n_right n_tick load_child].
        change (s_nodes (upd s m tr0 c1)) with m. rewrite H4.
        rewrite bind_ensure by reflexivity. cbn [map_or_false].
        unfold in_or_below_range, below_range. cbn [get_max_range get_min_range new_node n_type].
        rewrite !checked_add_ok by lia. cbn [rbind]. rewrite !bind_lift_ok. cbn [is_internal n_type andb].
        assert (Hgo : forall A (k : tnode -> M storage A),
          (let! _ := node_save nw in let! _ := node_save self in let! self := rebalance self in k self) (upd s m tr0 c1)
          = k n' (upd s m' (<[(tick, d) := tkey t']> tr0) c1)).
        { intros A kk. erewrite bind_ok by apply save_upd. erewrite bind_ok by apply save_upd.
          change (n_tick self, n_key self) with (tick, k1). change (n_tick nw, n_key nw) with (tick, kn).
          fold m1. erewrite bind_ok by exact Er. reflexivity. }
        unfold self, l, r in Hgo. destruct (v + e <=? e1); exact (Hgo _ (fun self => mret (self, nw))).
      * destruct Hb as [B1 B2 B3 B4 B5 B6 B7 B8 B9 B10].
        assert (Hfr : forall key, (forall q, q ∈ keys t' -> key <> (tick, q)) -> m' !! key = m !! key).
        { intros key Hkey. rewrite B8 by exact Hkey. cbn [put_parent]. unfold m1.
          rewrite !lookup_insert_ne; [reflexivity| |].
          - intros <-. apply (Hkey kn); [|reflexivity]. rewrite B3. unfold l, r.
            destruct (v + e <=? e1); cbn; rewrite !elem_of_cons; tauto.
          - intros <-. apply (Hkey k1); [|reflexivity]. rewrite B3. constructor. }
        assert (Hkeys : forall q, q ∈ keys t' <-> q = k1 \/ q = kl \/ q = kn).
        { intros q. rewrite B3. unfold l, r. destruct (v + e <=? e1); cbn; rewrite !elem_of_cons, elem_of_nil; tauto. }
        assert (Hshape : exists kt a b, t' = TNode kt a b).
        { destruct t' as [kt et vt|]; [|eauto]. exfalso. cbn in B6.
          pose proof (theight_pos l). specialize (B7 ltac:(unfold l, r; destruct (v + e <=? e1); cbn; lia)).
          cbn in B7. unfold l, r in B7. destruct (v + e <=? e1); cbn in B7; lia. }
        destruct Hshape as (kt & ta & tb & ->).
        assert (HST : forall L', leaves (TNode kt ta tb) = L' ->
          store_ok tick m' (<[(tick, d) := kt]> tr0) kn (fun d' => if decide (d' = d) then L' else L d')).
        { intros L' <-. eapply (store_ok_change tick m tr0 ctr L d [k1; kl] _ _ kn (keys (TNode kt ta tb))); try assumption.
          - rewrite <- ELd. apply rep_one; assumption.
          - apply rep_full; try assumption; [apply lookup_insert|]. rewrite B3. unfold l, r.
            destruct (v + e <=? e1); cbn; rewrite !NoDup_cons, !elem_of_cons, !elem_of_nil;
            (repeat split; [lia|lia|tauto|constructor]).
          - unfold kn; lia.
          - intros q Hq. apply Hkeys in Hq. unfold kn in *. destruct Hq as [->|[->| ->]]; lia.
          - intros q Hq. apply Hfr. intros q' Hq' [= <-]. contradiction.
          - intros q Hq. apply Hkeys in Hq. rewrite !elem_of_cons. unfold kn in *.
            destruct Hq as [->|[->| ->]]; [tauto|tauto|lia].
          - intros q Hq. apply Hkeys. rewrite !elem_of_cons, elem_of_nil in Hq. tauto.
          - intros d' Hd'. apply lookup_insert_ne. congruence.
          - intros id Eid. rewrite lookup_insert in Eid. injection Eid as <-.
            assert (Hin : kt ∈ keys (TNode kt ta tb)) by constructor. apply Hkeys in Hin. unfold kn in *. lia. }
        split.
        -- rewrite Hc1. cbn [tkey].
           destruct (Z.leb_spec (v + e) e1) as [Hlt|Hge]; unfold l, r in B2;
             [destruct (Z.leb_spec (v + e) e1) in B2; [|lia]|destruct (Z.leb_spec (v + e) e1) in B2; [lia|]]; cbn in B2.
           ++ exists [], [(e1, v1)]. split; [symmetry; exact ELd|]. split; [|exact (HST _ B2)].
              apply (segs_insert [] [(e1, v1)]); try assumption; [intros q Hq; inversion Hq|].
              intros q Hq. apply elem_of_list_singleton in Hq as ->. unfold seg_before. cbn. lia.
           ++ exists [(e1, v1)], []. split; [symmetry; exact ELd|]. split; [|exact (HST _ B2)].
              apply (segs_insert [(e1, v1)] []); try assumption; [|intros q Hq; inversion Hq].
              intros q Hq. apply elem_of_list_singleton in Hq as ->. unfold seg_before. cbn. lia.
        -- rewrite Hc1. unfold kn. lia.
        -- rewrite Hc1. exact HUk.
        -- rewrite B10. exact B9.
        -- intros t q Ht. apply Hfr. congruence.
        -- intros td Htd. rewrite lookup_insert_ne by congruence. auto.
        -- intros t Ht. unfold c1. rewrite lookup_insert_ne by congruence. auto.
    + (* general case *)
      rewrite H1 in Hk. injection Hk as <-.
      pose proof (repr_lookup _ _ _ _ _ H2) as Hroot. cbn [tkey] in Hroot.
      assert (root = node_of tick d None (TNode k1 l r)) as -> by congruence.
      set (t0 := TNode k1 l r) in *.
      assert (HUf : kn + 1 <= U64_MAX).
      { assert (2 <= Z.of_nat (length (leaves t0))).
        { unfold t0. cbn [leaves]. rewrite app_length. pose proof (leaves_nonempty l). pose proof (leaves_nonempty r).
          destruct (leaves l); [congruence|]. destruct (leaves r); [congruence|]. cbn. lia. }
        unfold kn. specialize (HU2 ltac:(assumption)). lia. }
      assert (HKb : Forall (fun q => 1 <= q <= ctr) (keys t0)).
      { eapply (store_keys tick m tr0 ctr L d); [exact Hs0|]. rewrite <- ELd. apply rep_full; assumption. }
      assert (Hh := height_small t0 ctr H4 H3 HKb ltac:(lia)).
      destruct (node_insert_spec tick d s kn kn e v HUf (tree_fuel (upd s m tr0 c1)) k1 l r None m tr0 c1)
        as (m' & t' & n' & nw & Ei & [I1 I2 I3 I4 I5 I6 I7 I8 I9 I10]); try assumption.
      { pose proof (fuel_ok s tick d m tr0 c1 _ _ H2 H3) as Hfu. unfold t0 in Hfu. lia. }
      { split; try assumption; try lia.
        - split; [lia|]. destruct (tmax_in t0) as (q & Hq & Eq). specialize (Hends q Hq). fold t0. lia.
        - intros Hin. rewrite Forall_forall in HKb. specialize (HKb _ Hin). unfold kn in HKb. lia.
        - eapply Forall_impl; [exact HKb|]. cbn. unfold kn. intros; lia.
        - exact I.
        - discriminate. }
      { intros _. exact H1. }
      fold t0 in Ei, I2, I5, I7, I8. cbn [put_root] in Ei.
      set (c' := <[tick := kn + 1]> c1) in *.
      assert (Hc' : unwrap_or (c' !! tick) 0 = kn + 1) by (unfold c'; rewrite lookup_insert; reflexivity).
      exists m', (<[(tick, d) := tkey t']> tr0), c', n', nw.
      split; [exact E|]. split; [exact E2|]. split; [exact Ei|].
      assert (Hfr : forall key, (forall q, q ∈ keys t' -> key <> (tick, q)) -> m' !! key = m !! key).
      { intros key Hkey. rewrite I8 by exact Hkey. reflexivity. }
      assert (Hshape : exists kt a b, t' = TNode kt a b).
      { destruct t' as [kt et vt|]; [|eauto]. exfalso. cbn in I7. unfold t0 in I7. cbn in I7.
        pose proof (theight_pos l). pose proof (theight_pos r). lia. }
      destruct Hshape as (kt & ta & tb & ->).
      split.
      * destruct I2 as (L1 & L2 & EL & EL'). exists L1, L2. split; [congruence|].
        split; [rewrite <- EL'; exact I3|]. rewrite Hc'. rewrite <- EL'.
        eapply (store_ok_change tick m tr0 ctr L d (keys t0) _ _ (kn + 1) (keys (TNode kt ta tb))); try assumption.
        -- rewrite <- ELd. apply rep_full; assumption.
        -- apply rep_full; try assumption; [apply lookup_insert|]. rewrite I5.
           rewrite Forall_forall in HKb.
           rewrite !NoDup_cons, !elem_of_cons. split; [|split; [|exact H3]].
           ++ intros [?|Hin]; [lia|]. specialize (HKb _ Hin). unfold kn in *; lia.
           ++ intros Hin. specialize (HKb _ Hin). unfold kn in *; lia.
        -- unfold kn; lia.
        -- intros q Hq. rewrite I5, !elem_of_cons in Hq. rewrite Forall_forall in HKb. unfold kn in *.
           destruct Hq as [->|[->|Hq]]; [lia|lia|]. specialize (HKb _ Hq). lia.
        -- intros q Hq. apply Hfr. intros q' Hq' [= <-]. contradiction.
        -- intros q Hq. rewrite I5, !elem_of_cons in Hq. unfold kn in *.
           destruct Hq as [->|[->|Hq]]; [lia|lia|tauto].
        -- intros q Hq. rewrite I5, !elem_of_cons. tauto.
        -- intros d' Hd'. apply lookup_insert_ne. congruence.
        -- intros id Eid. rewrite lookup_insert in Eid. injection Eid as <-.
           assert (Hin : kt ∈ keys (TNode kt ta tb)) by constructor. rewrite I5, !elem_of_cons in Hin.
           rewrite Forall_forall in HKb. unfold kn in *.
           destruct Hin as [->|[->|Hq]]; [lia|lia|]. cbn [tkey]. specialize (HKb _ Hq). lia.
      * rewrite Hc'. unfold kn. lia.
      * rewrite Hc'. exact HUf.
      * rewrite I10. exact I9.
      * intros t q Ht. apply Hfr. congruence.
      * intros td Htd. rewrite lookup_insert_ne by congruence. auto.
      * intros t Ht. unfold c', c1. rewrite !lookup_insert_ne by congruence. auto.
Qed.
