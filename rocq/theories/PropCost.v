(** * C65: how much of the storage a call touches. *)
From Verif Require Import Base Dec Types State TickMath Sumtree Tick Order Auth Contract World Spec SpecProps SpecTree SpecCost
  Exec TreeDefs SumtreeProofs SumtreeInsert SumtreeRoot SumtreeFail Ghost Inv StepCancel SwapPlan StepSwap Reach Trans Books PropBase PropOrders PropSwap PropTree Tests.

(** ** Counting changed entries *)
Lemma changes_refl s : changes 0 s s.
Proof. exists []. split; [reflexivity|]. intros c. left. destruct c; reflexivity. Qed.
Lemma same_trans s1 s2 s3 c : same_cell s1 s2 c -> same_cell s2 s3 c -> same_cell s1 s3 c.
Proof. destruct c; cbn; congruence. Qed.
Lemma changes_trans a b s1 s2 s3 : changes a s1 s2 -> changes b s2 s3 -> changes (a + b) s1 s3.
Proof.
  intros (l1 & L1 & H1) (l2 & L2 & H2). exists (l1 ++ l2). rewrite app_length. split; [lia|].
  intros c. destruct (H1 c) as [A|A]; [|right; apply elem_of_app; auto]. destruct (H2 c) as [B|B]; [|right; apply elem_of_app; auto].
  left. eapply same_trans; eauto.
Qed.
Lemma changes_weak a b s s' : changes a s s' -> a <= b -> changes b s s'.
Proof. intros (l & L & H) Hle. exists l. split; [lia|exact H]. Qed.
Lemma changes_one x s s' : (forall c, c <> x -> same_cell s s' c) -> (forall c : cell, c = x \/ c <> x) -> changes 1 s s'.
Proof. intros H D. exists [x]. split; [cbn; lia|]. intros c. destruct (D c) as [->|Hne]; [right; constructor|left; auto]. Qed.
Lemma cell_dec (c x : cell) : c = x \/ c <> x.
Proof. assert (H : {c = x} + {c <> x}) by (repeat decide equality). destruct H; auto. Qed.

Definition writes {A} (n : Z) (m : M storage A) : Prop := forall s, changes n s (fst (m s)).
Lemma w_weak {A} a b (m : M storage A) : writes a m -> a <= b -> writes b m.
Proof. intros H Hle s. eapply changes_weak; eauto. Qed.
Lemma w_bind {A B} n a (m : M storage A) (k : A -> M storage B) : writes a m -> (forall x, writes (n - a) (k x)) -> 0 <= n - a -> writes n (mbindM m k).
Proof.
  intros H K Hn s. unfold mbindM. specialize (H s). destruct (m s) as [s1 r]. cbn [fst] in H.
  destruct r as [x|e| |]; cbn [fst]; try (eapply changes_weak; [exact H|lia]).
  replace n with (a + (n - a)) by lia. eapply changes_trans; [exact H|apply K].
Qed.
Lemma w_same {A} (m : M storage A) n : (forall s, fst (m s) = s) -> 0 <= n -> writes n m.
Proof. intros H Hn s. rewrite H. eapply changes_weak; [apply changes_refl|exact Hn]. Qed.
Lemma w_ret {A} (a : A) : writes 0 (mret a). Proof. apply w_same; [reflexivity|lia]. Qed.
Lemma w_read {A} (f : storage -> A) : writes 0 (mread f). Proof. apply w_same; [reflexivity|lia]. Qed.
Lemma w_readr {A} (f : storage -> res A) : writes 0 (mreadr f). Proof. apply w_same; [reflexivity|lia]. Qed.
Lemma w_lift {A} (r : res A) : writes 0 (mlift r). Proof. apply w_same; [reflexivity|lia]. Qed.
Lemma w_ensure b e : writes 0 (mensure b e). Proof. apply w_same; [reflexivity|lia]. Qed.
Ltac one x := intros s; apply (changes_one x); [|intros; apply cell_dec]; intros c Hc; destruct c; cbn;
  try reflexivity; try (apply lookup_insert_ne; congruence); try (apply lookup_delete_ne; congruence); congruence.
Lemma w_node n : writes 1 (node_save n). Proof. one (CNode (n_tick n) (n_key n)). Qed.
Lemma w_tree t d (k : Z) : writes 1 (mmod (fun s => set_tree (<[(t, d) := k]> (s_tree s)) s)). Proof. one (CTree t d). Qed.
Lemma w_ctr t (k : Z) : writes 1 (mmod (fun s => set_nodectr (<[t := k]> (s_nodectr s)) s)). Proof. one (CNodeId t). Qed.
Lemma w_tick t ts : writes 1 (save_tick t ts). Proof. one (CTick t). Qed.
Lemma w_liq d (v : Z) : writes 1 (mmod (fun s => set_dirliq (<[d := v]> (s_dirliq s)) s)). Proof. one (CLiquidity d). Qed.
Lemma w_order k o : writes 1 (save_order k o). Proof. destruct k as [t id]. one (COrder t id). Qed.
Lemma w_remove k : writes 1 (remove_order k). Proof. destruct k as [t id]. one (COrder t id). Qed.
Lemma w_id x : writes 1 (mmod (set_order_id x)). Proof. one COrderId. Qed.
Lemma w_book x : writes 1 (mmod (set_orderbook x)). Proof. one COrderbook. Qed.
Lemma w_active x : writes 1 (mmod (set_active_item x)). Proof. one CActive. Qed.
Lemma w_fee x : writes 1 (mmod (set_fee x)). Proof. one CFee. Qed.
Lemma w_recipient x : writes 1 (mmod (set_recipient x)). Proof. one CRecipient. Qed.
Lemma w_admin x : writes 1 (mmod (set_admin x)). Proof. one CAdmin. Qed.
Lemma w_admin_offer x : writes 1 (mmod (set_admin_offer x)). Proof. one CAdminOffer. Qed.
Lemma w_moderator x : writes 1 (mmod (set_moderator x)). Proof. one CModerator. Qed.
Lemma w_moderator_offer x : writes 1 (mmod (set_moderator_offer x)). Proof. one CModeratorOffer. Qed.
Create HintDb wr discriminated.
#[export] Hint Resolve w_ret w_read w_readr w_lift w_ensure w_node w_tree w_ctr w_tick w_liq w_order w_remove w_id w_book
  w_active w_fee w_recipient w_admin w_admin_offer w_moderator w_moderator_offer : wr.
Lemma w_assoc {A B C} n (m : M storage A) (k : A -> M storage B) (k' : B -> M storage C) :
  writes n (mbindM m (fun a => mbindM (k a) k')) -> writes n (mbindM (mbindM m k) k').
Proof. intros H s. rewrite bind_assoc. apply H. Qed.
Ltac wr1 :=
  match goal with
  | |- writes _ (mbindM (mbindM _ _) _) => apply w_assoc
  | |- writes _ (mbindM (match ?x with _ => _ end) _) => destruct x
  | |- writes _ (mbindM _ _) => eapply w_bind; [solve [eauto with wr nocore]|intros|lia]; cbv zeta
  | |- writes _ (match ?x with _ => _ end) => destruct x
  | |- writes _ _ => eapply w_weak; [solve [eauto with wr nocore]|lia]
  end.
Ltac wr := repeat wr1.
Lemma w_generate t : writes 1 (generate_node_id t). Proof. unfold generate_node_id. wr. Qed.
Lemma w_init t d : writes 2 (get_or_init_root_node t d).
Proof. pose proof w_generate. unfold get_or_init_root_node. wr. Qed.
#[export] Hint Resolve w_generate w_init : wr.
Lemma w_srv n : writes 1 (sync_range_and_value n). Proof. unfold sync_range_and_value. wr. Qed.
#[export] Hint Resolve w_srv : wr.
Lemma w_rotr n : writes 8 (rotate_right n). Proof. unfold rotate_right. wr. Qed.
Lemma w_rotl n : writes 8 (rotate_left n). Proof. unfold rotate_left. wr. Qed.
#[export] Hint Resolve w_rotr w_rotl : wr.
Lemma w_sync n : writes 0 (node_sync n). Proof. apply w_readr. Qed.
#[export] Hint Resolve w_sync : wr.
Lemma w_rebalance n : writes 16 (rebalance n). Proof. unfold rebalance. wr. Qed.
Lemma w_split a b : writes 4 (node_split a b). Proof. unfold node_split. wr. Qed.
#[export] Hint Resolve w_rebalance w_split : wr.
Lemma w_order_id : writes 1 new_order_id. Proof. unfold new_order_id. wr. Qed.
Lemma w_add d x : writes 1 (add_directional_liquidity d x). Proof. unfold add_directional_liquidity. wr. Qed.
Lemma w_sub d x : writes 1 (subtract_directional_liquidity d x). Proof. unfold subtract_directional_liquidity. wr. Qed.
Lemma w_sync_dir t d tv x : writes 2 (sync_tick_dir t d tv x). Proof. unfold sync_tick_dir. wr. Qed.
#[export] Hint Resolve w_order_id w_add w_sub w_sync_dir : wr.
Lemma w_sync_tick t a b : writes 5 (sync_tick t a b). Proof. unfold sync_tick. wr. Qed.
#[export] Hint Resolve w_sync_tick : wr.
Lemma w_place e i t d q b : writes 5 (place_limit e i t d q b). Proof. unfold place_limit. wr. Qed.
Lemma w_claim_order a t id : writes 6 (claim_order a t id). Proof. unfold claim_order. wr. Qed.
#[export] Hint Resolve w_claim_order : wr.
Lemma w_claim i t id : writes 6 (claim_limit i t id).
Proof. unfold claim_limit. wr. Qed.
Lemma w_loop ob a l : forall ms es, writes (6 * Z.of_nat (length l)) (batch_claim_loop ob a l ms es).
Proof.
  induction l as [|[t id] l IH]; intros ms es; cbn [batch_claim_loop length]; [apply w_ret|]. intros s.
  pose proof (w_claim_order a t id s) as H. destruct (claim_order a t id s) as [s1 r]. cbn [fst] in H.
  replace (6 * Z.of_nat (S (length l))) with (6 + 6 * Z.of_nat (length l)) by lia.
  destruct r as [[[x y] z]|er| |].
  - eapply changes_trans; [exact H|apply IH].
  - eapply changes_trans; [exact H|apply IH].
  - eapply changes_weak; [exact H|lia].
  - eapply changes_weak; [exact H|lia].
Qed.
Lemma w_batch i l : writes (6 * Z.of_nat (length l)) (batch_claim_limits i l).
Proof. pose proof w_loop. unfold batch_claim_limits. wr. Qed.
Lemma w_auth e i m : writes 2 (auth_dispatch e i m).
Proof.
  destruct m; cbn [auth_dispatch];
    unfold dispatch_transfer_admin, dispatch_cancel_admin_transfer, dispatch_claim_admin, dispatch_reject_admin_transfer,
      dispatch_renounce_adminship, dispatch_offer_moderator, dispatch_claim_moderator, dispatch_reject_moderator_offer, dispatch_set_active,
      dispatch_set_maker_fee, dispatch_set_maker_fee_recipient, ensure_is_admin, ensure_is_admin_or_moderator, offer_admin, remove_admin_transfer,
      update_admin, remove_admin, offer_moderator, remove_moderator_offer, update_moderator, set_active, set_maker_fee, addr_validate.
  all: wr.
Qed.

(** ** The insertion into a tree touches a number of entries linear in its height *)
Definition costs {A} (n : Z) (s : storage) (m : M storage A) : Prop := changes n s (fst (m s)).
Lemma k_ensure {A} n s b e (k : unit -> M storage A) : 0 <= n -> costs n s (k tt) -> costs n s (mbindM (mensure b e) k).
Proof. intros Hn H. destruct b; [exact H|]. cbn. eapply changes_weak; [apply changes_refl|exact Hn]. Qed.
Lemma k_lift {A B} n s (r : res A) (k : A -> M storage B) : 0 <= n -> (forall x, costs n s (k x)) -> costs n s (mbindM (mlift r) k).
Proof. intros Hn H. destruct r; [apply H| | |]; cbn; (eapply changes_weak; [apply changes_refl|exact Hn]). Qed.
Lemma k_writes {A} n s (m : M storage A) : writes n m -> costs n s m.
Proof. intros H. apply H. Qed.
Lemma k_bind {A B} n b s (m : M storage A) (k : A -> M storage B) : costs (n - b) s m -> (forall x, writes b (k x)) -> 0 <= b -> costs n s (mbindM m k).
Proof.
  intros H K Hn. unfold costs, mbindM in *. destruct (m s) as [s1 r]. cbn [fst] in H.
  destruct r as [x|e| |]; cbn [fst]; try (eapply changes_weak; [exact H|lia]).
  replace n with ((n - b) + b) by lia. eapply changes_trans; [exact H|apply K].
Qed.
Lemma insert_costs tick d s m tr c new : forall t p, repr tick d m p t -> forall k l r, t = TNode k l r -> forall fuel,
  costs (16 * theight t - 11) (upd s m tr c) (node_insert fuel (node_of tick d p t) new).
Proof.
  induction t as [|k l IHl r IHr]; intros p Hrep k0 l0 r0 E fuel; [discriminate|]. clear E k0 l0 r0.
  pose proof (theight_pos l) as Hl1. pose proof (theight_pos r) as Hr1. pose proof Hrep as (Hself & Hl & Hr).
  pose proof (repr_lookup _ _ _ _ _ Hl) as Hl0. pose proof (repr_lookup _ _ _ _ _ Hr) as Hr0.
  set (n := 16 * theight (TNode k l r) - 11). assert (Hn : 21 <= n) by (unfold n; cbn [theight]; lia).
  destruct fuel as [|fuel]; [unfold costs; cbn; eapply changes_weak; [apply changes_refl|lia]|].
  cbn [node_insert]. apply k_ensure; [lia|]. apply k_ensure; [lia|]. unfold costs. rewrite !bind_read.
  unfold get_left, get_right. cbn [node_of n_left n_right n_tick load_child].
  change (s_nodes (upd s m tr c)) with m. rewrite Hl0, Hr0.
  change (mkNode k tick d (Some (tkey l)) (Some (tkey r)) p
    (NInternal (tsum (TNode k l r)) (tmin (TNode k l r)) (tmax (TNode k l r)) (theight (TNode k l r))))
    with (node_of tick d p (TNode k l r)).
  match goal with |- changes n ?x (fst (?mm ?x)) => change (costs n x mm) end.
  apply k_ensure; [lia|]. apply k_lift; [lia|]. intros inl. apply k_lift; [lia|]. intros inr. apply k_lift; [lia|]. intros lt.
  assert (Hrec : forall t', is_internal (node_of tick d (Some k) t') = true -> theight t' <= theight (TNode k l r) - 1 ->
      (forall k' l' r', t' = TNode k' l' r' -> forall fuel0, costs (16 * theight t' - 11) (upd s m tr c) (node_insert fuel0 (node_of tick d (Some k) t') new)) ->
      costs n (upd s m tr c) (let! _ := node_save (node_of tick d p (TNode k l r)) in
        let! r1 := node_insert fuel (node_of tick d (Some k) t') new in
        let! self := rebalance (node_of tick d p (TNode k l r)) in mret (self, snd r1))).
  { intros t' Ht' Hh IH. unfold costs. rewrite (bind_ok _ _ _ _ _ (upd_save_id s m tr c (node_of tick d p (TNode k l r)) Hself)).
    match goal with |- changes n ?x (fst (?mm ?x)) => change (costs n x mm) end.
    apply (k_bind n 16); [|intros; wr|lia]. destruct t' as [|k' l' r']; [discriminate|]. specialize (IH _ _ _ eq_refl fuel). unfold costs in *.
    eapply changes_weak; [exact IH|]. unfold n. lia. }
  assert (Hw : forall a b (f : Z -> tnode), costs n (upd s m tr c) (let! r1 := node_split a b in let! _ := node_save (f (snd r1)) in
       let! self := rebalance (f (snd r1)) in mret (self, snd (fst r1)))).
  { intros a b f. apply k_writes. eapply (w_weak 21); [|lia]. wr. }
  destruct (is_internal (node_of tick d (Some k) l)) eqn:Il; destruct (is_internal (node_of tick d (Some k) r)) eqn:Ir; cbn [andb negb];
    destruct inl, inr; cbn [andb negb];
    lazymatch goal with
    | |- costs _ _ (mlift _) => unfold costs; cbn; eapply changes_weak; [apply changes_refl|lia]
    | |- context [node_insert fuel (node_of tick d (Some k) l)] => apply (Hrec l); [assumption|cbn [theight]; lia|eauto]
    | |- context [node_insert fuel (node_of tick d (Some k) r)] => apply (Hrec r); [assumption|cbn [theight]; lia|eauto]
    | |- context [node_split (node_of tick d (Some k) l)] => exact (Hw (node_of tick d (Some k) l) new (fun x => n_set_left (node_of tick d p (TNode k l r)) (Some x)))
    | |- context [node_split (node_of tick d (Some k) r)] => exact (Hw (node_of tick d (Some k) r) new (fun x => n_set_right (node_of tick d p (TNode k l r)) (Some x)))
    end.
Qed.
(** A root without children or with one child: at most 18. *)
Lemma insert_costs_small s root new fuel : get_right s root = None -> (forall l, get_left s root = Some l -> is_internal l = false) ->
  costs 18 s (node_insert fuel root new).
Proof.
  intros Hr Hl. destruct fuel as [|fuel]; [unfold costs; cbn; eapply changes_weak; [apply changes_refl|lia]|].
  cbn [node_insert]. apply k_ensure; [lia|]. apply k_ensure; [lia|]. unfold costs. rewrite !bind_read. rewrite Hr.
  match goal with |- changes _ ?x (fst (?mm ?x)) => change (costs 18 x mm) end.
  apply k_ensure; [lia|]. apply k_lift; [lia|]. intros inl. apply k_lift; [lia|]. intros inr. apply k_lift; [lia|]. intros lt.
  destruct (get_left s root) as [l|] eqn:El.
  - rewrite (Hl l eq_refl). cbn [andb]. apply k_writes. wr.
  - apply k_writes. wr.
Qed.

(** ** Cancelling *)
Lemma tree_costs tick d s m tr c L K root k new :
  tree_rep tick d m tr L K -> L <> [] -> tr !! (tick, d) = Some k -> m !! (tick, k) = Some root ->
  costs (32 * Z.log2 (Z.of_nat (length L)) + 18) (upd s m tr c) (tree_insert root new).
Proof.
  intros H HL Hk Hkm. unfold costs, tree_insert. destruct H as [H|k1 kl e v H1 H2 H3 H4|k1 l r H1 H2 H3 H4]; [congruence| |].
  - rewrite H1 in Hk. injection Hk as <-. rewrite H3 in Hkm. injection Hkm as <-.
    change (32 * Z.log2 (Z.of_nat (length [(e, v)])) + 18) with 18. apply insert_costs_small; [reflexivity|].
    unfold get_left. cbn [n_left n_tick load_child]. change (s_nodes (upd s m tr c)) with m. rewrite H4. intros l [= <-]. reflexivity.
  - rewrite H1 in Hk. injection Hk as <-. pose proof (repr_lookup _ _ _ _ _ H2) as Hr. cbn [tkey] in Hr. rewrite Hr in Hkm. injection Hkm as <-.
    pose proof (avl_height _ H4) as Hh. pose proof (theight_pos (TNode k1 l r)) as Hp.
    assert (Hlen : 0 < Z.of_nat (length (leaves (TNode k1 l r)))).
    { destruct (leaves (TNode k1 l r)); [congruence|cbn [length]; lia]. }
    apply height_log in Hh; [|lia|exact Hlen].
    eapply changes_weak; [eapply (insert_costs tick d s m tr c new (TNode k1 l r) None H2); reflexivity|lia].
Qed.
Lemma tree_insert_eq a b s : tree_insert a b s = node_insert (tree_fuel s) a b s.
Proof. reflexivity. Qed.
Lemma init_costs tick d k s new (L : list (Z * Z)) : L = [] ->
  costs (32 * Z.log2 (Z.of_nat (length L)) + 18) s (tree_insert (new_node tick d k ntype_default) new).
Proof.
  intros ->. replace (32 * Z.log2 (Z.of_nat (length (@nil (Z * Z)))) + 18) with 18 by reflexivity.
  unfold costs. rewrite tree_insert_eq. generalize (tree_fuel s). intros n.
  apply (insert_costs_small s (new_node tick d k ntype_default) new n); [reflexivity|]. intros l E. discriminate E.
Qed.
Lemma root_costs tick d s m tr c ctr L new s1 root s2 kn :
  store_ok tick m tr ctr L -> unwrap_or (c !! tick) 0 = ctr -> ctr <= U64_MAX ->
  get_or_init_root_node tick d (upd s m tr c) = (s1, Ok root) -> generate_node_id tick s1 = (s2, Ok kn) ->
  costs (32 * Z.log2 (Z.of_nat (length (L d))) + 18) s2 (tree_insert root new).
Proof.
  intros Hs Hc HU E1 E2.
  assert (HU' : L d = [] -> ctr + 1 <= U64_MAX).
  { intros HL. destruct (Z.le_gt_cases (ctr + 1) U64_MAX); [assumption|]. exfalso.
    rewrite (get_or_init_panic tick d s m tr c ctr L Hs Hc HL ltac:(lia)) in E1. discriminate. }
  destruct (get_or_init_store tick d s m tr c ctr L Hs Hc HU') as (root' & tr0 & c0 & ctr0 & E & Hs0 & Hc0 & Hle & Hcase & _).
  rewrite E in E1. injection E1 as <- <-.
  assert (Hk : ctr0 + 1 <= U64_MAX).
  { destruct (Z.le_gt_cases (ctr0 + 1) U64_MAX); [assumption|]. exfalso. rewrite (generate_panic tick s m tr0 c0 ctr0 Hc0 ltac:(lia)) in E2. discriminate. }
  rewrite (generate_spec tick s m tr0 c0 ctr0 Hc0 Hk) in E2. injection E2 as <- <-.
  destruct Hcase as [(HL & -> & _ & _ & _)|(HL & _ & k & H1 & H2)].
  - apply init_costs. exact HL.
  - destruct (so_rep _ _ _ _ _ Hs0 d) as [K HK]. eapply tree_costs; eauto.
Qed.
Lemma cancel_costs s G i t id o s' r :
  inv s G -> s_orders s !! (t, id) = Some o -> cancel_limit i t id s = (s', Ok r) ->
  changes (32 * Z.log2 (Z.of_nat (length (canl G t (o_dir o)))) + 30) s s'.
Proof.
  intros Hi Eo Hrun. pose proof (i_order _ _ Hi _ _ Eo) as Ho. pose proof (oo_tick _ _ _ _ Ho) as Etk. cbn in Etk.
  pose proof (order_tick _ _ _ _ _ Hi Eo) as Hts. unfold cancel_limit in Hrun.
  apply bind_inv in Hrun as (x1 & s1 & A & Hrun). apply mlift_inv in A as [-> _].
  apply bind_inv in Hrun as (o' & s1 & A & Hrun). apply mreadr_inv in A as [-> A]. rewrite Eo in A. injection A as <-.
  apply bind_inv in Hrun as (x2 & s1 & A & Hrun). apply mensure_inv in A as [-> _].
  rewrite bind_read, Hts in Hrun. cbn [unwrap_or] in Hrun. rewrite !get_ts_of in Hrun.
  apply bind_inv in Hrun as (x3 & s1 & A & Hrun).
  assert (C1 : changes 5 s s1) by (pose proof (w_sync_tick t (tv_etas (tv_of (G t Bid))) (tv_etas (tv_of (G t Ask))) s) as C; rewrite A in C; exact C).
  destruct (sync_spec s G t Hi ltac:(congruence)) as [(tr1 & c1 & E1 & Hi1 & _)|(_ & s2 & E1)]; rewrite E1 in A; [|discriminate].
  injection A as <- _. set (s1 := sync_st s G t tr1 c1) in *. rewrite bind_read in Hrun.
  apply bind_inv in Hrun as (x4 & s2 & A & Hrun). apply mensure_inv in A as [-> _].
  apply bind_inv in Hrun as (root & s2 & R1 & Hrun).
  assert (C2 : changes 2 s1 s2) by (pose proof (w_init t (o_dir o) s1) as C; rewrite R1 in C; exact C).
  rewrite Etk in Hrun. apply bind_inv in Hrun as (kn & s3 & R2 & Hrun).
  assert (C3 : changes 1 s2 s3) by (pose proof (w_generate t s2) as C; rewrite R2 in C; exact C).
  apply bind_inv in Hrun as (x5 & s4 & A & Hrun). apply mreadr_inv in A as [-> _].
  apply bind_inv in Hrun as (x6 & s4 & A & Hrun). apply mlift_inv in A as [-> _].
  apply bind_inv in Hrun as (rr & s4 & R3 & Hrun).
  assert (Ecan : canl (gsync G t) t (o_dir o) = canl G t (o_dir o)) by (unfold canl; rewrite gsync_cans; reflexivity).
  assert (C4 : changes (32 * Z.log2 (Z.of_nat (length (canl G t (o_dir o)))) + 18) s3 s4).
  { rewrite (upd_id s1) in R1.
    pose proof (root_costs t (o_dir o) s1 (s_nodes s1) (s_tree s1) (s_nodectr s1) (nctr s1 t) (canl (gsync G t) t)
      (new_node t (o_dir o) kn (NLeaf x6 (o_etas o))) s2 root s3 kn (i_store _ _ Hi1 t) eq_refl (i_ctr _ _ Hi1 t) R1 R2) as C.
    unfold costs in C. rewrite R3, Ecan in C. exact C. }
  assert (C5 : changes 4 s4 s').
  { match type of Hrun with ?mm s4 = _ => assert (W : writes 4 mm) by wr end. specialize (W s4). rewrite Hrun in W. exact W. }
  eapply changes_weak; [eapply changes_trans; [exact C1|]; eapply changes_trans; [exact C2|]; eapply changes_trans; [exact C3|];
    eapply changes_trans; [exact C4|exact C5]|lia].
Qed.

(** ** Swapping *)
Lemma swap_costs s G ob od fs : NoDup (map f_tick fs) -> changes (Z.of_nat (length fs) + 2) s (swap_st s G ob od fs).
Proof.
  intros Hn. exists (COrderbook :: CLiquidity od :: map (fun f => CTick (f_tick f)) fs). cbn [length]. rewrite map_length. split; [lia|].
  intros c. destruct c; cbn; try (left; reflexivity); try (right; constructor; fail).
  - rewrite (swap_ticks_lookup _ _ _ _ _ Hn). destruct (decide _) as [Hin|]; [right|left; reflexivity].
    apply elem_of_list_fmap in Hin as (f & -> & Hf). constructor. constructor. apply elem_of_list_fmap. eauto.
  - destruct (decide (d = od)) as [->|Hne]; [right; constructor; constructor|left; apply lookup_insert_ne; congruence].
Qed.

(** ** C65 *)
Lemma w_active_call : writes 0 ensure_is_active.
Proof. unfold ensure_is_active. wr. Qed.
#[export] Hint Resolve w_active_call : wr.
Lemma step_costs e w c w' r n : step e w c = (w', Done r) -> writes n (call_run e c) -> changes n (w_st w) (w_st w').
Proof.
  intros E W. specialize (W (w_st w)). unfold step in E. destruct (call_run e c (w_st w)) as [s1 [x| | |]]; try discriminate.
  destruct (sends _ _ _ _) as [b|]; [|discriminate]. injection E as <- _. exact W.
Qed.
(** Placing an order changes at most five stored entries, claiming one at most six, claiming a list at most six per
    order named, governance calls at most two; migrating and receiving coins change none.  The size of the book does not matter. *)
Theorem C65_bounded_calls :
  forall e w c w' r, step e w c = (w', Done r) ->
  match c with
  | CExec _ (PlaceLimit _ _ _ _) => changes 5 (w_st w) (w_st w')
  | CExec _ (ClaimLimit _ _) => changes 6 (w_st w) (w_st w')
  | CExec _ (BatchClaim l) => changes (6 * Z.of_nat (length l)) (w_st w) (w_st w') /\ Z.of_nat (length l) <= 100
  | CExec _ (AuthMsg _) => changes 2 (w_st w) (w_st w')
  | CSudo (SudoTransferAdmin _) | CSudo SudoRemoveAdmin | CSudo (SudoSetActive _) => changes 1 (w_st w) (w_st w')
  | CMigrate | CDonate _ => changes 0 (w_st w) (w_st w')
  | _ => True
  end.
Proof.
  intros e w c w' r E. pose proof (w_place) as P. pose proof w_claim as K. pose proof w_batch as B. pose proof w_auth as Au.
  destruct c as [i m|m| |]; [destruct m|destruct m| |]; try exact I;
    try (eapply step_costs; [exact E|]; cbn [call_run]; unfold execute, sudo, migrate, update_admin, remove_admin, set_active, addr_validate; wr).
  split.
  - eapply step_costs; [exact E|]; cbn [call_run]; unfold execute; wr.
  - unfold step in E. cbn [call_run] in E. unfold execute, batch_claim_limits in E.
    destruct (Z.leb_spec (Z.of_nat (length orders)) MAX_BATCH_CLAIM) as [Hle|Hgt]; [exact Hle|]. exfalso.
    match type of E with context [?mm (w_st w)] => destruct (mm (w_st w)) as [s1 [x| | |]] eqn:Er; try discriminate end.
    apply bind_inv in Er as (u1 & s2 & _ & Er). apply bind_inv in Er as (u2 & s3 & _ & Er). apply bind_inv in Er as (u3 & s4 & A & _).
    apply mensure_inv in A as [_ A]. discriminate.
Qed.
Print Assumptions C65_bounded_calls.

(** Cancelling an order changes a number of entries logarithmic in the number of orders cancelled before at the same
    tick and side, in every history: the price of the cancellation tree is not linear, whatever order the cancels came in. *)
Theorem C65_cancel_logarithmic :
  forall w0 h, start w0 -> history w0 h -> let w := run w0 h in
  forall e i t id o w' r, order_of (w_st w) t id = Some o ->
  step e w (CExec i (CancelLimit t id)) = (w', Done r) ->
  changes (32 * Z.log2 (Z.of_nat (length (cancelled w0 h t (o_dir o)))) + 30) (w_st w) (w_st w').
Proof.
  intros w0 h Hs Hh w e i t id o w' r Eo E. destruct (run_track w0 h Hs Hh) as (G & Hg & Ht & _). fold w in Hg.
  pose proof (tk_cans _ _ _ Ht t (o_dir o)) as Hc. rewrite <- (Permutation_length Hc).
  unfold step in E. destruct (call_run e _ (w_st w)) as [s1 [x| | |]] eqn:Er; try discriminate.
  destruct (sends _ _ _ _) as [b|]; [|discriminate]. injection E as <- _. cbn [call_run] in Er. unfold execute in Er.
  apply bind_inv in Er as (u & s2 & A & Er). cbn [w_st].
  assert (s2 = w_st w) as ->.
  { unfold ensure_is_active in A. rewrite bind_read in A. apply mensure_inv in A as [-> _]. reflexivity. }
  eapply cancel_costs; [apply (gd_inv _ _ _ Hg)|exact Eo|exact Er].
Qed.
Print Assumptions C65_cancel_logarithmic.

(** A swap changes one entry per price level it fills and two more: none of the orders it fills is touched. *)
Theorem C65_swap_levels :
  forall e w sender tin out mn fee target w' r, reachable w ->
  call_ok (w_self w) (swap_call sender tin out mn fee target) = true ->
  step e w (swap_call sender tin out mn fee target) = (w', Done r) ->
  exists m fills, out = deposit_denom (w_st w) m /\ swap_fills (w_st w) (w_st w') m fills /\ r_data r = Some (fills_out fills) /\
    changes (Z.of_nat (length fills) + 2) (w_st w) (w_st w') /\
    forall t id, order_of (w_st w') t id = order_of (w_st w) t id.
Proof.
  intros e w sender tin out mn fee target w' r Hre Hok E.
  destruct (swap_done _ _ _ _ _ _ _ _ _ _ Hre Hok E) as (m & G & l & fs & rest & pr & H).
  exists m, (map fill_of fs). split; [apply H|]. split; [eapply swapped_fills; eauto|].
  split; [rewrite (sw_resp _ _ _ _ _ _ _ _ _ _ _ _ _ _ _ _ H), fills_out_of; reflexivity|].
  destruct (sw_ob _ _ _ _ _ _ _ _ _ _ _ _ _ _ _ _ H) as (ob & _ & _ & ->). rewrite map_length.
  split; [apply swap_costs, (sw_nodup H)|]. reflexivity.
Qed.
Print Assumptions C65_swap_levels.
(** The hypotheses are met: a seventh cancel at the tick with six cancelled ranges; a swap over two of three price levels. *)
Definition h_levels : list (env * call) := [place "a" 0 Ask 10 None; place "b" 100000 Ask 10 None; place "c" 200000 Ask 10 None].
Example C65_case :
  start w_start /\ history w_start hist_cancelled /\ length (cancelled w_start hist_cancelled 0 Bid) = 6%nat /\
  match order_of (w_st w_cancelled) 0 9 with Some o => o_dir o = Bid | None => False end /\
  done tenv w_cancelled (snd (cancel "a" 0 9)) = true /\
  history w_start h_levels /\ done tenv (run w_start h_levels) (snd (buy "t" 15)) = true /\
  (let s' := w_st (fst (step tenv (run w_start h_levels) (snd (buy "t" 15)))) in
   tick_liquidity s' 0 Ask = 0 /\ tick_liquidity s' 100000 Ask = 6 /\ tick_liquidity s' 200000 Ask = 10).
Proof.
  split; [exact start_ok|]. split; [hist|]. split; [vm_compute; reflexivity|]. split; [vm_compute; reflexivity|].
  split; [vm_compute; reflexivity|]. split; [hist|]. split; [vm_compute; reflexivity|]. vm_compute. auto.
Qed.
