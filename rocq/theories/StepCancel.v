(** * StepCancel: cancelling a limit order. *)
From Verif Require Import Base Dec Types State TickMath Sumtree Tick Order SpecMath TickMathProofs
  TreeDefs Exec SumtreeProofs SumtreeRebalance SumtreeInsert PrefixSum SumtreeRoot SumtreeFail Ghost Inv StepPlace.

(** ** Ghost side of a cancellation *)
Lemma cans_shift n c n' c' l : n + c = n' + c' -> cans n c l = cans n' c' l.
Proof.
  revert n c n' c'. induction l as [|[id q|q|q] l IH]; intros n c n' c' E; cbn; [reflexivity| | |].
  - apply IH. lia.
  - f_equal; [f_equal; lia|]. apply IH. lia.
  - apply IH. lia.
Qed.
Lemma lives_shift k n c l :
  lives (n + k) (c - k) l = map (fun x => (x.1, (x.2.1.1 + k, x.2.1.2 - k, x.2.2))) (lives n c l).
Proof.
  revert n c. induction l as [|[id q|q|q] l IH]; intros n c; cbn [lives map fst snd qn qc]; [reflexivity| | |].
  - f_equal. rewrite <- IH. f_equal; lia.
  - rewrite <- IH. f_equal; lia.
  - rewrite <- IH. f_equal; lia.
Qed.

Lemma lives_unique g id x y : side_ok g -> (id, x) ∈ g_lives g -> (id, y) ∈ g_lives g -> x = y.
Proof.
  intros H Hx Hy. pose proof (so_ids _ H) as Hs. revert Hx Hy Hs. generalize (g_lives g). clear.
  induction l as [|[i z] l IH]; intros Hx Hy Hs; [inversion Hx|]. cbn in Hs. apply StronglySorted_inv in Hs as [Hs Hf].
  rewrite Forall_forall in Hf.
  assert (Hno : forall w, (i, w) ∉ l).
  { intros w Hw. specialize (Hf i). lapply Hf; [lia|]. apply elem_of_list_fmap. exists (i, w). auto. }
  apply elem_of_cons in Hx as [[= -> ->]|Hx]; apply elem_of_cons in Hy as [Ey|Hy].
  - injection Ey. auto.
  - exfalso. eapply Hno; eauto.
  - injection Ey as <- <-. exfalso. eapply Hno; eauto.
  - auto.
Qed.

Lemma cancel_parts g id n c q :
  side_ok g -> (id, (n, c, q)) ∈ g_lives g ->
  exists l1 l2, g_items g = l1 ++ Live id q :: l2 /\ n = nfs l1 /\ c = cns l1 /\
    g_items (g_cancel g id) = l1 ++ Can q :: l2.
Proof.
  intros H Hin. pose proof (so_ids _ H) as Hs. unfold g_lives in *. apply lives_split in Hin as (l1 & l2 & El & -> & ->).
  exists l1, l2. rewrite ?Z.add_0_l. repeat split; [exact El|]. unfold g_cancel. cbn [g_items]. rewrite El in *. apply replace_split. exact Hs.
Qed.
Lemma cancel_cans g id n c q :
  side_ok g -> (id, (n, c, q)) ∈ g_lives g ->
  exists A B, g_cans g = A ++ B /\ g_cans (g_cancel g id) = A ++ (n + c, q) :: B.
Proof.
  intros H Hin. destruct (cancel_parts _ _ _ _ _ H Hin) as (l1 & l2 & E1 & -> & -> & E2).
  exists (cans 0 0 l1), (cans (nfs l1) (cns l1 + q) l2). unfold g_cans. rewrite E1, E2, !cans_app. cbn [cans].
  rewrite ?Z.add_0_l. split; [|reflexivity]. f_equal. cbn [qn]. apply cans_shift. lia.
Qed.
Lemma cancel_open g id n c q :
  side_ok g -> (id, (n, c, q)) ∈ g_lives g ->
  g_open (g_cancel g id) = g_open g - q /\ nfs (g_items (g_cancel g id)) + cns (g_items (g_cancel g id)) = nfs (g_items g) + cns (g_items g).
Proof.
  intros H Hin. destruct (cancel_parts _ _ _ _ _ H Hin) as (l1 & l2 & E1 & -> & -> & E2).
  unfold g_open. rewrite E1, E2. rewrite !nfs_app, !cns_app. cbn [nfs cns qn qc g_cancel g_F]. lia.
Qed.
(** The other live orders keep their place in the queue. *)
Lemma cancel_lives g id n c q :
  side_ok g -> (id, (n, c, q)) ∈ g_lives g ->
  (forall id' n' c' q', (id', (n', c', q')) ∈ g_lives (g_cancel g id) ->
     id' <> id /\ exists n0 c0, (id', (n0, c0, q')) ∈ g_lives g /\ n' + c' = n0 + c0 /\
       ((n0 = n' /\ n0 < n) \/ (n0 = n' + q /\ n + q <= n0))) /\
  (forall id' n0 c0 q', id' <> id -> (id', (n0, c0, q')) ∈ g_lives g ->
     exists n' c', (id', (n', c', q')) ∈ g_lives (g_cancel g id) /\ n' + c' = n0 + c0 /\
       ((n0 = n' /\ n0 < n) \/ (n0 = n' + q /\ n + q <= n0))).
Proof.
  intros H Hin. destruct (cancel_parts _ _ _ _ _ H Hin) as (l1 & l2 & E1 & -> & -> & E2).
  pose proof (so_ids _ H) as Hs.
  pose proof (all_at_impl _ _ _ _ _ (item_ok_pos _ _ _) (so_items _ H)) as Hp. rewrite E1 in Hp.
  apply all_at_app in Hp as [P1 [Pq P2]]. cbn [qn qc] in P2.
  unfold g_lives in *. rewrite E1 in *. rewrite E2. rewrite ?lives_app in *. cbn [lives app] in *. rewrite ?Z.add_0_l in *. cbn [qn qc] in *.
  rewrite ?Z.add_0_r in *.
  assert (Hlt1 : forall id' a b q', (id', (a, b, q')) ∈ lives 0 0 l1 -> a < nfs l1).
  { intros id' a b q' Hx. apply lives_split in Hx as (k1 & k2 & -> & -> & ->).
    apply all_at_app in P1 as [_ [Px Py]]. cbn in Px, Py. apply pos_nonneg in Py. rewrite nfs_app. cbn. lia. }
  assert (Hlt2 : forall id' a b q' n0 c0, (id', (a, b, q')) ∈ lives n0 c0 l2 -> n0 <= a).
  { intros id' a b q' n0 c0 Hx. apply lives_split in Hx as (k1 & k2 & -> & -> & ->).
    apply all_at_app in P2 as [Px _]. apply pos_nonneg in Px. lia. }
  rewrite map_app in Hs. cbn [map fst] in Hs. apply sorted_app in Hs as (S1 & S2 & S3).
  apply StronglySorted_inv in S2 as [S2 Sx]. rewrite Forall_forall in Sx.
  assert (N1 : forall x, (id, x) ∉ lives 0 0 l1).
  { intros x Hx. specialize (S3 id id). lapply S3; [|apply elem_of_list_fmap; exists (id, x); auto]. intros S4. lapply S4; [lia|constructor]. }
  assert (N2 : forall x n0 c0, (id, x) ∉ lives n0 c0 l2).
  { intros x n0 c0 Hx. specialize (Sx id). lapply Sx; [lia|]. rewrite (lives_ids _ _ n0 c0). apply elem_of_list_fmap. exists (id, x). auto. }
  assert (Esh : lives (nfs l1 + q) (cns l1) l2 = map (fun x => (x.1, (x.2.1.1 + q, x.2.1.2 - q, x.2.2))) (lives (nfs l1) (cns l1 + q) l2)).
  { rewrite <- lives_shift. f_equal. lia. }
  split.
  - intros id' n' c' q' Hx. apply elem_of_app in Hx as [Hx|Hx].
    + split; [intros ->; eapply N1; eauto|]. exists n', c'. split; [apply elem_of_app; auto|]. split; [reflexivity|]. left. split; [reflexivity|]. eapply Hlt1; eauto.
    + split; [intros ->; eapply N2; eauto|]. exists (n' + q), (c' - q). split.
      * apply elem_of_app. right. apply elem_of_cons. right. rewrite Esh. apply elem_of_list_fmap. eexists. split; [|exact Hx]. reflexivity.
      * split; [lia|]. right. split; [lia|]. apply Hlt2 in Hx. lia.
  - intros id' n0 c0 q' Hne Hx. apply elem_of_app in Hx as [Hx|Hx].
    + exists n0, c0. split; [apply elem_of_app; auto|]. split; [reflexivity|]. left. split; [reflexivity|]. eapply Hlt1; eauto.
    + apply elem_of_cons in Hx as [[= -> _ _ _]|Hx]; [congruence|]. pose proof (Hlt2 _ _ _ _ _ _ Hx) as Hge.
      rewrite Esh in Hx. apply elem_of_list_fmap in Hx as ((id2 & (a & b') & q2) & [= -> -> -> ->] & Hx).
      exists a, b'. split; [apply elem_of_app; auto|]. split; [lia|]. right. lia.
Qed.

Lemma insert_unique (x : Z * Z) A B A' B' :
  A ++ B = A' ++ B' -> segs_ok (A ++ x :: B) -> segs_ok (A' ++ x :: B') -> A = A' /\ B = B'.
Proof.
  revert A'. induction A as [|a A IH]; intros A' E H1 H2.
  - destruct A' as [|a' A']; cbn in *; [auto|]. exfalso. subst B.
    change (x :: a' :: A' ++ B') with ([x] ++ (a' :: A' ++ B')) in H1. apply segs_ok_app in H1 as (H1 & _ & H3).
    change (a' :: A' ++ x :: B') with ((a' :: A') ++ (x :: B')) in H2. apply segs_ok_app in H2 as (H2 & _ & H4).
    specialize (H3 x a' ltac:(constructor) ltac:(constructor)). specialize (H4 a' x ltac:(constructor) ltac:(constructor)).
    pose proof (segs_ok_pos _ x H1 ltac:(constructor)). pose proof (segs_ok_pos _ a' H2 ltac:(constructor)).
    unfold seg_before in *. lia.
  - destruct A' as [|a' A']; cbn in *.
    + exfalso. subst B'.
      change (x :: a :: A ++ B) with ([x] ++ (a :: A ++ B)) in H2. apply segs_ok_app in H2 as (H2 & _ & H3).
      change (a :: A ++ x :: B) with ((a :: A) ++ (x :: B)) in H1. apply segs_ok_app in H1 as (H1 & _ & H4).
      specialize (H3 x a ltac:(constructor) ltac:(constructor)). specialize (H4 a x ltac:(constructor) ltac:(constructor)).
      pose proof (segs_ok_pos _ x H2 ltac:(constructor)). pose proof (segs_ok_pos _ a H1 ltac:(constructor)).
      unfold seg_before in *. lia.
    + injection E as -> E.
      change (a' :: A ++ x :: B) with ([a'] ++ (A ++ x :: B)) in H1. apply segs_ok_app in H1 as (_ & H1 & _).
      change (a' :: A' ++ x :: B') with ([a'] ++ (A' ++ x :: B')) in H2. apply segs_ok_app in H2 as (_ & H2 & _).
      destruct (IH _ E H1 H2). subst. auto.
Qed.

(** ** The storage after a cancellation *)
Definition gcancel (G : ghost) (t : Z) (d : dir) (id : Z) : ghost :=
  gset (gsync G t) t d (g_cancel (g_sync (G t d)) id).
Definition cancel_st (s : storage) (G : ghost) (t : Z) (o : limit_order)
   (m' : gmap (Z * Z) tnode) (tr' : gmap (Z * dir) Z) (c' : gmap Z Z) : storage :=
  let d := o_dir o in
  set_dirliq (<[d := get_directional_liquidity s d - o_quantity o * DEC]> (s_dirliq s))
  (set_ticks (<[t := ts_of (gcancel G t d (o_id o)) t]> (s_ticks s))
  (set_orders (delete (t, o_id o) (s_orders s)) (upd s m' tr' c'))).
Definition cancel_resp (ob : orderbook) (i : info) (t id : Z) (o : limit_order) : response :=
  mkResp
    [("method", AStr "cancelLimit"); ("owner", AStr (i_sender i)); ("tick_id", AInt t);
     ("order_id", AInt id); ("quantity", AInt (o_quantity o)); ("order_direction", ADir (o_dir o));
     ("initial_quantity", AInt (o_placed_quantity o)); ("order_denom", AStr (get_expected_denom ob (o_dir o)));
     ("output_denom", AStr (get_opposite_denom ob (o_dir o)))]
    [] [mkSend REPLY_ID_REFUND (o_owner o) (mkCoin (get_expected_denom ob (o_dir o)) (o_quantity o))] None.

Lemma order_tick s G t id o : inv s G -> s_orders s !! (t, id) = Some o -> s_ticks s !! t = Some (ts_of G t).
Proof.
  intros Hi E. apply (i_order _ _ Hi) in E. destruct (oo_live _ _ _ _ E) as (n & c & Hl & _). cbn in Hl.
  destruct (s_ticks s !! t) as [ts|] eqn:Et.
  - rewrite (inv_tick_some _ _ _ _ Hi Et). reflexivity.
  - rewrite (i_none _ _ Hi _ _ Et) in Hl. inversion Hl.
Qed.

Lemma cancel_inv s G t id o n c m' tr' c' :
  inv s G -> s_orders s !! (t, id) = Some o ->
  (id, (n, c, o_quantity o)) ∈ g_lives (G t (o_dir o)) -> g_F (G t (o_dir o)) <= n ->
  store_ok t m' tr' (unwrap_or (c' !! t) 0) (canl (gcancel G t (o_dir o) id) t) ->
  unwrap_or (c' !! t) 0 <= U64_MAX ->
  (forall t' q, t' <> t -> m' !! (t', q) = s_nodes s !! (t', q)) ->
  (forall t' d, t' <> t -> tr' !! (t', d) = s_tree s !! (t', d)) ->
  (forall t', t' <> t -> c' !! t' = s_nodectr s !! t') ->
  inv (cancel_st s G t o m' tr' c') (gcancel G t (o_dir o) id).
Proof.
  intros Hi Eo Hl HF Hst HU Hm Htr Hc. pose proof DEC_pos as HD.
  pose proof (i_order _ _ Hi _ _ Eo) as Ho. pose proof (oo_id _ _ _ _ Ho) as Eid. cbn in Eid.
  pose proof (order_tick _ _ _ _ _ Hi Eo) as Hts.
  pose proof Hi as [K1 K2 K3 K4 K5 K6 K7 K8 K9 K10 K11 K12 K13 K14 K15].
  set (d := o_dir o) in *. set (g := g_sync (G t d)).
  destruct (sync_ok _ (K3 t d)) as [Hg Hsy]. fold g in Hg, Hsy.
  assert (Hl' : (id, (n, c, o_quantity o)) ∈ g_lives g).
  { unfold g, g_lives. rewrite sync_items. exact Hl. }
  assert (HF' : g_F g <= n) by (unfold g; rewrite sync_F; exact HF).
  pose proof (cancel_ok _ _ _ _ _ Hg Hsy Hl' HF') as Hgc.
  destruct (cancel_open _ _ _ _ _ Hg Hl') as [Hop Hct].
  destruct (cancel_lives _ _ _ _ _ Hg Hl') as [CL1 CL2].
  assert (Hopg : g_open g = g_open (G t d)) by (unfold g, g_open; rewrite sync_items, sync_F; reflexivity).
  set (G' := gcancel G t d id) in *.
  assert (EG : G' t d = g_cancel g id) by apply gset_eq.
  assert (EGn : forall t' d', t' <> t \/ d' <> d -> G' t' d' = gsync G t t' d') by (intros; apply gset_ne; assumption).
  assert (Eopen : forall d', tv_tal (tv_of (G' t d')) = tv_tal (tv_of (G t d')) - (if decide (d' = d) then o_quantity o * DEC else 0)).
  { intros d'. cbn [tv_of tv_tal]. destruct (decide (d' = d)) as [->|Hne].
    - rewrite EG, Hop, Hopg. lia.
    - rewrite EGn by auto. rewrite gsync_open. lia. }
  assert (Hlive : forall t' d' id' n' c' q', (id', (n', c', q')) ∈ g_lives (G' t' d') ->
     (t' <> t \/ d' <> d \/ id' <> id) /\ exists n0 c0, (id', (n0, c0, q')) ∈ g_lives (G t' d') /\ n' + c' = n0 + c0).
  { intros t' d' id' n' cc q' Hx. destruct (decide (t' = t /\ d' = d)) as [[-> ->]|Hn].
    - rewrite EG in Hx. apply CL1 in Hx as (Hne & n0 & c0 & Hx & E & _). split; [auto|]. exists n0, c0. split; [|exact E].
      unfold g, g_lives in Hx. rewrite sync_items in Hx. exact Hx.
    - assert (Hd : t' <> t \/ d' <> d) by (destruct (decide (t' = t)); [right; tauto|left; assumption]).
      rewrite EGn in Hx by exact Hd. rewrite gsync_lives in Hx. split; [tauto|]. exists n', cc. auto. }
  unfold cancel_st. rewrite Eid. fold d. fold G'.
  split; cbn [set_ticks set_dirliq set_orders upd set_nodectr set_tree set_nodes s_ticks s_nodes s_tree s_nodectr s_orders s_order_id
              s_dirliq s_orderbook s_fee s_recipient s_active]; try assumption.
  - intros t' ts E. destruct (decide (t' = t)) as [->|Hne].
    + rewrite lookup_insert in E. injection E as <-. split; [|reflexivity]. apply (K1 _ _ Hts).
    + rewrite lookup_insert_ne in E by congruence. destruct (K1 _ _ E) as [Hv ->]. split; [exact Hv|].
      unfold ts_of. rewrite !EGn by auto. rewrite !gsync_ne by assumption. reflexivity.
  - intros t' d' E. destruct (decide (t' = t)) as [->|Hne]; [rewrite lookup_insert in E; discriminate|].
    rewrite lookup_insert_ne in E by congruence. rewrite EGn by auto. rewrite gsync_ne by assumption. auto.
  - intros t' d'. apply (gset_ind side_ok); [assumption|]. intros _. apply gsync_side. auto.
  - intros t'. unfold nctr. cbn [set_dirliq set_ticks set_orders set_nodectr s_nodectr]. destruct (decide (t' = t)) as [->|Hne].
    + exact Hst.
    + rewrite Hc by assumption. eapply store_frame; [|intros q; apply Hm; assumption|intros d'; apply Htr; assumption].
      eapply store_ok_ext; [apply (K4 t')|]. intros d'. unfold canl. rewrite EGn by auto. rewrite gsync_cans. reflexivity.
  - intros t'. unfold nctr. cbn [set_dirliq set_ticks set_orders set_nodectr s_nodectr]. destruct (decide (t' = t)) as [->|Hne]; [assumption|].
    rewrite Hc by assumption. apply K5.
  - intros k o' E. apply lookup_delete_Some in E as [Hne E]. destruct (K6 _ _ E) as [A1 A2 A3 A4 A5 A6 A7]. split; try assumption.
    destruct A4 as (n0 & c0 & A4 & A4'). destruct k as [t' id']. cbn [fst snd] in *.
    destruct (decide (t' = t /\ o_dir o' = d)) as [[-> Ed]|Hn].
    + rewrite Ed, EG. rewrite Ed in A4.
      assert (Hx : (id', (n0, c0, o_quantity o')) ∈ g_lives g) by (unfold g, g_lives; rewrite sync_items; exact A4).
      destruct (CL2 id' n0 c0 _ ltac:(congruence) Hx) as (n' & cc & Hx' & E' & _). exists n', cc. split; [exact Hx'|]. rewrite A4', E'. reflexivity.
    + exists n0, c0. split; [|assumption]. rewrite EGn by (destruct (decide (t' = t)); [right; tauto|left; assumption]). rewrite gsync_lives. exact A4.
  - intros t' d' id' n' cc q' Hx. apply Hlive in Hx as (Hne & n0 & c0 & Hx & E).
    destruct (K7 _ _ _ _ _ _ Hx) as (o' & Eo' & Ed & Eq & Ee). exists o'. split; [|rewrite E; auto].
    rewrite lookup_delete_ne; [exact Eo'|]. intros [= <- <-]. rewrite Eo in Eo'. injection Eo' as <-. unfold d in Hne. destruct Hne as [Hne|[Hne|Hne]]; congruence.
  - intros t1 t2 id' o1 o2 E1 E2. apply lookup_delete_Some in E1 as [_ E1]. apply lookup_delete_Some in E2 as [_ E2]. eauto.
  - intros d'. unfold get_directional_liquidity at 1. cbn [set_dirliq s_dirliq]. rewrite (msum_insert _ _ _ _ _ Hts).
    unfold liq at 2 3. rewrite !get_ts_of, Eopen. rewrite <- K10. destruct (decide (d' = d)) as [->|Hne].
    + rewrite lookup_insert. cbn [unwrap_or]. lia.
    + rewrite lookup_insert_ne by congruence. fold (get_directional_liquidity s d'). lia.
  - destruct K11 as (ob & E & [B1 B2 B3 B4 B5]). exists ob. split; [exact E|]. split; try assumption.
    all: cbn [set_ticks set_dirliq s_ticks]; intros t' ts E'; destruct (decide (t' = t)) as [->|Hne];
      [rewrite lookup_insert in E'; injection E' as <-; rewrite get_ts_of, Eopen; intros Hpos;
       specialize (B4 _ _ Hts); specialize (B5 _ _ Hts); rewrite get_ts_of in B4, B5;
       assert (0 < o_quantity o * DEC) by (pose proof (oo_qty _ _ _ _ Ho); nia);
       first [apply B4|apply B5]; destruct (decide _); lia
      |rewrite lookup_insert_ne in E' by congruence; eauto].
  - intros t' E. destruct (decide (t' = t)) as [->|Hne]; [rewrite lookup_insert in E; discriminate|]. rewrite lookup_insert_ne in E by congruence.
    destruct (K14 _ E) as [D1 D2]. rewrite Hc by assumption. split; [exact D1|]. intros d'. rewrite Htr by assumption. apply D2.
  - intros d'. unfold get_directional_liquidity at 1. cbn [set_dirliq s_dirliq]. pose proof (oo_qty _ _ _ _ Ho) as Hq. destruct (decide (d' = d)) as [->|Hne].
    + rewrite lookup_insert. cbn [unwrap_or]. specialize (K15 d). nia.
    + rewrite lookup_insert_ne by congruence. apply K15.
Qed.

Lemma nonpayable_ok i : i_funds i = [] -> nonpayable i = Ok tt.
Proof. unfold nonpayable. intros ->. reflexivity. Qed.
Lemma nonpayable_inv i u : nonpayable i = Ok u -> i_funds i = [].
Proof. unfold nonpayable. destruct (i_funds i); [reflexivity|discriminate]. Qed.

(** Exact behaviour of a cancel by the owner of a live order. *)
Lemma cancel_cases s G ob i t id o n c :
  inv s G -> s_orderbook s = Some ob -> s_orders s !! (t, id) = Some o ->
  i_funds i = [] -> i_sender i = o_owner o ->
  (id, (n, c, o_quantity o)) ∈ g_lives (G t (o_dir o)) -> o_etas o = (n + c) * DEC ->
  (g_F (G t (o_dir o)) <= n /\ exists m' tr' c',
     cancel_limit i t id s = (cancel_st s G t o m' tr' c', Ok (cancel_resp ob i t id o)) /\
     inv (cancel_st s G t o m' tr' c') (gcancel G t (o_dir o) id) /\
     (forall t', nctr s t' <= unwrap_or (c' !! t') 0 <= nctr s t' + (if decide (t' = t) then 5 else 0))) \/
  (n < g_F (G t (o_dir o)) /\ exists s', cancel_limit i t id s = (s', Err ECancelFilledOrder)) \/
  (U64_MAX < nctr s t + 4 /\ forall s' r, cancel_limit i t id s <> (s', Ok r)).
Proof.
  intros Hi Eob Eo Hf Hsend Hl Hetas. pose proof DEC_pos as HD.
  pose proof (i_order _ _ Hi _ _ Eo) as Ho. pose proof (oo_id _ _ _ _ Ho) as Eid. pose proof (oo_tick _ _ _ _ Ho) as Etk. cbn in Eid, Etk.
  pose proof (oo_qty _ _ _ _ Ho) as Hq. pose proof (oo_max _ _ _ _ Ho) as Hqmax.
  pose proof (order_tick _ _ _ _ _ Hi Eo) as Hts.
  assert (Hqd : dec_from_ratio (o_quantity o) 1 = Ok (o_quantity o * DEC)).
  { apply dec_from_ratio_1; [lia|]. unfold U128_MAX, U256_MAX in *. rewrite DEC_val. lia. }
  unfold cancel_limit. rewrite (bind_lift _ tt) by (apply nonpayable_ok; exact Hf).
  rewrite (bind_readr _ o) by (rewrite Eo; reflexivity).
  rewrite bind_ensure by (rewrite bool_decide_true by assumption; reflexivity).
  rewrite bind_read, Hts. cbn [unwrap_or]. rewrite !get_ts_of.
  destruct (sync_spec s G t Hi ltac:(congruence)) as [(tr1 & c1 & E1 & Hi1 & Hc1 & Htr1 & Hcc1)|(HU & s' & E1)].
  2:{ right; right. split; [lia|]. intros s2 r. unfold mbindM at 1. rewrite E1. discriminate. }
  rewrite (bind_ok _ _ _ _ _ E1). rewrite bind_read.
  set (s1 := sync_st s G t tr1 c1) in *. set (G1 := gsync G t) in *. set (d := o_dir o) in *.
  assert (Hts1 : s_ticks s1 !! t = Some (ts_of G1 t)) by apply lookup_insert.
  rewrite Hts1. cbn [unwrap_or]. rewrite !get_ts_of.
  assert (HG1 : G1 t d = g_sync (G t d)) by apply gsync_eq.
  destruct (sync_ok _ (i_side _ _ Hi t d)) as [Hg Hsy]. rewrite <- HG1 in Hg, Hsy.
  assert (Hl1 : (id, (n, c, o_quantity o)) ∈ g_lives (G1 t d)) by (unfold G1; rewrite gsync_lives; exact Hl).
  assert (EF : g_F (G1 t d) = g_F (G t d)) by apply gsync_F.
  destruct (fill_position _ _ _ _ _ Hg Hsy Hl1) as (Hfp & Hq0 & Hn0 & Hc0 & Hnq & Hcc & Hfit).
  unfold fifo in Hfp. rewrite EF in *.
  rewrite Hetas. cbn [tv_of tv_etas]. rewrite leb_scale. rewrite EF.
  destruct (Z.leb_spec (g_F (G t d) + g_crc (G1 t d)) (n + c)) as [Hle|Hgt].
  2:{ right; left. split; [lia|]. eexists. reflexivity. }
  assert (HF : g_F (G t d) <= n) by lia.
  rewrite bind_ensure by reflexivity.
  (* the tree insertion *)
  assert (Hl1' : (id, (n, c, o_quantity o)) ∈ g_lives (g_sync (G t d))) by (rewrite <- HG1; exact Hl1).
  rewrite HG1 in Hg, Hsy.
  pose proof (cancel_ok _ _ _ _ _ Hg Hsy Hl1' ltac:(rewrite sync_F; exact HF)) as Hgc.
  destruct (cancel_cans _ _ _ _ _ Hg Hl1') as (A & B & EA & EB).
  destruct (cancel_open _ _ _ _ _ Hg Hl1') as [Hop Hct].
  set (G' := gcancel G t d id) in *.
  assert (EG' : G' t d = g_cancel (g_sync (G t d)) id) by apply gset_eq.
  assert (Hgc' : side_ok (G' t d)) by (rewrite EG'; exact Hgc).
  assert (HcA : canl G1 t d = scale A ++ scale B) by (unfold canl; rewrite HG1, EA; apply scale_app).
  assert (HcB : canl G' t d = scale A ++ ((n + c) * DEC, o_quantity o * DEC) :: scale B).
  { unfold canl. rewrite EG', EB, scale_app. reflexivity. }
  assert (Hsegs : segs_ok (canl G' t d)) by (apply canl_segs; exact Hgc').
  pose proof (i_ctr _ _ Hi1 t) as HU1.
  assert (Hin_e : ((n + c) * DEC, o_quantity o * DEC) ∈ canl G' t d).
  { rewrite HcB. apply elem_of_app. right. constructor. }
  destruct (root_insert_cases t d s1 (s_nodes s1) (s_tree s1) (s_nodectr s1) (nctr s1 t) (canl G1 t) ((n + c) * DEC) (o_quantity o * DEC))
    as [(root & tr0 & c0 & kn & c2 & m' & tr' & c' & n' & nw & R1 & R2 & R3 & R4)|(HU & Hfail)];
    try exact (i_store _ _ Hi1 t); try reflexivity; try assumption.
  { apply canl_segs. apply (i_side _ _ Hi1). }
  { nia. } { nia. }
  { rewrite HcB in Hsegs. intros p Hp. rewrite HcA in Hp. apply segs_ok_app in Hsegs as (Q1 & Q2 & Q3).
    change (((n + c) * DEC, o_quantity o * DEC) :: scale B) with ([((n + c) * DEC, o_quantity o * DEC)] ++ scale B) in Q2.
    apply segs_ok_app in Q2 as (_ & _ & Q4).
    apply elem_of_app in Hp as [Hp|Hp]; [left; apply Q3; [exact Hp|constructor]|right; apply Q4; [constructor|exact Hp]]. }
  { apply (canl_ends G' t d _ Hgc' Hin_e). }
  { intros p Hp. eapply canl_ends; [|exact Hp]. apply (i_side _ _ Hi1). }
  2:{ right; right. rewrite <- upd_id in Hfail. specialize (Hc1 t). rewrite decide_True in Hc1 by reflexivity.
      change (unwrap_or (c1 !! t) 0) with (nctr s1 t) in Hc1. split; [lia|].
      intros s' r Hrun. rewrite Etk in Hrun.
      apply bind_inv in Hrun as (x1 & y1 & X1 & Hrun).
      destruct Hfail as [(z & Z1)|(root & z & Z1 & Hfail)]; rewrite Z1 in X1; [discriminate|]. injection X1 as <- <-.
      apply bind_inv in Hrun as (x2 & y2 & X2 & Hrun).
      destruct Hfail as [(z2 & Z2)|(kn & z2 & Z2 & Zt & Hno)]; rewrite Z2 in X2; [discriminate|]. injection X2 as <- <-.
      apply bind_inv in Hrun as (x3 & y3 & X3 & Hrun). apply mreadr_inv in X3 as [-> _].
      rewrite (bind_lift _ _ _ _ Hqd) in Hrun.
      apply bind_inv in Hrun as (x4 & y4 & X4 & Hrun). exact (Hno _ _ X4). }
  left. split; [exact HF|]. rewrite <- upd_id in R1. rewrite Etk.
  destruct R4 as [(L1 & L2 & EL & HLs & HLst) I2 I3 I4 I5 I6 I7].
  assert (L1 = scale A /\ L2 = scale B) as [-> ->].
  { apply (insert_unique ((n + c) * DEC, o_quantity o * DEC)); [congruence|assumption|]. rewrite HcB in Hsegs. exact Hsegs. }
  exists m', tr', c'.
  assert (Hinv : inv (cancel_st s G t o m' tr' c') G').
  { apply (cancel_inv s G t id o n c); try assumption.
    - eapply store_ok_ext; [exact HLst|]. intros d'. cbn. destruct (decide (d' = d)) as [->|Hne]; [exact HcB|].
      unfold canl. unfold gcancel. rewrite gset_ne by auto. reflexivity.
    - intros t' d' Hne. rewrite I6 by congruence. apply Htr1. exact Hne.
    - intros t' Hne. rewrite I7 by exact Hne. apply Hcc1. exact Hne. }
  split; [|split; [exact Hinv|]].
  2:{ intros t'. specialize (Hc1 t'). destruct (decide (t' = t)) as [->|Hne].
      - change (unwrap_or (c1 !! t) 0) with (nctr s1 t) in Hc1. lia.
      - rewrite I7 by assumption. change (s_nodectr s1) with c1. lia. }
  rewrite (bind_ok _ _ _ _ _ R1). rewrite (bind_ok _ _ _ _ _ R2).
  rewrite (bind_readr _ (ts_of G1 t)) by (cbn [upd set_nodectr set_tree set_nodes s_ticks]; rewrite Hts1; reflexivity).
  rewrite (bind_lift _ _ _ _ Hqd). fold d. rewrite (bind_ok _ _ _ _ _ R3). cbn [fst].
  rewrite (bind_readr _ ob) by (unfold load_orderbook; cbn [upd set_nodectr set_tree set_nodes s_orderbook s1 sync_st set_ticks]; rewrite Eob; reflexivity).
  unfold remove_order. rewrite bind_mod. rewrite (bind_lift _ _ _ _ Hqd). rewrite !get_ts_of. cbn [tv_of tv_tal tv_ctt tv_etas tv_crc tv_last].
  assert (Hopen : o_quantity o <= g_open (G1 t d)).
  { unfold g_open. rewrite EF. lia. }
  rewrite (bind_lift _ (g_open (G1 t d) * DEC - o_quantity o * DEC)).
  2:{ unfold checked_sub. rewrite leb_scale. destruct (Z.leb_spec (o_quantity o) (g_open (G1 t d))); [reflexivity|lia]. }
  unfold save_tick. rewrite bind_mod.
  unfold subtract_directional_liquidity. rewrite bind_assoc, bind_read.
  match goal with |- context [get_directional_liquidity ?x d] => change (get_directional_liquidity x d) with (get_directional_liquidity s d) end.
  rewrite bind_assoc. rewrite (bind_lift _ (get_directional_liquidity s d - o_quantity o * DEC)).
  2:{ unfold checked_sub. destruct (Z.leb_spec (o_quantity o * DEC) (get_directional_liquidity s d)) as [|Hlt]; [reflexivity|]. exfalso.
      rewrite (i_liq _ _ Hi) in Hlt.
      assert (Hel : liq d t (ts_of G t) <= msum (liq d) (s_ticks s)).
      { apply msum_elem; [|exact Hts]. intros k v Ek. rewrite (inv_tick_some _ _ _ _ Hi Ek). unfold liq. rewrite get_ts_of. cbn [tv_of tv_tal].
        pose proof (g_open_nonneg _ (i_side _ _ Hi k d)). nia. }
      unfold liq at 1 in Hel. rewrite get_ts_of in Hel. cbn [tv_of tv_tal] in Hel. unfold G1 in Hopen. rewrite gsync_open in Hopen. nia. }
  rewrite bind_mod. unfold node_save. rewrite bind_mod. unfold mret. f_equal.
  unfold cancel_st, s1, sync_st, upd. rewrite Eid. fold d. fold G'.
  cbn [set_ticks set_dirliq set_orders set_nodectr set_tree set_nodes s_ticks s_nodes s_tree s_nodectr s_orders s_order_id
              s_dirliq s_orderbook s_fee s_recipient s_active s_admin s_admin_offer s_moderator s_moderator_offer].
  rewrite (insert_id m') by exact I4. rewrite insert_insert.
  match goal with |- context [set_values (ts_of G1 t) d ?v] => assert (Etv : set_values (ts_of G1 t) d v = ts_of G' t) end.
  { unfold G', gcancel. rewrite <- set_ts_of. f_equal. unfold tv_of. rewrite HG1. rewrite Hop, Hct. cbn [g_cancel g_F g_crc g_last]. f_equal. lia. }
  rewrite Etv. reflexivity.
Qed.
