(** * StepPlace: placing a limit order preserves the invariant. *)
From Verif Require Import Base Dec Types State TickMath Sumtree Tick Order SpecMath TickMathProofs
  TreeDefs Exec SumtreeProofs SumtreeRebalance SumtreeInsert PrefixSum SumtreeRoot SumtreeFail Ghost Inv.

(** Administrative fields are untouched. *)
Record same_admin (s s' : storage) : Prop := {
  sa_active : s_active s' = s_active s;
  sa_fee : s_fee s' = s_fee s;
  sa_recipient : s_recipient s' = s_recipient s;
  sa_admin : s_admin s' = s_admin s;
  sa_admin_offer : s_admin_offer s' = s_admin_offer s;
  sa_moderator : s_moderator s' = s_moderator s;
  sa_moderator_offer : s_moderator_offer s' = s_moderator_offer s
}.
Lemma same_admin_refl s : same_admin s s.
Proof. split; reflexivity. Qed.
Lemma same_admin_trans s1 s2 s3 : same_admin s1 s2 -> same_admin s2 s3 -> same_admin s1 s3.
Proof. intros [] []. split; congruence. Qed.

Lemma must_pay_inv i denom a :
  must_pay i denom = Ok a -> i_funds i = [mkCoin denom a] /\ a <> 0.
Proof.
  unfold must_pay. destruct (i_funds i) as [|[cd ca] [|]]; cbn [c_amount c_denom]; try discriminate.
  destruct (Z.eqb_spec ca 0); [discriminate|]. destruct (bool_decide_reflect (cd = denom)); [|discriminate].
  intros [= <-]. subst. auto.
Qed.
Lemma must_pay_ok i denom a : i_funds i = [mkCoin denom a] -> a <> 0 -> must_pay i denom = Ok a.
Proof.
  intros E Ha. unfold must_pay. rewrite E. cbn [c_amount c_denom]. destruct (Z.eqb_spec a 0); [contradiction|].
  rewrite bool_decide_true by reflexivity. reflexivity.
Qed.

(** The storage after a placement. *)
Definition placed_order (e : env) (i : info) (g : side) (t : Z) (d : dir) (id q : Z) (b : option Z) : limit_order :=
  new_order t id d (i_sender i) q ((nfs (g_items g) + cns (g_items g)) * DEC) b (e_time e).
Definition place_st (s : storage) (G : ghost) (ob : orderbook) (e : env) (i : info) (t : Z) (d : dir) (q : Z) (b : option Z) : storage :=
  let id := next_id s in
  let G' := gset G t d (g_place (G t d) id q) in
  set_dirliq (<[d := get_directional_liquidity s d + q * DEC]> (s_dirliq s))
  (set_ticks (<[t := ts_of G' t]> (s_ticks s))
  (set_orders (<[(t, id) := placed_order e i (G t d) t d id q b]> (s_orders s))
  (set_orderbook (place_update_book ob d t)
  (set_order_id (id + 1) s)))).
Definition place_resp (ob : orderbook) (i : info) (t : Z) (d : dir) (id q : Z) : response :=
  mkResp
    [("method", AStr "placeLimit"); ("owner", AStr (i_sender i)); ("tick_id", AInt t);
     ("order_id", AInt id); ("order_direction", ADir d); ("quantity", AInt q);
     ("order_denom", AStr (get_expected_denom ob d)); ("output_denom", AStr (get_opposite_denom ob d))]
    [] [] None.

Lemma tick_or_default s G t : inv s G -> unwrap_or (s_ticks s !! t) ts_default = ts_of G t.
Proof.
  intros Hi. destruct (s_ticks s !! t) as [ts|] eqn:E; cbn [unwrap_or].
  - apply (inv_tick_some _ _ _ _ Hi E).
  - unfold ts_of. rewrite !(i_none _ _ Hi) by assumption. reflexivity.
Qed.
Lemma place_book_denoms ob d t : ob_quote (place_update_book ob d t) = ob_quote ob /\ ob_base (place_update_book ob d t) = ob_base ob
  /\ ob_current (place_update_book ob d t) = ob_current ob.
Proof. unfold place_update_book. destruct d; destruct (_ <? _); auto. Qed.
Lemma opposite_denom_book ob ob' d : ob_quote ob' = ob_quote ob -> ob_base ob' = ob_base ob ->
  get_opposite_denom ob' d = get_opposite_denom ob d.
Proof. destruct d; cbn; auto. Qed.
Lemma bounty_u b : bounty_ok b = true -> forall x, b = Some x -> 0 <= x <= dec_percent 1.
Proof. intros H x ->. cbn in H. apply andb_prop in H as [A B]. apply Z.leb_le in A, B. lia. Qed.

(** The tick range check. *)
Lemma valid_tick_b t : (MIN_TICK <=? t) && (t <=? MAX_TICK) = true <-> valid_tick t.
Proof. unfold MIN_TICK, MAX_TICK, valid_tick. rewrite andb_true_iff, !Z.leb_le. reflexivity. Qed.

Record place_pre (s : storage) (G : ghost) (ob : orderbook) (i : info) (t : Z) (d : dir) (q : Z) (b : option Z) : Prop := {
  pp_book : s_orderbook s = Some ob;
  pp_tick : valid_tick t;
  pp_qty : 0 < q;
  pp_bounty : bounty_ok b = true;
  pp_funds : i_funds i = [mkCoin (get_expected_denom ob d) q];
  pp_id : next_id s + 1 <= U64_MAX;
  pp_fit : (nfs (g_items (G t d)) + cns (g_items (G t d)) + q) * DEC <= U256_MAX;
  pp_liq : get_directional_liquidity s d + q * DEC <= U256_MAX
}.

(** Exact behaviour: success under [place_pre], and only then. *)
Lemma place_run s G ob e i t d q b :
  inv s G -> q <= U128_MAX -> place_pre s G ob i t d q b ->
  place_limit e i t d q b s = (place_st s G ob e i t d q b, Ok (place_resp ob i t d (next_id s) q)).
Proof.
  intros Hi Hq128 [H1 H2 H3 H4 H5 H6 H7 H8]. pose proof DEC_pos as HD.
  pose proof (i_side _ _ Hi t d) as Hside. pose proof (so_F _ Hside) as HsF. pose proof (so_crc _ Hside) as HsC.
  unfold place_limit. rewrite (bind_readr _ ob) by (unfold load_orderbook; rewrite H1; reflexivity).
  rewrite bind_ensure by (apply valid_tick_b; assumption).
  rewrite bind_ensure by (apply Z.ltb_lt; assumption).
  rewrite bind_ensure by assumption.
  rewrite (bind_lift _ q) by (apply must_pay_ok; [assumption|lia]).
  rewrite bind_ensure by apply Z.eqb_refl.
  assert (E : new_order_id s = (set_order_id (next_id s + 1) s, Ok (next_id s))).
  { unfold new_order_id. rewrite bind_read. fold (next_id s). destruct (Z.leb_spec (next_id s + 1) U64_MAX); [|lia]. reflexivity. }
  rewrite (bind_ok _ _ _ _ _ E). rewrite bind_mod. rewrite bind_read.
  change (s_ticks (set_orderbook (place_update_book ob d t) (set_order_id (next_id s + 1) s))) with (s_ticks s).
  rewrite (tick_or_default s G t Hi). rewrite get_ts_of. cbn [new_order o_quantity].
  rewrite (bind_lift _ (q * DEC)) by (apply dec_from_ratio_1; nia).
  unfold save_order. rewrite bind_mod. cbn [tv_of tv_tal tv_ctt tv_etas tv_crc tv_last].
  assert (Hopen : 0 <= g_open (G t d) <= nfs (g_items (G t d))) by (unfold g_open; lia).
  rewrite (bind_lift _ (g_open (G t d) * DEC + q * DEC)).
  2:{ unfold checked_add256. destruct (Z.leb_spec (g_open (G t d) * DEC + q * DEC) U256_MAX); [reflexivity|nia]. }
  rewrite (bind_lift _ (q * DEC)) by (apply dec_from_ratio_1; nia).
  rewrite (bind_lift _ ((nfs (g_items (G t d)) + cns (g_items (G t d))) * DEC + q * DEC)).
  2:{ unfold checked_add256. destruct (Z.leb_spec ((nfs (g_items (G t d)) + cns (g_items (G t d))) * DEC + q * DEC) U256_MAX); [reflexivity|nia]. }
  unfold save_tick. rewrite bind_mod. unfold add_directional_liquidity. rewrite bind_assoc. rewrite bind_read.
  match goal with |- context [get_directional_liquidity ?x d] => change (get_directional_liquidity x d) with (get_directional_liquidity s d) end.
  rewrite bind_assoc. rewrite (bind_lift _ (get_directional_liquidity s d + q * DEC)).
  2:{ unfold checked_add256. destruct (Z.leb_spec (get_directional_liquidity s d + q * DEC) U256_MAX); [reflexivity|lia]. }
  rewrite bind_mod. unfold mret, place_resp. f_equal.
  - unfold place_st. f_equal. f_equal. rewrite <- set_ts_of. f_equal. f_equal.
    unfold tv_of, g_place, g_open. cbn [g_items g_F g_crc g_last]. rewrite nfs_app, cns_app. cbn [nfs cns qn qc]. f_equal; lia.
  - destruct (place_book_denoms ob d t) as (A1 & A2 & _). rewrite (opposite_denom_book ob _ d A1 A2). reflexivity.
Qed.

Lemma place_pre_inv s G e i t d q b s' r :
  inv s G -> 0 <= q <= U128_MAX -> place_limit e i t d q b s = (s', Ok r) -> exists ob, place_pre s G ob i t d q b.
Proof.
  intros Hi Hq128 H. pose proof DEC_pos as HD.
  pose proof (i_side _ _ Hi t d) as Hside. pose proof (so_F _ Hside) as HsF. pose proof (so_crc _ Hside) as HsC.
  unfold place_limit in H. apply bind_inv in H as (ob & s1 & H1 & H). apply mreadr_inv in H1 as [-> H1].
  apply ok_or_inv in H1.
  apply bind_inv in H as (u & s1 & H2 & H). apply mensure_inv in H2 as [-> H2]. apply valid_tick_b in H2.
  apply bind_inv in H as (u1 & s1 & H3 & H). apply mensure_inv in H3 as [-> H3]. apply Z.ltb_lt in H3.
  apply bind_inv in H as (u2 & s1 & H4 & H). apply mensure_inv in H4 as [-> H4].
  apply bind_inv in H as (a & s1 & H5 & H). apply mlift_inv in H5 as [-> H5]. apply must_pay_inv in H5 as [H5 Ha].
  apply bind_inv in H as (u3 & s1 & H6 & H). apply mensure_inv in H6 as [-> H6]. apply Z.eqb_eq in H6. subst a.
  apply bind_inv in H as (id & s1 & H7 & H). unfold new_order_id in H7. rewrite bind_read in H7. fold (next_id s) in H7.
  destruct (Z.leb_spec (next_id s + 1) U64_MAX) as [Hid|]; [|discriminate]. rewrite bind_mod in H7. apply mret_inv in H7 as [-> ->].
  rewrite bind_mod, bind_read in H.
  change (s_ticks (set_orderbook (place_update_book ob d t) (set_order_id (next_id s + 1) s))) with (s_ticks s) in H.
  rewrite (tick_or_default s G t Hi) in H. rewrite get_ts_of in H. cbn [new_order o_quantity] in H.
  assert (Hqd : dec_from_ratio q 1 = Ok (q * DEC)) by (apply dec_from_ratio_1; [lia|unfold U128_MAX, U256_MAX in *; rewrite DEC_val; lia]).
  rewrite (bind_lift _ _ _ _ Hqd) in H.
  unfold save_order in H. rewrite bind_mod in H.
  apply bind_inv in H as (x & s1 & H8 & H). apply mlift_inv in H8 as [-> H8].
  rewrite (bind_lift _ _ _ _ Hqd) in H.
  apply bind_inv in H as (x2 & s1 & H9 & H). apply mlift_inv in H9 as [-> H9]. unfold checked_add256 in H9.
  cbn [tv_of tv_ctt] in H9. destruct (Z.leb_spec ((nfs (g_items (G t d)) + cns (g_items (G t d))) * DEC + q * DEC) U256_MAX); [|discriminate].
  unfold save_tick in H. rewrite bind_mod in H.
  apply bind_inv in H as (u4 & s1 & H10 & H). unfold add_directional_liquidity in H10. rewrite bind_read in H10.
  match type of H10 with context [get_directional_liquidity ?x d] => change (get_directional_liquidity x d) with (get_directional_liquidity s d) in H10 end.
  apply bind_inv in H10 as (x3 & s2 & H10 & _). apply mlift_inv in H10 as [-> H10]. unfold checked_add256 in H10.
  destruct (Z.leb_spec (get_directional_liquidity s d + q * DEC) U256_MAX); [|discriminate].
  exists ob. split; try assumption. lia.
Qed.

Lemma place_lives G t d id q t' d' x :
  x ∈ g_lives (gset G t d (g_place (G t d) id q) t' d') <->
  x ∈ g_lives (G t' d') \/ (t' = t /\ d' = d /\ x = (id, (nfs (g_items (G t d)), cns (g_items (G t d)), q))).
Proof.
  unfold gset. destruct (decide (t' = t /\ d' = d)) as [[-> ->]|Hn].
  - unfold g_place, g_lives. cbn [g_items]. rewrite lives_app. cbn [lives]. rewrite elem_of_app, elem_of_list_singleton, !Z.add_0_l. intuition.
  - intuition.
Qed.
Lemma place_cans g id q : g_cans (g_place g id q) = g_cans g.
Proof. unfold g_cans, g_place. cbn [g_items]. rewrite cans_app. cbn [cans]. apply app_nil_r. Qed.

Lemma live_lt s G t d id x : inv s G -> (id, x) ∈ g_lives (G t d) -> 0 <= id < next_id s.
Proof.
  intros Hi. destruct x as [[n c] q]. intros H. apply (i_live _ _ Hi) in H as (o & E & _).
  apply (i_order _ _ Hi) in E. apply (oo_next _ _ _ _ E).
Qed.

Lemma place_inv s G ob e i t d q b :
  inv s G -> q <= U128_MAX -> place_pre s G ob i t d q b ->
  inv (place_st s G ob e i t d q b) (gset G t d (g_place (G t d) (next_id s) q)).
Proof.
  intros Hi Hq [H1 H2 H3 H4 H5 H6 H7 H8]. pose proof DEC_pos as HD.
  set (id := next_id s) in *. set (G' := gset G t d (g_place (G t d) id q)).
  assert (Hside : side_ok (g_place (G t d) id q)).
  { apply place_ok; try assumption; [apply (i_side _ _ Hi)|]. intros id' Hin. apply elem_of_list_fmap in Hin as ([id2 x] & -> & Hin).
    apply (live_lt _ _ _ _ _ _ Hi) in Hin. cbn. fold id in Hin. lia. }
  pose proof Hi as [K1 K2 K3 K4 K5 K6 K7 K8 K9 K10 K11 K12 K13 K14 K15].
  assert (Hid0 : 0 <= id) by (unfold id; lia).
  split; unfold place_st; fold id; fold G';
    cbn [set_ticks set_dirliq set_orders set_orderbook set_order_id s_ticks s_nodes s_tree s_nodectr s_orders s_order_id
              s_dirliq s_orderbook s_fee s_recipient s_active]; try assumption.
  - intros t' ts E. destruct (decide (t' = t)) as [->|Hne].
    + rewrite lookup_insert in E. injection E as <-. auto.
    + rewrite lookup_insert_ne in E by congruence. destruct (K1 _ _ E) as [Hv ->]. split; [exact Hv|]. symmetry. apply ts_of_ne. assumption.
  - intros t' d' E. destruct (decide (t' = t)) as [->|Hne]; [rewrite lookup_insert in E; discriminate|].
    rewrite lookup_insert_ne in E by congruence. unfold G'. rewrite gset_ne by auto. auto.
  - intros t' d'. apply (gset_ind side_ok); [assumption|auto].
  - intros t'. eapply store_ok_ext; [apply (K4 t')|]. intros d'. unfold canl, G', gset.
    destruct (decide _) as [[-> ->]|]; [rewrite place_cans|]; reflexivity.
  - intros k o E.
    destruct (decide (k = (t, id))) as [->|Hne].
    + rewrite lookup_insert in E. injection E as <-. split; cbn [placed_order new_order o_tick o_id o_quantity o_placed_quantity o_dir o_etas o_bounty fst snd];
        try reflexivity; try assumption; try lia.
      * unfold next_id; cbn [set_dirliq set_ticks set_orders set_orderbook set_order_id s_order_id unwrap_or]. lia.
      * exists (nfs (g_items (G t d))), (cns (g_items (G t d))). split; [|reflexivity]. apply place_lives. auto.
    + rewrite lookup_insert_ne in E by congruence. destruct (K6 _ _ E) as [A1 A2 A3 A4 A5 A6 A7]. split; try assumption.
      * unfold next_id; cbn [set_dirliq set_ticks set_orders set_orderbook set_order_id s_order_id unwrap_or]. fold id in A3. lia.
      * destruct A4 as (n & c & A4 & A4'). exists n, c. split; [|assumption]. apply place_lives. auto.
  - intros t' d' id' n c q' Hin. apply place_lives in Hin as [Hin|(-> & -> & [= -> -> -> ->])].
    + pose proof (live_lt _ _ _ _ _ _ Hi Hin) as Hlt. fold id in Hlt.
      destruct (K7 _ _ _ _ _ _ Hin) as (o & E & ?). exists o. split; [|assumption]. rewrite lookup_insert_ne; [assumption|]. intros [= _ E']. lia.
    + eexists. split; [apply lookup_insert|]. auto.
  - intros t1 t2 id' o1 o2 E1 E2. destruct (decide (id' = id)) as [->|Hne].
    + assert (Hno : forall t3, t3 <> t -> s_orders s !! (t3, id) = None).
      { intros t3 _. destruct (s_orders s !! (t3, id)) eqn:E; [|reflexivity]. apply K6 in E. pose proof (oo_next _ _ _ _ E) as Hx. cbn in Hx. fold id in Hx. lia. }
      destruct (decide (t1 = t)) as [->|N1]; [|rewrite lookup_insert_ne, Hno in E1 by congruence; discriminate].
      destruct (decide (t2 = t)) as [->|N2]; [|rewrite lookup_insert_ne, Hno in E2 by congruence; discriminate]. reflexivity.
    + rewrite lookup_insert_ne in E1, E2 by congruence. eauto.
  - unfold next_id; cbn [set_dirliq set_ticks set_orders set_orderbook set_order_id s_order_id unwrap_or]. fold id in K9. lia.
  - intros d'. unfold get_directional_liquidity at 1. cbn [set_dirliq s_dirliq].
    assert (Hm : msum (liq d') (<[t := ts_of G' t]> (s_ticks s)) = msum (liq d') (s_ticks s) + (if decide (d' = d) then q * DEC else 0)).
    { destruct (s_ticks s !! t) as [ts|] eqn:E.
      - rewrite (msum_insert _ _ _ _ _ E). rewrite (inv_tick_some _ _ _ _ Hi E). unfold liq at 2 3. rewrite !get_ts_of. unfold G', gset.
        destruct (decide (t = t /\ d' = d)) as [[_ ->]|Hn].
        + rewrite decide_True by reflexivity. unfold g_place, g_open. cbn [tv_of tv_tal g_items g_F]. unfold g_open. cbn [g_items g_F].
          rewrite nfs_app. cbn [nfs qn]. lia.
        + rewrite decide_False by tauto. lia.
      - rewrite msum_insert_new by assumption. unfold liq at 1. rewrite get_ts_of. unfold G', gset.
        destruct (decide (t = t /\ d' = d)) as [[_ ->]|Hn].
        + rewrite decide_True by reflexivity. rewrite (K2 _ d E). unfold g_place. cbn [tv_of tv_tal]. unfold g_open. cbn [g_items g_F side0 app nfs qn]. lia.
        + rewrite decide_False by tauto. rewrite (K2 _ d' E). cbn [tv_of tv_tal]. unfold g_open. cbn. lia. }
    rewrite Hm. destruct (decide (d' = d)) as [->|Hne].
    + rewrite lookup_insert. cbn [unwrap_or]. rewrite K10. reflexivity.
    + rewrite lookup_insert_ne by congruence. fold (get_directional_liquidity s d'). rewrite K10. lia.
  - destruct K11 as (ob0 & Eob & [B1 B2 B3 B4 B5]). rewrite H1 in Eob. injection Eob as <-.
    exists (place_update_book ob d t). split; [reflexivity|].
    destruct (place_book_denoms ob d t) as (A1 & A2 & _). split; [congruence| | | |].
    + unfold place_update_book. destruct d; destruct (_ <? _); cbn; assumption.
    + unfold place_update_book. destruct d; destruct (_ <? _); cbn; assumption.
    + cbn [s_ticks set_dirliq set_ticks]. intros t' ts E.
      assert (Hb : ob_next_bid ob <= ob_next_bid (place_update_book ob d t) /\ (d = Bid -> t <= ob_next_bid (place_update_book ob d t))).
      { unfold place_update_book. destruct d; destruct (Z.ltb_spec (ob_next_bid ob) t); destruct (Z.ltb_spec t (ob_next_ask ob)); cbn; split; try lia; discriminate. }
      destruct (decide (t' = t)) as [->|Hne].
      * rewrite lookup_insert in E. injection E as <-. rewrite get_ts_of. unfold G', gset.
        destruct (decide (t = t /\ Bid = d)) as [[_ <-]|Hn]; [intros _; apply Hb; reflexivity|].
        intros Hpos. destruct (s_ticks s !! t) as [ts|] eqn:E.
        -- specialize (B4 _ _ E). rewrite (inv_tick_some _ _ _ _ Hi E), get_ts_of in B4. specialize (B4 Hpos). lia.
        -- rewrite (K2 _ Bid E) in Hpos. vm_compute in Hpos. discriminate.
      * rewrite lookup_insert_ne in E by congruence. intros Hpos. specialize (B4 _ _ E Hpos). lia.
    + cbn [s_ticks set_dirliq set_ticks]. intros t' ts E.
      assert (Hb : ob_next_ask (place_update_book ob d t) <= ob_next_ask ob /\ (d = Ask -> ob_next_ask (place_update_book ob d t) <= t)).
      { unfold place_update_book. destruct d; destruct (Z.ltb_spec (ob_next_bid ob) t); destruct (Z.ltb_spec t (ob_next_ask ob)); cbn; split; try lia; discriminate. }
      destruct (decide (t' = t)) as [->|Hne].
      * rewrite lookup_insert in E. injection E as <-. rewrite get_ts_of. unfold G', gset.
        destruct (decide (t = t /\ Ask = d)) as [[_ <-]|Hn]; [intros _; apply Hb; reflexivity|].
        intros Hpos. destruct (s_ticks s !! t) as [ts|] eqn:E.
        -- specialize (B5 _ _ E). rewrite (inv_tick_some _ _ _ _ Hi E), get_ts_of in B5. specialize (B5 Hpos). lia.
        -- rewrite (K2 _ Ask E) in Hpos. vm_compute in Hpos. discriminate.
      * rewrite lookup_insert_ne in E by congruence. intros Hpos. specialize (B5 _ _ E Hpos). lia.  - intros t' E. destruct (decide (t' = t)) as [->|Hne]; [rewrite lookup_insert in E; discriminate|]. rewrite lookup_insert_ne in E by congruence. auto.
  - intros d'. unfold get_directional_liquidity at 1. cbn [set_dirliq s_dirliq]. destruct (decide (d' = d)) as [->|Hne].
    + rewrite lookup_insert. cbn [unwrap_or]. exact H8.
    + rewrite lookup_insert_ne by congruence. apply K15.
Qed.
