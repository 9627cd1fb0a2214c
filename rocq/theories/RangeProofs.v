(** * RangeProofs: everything a reachable storage holds is within its Rust type (used by C71). *)
From Verif Require Import Base Dec Types State TickMath Sumtree Tick Order Auth Contract Query World SpecMath TickMathProofs
  TreeDefs Exec SumtreeProofs SumtreeRebalance SumtreeInsert PrefixSum SumtreeRoot SumtreeFail Ghost Inv StepPlace StepCancel StepClaim
  SwapPlan StepSwap Trans Spec Reach Refine RefineStep Reserve Solvency Books SpecProps PropBase Tests PropOrders PropClaims PropSwap PropSpot
  SpecEvents SpecCost Keys SpecKeys PropKeys Wire Codec SpecWire.

Lemma valid_i64 t : valid_tick t -> i64 t = true.
Proof. intros [V1 V2]. unfold i64. apply andb_true_intro; split; [apply Z.leb_le; lia|apply Z.ltb_lt; lia]. Qed.
Lemma is_u64 z : 0 <= z <= U64_MAX -> u64 z = true.
Proof. intros H. unfold u64. apply andb_true_intro; split; apply Z.leb_le; lia. Qed.
Lemma is_u128 z : 0 <= z <= U128_MAX -> u128 z = true.
Proof. intros H. unfold u128. apply andb_true_intro; split; apply Z.leb_le; lia. Qed.
Lemma is_dec z : 0 <= z <= U256_MAX -> dec_ok z.
Proof. intros H. unfold dec_ok, u256. apply andb_true_intro; split; apply Z.leb_le; lia. Qed.

(** ** Trees *)
Lemma sum_span t : segs_ok (leaves t) -> 0 <= tmin t /\ 0 < tsum t <= tmax t - tmin t.
Proof.
  induction t as [k e v|k l IHl r IHr]; cbn [leaves tsum tmin tmax]; intros H.
  - destruct (segs_ok_pos _ (e, v) H ltac:(constructor)) as [He Hv]. cbn in He, Hv. lia.
  - apply segs_ok_app in H as (H1 & H2 & H3). specialize (IHl H1). specialize (IHr H2).
    destruct (tmax_in l) as (p & Hp & Ep). destruct (tmin_in r) as [v Hv]. specialize (H3 _ _ Hp Hv). unfold seg_before in H3. cbn in H3. lia.
Qed.
Lemma height_keys t : theight t <= Z.of_nat (length (keys t)).
Proof. induction t as [k e v|k l IHl r IHr]; cbn [theight keys length]; [lia|]. rewrite app_length. lia. Qed.
Lemma bounded_length l n : NoDup l -> Forall (fun q => 1 <= q <= n) l -> 0 <= n -> Z.of_nat (length l) <= n.
Proof.
  intros Hn Hb H0. assert (Hs : l ⊆+ seqZ 1 n).
  { apply NoDup_submseteq; [exact Hn|]. intros x Hx. rewrite Forall_forall in Hb. apply elem_of_seqZ. specialize (Hb x Hx). lia. }
  apply submseteq_length in Hs. rewrite seqZ_length in Hs. lia.
Qed.
Lemma key_in t : tkey t ∈ keys t.
Proof. destruct t; constructor. Qed.
Lemma repr_range tick d m ctr M : i64 tick = true -> ctr <= U64_MAX -> M <= U256_MAX -> forall t p,
  repr tick d m p t -> segs_ok (leaves t) -> (forall x, x ∈ leaves t -> x.1 + x.2 <= M) -> Forall (fun q => 1 <= q <= ctr) (keys t) ->
  theight t <= ctr -> (forall x, p = Some x -> 1 <= x <= ctr) ->
  forall q n, q ∈ keys t -> m !! (tick, q) = Some n -> node_range n.
Proof.
  intros Ht HU HM. induction t as [k e v|k l IHl r IHr]; intros p Hr Hs Hm Hk Hh Hp q n Hq E; cbn [keys repr leaves tkey] in *.
  - apply elem_of_list_singleton in Hq as ->. destruct Hr as [Er _]. rewrite Er in E. injection E as <-. rewrite Forall_singleton in Hk.
    destruct (segs_ok_pos _ (e, v) Hs ltac:(constructor)) as [He Hv]. cbn in He, Hv. specialize (Hm (e, v) ltac:(constructor)). cbn in Hm.
    unfold node_range. cbn [node_of n_key n_tick n_left n_right n_parent n_type ntype_range].
    split; [apply is_u64; lia|]. split; [exact Ht|]. do 2 (split; [discriminate|]). split; [intros x Ex; specialize (Hp x Ex); apply is_u64; lia|]. split; apply is_dec; lia.
  - destruct Hr as (Er & Hl & Hrr). apply segs_ok_app in Hs as (S1 & S2 & S3). apply Forall_cons in Hk as [Hk0 Hk]. apply Forall_app in Hk as [Hkl Hkr].
    cbn [theight] in Hh. apply elem_of_cons in Hq as [->|Hq].
    + rewrite Er in E. injection E as <-. assert (S : segs_ok (leaves (TNode k l r))) by (cbn; apply segs_ok_app; auto).
      pose proof (sum_span _ S) as Hsp. destruct (tmax_in (TNode k l r)) as (x & Hx & Ex). cbn [leaves] in Hx. specialize (Hm x Hx).
      rewrite Forall_forall in Hkl, Hkr. pose proof (Hkl _ (key_in l)). pose proof (Hkr _ (key_in r)). pose proof (theight_pos l). pose proof (theight_pos r).
      unfold node_range. cbn [node_of n_key n_tick n_left n_right n_parent n_type ntype_range].
      split; [apply is_u64; lia|]. split; [exact Ht|].
      split; [intros y Ey; injection Ey as <-; apply is_u64; lia|]. split; [intros y Ey; injection Ey as <-; apply is_u64; lia|].
      split; [intros y Ey; specialize (Hp y Ey); apply is_u64; lia|].
      cbn [tsum tmin tmax] in Hsp, Ex. split; [apply is_dec; lia|]. split; [apply is_dec; lia|]. split; [apply is_dec; lia|]. apply is_u64. cbn [theight]. lia.
    + apply elem_of_app in Hq as [Hq|Hq].
      * apply (IHl (Some k) Hl S1 ltac:(intros x Hx; apply Hm, elem_of_app; auto) Hkl ltac:(lia) ltac:(intros x [= <-]; lia) q n Hq E).
      * apply (IHr (Some k) Hrr S2 ltac:(intros x Hx; apply Hm, elem_of_app; auto) Hkr ltac:(lia) ltac:(intros x [= <-]; lia) q n Hq E).
Qed.
Lemma node_ranges s G : inv s G -> forall k n, s_nodes s !! k = Some n -> typed_key k /\ node_range n.
Proof.
  intros Hi [t q] n E. pose proof (i_store _ _ Hi t) as Hst. destruct (so_only _ _ _ _ _ Hst _ _ E) as (d & K & HK & Hq).
  pose proof (so_nodes _ _ _ _ _ Hst _ _ E) as Hb. pose proof (i_ctr _ _ Hi t) as Hc. pose proof (store_keys _ _ _ _ _ _ _ Hst HK) as Hks.
  assert (Hv : i64 t = true).
  { destruct (s_ticks s !! t) as [ts|] eqn:Et; [apply valid_i64, (i_some _ _ Hi _ _ Et)|]. exfalso.
    pose proof (tree_rep_nil _ _ _ _ _ _ HK) as Hn. rewrite Hn in Hq; [inversion Hq|]. unfold canl. rewrite (i_none _ _ Hi _ d Et). reflexivity. }
  split; [split; cbn [fst snd]; [exact Hv|apply is_u64; lia]|].
  pose proof (canl_segs G t d (i_side _ _ Hi t d)) as Hsg. pose proof (fun p => canl_ends G t d p (i_side _ _ Hi t d)) as Hen.
  pose proof (tree_rep_keys _ _ _ _ _ _ HK) as Hnd. pose proof (so_pos _ _ _ _ _ Hst) as Hpos.
  destruct HK as [N|k kl e v Htr Hne E1 E2|k l r Htr Hr _ Ha]; [inversion Hq| |].
  - destruct (segs_ok_pos _ (e, v) Hsg ltac:(constructor)) as [He Hvv]. cbn in He, Hvv. specialize (Hen (e, v) ltac:(constructor)). cbn in Hen.
    apply Forall_cons in Hks as [Hk1 Hk2]. apply Forall_cons in Hk2 as [Hk2 _].
    apply elem_of_cons in Hq as [->|Hq]; [rewrite E1 in E; injection E as <-|apply elem_of_list_singleton in Hq as ->; rewrite E2 in E; injection E as <-];
      unfold node_range; cbn [n_key n_tick n_left n_right n_parent n_type ntype_range].
    + split; [apply is_u64; lia|]. split; [exact Hv|]. split; [intros x [= <-]; apply is_u64; lia|]. do 2 (split; [discriminate|]). do 3 (split; [apply is_dec; lia|]). reflexivity.
    + split; [apply is_u64; lia|]. split; [exact Hv|]. do 2 (split; [discriminate|]). split; [intros x [= <-]; apply is_u64; lia|]. split; apply is_dec; lia.
  - apply (repr_range t d (s_nodes s) (nctr s t) U256_MAX Hv Hc ltac:(lia) (TNode k l r) None Hr Hsg Hen Hks) with (q := q); [|discriminate|exact Hq|exact E].
    pose proof (height_keys (TNode k l r)). pose proof (bounded_length _ _ Hnd Hks Hpos). lia.
Qed.

(** ** Times and owners *)
Definition signed (s : storage) : Prop := forall k o, s_orders s !! k = Some o -> u64 (o_placed_at o) = true /\ name_ok (o_owner o).
Lemma claim1_signed sender s G t id s' G' x : claim1 sender s G t id s' G' x -> signed s -> signed s'.
Proof.
  intros Hc Hs. inversion Hc as [ob fee rcp o n c tr' c' Eob Efee Ercp Eo Hl Het f raw Hf Hi1 Hi2 Hctr X1 X2 X3]; subst.
  intros k o' E. unfold claim_st in E. cbn [set_orders s_orders] in E. destruct (o_quantity o - f =? 0).
  - apply lookup_delete_Some in E as [_ E]. apply (Hs _ _ E).
  - destruct (decide (k = (t, id))) as [->|N]; [rewrite lookup_insert in E; injection E as <-; apply (Hs _ _ Eo)|].
    rewrite lookup_insert_ne in E by congruence. apply (Hs _ _ E).
Qed.
Lemma claims_signed ob sender s G l s' G' ms es : claims ob sender s G l s' G' ms es -> signed s -> signed s'.
Proof.
  induction 1 as [s G|s G t id l s1 G1 s2 G2 ms es Hi Hm Hi1 Hc IH|s G t id l s1 G1 a bank o s2 G2 ms es Hi Hm Hi1 Hc IH]; intros Hs; [exact Hs| |].
  - apply IH. apply miss1_frame in Hm as (_ & _ & _ & _ & E & _). unfold signed. rewrite E. exact Hs.
  - apply IH. eapply claim1_signed; eauto.
Qed.
Lemma trans_signed e s G c r s' G' :
  trans e s G c r s' G' -> u64 (e_time e) = true -> match c with CExec i _ => name_ok (i_sender i) | _ => True end -> signed s -> signed s'.
Proof.
  intros H He Hc Hs. destruct H as [i t0 d0 q b ob Hq Hp Ha|i t0 id ob o n cc m' tr' c' Ha A1 A2 A3 A4 A5 A6 A7 A8|i t0 id ob s' G' a ms o Ha A1 A2 A3
    |i l ob s' G' ms es Ha A1 A2 A3 A4|i m r s' A1 A2 A3 A4|cl sender tin outd mn fee target d0 ob l fs rest pr Ha A1 A2 A3 A4 A5 A6 A7
    |m r s' Ha A1 A2 A3 A4 A5 A6 A7|cl A].
  - intros k o E. unfold place_st in E. cbn [set_dirliq set_ticks set_orders s_orders] in E. destruct (decide (k = (t0, next_id s))) as [->|N].
    + rewrite lookup_insert in E. injection E as <-. split; assumption.
    + rewrite lookup_insert_ne in E by congruence. apply (Hs _ _ E).
  - intros k o' E. unfold cancel_st in E. cbn [set_dirliq set_ticks set_orders s_orders] in E. apply lookup_delete_Some in E as [_ E]. apply (Hs _ _ E).
  - eapply claim1_signed; eauto.
  - eapply claims_signed; eauto.
  - unfold signed. rewrite (sb_orders _ _ A2). exact Hs.
  - exact Hs.
  - unfold signed. rewrite (sb_orders _ _ A3). exact Hs.
  - exact Hs.
Qed.
Lemma run_signed h : forall w, reachable w -> history w h -> on_chain h -> signed (w_st w) -> signed (w_st (run w h)).
Proof.
  induction h as [|[e c] h IH]; intros w Hre Hh Hc Hs; cbn [run]; [exact Hs|].
  inversion Hh as [|x l Hok Hh']; subst. cbn [snd] in Hok. apply Forall_cons in Hc as [[He Hn] Hc]. cbn [fst snd] in He, Hn.
  apply IH; [apply step_reach; assumption|unfold history; rewrite step_self; assumption|exact Hc|].
  destruct (step e w c) as [w' [r|]] eqn:E; cbn [fst].
  - destruct (reachable_inv _ Hre) as (G & Hi). destruct (step_done _ _ _ _ _ _ Hi Hok E) as (G' & Ht & _). eapply trans_signed; eauto.
  - rewrite (step_failed _ _ _ _ E). exact Hs.
Qed.
Lemma live_end g id n c q : side_ok g -> (id, (n, c, q)) ∈ g_lives g -> 0 <= (n + c) * DEC <= U256_MAX.
Proof.
  intros Hg H. apply lives_split in H as (l1 & l2 & E & -> & ->). pose proof (so_max _ Hg) as Hm. pose proof DEC_pos.
  pose proof (all_at_impl _ _ _ _ _ (item_ok_pos _ _ _) (so_items _ Hg)) as Hp. rewrite E in Hp, Hm. rewrite nfs_app, cns_app in Hm. apply all_at_app in Hp as [H1 H2].
  apply pos_nonneg in H1, H2. nia.
Qed.
Lemma values_ok g : side_ok g -> values_range (tv_of g).
Proof.
  intros Hg. pose proof (so_F _ Hg). pose proof (so_crc _ Hg). pose proof (so_last _ Hg). pose proof (so_max _ Hg). pose proof DEC_pos.
  unfold values_range, tv_of, g_open. cbn [tv_tal tv_ctt tv_etas tv_crc tv_last]. repeat split; apply is_dec; nia.
Qed.
Lemma inv_range s G : inv s G -> signed s -> (forall ob, s_orderbook s = Some ob -> ob_current ob = 0) -> store_range s.
Proof.
  intros Hi Hs Hcur. pose proof (i_next _ _ Hi) as Hn. split.
  - intros x E. unfold next_id in Hn. rewrite E in Hn. cbn in Hn. apply is_u64, Hn.
  - intros b E. destruct (i_book _ _ Hi) as (ob & Eob & [_ B1 B2 _ _]). rewrite Eob in E. injection E as <-. unfold book_range. rewrite (Hcur _ Eob).
    split; [reflexivity|]. split; apply valid_i64; assumption.
  - intros t ts E. destruct (i_some _ _ Hi _ _ E) as [V ->]. split; [apply valid_i64, V|]. split; cbn [ts_of ts_ask ts_bid]; apply values_ok, (i_side _ _ Hi).
  - intros d x E. pose proof (i_liqmax _ _ Hi d) as Hm. pose proof (i_liq _ _ Hi d) as Hl. unfold get_directional_liquidity in *. rewrite E in *. cbn [unwrap_or] in *.
    apply is_dec. split; [|exact Hm]. rewrite Hl. apply msum_nonneg. intros t ts Et. destruct (i_some _ _ Hi _ _ Et) as [_ ->]. unfold liq. rewrite get_ts_of.
    cbn [tv_of tv_tal]. pose proof (so_F _ (i_side _ _ Hi t d)). pose proof DEC_pos. unfold g_open. nia.
  - intros [t id] o E. pose proof (i_order _ _ Hi _ _ E) as Ho. destruct (Hs _ _ E) as [Ht Ha]. destruct (oo_live _ _ _ _ Ho) as (n & c & Hl & He).
    pose proof (live_end _ _ _ _ _ (i_side _ _ Hi _ _) Hl) as Hle. pose proof (oo_tick _ _ _ _ Ho) as E1. pose proof (oo_id _ _ _ _ Ho) as E2. pose proof (oo_next _ _ _ _ Ho) as Hid.
    pose proof (oo_qty _ _ _ _ Ho). pose proof (oo_max _ _ _ _ Ho). cbn [fst snd] in *.
    assert (V : i64 t = true) by (apply valid_i64; apply (StepCancel.order_tick _ _ _ _ _ Hi) in E; apply (i_some _ _ Hi _ _ E)).
    split; [split; cbn [fst snd]; [exact V|apply is_u64; lia]|]. split; [|exact Ha]. unfold order_range. rewrite E1, E2, He.
    split; [exact V|]. split; [apply is_u64; lia|]. split; [apply is_u128; lia|]. split; [apply is_dec, Hle|]. split; [|split; [apply is_u128; lia|exact Ht]].
    intros b Eb. pose proof (oo_bounty _ _ _ _ Ho) as Hb. rewrite Eb in Hb. unfold bounty_ok in Hb. apply andb_prop in Hb as [B1 B2]. apply Z.leb_le in B1, B2.
    apply is_dec. split; [exact B1|]. eapply Z.le_trans; [exact B2|]. vm_compute. discriminate.
  - apply (node_ranges s G Hi).
  - intros t x E. pose proof (i_ctr _ _ Hi t) as Hc. pose proof (so_pos _ _ _ _ _ (i_store _ _ Hi t)) as Hp. unfold nctr in *. rewrite E in *. cbn [unwrap_or] in *.
    split; [|apply is_u64; lia]. destruct (s_ticks s !! t) as [ts|] eqn:Et; [apply valid_i64, (i_some _ _ Hi _ _ Et)|]. destruct (i_dom _ _ Hi t Et) as [D _]. congruence.
  - intros t d x E. pose proof (i_ctr _ _ Hi t) as Hc. pose proof (so_root _ _ _ _ _ (i_store _ _ Hi t) _ _ E) as Hp.
    split; [|apply is_u64; lia]. destruct (s_ticks s !! t) as [ts|] eqn:Et; [apply valid_i64, (i_some _ _ Hi _ _ Et)|]. destruct (i_dom _ _ Hi t Et) as [_ D]. rewrite D in E. discriminate.
  - intros x E. destruct (i_fee _ _ Hi) as (f & Ef & Hf). rewrite Ef in E. injection E as <-. apply is_dec. split; [apply Hf|]. eapply Z.le_trans; [apply Hf|]. vm_compute. discriminate.
Qed.
Lemma run_range w0 h : start w0 -> history w0 h -> on_chain h -> store_range (w_st (run w0 h)).
Proof.
  intros Hs Hh Hc. destruct (start_inv _ Hs) as (_ & (q & b & Es & _) & _).
  assert (Hre0 : reachable w0) by (apply (start_reachable w0 []); [assumption|constructor]).
  assert (Hre : reachable (run w0 h)) by (apply start_reachable; assumption).
  destruct (reachable_inv _ Hre) as (G & Hi). apply (inv_range _ G Hi).
  - apply run_signed; try assumption. intros k o E. rewrite Es in E. cbn in E. rewrite lookup_empty in E. discriminate.
  - intros ob E. pose proof (current_run h w0 Hre0 Hh) as Hcur. unfold current in Hcur. rewrite E, Es in Hcur. exact Hcur.
Qed.
