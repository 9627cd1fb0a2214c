(** * StepClaim: claiming filled orders, one by one or in batches. *)
From Verif Require Import Base Dec Types State TickMath Sumtree Tick Order SpecMath TickMathProofs
  TreeDefs Exec SumtreeProofs SumtreeRebalance SumtreeInsert PrefixSum SumtreeRoot SumtreeFail Ghost Inv StepPlace StepCancel.

(** ** Ghost side of a claim *)
Lemma claim_parts g id n c q f :
  side_ok g -> (id, (n, c, q)) ∈ g_lives g ->
  exists l1 l2, g_items g = l1 ++ Live id q :: l2 /\ n = nfs l1 /\ c = cns l1 /\
    g_items (g_claim g id f) = l1 ++ (Gap f :: (if q - f =? 0 then [] else [Live id (q - f)])) ++ l2.
Proof.
  intros H Hin. pose proof (so_ids _ H) as Hs. unfold g_lives in *. apply lives_split in Hin as (l1 & l2 & El & -> & ->).
  exists l1, l2. rewrite ?Z.add_0_l. repeat split; [exact El|]. unfold g_claim. cbn [g_items]. rewrite El in *.
  rewrite replace_split by exact Hs. reflexivity.
Qed.
Lemma claim_mid id q f :
  nfs (Gap f :: (if q - f =? 0 then [] else [Live id (q - f)])) = q /\
  cns (Gap f :: (if q - f =? 0 then [] else [Live id (q - f)])) = 0.
Proof. destruct (Z.eqb_spec (q - f) 0); cbn; lia. Qed.
Lemma claim_sums g id n c q f :
  side_ok g -> (id, (n, c, q)) ∈ g_lives g ->
  nfs (g_items (g_claim g id f)) = nfs (g_items g) /\ cns (g_items (g_claim g id f)) = cns (g_items g) /\
  g_cans (g_claim g id f) = g_cans g.
Proof.
  intros H Hin. destruct (claim_parts _ _ _ _ _ f H Hin) as (l1 & l2 & E1 & -> & -> & E2).
  destruct (claim_mid id q f) as [M1 M2].
  assert (EM : forall n0 c0, cans n0 c0 (Gap f :: (if q - f =? 0 then [] else [Live id (q - f)])) = []).
  { intros. destruct (q - f =? 0); reflexivity. }
  unfold g_cans. rewrite E1, E2. rewrite !nfs_app, !cns_app, !cans_app, M1, M2, EM. cbn [nfs cns qn qc cans app].
  repeat split; try lia. f_equal. f_equal; lia.
Qed.
Lemma claim_lives g id n c q f :
  side_ok g -> (id, (n, c, q)) ∈ g_lives g ->
  forall id' x, (id', x) ∈ g_lives (g_claim g id f) <->
    (id' <> id /\ (id', x) ∈ g_lives g) \/ (id' = id /\ q - f <> 0 /\ x = (n + f, c, q - f)).
Proof.
  intros H Hin id' x. destruct (claim_parts _ _ _ _ _ f H Hin) as (l1 & l2 & E1 & -> & -> & E2).
  destruct (claim_mid id q f) as [M1 M2]. pose proof (so_ids _ H) as Hs. unfold g_lives in *. rewrite E1 in *. rewrite E2.
  rewrite ?lives_app in *. rewrite M1, M2. cbn [lives] in *. rewrite ?Z.add_0_l, ?Z.add_0_r in *. cbn [qn qc] in *.
  rewrite map_app in Hs. cbn [map fst] in Hs. apply sorted_app in Hs as (S1 & S2 & S3).
  apply StronglySorted_inv in S2 as [S2 Sx]. rewrite Forall_forall in Sx.
  assert (N1 : forall x, (id, x) ∉ lives 0 0 l1).
  { intros y Hx. specialize (S3 id id). lapply S3; [|apply elem_of_list_fmap; exists (id, y); auto]. intros S4. lapply S4; [lia|constructor]. }
  assert (N2 : forall x, (id, x) ∉ lives (nfs l1 + q) (cns l1) l2).
  { intros y Hx. specialize (Sx id). lapply Sx; [lia|]. apply elem_of_list_fmap. exists (id, y). auto. }
  assert (EM : forall n0 c0, lives n0 c0 (Gap f :: (if q - f =? 0 then [] else [Live id (q - f)])) = if q - f =? 0 then [] else [(id, (n0 + f, c0, q - f))]).
  { intros. destruct (q - f =? 0); cbn; rewrite ?Z.add_0_r; reflexivity. }
  cbn [lives qn qc] in EM. rewrite ?Z.add_0_r in EM. 
  specialize (EM (nfs l1) (cns l1)). rewrite ?Z.add_0_r in EM. rewrite EM.
  rewrite !elem_of_app, elem_of_cons.
  split.
  - intros [Hx|[Hx|Hx]].
    + left. split; [intros ->; eapply N1; eauto|auto].
    + right. destruct (Z.eqb_spec (q - f) 0); [inversion Hx|]. apply elem_of_list_singleton in Hx. injection Hx as -> ->. auto.
    + left. split; [intros ->; eapply N2; eauto|auto].
  - intros [[Hne [Hx|[[= -> _]|Hx]]]|(-> & Hne & ->)]; auto; [congruence|].
    right; left. destruct (Z.eqb_spec (q - f) 0); [contradiction|]. constructor.
Qed.

Definition gclaim (G : ghost) (t : Z) (d : dir) (id f : Z) : ghost :=
  gset (gsync G t) t d (g_claim (g_sync (G t d)) id f).

(** Storage after a claim; [s1] is the storage after the synchronisation. *)
Definition claimed_order (o : limit_order) (f : Z) : limit_order :=
  order_set_fill o (o_quantity o - f) (o_etas o + f * DEC).
Definition claim_st (s1 : storage) (t id : Z) (o : limit_order) (f : Z) : storage :=
  set_orders (if o_quantity o - f =? 0 then delete (t, id) (s_orders s1)
              else <[(t, id) := claimed_order o f]> (s_orders s1)) s1.

Lemma claim_inv s G t id o n c tr' c' :
  inv s G -> s_orders s !! (t, id) = Some o ->
  (id, (n, c, o_quantity o)) ∈ g_lives (G t (o_dir o)) -> o_etas o = (n + c) * DEC ->
  let f := fifo (g_F (G t (o_dir o))) n (o_quantity o) in 0 < f ->
  inv (sync_st s G t tr' c') (gsync G t) ->
  inv (claim_st (sync_st s G t tr' c') t id o f) (gclaim G t (o_dir o) id f).
Proof.
  intros Hi Eo Hl Hetas f Hf Hi1. pose proof DEC_pos as HD.
  pose proof (i_order _ _ Hi _ _ Eo) as Ho.
  set (s1 := sync_st s G t tr' c') in *. set (d := o_dir o) in *. set (g := g_sync (G t d)).
  assert (Eo1 : s_orders s1 = s_orders s) by reflexivity.
  destruct (sync_ok _ (i_side _ _ Hi t d)) as [Hg Hsy]. fold g in Hg, Hsy.
  assert (Hl' : (id, (n, c, o_quantity o)) ∈ g_lives g).
  { unfold g, g_lives. rewrite sync_items. exact Hl. }
  assert (EF : g_F g = g_F (G t d)) by apply sync_F.
  assert (Hfq : f <= o_quantity o) by (unfold f, fifo in *; pose proof (oo_qty _ _ _ _ Ho); lia).
  pose proof (claim_ok _ _ _ _ _ Hg Hl' ltac:(rewrite EF; exact Hf)) as Hgc. rewrite EF in Hgc. fold f in Hgc.
  destruct (claim_sums _ _ _ _ _ f Hg Hl') as (Hs1 & Hs2 & Hs3).
  pose proof (claim_lives _ _ _ _ _ f Hg Hl') as CL.
  set (G1 := gsync G t) in *. assert (HG1 : G1 t d = g) by apply gsync_eq.
  set (G' := gclaim G t d id f) in *.
  assert (EG : G' t d = g_claim g id f) by apply gset_eq.
  assert (EGn : forall t' d', t' <> t \/ d' <> d -> G' t' d' = G1 t' d') by (intros; apply gset_ne; assumption).
  assert (Etv : forall t' d', tv_of (G' t' d') = tv_of (G1 t' d')).
  { intros t' d'. destruct (decide (t' = t /\ d' = d)) as [[-> ->]|Hn].
    - rewrite EG, HG1. unfold tv_of, g_open. rewrite Hs1, Hs2. reflexivity.
    - rewrite EGn; [reflexivity|]. destruct (decide (t' = t)); [right; tauto|left; assumption]. }
  assert (Ets : forall t', ts_of G' t' = ts_of G1 t') by (intros; unfold ts_of; rewrite !Etv; reflexivity).
  assert (Hlive : forall t' d' id' x, (id', x) ∈ g_lives (G' t' d') <->
     ((t' <> t \/ d' <> d \/ id' <> id) /\ (id', x) ∈ g_lives (G1 t' d')) \/
     (t' = t /\ d' = d /\ id' = id /\ o_quantity o - f <> 0 /\ x = (n + f, c, o_quantity o - f))).
  { intros t' d' id' x. destruct (decide (t' = t /\ d' = d)) as [[-> ->]|Hn].
    - rewrite EG, CL, HG1. split; [intros [?|?]; [left|right]; tauto|intros [[? ?]|?]; [left; tauto|right; tauto]].
    - rewrite EGn by (destruct (decide (t' = t)); [right; tauto|left; assumption]).
      split; [intros H; left; split; [destruct (decide (t' = t)); tauto|exact H]|]. intros [[_ H]|?]; [exact H|tauto]. }
  pose proof Hi1 as [K1 K2 K3 K4 K5 K6 K7 K8 K9 K10 K11 K12 K13 K14 K15].
  assert (Eord : forall k o', s_orders (claim_st s1 t id o f) !! k = Some o' ->
     (k <> (t, id) /\ s_orders s1 !! k = Some o') \/ (k = (t, id) /\ o_quantity o - f <> 0 /\ o' = claimed_order o f)).
  { intros k o'. cbn [claim_st set_orders s_orders]. destruct (Z.eqb_spec (o_quantity o - f) 0).
    - intros E. apply lookup_delete_Some in E as [? ?]. left. auto.
    - destruct (decide (k = (t, id))) as [->|Hne].
      + rewrite lookup_insert. intros [= <-]. auto.
      + rewrite lookup_insert_ne by congruence. auto. }
  assert (Eord2 : forall k, k <> (t, id) -> s_orders (claim_st s1 t id o f) !! k = s_orders s1 !! k).
  { intros k Hne. cbn [claim_st set_orders s_orders]. destruct (o_quantity o - f =? 0).
    - rewrite lookup_delete_ne by congruence. reflexivity.
    - rewrite lookup_insert_ne by congruence. reflexivity. }
  split; unfold claim_st; cbn [set_orders s_ticks s_nodes s_tree s_nodectr s_order_id s_dirliq s_orderbook s_fee s_recipient]; fold (claim_st s1 t id o f); try assumption.
  - intros t' ts E. rewrite Ets. apply (K1 _ _ E).
  - intros t' d' E. destruct (decide (t' = t /\ d' = d)) as [[-> ->]|Hn].
    + exfalso. unfold s1, sync_st in E. cbn [set_ticks s_ticks] in E. rewrite lookup_insert in E. discriminate.
    + rewrite EGn by (destruct (decide (t' = t)); [right; tauto|left; assumption]). auto.
  - intros t' d'. apply (gset_ind side_ok); [assumption|]. intros _. apply K3.
  - intros t'. eapply store_ok_ext; [apply (K4 t')|]. intros d'. unfold canl.
    destruct (decide (t' = t /\ d' = d)) as [[-> ->]|Hn].
    + rewrite EG, HG1, Hs3. reflexivity.
    + rewrite EGn by (destruct (decide (t' = t)); [right; tauto|left; assumption]). reflexivity.
  - intros k o' E. apply Eord in E as [[Hne E]|(-> & Hne & ->)].
    + destruct (K6 _ _ E) as [A1 A2 A3 A4 A5 A6 A7]. split; try assumption.
      destruct A4 as (n0 & c0 & A4 & A4'). exists n0, c0. split; [|assumption]. apply Hlive. left. split; [|exact A4].
      destruct k as [t' id']. cbn [fst snd]. destruct (decide (t' = t)) as [->|]; [|auto]. destruct (decide (id' = id)) as [->|]; [congruence|auto].
    + destruct Ho as [A1 A2 A3 A4 A5 A6 A7]. split; cbn [claimed_order order_set_fill o_tick o_id o_quantity o_placed_quantity o_dir o_etas o_bounty fst snd] in *; try assumption; try lia.
      exists (n + f), c. split; [apply Hlive; right; auto|]. rewrite Hetas. lia.
  - intros t' d' id' n' cc q' Hx. apply Hlive in Hx as [[Hne Hx]|(-> & -> & -> & Hne & [= -> -> ->])].
    + destruct (K7 _ _ _ _ _ _ Hx) as (o' & Eo' & Ed & Eq & Ee). exists o'. split; [|auto].
      rewrite Eord2; [exact Eo'|]. intros [= -> ->]. rewrite Eo1, Eo in Eo'. injection Eo' as <-. unfold d in Hne. destruct Hne as [?|[?|?]]; congruence.
    + exists (claimed_order o f). split; [|cbn; rewrite Hetas; repeat split; lia]. cbn [claim_st set_orders s_orders].
      destruct (Z.eqb_spec (o_quantity o - f) 0); [contradiction|]. apply lookup_insert.
  - assert (Hback : forall t' id' o', s_orders (claim_st s1 t id o f) !! (t', id') = Some o' -> exists o0, s_orders s1 !! (t', id') = Some o0).
    { intros t' id' o' E. apply Eord in E as [[_ E]|([= -> ->] & _)]; [eauto|]. exists o. rewrite Eo1. exact Eo. }
    intros t1 t2 id' o1 o2 E1 E2. apply Hback in E1 as [? E1]. apply Hback in E2 as [? E2]. eauto.
  - destruct K11 as (ob & E & [B1 B2 B3 B4 B5]). exists ob. split; [exact E|]. split; assumption.
Qed.

(** ** Arithmetic of the pay-out *)
Definition gross (d : dir) (f p : Z) : Z := match d with Ask => ask_gross f p | Bid => bid_gross f p end.

Lemma gross_spec d f t : valid_tick t -> 0 <= f <= U128_MAX ->
  amount_to_value d f (tick_price t) RDown = Ok (gross d f (tick_price t)) /\
  0 <= gross d f (tick_price t) /\ gross d f (tick_price t) * DEC <= U256_MAX.
Proof.
  intros Ht Hf. pose proof (tick_price_range _ Ht) as Hp. pose proof (tick_price_pos _ Ht) as Hp0.
  rewrite amount_to_value_spec by (unfold price_ok; assumption).
  unfold gross, ask_gross, bid_gross, floor_div. rewrite <- DEC_ATOM. pose proof DEC_pos as HD.
  unfold min_spot_price, max_spot_price in Hp. destruct d.
  - split; [reflexivity|]. split; [apply Z.div_pos; nia|].
    assert (f * DEC / tick_price t <= f * DEC / 10 ^ 6) by (apply Z.div_le_compat_l; nia).
    assert (f * DEC / 10 ^ 6 = f * 10 ^ 12) by (rewrite DEC_val; symmetry; apply Z.div_unique_exact; lia).
    rewrite DEC_val in *. unfold U128_MAX, U256_MAX in *. nia.
  - split; [reflexivity|]. split; [apply Z.div_pos; nia|].
    pose proof (Z.mul_div_le (f * tick_price t) DEC HD).
    assert (f * tick_price t <= U128_MAX * (340282300000000000000 * DEC)) by nia.
    assert (U128_MAX * (340282300000000000000 * DEC) <= U256_MAX) by (vm_compute; discriminate). lia.
Qed.

Lemma share_bounds r raw : 0 <= raw -> 0 <= r -> 0 <= share r raw /\ share r raw * DEC <= raw * r.
Proof.
  intros H1 H2. unfold share, floor_div. rewrite <- DEC_ATOM. pose proof DEC_pos as HD. split; [apply Z.div_pos; nia|].
  pose proof (Z.mul_div_le (raw * r) DEC HD). lia.
Qed.

Definition bounty_rate (b : option Z) : Z := match b with Some x => x | None => 0 end.

Lemma bounty_split_spec b raw :
  0 <= raw -> raw * DEC <= U256_MAX -> bounty_ok b = true ->
  claim_bounty_split b raw = Ok (share (bounty_rate b) raw, raw - share (bounty_rate b) raw).
Proof.
  intros Hr Hmax Hb. pose proof DEC_pos as HD. unfold claim_bounty_split. destruct b as [x|]; cbn [bounty_rate].
  - pose proof (bounty_u _ Hb x eq_refl) as Hx. unfold dec_percent in Hx.
    destruct (Z.eqb_spec raw 0) as [->|Hne].
    + unfold share, floor_div. rewrite Z.mul_0_l, Z.div_0_l by discriminate. reflexivity.
    + rewrite dec_from_ratio_1 by assumption. cbn [rbind]. unfold dec_checked_mul.
      replace (raw * DEC * x) with (raw * x * DEC) by lia. rewrite Z.div_mul by lia.
      destruct (Z.leb_spec (raw * x) U256_MAX) as [_|Hgt]; [|rewrite DEC_val in *; nia]. cbn [rbind].
      unfold to_uint_floor, checked_sub. destruct (share_bounds x raw Hr ltac:(lia)) as [Hs0 Hs1].
      unfold share, floor_div in *. rewrite <- DEC_ATOM in *.
      destruct (Z.leb_spec (raw * x / DEC) raw); [reflexivity|]. rewrite DEC_val in *. nia.
  - unfold share, floor_div. rewrite Z.mul_0_r, Z.div_0_l by discriminate. rewrite Z.sub_0_r. reflexivity.
Qed.

Lemma fee_split_spec fee raw b :
  0 <= raw -> raw * DEC <= U256_MAX -> 0 <= fee <= MAX_MAKER_FEE_PERCENTAGE -> bounty_ok b = true ->
  let bo := share (bounty_rate b) raw in
  claim_fee_split fee raw (raw - bo) = Ok (share fee raw, raw - bo - share fee raw).
Proof.
  intros Hr Hmax Hfee Hb bo. pose proof DEC_pos as HD. unfold MAX_MAKER_FEE_PERCENTAGE, dec_percent in Hfee.
  assert (Hrate : 0 <= bounty_rate b <= 10 ^ 16).
  { destruct b as [x|]; cbn [bounty_rate]; [|lia]. pose proof (bounty_u _ Hb x eq_refl) as Hx. unfold dec_percent in Hx. lia. }
  destruct (share_bounds (bounty_rate b) raw Hr ltac:(lia)) as [Hs0 Hs1]. fold bo in Hs0, Hs1.
  destruct (share_bounds fee raw Hr ltac:(lia)) as [Hs2 Hs3].
  unfold claim_fee_split. destruct (Z.eqb_spec fee 0) as [->|Hne].
  { unfold share, floor_div. rewrite Z.mul_0_r, Z.div_0_l by discriminate. rewrite Z.sub_0_r. reflexivity. }
  destruct (Z.eqb_spec (raw - bo) 0) as [E|Hne2].
  { assert (raw = 0) as -> by (rewrite DEC_val in *; nia). rewrite E.
    unfold share, floor_div. rewrite Z.mul_0_l, Z.div_0_l by discriminate. reflexivity. }
  rewrite dec_from_ratio_1 by assumption. cbn [rbind]. unfold dec_checked_mul.
  replace (raw * DEC * fee) with (raw * fee * DEC) by lia. rewrite Z.div_mul by lia.
  destruct (Z.leb_spec (raw * fee) U256_MAX) as [_|Hgt]; [|rewrite DEC_val in *; nia]. cbn [rbind].
  unfold to_uint_floor, checked_sub. unfold share, floor_div in *. rewrite <- DEC_ATOM in *.
  destruct (Z.leb_spec (raw * fee / DEC) (raw - bo)); [reflexivity|]. rewrite DEC_val in *. nia.
Qed.

(** The transfers of a claim. *)
Definition claim_payout (fee raw : Z) (b : option Z) : Z := raw - share (bounty_rate b) raw - share fee raw.
Definition claim_msgs (owner sender rcp denom : string) (fee raw : Z) (b : option Z) : list submsg :=
  send_nonzero REPLY_ID_CLAIM owner denom (claim_payout fee raw b) ++
  send_nonzero REPLY_ID_CLAIM_BOUNTY sender denom (share (bounty_rate b) raw) ++
  send_nonzero REPLY_ID_MAKER_FEE rcp denom (share fee raw).

Lemma claim_cases s G ob fee rcp sender t id :
  inv s G -> s_orderbook s = Some ob -> s_fee s = Some fee -> s_recipient s = Some rcp ->
  (s_orders s !! (t, id) = None /\ exists er, claim_order sender t id s = (s, Err er)) \/
  exists o n c, s_orders s !! (t, id) = Some o /\
  (id, (n, c, o_quantity o)) ∈ g_lives (G t (o_dir o)) /\ o_etas o = (n + c) * DEC /\
  let f := fifo (g_F (G t (o_dir o))) n (o_quantity o) in
  let raw := gross (o_dir o) f (tick_price t) in
  (U64_MAX < nctr s t + 2 /\ exists s', claim_order sender t id s = (s', Panic)) \/
  exists tr' c', inv (sync_st s G t tr' c') (gsync G t) /\
     (forall t', nctr s t' <= unwrap_or (c' !! t') 0 <= nctr s t' + (if decide (t' = t) then 2 else 0)) /\
    ((f = 0 /\ claim_order sender t id s = (sync_st s G t tr' c', Err EZeroClaim)) \/
     (0 < f /\
      claim_order sender t id s =
        (claim_st (sync_st s G t tr' c') t id o f,
         Ok (claim_payout fee raw (o_bounty o),
             claim_msgs (o_owner o) sender rcp (get_opposite_denom ob (o_dir o)) fee raw (o_bounty o),
             claimed_order o f)) /\
      inv (claim_st (sync_st s G t tr' c') t id o f) (gclaim G t (o_dir o) id f))).
Proof.
  intros Hi Eob Efee Ercp. pose proof DEC_pos as HD.
  destruct (s_orders s !! (t, id)) as [o|] eqn:Eo.
  2:{ left. split; [reflexivity|]. unfold claim_order.
      rewrite (bind_readr _ ob) by (unfold load_orderbook; rewrite Eob; reflexivity).
      destruct (s_ticks s !! t) as [ts|] eqn:Et.
      - rewrite (bind_readr _ ts) by (rewrite Et; reflexivity). unfold mbindM, mreadr. rewrite Eo. cbn. eauto.
      - unfold mbindM at 1, mreadr at 1. rewrite Et. cbn. eauto. }
  right. pose proof (i_order _ _ Hi _ _ Eo) as Ho. destruct (oo_live _ _ _ _ Ho) as (n & c & Hl & Hetas). cbn [fst snd] in Hl.
  pose proof (oo_qty _ _ _ _ Ho) as Hq. pose proof (oo_max _ _ _ _ Ho) as Hqmax. pose proof (oo_bounty _ _ _ _ Ho) as Hbo.
  exists o, n, c. split; [reflexivity|]. split; [exact Hl|]. split; [exact Hetas|].
  intros f raw. pose proof (order_tick _ _ _ _ _ Hi Eo) as Hts. destruct (i_some _ _ Hi _ _ Hts) as [Hvt _].
  assert (Hqd : dec_from_ratio (o_quantity o) 1 = Ok (o_quantity o * DEC)).
  { apply dec_from_ratio_1; [lia|]. unfold U128_MAX, U256_MAX in *. rewrite DEC_val. lia. }
  destruct (sync_spec s G t Hi ltac:(congruence)) as [(tr1 & c1 & E1 & Hi1 & Hc1 & Htr1 & Hcc1)|(HU & s' & E1)].
  2:{ left. split; [exact HU|]. exists s'. unfold claim_order.
      rewrite (bind_readr _ ob) by (unfold load_orderbook; rewrite Eob; reflexivity).
      rewrite (bind_readr _ (ts_of G t)) by (rewrite Hts; reflexivity).
      rewrite (bind_readr _ o) by (rewrite Eo; reflexivity). rewrite !get_ts_of. unfold mbindM at 1. rewrite E1. reflexivity. }
  right. exists tr1, c1. split; [exact Hi1|]. split; [exact Hc1|].
  set (s1 := sync_st s G t tr1 c1) in *. set (G1 := gsync G t) in *. set (d := o_dir o) in *.
  assert (Hts1 : s_ticks s1 !! t = Some (ts_of G1 t)) by apply lookup_insert.
  assert (HG1 : G1 t d = g_sync (G t d)) by apply gsync_eq.
  destruct (sync_ok _ (i_side _ _ Hi t d)) as [Hg Hsy]. rewrite <- HG1 in Hg, Hsy.
  assert (Hl1 : (id, (n, c, o_quantity o)) ∈ g_lives (G1 t d)) by (unfold G1; rewrite gsync_lives; exact Hl).
  assert (EF : g_F (G1 t d) = g_F (G t d)) by apply gsync_F.
  destruct (fill_position _ _ _ _ _ Hg Hsy Hl1) as (Hfp & Hq0 & Hn0 & Hc0 & Hnq & Hcc & Hfit).
  rewrite EF in Hfp, Hcc. fold f in Hfp.
  assert (Hrun : claim_order sender t id s =
     (if f =? 0 then (s1, Err EZeroClaim) else
        (claim_st s1 t id o f,
         Ok (claim_payout fee raw (o_bounty o),
             claim_msgs (o_owner o) sender rcp (get_opposite_denom ob d) fee raw (o_bounty o),
             claimed_order o f)))).
  { unfold claim_order.
    rewrite (bind_readr _ ob) by (unfold load_orderbook; rewrite Eob; reflexivity).
    rewrite (bind_readr _ (ts_of G t)) by (rewrite Hts; reflexivity).
    rewrite (bind_readr _ o) by (rewrite Eo; reflexivity). rewrite !get_ts_of. rewrite (bind_ok _ _ _ _ _ E1).
    rewrite (bind_readr _ (ts_of G1 t)) by (rewrite Hts1; reflexivity). rewrite !get_ts_of. fold d.
    rewrite Hetas. cbn [tv_of tv_etas]. rewrite ltb_scale, EF.
    destruct (Z.ltb_spec (n + c) (g_F (G t d) + g_crc (G1 t d))) as [Hlt|Hge].
    2:{ destruct (Z.eqb_spec f 0); [reflexivity|lia]. }
    destruct (Z.eqb_spec f 0) as [|Hfne]; [lia|].
    assert (Hf : 0 < f) by lia. assert (Hfmin : f = Z.min (g_F (G t d) + g_crc (G1 t d) - (n + c)) (o_quantity o)) by lia.
    rewrite bind_ensure by reflexivity.
    rewrite (bind_lift _ ((g_F (G t d) + g_crc (G1 t d) - (n + c)) * DEC)).
    2:{ unfold checked_sub. rewrite leb_scale. destruct (Z.leb_spec (n + c) (g_F (G t d) + g_crc (G1 t d))); [|lia]. f_equal. lia. }
    rewrite (bind_lift _ _ _ _ Hqd).
    assert (Em : Z.min ((g_F (G t d) + g_crc (G1 t d) - (n + c)) * DEC) (o_quantity o * DEC) = f * DEC) by (rewrite Hfmin; nia).
    rewrite Em, floor_scale.
    rewrite (bind_lift _ f). 2:{ unfold to_u128. destruct (Z.leb_spec f U128_MAX); [reflexivity|lia]. }
    rewrite (bind_lift _ (o_quantity o - f)). 2:{ unfold checked_sub. destruct (Z.leb_spec f (o_quantity o)); [reflexivity|lia]. }
    rewrite (bind_lift _ ((n + c) * DEC + f * DEC)).
    2:{ unfold checked_add256. pose proof (so_max _ Hg). destruct (Z.leb_spec ((n + c) * DEC + f * DEC) U256_MAX); [reflexivity|]. nia. }
    rewrite <- Hetas. fold (claimed_order o f).
    assert (Est : (if o_quantity (claimed_order o f) =? 0 then remove_order (t, id) else save_order (t, id) (claimed_order o f)) s1
                  = (claim_st s1 t id o f, Ok tt)).
    { cbn [claimed_order order_set_fill o_quantity]. unfold claim_st. destruct (o_quantity o - f =? 0); reflexivity. }
    rewrite (bind_ok _ _ _ _ _ Est).
    rewrite (bind_lift _ (tick_price t)) by (apply tick_to_price_ok; exact Hvt).
    change (o_dir (claimed_order o f)) with d.
    destruct (gross_spec d f t Hvt ltac:(lia)) as (Eg & Hg0 & Hgm). fold raw in Eg, Hg0, Hgm.
    rewrite (bind_lift _ _ _ _ Eg).
    change (o_bounty (claimed_order o f)) with (o_bounty o). change (o_owner (claimed_order o f)) with (o_owner o).
    rewrite (bind_lift _ _ _ _ (bounty_split_spec _ _ Hg0 Hgm Hbo)). cbn [fst snd].
    rewrite bind_read. change (get_maker_fee (claim_st s1 t id o f)) with (get_maker_fee s). unfold get_maker_fee. rewrite Efee. cbn [unwrap_or].
    destruct (i_fee _ _ Hi) as (fee' & Efee' & Hfee). rewrite Efee in Efee'. injection Efee' as <-.
    pose proof (fee_split_spec fee raw (o_bounty o) Hg0 Hgm Hfee Hbo) as Hfs. cbn zeta in Hfs.
    rewrite (bind_lift _ _ _ _ Hfs). cbn [fst snd].
    unfold claim_msgs, claim_payout. destruct (Z.eqb_spec (share fee raw) 0) as [Ez|Hnz].
    - rewrite Ez. reflexivity.
    - unfold mbindM, mreadr, mret. change (s_recipient (claim_st s1 t id o f)) with (s_recipient s). rewrite Ercp. reflexivity. }
  destruct (Z.eqb_spec f 0) as [Hf0|Hfne].
  - left. split; [exact Hf0|]. exact Hrun.
  - right. assert (Hf : 0 < f) by (unfold f, fifo in *; lia). split; [exact Hf|]. split; [exact Hrun|].
    eapply claim_inv; eauto.
Qed.
