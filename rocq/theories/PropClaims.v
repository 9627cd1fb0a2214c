(** * Properties C08 - C12, C35, C39: claims and the first-in-first-out queue. *)
From Verif Require Import Base Dec Types State TickMath Sumtree Tick Order Auth Contract World SpecMath TickMathProofs
  TreeDefs Exec SumtreeProofs SumtreeRebalance SumtreeInsert PrefixSum SumtreeRoot SumtreeFail Ghost Inv StepPlace StepCancel StepClaim
  SwapPlan StepSwap Trans Spec Reach Refine RefineStep Reserve Solvency Books SpecProps PropBase Tests PropOrders.

Lemma same_describes s G t id o en : inv s G -> s_orders s !! (t, id) = Some o -> same_data t id o en -> en_open en + en_filled en = o_quantity o -> describes en o.
Proof.
  intros Hi Eo (D1 & D2 & D3 & D4 & D5 & D6 & D7) Hq. pose proof (i_order _ _ Hi _ _ Eo) as Ho.
  pose proof (oo_tick _ _ _ _ Ho). pose proof (oo_id _ _ _ _ Ho). cbn in *. repeat split; congruence.
Qed.

Lemma claim1_open sender s G t id s' G' x t' d' : inv s G -> claim1 sender s G t id s' G' x -> g_open (G' t' d') = g_open (G t' d').
Proof.
  intros Hi []. unfold gclaim. apply (gset_at (fun g => g_open g = g_open (G t' d'))); [|intros; apply gsync_open].
  intros -> ->. rewrite <- (gsync_open G t), <- (gsync_eq G t). unfold g_open.
  destruct (claim_sums (gsync G t t (o_dir o)) id n c (o_quantity o) f) as (-> & _ & _); [apply gsync_side, Hi|rewrite gsync_lives; assumption|reflexivity].
Qed.

(** ** One claim, seen from the ideal book *)
Lemma claim_entry sender s G Q t id s' G' a ms o' :
  inv s G -> refines s G Q -> claim1 sender s G t id s' G' (a, ms, o') ->
  exists en o, en ∈ Q /\ en_tick en = t /\ en_id en = id /\ 0 < en_filled en /\ 0 <= en_open en /\
    s_orders s !! (t, id) = Some o /\ describes en o /\
    a = owner_part s en /\ ms = claim_pays s sender en /\
    o_quantity o' = en_open en /\ identity o' = identity o /\
    s_orders s' = (if en_open en =? 0 then delete (t, id) (s_orders s) else <[(t, id) := o']> (s_orders s)).
Proof.
  intros Hi Hr Hc. inversion Hc as [ob fee rcp o n c tr' c' Eob Efee Ercp Eo Hl Het f raw Hf Hi1 Hi2 Hctr X1 X2 X3]; subst.
  destruct (entry_of _ _ _ Hr _ _ _ _ _ Eo Hl) as (en & Hen & Hd & Eop & Ef). pose proof (oo_qty _ _ _ _ (i_order _ _ Hi _ _ Eo)) as Hq.
  exists en, o. destruct (Hd) as (D1 & D2 & D3 & D4 & D5 & D6 & D7).
  split; [assumption|]. split; [assumption|]. split; [assumption|]. fold f in Eop, Ef. split; [lia|]. split; [unfold f, fifo in *; lia|].
  split; [assumption|]. split; [eapply same_describes; [exact Hi|exact Eo|exact Hd|rewrite Eop, Ef; lia]|].
  assert (Egr : claim_gross en = raw) by (unfold claim_gross, raw, gross, proceeds; rewrite D1, D3, Ef; reflexivity).
  assert (Ebo : claim_bounty en = share (bounty_rate (o_bounty o)) raw) by (unfold claim_bounty; rewrite Egr, D5; unfold bounty_rate, unwrap_or; destruct (o_bounty o); reflexivity).
  assert (Efe : claim_fee s en = share fee raw) by (unfold claim_fee; rewrite Egr, Efee; reflexivity).
  split; [unfold owner_part; rewrite Egr, Ebo, Efe; reflexivity|].
  split. { unfold claim_pays, claim_msgs, owner_part. rewrite Egr, Ebo, Efe, Ercp, D3, D4. unfold proceeds_denom. rewrite (den_eq _ _ _ Eob), <- opp_denom. reflexivity. }
  split; [cbn; lia|]. split; [reflexivity|]. unfold claim_st. cbn. fold f. rewrite Eop. reflexivity.
Qed.
Lemma ids_same s G Q en en' : refines s G Q -> en ∈ Q -> en' ∈ Q -> en_id en = en_id en' -> en = en'.
Proof. intros Hr H1 H2 E. exact (ids_inj Q en en' (rf_ids _ _ _ Hr) H1 H2 E). Qed.

(** C08: the contract's state refines the ideal book.  Stored orders are exactly the live
    entries, with the same identity and with quantity = open + filled-but-unclaimed; liquidity of
    every tick and direction is the open quantity queued there. *)
Theorem C08_fifo_state :
  forall w0 h, start w0 -> history w0 h ->
  let s := w_st (run w0 h) in let Q := ideal_run w0 [] h in
  NoDup (map en_id Q) /\
  (forall t id o, s_orders s !! (t, id) = Some o -> exists en, en ∈ Q /\ en_tick en = t /\ en_id en = id /\ en_live en = true /\ describes en o) /\
  (forall en, en ∈ Q -> en_live en = true -> exists o, s_orders s !! (en_tick en, en_id en) = Some o /\ describes en o) /\
  (forall en, en ∈ Q -> 0 <= en_open en /\ 0 <= en_filled en) /\
  (forall t d, tick_liquidity s t d = open_at Q t d).
Proof.
  intros w0 h Hs Hh s Q. destruct (run_good w0 h Hs Hh) as (G & [Hi Hr _]). fold s in Hi, Hr. fold Q in Hr.
  split. { pose proof (rf_ids _ _ _ Hr) as Hid. revert Hid. generalize (map en_id Q). clear. induction 1 as [|x l Hl IH Hx]; constructor; [|assumption].
    intros Hin. rewrite Forall_forall in Hx. specialize (Hx _ Hin). lia. }
  split. { intros t id o Eo. destruct (entry_order _ _ _ Hi Hr _ _ _ Eo) as (en & Hen & Hd & Hq & Hl). exists en. destruct (Hd) as (D1 & D2 & _).
    do 4 (split; [assumption|]). eapply same_describes; eauto. }
  split. { intros en Hen Hl. destruct (live_order _ _ _ Hi Hr en Hen Hl) as (o & n & c & Eo & Hd & _ & _ & E1 & E2). exists o. split; [assumption|].
    eapply same_describes; eauto. lia. }
  split. { intros en Hen. pose proof (rf_entry _ _ _ Hr _ Hen) as [_ K1 K2 _ _ _ _ _ _]. auto. }
  intros t d. apply (liquidity_open _ _ _ Hi Hr).
Qed.
Print Assumptions C08_fifo_state.

(** C08, C10, C12: what a successful claim does and pays, in terms of the ideal book. *)
Theorem C08_claim_settles_fifo :
  forall e w0 h i t id w' r, start w0 -> history w0 h ->
  let w := run w0 h in let Q := ideal_run w0 [] h in
  call_ok (w_self w) (CExec i (ClaimLimit t id)) = true -> step e w (CExec i (ClaimLimit t id)) = (w', Done r) ->
  active (w_st w) = true /\ i_funds i = [] /\
  exists en o, en ∈ Q /\ en_tick en = t /\ en_id en = id /\ 0 < en_filled en /\
    s_orders (w_st w) !! (t, id) = Some o /\ o_quantity o = en_open en + en_filled en /\
    (* exactly the filled part is settled; a fully settled order disappears *)
    (if en_open en =? 0 then s_orders (w_st w') = delete (t, id) (s_orders (w_st w))
     else exists o', s_orders (w_st w') = <[(t, id) := o']> (s_orders (w_st w)) /\
                     o_quantity o' = en_open en /\ identity o' = identity o) /\
    r_msgs r = claim_pays (w_st w) (i_sender i) en /\
    (exists ev, r_events r = [ev] /\ ce_tick ev = t /\ ce_id ev = id /\ ce_amount_claimed ev = owner_part (w_st w) en /\
       ce_quantity_remaining ev = en_open en /\ ce_fully_claimed ev = (en_open en =? 0) /\ ce_owner ev = en_owner en /\ ce_sender ev = i_sender i) /\
    (forall t' d', tick_liquidity (w_st w') t' d' = tick_liquidity (w_st w) t' d') /\
    (forall d', pool_liquidity (w_st w') d' = pool_liquidity (w_st w) d') /\
    s_orderbook (w_st w') = s_orderbook (w_st w) /\ admin_data (w_st w') = admin_data (w_st w).
Proof.
  intros e w0 h i t id w' r Hs Hh w Q Hok E. destruct (run_good w0 h Hs Hh) as (G & [Hi Hr Hsol]). fold w in Hi, Hr, Hsol. fold Q in Hr.
  destruct (step_done _ _ _ _ _ _ Hi Hok E) as (G' & Ht & Hi' & Eself & Hsend).
  destruct (trans_claim _ _ _ _ _ _ _ _ _ Ht) as (ob & a & ms & o' & Ha & A1 & A2 & A3 & ->).
  split; [apply active_ne; assumption|]. split; [assumption|].
  destruct (claim_entry _ _ _ _ _ _ _ _ _ _ _ Hi Hr A3) as (en & o & Hen & D1 & D2 & Hf & Hop & Eo & Hd & -> & -> & Eq & Eid & Es).
  exists en, o. do 5 (split; [assumption|]). split; [destruct Hd as (_ & _ & _ & _ & _ & _ & _ & Hd); congruence|].
  split. { destruct (Z.eqb_spec (en_open en) 0); [assumption|]. eauto. }
  split; [reflexivity|].
  assert (Hid : o_tick o' = t /\ o_id o' = id /\ o_owner o' = en_owner en).
  { unfold identity in Eid. injection Eid as -> -> _ -> _ _ _. destruct Hd as (K1 & K2 & _ & K3 & _). repeat split; congruence. }
  destruct Hid as (I1 & I2 & I3).
  split. { eexists. split; [reflexivity|]. cbn. rewrite I1, I2, I3, Eq. auto 10. }
  assert (Hop' : forall t' d', g_open (G' t' d') = g_open (G t' d')) by (intros; eapply claim1_open; eauto).
  split. { intros t' d'. rewrite (tick_liquidity_open _ _ _ _ Hi'), (tick_liquidity_open _ _ _ _ Hi). apply Hop'. }
  apply claim1_frame in A3 as ([B1 B2 B3 B4 B5 B6 B7] & F2 & _ & F4 & _).
  split; [intros; unfold pool_liquidity; rewrite F4; reflexivity|]. split; [assumption|]. unfold admin_data. congruence.
Qed.
Print Assumptions C08_claim_settles_fifo.

(** C09: a claim succeeds exactly when part of the order is filled and unclaimed, whoever sends it;
    otherwise it fails and changes nothing. *)
Lemma pay_pos e reply to denom a : 0 <= a -> e_bank_ok e to = true ->
  Forall (fun m => 0 < c_amount (sm_coin m) /\ e_bank_ok e (sm_to m) = true) (pay reply to denom a).
Proof. intros Ha Hb. unfold pay. destruct (Z.eqb_spec a 0); constructor; [cbn; split; [lia|assumption]|constructor]. Qed.
Lemma proceeds_nonneg d t f : valid_tick t -> 0 <= f -> 0 <= proceeds d t f.
Proof.
  intros Ht Hf. pose proof (tick_price_pos t Ht). unfold proceeds, ask_gross, bid_gross, floor_div. destruct d; apply Z.div_pos; unfold ATOM; nia.
Qed.
(** The split of a claim's proceeds. *)
Lemma split_bounds s G Q en : inv s G -> refines s G Q -> en ∈ Q ->
  0 <= claim_gross en /\ 0 <= claim_bounty en /\ 0 <= claim_fee s en /\ 100 * claim_bounty en <= claim_gross en /\
  20 * claim_fee s en <= claim_gross en /\ 94 * claim_gross en <= 100 * owner_part s en /\
  owner_part s en + claim_bounty en + claim_fee s en = claim_gross en.
Proof.
  intros Hi Hr Hen. pose proof (rf_entry _ _ _ Hr _ Hen) as [_ _ K2 _ _ _ _ K8 K9]. destruct (i_fee _ _ Hi) as (fee & Ef & Hfee).
  pose proof (proceeds_nonneg (en_dir en) _ _ K9 K2) as Hg. fold (claim_gross en) in Hg. unfold owner_part, claim_fee, claim_bounty. rewrite Ef. cbn [unwrap_or].
  change MAX_MAKER_FEE_PERCENTAGE with (5 * 10 ^ 16) in Hfee.
  assert (Hb : 0 <= unwrap_or (en_bounty en) 0 <= 10 ^ 16).
  { destruct (en_bounty en) as [x|]; cbn [unwrap_or]; [|lia]. specialize (bounty_u _ K8 x eq_refl). change (dec_percent 1) with (10 ^ 16). lia. }
  destruct (share_bounds (unwrap_or (en_bounty en) 0) (claim_gross en) Hg ltac:(lia)) as [B1 B2].
  destruct (share_bounds fee (claim_gross en) Hg ltac:(lia)) as [B3 B4]. rewrite DEC_val in *.
  set (bo := share (unwrap_or (en_bounty en) 0) (claim_gross en)) in *. set (fe := share fee (claim_gross en)) in *. set (g := claim_gross en) in *.
  assert (100 * bo <= g) by nia. assert (20 * fe <= g) by nia. lia.
Qed.
Lemma claim_pays_pos e s G Q sender en : inv s G -> refines s G Q -> en ∈ Q ->
  e_bank_ok e sender = true -> e_bank_ok e (en_owner en) = true -> e_bank_ok e (unwrap_or (s_recipient s) EmptyString) = true ->
  Forall (fun m => 0 < c_amount (sm_coin m) /\ e_bank_ok e (sm_to m) = true) (claim_pays s sender en).
Proof.
  intros Hi Hr Hen H1 H2 H3. destruct (split_bounds _ _ _ _ Hi Hr Hen) as (B0 & B1 & B2 & B3 & B4 & B5 & B6). unfold claim_pays.
  repeat apply Forall_app_2; apply pay_pos; try assumption. lia.
Qed.
Lemma claim_accepted e w G Q sender en :
  ready w G Q -> call_ok (w_self w) (c_claim sender (en_tick en) (en_id en)) = true -> active (w_st w) = true ->
  e_bank_ok e sender = true -> e_bank_ok e (en_owner en) = true -> e_bank_ok e (unwrap_or (s_recipient (w_st w)) EmptyString) = true ->
  en ∈ Q -> 0 < en_filled en ->
  exists w' r, step e w (c_claim sender (en_tick en) (en_id en)) = (w', Done r).
Proof.
  intros [Hre Hg Hn Hto Hl Hct] Hok Ha B1 B2 B3 Hen Hf. pose proof (gd_inv _ _ _ Hg) as Hi. pose proof (gd_ref _ _ _ Hg) as Hr.
  assert (Hlive : en_live en = true).
  { pose proof (rf_entry _ _ _ Hr _ Hen) as [_ K1 K2 _ _ _ _ _ _]. unfold en_live. apply Z.ltb_lt. lia. }
  destruct (live_order _ _ _ Hi Hr en Hen Hlive) as (o & n & c & Eo & Hd & Hlv & He & Ef & Eop).
  destruct (i_book _ _ Hi) as (ob & Eob & _).
  destruct (claim_step sender (w_st w) G (en_tick en) (en_id en) Hi) as [(s' & G' & [[a ms] o'] & E & Hc & Hi')|[(s' & G' & er & E & Hm & Hi')|(HU & _)]].
  - assert (Ht : trans e (w_st w) G (c_claim sender (en_tick en) (en_id en)) (mkResp [("method", AStr "claimLimit")]
              [generate_claimed_order_event sender o' a (get_expected_denom ob (o_dir o')) (get_opposite_denom ob (o_dir o'))] ms None) s' G').
    { apply (T_claim e (w_st w) G (mkInfo sender [])); try assumption; [apply active_ne; assumption|reflexivity]. }
    destruct (claim_entry _ _ _ _ _ _ _ _ _ _ _ Hi Hr Hc) as (en' & o2 & Hen' & D1 & D2 & Hf' & _ & _ & _ & _ & Ems & _).
    assert (en' = en) as -> by (eapply ids_same; eauto).
    destruct (trans_sends e w G _ _ _ _ Hre (gd_sol _ _ _ Hg) Hi Hok Ht Hi') as (b' & Hb).
    { cbn [r_msgs]. rewrite Ems. eapply claim_pays_pos; eauto. }
    eexists _, _. apply step_ok; [|exact Hb]. cbn [c_claim call_run]. unfold execute. rewrite (bind_ok _ _ _ _ _ (ensure_active _ Ha)).
    unfold claim_limit. cbn [i_funds i_sender]. rewrite (bind_lift _ tt) by reflexivity. rewrite (bind_ok _ _ _ _ _ E).
    apply claim1_frame in Hc as (_ & Eb & _). rewrite (bind_readr _ ob) by (unfold load_orderbook; rewrite Eb, Eob; reflexivity). reflexivity.
  - exfalso. inversion Hm as [Eo'|o' n' c' tr' c'' Eo' Hl' He' Hz]; [congruence|]. subst.
    rewrite Eo in Eo'. injection Eo' as <-. destruct Hd as (_ & _ & D3 & _). rewrite D3 in *.
    pose proof (lives_unique _ _ _ _ (i_side _ _ Hi _ _) Hl' Hlv) as [= <- <-]. lia.
  - specialize (Hct (en_tick en)). unfold U64_MAX in HU. lia.
Qed.
Theorem C09_claim_iff :
  forall e w0 h sender t id, start w0 -> history w0 h -> short h ->
  let w := run w0 h in let Q := ideal_run w0 [] h in let c := c_claim sender t id in
  call_ok (w_self w) c = true -> active (w_st w) = true ->
  e_bank_ok e sender = true -> e_bank_ok e (unwrap_or (s_recipient (w_st w)) EmptyString) = true ->
  (forall en, en ∈ Q -> e_bank_ok e (en_owner en) = true) ->
  (succeeds e w c <-> exists en, en ∈ Q /\ en_tick en = t /\ en_id en = id /\ 0 < en_filled en) /\
  (~ succeeds e w c -> step e w c = (w, Failed)).
Proof.
  intros e w0 h sender t id Hs Hh Hsh w Q c Hok Ha B1 B2 B3. destruct (short_ready w0 h Hs Hh Hsh) as (G & Hrd). fold w Q in Hrd. split; [split|].
  - intros (w' & r & E). destruct (C08_claim_settles_fifo e w0 h _ _ _ _ _ Hs Hh Hok E) as (_ & _ & en & o & Hen & D1 & D2 & Hf & _). eauto.
  - intros (en & Hen & <- & <- & Hf). exact (claim_accepted e w G Q sender en Hrd Hok Ha B1 (B3 _ Hen) B2 Hen Hf).
  - intros Hn. destruct (step e w c) as [w' [r|]] eqn:E; [exfalso; apply Hn; exists w', r; exact E|]. rewrite (step_failed _ _ _ _ E). reflexivity.
Qed.
Print Assumptions C09_claim_iff.
Example C09_case :
  map (fun en => (0 <? en_filled en, done tenv (run w_start hist_three) (c_claim "anyone" (en_tick en) (en_id en)))) Q_three
  = [(true, true); (true, true); (false, false)] /\
  call_ok (w_self (run w_start hist_three)) (c_claim "anyone" 0 1) = true.
Proof. split; vm_compute; reflexivity. Qed.

(** C10: the split of a claim's proceeds. *)
Theorem C10_claim_split :
  forall e w0 h i t id w' r, start w0 -> history w0 h ->
  let w := run w0 h in let s := w_st w in
  call_ok (w_self w) (CExec i (ClaimLimit t id)) = true -> step e w (CExec i (ClaimLimit t id)) = (w', Done r) ->
  exists en fee_rate recipient gross payout bounty fee,
    en ∈ ideal_run w0 [] h /\ en_tick en = t /\ en_id en = id /\ s_fee s = Some fee_rate /\ s_recipient s = Some recipient /\
    gross = match en_dir en with Ask => en_filled en * tick_price t / ATOM | Bid => en_filled en * ATOM / tick_price t end /\
    bounty = match en_bounty en with Some b => gross * b / ATOM | None => 0 end /\
    fee = gross * fee_rate / ATOM /\
    payout + bounty + fee = gross /\
    (let denom := deposit_denom s (opposite (en_dir en)) in
     r_msgs r = pay REPLY_ID_CLAIM (en_owner en) denom payout ++ pay REPLY_ID_CLAIM_BOUNTY (i_sender i) denom bounty ++
                pay REPLY_ID_MAKER_FEE recipient denom fee) /\
    0 <= bounty /\ 100 * bounty <= gross /\ 0 <= fee /\ 20 * fee <= gross /\ 94 * gross <= 100 * payout.
Proof.
  intros e w0 h i t id w' r Hs Hh w s Hok E. destruct (run_good w0 h Hs Hh) as (G & [Hi Hr _]). fold w in Hi, Hr. fold s in Hi, Hr.
  destruct (C08_claim_settles_fifo e w0 h _ _ _ _ _ Hs Hh Hok E) as (_ & _ & en & o & Hen & D1 & D2 & Hf & _ & _ & _ & Hms & _).
  fold w in Hms. fold s in Hms. destruct (i_fee _ _ Hi) as (fee & Efee & _). destruct (i_rcp _ _ Hi) as (rcp & Ercp).
  destruct (split_bounds _ _ _ _ Hi Hr Hen) as (B0 & B1 & B2 & B3 & B4 & B5 & B6).
  exists en, fee, rcp, (claim_gross en), (owner_part s en), (claim_bounty en), (claim_fee s en).
  do 5 (split; [assumption|]). split. { unfold claim_gross, proceeds, ask_gross, bid_gross, floor_div. rewrite D1. reflexivity. }
  split. { unfold claim_bounty, share, floor_div. destruct (en_bounty en); cbn [unwrap_or]; [reflexivity|]. rewrite Z.mul_0_r. reflexivity. }
  split. { unfold claim_fee, share, floor_div. rewrite Efee. reflexivity. }
  split; [assumption|]. split. { cbn zeta. rewrite Hms. unfold claim_pays, proceeds_denom. rewrite Ercp. reflexivity. }
  auto 10.
Qed.
Print Assumptions C10_claim_split.
Example C10_case :
  let w := run w_start hist_three in
  call_ok (w_self w) (c_claim "anyone" 0 1) = true /\ done tenv w (c_claim "anyone" 0 1) = true /\
  let w2 := run w_start [place "b" 5000000 Ask 1000 (Some (10 ^ 16)); (tenv, CExec (mkInfo OSMOSIS_GOV_ADDR []) (AuthMsg (SetMakerFee (2 * 10 ^ 16)))); buy "x" 4000] in
  r_msgs (resp_of tenv w2 (c_claim "anyone" 5000000 0)) =
   [mkSend 2 "b" (mkCoin "quote" 3878); mkSend 3 "anyone" (mkCoin "quote" 39); mkSend 4 DEFAULT_MAKER_FEE_RECIPIENT (mkCoin "quote" 79)] .
Proof. split; [vm_compute; reflexivity|]. split; vm_compute; reflexivity. Qed.

(** C12: makers get their price, up to less than one unit per claim: [total] is everything paid out
    for the [f] filled units. *)
Lemma total_app l1 l2 : total_paid (l1 ++ l2) = total_paid l1 + total_paid l2.
Proof. induction l1; cbn; fold (total_paid (l1 ++ l2)) (total_paid l1) || idtac; unfold total_paid in *; lia. Qed.
Lemma total_pay reply to denom a : total_paid (pay reply to denom a) = a.
Proof. unfold pay. destruct (Z.eqb_spec a 0); cbn; lia. Qed.
Theorem C12_maker_price :
  forall e w0 h i t id w' r, start w0 -> history w0 h ->
  let w := run w0 h in
  call_ok (w_self w) (CExec i (ClaimLimit t id)) = true -> step e w (CExec i (ClaimLimit t id)) = (w', Done r) ->
  exists en, en ∈ ideal_run w0 [] h /\ en_tick en = t /\ en_id en = id /\
  let f := en_filled en in let p := tick_price t in let total := total_paid (r_msgs r) in
  0 < f /\ match en_dir en with
  | Ask => total * ATOM <= f * p < (total + 1) * ATOM
  | Bid => total * p <= f * ATOM < (total + 1) * p
  end.
Proof.
  intros e w0 h i t id w' r Hs Hh w Hok E. destruct (run_good w0 h Hs Hh) as (G & [Hi Hr _]). fold w in Hi, Hr.
  destruct (C08_claim_settles_fifo e w0 h _ _ _ _ _ Hs Hh Hok E) as (_ & _ & en & o & Hen & D1 & D2 & Hf & _ & _ & _ & Hms & _).
  destruct (split_bounds _ _ _ _ Hi Hr Hen) as (_ & _ & _ & _ & _ & _ & B6).
  exists en. do 3 (split; [assumption|]). cbn zeta. split; [assumption|].
  assert (Et : total_paid (r_msgs r) = claim_gross en).
  { rewrite Hms. unfold claim_pays. rewrite !total_app, !total_pay. fold w. lia. }
  rewrite Et. pose proof (eo_tick _ _ (rf_entry _ _ _ Hr _ Hen)) as Hv. rewrite D1 in Hv. pose proof (tick_price_pos t Hv) as Hp.
  unfold claim_gross, proceeds, ask_gross, bid_gross, floor_div. rewrite D1. destruct (en_dir en).
  - pose proof (Z.div_mod (en_filled en * ATOM) (tick_price t) ltac:(lia)). pose proof (Z.mod_pos_bound (en_filled en * ATOM) (tick_price t) Hp). lia.
  - pose proof (Z.div_mod (en_filled en * tick_price t) ATOM ltac:(discriminate)). pose proof (Z.mod_pos_bound (en_filled en * tick_price t) ATOM eq_refl). lia.
Qed.
Print Assumptions C12_maker_price.
