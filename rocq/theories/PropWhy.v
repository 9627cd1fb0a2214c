(** * Property C68: every refusal names its reason. *)
From Verif Require Import Base Dec Types State TickMath Sumtree Tick Order Auth Contract Query World SpecMath TickMathProofs
  TreeDefs Exec SumtreeProofs SumtreeRebalance SumtreeInsert PrefixSum SumtreeRoot SumtreeFail Ghost Inv StepPlace StepCancel StepClaim
  SwapPlan StepSwap Trans Spec Reach Refine RefineStep Reserve Solvency Books SpecProps PropBase Tests PropOrders PropClaims PropBatch PropSwap PropQuote PropAdmin PlanCurve PropCurve PropQuery
  SpecAdmin SpecBank PropBank SpecMachine MachineBase MachineSwap PropMachine SpecWhy.

(** ** Swaps *)
Definition swap_tail (d : dir) (partial : bool) (m : mkt) : res mkt :=
  let? remaining := amount_to_value d (m_qty m) (m_price m) RDown in
  let? _ := rensure ((remaining =? 0) || partial) EInsufficientLiquidity in Ok m.
Lemma loop_error d (ticks : gmap Z tick_state) G partial l : forall m,
  (forall t, t ∈ l -> ticks !! t = Some (ts_of G t) /\ valid_tick t) -> (forall t, side_ok (G t (opposite d))) ->
  0 <= m_qty m <= U128_MAX -> m_out m + lsumf (opens G (opposite d)) l <= U256_MAX ->
  (exists t, valid_tick t /\ m_price m = tick_price t) ->
  let r := (let? m' := market_loop d ticks l m in swap_tail d partial m') in
  match walk_error (opposite d) partial (opens G (opposite d)) (filter (fun t => opens G (opposite d) t <> 0) l) (m_qty m) (m_price m) with
  | Some er => r = Err er
  | None => exists m', r = Ok m'
  end.
Proof.
  induction l as [|t l IH]; intros m Hl Hs Hq Hsum (t0 & Hv0 & Ep0).
  { cbn [market_loop rbind filter list_filter walk_error]. unfold swap_tail. rewrite output_gross, opp_opp, Ep0.
    destruct (gross_spec d (m_qty m) t0 Hv0 Hq) as (E1 & _). rewrite E1. cbn [rbind].
    destruct ((gross d (m_qty m) (tick_price t0) =? 0) || partial); cbn [rensure rbind]; eauto. }
  destruct (Hl t ltac:(constructor)) as [Ht Hv].
  assert (Hl' : forall t', t' ∈ l -> ticks !! t' = Some (ts_of G t') /\ valid_tick t') by (intros; apply Hl; constructor; assumption).
  pose proof (market_tick_spec d ticks G t m Ht Hv (Hs t) Hq) as E. cbn zeta in E.
  cbn [market_loop]. cbn [lsumf] in Hsum. rewrite filter_cons. rewrite E. clear E.
  assert (Ho : forall t', 0 <= opens G (opposite d) t') by (intros; apply g_open_nonneg, Hs).
  assert (Hls : 0 <= lsumf (opens G (opposite d)) l) by (clear -Ho; induction l as [|a l IHl]; cbn; [lia|]; specialize (Ho a); lia).
  specialize (Ho t) as Hot.
  destruct (decide (opens G (opposite d) t <> 0)) as [Hne|He].
  2:{ assert (opens G (opposite d) t = 0) as Eo by lia. rewrite Eo, Z.eqb_refl. cbn [rbind fst snd]. apply (IH m Hl' Hs Hq); [lia|eauto]. }
  destruct (Z.eqb_spec (opens G (opposite d) t) 0) as [|_]; [contradiction|].
  set (o := opens G (opposite d) t) in *. cbn [walk_error]. rewrite output_gross, input_cost, opp_opp. fold o.
  set (p := tick_price t). set (w := gross d (m_qty m) p).
  destruct (Z.eqb_spec w 0) as [Ew|Hwn].
  { cbn [rbind fst snd]. unfold swap_tail. cbn [m_qty m_price]. unfold p. destruct (gross_spec d 0 t Hv ltac:(unfold U128_MAX; lia)) as (E1 & _). rewrite E1. cbn [rbind].
    assert (gross d 0 (tick_price t) = 0) as -> by (destruct d; reflexivity). cbn. eauto. }
  set (x := Z.min w o). set (c := cost d x p). assert (Hxo : x <= o) by (unfold x; lia).
  change (2 ^ 128 - 1) with U128_MAX.
  destruct (Z.ltb_spec U128_MAX x) as [Hx|Hx]; [cbn [rbind]; reflexivity|].
  destruct (Z.eqb_spec c 0) as [Ec|Hc]; [cbn [rbind]; reflexivity|].
  destruct (Z.ltb_spec U256_MAX (m_out m + x)) as [Hm|Hm]; [lia|].
  cbn [rbind fst snd]. pose proof (tick_price_pos t Hv) as Hp. fold p in Hp.
  pose proof (gross_nonneg d (m_qty m) p ltac:(lia) Hp) as Hw0. fold w in Hw0.
  assert (Hx0 : 0 < x <= w) by (unfold x; lia).
  pose proof (cost_le d (m_qty m) p x ltac:(fold w; lia) Hp) as Hcq. fold c in Hcq.
  pose proof (cost_nonneg d x p ltac:(lia) Hp) as Hc0. fold c in Hc0.
  set (m1 := mkMkt _ _ _ _ _). apply (IH m1 Hl' Hs); cbn [m1 m_qty m_out m_price]; [lia|lia|exists t; split; [exact Hv|reflexivity]].
Qed.
Lemma walk_error_walk side partial open l : forall q p0,
  walk_error side partial open l q p0 = None <-> exists f r, walk side partial open l q p0 = Some (f, r).
Proof.
  induction l as [|t l IH]; intros q p0; cbn [walk_error walk].
  - destruct (_ || _); split; try discriminate; eauto. intros (f & r & E). discriminate.
  - destruct (_ =? 0) eqn:E1; [split; eauto|]. set (x := Z.min _ _). set (c := input_for _ _ _).
    destruct (Z.ltb_spec (2 ^ 128 - 1) x) as [Hx|Hx].
    { rewrite (proj2 (Z.leb_gt _ _) Hx). cbn [andb]. split; [discriminate|]. intros (f & r & E). discriminate. }
    rewrite (proj2 (Z.leb_le _ _) Hx). cbn [andb]. destruct (c =? 0); cbn [negb]; [split; [discriminate|intros (f & r & E); discriminate]|].
    rewrite IH. destruct (walk side partial open l (q - c) (tick_price t)) as [[f r]|]; split; intros (f' & r' & E); try discriminate; eauto.
Qed.
Section Market.
  Context (w : world) (G : ghost) (Q : ideal) (Hrd : ready w G Q) (ob : orderbook) (Eob : s_orderbook (w_st w) = Some ob).
  Context (side : dir) (target : option Z) (q : Z) (Hq : 0 <= q <= U128_MAX).
  Let s := w_st w.
  Let Hg : good w G Q := rd_good _ _ _ Hrd.
  Let Hi : inv s G := gd_inv _ _ _ Hg.
  Let Hr : refines s G Q := gd_ref _ _ _ Hg.
  Lemma market_levels l : market_ticks ob (opposite side) (swap_bound (opposite side) target) (s_ticks s) = Ok l ->
    filter (fun t => opens G side t <> 0) l = levels side target (lives_of Q).
  Proof.
    intros Hl. destruct (plan_ctx _ _ _ _ _ _ Hi Hl) as (C1 & C2 & C3 & C4). rewrite opp_opp in *.
    assert (Hol : forall t, opens G side t = open_on side (lives_of Q) t).
    { intros t. rewrite (open_on_liquidity _ _ _ Hi Hr). symmetry. apply tick_liquidity_open. exact Hi. }
    apply (ordered_unique (opposite side)); [apply ordered_filter; exact C1|apply levels_ordered|].
    intros t. rewrite elem_of_list_filter, (levels_liquidity s G Q Hi Hr), <- (open_on_liquidity s G Q Hi Hr), <- Hol.
    destruct (decide (opens G side t = 0)) as [Hz|Hne]; [tauto|].
    assert (E : t ∈ l <-> within_target side target t); [|tauto].
    specialize (C3 t) as Hpos. rewrite C4.
    assert (Es : is_Some (s_ticks s !! t)).
    { destruct (s_ticks s !! t) eqn:E; [eauto|]. unfold opens in Hne. rewrite (i_none _ _ Hi t side E) in Hne. destruct Hne. reflexivity. }
    destruct (Es) as [ts Et]. destruct (i_some _ _ Hi _ _ Et) as [[V1 V2] _]. destruct (i_book _ _ Hi) as (ob' & Eob' & Hbk). fold s in Eob. rewrite Eob in Eob'. injection Eob' as <-.
    pose proof DEC_pos. assert (Htal : 0 < tv_tal (get_values ts side)).
    { rewrite (inv_tick_some _ _ _ _ Hi Et), get_ts_of. cbn. unfold opens in *. nia. }
    assert (Hnx : match side with Bid => t <= ob_next_bid ob | Ask => ob_next_ask ob <= t end).
    { destruct side; [apply (bo_bids _ _ Hbk _ _ Et Htal)|apply (bo_asks _ _ Hbk _ _ Et Htal)]. }
    unfold swap_range, within_target, swap_bound, unwrap_or. destruct side, target as [b|]; cbn [opposite]; split; intros K; repeat split; try exact Es; try exact I; lia || tauto.
  Qed.
  (** The market order itself. *)
  Lemma market_error :
    let l := levels side target (lives_of Q) in let open := open_on side (lives_of Q) in let partial := partial_allowed side target in
    let best := match side with Bid => ob_next_bid ob | Ask => ob_next_ask ob end in
    let r := run_market_order_internal s q (opposite side) (swap_bound (opposite side) target) in
    match checks [ (negb (q =? 0), EInvalidSwap ZeroInput);
                   (match target with Some b => tick_ok b | None => true end, EInvalidTickId (target_of target));
                   (match target with Some b => match side with Ask => best <=? b | Bid => b <=? best end | None => true end, EInvalidTickId (target_of target)) ]
            match walk_error side partial open l q ATOM with Some er => Refused er | None => Accepted end with
    | Accepted => exists m dn, r = Ok (m, dn)
    | Refused er => r = Err er
    | Aborted => False
    end.
  Proof.
    intros l open partial best r. destruct (i_book _ _ Hi) as (ob' & Eob' & Hbk). fold s in Eob. rewrite Eob in Eob'. injection Eob' as <-.
    pose proof (bo_bid _ _ Hbk) as [B1 B2]. pose proof (bo_ask _ _ Hbk) as [A1 A2].
    unfold r, run_market_order_internal. cbn [checks]. destruct (Z.eqb_spec q 0) as [Eq|Hq0]; cbn [negb rensure rbind]; [reflexivity|].
    unfold load_orderbook. rewrite Eob. cbn [ok_or rbind].
    assert (Ebd : (swap_bound (opposite side) target <=? MAX_TICK) && (MIN_TICK <=? swap_bound (opposite side) target) = match target with Some b => tick_ok b | None => true end).
    { unfold swap_bound, unwrap_or, tick_ok. destruct target as [b|]; [apply andb_comm|]. destruct side; reflexivity. }
    rewrite Ebd. destruct (match target with Some b => tick_ok b | None => true end) eqn:Et; cbn [rensure rbind]; [|destruct target; [reflexivity|discriminate]].
    assert (Emt : forall b', b' = match target with Some b => match side with Ask => best <=? b | Bid => b <=? best end | None => true end ->
        (b' = true -> exists l, market_ticks ob (opposite side) (swap_bound (opposite side) target) (s_ticks s) = Ok l) /\
        (b' = false -> market_ticks ob (opposite side) (swap_bound (opposite side) target) (s_ticks s) = Err (EInvalidTickId (target_of target)))).
    { intros b' ->. unfold market_ticks, best, swap_bound, unwrap_or. destruct side, target as [b|]; cbn [opposite].
      - destruct (b <=? ob_next_bid ob); cbn [rensure rbind]; split; try discriminate; eauto.
      - rewrite (proj2 (Z.leb_le MIN_TICK _) B1). cbn [rensure rbind]. split; [eauto|discriminate].
      - destruct (ob_next_ask ob <=? b); cbn [rensure rbind]; split; try discriminate; eauto.
      - rewrite (proj2 (Z.leb_le _ MAX_TICK) A2). cbn [rensure rbind]. split; [eauto|discriminate]. }
    destruct (Emt _ eq_refl) as [M1 M2]. clear Emt.
    destruct (match target with Some b => match side with Ask => best <=? b | Bid => b <=? best end | None => true end).
    2:{ rewrite (M2 eq_refl). reflexivity. }
    destruct (M1 eq_refl) as [l0 Hl]. rewrite Hl. cbn [rbind].
    destruct (plan_ctx _ _ _ _ _ _ Hi Hl) as (C1 & C2 & C3 & _).
    assert (Hlm : lsumf (opens G (opposite (opposite side))) l0 <= msum (fun t _ => opens G (opposite (opposite side)) t) (s_ticks s)).
    { apply lsumf_msum; [assumption|eapply ordered_nodup; eauto|]. intros t Ht. apply C2 in Ht as [E _]. eauto. }
    pose proof (liq_opens _ _ (opposite (opposite side)) Hi) as Ho. pose proof DEC_pos.
    assert (0 <= lsumf (opens G (opposite (opposite side))) l0) by (clear -C3; induction l0 as [|a l0 IHl]; cbn; [lia|]; specialize (C3 a); lia).
    pose proof (liq_ready _ _ _ (opposite (opposite side)) Hrd) as Hliq. fold s in Hliq.
    pose proof (loop_error (opposite side) (s_ticks s) G partial l0 (mkMkt q ob 0 [] DEC) C2 (fun t => i_side _ _ Hi t _) Hq ltac:(cbn [m_out]; nia)
      (ex_intro _ 0 (conj valid_0 DEC_price))) as HE.
    cbv zeta in HE. rewrite opp_opp in HE. cbn [m_qty m_price] in HE. rewrite (market_levels l0 Hl) in HE.
    assert (Hwe : forall l q p, walk_error side partial (opens G side) l q p = walk_error side partial open l q p).
    { intros l1. induction l1 as [|t l1 IH]; intros q1 p1; [reflexivity|]. cbn [walk_error].
      assert (opens G side t = open t) as -> by (unfold open; rewrite (open_on_liquidity _ _ _ Hi Hr); symmetry; apply tick_liquidity_open; exact Hi).
      rewrite IH. reflexivity. }
    rewrite Hwe in HE. fold l in HE. change DEC with ATOM in HE.
    assert (Hpa : match opposite side with Ask => MIN_TICK <? swap_bound (opposite side) target | Bid => swap_bound (opposite side) target <? MAX_TICK end = partial).
    { unfold partial. rewrite <- partial_abs. reflexivity. }
    destruct (market_loop (opposite side) (s_ticks s) l0 (mkMkt q ob 0 [] ATOM)) as [m'|er'| |] eqn:Em; change (mkMkt q ob 0 [] DEC) with (mkMkt q ob 0 [] ATOM); rewrite Em; cbn [rbind] in HE |- *.
    2-4: destruct (walk_error _ _ _ _ _ _); [congruence|destruct HE; discriminate].
    unfold swap_tail in HE. rewrite Hpa. destruct (amount_to_value (opposite side) (m_qty m') (m_price m') RDown) as [rem|er'| |]; cbn [rbind] in HE |- *.
    2-4: destruct (walk_error _ _ _ _ _ _); [congruence|destruct HE; discriminate].
    destruct ((rem =? 0) || partial); cbn [rensure rbind] in HE |- *; destruct (walk_error _ _ _ _ _ _); try discriminate; [eauto|congruence|destruct HE; discriminate].
  Qed.
  (** ... and when it succeeds, it is the walk. *)
  Lemma market_ok m dn : run_market_order_internal s q (opposite side) (swap_bound (opposite side) target) = Ok (m, dn) ->
    exists f rest s', walk side (partial_allowed side target) (open_on side (lives_of Q)) (levels side target (lives_of Q)) q ATOM = Some (f, rest) /\
      run_market_order q (opposite side) (swap_bound (opposite side) target) s = (s', Ok (total_out f, get_opposite_denom ob (opposite side), rest)).
  Proof.
    intros Hint. fold s in Eob. destruct (internal_inv _ _ _ _ _ _ _ _ Hi Eob Hq Hint) as (l & fs & r & pr & Hp & -> & ->).
    pose proof (internal_fits _ _ _ _ _ _ _ _ _ _ _ _ Hi Eob Hq Hp Hint) as Hfit.
    exists (map drop_in fs), r. eexists. split; [exact (walk_of_pre _ _ _ Hi Hr _ Eob side target _ Hq _ _ _ _ Hp Hfit)|].
    rewrite total_out_map. pose proof (liq_ready _ _ _ (opposite (opposite side)) Hrd) as Hliq. fold s in Hliq.
    exact (proj1 (run_of_internal _ _ _ _ _ _ _ _ _ _ Hi Eob Hq Hliq Hp Hint)).
  Qed.
End Market.
Lemma swap_says e w G Q ob sender tin out mn fee target :
  ready w G Q -> s_orderbook (w_st w) = Some ob -> call_ok (w_self w) (swap_call sender tin out mn fee target) = true ->
  says (swap_verdict e (fun side => match side with Bid => ob_next_bid ob | Ask => ob_next_ask ob end) sender tin out mn fee target (abs (w_st w) Q))
       (snd (call_run e (swap_call sender tin out mn fee target) (w_st w))).
Proof.
  intros Hrd Eob Hok. pose proof (rd_good _ _ _ Hrd) as Hg. pose proof (gd_inv _ _ _ Hg) as Hi.
  pose proof (coin_in_bounds _ _ _ _ _ _ _ Hok) as Hamt. set (s := w_st w) in *.
  destruct (i_book _ _ Hi) as (ob' & Eob' & Hb). rewrite Eob in Eob'. injection Eob' as <-.
  assert (Ecall : call_run e (swap_call sender tin out mn fee target) s = (let! _ := ensure_is_active in dispatch_swap_exact_amount_in e sender tin out mn fee target) s) by (destruct target; reflexivity).
  rewrite Ecall. clear Ecall. unfold swap_verdict. cbn [checks trading]. rewrite abs_active.
  destruct (active s) eqn:Ha.
  2:{ unfold active in Ha. unfold ensure_is_active, mbindM, mread, mensure. unfold unwrap_or in *. destruct (s_active s) as [[]|]; try discriminate. reflexivity. }
  rewrite (bind_ok _ _ _ _ _ (ensure_active _ Ha)). unfold dispatch_swap_exact_amount_in.
  destruct (Z.eqb_spec fee 0) as [->|Hf].
  2:{ unfold ensure_swap_fee, rensure. change EXPECTED_SWAP_FEE with 0. destruct (Z.eqb_spec fee 0); [contradiction|]. reflexivity. }
  rewrite (bind_lift _ tt) by reflexivity. set (k := bool_decide (c_denom tin = out)).
  destruct (negb k) eqn:Ek.
  2:{ reflexivity. }
  rewrite (bind_ensure _ _ _ _ eq_refl). rewrite (bind_readr _ ob) by (unfold load_orderbook; rewrite Eob; reflexivity).
  destruct (maker_side (abs s Q) (c_denom tin) out) as [side|] eqn:Es; cbn [some].
  2:{ assert (Hd : direction_from_pair ob (c_denom tin) out = Err (EInvalidPair (c_denom tin) out)).
      { destruct (direction_from_pair ob (c_denom tin) out) as [d|er| |] eqn:Ed.
        1:{ assert (d = opposite (opposite d)) as Edd by (rewrite opp_opp; reflexivity). rewrite Edd in Ed. apply (maker_direction _ Q _ _ _ _ Eob (bo_denoms _ _ Hb)) in Ed. congruence. }
        all: unfold direction_from_pair in Ed; repeat match type of Ed with context [if ?b then _ else _] => destruct b; [discriminate|] end; congruence. }
      rewrite Hd. reflexivity. }
  pose proof (proj1 (maker_direction _ Q _ _ _ _ Eob (bo_denoms _ _ Hb)) Es) as Hdir. rewrite (bind_lift _ _ _ _ Hdir).
  unfold addr_validate. destruct (e_addr_valid e sender) eqn:Hav; [|reflexivity]. rewrite (bind_lift _ tt) by reflexivity.
  change (unwrap_or target match opposite side with Bid => MAX_TICK | Ask => MIN_TICK end) with (swap_bound (opposite side) target).
  cbn [abs ma_orders].
  set (l := levels side target (lives_of Q)). set (open := open_on side (lives_of Q)). set (partial := partial_allowed side target).
  pose proof (market_error w G Q Hrd ob Eob side target _ Hamt) as HM. cbv zeta in HM. fold s l open partial in HM. cbn [checks] in HM.
  assert (Hrun : forall er, run_market_order_internal s (c_amount tin) (opposite side) (swap_bound (opposite side) target) = Err er ->
    run_market_order (c_amount tin) (opposite side) (swap_bound (opposite side) target) s = (s, Err er)).
  { intros er He. unfold run_market_order. apply bind_err. unfold mreadr. rewrite He. reflexivity. }
  assert (Hbad : forall er (K : _ -> M storage response), run_market_order_internal s (c_amount tin) (opposite side) (swap_bound (opposite side) target) = Err er ->
    says (Refused er) (snd (mbindM (run_market_order (c_amount tin) (opposite side) (swap_bound (opposite side) target)) K s))).
  { intros er K He. rewrite (bind_err _ _ _ _ _ (Hrun er He)). reflexivity. }
  destruct (negb (c_amount tin =? 0)); [|apply Hbad; exact HM].
  match type of HM with context [if ?b then _ else _] => destruct b end; [|apply Hbad; exact HM].
  match type of HM with context [if ?b then _ else _] => destruct b end; [|apply Hbad; exact HM].
  destruct (walk_error side partial open l (c_amount tin) ATOM) as [er|]; [apply Hbad; exact HM|].
  destruct HM as (m & dn & Hint). destruct (market_ok w G Q Hrd ob Eob side target _ Hamt _ _ Hint) as (f & rest & s' & Hw & Hr'). fold s l open partial in Hw, Hr'.
  rewrite Hw. rewrite (bind_ok _ _ _ _ _ Hr'). cbn [on_some fst]. unfold validate_output_amount. rewrite Z.leb_refl. cbn [rensure rbind c_amount c_denom].
  destruct (mn <=? total_out f); [|reflexivity]. cbn [rensure rbind].
  destruct (direction_denom _ _ _ _ (bo_denoms _ _ Hb) Hdir) as [D1 D2]. rewrite <- D2.
  assert (Hk : negb (bool_decide (out = c_denom tin)) = true).
  { unfold k in Ek. apply negb_true_iff in Ek. apply bool_decide_eq_false in Ek. rewrite bool_decide_false by congruence. reflexivity. }
  rewrite Hk. cbn [rensure]. rewrite (bind_lift _ tt) by reflexivity. eexists. reflexivity.
Qed.

(** ** Orders and roles *)
Lemma inactive_says e i m s : active s = false -> (match m with AuthMsg _ => False | _ => True end) -> snd (call_run e (CExec i m) s) = Err EInactive.
Proof.
  intros Ha Hm. cbn [call_run]. unfold execute. destruct m; try contradiction; unfold ensure_is_active, mbindM, mread, mensure; unfold active, unwrap_or in *;
    destruct (s_active s) as [[]|]; try discriminate; reflexivity.
Qed.
Lemma succeeds_says e w c : succeeds (all_ok e) w c -> says Accepted (snd (call_run e c (w_st w))).
Proof. intros (w' & r & E). destruct (step_code _ _ _ _ _ E) as (s' & E'). rewrite call_run_bank in E'. rewrite E'. exists r. reflexivity. Qed.
Lemma find_none w G Q t id : good w G Q -> find_order t id (lives_of Q) = None -> s_orders (w_st w) !! (t, id) = None.
Proof.
  intros Hg Hf. destruct (s_orders (w_st w) !! (t, id)) as [o|] eqn:E; [|reflexivity].
  destruct (sh_order _ _ (shows_abs _ _ _ Hg) _ _ _ E) as (r & Hr & _). cbn [abs ma_orders] in Hr. congruence.
Qed.
Lemma auth_says e i a s Q : says (auth_verdict e (i_sender i) a (abs s Q)) (snd (auth_dispatch e i a s)).
Proof.
  unfold auth_verdict. cbn [abs ma_set settings_of se_admin se_admin_offer se_moderator se_moderator_offer].
  assert (Hsw : forall o : option string, bool_decide (Some (i_sender i) = o) = bool_decide (o = Some (i_sender i))).
  { intros o. apply bool_decide_ext. split; congruence. }
  destruct a; cbn [auth_dispatch checks]; unfold dispatch_transfer_admin, dispatch_cancel_admin_transfer, dispatch_claim_admin, dispatch_reject_admin_transfer,
    dispatch_renounce_adminship, dispatch_offer_moderator, dispatch_claim_moderator, dispatch_reject_moderator_offer, dispatch_set_active, dispatch_set_maker_fee,
    dispatch_set_maker_fee_recipient, ensure_is_admin, ensure_is_admin_or_moderator, set_maker_fee, offer_admin, offer_moderator, update_admin, update_moderator, addr_validate,
    mbindM, mread, mensure, mlift, rensure; rewrite ?Hsw; change MAX_MAKER_FEE_PERCENTAGE with (5 * 10 ^ 16).
  all: try (rewrite (orb_comm (bool_decide (s_moderator s = _)))).
  all: repeat match goal with |- context [if ?b then _ else _] => destruct b; cbn [says snd]; try reflexivity end.
  all: eexists; reflexivity.
Qed.

(** C68: after any history, every transaction is answered by exactly the verdict of SpecWhy.v on the
    machine: accepted, or refused with the error of the first check that fails; the only abort is the
    unimplemented SwapExactAmountOut. *)
Theorem C68_refusals :
  forall e0 self quote base funds w0 h e c ob,
  init_world e0 self quote base funds = Some w0 -> forallb coin_typed funds = true -> history w0 h -> short h ->
  let w := run w0 h in
  let m := m_after (m_new quote base) h in
  let used t := existsb (fun en => en_tick en =? t) (ideal_run w0 [] h) in
  let best side := match side with Bid => ob_next_bid ob | Ask => ob_next_ask ob end in
  call_ok (w_self w) c = true -> s_orderbook (w_st w) = Some ob ->
  says (verdict_of e used best c m) (snd (call_run e c (w_st w))).
Proof.
  intros e0 self quote base funds w0 h e c ob H0 Hf Hh Hsh w m used best Hok Eob.
  assert (Hs : start w0) by (exists e0, self, quote, base, funds; auto).
  unfold m. rewrite (machine_after _ _ _ _ _ _ _ H0 Hf Hh Hsh). fold w. clear m.
  destruct (short_ready w0 h Hs Hh Hsh) as (G & Hrd). fold w in Hrd. set (Q := ideal_run w0 [] h) in *.
  pose proof (rd_good _ _ _ Hrd) as Hg. pose proof (gd_inv _ _ _ Hg) as Hi. pose proof (gd_ref _ _ _ Hg) as Hr.
  assert (Hact : active (w_st w) = se_active (ma_set (abs (w_st w) Q))) by reflexivity.
  destruct c as [[sender fs] msg|msg| |cn]; [destruct msg as [t d q b|t id|t id|l|a]| | |]; cbn [verdict_of].
  - unfold place_verdict. cbn [checks trading]. rewrite <- Hact. destruct (active (w_st w)) eqn:Ha; [|apply inactive_says; [exact Ha|exact I]].
    assert (Hgo : forall (K : M storage response), call_run e (CExec (mkInfo sender fs) (PlaceLimit t d q b)) (w_st w) = place_limit e (mkInfo sender fs) t d q b (w_st w)).
    { intros K. cbn [call_run]. unfold execute. rewrite (bind_ok _ _ _ _ _ (ensure_active _ Ha)). reflexivity. }
    rewrite (Hgo (mret resp_default)). clear Hgo.
    destruct (tick_ok t) eqn:E1.
    2:{ unfold place_limit. rewrite (bind_readr _ ob) by (unfold load_orderbook; rewrite Eob; reflexivity). unfold mbindM at 1. unfold mensure at 1.
        change ((MIN_TICK <=? t) && (t <=? MAX_TICK)) with (tick_ok t). rewrite E1. reflexivity. }
    destruct (Z.ltb_spec 0 q) as [E2|E2].
    2:{ unfold place_limit. rewrite (bind_readr _ ob) by (unfold load_orderbook; rewrite Eob; reflexivity). rewrite bind_ensure by exact E1. unfold mbindM at 1. unfold mensure at 1.
        rewrite (proj2 (Z.ltb_ge _ _) E2). reflexivity. }
    change (match b with Some x => (0 <=? x) && (x <=? 10 ^ 16) | None => true end) with (bounty_ok b).
    destruct (bounty_ok b) eqn:E3.
    2:{ unfold place_limit. rewrite (bind_readr _ ob) by (unfold load_orderbook; rewrite Eob; reflexivity). rewrite bind_ensure by exact E1. rewrite bind_ensure by (apply Z.ltb_lt; exact E2).
        unfold mbindM at 1. unfold mensure at 1. rewrite E3. reflexivity. }
    cbn [i_funds]. rewrite abs_deposit, (den_eq _ _ _ Eob).
    assert (Hpay : forall er, must_pay (mkInfo sender fs) (get_expected_denom ob d) = Err er -> snd (place_limit e (mkInfo sender fs) t d q b (w_st w)) = Err er).
    { intros er He. unfold place_limit. rewrite (bind_readr _ ob) by (unfold load_orderbook; rewrite Eob; reflexivity). rewrite bind_ensure by exact E1. rewrite bind_ensure by (apply Z.ltb_lt; exact E2).
      rewrite bind_ensure by exact E3. unfold mbindM at 1. unfold mlift at 1. rewrite He. reflexivity. }
    destruct fs as [|cn [|cn2 fs]]; [apply Hpay; reflexivity| |apply Hpay; reflexivity].
    destruct (c_amount cn =? 0) eqn:E5; cbn [negb].
    { apply Hpay. unfold must_pay. cbn [i_funds]. rewrite E5. reflexivity. }
    destruct (bool_decide (c_denom cn = get_expected_denom ob d)) eqn:E4.
    2:{ apply Hpay. unfold must_pay. cbn [i_funds]. rewrite E5, E4. reflexivity. }
    destruct (c_amount cn =? q) eqn:E6.
    2:{ unfold place_limit. rewrite (bind_readr _ ob) by (unfold load_orderbook; rewrite Eob; reflexivity). rewrite bind_ensure by exact E1. rewrite bind_ensure by (apply Z.ltb_lt; exact E2).
        rewrite bind_ensure by exact E3. rewrite (bind_lift _ (c_amount cn)) by (unfold must_pay; cbn [i_funds]; rewrite E4, E5; reflexivity).
        unfold mbindM at 1. unfold mensure at 1. rewrite E6. reflexivity. }
    apply bool_decide_eq_true in E4. apply Z.eqb_eq in E6. unfold tick_ok in E1. apply andb_prop in E1 as [T1 T2]. apply Z.leb_le in T1, T2.
    assert (Hq : q <= U128_MAX).
    { pose proof (call_funds_typed _ _ Hok) as Hty. cbn in Hty. apply andb_prop in Hty as [Hty _]. unfold coin_typed, u128 in Hty. apply andb_prop in Hty as [_ Hty]. apply Z.leb_le in Hty. lia. }
    assert (cn = mkCoin (deposit_denom (w_st w) d) q) as -> by (destruct cn; cbn in *; rewrite (den_eq _ _ _ Eob); congruence).
    pose proof (succeeds_says e w _ (C03_place_accepted (all_ok e) w0 h sender t d q b Hs Hh Hsh Ha (conj T1 T2) ltac:(lia) ltac:(intros x ->; apply andb_prop in E3 as [B1 B2]; apply Z.leb_le in B1, B2; change (dec_percent 1) with (10 ^ 16) in B2; lia))) as Hacc.
    cbn [c_place call_run] in Hacc. unfold execute in Hacc. fold w in Hacc. rewrite (bind_ok _ _ _ _ _ (ensure_active _ Ha)) in Hacc. exact Hacc.
  - unfold cancel_verdict. cbn [checks trading unpaid]. rewrite <- Hact. destruct (active (w_st w)) eqn:Ha; [|apply inactive_says; [exact Ha|exact I]].
    assert (Hgo : snd (call_run e (CExec (mkInfo sender fs) (CancelLimit t id)) (w_st w)) = snd (cancel_limit (mkInfo sender fs) t id (w_st w))).
    { cbn [call_run]. unfold execute. rewrite (bind_ok _ _ _ _ _ (ensure_active _ Ha)). reflexivity. }
    unfold no_funds. cbn [i_funds]. destruct fs as [|cn fs]; [|rewrite Hgo; reflexivity].
    cbn [abs ma_orders]. destruct (find_order t id (lives_of Q)) as [o|] eqn:Ef; cbn [some on_some].
    2:{ rewrite Hgo. unfold cancel_limit. rewrite (bind_lift _ tt) by reflexivity. unfold mbindM at 1. unfold mreadr at 1. rewrite (find_none _ _ _ _ _ Hg Ef). reflexivity. }
    apply find_lives_some in Ef as (en & Hen & Hl & Et & Ei & ->). cbn [strip re_owner re_filled i_sender].
    destruct (live_order _ _ _ Hi Hr en Hen Hl) as (o & n & c & Eo & Hd & Hlv & He & Efl & _). rewrite Et, Ei in *.
    destruct Hd as (_ & _ & D1 & D2 & _).
    destruct (bool_decide (en_owner en = sender)) eqn:Eow.
    2:{ rewrite Hgo. unfold cancel_limit. rewrite (bind_lift _ tt) by reflexivity. rewrite (bind_readr _ o) by (rewrite Eo; reflexivity).
        unfold mbindM at 1. unfold mensure at 1. cbn [i_sender]. apply bool_decide_eq_false in Eow. rewrite bool_decide_false by congruence. reflexivity. }
    apply bool_decide_eq_true in Eow. subst sender. subst t id.
    destruct (en_filled en =? 0) eqn:Efi.
    + apply Z.eqb_eq in Efi. apply (succeeds_says e w). apply (C06_cancel_iff (all_ok e) w0 h en Hs Hh Hsh Hen Hl Hok Ha eq_refl). exact Efi.
    + apply Z.eqb_neq in Efi. rewrite Hgo. rewrite D1 in Hlv.
      destruct (cancel_cases (w_st w) G ob (mkInfo (en_owner en) []) (en_tick en) (en_id en) o n c Hi Eob Eo eq_refl D2 Hlv He) as [(HF & _)|[(_ & s' & ->)|(HU & _)]].
      * exfalso. apply Efi. rewrite Efl, D1. apply fifo_zero; [|exact HF]. apply (oo_qty _ _ _ _ (i_order _ _ Hi _ _ Eo)).
      * reflexivity.
      * pose proof (rd_ctr _ _ _ Hrd (en_tick en)). unfold U64_MAX in HU. lia.
  - unfold claim_verdict. cbn [checks trading unpaid]. rewrite <- Hact. destruct (active (w_st w)) eqn:Ha; [|apply inactive_says; [exact Ha|exact I]].
    assert (Hgo : snd (call_run e (CExec (mkInfo sender fs) (ClaimLimit t id)) (w_st w)) = snd (claim_limit (mkInfo sender fs) t id (w_st w))).
    { cbn [call_run]. unfold execute. rewrite (bind_ok _ _ _ _ _ (ensure_active _ Ha)). reflexivity. }
    unfold no_funds. cbn [i_funds]. destruct fs as [|cn fs]; [|rewrite Hgo; reflexivity].
    assert (Hus : used t = true <-> is_Some (s_ticks (w_st w) !! t)).
    { unfold used. rewrite existsb_exists. unfold w. rewrite (C32_known_ticks w0 h Hs Hh t). split; intros (en & H1 & H2); exists en.
      - apply elem_of_list_In in H1. apply Z.eqb_eq in H2. auto.
      - apply elem_of_list_In in H1. split; [exact H1|]. apply Z.eqb_eq. exact H2. }
    assert (Herr : forall er, (exists s', claim_order sender t id (w_st w) = (s', Err er)) -> snd (claim_limit (mkInfo sender []) t id (w_st w)) = Err er).
    { intros er (s' & He). unfold claim_limit. rewrite (bind_lift _ tt) by reflexivity. cbn [i_sender]. rewrite (bind_err _ _ _ _ _ He). reflexivity. }
    destruct (used t) eqn:Eu.
    2:{ rewrite Hgo. apply Herr. exists (w_st w). unfold claim_order. rewrite (bind_readr _ ob) by (unfold load_orderbook; rewrite Eob; reflexivity).
        unfold mbindM at 1. unfold mreadr at 1. destruct (s_ticks (w_st w) !! t) as [ts|] eqn:Ets; [|reflexivity]. destruct Hus as [_ Hus]. discriminate Hus. eauto. }
    destruct (proj1 Hus eq_refl) as [ts Ets].
    cbn [abs ma_orders]. destruct (find_order t id (lives_of Q)) as [o|] eqn:Ef; cbn [some on_some].
    2:{ rewrite Hgo. apply Herr. exists (w_st w). unfold claim_order. rewrite (bind_readr _ ob) by (unfold load_orderbook; rewrite Eob; reflexivity).
        rewrite (bind_readr _ ts) by (rewrite Ets; reflexivity). unfold mbindM at 1. unfold mreadr at 1. rewrite (find_none _ _ _ _ _ Hg Ef). reflexivity. }
    apply find_lives_some in Ef as (en & Hen & Hl & Et & Ei & ->). cbn [strip re_filled].
    destruct (Z.ltb_spec 0 (en_filled en)) as [Hfl|Hfl].
    + apply (succeeds_says e w). apply (C09_claim_iff (all_ok e) w0 h sender _ _ Hs Hh Hsh Hok Ha eq_refl eq_refl ltac:(reflexivity)). exists en. auto.
    + rewrite Hgo. apply Herr.
      destruct (live_order _ _ _ Hi Hr en Hen Hl) as (o & n & c & Eo & Hd & Hlv & He & Efl & _). rewrite Et, Ei in *. destruct Hd as (_ & _ & D1 & D2 & _).
      destruct (i_fee _ _ Hi) as (fee & Efee & _). destruct (i_rcp _ _ Hi) as (rcp & Ercp).
      destruct (claim_cases (w_st w) G ob fee rcp sender t id Hi Eob Efee Ercp) as [(Hno & _)|(o' & n' & c' & Eo' & Hlv' & He' & [(HU & _)|(tr' & c'' & _ & _ & [(_ & E)|(Hpos & _)])])].
      * congruence.
      * pose proof (rd_ctr _ _ _ Hrd t). unfold U64_MAX in HU. lia.
      * eauto.
      * exfalso. rewrite Eo in Eo'. injection Eo' as <-. destruct (entry_of _ _ _ Hr _ _ _ _ _ Eo Hlv') as (en2 & Hen2 & Hd2 & _ & Ef2).
        assert (en2 = en) as -> by (destruct Hd2 as (_ & K2 & _); eapply (ids_inj Q); [apply (rf_ids _ _ _ Hr)|assumption|assumption|congruence]). lia.
  - unfold batch_verdict. cbn [checks trading unpaid]. rewrite <- Hact. destruct (active (w_st w)) eqn:Ha; [|apply inactive_says; [exact Ha|exact I]].
    assert (Hgo : snd (call_run e (CExec (mkInfo sender fs) (BatchClaim l)) (w_st w)) = snd (batch_claim_limits (mkInfo sender fs) l (w_st w))).
    { cbn [call_run]. unfold execute. rewrite (bind_ok _ _ _ _ _ (ensure_active _ Ha)). reflexivity. }
    unfold no_funds. cbn [i_funds]. destruct fs as [|cn fs]; [|rewrite Hgo; reflexivity].
    destruct (Z.leb_spec (Z.of_nat (length l)) 100) as [Hle|Hgt].
    + apply (succeeds_says e w). apply (C13_batch_accepted (all_ok e) w0 h sender l Hs Hh Hsh Hok Ha eq_refl eq_refl ltac:(reflexivity)). exact Hle.
    + rewrite Hgo. unfold batch_claim_limits. rewrite (bind_lift _ tt) by reflexivity. unfold mbindM at 1. unfold mensure at 1. change MAX_BATCH_CLAIM with 100.
      rewrite (proj2 (Z.leb_gt _ _) Hgt). reflexivity.
  - exact (auth_says e (mkInfo sender fs) a (w_st w) Q).
  - assert (Hin : active (w_st w) = false -> snd (call_run e (CSudo msg) (w_st w)) = Err EInactive).
    { intros Ha. cbn [call_run]. unfold sudo, ensure_is_active, mbindM, mread, mensure. unfold active, unwrap_or in *. destruct (s_active (w_st w)) as [[]|]; try discriminate; reflexivity. }
    destruct msg as [snd0 tin tout mn fee|snd0 tin tout mn fee tgt|snd0 ind mx tout fee|a| |b].
    + exact (swap_says e w G Q ob snd0 tin tout mn fee None Hrd Eob Hok).
    + exact (swap_says e w G Q ob snd0 tin tout mn fee (Some tgt) Hrd Eob Hok).
    + cbn [checks trading]. rewrite <- Hact. destruct (active (w_st w)) eqn:Ha; [|apply Hin; reflexivity].
      cbn [call_run]. unfold sudo. rewrite (bind_ok _ _ _ _ _ (ensure_active _ Ha)). reflexivity.
    + cbn [checks trading]. rewrite <- Hact. destruct (active (w_st w)) eqn:Ha; [|apply Hin; reflexivity].
      cbn [call_run]. unfold sudo. rewrite (bind_ok _ _ _ _ _ (ensure_active _ Ha)). unfold update_admin, addr_validate, mbindM, mlift, rensure.
      destruct (e_addr_valid e a); [eexists; reflexivity|reflexivity].
    + cbn [checks trading]. rewrite <- Hact. destruct (active (w_st w)) eqn:Ha; [|apply Hin; reflexivity].
      cbn [call_run]. unfold sudo. rewrite (bind_ok _ _ _ _ _ (ensure_active _ Ha)). eexists; reflexivity.
    + cbn [checks trading]. rewrite <- Hact. destruct (active (w_st w)) eqn:Ha; [|apply Hin; reflexivity].
      cbn [call_run]. unfold sudo. rewrite (bind_ok _ _ _ _ _ (ensure_active _ Ha)). eexists; reflexivity.
  - eexists; reflexivity.
  - eexists; reflexivity.
Qed.
Print Assumptions C68_refusals.

(** Consequences: no transaction runs out of anything or overflows, nothing but the unimplemented
    entry point panics, and every refusal carries one of the errors of [known_error]. *)
Lemma checks_known l k : (forall b e, (b, e) ∈ l -> known_error e) -> (forall e, k = Refused e -> known_error e) ->
  forall e, checks l k = Refused e -> known_error e.
Proof.
  induction l as [|[b e0] l IH]; intros Hl Hk e; cbn [checks]; [apply Hk|].
  destruct b; [apply IH; [intros b e' Hin; apply (Hl b); constructor; exact Hin|exact Hk]|]. intros [= <-]. apply (Hl false). constructor.
Qed.
Lemma checks_abort l k : checks l k = Aborted -> k = Aborted.
Proof. induction l as [|[b e0] l IH]; cbn [checks]; [auto|]. destruct b; [exact IH|discriminate]. Qed.
Lemma walk_error_known side partial open l : forall q p e, walk_error side partial open l q p = Some e -> known_error e.
Proof.
  induction l as [|t l IH]; intros q p e; cbn [walk_error].
  - destruct (_ || _); [discriminate|]. intros [= <-]. exact I.
  - destruct (_ =? 0); [discriminate|]. destruct (_ <? _); [intros [= <-]; exact I|].
    destruct (_ =? 0); [intros [= <-]; exact I|apply IH].
Qed.
Ltac errs := intros ? ? Hin; repeat (apply elem_of_cons in Hin as [[= -> ->]|Hin]); [..|apply elem_of_nil in Hin; contradiction]; exact I.
Theorem C68_known_errors :
  forall w0 h e c, start w0 -> history w0 h -> short h ->
  let w := run w0 h in call_ok (w_self w) c = true ->
  match snd (call_run e c (w_st w)) with
  | Ok _ => True
  | Err er => known_error er
  | Panic => exists sender denom mx tout fee, c = CSudo (SwapExactAmountOut sender denom mx tout fee)
  | NoFuel => False
  end.
Proof.
  intros w0 h e c Hs Hh Hsh w Hok. pose proof Hs as (e0 & self & quote & base & funds & H0 & Hf).
  destruct (run_good w0 h Hs Hh) as (G & Hg). destruct (i_book _ _ (gd_inv _ _ _ Hg)) as (ob & Eob & _). fold w in Eob.
  pose proof (C68_refusals e0 self quote base funds w0 h e c ob H0 Hf Hh Hsh Hok Eob) as Hv. cbv zeta in Hv. fold w in Hv.
  set (v := verdict_of _ _ _ _ _) in Hv.
  assert (Hk : forall er, v = Refused er -> known_error er).
  { unfold v. set (m := m_after _ _).
    destruct c as [[sender fs] msg|msg| |cn]; [destruct msg as [t d q b|t id|t id|l|a]| | |]; cbn [verdict_of]; try discriminate.
    - apply checks_known; [errs|discriminate].
    - apply checks_known; [errs|discriminate].
    - apply checks_known; [errs|discriminate].
    - apply checks_known; [errs|discriminate].
    - destruct a; apply checks_known; try discriminate; errs.
    - destruct msg; cbn [verdict_of]; try (apply checks_known; [errs|discriminate]).
      all: unfold swap_verdict; apply checks_known; [errs|]; destruct (maker_side _ _ _); [|intros er [= <-]; exact I];
        apply checks_known; [errs|]; destruct (walk_error _ _ _ _ _ _) eqn:Ew; [intros er [= <-]; eapply walk_error_known; exact Ew|]; apply checks_known; [errs|discriminate]. }
  assert (Ha : v = Aborted -> exists sender denom mx tout fee, c = CSudo (SwapExactAmountOut sender denom mx tout fee)).
  { unfold v. set (m := m_after _ _).
    destruct c as [[sender fs] msg|msg| |cn]; [destruct msg as [t d q b|t id|t id|l|a]| | |]; cbn [verdict_of]; try discriminate; try (intros K; apply checks_abort in K; discriminate).
    - destruct a; intros K; apply checks_abort in K; discriminate.
    - destruct msg; try (intros K; apply checks_abort in K; discriminate); try solve [eauto 10].
      all: intros K; apply checks_abort in K; destruct (maker_side _ _ _); [|discriminate]; apply checks_abort in K; destruct (walk_error _ _ _ _ _ _); [discriminate|]; apply checks_abort in K; discriminate. }
  destruct v as [|er|]; cbn [says] in Hv; [destruct Hv as [x ->]; exact I|rewrite Hv; apply Hk; reflexivity|rewrite Hv; apply Ha; reflexivity].
Qed.
Print Assumptions C68_known_errors.

(** Queries. *)
Lemma all_open_lives Q d : (forall e, e ∈ Q -> 0 <= en_open e /\ 0 <= en_filled e) -> all_open d (lives_of Q) = open_dir Q d.
Proof.
  unfold open_dir. induction Q as [|e Q IH]; intros H; [reflexivity|]. rewrite lives_of_cons. cbn [ideal_sum foldr].
  fold (ideal_sum (fun e => if bool_decide (en_dir e = d) then en_open e else 0) Q).
  rewrite <- IH by (intros; apply H; constructor; assumption). destruct (H e ltac:(constructor)) as [H1 H2].
  destruct (en_live e) eqn:E; [reflexivity|]. unfold en_live in E. apply Z.ltb_ge in E. cbn [app]. destruct (bool_decide _); lia.
Qed.
Lemma direction_error w G Q ob tin tout : good w G Q -> s_orderbook (w_st w) = Some ob -> maker_side (abs (w_st w) Q) tin tout = None -> direction_from_pair ob tin tout = Err (EInvalidPair tin tout).
Proof.
  intros Hg Eob Es. destruct (i_book _ _ (gd_inv _ _ _ Hg)) as (ob' & Eob' & Hb). rewrite Eob in Eob'. injection Eob' as <-.
  destruct (direction_from_pair ob tin tout) as [d|er| |] eqn:Ed.
  1:{ assert (d = opposite (opposite d)) as Edd by (rewrite opp_opp; reflexivity). rewrite Edd in Ed. apply (maker_direction _ Q _ _ _ _ Eob (bo_denoms _ _ Hb)) in Ed. congruence. }
  all: unfold direction_from_pair in Ed; repeat match type of Ed with context [if ?b then _ else _] => destruct b; [discriminate|] end; congruence.
Qed.
Lemma quote_says w G Q ob tin out fee : ready w G Q -> s_orderbook (w_st w) = Some ob -> coin_typed tin = true ->
  says (query_verdict (fun _ => true) (QCalcOutAmtGivenIn tin out fee) (abs (w_st w) Q)) (rmap ATokenOut (calc_out_amount_given_in (w_st w) tin out fee)).
Proof.
  intros Hrd Eob Ht. pose proof (rd_good _ _ _ Hrd) as Hg. pose proof (gd_inv _ _ _ Hg) as Hi.
  assert (Hamt : 0 <= c_amount tin <= U128_MAX) by (unfold coin_typed, u128 in Ht; apply andb_prop in Ht as [T1 T2]; apply Z.leb_le in T1, T2; auto).
  destruct (i_book _ _ Hi) as (ob' & Eob' & Hb). rewrite Eob in Eob'. injection Eob' as <-.
  cbn [query_verdict checks]. unfold calc_out_amount_given_in, ensure_swap_fee. change EXPECTED_SWAP_FEE with 0.
  destruct (fee =? 0); [|reflexivity]. cbn [rensure rbind]. unfold load_orderbook. rewrite Eob. cbn [ok_or rbind].
  destruct (maker_side (abs (w_st w) Q) (c_denom tin) out) as [side|] eqn:Es; cbn [some].
  2:{ rewrite (direction_error _ _ _ _ _ _ Hg Eob Es). reflexivity. }
  rewrite (proj1 (maker_direction _ Q _ _ _ _ Eob (bo_denoms _ _ Hb)) Es). cbn [rbind].
  pose proof (market_error w G Q Hrd ob Eob side None _ Hamt) as HM. cbv zeta in HM. cbn [checks] in HM. cbn [abs ma_orders].
  change (swap_bound (opposite side) None) with (match opposite side with Bid => MAX_TICK | Ask => MIN_TICK end) in HM. change (partial_allowed side None) with false in HM.
  destruct (negb (c_amount tin =? 0)); [|rewrite HM; reflexivity].
  destruct (walk_error _ _ _ _ _ _); [rewrite HM; reflexivity|]. destruct HM as (m & dn & ->). eexists. reflexivity.
Qed.
(** C68 for queries: answered, or refused with the error of the first failing check; the only aborts are
    the unimplemented query and pool totals above 128 bits. *)
Theorem C68_queries :
  forall e0 self quote base funds w0 h q,
  init_world e0 self quote base funds = Some w0 -> forallb coin_typed funds = true -> history w0 h -> short h ->
  let m := m_after (m_new quote base) h in
  let used t := existsb (fun en => en_tick en =? t) (ideal_run w0 [] h) in
  (forall tin out fee, q = QCalcOutAmountGivenIn tin out fee \/ q = QCalcOutAmtGivenIn tin out fee -> coin_typed tin = true) ->
  says (query_verdict used q m) (query (w_st (run w0 h)) q).
Proof.
  intros e0 self quote base funds w0 h q H0 Hf Hh Hsh m used Hty.
  assert (Hs : start w0) by (exists e0, self, quote, base, funds; auto).
  unfold m. rewrite (machine_after _ _ _ _ _ _ _ H0 Hf Hh Hsh). set (w := run w0 h) in *. clear m.
  destruct (short_ready w0 h Hs Hh Hsh) as (G & Hrd). fold w in Hrd. set (Q := ideal_run w0 [] h) in *.
  pose proof (rd_good _ _ _ Hrd) as Hg. pose proof (gd_inv _ _ _ Hg) as Hi. pose proof (gd_ref _ _ _ Hg) as Hr.
  destruct (i_book _ _ Hi) as (ob & Eob & Hb). assert (Eload : load_orderbook (w_st w) = Ok ob) by (unfold load_orderbook; rewrite Eob; reflexivity).
  assert (Hus : forall t, used t = true <-> is_Some (s_ticks (w_st w) !! t)).
  { intros t. unfold used. rewrite existsb_exists. unfold w. rewrite (C32_known_ticks w0 h Hs Hh t). split; intros (en & H1 & H2); exists en.
    - apply elem_of_list_In in H1. apply Z.eqb_eq in H2. auto.
    - apply elem_of_list_In in H1. split; [exact H1|]. apply Z.eqb_eq. exact H2. }
  assert (Hun : forall t, used t = false -> s_ticks (w_st w) !! t = None).
  { intros t Hu. destruct (s_ticks (w_st w) !! t) eqn:E; [|reflexivity]. assert (used t = true) by (apply Hus; eauto). congruence. }
  destruct q; cbn [query_verdict query]; try (eexists; reflexivity).
  - cbn [checks]. unfold spot_price. destruct (maker_side (abs (w_st w) Q) base_asset quote_asset) as [side|] eqn:Es; cbn [some].
    + destruct (C41_answers w0 h Hs Hh) as [HA _]. cbv zeta in HA. fold w in HA. apply HA.
      unfold maker_side in Es. cbn [abs ma_quote ma_base] in Es.
      destruct (bool_decide_reflect (base_asset = deposit_denom (w_st w) Bid /\ quote_asset = deposit_denom (w_st w) Ask)) as [[-> ->]|]; [right; auto|].
      destruct (bool_decide_reflect (base_asset = deposit_denom (w_st w) Ask /\ quote_asset = deposit_denom (w_st w) Bid)) as [[-> ->]|]; [left; auto|discriminate].
    + destruct (bool_decide_reflect (quote_asset = base_asset)) as [->|]; cbn [negb]; [reflexivity|]. cbn [rensure rbind]. rewrite Eload. cbn [rbind].
      rewrite (direction_error _ _ _ _ _ _ Hg Eob Es). reflexivity.
  - exact (quote_says w G Q ob token_in out_denom fee Hrd Eob (Hty _ _ _ (or_introl eq_refl))).
  - exact (quote_says w G Q ob token_in out_denom fee Hrd Eob (Hty _ _ _ (or_intror eq_refl))).
  - unfold total_pool_liquidity. rewrite Eload. cbn [rbind]. rewrite !(total_liquidity _ _ _ Hi Hr), !floor_scale. unfold to_u128.
    cbn [abs ma_orders]. rewrite !all_open_lives by (apply (entries_nonneg _ _ _ Hr)). change (2 ^ 128 - 1) with U128_MAX.
    destruct (open_dir Q Bid <=? U128_MAX), (open_dir Q Ask <=? U128_MAX); cbn [andb rbind says rmap]; try reflexivity. eexists. reflexivity.
  - unfold orderbook_state. rewrite Eload. eexists. reflexivity.
  - set (V l := checks (map (fun t => (used t, EInvalidTickId t)) l) Accepted).
    assert (HT : says (V ids) (ticks_by_id (w_st w) ids)).
    { clear Hty. unfold V. induction ids as [|t ids IH]; cbn [map checks ticks_by_id]; [eexists; reflexivity|]. destruct (used t) eqn:Eu.
      - destruct (proj1 (Hus t) Eu) as [ts ->]. cbn [ok_or rbind]. destruct (checks _ _); cbn [says] in IH |- *; [destruct IH as [x ->]; eexists; reflexivity|rewrite IH; reflexivity..].
      - rewrite (Hun t Eu). reflexivity. }
    fold (V ids). destruct (V ids); cbn [says] in *; [destruct HT as [x ->]; eexists; reflexivity|rewrite HT; reflexivity..].
  - unfold denoms. rewrite Eload. eexists. reflexivity.
  - set (V l := checks (map (fun t => (used t, EInvalidTickId t)) l) Accepted).
    assert (HT : says (V ids) (ticks_unrealized_cancels_by_id (w_st w) ids)).
    { clear Hty. unfold V. induction ids as [|t ids IH]; cbn [map checks ticks_unrealized_cancels_by_id]; [eexists; reflexivity|]. destruct (used t) eqn:Eu.
      - destruct (proj1 (Hus t) Eu) as [ts Ets]. rewrite Ets. cbn [ok_or rbind].
        destruct (proj2 (unrealized_by_id (w_st w) G [t] Hi)) as (x & E1). { intros t' Ht'. apply elem_of_list_singleton in Ht' as ->. eauto. }
        cbn [ticks_unrealized_cancels_by_id] in E1. rewrite Ets in E1. cbn [ok_or rbind] in E1. destruct (get_unrealized_cancels (w_st w) t ts) as [u|er| |]; try discriminate. cbn [rbind].
        destruct (checks _ _); cbn [says] in IH |- *; [destruct IH as [y ->]; eexists; reflexivity|rewrite IH; reflexivity..].
      - rewrite (Hun t Eu). reflexivity. }
    fold (V ids). destruct (V ids); cbn [says] in *; [destruct HT as [x ->]; eexists; reflexivity|rewrite HT; reflexivity..].
Qed.
Print Assumptions C68_queries.

(** Setting up a new book. *)
Theorem C68_new_book : forall e quote base, says (new_verdict e quote base) (snd (instantiate e quote base st_empty)).
Proof.
  intros e quote base. unfold new_verdict, instantiate, create_orderbook, set_maker_fee, set_maker_fee_recipient, addr_validate, denom_ok, on_some,
    OSMOSIS_GOV_ADDR, CIRCUIT_BREAKER_SUBDAO_ADDR, DEFAULT_MAKER_FEE_RECIPIENT, mbindM, mlift, mmod, mensure, mret, rensure. cbn [checks].
  destruct (e_addr_valid e _); [|reflexivity]. destruct (e_addr_valid e _); [|reflexivity].
  destruct (negb (bool_decide (quote = base))); [|reflexivity].
  destruct (e_supply e quote) as [x|]; [|reflexivity]. destruct (negb (x =? 0)); [|reflexivity].
  destruct (e_supply e base) as [y|]; [|reflexivity]. destruct (negb (y =? 0)); [|reflexivity].
  change (DEFAULT_MAKER_FEE <=? MAX_MAKER_FEE_PERCENTAGE) with true. cbn iota.
  destruct (e_addr_valid e _); [eexists; reflexivity|reflexivity].
Qed.
Print Assumptions C68_new_book.

(** Every one of the errors does occur. *)
Definition hist_why : list (env * call) :=
  [ place "a" (-1500000) Ask (2 ^ 128 - 1) None; place "b" (-1500000) Ask (2 ^ 128 - 1) None; buy "t" 850;
    place "c" (-2000000) Bid 500 None ].
Definition hist_dust : list (env * call) := [ place "c" 182402823 Bid 1 None ].
Definition picky : env := mkEnv 7 (fun a => negb (bool_decide (a = "bad"))) (fun _ => Some 1) (fun _ => true).
Definition gov : string := "osmo10d07y265gmmuvt4z0w9aw880jnsr700jjeq4qp".
Definition reason (w : world) (c : call) : option error := match snd (call_run picky c (w_st w)) with Err er => Some er | _ => None end.
Definition exec (sender : string) (m : exec_msg) : call := CExec (mkInfo sender []) m.
Definition swap (sender din : string) (a : Z) (dout : string) (mn fee : Z) : call := CSudo (SwapExactAmountIn sender (mkCoin din a) dout mn fee).
Example C68_case :
  start w_start /\ history w_start hist_why /\ short hist_why /\ run_out w_start hist_why = [true; true; true; true] /\
  history w_start hist_dust /\ short hist_dust /\ run_out w_start hist_dust = [true] /\
  map (reason (run w_start hist_why))
    [ CExec (mkInfo "x" [mkCoin "quote" 5]) (PlaceLimit 5 Bid 5 None);
      CExec (mkInfo "x" [mkCoin "quote" 5]) (PlaceLimit 182402824 Bid 5 None);
      CExec (mkInfo "x" [mkCoin "quote" 5]) (PlaceLimit 5 Bid 0 None);
      CExec (mkInfo "x" [mkCoin "quote" 5]) (PlaceLimit 5 Bid 5 (Some (10 ^ 16 + 1)));
      CExec (mkInfo "x" [mkCoin "base" 5]) (PlaceLimit 5 Bid 5 None);
      CExec (mkInfo "x" []) (PlaceLimit 5 Bid 5 None);
      CExec (mkInfo "x" [mkCoin "quote" 5; mkCoin "base" 5]) (PlaceLimit 5 Bid 5 None);
      CExec (mkInfo "x" [mkCoin "quote" 4]) (PlaceLimit 5 Bid 5 None);
      CExec (mkInfo "a" [mkCoin "quote" 4]) (CancelLimit (-1500000) 0);
      exec "a" (CancelLimit (-1500000) 7); exec "b" (CancelLimit (-1500000) 0); exec "a" (CancelLimit (-1500000) 0); exec "b" (CancelLimit (-1500000) 1);
      exec "x" (ClaimLimit 3 0); exec "x" (ClaimLimit (-1500000) 3); exec "x" (ClaimLimit (-1500000) 1); exec "x" (ClaimLimit (-1500000) 0);
      exec "x" (BatchClaim (repeat (3, 3) 101)); exec "x" (BatchClaim (repeat (3, 3) 100));
      swap "t" "quote" 5 "base" 0 1; swap "t" "quote" 5 "quote" 0 0; swap "t" "quote" 5 "atom" 0 0; swap "bad" "quote" 5 "base" 0 0; swap "t" "quote" 0 "base" 0 0;
      swap "t" "quote" (2 ^ 128 - 1) "base" 0 0; swap "t" "base" 700 "quote" 0 0; swap "t" "quote" 85 "base" 101 0; swap "t" "quote" 85 "base" 100 0;
      CSudo (SwapToTick "t" (mkCoin "base" 5) "quote" 0 0 (-1000000)); CSudo (SwapToTick "t" (mkCoin "base" 5) "quote" 0 0 (-2000000));
      exec "x" (AuthMsg (SetActive false)); exec gov (AuthMsg (SetMakerFee (5 * 10 ^ 16 + 1))); exec gov (AuthMsg (SetMakerFeeRecipient "bad")); exec gov (AuthMsg (TransferAdmin "bad")) ]
  = [ None; Some (EInvalidTickId 182402824); Some (EInvalidQuantity 0); Some (EInvalidClaimBounty (Some (10 ^ 16 + 1)));
      Some (EPayment (MissingDenom "quote")); Some (EPayment NoFunds); Some (EPayment MultipleDenoms); Some (EInsufficientFunds 4 5);
      Some (EPayment NonPayable); Some (EOrderNotFound (-1500000) 7); Some EUnauthorized; Some ECancelFilledOrder; None;
      Some (EInvalidTickId 3); Some (EOrderNotFound (-1500000) 3); Some EZeroClaim; None;
      Some (EBatchClaimLimitExceeded 100); None;
      Some (EInvalidSwap (WrongFee 0 1)); Some (EInvalidSwap SameDenoms); Some (EInvalidPair "quote" "atom"); Some EStd; Some (EInvalidSwap ZeroInput);
      Some EConversion; Some EInsufficientLiquidity; Some (EInvalidSwap (BelowMin 101 100)); None;
      Some (EInvalidTickId (-1000000)); None;
      Some EUnauthorized; Some EInvalidMakerFee; Some EInvalidMakerFeeRecipient; Some EStd ] /\
  reason (run w_start hist_dust) (swap "t" "base" 1 "quote" 0 0) = Some (EInvalidSwap ZeroStepInput) /\
  map (fun q => match query (w_st (run w_start hist_why)) q with Err er => Some er | _ => None end)
    [ QSpotPrice "quote" "atom"; QTicksById [-2000000; 3]; QTicksById [-2000000]; QCalcOutAmtGivenIn (mkCoin "quote" 5) "base" 1; QCalcOutAmtGivenIn (mkCoin "quote" 5) "base" 0 ]
  = [ Some (EInvalidPair "atom" "quote"); Some (EInvalidTickId 3); None; Some (EInvalidSwap (WrongFee 0 1)); None ] /\
  query (w_st (run w_start hist_why)) QGetTotalPoolLiquidity = Panic /\
  reason (run w_start (hist_why ++ [(picky, exec gov (AuthMsg (SetActive false)))])) (exec "x" (ClaimLimit (-1500000) 0)) = Some EInactive.
Proof.
  split; [exact start_ok|]. split; [hist|]. split; [vm_compute; discriminate|]. split; [vm_compute; reflexivity|].
  split; [hist|]. split; [vm_compute; discriminate|]. split; [vm_compute; reflexivity|].
  do 4 (split; [vm_compute; reflexivity|]). vm_compute; reflexivity.
Qed.
