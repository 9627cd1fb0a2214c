(** * Property C78: a side of the book nobody adds to only gets dearer, up to rounding. *)
From Verif Require Import Base Dec Types State TickMath Sumtree Tick Order Auth Contract Query World SpecMath TickMathProofs
  TreeDefs Exec SumtreeProofs SumtreeRebalance SumtreeInsert PrefixSum SumtreeRoot SumtreeFail Ghost Inv StepPlace StepCancel StepClaim
  SwapPlan StepSwap Trans Spec Reach Refine RefineStep Reserve Solvency Books SpecProps PropBase Tests PropOrders PropClaims PropBatch PropSwap PropQuote PropAdmin PropQuery PlanCurve PropCurve
  SpecAdmin SpecBank PropBank SpecMachine MachineBase MachineSwap PropMachine PropDepth SpecBuy PropBuy SpecCover PropCover RangeProofs PropDeep SpecShrink.

Lemma open_at_map f Q t d : (forall e, e ∈ Q -> en_tick (f e) = en_tick e /\ en_dir (f e) = en_dir e /\ en_open (f e) <= en_open e) ->
  open_at (map f Q) t d <= open_at Q t d.
Proof.
  induction Q as [|a Q IH]; intros H; [cbn; lia|]. specialize (IH ltac:(intros; apply H; constructor; assumption)).
  destruct (H a ltac:(constructor)) as (A1 & A2 & A3). unfold open_at, ideal_sum in *. cbn [map foldr]. rewrite A1, A2. destruct (bool_decide _); lia.
Qed.
Lemma open_at_app Q a t d : open_at (Q ++ [a]) t d = open_at Q t d + open_at [a] t d.
Proof. unfold open_at, ideal_sum. induction Q as [|b Q IH]; cbn [app foldr]; [cbn; lia|]. rewrite IH. cbn. lia. Qed.
Lemma claims_open l : forall Q t d, open_at (foldl (fun Q ev => ideal_claim (ce_tick ev) (ce_id ev) Q) Q l) t d <= open_at Q t d.
Proof.
  induction l as [|ev l IH]; intros Q t d; cbn [foldl]; [lia|]. etransitivity; [apply IH|]. apply open_at_map. intros e _. destruct (en_is _ _ _); cbn; (split; [reflexivity|split; [reflexivity|lia]]).
Qed.
Lemma shrink_step w0 h e c side : start w0 -> history w0 (h ++ [(e, c)]) -> no_placements side [(e, c)] ->
  forall t, offered (w_st (run w0 (h ++ [(e, c)]))) side t <= offered (w_st (run w0 h)) side t.
Proof.
  intros Hs Hh Hno t. pose proof Hh as Hh0. apply history_app in Hh as [Hh1 Hc]. inversion Hc as [|x l Hok _]; subst. cbn [snd] in Hok.
  destruct (C08_fifo_state w0 h Hs Hh1) as (_ & _ & _ & Hnn & Hl1). destruct (C08_fifo_state w0 _ Hs Hh0) as (_ & _ & _ & _ & Hl2).
  unfold offered. inversion Hno as [|x l Hn _]; subst. cbn [snd] in Hn.
  assert (Hre : reachable (run w0 h)) by (apply start_reachable; assumption).
  rewrite run_last in *. rewrite ideal_run_last in Hl2. set (w := run w0 h) in *. set (Q := ideal_run w0 [] h) in *.
  destruct (step e w c) as [w' [r|]] eqn:E; [|cbn [fst]; rewrite (step_failed _ _ _ _ E); lia]. cbn [fst] in *.
  assert (Hsw : forall sender tin out mn fee target, c = swap_call sender tin out mn fee target -> tick_liquidity (w_st w') t side <= tick_liquidity (w_st w) t side).
  { intros sender tin out mn fee target ->. destruct (swap_done _ _ _ _ _ _ _ _ _ _ Hre Hok E) as (m & G & l & fs & rest & pr & H).
    destruct (decide (side = m)) as [->|Nm].
    - rewrite (sw_liq H), (sw_liq' H). pose proof (pg_fills _ _ _ _ _ _ _ _ (sw_good _ _ _ _ _ _ _ _ _ _ _ _ _ _ _ _ H)) as Hf. clear - Hf.
      enough (0 <= taken fs t) by lia. induction fs as [|f fs IH]; cbn; [lia|]. apply Forall_cons in Hf as [F1 Hf]. specialize (IH Hf). destruct F1 as (F1 & _). destruct (_ =? _); lia.
    - rewrite (tick_liquidity_open _ _ _ _ (sw_inv' _ _ _ _ _ _ _ _ _ _ _ _ _ _ _ _ H)), (tick_liquidity_open _ _ _ _ (sw_inv _ _ _ _ _ _ _ _ _ _ _ _ _ _ _ _ H)), gfills_ne by assumption. lia. }
  assert (Hmap : forall Q', ideal_step e w c Q = Q' -> open_at Q' t side <= open_at Q t side -> tick_liquidity (w_st w') t side <= tick_liquidity (w_st w) t side).
  { intros Q' EQ K. rewrite Hl1, Hl2, EQ. exact K. }
  destruct c as [i msg|msg| |c]; cbn [snd] in Hn.
  - destruct msg as [t0 d q b|t0 id|t0 id|l|a]; (eapply Hmap; [unfold ideal_step; rewrite E; reflexivity|]).
    + unfold ideal_place. rewrite open_at_app. unfold open_at at 2. cbn. rewrite bool_decide_false by (intros [_ K]; congruence). lia.
    + apply open_at_map. intros x Hx. destruct (Hnn x Hx). destruct (en_is _ _ _); cbn; (split; [reflexivity|split; [reflexivity|lia]]).
    + apply open_at_map. intros x Hx. destruct (en_is _ _ _); cbn; (split; [reflexivity|split; [reflexivity|lia]]).
    + apply claims_open.
    + lia.
  - destruct msg; try exact (Hsw _ _ _ _ _ None eq_refl); try exact (Hsw _ _ _ _ _ (Some _) eq_refl);
      (eapply Hmap; [unfold ideal_step; rewrite E; reflexivity|lia]).
  - eapply Hmap; [unfold ideal_step; rewrite E; reflexivity|lia].
  - eapply Hmap; [unfold ideal_step; rewrite E; reflexivity|lia].
Qed.
(** While nobody places orders on a side, what is on offer there only falls, tick by tick. *)
Theorem C78_shrinks :
  forall w0 h h2 side, start w0 -> history w0 (h ++ h2) -> no_placements side h2 ->
  forall t, offered (w_st (run w0 (h ++ h2))) side t <= offered (w_st (run w0 h)) side t.
Proof.
  intros w0 h h2 side Hs. revert h. induction h2 as [|[e c] h2 IH]; intros h Hh Hno t; [rewrite app_nil_r; lia|].
  assert (Ea : h ++ (e, c) :: h2 = (h ++ [(e, c)]) ++ h2) by (rewrite <- app_assoc; reflexivity). rewrite Ea in *.
  apply Forall_cons in Hno as [Hn Hno]. etransitivity; [apply IH; assumption|].
  apply shrink_step; [assumption|apply history_app in Hh; tauto|]. constructor; [exact Hn|constructor].
Qed.
(** So no quote gets better while others trade against the side or withdraw from it, up to rounding: whatever an input is quoted
    later, [slack] units more are quoted no less now. *)
Theorem C78_quotes :
  forall w0 h h2 side T ticks q q' x x', start w0 -> history w0 (h ++ h2) -> short (h ++ h2) -> no_placements side h2 ->
  let s := w_st (run w0 h) in let s' := w_st (run w0 (h ++ h2)) in
  let quote s q := calc_out_amount_given_in s (mkCoin (deposit_denom s (opposite side)) q) (deposit_denom s side) 0 in
  ladder s side T ticks -> 0 < x' <= sum_ticks (offered s side) ticks ->
  0 <= q -> q + slack side (length ticks) <= q' <= U128_MAX ->
  quote s' q = Ok (mkCoin (deposit_denom s' side) x') -> quote s q' = Ok (mkCoin (deposit_denom s side) x) -> x' <= x.
Proof.
  intros w0 h h2 side T ticks q q' x x' Hs Hh Hsh Hno s s' quote Ht Hx Hq Hq' E E'. pose proof Hh as Hh0. apply history_app in Hh0 as [Hh1 _].
  exact (C62_quote_either_side w0 (h ++ h2) w0 h side T ticks q q' x' x Hs Hh Hsh Hs Hh1 (short_app _ _ Hsh) (C78_shrinks w0 h h2 side Hs Hh Hno) Ht Hx Hq Hq' E E').
Qed.
(** And the price of an amount still on offer at both times does not fall by more than [slack] units. *)
Theorem C78_prices :
  forall w0 h h2 side T ticks T' ticks' x, start w0 -> history w0 (h ++ h2) -> short (h ++ h2) -> no_placements side h2 ->
  let s := w_st (run w0 h) in let s' := w_st (run w0 (h ++ h2)) in
  ladder s side T ticks -> x <= sum_ticks (offered s side) ticks ->
  ladder s' side T' ticks' -> 0 < x <= sum_ticks (offered s' side) ticks' ->
  price_of side (offered s side) ticks x <= price_of side (offered s' side) ticks' x + slack side (length ticks).
Proof.
  intros w0 h h2 side T ticks T' ticks' x Hs Hh Hsh Hno s s' Ht Hx Ht' Hx'. pose proof Hh as Hh0. apply history_app in Hh0 as [Hh1 _].
  exact (C62_price_either_side w0 (h ++ h2) w0 h side T' ticks' T ticks x Hs Hh Hsh Hs Hh1 (short_app _ _ Hsh) (C78_shrinks w0 h h2 side Hs Hh Hno) Ht' Hx' Ht Hx).
Qed.
(** Exactly it does not hold, so the check of the end-to-end tests (src/tests/e2e/utils.rs:295-319, decrementing_market_order_output) is not
    an invariant: with asks of 1 at 1.5 and 10 at 1.6, five quote units are quoted 2; after somebody has bought the first one, they are quoted 3.
    For bids of 1 at 0.75 and 10 at 0.6 likewise. *)
Definition eaten (side : dir) : list (env * call) := match side with Ask => [buy "x" 2] | Bid => [sell "x" 2] end.
Theorem C78_exact_refuted :
  forall side, ~ (forall w0 h h2 q x x', start w0 -> history w0 (h ++ h2) -> short (h ++ h2) -> no_placements side h2 ->
     let s := w_st (run w0 h) in let s' := w_st (run w0 (h ++ h2)) in
     let quote s q := calc_out_amount_given_in s (mkCoin (deposit_denom s (opposite side)) q) (deposit_denom s side) 0 in
     quote s' q = Ok (mkCoin (deposit_denom s' side) x') -> quote s q = Ok (mkCoin (deposit_denom s side) x) -> x' <= x).
Proof.
  intros side H. enough (3 <= 2) by lia.
  refine (H w_start (match side with Ask => hist_more | Bid => hist_bid_more end) (eaten side) 5 2 3 start_ok _ _ _ _ _); destruct side; try (hist); try (vm_compute; discriminate); try (vm_compute; reflexivity).
Qed.
(** The hypotheses of C78_quotes and C78_prices are met here: bids of 1 at 0.75 and 10 at 0.6, two base units are sold, an ask is placed,
    the second bid's owner tries to cancel; 5 units are quoted 3 afterwards, 5 + 2 were quoted 4 before. *)
Definition hist_after : list (env * call) := [sell "x" 2; place "c" 300000 Ask 8 None; sell "y" 3; cancel "a" (-4000000) 0].
Example C78_case :
  let s := w_st (run w_start hist_bid_more) in let s' := w_st (run w_start (hist_bid_more ++ hist_after)) in
  let quote s q := calc_out_amount_given_in s (mkCoin (deposit_denom s Ask) q) (deposit_denom s Bid) 0 in
  start w_start /\ history w_start (hist_bid_more ++ hist_after) /\ short (hist_bid_more ++ hist_after) /\ no_placements Bid hist_after /\
  run_out (run w_start hist_bid_more) hist_after = [true; true; true; false] /\
  ladder s Bid (-4000000) [-2500000; -4000000] /\ sum_ticks (offered s Bid) [-2500000; -4000000] = 11 /\
  map (fun t => tick_liquidity s' t Bid) [-2500000; -4000000] = [0; 9] /\
  quote s' 5 = Ok (mkCoin "quote" 3) /\ quote s 5 = Ok (mkCoin "quote" 2) /\ quote s 7 = Ok (mkCoin "quote" 4).
Proof.
  cbv zeta. split; [exact start_ok|]. split; [hist|]. split; [vm_compute; discriminate|].
  split; [repeat constructor; discriminate|]. split; [vm_compute; reflexivity|]. split; [exact bid_ladder|]. split; [vm_compute; reflexivity|].
  split; [vm_compute; reflexivity|]. split; [vm_compute; reflexivity|]. split; vm_compute; reflexivity.
Qed.
