(** * Properties C44 and C45: output as a function of input. *)
From Verif Require Import Base Dec Types State TickMath Sumtree Tick Order Auth Contract Query World SpecMath TickMathProofs
  TreeDefs Exec SumtreeProofs SumtreeRebalance SumtreeInsert PrefixSum SumtreeRoot SumtreeFail Ghost Inv StepPlace StepCancel StepClaim
  SwapPlan StepSwap Trans Spec Reach Refine RefineStep Reserve Solvency Books SpecProps PropBase Tests PropOrders PropSwap PropQuote PropAdmin PlanCurve.

(** The plan of a market order, in terms of liquidity only. *)
Definition offers (s : storage) (m : dir) (target : option Z) (q : Z) (l : list Z) (fs : list (Z * Z * Z)) : Prop :=
  ordered (opposite m) l /\ (forall t, t ∈ l -> valid_tick t) /\ (forall t, tick_liquidity s t m <> 0 -> (t ∈ l <-> within_target m target t)) /\
  (forall t, 0 <= tick_liquidity s t m) /\
  exists r pr, plan (opposite m) (fun t => tick_liquidity s t m) l q DEC = Some (fs, r, pr).

Lemma offers_pre s G ob m target q l fs r pr :
  inv s G -> s_orderbook s = Some ob -> swap_pre s G ob (opposite m) (swap_bound (opposite m) target) q l fs r pr -> offers s m target q l fs.
Proof.
  intros Hi Eob [P1 P2 P3 P4 P5]. rewrite opp_opp in *. destruct (plan_ctx _ _ _ _ _ _ Hi P3) as (C1 & C2 & C3 & C4). rewrite opp_opp in *.
  assert (Hl : forall t, tick_liquidity s t m = opens G m t) by (intros; apply tick_liquidity_open; assumption).
  split; [assumption|]. split; [intros t Ht; apply C2; assumption|]. split; [|split; [intros t; rewrite Hl; apply C3|]].
  - intros t Hne. rewrite Hl in Hne. specialize (C3 t) as Hpos. rewrite C4.
    assert (Es : is_Some (s_ticks s !! t)).
    { destruct (s_ticks s !! t) eqn:E; [eauto|]. unfold opens in Hne. rewrite (i_none _ _ Hi t m E) in Hne. destruct Hne. reflexivity. }
    destruct (Es) as [ts Et]. destruct (i_some _ _ Hi _ _ Et) as [[V1 V2] _]. destruct (i_book _ _ Hi) as (ob' & Eob' & Hbk). rewrite Eob in Eob'. injection Eob' as <-.
    pose proof DEC_pos. assert (Htal : 0 < tv_tal (get_values ts m)).
    { rewrite (inv_tick_some _ _ _ _ Hi Et), get_ts_of. cbn. unfold opens in *. nia. }
    assert (Hnx : match m with Bid => t <= ob_next_bid ob | Ask => ob_next_ask ob <= t end).
    { destruct m; [apply (bo_bids _ _ Hbk _ _ Et Htal)|apply (bo_asks _ _ Hbk _ _ Et Htal)]. }
    unfold swap_range, within_target, swap_bound, unwrap_or. destruct m, target as [b|]; cbn [opposite]; split; intros K; repeat split; try exact Es; try exact I; lia || tauto.
  - exists r, pr. rewrite (plan_ext _ _ (opens G m)) by (intros; apply Hl). assumption.
Qed.
Lemma offers_swap e w sender tin out mn fee target w' r :
  reachable w -> call_ok (w_self w) (swap_call sender tin out mn fee target) = true ->
  step e w (swap_call sender tin out mn fee target) = (w', Done r) ->
  exists m l fs, out = deposit_denom (w_st w) m /\ 0 <= c_amount tin /\ offers (w_st w) m target (c_amount tin) l fs /\ r_data r = Some (sum_out fs) /\
    (forall t, tick_liquidity (w_st w') t m = tick_liquidity (w_st w) t m - taken fs t) /\ denoms_of (w_st w') = denoms_of (w_st w).
Proof.
  intros Hre Hok E. destruct (swap_done _ _ _ _ _ _ _ _ _ _ Hre Hok E) as (m & G & l & fs & rest & pr & H). exists m, l, fs.
  split; [apply H|]. split; [pose proof (sw_amt _ _ _ _ _ _ _ _ _ _ _ _ _ _ _ _ H); lia|]. split; [|split; [|split]].
  - destruct (sw_ob _ _ _ _ _ _ _ _ _ _ _ _ _ _ _ _ H) as (ob & Eob & Hm & _). eapply (offers_pre _ G ob m target _ l fs rest pr); [apply H|exact Eob|].
    split; try apply H; [pose proof (sw_amt _ _ _ _ _ _ _ _ _ _ _ _ _ _ _ _ H); lia|assumption|]. rewrite opp_opp. apply H.
  - rewrite (sw_resp _ _ _ _ _ _ _ _ _ _ _ _ _ _ _ _ H). reflexivity.
  - intros t. rewrite (sw_liq' H), (sw_liq H). reflexivity.
  - pose proof (denoms_step e w _ Hre Hok) as D. rewrite E in D. exact D.
Qed.
Lemma offers_quote w tin out answer :
  reachable w -> 0 <= c_amount tin <= U128_MAX -> calc_out_amount_given_in (w_st w) tin out 0 = Ok answer ->
  exists m l fs, out = deposit_denom (w_st w) m /\ c_denom answer = out /\ offers (w_st w) m None (c_amount tin) l fs /\ c_amount answer = sum_out fs.
Proof.
  intros Hre Hamt Hq. destruct (reachable_inv _ Hre) as (G & Hi).
  unfold calc_out_amount_given_in in Hq. cbn [ensure_swap_fee] in Hq. apply rbind_inv in Hq as (u & _ & Hq).
  apply rbind_inv in Hq as (ob & Eob & Hq). apply ok_or_inv in Eob. apply rbind_inv in Hq as (d & Hdir & Hq).
  apply rbind_inv in Hq as ([m denom] & Hint & Hq). cbn [fst snd] in Hq. injection Hq as <-.
  destruct (i_book _ _ Hi) as (ob' & Eob' & Hb). rewrite Eob in Eob'. injection Eob' as <-.
  destruct (direction_denom _ _ _ _ (bo_denoms _ _ Hb) Hdir) as [D1 D2].
  destruct (internal_inv _ _ _ _ _ _ _ _ Hi Eob Hamt Hint) as (l & fs & r & pr & Hp & Edn & Em).
  exists (opposite d), l, fs. split; [rewrite (den_eq _ _ _ Eob), <- opp_denom; assumption|]. split; [cbn; congruence|]. split.
  - eapply (offers_pre _ G ob (opposite d) None _ l fs r pr); [assumption|assumption|]. rewrite opp_opp. exact Hp.
  - rewrite Em. cbn. lia.
Qed.

Lemma deposit_inj w m m' : reachable w -> deposit_denom (w_st w) m = deposit_denom (w_st w) m' -> m = m'.
Proof.
  intros Hre E. destruct (reachable_inv _ Hre) as (G & Hi). destruct (i_book _ _ Hi) as (ob & Eob & Hb). pose proof (bo_denoms _ _ Hb).
  rewrite !(den_eq _ _ _ Eob) in E. destruct m, m'; cbn in E; congruence.
Qed.
Lemma offers_mono s m target q q' l l' fs fs' : 0 <= q <= q' -> offers s m target q l fs -> offers s m target q' l' fs' -> sum_out fs <= sum_out fs'.
Proof.
  intros Hq (A1 & A2 & A3 & A4 & r & pr & A5) (B1 & B2 & B3 & _ & r' & pr' & B5).
  rewrite (plan_same _ _ l' l) in B5 by (try assumption; intros t Ht; rewrite (A3 t Ht), (B3 t Ht); reflexivity).
  eapply plan_mono with (4 := Hq) (5 := A5) (6 := B5); auto.
Qed.
Lemma offers_split s s1 m target q1 q2 q l1 l2 l fs1 fs2 fs : 0 <= q1 -> 0 <= q2 -> q1 + q2 <= q ->
  offers s m target q1 l1 fs1 -> (forall t, tick_liquidity s1 t m = tick_liquidity s t m - taken fs1 t) -> offers s1 m target q2 l2 fs2 ->
  offers s m target q l fs -> sum_out fs1 + sum_out fs2 <= sum_out fs.
Proof.
  intros Hq1 Hq2 Hq (A1 & A2 & A3 & A4 & r1 & pr1 & A5) Hl (B1 & B2 & B3 & B4 & r2 & pr2 & B5) (C1 & C2 & C3 & C4 & r & pr & C5).
  assert (Ht0 : forall t, tick_liquidity s t m = 0 -> taken fs1 t = 0).
  { intros t Ht. pose proof (plan_spec _ _ _ _ _ _ _ _ A1 A2 A4 Hq1 A5) as Hg.
    pose proof (taken_in_range _ _ fs1 t (pg_fills _ _ _ _ _ _ _ _ Hg) (sublist_nodup _ _ (pg_ticks _ _ _ _ _ _ _ _ Hg) (ordered_nodup _ _ A1)) (A4 t)). lia. }
  rewrite (plan_same _ _ l l1) in C5 by (try assumption; intros t Ht; rewrite (A3 t Ht), (C3 t Ht); reflexivity).
  rewrite (plan_same _ _ l2 l1) in B5.
  2,3: assumption.
  2:{ intros t Ht. rewrite (B3 t Ht), (A3 t); [reflexivity|]. intros E. apply Ht. rewrite Hl, E, (Ht0 t E). reflexivity. }
  rewrite (plan_ext _ _ (fun t => tick_liquidity s t m - taken fs1 t)) in B5 by (intros; apply Hl).
  eapply (plan_split _ _ l1 q1 q2 q); [exact A1|exact A2|intros t _; apply A4|assumption|assumption|assumption|exact A5|exact B5|exact C5].
Qed.

(** C44: more input never buys less: quotes grow with the amount... *)
Theorem C44_quote_monotone :
  forall w denom q1 q2 out a1 a2, reachable w -> 0 <= q1 <= q2 -> q2 <= U128_MAX ->
  calc_out_amount_given_in (w_st w) (mkCoin denom q1) out 0 = Ok a1 ->
  calc_out_amount_given_in (w_st w) (mkCoin denom q2) out 0 = Ok a2 -> c_denom a1 = c_denom a2 /\ c_amount a1 <= c_amount a2.
Proof.
  intros w denom q1 q2 out a1 a2 Hre Hq Hm H1 H2.
  destruct (offers_quote w (mkCoin denom q1) out a1 Hre ltac:(cbn; lia) H1) as (m & l & fs & D & Da & O & ->).
  destruct (offers_quote w (mkCoin denom q2) out a2 Hre ltac:(cbn; lia) H2) as (m' & l' & fs' & D' & Da' & O' & ->).
  assert (m = m') as <- by (apply (deposit_inj w); [assumption|congruence]). split; [congruence|]. eapply offers_mono; [|exact O|exact O']. cbn. lia.
Qed.
Print Assumptions C44_quote_monotone.
(** ... and so do the outputs of two swaps with the same target made in the same state. *)
Theorem C44_swap_monotone :
  forall w denom q1 q2 out target e1 s1 mn1 w1 r1 x1 e2 s2 mn2 w2 r2 x2, reachable w -> q1 <= q2 ->
  let c1 := swap_call s1 (mkCoin denom q1) out mn1 0 target in let c2 := swap_call s2 (mkCoin denom q2) out mn2 0 target in
  call_ok (w_self w) c1 = true -> call_ok (w_self w) c2 = true ->
  step e1 w c1 = (w1, Done r1) -> step e2 w c2 = (w2, Done r2) -> r_data r1 = Some x1 -> r_data r2 = Some x2 -> x1 <= x2.
Proof.
  intros w denom q1 q2 out target e1 s1 mn1 w1 r1 x1 e2 s2 mn2 w2 r2 x2 Hre Hq c1 c2 K1 K2 E1 E2 D1 D2.
  destruct (offers_swap _ _ _ _ _ _ _ _ _ _ Hre K1 E1) as (m & l & fs & O1 & Q1 & O2 & O3 & _ & _).
  destruct (offers_swap _ _ _ _ _ _ _ _ _ _ Hre K2 E2) as (m' & l' & fs' & P1 & Q2 & P2 & P3 & _ & _). cbn [c_amount] in *.
  assert (m = m') as <- by (apply (deposit_inj w); [assumption|congruence]).
  rewrite O3 in D1. rewrite P3 in D2. injection D1 as <-. injection D2 as <-. eapply offers_mono; [|exact O2|exact P2]. lia.
Qed.
Print Assumptions C44_swap_monotone.

(** C45: splitting a swap never pays: two swaps in a row yield at most what one swap of the
    combined input yields. *)
Theorem C45_split_swaps :
  forall w denom q1 q2 out target e1 s1 mn1 w1 r1 x1 e2 s2 mn2 w2 r2 x2 e s mn w' r x, reachable w ->
  let c1 := swap_call s1 (mkCoin denom q1) out mn1 0 target in let c2 := swap_call s2 (mkCoin denom q2) out mn2 0 target in
  let c := swap_call s (mkCoin denom (q1 + q2)) out mn 0 target in
  call_ok (w_self w) c1 = true -> call_ok (w_self w) c2 = true -> call_ok (w_self w) c = true ->
  step e1 w c1 = (w1, Done r1) -> step e2 w1 c2 = (w2, Done r2) -> step e w c = (w', Done r) ->
  r_data r1 = Some x1 -> r_data r2 = Some x2 -> r_data r = Some x -> x1 + x2 <= x.
Proof.
  intros w denom q1 q2 out target e1 s1 mn1 w1 r1 x1 e2 s2 mn2 w2 r2 x2 e s mn w' r x Hre c1 c2 c K1 K2 K E1 E2 E D1 D2 D.
  assert (Hre1 : reachable w1) by (pose proof (step_reach e1 w c1 Hre K1) as X; rewrite E1 in X; exact X).
  assert (Es : w_self w1 = w_self w) by (pose proof (step_self e1 w c1) as X; rewrite E1 in X; exact X).
  rewrite <- Es in K2.
  destruct (offers_swap _ _ _ _ _ _ _ _ _ _ Hre K1 E1) as (m & l1 & fs1 & O1 & Q1 & O2 & O3 & O4 & O5).
  destruct (offers_swap _ _ _ _ _ _ _ _ _ _ Hre1 K2 E2) as (m2 & l2 & fs2 & P1 & Q2 & P2 & P3 & _ & _).
  destruct (offers_swap _ _ _ _ _ _ _ _ _ _ Hre K E) as (m3 & l3 & fs3 & R1 & Q3 & R2 & R3 & _ & _). cbn [c_amount] in *.
  assert (m = m3) as <- by (apply (deposit_inj w); [assumption|congruence]).
  assert (m = m2) as <-. { apply (deposit_inj w); [assumption|]. unfold denoms_of in O5. injection O5 as B1 B2. destruct m2; congruence. }
  rewrite O3 in D1. rewrite P3 in D2. rewrite R3 in D. injection D1 as <-. injection D2 as <-. injection D as <-.
  eapply (offers_split _ _ _ _ q1 q2 (q1 + q2)); [assumption|assumption|lia|exact O2|exact O4|exact P2|exact R2].
Qed.
Print Assumptions C45_split_swaps.
(** The same for quotes: what the book offers after a swap, plus what the swap got, is at most what
    the book had offered for the whole. *)
Theorem C45_split_quotes :
  forall w denom q1 q2 out e1 s1 mn1 w1 r1 x1 a2 a, reachable w -> 0 <= q2 -> q1 + q2 <= U128_MAX ->
  let c1 := swap_call s1 (mkCoin denom q1) out mn1 0 None in
  call_ok (w_self w) c1 = true -> step e1 w c1 = (w1, Done r1) -> r_data r1 = Some x1 ->
  calc_out_amount_given_in (w_st w1) (mkCoin denom q2) out 0 = Ok a2 ->
  calc_out_amount_given_in (w_st w) (mkCoin denom (q1 + q2)) out 0 = Ok a -> x1 + c_amount a2 <= c_amount a.
Proof.
  intros w denom q1 q2 out e1 s1 mn1 w1 r1 x1 a2 a Hre Hq2 Hm c1 K1 E1 D1 H2 H.
  assert (Hre1 : reachable w1) by (pose proof (step_reach e1 w c1 Hre K1) as X; rewrite E1 in X; exact X).
  destruct (offers_swap _ _ _ _ _ _ _ _ _ _ Hre K1 E1) as (m & l1 & fs1 & O1 & Q1 & O2 & O3 & O4 & O5). cbn [c_amount] in *.
  destruct (offers_quote w1 (mkCoin denom q2) out a2 Hre1 ltac:(cbn; lia) H2) as (m2 & l2 & fs2 & P1 & _ & P2 & ->).
  destruct (offers_quote w (mkCoin denom (q1 + q2)) out a Hre ltac:(cbn; lia) H) as (m3 & l3 & fs3 & R1 & _ & R2 & ->). cbn [c_amount] in *.
  assert (m = m3) as <- by (apply (deposit_inj w); [assumption|congruence]).
  assert (m = m2) as <-. { apply (deposit_inj w); [assumption|]. unfold denoms_of in O5. injection O5 as B1 B2. destruct m2; congruence. }
  rewrite O3 in D1. injection D1 as <-.
  eapply (offers_split _ _ _ _ q1 q2 (q1 + q2)); [assumption|assumption|lia|exact O2|exact O4|exact P2|exact R2].
Qed.
Print Assumptions C45_split_quotes.

(** Three ticks of asks (PropSwap.w_asks): quotes for 10..60 units, and a split whose parts round worse
    than the whole: 3 + 3 units at price 2 buy 1 + 1, 6 units buy 3. *)
Definition w_two : world := run w_start [place "a" 1000000 Ask 50 None].
Example C44_case :
  reachable w_asks /\
  map (fun q => match calc_out_amount_given_in (w_st w_asks) (mkCoin "quote" q) "base" 0 with Ok a => c_amount a | _ => -1 end) [0; 1; 10; 11; 12; 22; 30; 60; 100] =
  [-1; 1; 10; 10; 11; 20; 27; 52; -1].
Proof. split; [apply asks_reachable|vm_compute; reflexivity]. Qed.
Example C45_case :
  let c q := swap_call "z" (mkCoin "quote" q) "base" 0 0 None in let w1 := fst (step tenv w_two (c 3)) in
  reachable w_two /\ forallb (fun q => call_ok (w_self w_two) (c q)) [3; 6] = true /\
  done tenv w_two (c 3) = true /\ done tenv w1 (c 3) = true /\ done tenv w_two (c 6) = true /\
  (r_data (resp_of tenv w_two (c 3)), r_data (resp_of tenv w1 (c 3)), r_data (resp_of tenv w_two (c 6))) = (Some 1, Some 1, Some 3).
Proof.
  split; [apply start_reachable; [apply start_ok|hist]|]. repeat split; vm_compute; reflexivity.
Qed.
