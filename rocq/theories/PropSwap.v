(** * Properties C14, C15, C17, C18, C40: what a swap does. *)
From Verif Require Import Base Dec Types State TickMath Sumtree Tick Order Auth Contract Query World SpecMath TickMathProofs
  TreeDefs Exec SumtreeProofs SumtreeRebalance SumtreeInsert PrefixSum SumtreeRoot SumtreeFail Ghost Inv StepPlace StepCancel StepClaim
  SwapPlan StepSwap Trans Spec Reach Refine RefineStep Reserve Solvency Books SpecProps PropBase Tests PropOrders.

Definition fill_of (f : Z * Z * Z) : fill := mkFill (f_tick f) (f_out f) (f_in f).
Lemma fills_out_of fs : fills_out (map fill_of fs) = sum_out fs.
Proof. induction fs as [|f fs IH]; [reflexivity|]. cbn. fold (fills_out (map fill_of fs)). rewrite IH. reflexivity. Qed.
Lemma fills_in_of fs : fills_in (map fill_of fs) = sum_in fs.
Proof. induction fs as [|f fs IH]; [reflexivity|]. cbn. fold (fills_in (map fill_of fs)). rewrite IH. reflexivity. Qed.
Lemma fills_ticks_of fs : map fl_tick (map fill_of fs) = map f_tick fs.
Proof. rewrite map_map. reflexivity. Qed.
Lemma buys_gross m t q : buys m t q = gross (opposite m) q (tick_price t).
Proof. destruct m; reflexivity. Qed.
Lemma swap_call_args sender tin out mn fee target : swap_args (swap_call sender tin out mn fee target) = Some (sender, tin, out, mn, fee, target).
Proof. destruct target; reflexivity. Qed.
Lemma taken_elem fs f : NoDup (map f_tick fs) -> f ∈ fs -> taken fs (f_tick f) = f_out f.
Proof.
  intros Hn Hin. induction fs as [|g fs IH]; [inversion Hin|]. cbn [map] in Hn. apply NoDup_cons in Hn as [Hg Hn].
  cbn [taken]. apply elem_of_cons in Hin as [->|Hin].
  - rewrite Z.eqb_refl, taken_notin by assumption. lia.
  - rewrite (IH Hn Hin). destruct (Z.eqb_spec (f_tick g) (f_tick f)) as [E|]; [|lia]. exfalso. apply Hg. rewrite E.
    apply elem_of_list_fmap. eauto.
Qed.
Lemma side_values_of s G t d : inv s G -> side_values s t d = tv_of (G t d).
Proof.
  intros Hi. unfold side_values. destruct (s_ticks s !! t) as [ts|] eqn:E.
  - rewrite (inv_tick_some _ _ _ _ Hi E). apply get_ts_of.
  - rewrite (i_none _ _ Hi t d E). reflexivity.
Qed.

(** Everything known about a completed swap. *)
Record swapped (e : env) (w : world) (sender : string) (tin : coin) (outd : string) (mn fee : Z) (target : option Z) (w' : world) (r : response)
               (m : dir) (G : ghost) (l : list Z) (fs : list (Z * Z * Z)) (rest pr : Z) : Prop := {
  sw_inv : inv (w_st w) G;
  sw_inv' : inv (w_st w') (gfills G m fs);
  sw_active : active (w_st w) = true;
  sw_fee : fee = 0;
  sw_addr : e_addr_valid e sender = true;
  sw_in : c_denom tin = proceeds_denom (w_st w) m;
  sw_out : outd = deposit_denom (w_st w) m;
  sw_amt : 0 < c_amount tin <= U128_MAX;
  sw_min : mn <= sum_out fs;
  sw_resp : r = swap_resp sender tin outd mn (sum_out fs) rest outd;
  sw_ob : exists ob, s_orderbook (w_st w) = Some ob /\ market_ticks ob (opposite m) (swap_bound (opposite m) target) (s_ticks (w_st w)) = Ok l /\
            w_st w' = swap_st (w_st w) G ob m fs;
  sw_valid : valid_tick (swap_bound (opposite m) target);
  sw_left : gross (opposite m) rest pr = 0 \/ partial_ok (opposite m) (swap_bound (opposite m) target) = true;
  sw_good : plan_good (opposite m) (opens G m) l (c_amount tin) DEC fs rest pr;
  sw_plan : plan (opposite m) (opens G m) l (c_amount tin) DEC = Some (fs, rest, pr);
  sw_ord : ordered (opposite m) l;
  sw_vt : forall t, t ∈ l -> s_ticks (w_st w) !! t = Some (ts_of G t) /\ valid_tick t;
  sw_sends : sends e (w_self w) (credits (w_bal w) [tin]) (r_msgs r) = Some (w_bal w');
  sw_self : w_self w' = w_self w
}.
Lemma swap_done e w sender tin outd mn fee target w' r :
  reachable w -> call_ok (w_self w) (swap_call sender tin outd mn fee target) = true ->
  step e w (swap_call sender tin outd mn fee target) = (w', Done r) ->
  exists m G l fs rest pr, swapped e w sender tin outd mn fee target w' r m G l fs rest pr.
Proof.
  intros Hre Hok E. destruct (reach_good _ Hre) as (w0 & h & G & _ & _ & _ & [Hi _ _]).
  destruct (step_done _ _ _ _ _ _ Hi Hok E) as (G' & Ht & Hi' & Eself & Hsend).
  destruct (trans_swap _ _ _ _ _ _ _ _ _ _ _ _ _ (swap_call_args _ _ _ _ _ _) Ht) as (d & ob & l & fs & rest & pr & Ha & Eob & Ef & Hav & Hdir & Hp & Hmn & -> & Es & ->).
  destruct (i_book _ _ Hi) as (ob' & Eob' & Hbk). rewrite Eob in Eob'. injection Eob' as <-.
  destruct (direction_denom _ _ _ _ (bo_denoms _ _ Hbk) Hdir) as [D1 D2].
  assert (Hcoin : 0 <= c_amount tin <= U128_MAX).
  { pose proof (call_funds_typed _ _ Hok) as Hty. rewrite (swap_funds _ _ _ _ _ _ _ (swap_call_args _ _ _ _ _ _)) in Hty.
    cbn [forallb] in Hty. apply andb_prop in Hty as [Hty _]. unfold coin_typed, u128 in Hty. apply andb_prop in Hty as [T1 T2]. apply Z.leb_le in T1, T2. auto. }
  destruct Hp as [P1 P2 P3 P4 P5]. destruct (plan_good_inv _ _ _ _ _ _ _ _ _ _ Hi (proj1 Hcoin) P3 P4) as [Hg _].
  destruct (plan_ctx _ _ _ _ _ _ Hi P3) as (C1 & C2 & _).
  exists (opposite d), G, l, fs, rest, pr.
  split; rewrite ?opp_opp; try assumption; try reflexivity.
  - apply active_ne. assumption.
  - unfold proceeds_denom. rewrite opp_opp, (den_eq _ _ _ Eob). assumption.
  - rewrite (den_eq _ _ _ Eob), <- opp_denom. assumption.
  - lia.
  - eauto.
  - rewrite (swap_funds _ _ _ _ _ _ _ (swap_call_args _ _ _ _ _ _)) in Hsend. assumption.
Qed.

Section Swapped.
  Context {e w sender tin outd mn fee target w' r m G l fs rest pr} (H : swapped e w sender tin outd mn fee target w' r m G l fs rest pr).
  Lemma sw_nodup : NoDup (map f_tick fs).
  Proof. eapply sublist_nodup; [apply (pg_ticks _ _ _ _ _ _ _ _ (sw_good _ _ _ _ _ _ _ _ _ _ _ _ _ _ _ _ H))|eapply ordered_nodup, (sw_ord _ _ _ _ _ _ _ _ _ _ _ _ _ _ _ _ H)]. Qed.
  Lemma sw_liq t : tick_liquidity (w_st w) t m = opens G m t.
  Proof. apply tick_liquidity_open, (sw_inv _ _ _ _ _ _ _ _ _ _ _ _ _ _ _ _ H). Qed.
  Lemma sw_liq' t : tick_liquidity (w_st w') t m = opens G m t - taken fs t.
  Proof.
    rewrite (tick_liquidity_open _ _ _ _ (sw_inv' _ _ _ _ _ _ _ _ _ _ _ _ _ _ _ _ H)), gfills_eq. unfold opens, g_open, g_fill. cbn. lia.
  Qed.
  Lemma sw_side t : side_values (w_st w') t m =
    let v := side_values (w_st w) t m in let x := taken fs t * DEC in mkTV (tv_tal v - x) (tv_ctt v) (tv_etas v + x) (tv_crc v) (tv_last v).
  Proof.
    rewrite (side_values_of _ _ _ _ (sw_inv' _ _ _ _ _ _ _ _ _ _ _ _ _ _ _ _ H)), (side_values_of _ _ _ _ (sw_inv _ _ _ _ _ _ _ _ _ _ _ _ _ _ _ _ H)), gfills_eq.
    unfold tv_of, g_fill, g_open. cbn. f_equal; lia.
  Qed.
  Lemma sw_other t : side_values (w_st w') t (opposite m) = side_values (w_st w) t (opposite m).
  Proof.
    rewrite (side_values_of _ _ _ _ (sw_inv' _ _ _ _ _ _ _ _ _ _ _ _ _ _ _ _ H)), (side_values_of _ _ _ _ (sw_inv _ _ _ _ _ _ _ _ _ _ _ _ _ _ _ _ H)).
    rewrite gfills_ne by apply opposite_ne. reflexivity.
  Qed.
  Lemma sw_range t : t ∈ l <-> is_Some (s_ticks (w_st w) !! t) /\ within_target m target t /\
    match m with Ask => next_tick (w_st w) m <= t | Bid => t <= next_tick (w_st w) m end.
  Proof.
    destruct (sw_ob _ _ _ _ _ _ _ _ _ _ _ _ _ _ _ _ H) as (ob & Eob & Hm & _). destruct (market_ticks_spec _ _ _ _ _ Hm) as (_ & Hin & _).
    rewrite Hin. unfold swap_range, within_target, swap_bound, next_tick, unwrap_or. rewrite Eob.
    assert (Hv : forall ts, s_ticks (w_st w) !! t = Some ts -> MIN_TICK <= t <= MAX_TICK).
    { intros ts Et. destruct (i_some _ _ (sw_inv _ _ _ _ _ _ _ _ _ _ _ _ _ _ _ _ H) _ _ Et) as [[? ?] _]. auto. }
    destruct m, target as [b|]; cbn [opposite]; split; intros ([ts Et] & K); specialize (Hv _ Et); (split; [eauto|]); repeat split; lia || tauto.
  Qed.
  Lemma sw_live_in t : 0 < opens G m t -> within_target m target t -> t ∈ l.
  Proof.
    intros Ho Hw. apply sw_range. pose proof (sw_inv _ _ _ _ _ _ _ _ _ _ _ _ _ _ _ _ H) as Hi.
    assert (Es : is_Some (s_ticks (w_st w) !! t)).
    { destruct (s_ticks (w_st w) !! t) eqn:E; [eauto|]. unfold opens in Ho. rewrite (i_none _ _ Hi t m E) in Ho. change (0 < 0) in Ho. lia. }
    split; [assumption|]. split; [assumption|]. destruct Es as [ts Et]. destruct (i_book _ _ Hi) as (ob & Eob & Hbk). unfold next_tick. rewrite Eob.
    pose proof DEC_pos. assert (Htal : 0 < tv_tal (get_values ts m)).
    { rewrite (inv_tick_some _ _ _ _ Hi Et), get_ts_of. cbn. unfold opens in Ho. nia. }
    destruct m; [apply (bo_bids _ _ Hbk _ _ Et Htal)|apply (bo_asks _ _ Hbk _ _ Et Htal)].
  Qed.
  Lemma sw_taken_pos t : 0 < taken fs t -> t ∈ map f_tick fs /\ t ∈ l.
  Proof.
    intros Ht. destruct (decide (t ∈ map f_tick fs)) as [Hin|Hn]; [|rewrite taken_notin in Ht by assumption; lia].
    split; [assumption|]. eapply sublist_in; [apply (pg_ticks _ _ _ _ _ _ _ _ (sw_good _ _ _ _ _ _ _ _ _ _ _ _ _ _ _ _ H))|assumption].
  Qed.
End Swapped.

(** Charge of a fill against side m. *)
Lemma cost_charge_ask x p : cost Bid x p = charge Ask x p.
Proof. reflexivity. Qed.
Lemma cgross_charge m x p : cgross m x p = charge m x p.
Proof. destruct m; reflexivity. Qed.

(** C14: result of a swap: zero swap fee, the pair of the book, one output transfer of at least
    the minimum to the swapper, and the input is charged, refunded or (dust) kept. *)
Theorem C14_swap_result :
  forall e w sender tin out mn fee target w' r, reachable w ->
  call_ok (w_self w) (swap_call sender tin out mn fee target) = true ->
  step e w (swap_call sender tin out mn fee target) = (w', Done r) ->
  exists (m : dir) (amount refund charged dust : Z),
    active (w_st w) = true /\ fee = 0 /\
    c_denom tin = proceeds_denom (w_st w) m /\ out = deposit_denom (w_st w) m /\ c_denom tin <> out /\
    mn <= amount /\ 0 < amount /\
    r_msgs r = mkSend REPLY_ID_SUDO_SWAP_EXACT_IN sender (mkCoin out amount) :: pay REPLY_ID_REFUND sender (c_denom tin) refund /\
    r_data r = Some amount /\ attr_int (r_attrs r) "output_quantity" = amount /\
    0 < charged /\ 0 <= refund /\ 0 <= dust /\ charged + refund + dust = c_amount tin /\ (refund = 0 \/ dust = 0) /\
    pool_liquidity (w_st w') m = pool_liquidity (w_st w) m - amount * ATOM /\
    pool_liquidity (w_st w') (opposite m) = pool_liquidity (w_st w) (opposite m) /\
    balance w' out = balance w out - amount /\
    balance w' (c_denom tin) = balance w (c_denom tin) + charged + dust /\
    (forall denom, denom <> out -> denom <> c_denom tin -> balance w' denom = balance w denom) /\
    s_orders (w_st w') = s_orders (w_st w) /\ denoms_of (w_st w') = denoms_of (w_st w) /\ admin_data (w_st w') = admin_data (w_st w).
Proof.
  intros e w sender tin out mn fee target w' r Hre Hok E.
  destruct (swap_done _ _ _ _ _ _ _ _ _ _ Hre Hok E) as (m & G & l & fs & rest & pr & H).
  pose proof (sw_good _ _ _ _ _ _ _ _ _ _ _ _ _ _ _ _ H) as Hg. pose proof Hg as [Q1 Q2 Q3 Q4 Q5 _ _ _ _ _ _].
  pose proof (sw_inv _ _ _ _ _ _ _ _ _ _ _ _ _ _ _ _ H) as Hi.
  assert (Hne : deposit_denom (w_st w) (opposite m) <> deposit_denom (w_st w) m).
  { destruct (i_book _ _ Hi) as (ob & Eob & Hbk). pose proof (bo_denoms _ _ Hbk). rewrite !(den_eq _ _ _ Eob). destruct m; cbn; congruence. }
  assert (Hnz : sum_out fs <> 0).
  { intros Ez. pose proof (sw_sends _ _ _ _ _ _ _ _ _ _ _ _ _ _ _ _ H) as Hs. rewrite (sw_resp _ _ _ _ _ _ _ _ _ _ _ _ _ _ _ _ H) in Hs. cbn [swap_resp r_msgs] in Hs.
    apply sends_cons in Hs as (b1 & Hs & _). unfold send1 in Hs. cbn [sm_coin c_amount] in Hs. rewrite Ez in Hs. discriminate. }
  assert (Hpos : 0 <= sum_out fs).
  { clear -Q1. induction Q1 as [|f fs (H & _) _ IH]; cbn; lia. }
  exists m, (sum_out fs), rest, (sum_in fs), (c_amount tin - sum_in fs - rest).
  pose proof (sw_amt _ _ _ _ _ _ _ _ _ _ _ _ _ _ _ _ H) as Hamt.
  split; [apply H|]. split; [apply H|]. split; [apply H|]. split; [apply H|].
  pose proof (sw_in _ _ _ _ _ _ _ _ _ _ _ _ _ _ _ _ H) as Ein. pose proof (sw_out _ _ _ _ _ _ _ _ _ _ _ _ _ _ _ _ H) as Eout.
  assert (Hne' : c_denom tin <> out) by (rewrite Ein, Eout; exact Hne).
  split; [assumption|]. split; [apply H|]. split; [lia|].
  pose proof (sw_resp _ _ _ _ _ _ _ _ _ _ _ _ _ _ _ _ H) as Er.
  assert (Emsgs : r_msgs r = mkSend REPLY_ID_SUDO_SWAP_EXACT_IN sender (mkCoin out (sum_out fs)) :: pay REPLY_ID_REFUND sender (c_denom tin) rest).
  { rewrite Er. cbn [swap_resp r_msgs]. f_equal. }
  split; [assumption|]. split; [rewrite Er; reflexivity|]. split; [rewrite Er; reflexivity|].
  split. { clear -Q1 Hnz. destruct fs as [|f fs]; [cbn in Hnz; lia|]. apply Forall_cons in Q1 as [(_ & _ & Hf) Q1]. cbn. pose proof (sum_in_nonneg _ _ _ Q1). lia. }
  split; [assumption|]. split; [assumption|]. split; [lia|]. split; [lia|].
  destruct (sw_ob _ _ _ _ _ _ _ _ _ _ _ _ _ _ _ _ H) as (ob & Eob & _ & Est).
  split. { unfold pool_liquidity. rewrite Est. cbn. rewrite lookup_insert. reflexivity. }
  split. { unfold pool_liquidity. rewrite Est. cbn. rewrite lookup_insert_ne by (intros K; exact (opposite_ne m (eq_sym K))). reflexivity. }
  assert (Hs : sender <> w_self w).
  { unfold call_ok in Hok. apply andb_prop in Hok as [Hok _]. unfold swap_call in Hok. destruct target; cbn in Hok; apply negb_true_iff, bool_decide_eq_false in Hok; assumption. }
  pose proof (sw_sends _ _ _ _ _ _ _ _ _ _ _ _ _ _ _ _ H) as Hsend.
  assert (Hbal : forall denom, balance w' denom = balance w denom + coins_in denom [tin] - msgs_in denom (r_msgs r)).
  { intros denom. unfold balance. fold (bal_get (w_bal w') denom) (bal_get (w_bal w) denom). rewrite <- credits_get. refine (sends_exact e (w_self w) _ _ _ _ denom Hsend). rewrite Emsgs. apply Forall_cons. split; [exact Hs|].
    unfold pay. destruct (rest =? 0); constructor; [exact Hs|constructor]. }
  assert (Epay : forall denom, msgs_in denom (r_msgs r) = (if bool_decide (out = denom) then sum_out fs else 0) + (if bool_decide (c_denom tin = denom) then rest else 0)).
  { intros denom. rewrite Emsgs. cbn [msgs_in]. cbn [sm_coin c_denom c_amount]. unfold pay. destruct (Z.eqb_spec rest 0) as [->|]; cbn; repeat destruct (bool_decide _); lia. }
  assert (Ecoin : forall denom, coins_in denom [tin] = if bool_decide (c_denom tin = denom) then c_amount tin else 0).
  { intros denom. cbn. destruct (bool_decide _); lia. }
  split. { rewrite Hbal, Epay, Ecoin. rewrite (bool_decide_true (out = out)) by reflexivity. rewrite !(bool_decide_false (c_denom tin = out)) by assumption. lia. }
  split. { rewrite Hbal, Epay, Ecoin. rewrite (bool_decide_true (c_denom tin = c_denom tin)) by reflexivity. rewrite (bool_decide_false (out = c_denom tin)) by congruence. lia. }
  split. { intros denom N1 N2. rewrite Hbal, Epay, Ecoin. rewrite !bool_decide_false by congruence. lia. }
  split; [rewrite Est; reflexivity|]. split; [|rewrite Est; reflexivity].
  unfold denoms_of, deposit_denom. rewrite Est. cbn. rewrite Eob. destruct (book_after_denoms ob m fs) as [B1 B2]. rewrite B1, B2. reflexivity.
Qed.
Print Assumptions C14_swap_result.

Lemma swapped_fills e w sender tin outd mn fee target w' r m G l fs rest pr :
  swapped e w sender tin outd mn fee target w' r m G l fs rest pr -> swap_fills (w_st w) (w_st w') m (map fill_of fs).
Proof.
  intros H. pose proof (sw_good _ _ _ _ _ _ _ _ _ _ _ _ _ _ _ _ H) as Hg. pose proof Hg as [Q1 Q2 Q3 Q4 Q5 _ _ _ _ _ _].
  pose proof (sw_nodup H) as Hn. pose proof (sw_amt _ _ _ _ _ _ _ _ _ _ _ _ _ _ _ _ H) as Hamt.
  assert (Hq : 0 <= c_amount tin) by lia.
  assert (Ho : forall t, 0 <= opens G m t) by (intros; apply g_open_nonneg, (i_side _ _ (sw_inv _ _ _ _ _ _ _ _ _ _ _ _ _ _ _ _ H))).
  pose proof (plan_exact _ _ _ _ _ _ _ _ (fun t Ht => proj2 (sw_vt _ _ _ _ _ _ _ _ _ _ _ _ _ _ _ _ H t Ht)) Ho Hq (sw_plan _ _ _ _ _ _ _ _ _ _ _ _ _ _ _ _ H)) as Hex.
  rewrite Forall_forall in Q1, Hex.
  assert (Hv : forall f, f ∈ fs -> valid_tick (f_tick f)).
  { intros f Hf. apply (sw_vt _ _ _ _ _ _ _ _ _ _ _ _ _ _ _ _ H). eapply sublist_in; [exact Q2|apply elem_of_list_fmap; eauto]. }
  split; try (intros f Hf; apply elem_of_list_fmap in Hf as (f0 & -> & Hf); cbn [fill_of fl_tick fl_out fl_in];
    specialize (Hv _ Hf); pose proof (tick_price_pos _ Hv) as Hp; specialize (Q1 _ Hf) as (B1 & B2 & B3); specialize (Hex _ Hf);
    rewrite opp_opp, cgross_charge in Hex; pose proof (taken_elem _ _ Hn Hf) as Et).
  - rewrite fills_ticks_of. assumption.
  - assumption.
  - rewrite (sw_liq H). assumption.
  - rewrite (sw_liq H), (sw_liq' H), Et. reflexivity.
  - cbv zeta. rewrite (sw_side H), Et. reflexivity.
  - split; [assumption|]. rewrite B2. destruct m; cbn [opposite].
    + apply (sell_cost_bounds (f_out f0) (tick_price (f_tick f0)) ltac:(lia) Hp).
    + rewrite cost_charge_ask. lia.
  - rewrite (sw_liq' H), Et. intros K. destruct m; cbn [opposite] in *.
    + destruct K as [K|K]; [discriminate|]. apply Hex. lia.
    + rewrite B2. reflexivity.
  - intros ->. cbn [opposite] in *. destruct (sell_cost_bounds (f_out f0) (tick_price (f_tick f0)) ltac:(lia) Hp) as (S1 & _).
    rewrite B2. change ATOM with DEC. lia.
  - intros t Ht. rewrite fills_ticks_of in Ht. rewrite (sw_side H), taken_notin by assumption. cbv zeta. rewrite Z.mul_0_l, Z.sub_0_r, Z.add_0_r.
    destruct (side_values (w_st w) t m); reflexivity.
  - intros t. apply (sw_other H).
Qed.

(** C18: tick by tick.  The output is the sum of the fills, which account for every change of the
    book (see [swap_fills]); the charges never exceed the input, and what is not charged is either
    refunded in full or (dust) kept in full. *)
Theorem C18_swap_fills :
  forall e w sender tin out mn fee target w' r, reachable w ->
  call_ok (w_self w) (swap_call sender tin out mn fee target) = true ->
  step e w (swap_call sender tin out mn fee target) = (w', Done r) ->
  exists (m : dir) (fills : list fill),
    out = deposit_denom (w_st w) m /\ swap_fills (w_st w) (w_st w') m fills /\
    r_data r = Some (fills_out fills) /\ fills_in fills <= c_amount tin /\
    exists refund, 0 <= refund <= c_amount tin - fills_in fills /\ (refund = 0 \/ refund = c_amount tin - fills_in fills) /\
      r_msgs r = mkSend REPLY_ID_SUDO_SWAP_EXACT_IN sender (mkCoin out (fills_out fills)) :: pay REPLY_ID_REFUND sender (c_denom tin) refund.
Proof.
  intros e w sender tin out mn fee target w' r Hre Hok E.
  destruct (swap_done _ _ _ _ _ _ _ _ _ _ Hre Hok E) as (m & G & l & fs & rest & pr & H).
  exists m, (map fill_of fs). rewrite fills_out_of, fills_in_of.
  split; [apply H|]. split; [eapply swapped_fills; eauto|]. split; [rewrite (sw_resp _ _ _ _ _ _ _ _ _ _ _ _ _ _ _ _ H); reflexivity|].
  pose proof (sw_good _ _ _ _ _ _ _ _ _ _ _ _ _ _ _ _ H) as [_ _ Q3 Q4 Q5 _ _ _ _ _ _]. split; [lia|].
  exists rest. split; [lia|]. split; [destruct Q5; [right|left]; lia|]. rewrite (sw_resp _ _ _ _ _ _ _ _ _ _ _ _ _ _ _ _ H). reflexivity.
Qed.
Print Assumptions C18_swap_fills.

(** C15: price priority.  No liquidity lies on the better side of the pointer, and after a swap
    every tick with a better price than a filled one is empty. *)
Theorem C15_pointer :
  forall w m t, reachable w -> 0 < tick_liquidity (w_st w) t m -> ~ better_tick m t (next_tick (w_st w) m).
Proof.
  intros w m t Hre Hl. destruct (reach_good _ Hre) as (w0 & h & G & _ & _ & _ & [Hi _ _]). pose proof DEC_pos.
  destruct (i_book _ _ Hi) as (ob & Eob & Hbk). unfold next_tick, better_tick. rewrite Eob.
  unfold tick_liquidity in Hl. destruct (s_ticks (w_st w) !! t) as [ts|] eqn:Et; [|lia].
  assert (Htal : 0 < tv_tal (get_values ts m)).
  { rewrite (inv_tick_some _ _ _ _ Hi Et), get_ts_of in *. cbn in *. rewrite Z.div_mul in Hl by lia. nia. }
  destruct m; [pose proof (bo_bids _ _ Hbk _ _ Et Htal)|pose proof (bo_asks _ _ Hbk _ _ Et Htal)]; lia.
Qed.
Print Assumptions C15_pointer.
Theorem C15_price_priority :
  forall e w sender tin out mn fee target w' r, reachable w ->
  call_ok (w_self w) (swap_call sender tin out mn fee target) = true ->
  step e w (swap_call sender tin out mn fee target) = (w', Done r) ->
  exists m, out = deposit_denom (w_st w) m /\
    forall t t', tick_liquidity (w_st w') t m < tick_liquidity (w_st w) t m -> better_tick m t' t -> tick_liquidity (w_st w') t' m = 0.
Proof.
  intros e w sender tin out mn fee target w' r Hre Hok E.
  destruct (swap_done _ _ _ _ _ _ _ _ _ _ Hre Hok E) as (m & G & l & fs & rest & pr & H). exists m. split; [apply H|].
  intros t t' Hl Hb. rewrite (sw_liq H), (sw_liq' H) in Hl. rewrite (sw_liq' H).
  pose proof (sw_good _ _ _ _ _ _ _ _ _ _ _ _ _ _ _ _ H) as Hg. pose proof (sw_inv _ _ _ _ _ _ _ _ _ _ _ _ _ _ _ _ H) as Hi.
  destruct (sw_taken_pos H t ltac:(lia)) as [Ht Htl].
  pose proof (g_open_nonneg _ (i_side _ _ Hi t' m)) as Ho. fold (opens G m t') in Ho.
  destruct (Z.eq_dec (opens G m t') 0) as [Ez|Hnz].
  - pose proof (taken_in_range _ _ fs t' (pg_fills _ _ _ _ _ _ _ _ Hg) (sw_nodup H) Ho). lia.
  - assert (Hin : t' ∈ l).
    { apply (sw_live_in H); [lia|]. apply (sw_range H) in Htl as (_ & Hw & _). unfold within_target, better_tick in *.
      destruct target, m; try exact I; lia. }
    rewrite (pg_prio _ _ _ _ _ _ _ _ Hg t t' Ht Hin); [lia|]. unfold better, better_tick in *. destruct m; exact Hb.
Qed.
Print Assumptions C15_price_priority.

(** C17: a bounded swap uses no tick beyond its target, so no unit trades at a worse price. *)
Theorem C17_swap_to_tick :
  forall e w sender tin out mn fee target w' r, reachable w ->
  call_ok (w_self w) (swap_call sender tin out mn fee (Some target)) = true ->
  step e w (swap_call sender tin out mn fee (Some target)) = (w', Done r) ->
  valid_tick target /\ exists m, out = deposit_denom (w_st w) m /\
    forall t d, side_values (w_st w') t d <> side_values (w_st w) t d ->
      d = m /\ valid_tick t /\
      match m with
      | Ask => next_tick (w_st w) Ask <= t <= target /\ tick_price t <= tick_price target
      | Bid => target <= t <= next_tick (w_st w) Bid /\ tick_price target <= tick_price t
      end.
Proof.
  intros e w sender tin out mn fee target w' r Hre Hok E.
  destruct (swap_done _ _ _ _ _ _ _ _ _ _ Hre Hok E) as (m & G & l & fs & rest & pr & H).
  pose proof (sw_valid _ _ _ _ _ _ _ _ _ _ _ _ _ _ _ _ H) as Hvt. unfold swap_bound in Hvt. cbn [unwrap_or] in Hvt.
  split; [assumption|]. exists m. split; [apply H|]. intros t d Hne.
  assert (d = m) as ->.
  { destruct (decide (d = m)) as [|Hd]; [assumption|]. exfalso. apply Hne.
    assert (d = opposite m) as -> by (destruct d, m; cbn; congruence). apply (sw_other H). }
  split; [reflexivity|].
  assert (Ht : 0 < taken fs t).
  { destruct (Z.eq_dec (taken fs t) 0) as [Ez|].
    - exfalso. apply Hne. rewrite (sw_side H). cbv zeta. rewrite Ez, Z.mul_0_l, Z.sub_0_r, Z.add_0_r. destruct (side_values (w_st w) t m); reflexivity.
    - pose proof (taken_in_range _ _ fs t (pg_fills _ _ _ _ _ _ _ _ (sw_good _ _ _ _ _ _ _ _ _ _ _ _ _ _ _ _ H)) (sw_nodup H)
        (g_open_nonneg _ (i_side _ _ (sw_inv _ _ _ _ _ _ _ _ _ _ _ _ _ _ _ _ H) t m))). lia. }
  destruct (sw_taken_pos H t Ht) as [_ Hl]. pose proof (proj2 (sw_vt _ _ _ _ _ _ _ _ _ _ _ _ _ _ _ _ H _ Hl)) as Hv.
  split; [assumption|]. apply (sw_range H) in Hl as (_ & Hw & Hx). unfold within_target in Hw. destruct Hv, Hvt.
  destruct m; (split; [lia|apply tick_price_mono_le; lia]).
Qed.
Print Assumptions C17_swap_to_tick.

Lemma plan_last d open l : forall q p0 fs r pr, ordered d l -> plan d open l q p0 = Some (fs, r, pr) -> r <> 0 ->
  (fs = [] /\ pr = p0 /\ forall t, t ∈ l -> open t = 0) \/
  exists t, t ∈ l /\ open t <> 0 /\ pr = tick_price t /\ forall t', t' ∈ l -> open t' <> 0 -> ~ better d t t'.
Proof.
  induction l as [|t l IH]; intros q p0 fs r pr Hord; cbn [plan].
  { intros [= <- <- <-] _. left. split; [reflexivity|]. split; [reflexivity|]. intros t Ht. inversion Ht. }
  apply StronglySorted_inv in Hord as [Hord Ht]. rewrite Forall_forall in Ht. destruct (Z.eqb_spec (open t) 0) as [Ez|Hnz].
  - intros Hp Hr. destruct (IH _ _ _ _ _ Hord Hp Hr) as [(E1 & E2 & E3)|(t1 & A1 & A2 & A3 & A4)].
    + left. do 2 (split; [assumption|]). intros t' Ht'. apply elem_of_cons in Ht' as [->|Ht']; auto.
    + right. exists t1. split; [constructor; assumption|]. do 2 (split; [assumption|]). intros t' Ht' Ho. apply elem_of_cons in Ht' as [->|Ht']; [contradiction|auto].
  - destruct (_ =? 0); [intros [= <- <- <-] Hr; contradiction|]. destruct (_ =? 0); [discriminate|].
    destruct (plan d open l _ _) as [[[fs0 r0] pr0]|] eqn:Hp; [|discriminate]. intros [= <- <- <-] Hr. right.
    destruct (IH _ _ _ _ _ Hord Hp Hr) as [(E1 & E2 & E3)|(t1 & A1 & A2 & A3 & A4)].
    + exists t. split; [constructor|]. do 2 (split; [assumption|]). intros t' Ht' Ho. apply elem_of_cons in Ht' as [->|Ht']; [destruct d; cbn; lia|].
      exfalso. apply Ho. auto.
    + exists t1. split; [constructor; assumption|]. do 2 (split; [assumption|]). intros t' Ht' Ho. apply elem_of_cons in Ht' as [->|Ht']; [|auto].
      specialize (Ht _ A1). destruct d; cbn in *; lia.
Qed.
(** C40: input that bought nothing.  Whatever is not charged buys nothing at any tick within the
    target that still has liquidity; if the contract keeps part of it, that part buys nothing at any
    tick at all that still has liquidity (and there is one); and if an unbounded swap refunds
    something, the refund would buy nothing even at the worst tick that had liquidity (otherwise the
    swap fails for lack of liquidity). *)
Theorem C40_leftover :
  forall e w sender tin out mn fee target w' r, reachable w ->
  call_ok (w_self w) (swap_call sender tin out mn fee target) = true ->
  step e w (swap_call sender tin out mn fee target) = (w', Done r) ->
  exists m fills (refund kept : Z), out = deposit_denom (w_st w) m /\
    swap_fills (w_st w) (w_st w') m fills /\
    r_msgs r = mkSend REPLY_ID_SUDO_SWAP_EXACT_IN sender (mkCoin out (fills_out fills)) :: pay REPLY_ID_REFUND sender (c_denom tin) refund /\
    c_amount tin = fills_in fills + refund + kept /\ 0 <= kept /\ 0 <= refund /\ (refund = 0 \/ kept = 0) /\
    (forall t, within_target m target t -> 0 < tick_liquidity (w_st w') t m -> buys m t (refund + kept) = 0) /\
    (0 < kept -> (exists t, 0 < tick_liquidity (w_st w') t m) /\ forall t, 0 < tick_liquidity (w_st w') t m -> buys m t kept = 0) /\
    (target = None -> 0 < refund ->
       exists t, 0 < tick_liquidity (w_st w) t m /\ buys m t refund = 0 /\ forall t', 0 < tick_liquidity (w_st w) t' m -> ~ better_tick m t t').
Proof.
  intros e w sender tin out mn fee target w' r Hre Hok E.
  destruct (swap_done _ _ _ _ _ _ _ _ _ _ Hre Hok E) as (m & G & l & fs & rest & pr & H).
  pose proof (sw_good _ _ _ _ _ _ _ _ _ _ _ _ _ _ _ _ H) as Hg. pose proof Hg as [Q1 Q2 Q3 Q4 Q5 Q6 Q7 Q8 Q9 Q10 Q11].
  pose proof (sw_inv _ _ _ _ _ _ _ _ _ _ _ _ _ _ _ _ H) as Hi. pose proof (sw_amt _ _ _ _ _ _ _ _ _ _ _ _ _ _ _ _ H) as Hamt.
  assert (Ho : forall t, 0 <= opens G m t) by (intros; apply g_open_nonneg, (i_side _ _ Hi)).
  assert (Htk : forall t, 0 <= taken fs t <= opens G m t) by (intros; eapply taken_in_range; [exact Q1|exact (sw_nodup H)|apply Ho]).
  set (kept := c_amount tin - sum_in fs - rest) in *. pose proof (sum_in_nonneg _ _ _ Q1) as Hsi.
  exists m, (map fill_of fs), rest, kept. rewrite fills_out_of, fills_in_of.
  split; [apply H|]. split; [eapply swapped_fills; eauto|]. split; [rewrite (sw_resp _ _ _ _ _ _ _ _ _ _ _ _ _ _ _ _ H); reflexivity|].
  split; [unfold kept; lia|]. split; [assumption|]. split; [assumption|]. split; [tauto|].
  assert (A1 : forall t, within_target m target t -> 0 < tick_liquidity (w_st w') t m -> buys m t (rest + kept) = 0).
  { intros t Hw Hl. rewrite (sw_liq' H) in Hl. rewrite buys_gross. replace (rest + kept) with (c_amount tin - sum_in fs) by (unfold kept; lia).
    apply Q9; [apply (sw_live_in H); [specialize (Htk t); lia|assumption]|lia]. }
  assert (Hvalid : forall t, 0 < opens G m t -> valid_tick t).
  { intros t Hp. destruct (s_ticks (w_st w) !! t) as [ts|] eqn:Et; [apply (i_some _ _ Hi _ _ Et)|].
    unfold opens in Hp. rewrite (i_none _ _ Hi t m Et) in Hp. change (0 < 0) in Hp. lia. }
  split; [assumption|]. split.
  - intros Hk. destruct (Q6 Hk) as (t & Hin & Hlt). assert (rest = 0) as Er by lia.
    split; [exists t; rewrite (sw_liq' H); lia|]. intros t' Hl'.
    assert (Hb : buys m t kept = 0).
    { replace kept with (rest + kept) by lia. apply A1; [apply (sw_range H), Hin|rewrite (sw_liq' H); lia]. }
    assert (within_target m target t' \/ ~ within_target m target t') as [Hw|Hw] by (unfold within_target; destruct target, m; lia || tauto).
    { replace kept with (rest + kept) by lia. apply A1; assumption. }
    (* beyond the target: a worse price *)
    rewrite (sw_liq' H) in Hl'. specialize (Htk t'). pose proof (proj2 (sw_vt _ _ _ _ _ _ _ _ _ _ _ _ _ _ _ _ H _ Hin)) as Hvt. pose proof (Hvalid t' ltac:(lia)) as Hvt'.
    apply (sw_range H) in Hin as (_ & Hwt & _). rewrite buys_gross in *.
    assert (Hbt : better (opposite m) t t') by (unfold better, within_target in *; destruct target; [|tauto]; destruct m; cbn; lia).
    pose proof (better_price _ _ _ Hvt Hvt' Hbt) as Hpr.
    pose proof (gross_worse (opposite m) kept _ _ Q4 (tick_price_pos _ Hvt) (tick_price_pos _ Hvt') Hpr).
    pose proof (gross_nonneg (opposite m) kept _ Q4 (tick_price_pos _ Hvt')). lia.
  - intros -> Hr. assert (kept = 0) as Ek by lia.
    destruct (sw_left _ _ _ _ _ _ _ _ _ _ _ _ _ _ _ _ H) as [Hz|Hz].
    2:{ exfalso. unfold partial_ok, swap_bound in Hz. cbn [unwrap_or] in Hz. destruct (opposite m); rewrite Z.ltb_irrefl in Hz; discriminate. }
    assert (Hne : sum_out fs <> 0).
    { intros Ez. pose proof (sw_sends _ _ _ _ _ _ _ _ _ _ _ _ _ _ _ _ H) as Hs. rewrite (sw_resp _ _ _ _ _ _ _ _ _ _ _ _ _ _ _ _ H) in Hs. cbn [swap_resp r_msgs] in Hs.
      apply sends_cons in Hs as (b1 & Hs & _). unfold send1 in Hs. cbn [sm_coin c_amount] in Hs. rewrite Ez in Hs. discriminate. }
    destruct (plan_last _ _ _ _ _ _ _ _ (sw_ord _ _ _ _ _ _ _ _ _ _ _ _ _ _ _ _ H) (sw_plan _ _ _ _ _ _ _ _ _ _ _ _ _ _ _ _ H) ltac:(lia)) as [(E1 & _)|(t & A2 & A3 & A4 & A5)].
    { subst fs. cbn in Hne. lia. }
    exists t. rewrite (sw_liq H). split; [specialize (Ho t); lia|]. split; [rewrite buys_gross, <- A4; assumption|].
    intros t' Hl' Hb. rewrite (sw_liq H) in Hl'. refine (A5 t' _ _ _).
    + apply (sw_live_in H); [assumption|exact I].
    + lia.
    + unfold better, better_tick in *. destruct m; exact Hb.
Qed.
Print Assumptions C40_leftover.

(** Cases: three ask ticks (prices 1, 1.1, 1.2); a buy over all of them, one that leaves worthless
    dust with the contract, and a bounded one that is refunded. *)
Definition hist_asks : list (env * call) := [place "a" 0 Ask 10 None; place "b" 100000 Ask 10 None; place "c" 200000 Ask 50 None].
Definition w_asks : world := run w_start hist_asks.
Lemma asks_reachable : reachable w_asks.
Proof. apply start_reachable; [apply start_ok|hist]. Qed.
Definition buy_call (q mn : Z) (target : option Z) : call := swap_call "z" (mkCoin "quote" q) "base" mn 0 target.
Example swap_cases :
  forallb (fun c => call_ok (w_self w_asks) c && done tenv w_asks c) [buy_call 30 27 None; buy_call 22 20 None; buy_call 30 20 (Some 100000)] = true /\
  map (fun c => r_msgs (resp_of tenv w_asks c)) [buy_call 30 27 None; buy_call 22 20 None; buy_call 30 20 (Some 100000)] =
  [[mkSend 5 "z" (mkCoin "base" 27)]; [mkSend 5 "z" (mkCoin "base" 20)]; [mkSend 5 "z" (mkCoin "base" 20); mkSend 1 "z" (mkCoin "quote" 9)]] /\
  map (fun c => map (fun t => tick_liquidity (w_st (fst (step tenv w_asks c))) t Ask) [0; 100000; 200000])
    [buy_call 30 27 None; buy_call 22 20 None; buy_call 30 20 (Some 100000)] = [[0; 0; 43]; [0; 0; 50]; [0; 0; 50]] /\
  next_tick (w_st w_asks) Ask = 0.
Proof. repeat split; vm_compute; reflexivity. Qed.
