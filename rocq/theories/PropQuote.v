(** * Properties C16 and C34: quotes, and when swaps go through. *)
From Verif Require Import Base Dec Types State TickMath Sumtree Tick Order Auth Contract Query World SpecMath TickMathProofs
  TreeDefs Exec SumtreeProofs SumtreeRebalance SumtreeInsert PrefixSum SumtreeRoot SumtreeFail Ghost Inv StepPlace StepCancel StepClaim
  SwapPlan StepSwap Trans Spec Reach Refine RefineStep Reserve Solvency Books SpecProps PropBase Tests PropOrders PropSwap.

Lemma run_of_internal s G ob q d bound l fs r pr :
  inv s G -> s_orderbook s = Some ob -> 0 <= q <= U128_MAX -> get_directional_liquidity s (opposite d) <= U256_MAX ->
  swap_pre s G ob d bound q l fs r pr ->
  run_market_order_internal s q d bound = Ok (mkt_after G (opposite d) (mkMkt q ob 0 [] DEC) fs r pr, get_opposite_denom ob d) ->
  run_market_order q d bound s = (swap_st s G ob (opposite d) fs, Ok (sum_out fs, get_opposite_denom ob d, r)) /\ 0 <= sum_out fs.
Proof.
  intros Hi Eob Hq Hliq Hp Hint. pose proof Hp as [P1 P2 P3 P4 P5]. pose proof DEC_pos as HD. unfold run_market_order.
  rewrite (bind_readr (fun s => run_market_order_internal s q d bound) _ _ _ Hint). cbn [fst snd mkt_after m_upd m_out m_book m_qty app].
  unfold save_ticks. rewrite bind_mod. rewrite Z.add_0_l.
  destruct (plan_good_inv _ _ _ _ _ _ _ _ _ _ Hi (proj1 Hq) P3 P4) as [Hg _].
  destruct (plan_ctx _ _ _ _ _ _ Hi P3) as (C1 & C2 & C3 & C4).
  pose proof (sum_out_le _ _ _ _ (pg_fills _ _ _ _ _ _ _ _ Hg) (pg_ticks _ _ _ _ _ _ _ _ Hg) C3) as Hso.
  assert (Hlm : lsumf (opens G (opposite d)) l <= msum (fun t _ => opens G (opposite d) t) (s_ticks s)).
  { apply lsumf_msum; [assumption|eapply ordered_nodup; eauto|]. intros t Ht. apply C2 in Ht as [E _]. eauto. }
  assert (Hso0 : 0 <= sum_out fs).
  { pose proof (pg_fills _ _ _ _ _ _ _ _ Hg) as Hff. clear -Hff. induction Hff as [|f fs (H & _) _ IH]; cbn; lia. }
  pose proof (liq_opens _ _ (opposite d) Hi) as Ho. split; [|assumption].
  rewrite (bind_lift _ (sum_out fs * DEC)) by (apply dec_from_ratio_1; nia).
  unfold subtract_directional_liquidity. rewrite bind_assoc, bind_read.
  match goal with |- context [get_directional_liquidity ?x (opposite d)] => change (get_directional_liquidity x (opposite d)) with (get_directional_liquidity s (opposite d)) end.
  rewrite bind_assoc. rewrite (bind_lift _ (get_directional_liquidity s (opposite d) - sum_out fs * DEC)).
  2:{ unfold checked_sub. destruct (Z.leb_spec (sum_out fs * DEC) (get_directional_liquidity s (opposite d))); [reflexivity|nia]. }
  rewrite !bind_mod. reflexivity.
Qed.
Lemma coin_in_bounds self sender tin outd mn fee target : call_ok self (swap_call sender tin outd mn fee target) = true -> 0 <= c_amount tin <= U128_MAX.
Proof.
  intros Hok. pose proof (call_funds_typed _ _ Hok) as Hty. rewrite (swap_funds _ _ _ _ _ _ _ (swap_call_args _ _ _ _ _ _)) in Hty.
  cbn [forallb] in Hty. apply andb_prop in Hty as [Hty _]. unfold coin_typed, u128 in Hty. apply andb_prop in Hty as [T1 T2]. apply Z.leb_le in T1, T2. auto.
Qed.

(** A market order whose dry run works goes through. *)
Lemma swap_accepted e w G Q sender tin outd mn target ob d m denom :
  ready w G Q -> call_ok (w_self w) (swap_call sender tin outd mn 0 target) = true -> active (w_st w) = true ->
  e_addr_valid e sender = true -> e_bank_ok e sender = true ->
  s_orderbook (w_st w) = Some ob -> direction_from_pair ob (c_denom tin) outd = Ok d ->
  run_market_order_internal (w_st w) (c_amount tin) d (swap_bound d target) = Ok (m, denom) -> 0 < m_out m -> mn <= m_out m ->
  exists w' rest, step e w (swap_call sender tin outd mn 0 target) = (w', Done (swap_resp sender tin outd mn (m_out m) rest outd)).
Proof.
  intros [Hre Hg Hn Hto Hl Hct] Hok Ha Hav Hbk Eob Hdir Hint Hpos Hmn.
  pose proof (gd_inv _ _ _ Hg) as Hi. pose proof (coin_in_bounds _ _ _ _ _ _ _ Hok) as Hamt. pose proof DEC_pos as HD.
  destruct (i_book _ _ Hi) as (ob' & Eob' & Hb). rewrite Eob in Eob'. injection Eob' as <-.
  destruct (direction_denom _ _ _ _ (bo_denoms _ _ Hb) Hdir) as [D1 D2].
  destruct (internal_inv _ _ _ _ _ _ _ _ Hi Eob Hamt Hint) as (l & fs & r & pr & Hp & -> & ->). cbn [mkt_after m_out] in *. rewrite Z.add_0_l in *.
  assert (Hliq : get_directional_liquidity (w_st w) (opposite d) <= U256_MAX).
  { rewrite (total_liquidity _ _ _ Hi (gd_ref _ _ _ Hg)). pose proof (open_dir_bound _ _ _ (opposite d) (gd_ref _ _ _ Hg)) as Ho.
    assert (K : U128_MAX * 2 ^ 56 * DEC <= U256_MAX) by (vm_compute; discriminate).
    etransitivity; [|exact K]. apply Z.mul_le_mono_nonneg_r; [lia|]. etransitivity; [exact Ho|]. apply Z.mul_le_mono_nonneg_l; [vm_compute; discriminate|assumption]. }
  assert (Hrun := run_of_internal _ _ _ _ _ _ _ _ _ _ Hi Eob Hamt Hliq Hp Hint). destruct Hrun as [Hrun _].
  assert (Ht : trans e (w_st w) G (swap_call sender tin outd mn 0 target) (swap_resp sender tin outd mn (sum_out fs) r outd)
     (swap_st (w_st w) G ob (opposite d) fs) (gfills G (opposite d) fs)).
  { eapply T_swap; eauto; [apply active_ne; assumption|apply swap_call_args]. }
  assert (Hi' : inv (swap_st (w_st w) G ob (opposite d) fs) (gfills G (opposite d) fs)).
  { destruct Hp as [P1 P2 P3 P4 P5]. eapply swap_inv; eauto. lia. }
  pose proof Hp as [P1 P2 P3 P4 P5]. destruct (plan_good_inv _ _ _ _ _ _ _ _ _ _ Hi (proj1 Hamt) P3 P4) as [Hpg _].
  destruct (trans_sends e w G _ _ _ _ Hre (gd_sol _ _ _ Hg) Hi Hok Ht Hi') as (b' & Hs).
  { cbn [swap_resp r_msgs]. apply Forall_cons. split; [cbn; auto|]. pose proof (pg_rest _ _ _ _ _ _ _ _ Hpg).
    destruct (Z.eqb_spec r 0); constructor; [|constructor]. cbn. split; [lia|assumption]. }
  eexists _, r. eapply step_ok; [|exact Hs].
  assert (Hdisp : dispatch_swap_exact_amount_in e sender tin outd mn 0 target (w_st w) =
    (swap_st (w_st w) G ob (opposite d) fs, Ok (swap_resp sender tin outd mn (sum_out fs) r outd))).
  { unfold dispatch_swap_exact_amount_in. rewrite (bind_lift _ tt) by reflexivity.
    assert (Hne : c_denom tin <> outd) by (rewrite D1, D2; pose proof (bo_denoms _ _ Hb); destruct d; cbn; congruence).
    assert (Hen : mensure (negb (bool_decide (c_denom tin = outd))) (EInvalidSwap SameDenoms) (w_st w) = (w_st w, Ok tt)) by (rewrite bool_decide_false by assumption; reflexivity).
    rewrite (bind_ok _ _ _ _ _ Hen).
    rewrite (bind_readr _ ob) by (unfold load_orderbook; rewrite Eob; reflexivity). rewrite (bind_lift _ d) by assumption.
    rewrite (bind_lift _ tt) by (unfold addr_validate; rewrite Hav; reflexivity).
    change (unwrap_or target match d with Bid => MAX_TICK | Ask => MIN_TICK end) with (swap_bound d target). rewrite (bind_ok _ _ _ _ _ Hrun).
    rewrite (bind_lift _ tt).
    2:{ unfold validate_output_amount. rewrite Z.leb_refl. cbn [rensure rbind c_amount c_denom]. rewrite (proj2 (Z.leb_le _ _) Hmn). cbn [rensure rbind].
        rewrite <- D2, bool_decide_false by congruence. reflexivity. }
    unfold swap_resp. rewrite <- D2. reflexivity. }
  destruct target; cbn [swap_call call_run]; unfold sudo; rewrite (bind_ok _ _ _ _ _ (ensure_active _ Ha)); exact Hdisp.
Qed.

(** C16: if the query answers, the swap succeeds for exactly the positive answers that meet its
    minimum, with exactly the answered output; if the query fails, so does the swap. *)
Lemma quote_exact :
  forall e w0 h sender tin out mn answer, start w0 -> history w0 h -> short h ->
  let w := run w0 h in let c := swap_call sender tin out mn 0 None in
  call_ok (w_self w) c = true -> active (w_st w) = true -> e_addr_valid e sender = true -> e_bank_ok e sender = true ->
  calc_out_amount_given_in (w_st w) tin out 0 = Ok answer ->
  c_denom answer = out /\ 0 <= c_amount answer /\
  (succeeds e w c <-> 0 < c_amount answer /\ mn <= c_amount answer) /\
  (forall w' r, step e w c = (w', Done r) ->
     r_data r = Some (c_amount answer) /\ exists rest, r_msgs r = mkSend REPLY_ID_SUDO_SWAP_EXACT_IN sender answer :: rest).
Proof.
  intros e w0 h sender tin out mn answer Hs Hh Hsh w c Hok Ha Hav Hbk Hq.
  destruct (short_ready w0 h Hs Hh Hsh) as (G & Hrd). fold w in Hrd. pose proof (gd_inv _ _ _ (rd_good _ _ _ Hrd)) as Hi.
  pose proof (coin_in_bounds _ _ _ _ _ _ _ Hok) as Hamt.
  unfold calc_out_amount_given_in in Hq. cbn [ensure_swap_fee] in Hq. apply rbind_inv in Hq as (u & _ & Hq).
  apply rbind_inv in Hq as (ob & Eob & Hq). apply ok_or_inv in Eob. apply rbind_inv in Hq as (d & Hdir & Hq).
  apply rbind_inv in Hq as ([m denom] & Hint & Hq). cbn [fst snd] in Hq. injection Hq as <-.
  destruct (i_book _ _ Hi) as (ob' & Eob' & Hb). rewrite Eob in Eob'. injection Eob' as <-.
  destruct (direction_denom _ _ _ _ (bo_denoms _ _ Hb) Hdir) as [D1 D2].
  destruct (internal_inv _ _ _ _ _ _ _ _ Hi Eob Hamt Hint) as (l & fs & r & pr & Hp & Edn & Em). cbn [c_denom c_amount].
  assert (Eout : m_out m = sum_out fs) by (rewrite Em; cbn; lia).
  assert (Hdone : forall w' r', step e w c = (w', Done r') -> exists rest, r' = swap_resp sender tin out mn (m_out m) rest out /\ 0 < m_out m /\ mn <= m_out m).
  { intros w' r' E. destruct (step_done _ _ _ _ _ _ Hi Hok E) as (G' & Ht & Hi' & _ & Hsend).
    destruct (trans_swap _ _ _ _ _ _ _ _ _ _ _ _ _ (swap_call_args _ _ _ _ _ _) Ht) as (d' & ob' & l' & fs' & rest' & pr' & _ & Eob' & _ & _ & Hdir' & Hp' & Hmn & -> & _ & _).
    rewrite Eob in Eob'. injection Eob' as <-. rewrite Hdir in Hdir'. injection Hdir' as <-.
    pose proof (sp_ticks _ _ _ _ _ _ _ _ _ _ Hp) as T1. pose proof (sp_ticks _ _ _ _ _ _ _ _ _ _ Hp') as T2. change (swap_bound d None) with (match d with Bid => MAX_TICK | Ask => MIN_TICK end) in T2.
    rewrite T1 in T2. injection T2 as <-. pose proof (sp_plan _ _ _ _ _ _ _ _ _ _ Hp) as P1. pose proof (sp_plan _ _ _ _ _ _ _ _ _ _ Hp') as P2.
    rewrite P1 in P2. injection P2 as <- <- <-. exists r. rewrite Eout. split; [reflexivity|]. split; [|assumption].
    cbn [swap_resp r_msgs] in Hsend. apply sends_cons in Hsend as (b1 & Hsend & _). unfold send1 in Hsend. cbn [sm_coin c_amount] in Hsend.
    destruct (Z.ltb_spec 0 (sum_out fs)); [assumption|discriminate]. }
  split; [congruence|]. split.
  { rewrite Eout. destruct (plan_good_inv _ _ _ _ _ _ _ _ _ _ Hi (proj1 Hamt) (sp_ticks _ _ _ _ _ _ _ _ _ _ Hp) (sp_plan _ _ _ _ _ _ _ _ _ _ Hp)) as [Hpg _].
    pose proof (pg_fills _ _ _ _ _ _ _ _ Hpg) as Hff. clear -Hff. induction Hff as [|f fs (H & _) _ IH]; cbn; lia. }
  split; [split|].
  - intros (w' & r' & E). destruct (Hdone _ _ E) as (rest & _ & K1 & K2). auto.
  - intros [K1 K2]. destruct (swap_accepted e w G _ sender tin out mn None ob d m denom Hrd Hok Ha Hav Hbk Eob Hdir Hint K1 K2) as (w' & rest & E).
    exists w'. eexists. exact E.
  - intros w' r' E. destruct (Hdone _ _ E) as (rest & -> & _ & _). split; [reflexivity|]. cbn [swap_resp r_msgs].
    rewrite Edn, <- D2. eauto.
Qed.

Lemma step_code e w c w' r : step e w c = (w', Done r) -> exists s', call_run e c (w_st w) = (s', Ok r).
Proof.
  unfold step. destruct (call_run e c (w_st w)) as [s' [r'| | |]]; try discriminate. destruct (sends _ _ _ _); [|discriminate]. intros [= <- <-]. eauto.
Qed.
Lemma quote_fails :
  forall e w sender tin out mn fee,
  let c := swap_call sender tin out mn fee None in (forall answer, calc_out_amount_given_in (w_st w) tin out fee <> Ok answer) ->
  step e w c = (w, Failed).
Proof.
  intros e w sender tin out mn fee c Hq. destruct (step e w c) as [w' [r|]] eqn:E; [exfalso|rewrite (step_failed _ _ _ _ E); reflexivity].
  destruct (step_code _ _ _ _ _ E) as (s' & E1). cbn [c swap_call call_run] in E1. unfold sudo in E1.
  apply bind_inv in E1 as (u & s1 & H1 & H). apply active_inv in H1 as [-> _]. unfold dispatch_swap_exact_amount_in in H.
  apply bind_inv in H as (u1 & s1 & H1 & H). apply mlift_inv in H1 as [-> H1].
  apply bind_inv in H as (u2 & s1 & H2 & H). apply mensure_inv in H2 as [-> H2].
  apply bind_inv in H as (ob & s1 & H3 & H). apply mreadr_inv in H3 as [-> H3].
  apply bind_inv in H as (d & s1 & H4 & H). apply mlift_inv in H4 as [-> H4].
  apply bind_inv in H as (u3 & s1 & H5 & H). apply mlift_inv in H5 as [-> _].
  apply bind_inv in H as ([[o dn] rest] & s1 & H6 & _). unfold run_market_order in H6.
  apply bind_inv in H6 as (x & s2 & H6 & _). apply mreadr_inv in H6 as [-> H6]. cbn [unwrap_or] in H6.
  unfold calc_out_amount_given_in in Hq. rewrite H1 in Hq. cbn [rbind] in Hq. rewrite H3 in Hq. cbn [rbind] in Hq. rewrite H4 in Hq. cbn [rbind] in Hq.
  rewrite H6 in Hq. cbn [rbind] in Hq. eapply Hq. reflexivity.
Qed.
(** The two names under which the quote can be asked for. *)
Definition asks_quote (q : query_msg) (tin : coin) (out : string) (fee : Z) : Prop :=
  q = QCalcOutAmountGivenIn tin out fee \/ q = QCalcOutAmtGivenIn tin out fee.
Lemma quote_answer s q tin out fee : asks_quote q tin out fee ->
  forall a, query s q = Ok a <-> exists answer, a = ATokenOut answer /\ calc_out_amount_given_in s tin out fee = Ok answer.
Proof.
  intros Hq a. assert (E : query s q = rmap ATokenOut (calc_out_amount_given_in s tin out fee)) by (destruct Hq as [->| ->]; reflexivity).
  rewrite E. destruct (calc_out_amount_given_in s tin out fee) as [c|er| |]; cbn [rmap]; split; intros H; try discriminate.
  - injection H as <-. eauto.
  - destruct H as (c' & -> & [= ->]). reflexivity.
  - destruct H as (c' & _ & H). discriminate.
  - destruct H as (c' & _ & H). discriminate.
  - destruct H as (c' & _ & H). discriminate.
Qed.
Theorem C16_quote_exact :
  forall e w0 h sender tin out mn q answer, start w0 -> history w0 h -> short h ->
  let w := run w0 h in let c := swap_call sender tin out mn 0 None in
  call_ok (w_self w) c = true -> active (w_st w) = true -> e_addr_valid e sender = true -> e_bank_ok e sender = true ->
  asks_quote q tin out 0 -> query (w_st w) q = Ok (ATokenOut answer) ->
  c_denom answer = out /\ 0 <= c_amount answer /\
  (succeeds e w c <-> 0 < c_amount answer /\ mn <= c_amount answer) /\
  (forall w' r, step e w c = (w', Done r) ->
     r_data r = Some (c_amount answer) /\ exists rest, r_msgs r = mkSend REPLY_ID_SUDO_SWAP_EXACT_IN sender answer :: rest).
Proof.
  intros e w0 h sender tin out mn q answer Hs Hh Hsh w c Hok Ha Hav Hbk Hq E.
  apply (quote_answer _ _ _ _ _ Hq) in E as (a & [= <-] & E). exact (quote_exact e w0 h sender tin out mn answer Hs Hh Hsh Hok Ha Hav Hbk E).
Qed.
Print Assumptions C16_quote_exact.
(** If the query does not answer, neither does the swap succeed. *)
Theorem C16_quote_fails :
  forall e w sender tin out mn fee q,
  let c := swap_call sender tin out mn fee None in
  asks_quote q tin out fee -> (forall answer, query (w_st w) q <> Ok (ATokenOut answer)) ->
  step e w c = (w, Failed).
Proof.
  intros e w sender tin out mn fee q c Hq H. apply quote_fails. intros a Ea. apply (H a). apply (quote_answer _ _ _ _ _ Hq). eauto.
Qed.
(** Nothing but a coin is ever answered, and the two names agree. *)
Theorem C16_queries_agree :
  forall s tin out fee,
  query s (QCalcOutAmountGivenIn tin out fee) = query s (QCalcOutAmtGivenIn tin out fee) /\
  forall a, query s (QCalcOutAmountGivenIn tin out fee) = Ok a -> exists answer, a = ATokenOut answer.
Proof.
  intros. split; [reflexivity|]. intros a Ea. apply (quote_answer s _ tin out fee) in Ea as (c & -> & _); [eauto|left; reflexivity].
Qed.
Print Assumptions C16_queries_agree.
Print Assumptions C16_quote_fails.
Example C16_case :
  let c mn := swap_call "z" (mkCoin "quote" 30) "base" mn 0 None in
  map (done tenv w_asks) [c 27; c 28] = [true; false] /\
  query (w_st w_asks) (QCalcOutAmtGivenIn (mkCoin "quote" 30) "base" 0) = Ok (ATokenOut (mkCoin "base" 27)) /\
  calc_out_amount_given_in (w_st w_asks) (mkCoin "quote" 1000) "base" 0 = Err EInsufficientLiquidity /\
  calc_out_amount_given_in (w_st w_start) (mkCoin "quote" 30) "base" 0 = Err EInsufficientLiquidity.
Proof. repeat split; vm_compute; reflexivity. Qed.

(** ** C34 *)
Lemma open_owed s G Q d : refines s G Q -> open_dir Q d <= owed Q d.
Proof.
  intros Hr. pose proof (rf_entry _ _ _ Hr) as He. unfold open_dir, owed. clear Hr. induction Q as [|en Q IH]; cbn; [lia|].
  fold (ideal_sum (fun e => if bool_decide (en_dir e = d) then en_open e else 0) Q).
  fold (ideal_sum (fun e => if bool_decide (en_dir e = d) then en_open e else proceeds (en_dir e) (en_tick e) (en_filled e)) Q).
  specialize (IH ltac:(intros; apply He; constructor; assumption)). destruct (He en ltac:(constructor)) as [_ K1 K2 _ _ _ _ _ K9].
  destruct (bool_decide _); [lia|]. assert (0 <= proceeds (en_dir en) (en_tick en) (en_filled en)); [|lia].
  pose proof (tick_price_pos _ K9). unfold proceeds, ask_gross, bid_gross, floor_div. destruct (en_dir en); apply Z.div_pos; unfold ATOM; nia.
Qed.
Lemma fits_of_balance w G Q : good w G Q -> (forall denom, balance w denom <= U128_MAX) -> liq_fits (w_st w).
Proof.
  intros Hg Hb d. rewrite (total_liquidity _ _ _ (gd_inv _ _ _ Hg) (gd_ref _ _ _ Hg)). pose proof DEC_pos.
  pose proof (open_owed _ _ _ d (gd_ref _ _ _ Hg)). pose proof (good_owed _ _ _ d Hg). specialize (Hb (deposit_denom (w_st w) d)). nia.
Qed.
Lemma lsumf_perm f l1 l2 : l1 ≡ₚ l2 -> lsumf f l1 = lsumf f l2.
Proof. induction 1; cbn; lia. Qed.
Lemma lsumf_sub f L : forall l, (forall t, 0 <= f t) -> NoDup L -> (forall t, t ∈ L -> f t <> 0 -> t ∈ l) -> lsumf f L <= lsumf f l.
Proof.
  assert (Hnn : forall l, (forall t, 0 <= f t) -> 0 <= lsumf f l) by (intros l H; induction l as [|a l IH]; cbn; [lia|specialize (H a); lia]).
  induction L as [|t L IH]; intros l Hf Hn Hin; cbn [lsumf]; [auto|]. apply NoDup_cons in Hn as [Ht Hn].
  destruct (Z.eq_dec (f t) 0) as [Ez|Hnz].
  - rewrite Ez, Z.add_0_l. apply IH; try assumption. intros t' Ht'. apply Hin. constructor. assumption.
  - destruct (elem_of_Permutation l t) as [K _]. destruct (K (Hin t ltac:(constructor) Hnz)) as (k & Hk). rewrite (lsumf_perm _ _ _ Hk). cbn [lsumf].
    assert (lsumf f L <= lsumf f k); [|lia]. apply IH; try assumption. intros t' Ht' Hnz'. specialize (Hin t' ltac:(constructor; assumption) Hnz').
    rewrite Hk in Hin. apply elem_of_cons in Hin as [->|Hin]; [contradiction|assumption].
Qed.
Lemma sum_ticks_lsumf f l : sum_ticks f l = lsumf f l.
Proof. induction l as [|t l IH]; [reflexivity|]. cbn. fold (sum_ticks f l). rewrite IH. reflexivity. Qed.

(** C34: a market buy always goes through if some resting ask sells at least one unit for the
    input and the resting asks (at the ticks [L]) are worth at least the input. *)
Theorem C34_buy_executes :
  forall e w0 h sender q mn L t0, start w0 -> history w0 h -> short h ->
  let w := run w0 h in let s := w_st w in
  let tin := mkCoin (deposit_denom s Bid) q in let out := deposit_denom s Ask in
  call_ok (w_self w) (swap_call sender tin out mn 0 None) = true -> active s = true -> e_addr_valid e sender = true -> e_bank_ok e sender = true ->
  (forall denom, balance w denom <= U128_MAX) ->
  0 < tick_liquidity s t0 Ask -> 0 < buys Ask t0 q ->
  NoDup L -> q <= sum_ticks (fun t => charge Ask (tick_liquidity s t Ask) (tick_price t)) L ->
  exists x, 0 < x /\ calc_out_amount_given_in s tin out 0 = Ok (mkCoin out x) /\
    (mn <= x -> exists w' r, step e w (swap_call sender tin out mn 0 None) = (w', Done r) /\ r_data r = Some x).
Proof.
  intros e w0 h sender q mn L t0 Hs Hh Hsh w s tin out Hok Ha Hav Hbk Hbal Ht0 Hb0 HL Hq.
  destruct (short_ready w0 h Hs Hh Hsh) as (G & Hrd). fold w in Hrd. pose proof (rd_good _ _ _ Hrd) as Hg. pose proof (gd_inv _ _ _ Hg) as Hi. fold s in Hi.
  pose proof (coin_in_bounds _ _ _ _ _ _ _ Hok) as Hamt. cbn [c_amount tin] in Hamt.
  destruct (i_book _ _ Hi) as (ob & Eob & Hb). pose proof (fits_of_balance _ _ _ Hg Hbal) as Hfit. fold s in Hfit.
  assert (Ho : forall t, 0 <= opens G Ask t) by (intros; apply g_open_nonneg, (i_side _ _ Hi)).
  assert (Hlq : forall t, tick_liquidity s t Ask = opens G Ask t) by (intros; apply tick_liquidity_open, Hi).
  assert (Hmt : exists l, market_ticks ob Bid MAX_TICK (s_ticks s) = Ok l).
  { unfold market_ticks. pose proof (bo_ask _ _ Hb) as [_ K]. assert ((ob_next_ask ob <=? MAX_TICK) = true) as -> by (apply Z.leb_le; exact K). cbn. eauto. }
  destruct Hmt as (l & Hl). destruct (plan_ctx _ _ _ _ _ _ Hi Hl) as (C1 & C2 & C3 & C4).
  destruct (plan_buy_some (opens G Ask) l q DEC (fun t Ht => proj2 (C2 t Ht)) Ho (proj1 Hamt)) as (fs & r & pr & Hp).
  destruct (plan_good_inv _ _ _ _ _ _ _ _ _ _ Hi (proj1 Hamt) Hl Hp) as [Hpg _]. pose proof Hpg as [Q1 Q2 Q3 Q4 Q5 Q6 Q7 Q8 Q9 Q10 Q11]. cbn [opposite] in *.
  assert (Hlive : forall t, 0 < opens G Ask t -> t ∈ l).
  { intros t Hop. assert (Es : is_Some (s_ticks s !! t)).
    { destruct (s_ticks s !! t) eqn:E; [eauto|]. unfold opens in Hop. rewrite (i_none _ _ Hi t Ask E) in Hop. change (0 < 0) in Hop. lia. }
    apply C4. split; [assumption|]. destruct Es as [ts Et]. destruct (i_some _ _ Hi _ _ Et) as [[V1 V2] Ets]. split; [|assumption].
    apply (bo_asks _ _ Hb _ _ Et). rewrite Ets, get_ts_of. cbn. unfold opens in Hop. pose proof DEC_pos. nia. }
  assert (Hq0 : q <> 0).
  { intros ->. unfold buys, floor_div in Hb0. cbn in Hb0. lia. }
  assert (Hpos : 0 < sum_out fs).
  { destruct fs as [|f fs].
    - exfalso. rewrite Hlq in Ht0. specialize (Q9 t0 (Hlive _ Ht0) ltac:(cbn; lia)). cbn [sum_in] in Q9. rewrite Z.sub_0_r in Q9. rewrite buys_gross in Hb0. cbn [opposite] in Hb0. lia.
    - apply Forall_cons in Q1 as [(K & _) Q1]. cbn [sum_out]. assert (0 <= sum_out fs); [|lia].
      clear -Q1. induction Q1 as [|f fs (H & _) _ IH]; cbn; lia. }
  assert (Hleft : gross Bid r pr = 0).
  { destruct (Z.eq_dec r 0) as [->|Hr]; [unfold gross, bid_gross, floor_div; reflexivity|].
    assert (Hall : (forall t, t ∈ l -> taken fs t = opens G Ask t) \/ exists t, t ∈ l /\ taken fs t < opens G Ask t).
    { assert (Hrg : forall t, 0 <= taken fs t <= opens G Ask t) by (intros; eapply taken_in_range; [exact Q1| |apply Ho]; eapply sublist_nodup; [exact Q2|eapply ordered_nodup; eauto]).
      clear -Hrg. induction l as [|a l IH]; [left; intros t H; inversion H|]. destruct IH as [IH|(t & H1 & H2)].
      - specialize (Hrg a). destruct (Z.eq_dec (taken fs a) (opens G Ask a)) as [E|E].
        + left. intros t Ht. apply elem_of_cons in Ht as [->|Ht]; auto.
        + right. exists a. split; [constructor|lia].
      - right. exists t. split; [constructor; assumption|assumption]. }
    destruct Hall as [Hall|(t & Htl & Htk)].
    - exfalso. pose proof (sum_in_all Bid (opens G Ask) l fs (ordered_nodup _ _ C1) Q2 Q1 Hall) as Hsum.
      set (F := fun t => if opens G Ask t =? 0 then 0 else cost Bid (opens G Ask t) (tick_price t)) in *.
      assert (HF : forall t, 0 <= F t).
      { intros t. unfold F. destruct (Z.eqb_spec (opens G Ask t) 0); [lia|]. specialize (Ho t).
        assert (Hin : t ∈ l) by (apply Hlive; lia). apply cost_nonneg; [lia|]. apply tick_price_pos, C2, Hin. }
      assert (Hle : lsumf F L <= lsumf F l).
      { apply lsumf_sub; try assumption. intros t _ Hnz. apply Hlive. unfold F in Hnz. destruct (Z.eqb_spec (opens G Ask t) 0); [contradiction|]. specialize (Ho t). lia. }
      assert (Heq : sum_ticks (fun t => charge Ask (tick_liquidity s t Ask) (tick_price t)) L = lsumf F L).
      { rewrite sum_ticks_lsumf. clear -Hlq. induction L as [|a L IH]; [reflexivity|]. cbn [lsumf]. rewrite IH, Hlq. unfold F at 2.
        destruct (Z.eqb_spec (opens G Ask a) 0) as [->|]; reflexivity. }
      lia.
    - pose proof (Q9 _ Htl Htk) as Hz. replace (q - sum_in fs) with r in Hz by lia.
      assert (Hot : opens G Ask t <> 0).
      { pose proof (taken_in_range _ _ fs t Q1 (sublist_nodup _ _ Q2 (ordered_nodup _ _ C1)) (Ho t)). lia. }
      pose proof (Q11 Hr t Htl Hot) as Hw. unfold worse_eq in Hw. pose proof (tick_price_pos t (proj2 (C2 _ Htl))) as Hpt. assert (Hpr0 : 0 < pr) by lia.
      pose proof (gross_worse Bid r (tick_price t) pr Q3 Hpt Hpr0 Hw). pose proof (gross_nonneg Bid r pr Q3 Hpr0). lia. }
  assert (Hpre : swap_pre s G ob Bid MAX_TICK q l fs r pr).
  { split; try assumption; [split; vm_compute; discriminate|auto]. }
  pose proof (internal_ok _ _ _ _ _ _ _ _ _ _ Hi Eob Hamt Hfit Hpre) as Hint.
  assert (Hdir : direction_from_pair ob (c_denom tin) out = Ok Bid).
  { unfold tin, out. cbn [c_denom]. unfold deposit_denom. rewrite Eob. apply (direction_ok ob Bid (bo_denoms _ _ Hb)). }
  exists (sum_out fs). split; [assumption|]. split.
  - unfold calc_out_amount_given_in. cbn [ensure_swap_fee]. unfold load_orderbook. rewrite Eob. cbn [ok_or rbind]. rewrite Hdir.
    cbn [rbind rensure]. change (c_amount tin) with q. change (ensure_swap_fee 0) with (Ok tt). cbn [rbind]. rewrite Hint. cbn [rbind fst snd mkt_after m_out]. rewrite Z.add_0_l.
    f_equal. f_equal. unfold out, deposit_denom. rewrite Eob. reflexivity.
  - intros Hmn.
    assert (Hpos' : 0 < m_out (mkt_after G (opposite Bid) (mkMkt q ob 0 [] DEC) fs r pr)) by (cbn; lia).
    assert (Hmn' : mn <= m_out (mkt_after G (opposite Bid) (mkMkt q ob 0 [] DEC) fs r pr)) by (cbn; lia).
    destruct (swap_accepted e w G _ sender tin out mn None ob Bid _ _ Hrd Hok Ha Hav Hbk Eob Hdir Hint Hpos' Hmn') as (w' & rest & E).
    eexists _, _. split; [exact E|]. cbn. f_equal.
Qed.
Print Assumptions C34_buy_executes.
Example C34_buy_case :
  let s := w_st w_asks in
  (tick_liquidity s 0 Ask, buys Ask 0 60, sum_ticks (fun t => charge Ask (tick_liquidity s t Ask) (tick_price t)) [0; 100000; 200000],
   balance w_asks "base", balance w_asks "quote", done tenv w_asks (buy_call 81 70 None), done tenv w_asks (buy_call 83 0 None))
  = (10, 60, 81, 70, 0, true, false).
Proof. vm_compute. reflexivity. Qed.

(** C34, refuted for sells: if the best bid tick holds so little that it is worth less than 10^-18
    base units, no sell of any amount, by anyone, with any target, goes through - whatever other
    bids rest below. *)
Theorem C34_sell_blocked :
  forall e w sender tin out mn fee target t, reachable w ->
  call_ok (w_self w) (swap_call sender tin out mn fee target) = true ->
  c_denom tin = deposit_denom (w_st w) Ask ->
  0 < tick_liquidity (w_st w) t Bid -> (forall t', 0 < tick_liquidity (w_st w) t' Bid -> t' <= t) ->
  tick_liquidity (w_st w) t Bid * ATOM * ATOM < tick_price t ->
  step e w (swap_call sender tin out mn fee target) = (w, Failed).
Proof.
  intros e w sender tin out mn fee target t Hre Hok Hden Hl Hbest Htiny.
  destruct (step e w _) as [w' [r|]] eqn:E; [exfalso|rewrite (step_failed _ _ _ _ E); reflexivity].
  destruct (swap_done _ _ _ _ _ _ _ _ _ _ Hre Hok E) as (m & G & l & fs & rest & pr & H).
  pose proof (sw_inv _ _ _ _ _ _ _ _ _ _ _ _ _ _ _ _ H) as Hi. pose proof (sw_good _ _ _ _ _ _ _ _ _ _ _ _ _ _ _ _ H) as Hg.
  destruct (i_book _ _ Hi) as (ob & Eob & Hb).
  assert (m = Bid) as ->.
  { pose proof (sw_in _ _ _ _ _ _ _ _ _ _ _ _ _ _ _ _ H) as K. rewrite Hden in K. unfold proceeds_denom in K. rewrite !(den_eq _ _ _ Eob) in K.
    apply (denom_inj _ _ _ (bo_denoms _ _ Hb)) in K. destruct m; [reflexivity|discriminate]. }
  rewrite (sw_liq H) in *. pose proof Hg as [Q1 Q2 Q3 Q4 Q5 Q6 Q7 Q8 Q9 Q10 Q11].
  assert (Hne : fs <> []).
  { intros ->. pose proof (sw_sends _ _ _ _ _ _ _ _ _ _ _ _ _ _ _ _ H) as Hs. rewrite (sw_resp _ _ _ _ _ _ _ _ _ _ _ _ _ _ _ _ H) in Hs. cbn [swap_resp r_msgs] in Hs.
    apply sends_cons in Hs as (b1 & Hs & _). discriminate. }
  assert (Hin : t ∈ map f_tick fs).
  { destruct fs as [|f fs]; [contradiction|]. assert (Hf : f_tick f ∈ l) by (eapply sublist_in; [exact Q2|constructor]).
    pose proof (proj1 (Forall_cons _ _ _) Q1) as ((K & _) & _). specialize (Hbest (f_tick f)). rewrite (sw_liq H) in Hbest. specialize (Hbest ltac:(lia)).
    destruct (Z.eq_dec t (f_tick f)) as [->|Hn]; [constructor|]. apply (sw_taken_pos H t).
    rewrite (Q8 (f_tick f) t); [assumption|constructor| |cbn; lia].
    apply (sw_live_in H); [assumption|]. apply (sw_range H) in Hf as (_ & Hw & _). unfold within_target in *. destruct target; [lia|exact I]. }
  apply elem_of_list_fmap in Hin as (f & -> & Hf). rewrite Forall_forall in Q1. destruct (Q1 _ Hf) as (K1 & K2 & K3). cbn [opposite] in *.
  assert (Hp : 0 < tick_price (f_tick f)) by (unfold ATOM in Htiny; nia).
  assert (Hz : cost Ask (f_out f) (tick_price (f_tick f)) = 0); [|lia].
  unfold cost. assert (floor_div (f_out f * DEC * DEC) (tick_price (f_tick f)) = 0) as ->; [|reflexivity].
  change ATOM with DEC in Htiny. pose proof DEC_pos. unfold floor_div. apply Z.div_small. nia.
Qed.
Print Assumptions C34_sell_blocked.
(** Such a state is one cheap order away: one quote unit bid at the highest tick. *)
Definition hist_block : list (env * call) := [place "a" 0 Bid 1000 None; place "evil" MAX_TICK Bid 1 None].
Example C34_sell_blocked_case :
  let w := run w_start hist_block in
  history w_start hist_block /\ run_out w_start hist_block = [true; true] /\
  tick_liquidity (w_st w) MAX_TICK Bid = 1 /\ 1 * ATOM * ATOM < tick_price MAX_TICK /\
  tick_liquidity (w_st w) 0 Bid = 1000 /\
  map (fun q => done tenv w (snd (sell "z" q))) [1; 10; 1000; 10 ^ 30] = [false; false; false; false] /\
  map (fun q => done tenv (run w_start (take 1 hist_block)) (snd (sell "z" q))) [1; 10; 1000] = [true; true; true].
Proof. split; [hist|]. repeat split; vm_compute; reflexivity. Qed.
