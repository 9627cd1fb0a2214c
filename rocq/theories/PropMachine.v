(** * Property C50: the contract is the machine of SpecMachine. *)
From Verif Require Import Base Dec Types State TickMath Sumtree Tick Order Auth Contract Query World SpecMath TickMathProofs
  TreeDefs Exec SumtreeProofs SumtreeRebalance SumtreeInsert PrefixSum SumtreeRoot SumtreeFail Ghost Inv StepPlace StepCancel StepClaim
  SwapPlan StepSwap Trans Spec Reach Refine RefineStep Reserve Solvency Books SpecProps PropBase Tests PropOrders PropClaims PropBatch PropSwap PropQuote PropAdmin PlanCurve PropCurve
  SpecAdmin SpecBank PropBank SpecMachine MachineBase MachineSwap.

(** ** Levels and ticks *)
Lemma lives_in Q o : o ∈ lives_of Q <-> exists e, e ∈ Q /\ en_live e = true /\ o = strip e.
Proof.
  unfold lives_of. rewrite elem_of_list_In, in_map_iff. split.
  - intros (e & <- & H). apply filter_In in H as [H1 H2]. apply elem_of_list_In in H1. eauto.
  - intros (e & H1 & H2 & ->). exists e. split; [reflexivity|]. apply filter_In. split; [apply elem_of_list_In; exact H1|exact H2].
Qed.
Lemma open_at_pos Q t d : (forall e, e ∈ Q -> 0 <= en_open e) ->
  0 <= open_at Q t d /\ (0 < open_at Q t d <-> exists e, e ∈ Q /\ en_tick e = t /\ en_dir e = d /\ 0 < en_open e).
Proof.
  unfold open_at. induction Q as [|e Q IH]; intros H; cbn [ideal_sum foldr].
  - split; [lia|]. split; [lia|]. intros (e & He & _). apply elem_of_nil in He. contradiction.
  - fold (ideal_sum (fun e => if bool_decide (en_tick e = t /\ en_dir e = d) then en_open e else 0) Q).
    destruct (IH ltac:(intros; apply H; constructor; assumption)) as [I1 I2]. pose proof (H e ltac:(constructor)) as He.
    destruct (bool_decide_reflect (en_tick e = t /\ en_dir e = d)) as [[Et Ed]|Hn].
    + split; [lia|]. split.
      * intros Hp. destruct (decide (0 < en_open e)); [exists e; split; [constructor|auto]|].
        destruct (proj1 I2 ltac:(lia)) as (e' & K1 & K2). exists e'. split; [constructor; exact K1|exact K2].
      * intros (e' & K1 & K2 & K3 & K4). apply elem_of_cons in K1 as [->|K1]; [lia|].
        assert (0 < ideal_sum (fun e => if bool_decide (en_tick e = t /\ en_dir e = d) then en_open e else 0) Q) by (apply I2; eauto). lia.
    + split; [lia|]. rewrite Z.add_0_l, I2. split; intros (e' & K1 & K2 & K3 & K4).
      * exists e'. split; [constructor; exact K1|auto].
      * apply elem_of_cons in K1 as [->|K1]; [tauto|]. eauto.
Qed.
Section Book.
  Context (s : storage) (G : ghost) (Q : ideal) (Hi : inv s G) (Hr : refines s G Q).
  Lemma entries_nonneg e : e ∈ Q -> 0 <= en_open e /\ 0 <= en_filled e.
  Proof. intros He. pose proof (rf_entry _ _ _ Hr _ He) as Ho. split; [apply (eo_open _ _ Ho)|apply (eo_filled _ _ Ho)]. Qed.
  Lemma open_on_liquidity side t : open_on side (lives_of Q) t = tick_liquidity s t side.
  Proof. rewrite open_on_lives by exact entries_nonneg. symmetry. eapply liquidity_open; eassumption. Qed.
  Lemma levels_liquidity side target t : t ∈ levels side target (lives_of Q) <-> tick_liquidity s t side <> 0 /\ within_target side target t.
  Proof.
    rewrite levels_in, (liquidity_open s G Q Hi Hr). destruct (open_at_pos Q t side) as [H0 H1]; [intros; apply entries_nonneg; assumption|].
    assert (Hne : open_at Q t side <> 0 <-> 0 < open_at Q t side) by lia. rewrite Hne, H1. clear Hne H1. unfold reachable_level. split.
    - intros (o & Ho & Hl & Et). apply lives_in in Ho as (e & He & _ & ->). cbn [strip re_dir re_open re_tick] in *. subst t.
      apply andb_prop in Hl as [Hl H3]. apply andb_prop in Hl as [H1 H2]. apply bool_decide_eq_true in H1. apply Z.ltb_lt in H2. split; [eauto 10|].
      unfold within_target. destruct target; [|exact I]. destruct side; apply Z.leb_le; exact H3.
    - intros [(e & He & Et & Ed & Hp) Hw]. exists (strip e). destruct (entries_nonneg e He) as [_ Hf]. split; [|split; [|exact Et]].
      + apply lives_in. exists e. split; [exact He|]. split; [apply Z.ltb_lt; lia|reflexivity].
      + cbn [strip re_dir re_open re_tick]. rewrite bool_decide_true, (proj2 (Z.ltb_lt _ _) Hp) by exact Ed. cbn [andb]. subst t.
        unfold within_target in Hw. destruct target; [|reflexivity]. destruct side; apply Z.leb_le; exact Hw.
  Qed.
  Lemma level_valid side target t : t ∈ levels side target (lives_of Q) -> valid_tick t.
  Proof.
    rewrite levels_in. intros (o & Ho & _ & <-). apply lives_in in Ho as (e & He & _ & ->). apply (eo_tick _ _ (rf_entry _ _ _ Hr _ He)).
  Qed.
End Book.
Lemma partial_abs side target : partial_ok (opposite side) (swap_bound (opposite side) target) = partial_allowed side target.
Proof. unfold partial_ok, swap_bound, partial_allowed, unwrap_or. destruct side, target; reflexivity. Qed.

(** ** Swaps *)
Lemma maker_direction s Q ob tin tout side : s_orderbook s = Some ob -> ob_quote ob <> ob_base ob ->
  maker_side (abs s Q) tin tout = Some side <-> direction_from_pair ob tin tout = Ok (opposite side).
Proof.
  intros Eob Hne. unfold maker_side, direction_from_pair. cbn [abs ma_quote ma_base]. rewrite !(den_eq _ _ _ Eob). cbn [get_expected_denom].
  destruct (bool_decide_reflect (tin = ob_quote ob /\ tout = ob_base ob)) as [[-> ->]|H1].
  - rewrite bool_decide_false by (intros [? _]; congruence). rewrite bool_decide_true by auto. destruct side; cbn; split; congruence.
  - rewrite (bool_decide_false (ob_quote ob = tin /\ ob_base ob = tout)) by (intros [? ?]; apply H1; split; congruence).
    destruct (bool_decide_reflect (tin = ob_base ob /\ tout = ob_quote ob)) as [[-> ->]|H2].
    + rewrite bool_decide_true by auto. destruct side; cbn; split; congruence.
    + rewrite bool_decide_false by (intros [? ?]; apply H2; split; congruence). split; discriminate.
Qed.
Section Walk.
  Context (s : storage) (G : ghost) (Q : ideal) (Hi : inv s G) (Hr : refines s G Q) (ob : orderbook) (Eob : s_orderbook s = Some ob).
  Context (side : dir) (target : option Z) (q : Z) (Hq : 0 <= q <= U128_MAX).
  Lemma plan_levels l q' : market_ticks ob (opposite side) (swap_bound (opposite side) target) (s_ticks s) = Ok l ->
    plan (opposite side) (opens G side) l q' DEC = plan (opposite side) (open_on side (lives_of Q)) (levels side target (lives_of Q)) q' DEC.
  Proof.
    intros Hl. destruct (plan_ctx _ _ _ _ _ _ Hi Hl) as (C1 & C2 & C3 & C4). rewrite opp_opp in *.
    assert (Hol : forall t, opens G side t = open_on side (lives_of Q) t).
    { intros t. rewrite (open_on_liquidity _ _ _ Hi Hr). symmetry. apply tick_liquidity_open. exact Hi. }
    rewrite (plan_ext _ _ (open_on side (lives_of Q))) by (intros; apply Hol). apply plan_same; [exact C1|apply levels_ordered|].
    intros t Hne. rewrite (levels_liquidity s G Q Hi Hr), <- (open_on_liquidity s G Q Hi Hr).
    assert (E : t ∈ l <-> within_target side target t); [|tauto].
    rewrite <- Hol in Hne. specialize (C3 t) as Hpos. rewrite C4.
    assert (Es : is_Some (s_ticks s !! t)).
    { destruct (s_ticks s !! t) eqn:E; [eauto|]. unfold opens in Hne. rewrite (i_none _ _ Hi t side E) in Hne. destruct Hne. reflexivity. }
    destruct (Es) as [ts Et]. destruct (i_some _ _ Hi _ _ Et) as [[V1 V2] _]. destruct (i_book _ _ Hi) as (ob' & Eob' & Hbk). rewrite Eob in Eob'. injection Eob' as <-.
    pose proof DEC_pos. assert (Htal : 0 < tv_tal (get_values ts side)).
    { rewrite (inv_tick_some _ _ _ _ Hi Et), get_ts_of. cbn. unfold opens in *. nia. }
    assert (Hnx : match side with Bid => t <= ob_next_bid ob | Ask => ob_next_ask ob <= t end).
    { destruct side; [apply (bo_bids _ _ Hbk _ _ Et Htal)|apply (bo_asks _ _ Hbk _ _ Et Htal)]. }
    unfold swap_range, within_target, swap_bound, unwrap_or. destruct side, target as [b|]; cbn [opposite]; split; intros K; repeat split; try exact Es; try exact I; lia || tauto.
  Qed.
  Lemma levels_open t : t ∈ levels side target (lives_of Q) -> open_on side (lives_of Q) t <> 0.
  Proof. rewrite (levels_liquidity s G Q Hi Hr), <- (open_on_liquidity s G Q Hi Hr). tauto. Qed.
  Lemma walk_of_pre l fs r pr :
    swap_pre s G ob (opposite side) (swap_bound (opposite side) target) q l fs r pr -> fits128 fs ->
    walk side (partial_allowed side target) (open_on side (lives_of Q)) (levels side target (lives_of Q)) q ATOM = Some (map drop_in fs, r).
  Proof.
    intros [P1 P2 P3 P4 P5] Hf. rewrite opp_opp in P4. rewrite (plan_levels l q P3) in P4. rewrite partial_abs in P5.
    exact (proj1 (walk_plan side _ _ _ q DEC levels_open) fs r pr P4 Hf P5).
  Qed.
  Lemma pre_of_walk f r :
    walk side (partial_allowed side target) (open_on side (lives_of Q)) (levels side target (lives_of Q)) q ATOM = Some (f, r) ->
    q <> 0 -> levels side target (lives_of Q) <> [] -> (forall b, target = Some b -> tick_ok b = true) ->
    exists l fs pr, swap_pre s G ob (opposite side) (swap_bound (opposite side) target) q l fs r pr /\ fits128 fs /\ f = map drop_in fs.
  Proof.
    intros Hw Hq0 Hne Hb.
    assert (Hlv : exists t, t ∈ levels side target (lives_of Q)) by (destruct (levels side target (lives_of Q)) as [|t l]; [contradiction|exists t; constructor]).
    destruct Hlv as [t Ht]. pose proof (level_valid _ _ _ Hr _ _ _ Ht) as Hv. pose proof (proj1 (levels_liquidity s G Q Hi Hr _ _ _) Ht) as [Hl Hwt].
    rewrite (tick_liquidity_open _ _ _ _ Hi) in Hl. pose proof (g_open_nonneg _ (i_side _ _ Hi t side)).
    assert (Es : is_Some (s_ticks s !! t)).
    { destruct (s_ticks s !! t) eqn:E; [eauto|]. rewrite (i_none _ _ Hi t side E) in Hl. destruct Hl. reflexivity. }
    destruct (Es) as [ts Et]. destruct (i_book _ _ Hi) as (ob' & Eob' & Hbk). rewrite Eob in Eob'. injection Eob' as <-.
    pose proof DEC_pos. assert (Htal : 0 < tv_tal (get_values ts side)).
    { rewrite (inv_tick_some _ _ _ _ Hi Et), get_ts_of. cbn. nia. }
    assert (Hbv : valid_tick (swap_bound (opposite side) target)).
    { unfold swap_bound, unwrap_or. destruct target as [b|]; [|destruct side; unfold valid_tick; cbn; vm_compute; split; discriminate].
      specialize (Hb b eq_refl). unfold tick_ok in Hb. apply andb_prop in Hb as [B1 B2]. apply Z.leb_le in B1, B2. split; assumption. }
    assert (Hm : exists l, market_ticks ob (opposite side) (swap_bound (opposite side) target) (s_ticks s) = Ok l).
    { unfold market_ticks. destruct side; cbn [opposite].
      - pose proof (bo_bids _ _ Hbk _ _ Et Htal). assert (E : swap_bound Ask target <= ob_next_bid ob).
        { clear - Hv Hwt H1. unfold swap_bound, unwrap_or, within_target in *. destruct Hv. destruct target; [cbn in Hwt|unfold MIN_TICK, MAX_TICK]; lia. }
        rewrite (proj2 (Z.leb_le _ _) E). cbn. eauto.
      - pose proof (bo_asks _ _ Hbk _ _ Et Htal). assert (E : ob_next_ask ob <= swap_bound Bid target).
        { clear - Hv Hwt H1. unfold swap_bound, unwrap_or, within_target in *. destruct Hv. destruct target; [cbn in Hwt|unfold MIN_TICK, MAX_TICK]; lia. }
        rewrite (proj2 (Z.leb_le _ _) E). cbn. eauto. }
    destruct Hm as [l Hm]. destruct (proj2 (walk_plan side _ _ _ q DEC levels_open) f r Hw) as (fs & pr & Hp & Hf & Hd & ->).
    exists l, fs, pr. split; [|split; [exact Hf|reflexivity]]. split; [exact Hq0|exact Hbv|exact Hm| |rewrite partial_abs; exact Hd].
    rewrite opp_opp, (plan_levels l q Hm). exact Hp.
  Qed.
End Walk.
Lemma swap_internal e w sender tin out mn fee target w' r ob d :
  step e w (swap_call sender tin out mn fee target) = (w', Done r) -> s_orderbook (w_st w) = Some ob -> direction_from_pair ob (c_denom tin) out = Ok d ->
  exists m dn, run_market_order_internal (w_st w) (c_amount tin) d (swap_bound d target) = Ok (m, dn).
Proof.
  intros E Eob Ed. destruct (step_code _ _ _ _ _ E) as (s' & E1).
  assert (H : dispatch_swap_exact_amount_in e sender tin out mn fee target (w_st w) = (s', Ok r)).
  { destruct target; cbn [swap_call call_run] in E1; unfold sudo in E1; apply bind_inv in E1 as (u & s1 & H1 & H); apply active_inv in H1 as [-> _]; exact H. }
  unfold dispatch_swap_exact_amount_in in H.
  apply bind_inv in H as (u1 & s1 & H1 & H). apply mlift_inv in H1 as [-> H1].
  apply bind_inv in H as (u2 & s1 & H2 & H). apply mensure_inv in H2 as [-> H2].
  apply bind_inv in H as (ob' & s1 & H3 & H). apply mreadr_inv in H3 as [-> H3]. apply ok_or_inv in H3. rewrite Eob in H3. injection H3 as <-.
  apply bind_inv in H as (d' & s1 & H4 & H). apply mlift_inv in H4 as [-> H4]. rewrite Ed in H4. injection H4 as <-.
  apply bind_inv in H as (u3 & s1 & H5 & H). apply mlift_inv in H5 as [-> _].
  apply bind_inv in H as ([[o dn] rest] & s1 & H6 & _). unfold run_market_order in H6.
  apply bind_inv in H6 as ([m dn'] & s2 & H6 & _). apply mreadr_inv in H6 as [-> H6]. eauto.
Qed.

(** ** The machine follows the contract *)
Lemma bools (b1 b2 : bool) : b1 = true -> b2 = true -> b1 && b2 = true.
Proof. intros -> ->. reflexivity. Qed.
Lemma abs_active s Q : se_active (ma_set (abs s Q)) = active s.
Proof. reflexivity. Qed.
Lemma swap_machine e w G Q sender tin out mn fee target w' r :
  good w G Q -> call_ok (w_self w) (swap_call sender tin out mn fee target) = true ->
  step e w (swap_call sender tin out mn fee target) = (w', Done r) ->
  m_swap e sender tin out mn fee target (abs (w_st w) Q) = Some (abs (w_st w') (ideal_step e w (swap_call sender tin out mn fee target) Q), r).
Proof.
  intros Hg Hok E. pose proof (gd_inv _ _ _ Hg) as Hi. pose proof (gd_ref _ _ _ Hg) as Hr. pose proof (coin_in_bounds _ _ _ _ _ _ _ Hok) as Hamt.
  destruct (step_done _ _ _ _ _ _ Hi Hok E) as (G' & Ht & Hi' & _ & _).
  destruct (trans_swap _ _ _ _ _ _ _ _ _ _ _ _ _ (swap_call_args _ _ _ _ _ _) Ht) as (d & ob & l & fs & rest & pr & Ha & Eob & -> & Hav & Hdir & Hp & Hmn & -> & Es & ->).
  destruct (swap_internal _ _ _ _ _ _ _ _ _ _ _ _ E Eob Hdir) as (m & dn & Hint).
  pose proof (internal_fits _ _ _ _ _ _ _ _ _ _ _ _ Hi Eob Hamt Hp Hint) as Hfit.
  destruct (i_book _ _ Hi) as (ob' & Eob' & Hb). rewrite Eob in Eob'. injection Eob' as <-.
  set (side := opposite d). assert (Hd : d = opposite side) by (unfold side; rewrite opp_opp; reflexivity). 
  assert (Hside : direction_from_pair ob (c_denom tin) out = Ok (opposite side)) by (rewrite <- Hd; exact Hdir).
  apply (maker_direction _ Q _ _ _ _ Eob (bo_denoms _ _ Hb)) in Hside.
  assert (Hbd : forall t, 0 <= taken fs t) by (intros t; apply (taken_bounds _ _ _ _ _ _ _ _ _ _ Hi (proj1 Hamt) Hp)).
  pose proof Hp as Hp'. rewrite Hd in Hp'.
  unfold m_swap. rewrite Hside, abs_active. pose proof (sp_qty _ _ _ _ _ _ _ _ _ _ Hp) as Hq0. pose proof (sp_bound _ _ _ _ _ _ _ _ _ _ Hp) as Hbv.
  match goal with |- (if ?c then _ else _) = _ => assert (c = true) as -> end.
  { repeat apply bools; [apply active_ne; exact Ha|reflexivity|exact Hav|apply negb_true_iff, Z.eqb_neq; exact Hq0|].
    destruct target as [b|]; [|reflexivity]. cbn in Hbv. destruct Hbv. unfold tick_ok. apply bools; apply Z.leb_le; assumption. }
  cbn [abs ma_orders]. rewrite (walk_of_pre _ _ _ Hi Hr _ Eob side target _ Hamt _ _ _ _ Hp' Hfit). rewrite total_out_map, (proj2 (Z.leb_le _ _) Hmn).

  assert (Ef : ideal_step e w (swap_call sender tin out mn 0 target) Q = ideal_fill (fun t d => tick_liquidity (w_st w) t d - tick_liquidity (w_st w') t d) Q).
  { unfold ideal_step. rewrite E. destruct target; reflexivity. }
  rewrite Ef. set (Q' := ideal_fill _ Q). f_equal. f_equal.
  assert (Ea : abs (w_st w') Q' = with_orders (abs (w_st w) Q) (lives_of Q')).
  { rewrite with_abs, Es. unfold abs. destruct (book_after_denoms ob side fs) as [K1 K2]. 
    assert (Hden : forall d, deposit_denom (swap_st (w_st w) G ob side fs) d = deposit_denom (w_st w) d).
    { intros d'. rewrite (den_eq _ _ _ Eob), (den_eq _ (book_after ob side fs)) by reflexivity. destruct d'; cbn; assumption. }
    unfold side in *. rewrite !Hden. reflexivity. }
  rewrite Ea. unfold with_orders. f_equal. unfold Q'. apply fill_lives; [apply (entries_nonneg _ _ _ Hr)|intros t; rewrite taken_at_map; apply Hbd|].
  intros t d0. rewrite taken_at_map, (tick_liquidity_open _ _ _ _ Hi), (tick_liquidity_open _ _ _ _ Hi'). unfold gfills, side.
  destruct (decide (d0 = opposite d)) as [->|]; unfold g_open, g_fill; cbn [g_items g_F]; lia.
Qed.
Theorem machine_done e w G Q c w' r :
  good w G Q -> call_ok (w_self w) c = true -> step e w c = (w', Done r) ->
  m_run e c (abs (w_st w) Q) = Some (abs (w_st w') (ideal_step e w c Q), r).
Proof.
  intros Hg Hok E. pose proof (gd_inv _ _ _ Hg) as Hi. pose proof (gd_ref _ _ _ Hg) as Hr.
  destruct (step_done _ _ _ _ _ _ Hi Hok E) as (G' & Ht & Hi' & _ & _).
  destruct c as [i m|m| |c].
  - destruct m as [t d q b|t id|t id|l|a].
    + destruct (trans_place _ _ _ _ _ _ _ _ _ _ _ Ht) as (ob & Hq & [P1 P2 P3 P4 P5 P6 P7 P8] & Ha & -> & -> & _).
      assert (Ei : ideal_step e w (CExec i (PlaceLimit t d q b)) Q = ideal_place t d (next_id (w_st w)) (i_sender i) b (e_time e) q Q).
      { unfold ideal_step. rewrite E. reflexivity. }
      rewrite Ei. cbn [m_run]. unfold m_place. rewrite abs_active, abs_deposit, abs_payout, P5. cbn [c_denom c_amount].
      match goal with |- (if ?c then _ else _) = _ => assert (c = true) as -> end.
      { repeat apply bools; [apply active_ne; exact Ha|apply Z.leb_le; apply P2|apply Z.leb_le; apply P2|apply Z.ltb_lt; exact P3|exact P4
          |apply bool_decide_eq_true; symmetry; apply den_eq; exact P1|apply Z.eqb_refl]. }
      f_equal. f_equal.
      * unfold abs. cbn [ma_quote ma_base ma_set ma_next ma_orders]. f_equal.
        -- rewrite (den_eq _ _ _ P1), (den_eq _ (place_update_book ob d t)) by reflexivity. destruct d; cbn; repeat destruct (_ <? _); reflexivity.
        -- rewrite (den_eq _ _ _ P1), (den_eq _ (place_update_book ob d t)) by reflexivity. destruct d; cbn; repeat destruct (_ <? _); reflexivity.
        -- unfold ideal_place, lives_of. rewrite List.filter_app, map_app. f_equal. cbn [List.filter]. unfold en_live. cbn [en_open en_filled].
           rewrite Z.add_0_r, (proj2 (Z.ltb_lt _ _) P3). reflexivity.
      * unfold place_resp, proceeds_denom. rewrite !(den_eq _ _ _ P1), <- opp_denom. reflexivity.
    + destruct (trans_cancel _ _ _ _ _ _ _ _ _ Ht) as (ob & o & n & cc & m' & tr' & c' & Ha & A1 & A2 & A3 & A4 & A5 & A6 & A7 & -> & -> & _).
      destruct (entry_of _ _ _ Hr _ _ _ _ _ A2 A5) as (en & Hen & (D1 & D2 & D3 & D4 & D5 & D6 & D7) & Eop & Ef).
      pose proof (oo_qty _ _ _ _ (i_order _ _ Hi _ _ A2)) as Hq.
      assert (Hf0 : en_filled en = 0) by (rewrite Ef; apply fifo_zero; [apply Hq|exact A7]).
      assert (Hl : en_live en = true) by (unfold en_live; apply Z.ltb_lt; lia).
      assert (Ei : ideal_step e w (CExec i (CancelLimit t id)) Q = ideal_cancel t id Q) by (unfold ideal_step; rewrite E; reflexivity).
      rewrite Ei. cbn [m_run]. unfold m_cancel. cbn [abs ma_orders]. fold (abs (w_st w) Q).
      rewrite (find_lives_in t id Q en (rf_ids _ _ _ Hr) Hen Hl D1 D2). unfold no_funds. rewrite abs_active, A3. cbn [strip re_owner re_filled re_open re_dir re_placed].
      match goal with |- (if ?c then _ else _) = _ => assert (c = true) as -> end.
      { repeat apply bools; [apply active_ne; exact Ha|reflexivity|apply bool_decide_eq_true; congruence|apply Z.eqb_eq; exact Hf0]. }
      f_equal. f_equal.
      * rewrite <- (cancel_lives _ _ _ t id Hr).
        -- rewrite with_abs. symmetry. apply abs_frame; reflexivity.
        -- intros e' He' Et' Ei'. assert (e' = en) as ->; [|exact Hf0]. eapply (ids_inj Q); [apply (rf_ids _ _ _ Hr)|assumption|assumption|congruence].
      * unfold cancel_resp. rewrite abs_deposit, abs_payout. unfold proceeds_denom. rewrite D3, D7, !(den_eq _ _ _ A1), <- opp_denom, A4.
        assert (en_open en = o_quantity o) as -> by lia. reflexivity.
    + destruct (trans_claim _ _ _ _ _ _ _ _ _ Ht) as (ob & a & ms & o & Ha & A1 & A2 & Hc & ->).
      assert (Ei : ideal_step e w (CExec i (ClaimLimit t id)) Q = ideal_claim t id Q) by (unfold ideal_step; rewrite E; reflexivity).
      rewrite Ei. cbn [m_run]. unfold m_claim, no_funds. rewrite abs_active, A2, (proj2 (active_ne _) Ha). cbn [andb].
      rewrite (claim1_machine _ _ _ _ _ _ _ _ _ _ _ _ Hi Hr A1 Hc). reflexivity.
    + destruct (trans_batch _ _ _ _ _ _ _ _ Ht) as (ob & ms & es & Ha & A1 & A2 & A3 & Hc & ->).
      assert (Ei : ideal_step e w (CExec i (BatchClaim l)) Q = foldl (fun Q ev => ideal_claim (ce_tick ev) (ce_id ev) Q) Q es) by (unfold ideal_step; rewrite E; reflexivity).
      rewrite Ei. cbn [m_run]. unfold m_batch, no_funds. rewrite abs_active, A2, (proj2 (active_ne _) Ha). cbn [andb].
      assert (Z.of_nat (length l) <=? 100 = true) as -> by (apply Z.leb_le; exact A3).
      rewrite (claims_machine _ _ _ _ _ _ _ _ _ Hc _ A1 Hr). reflexivity.
    + destruct (trans_auth _ _ _ _ _ _ _ _ Ht) as (Ed & _ & _ & _ & _).
      assert (Ei : ideal_step e w (CExec i (AuthMsg a)) Q = Q) by (unfold ideal_step; rewrite E; reflexivity).
      rewrite Ei. cbn [m_run]. apply auth_machine. exact Ed.
  - cbn [m_run]. destruct (is_role_sudo m) eqn:Em.
    + assert (Ei : ideal_step e w (CSudo m) Q = Q) by (unfold ideal_step; rewrite E; destruct m; try discriminate; reflexivity).
      rewrite Ei. apply role_machine; [exact Em|]. destruct (step_code _ _ _ _ _ E) as (s' & Ec). cbn [call_run] in Ec.
      unfold step in E. cbn [call_run] in E. rewrite Ec in E. destruct (sends _ _ _ _); [|discriminate]. injection E as <-. exact Ec.
    + destruct m; try discriminate.
      * exact (swap_machine e w G Q _ _ _ _ _ None _ _ Hg Hok E).
      * exact (swap_machine e w G Q _ _ _ _ _ (Some _) _ _ Hg Hok E).
      * exfalso. destruct (step_code _ _ _ _ _ E) as (s' & Ec). cbn [call_run] in Ec. unfold sudo in Ec. apply bind_inv in Ec as (u & s1 & H1 & H). discriminate.
  - unfold step in E. cbn in E. unfold ideal_step, step. cbn. injection E as <- <-. reflexivity.
  - unfold step in E. cbn in E. unfold ideal_step, step. cbn. injection E as <- <-. reflexivity.
Qed.

(** ** The contract follows the machine *)
Definition all_ok (e : env) : env := mkEnv (e_time e) (e_addr_valid e) (e_supply e) (fun _ => true).
Lemma call_run_bank e c s : call_run (all_ok e) c s = call_run e c s.
Proof. destruct c as [i m|m| |c]; [destruct m; try reflexivity|destruct m; reflexivity|reflexivity|reflexivity].
Qed.
Lemma m_run_bank e c m : m_run (all_ok e) c m = m_run e c m.
Proof. destruct c as [i x|x| |c]; [destruct x; reflexivity|destruct x; reflexivity|reflexivity|reflexivity]. Qed.
Ltac conds H := repeat match type of H with _ && _ = true => let K := fresh "K" in apply andb_prop in H as [H K] end.
Lemma liq_ready w G Q d : ready w G Q -> get_directional_liquidity (w_st w) d <= U256_MAX.
Proof.
  intros [Hre Hg Hn Hto Hl Hct]. pose proof DEC_pos.
  rewrite (total_liquidity _ _ _ (gd_inv _ _ _ Hg) (gd_ref _ _ _ Hg)). pose proof (open_dir_bound _ _ _ d (gd_ref _ _ _ Hg)) as Ho.
  assert (K : U128_MAX * 2 ^ 56 * DEC <= U256_MAX) by (vm_compute; discriminate).
  etransitivity; [|exact K]. apply Z.mul_le_mono_nonneg_r; [lia|]. etransitivity; [exact Ho|]. apply Z.mul_le_mono_nonneg_l; [vm_compute; discriminate|assumption].
Qed.
Lemma swap_accepts e w G Q sender tin out mn fee target m' r :
  ready w G Q -> call_ok (w_self w) (swap_call sender tin out mn fee target) = true ->
  m_swap e sender tin out mn fee target (abs (w_st w) Q) = Some (m', r) -> Forall (fun m => 0 < c_amount (sm_coin m)) (r_msgs r) ->
  succeeds (all_ok e) w (swap_call sender tin out mn fee target).
Proof.
  intros Hrd Hok H Hpos. pose proof (rd_good _ _ _ Hrd) as Hg. pose proof (gd_inv _ _ _ Hg) as Hi. pose proof (gd_ref _ _ _ Hg) as Hr.
  pose proof (coin_in_bounds _ _ _ _ _ _ _ Hok) as Hamt.
  destruct (i_book _ _ Hi) as (ob & Eob & Hb). unfold m_swap in H. destruct (maker_side _ _ _) as [side|] eqn:Es; [|discriminate].
  pose proof (proj1 (maker_direction _ Q _ _ _ _ Eob (bo_denoms _ _ Hb)) Es) as Hdir.
  match type of H with (if ?c then _ else _) = _ => destruct c eqn:Ec; [|discriminate] end. conds Ec. rewrite abs_active in Ec.
  apply negb_true_iff, Z.eqb_neq in K0. apply Z.eqb_eq in K2. subst fee.
  cbn [abs ma_orders] in H. destruct (walk _ _ _ _ _ _) as [[f rest]|] eqn:Ew; [|discriminate].
  destruct (Z.leb_spec mn (total_out f)) as [Hmn|]; [|discriminate]. injection H as <- <-. cbn [r_msgs] in Hpos.
  apply Forall_cons in Hpos as [Hpos _]. cbn in Hpos.
  destruct (pre_of_walk _ _ _ Hi Hr _ Eob side target _ Hamt _ _ Ew K0) as (l & fs & pr & Hp & Hf & ->).
  { intros En. rewrite En in Ew. cbn [walk] in Ew. destruct (_ || _); [|discriminate]. injection Ew as <- <-. cbn in Hpos. lia. }
  { intros b ->. exact K. }
  rewrite total_out_map in *.
  pose proof (internal_ok128 _ _ _ _ _ _ _ _ _ _ Hi Eob Hamt (liq_ready _ _ _ _ Hrd) Hf Hp) as Hint.
  destruct (swap_accepted (all_ok e) w G Q sender tin out mn target ob (opposite side) _ _ Hrd Hok Ec K1 eq_refl Eob Hdir Hint) as (w' & rest' & E); cbn [mkt_after m_out]; [lia|lia|].
  exists w'. eexists. exact E.
Qed.
Lemma machine_accepts e w0 h c m' r :
  start w0 -> history w0 h -> short h -> let w := run w0 h in call_ok (w_self w) c = true ->
  m_run e c (abs (w_st w) (ideal_run w0 [] h)) = Some (m', r) -> Forall (fun m => 0 < c_amount (sm_coin m)) (r_msgs r) ->
  succeeds (all_ok e) w c.
Proof.
  intros Hs Hh Hsh w Hok H Hpos. destruct (short_ready w0 h Hs Hh Hsh) as (G & Hrd). fold w in Hrd. set (Q := ideal_run w0 [] h) in *.
  pose proof (rd_good _ _ _ Hrd) as Hg. pose proof (gd_inv _ _ _ Hg) as Hi. pose proof (gd_ref _ _ _ Hg) as Hr.
  destruct c as [[sender funds] m|m| |c]; [destruct m as [t d q b|t id|t id|l|a]| | |]; cbn [m_run] in H.
  - unfold m_place in H. match type of H with (if ?c then _ else _) = _ => destruct c eqn:Ec; [|discriminate] end. clear H.
    cbn [i_funds] in Ec. apply andb_prop in Ec as [Ec K3]. apply andb_prop in Ec as [Ec K2]. apply andb_prop in Ec as [Ec K1]. apply andb_prop in Ec as [Ec K0].
    rewrite abs_active in Ec. destruct funds as [|cn [|]]; try discriminate. apply andb_prop in K3 as [K3 K4]. apply bool_decide_eq_true in K3. apply Z.eqb_eq in K4.
    rewrite abs_deposit in K3. apply Z.ltb_lt in K1. unfold tick_ok in K0. apply andb_prop in K0 as [T1 T2]. apply Z.leb_le in T1, T2.
    assert (Hq : q <= U128_MAX).
    { pose proof (call_funds_typed _ _ Hok) as Hty. cbn in Hty. apply andb_prop in Hty as [Hty _]. unfold coin_typed, u128 in Hty. apply andb_prop in Hty as [_ Hty]. apply Z.leb_le in Hty. lia. }
    assert (cn = mkCoin (deposit_denom (w_st w) d) q) as -> by (destruct cn; cbn in *; congruence).
    apply (C03_place_accepted (all_ok e) w0 h sender t d q b Hs Hh Hsh Ec); [split; assumption|lia|].
    intros x ->. apply andb_prop in K2 as [B1 B2]. apply Z.leb_le in B1, B2. lia.
  - unfold m_cancel in H. cbn [abs ma_orders] in H. fold (abs (w_st w) Q) in H. destruct (find_order _ _ _) as [o|] eqn:Ef; [|discriminate].
    match type of H with (if ?c then _ else _) = _ => destruct c eqn:Ec; [|discriminate] end. clear H.
    apply find_lives_some in Ef as (en & Hen & Hl & <- & <- & ->). conds Ec. rewrite abs_active in Ec. unfold no_funds in K1. cbn [i_funds i_sender strip re_owner re_filled] in *.
    destruct funds; [|discriminate]. apply bool_decide_eq_true in K0. apply Z.eqb_eq in K. subst sender.
    apply (C06_cancel_iff (all_ok e) w0 h en Hs Hh Hsh Hen Hl Hok Ec eq_refl). exact K.
  - unfold m_claim in H. match type of H with (if ?c then _ else _) = _ => destruct c eqn:Ec; [|discriminate] end. conds Ec. rewrite abs_active in Ec.
    unfold no_funds in K. cbn [i_funds i_sender] in *. destruct funds; [|discriminate]. 
    destruct (claim_one sender t id (abs (w_st w) Q)) as [[[m1 ms] ev]|] eqn:E1; [|discriminate]. clear H.
    unfold claim_one in E1. cbn [abs ma_orders] in E1. destruct (find_order _ _ _) as [o|] eqn:Ef; [|discriminate].
    apply find_lives_some in Ef as (en & Hen & Hl & <- & <- & ->). cbn [strip re_filled] in E1. destruct (Z.ltb_spec 0 (en_filled en)) as [Hf|]; [|discriminate].
    apply (C09_claim_iff (all_ok e) w0 h sender _ _ Hs Hh Hsh Hok Ec eq_refl eq_refl ltac:(reflexivity)). exists en. auto.
  - unfold m_batch in H. match type of H with (if ?c then _ else _) = _ => destruct c eqn:Ec; [|discriminate] end. clear H. conds Ec. rewrite abs_active in Ec.
    unfold no_funds in K0. cbn [i_funds i_sender] in *. destruct funds; [|discriminate]. apply Z.leb_le in K.
    apply (C13_batch_accepted (all_ok e) w0 h sender l Hs Hh Hsh Hok Ec eq_refl eq_refl ltac:(reflexivity)). exact K.
  - destruct (C27_auth_exact (all_ok e) w (mkInfo sender funds) a) as [HA _]. destruct HA as (w' & r' & E & _); [|exists w', r'; exact E].
    cbn [i_sender] in *. unfold m_auth, abs, settings_of in H. cbn [ma_set] in H.
    destruct a; cbn [may e_addr_valid all_ok];
      match type of H with (if ?c then _ else _) = _ => destruct c eqn:Ec; [|discriminate] end; clear H; conds Ec;
      repeat match goal with
      | K : bool_decide _ = true |- _ => apply bool_decide_eq_true in K
      | K : _ || _ = true |- _ => apply orb_prop in K as [K|K]
      | K : (_ <=? _) = true |- _ => apply Z.leb_le in K
      end; unfold is_admin, is_moderator; auto.
  - destruct (is_role_sudo m) eqn:Em.
    + destruct (C27_chain_exact (all_ok e) w m Em) as [HA _]. destruct HA as (w' & r' & E & _); [|exists w', r'; exact E].
      unfold m_sudo, abs, settings_of in H. cbn [ma_set] in H. fold (active (w_st w)) in H.
      destruct m; try discriminate; cbn [chain_may all_ok e_addr_valid]; (match type of H with (if ?c then _ else _) = _ => destruct c eqn:Ec; [|discriminate] end);
        conds Ec; auto.
    + unfold m_sudo in H. destruct (ma_set _) eqn:Ems. destruct m; try discriminate.
      * exact (swap_accepts e w G Q _ _ _ _ _ None _ _ Hrd Hok H Hpos).
      * exact (swap_accepts e w G Q _ _ _ _ _ (Some _) _ _ Hrd Hok H Hpos).
  - eexists _, _. reflexivity.
  - eexists _, _. reflexivity.
Qed.

(** ** One step, and histories *)
Lemma forallb_sends e l : forallb (fun s => (0 <? c_amount (sm_coin s)) && e_bank_ok e (sm_to s)) l = true <-> (forall m, m ∈ l -> transferable e m).
Proof.
  rewrite forallb_forall. unfold transferable. split.
  - intros H m Hm. apply elem_of_list_In in Hm. specialize (H m Hm). apply andb_prop in H as [H1 H2]. apply Z.ltb_lt in H1. auto.
  - intros H m Hm. apply elem_of_list_In in Hm. destruct (H m Hm) as [H1 H2]. apply bools; [apply Z.ltb_lt; exact H1|exact H2].
Qed.
Theorem machine_step e w0 h c : start w0 -> history w0 h -> short h ->
  let w := run w0 h in let Q := ideal_run w0 [] h in call_ok (w_self w) c = true ->
  m_step e (abs (w_st w) Q) c = (abs (w_st (fst (step e w c))) (ideal_step e w c Q), snd (step e w c)).
Proof.
  intros Hs Hh Hsh w Q Hok. destruct (short_ready w0 h Hs Hh Hsh) as (G & Hrd). fold w Q in Hrd. pose proof (rd_good _ _ _ Hrd) as Hg.
  pose proof (rd_reach _ _ _ Hrd) as Hre.
  destruct (step e w c) as [w' [r|]] eqn:E; cbn [fst snd].
  - unfold m_step. rewrite (machine_done _ _ _ _ _ _ _ Hg Hok E).
    destruct (step_done _ _ _ _ _ _ (gd_inv _ _ _ Hg) Hok E) as (G' & _ & _ & _ & Hsend).
    rewrite (proj2 (forallb_sends _ _)); [reflexivity|]. intros m Hm. eapply sends_transferable; eassumption.
  - pose proof (step_failed _ _ _ _ E) as ->. assert (ideal_step e w c Q = Q) as -> by (unfold ideal_step; rewrite E; reflexivity).
    unfold m_step. destruct (m_run e c (abs (w_st w) Q)) as [[m' r]|] eqn:Em; [|reflexivity].
    destruct (forallb _ _) eqn:Ef; [exfalso|reflexivity]. rewrite forallb_sends in Ef.
    destruct (machine_accepts e w0 h c m' r Hs Hh Hsh Hok Em) as (w1 & r1 & E1).
    { apply Forall_forall. intros m Hm. apply Ef. exact Hm. }
    fold w in E1. pose proof (machine_done _ _ _ _ _ _ _ Hg Hok E1) as E2. rewrite m_run_bank, Em in E2. injection E2 as -> <-.
    destruct (step_code _ _ _ _ _ E1) as (s' & Ec). rewrite call_run_bank in Ec.
    destruct (proj1 (C47_all_or_nothing e w c s' r Hre Hok Ec) Ef) as (w2 & E3 & _). congruence.
Qed.
Lemma short_app h1 h2 : short (h1 ++ h2) -> short h1.
Proof. unfold short. rewrite app_length. lia. Qed.
Lemma machine_history w0 h2 : forall h1, start w0 -> history w0 (h1 ++ h2) -> short (h1 ++ h2) ->
  m_outcomes (abs (w_st (run w0 h1)) (ideal_run w0 [] h1)) h2 = all_outcomes (run w0 h1) h2 /\
  m_after (abs (w_st (run w0 h1)) (ideal_run w0 [] h1)) h2 = abs (w_st (run w0 (h1 ++ h2))) (ideal_run w0 [] (h1 ++ h2)).
Proof.
  induction h2 as [|[e c] h2 IH]; intros h1 Hs Hh Hsh.
  - cbn [m_outcomes m_after all_outcomes]. rewrite app_nil_r. split; reflexivity.
  - assert (Ea : h1 ++ (e, c) :: h2 = (h1 ++ [(e, c)]) ++ h2) by (rewrite <- app_assoc; reflexivity).
    pose proof Hh as Hh0. pose proof Hsh as Hsh0. rewrite Ea in Hh, Hsh. specialize (IH (h1 ++ [(e, c)]) Hs Hh Hsh).
    apply history_app in Hh0 as [Hh1 Hh2]. apply Forall_cons in Hh2 as [Hok _]. cbn [snd] in Hok.
    pose proof (machine_step e w0 h1 c Hs Hh1 (short_app _ _ Hsh0) Hok) as Hst. cbv zeta in Hst.
    rewrite run_last, ideal_run_last in IH. rewrite Ea. destruct IH as [I1 I2].
    cbn [m_outcomes m_after all_outcomes]. rewrite Hst. cbn [fst snd]. rewrite I1, I2. split; reflexivity.
Qed.
Lemma new_abs e self quote base funds w0 : init_world e self quote base funds = Some w0 -> abs (w_st w0) [] = m_new quote base.
Proof.
  intros H. unfold init_world in H. destruct (instantiate e quote base st_empty) as [s [r| | |]] eqn:E; try discriminate. injection H as <-. cbn [w_st].
  apply instantiate_inv in E as (-> & _). reflexivity.
Qed.

(** ** C50 *)
(** The contract and the machine give the same answer - success or failure, attributes, events, transfers, data - to every transaction. *)
Theorem C50_same_outcomes :
  forall e self quote base funds w0 h,
  init_world e self quote base funds = Some w0 -> forallb coin_typed funds = true -> history w0 h -> short h ->
  all_outcomes w0 h = m_outcomes (m_new quote base) h.
Proof.
  intros e self quote base funds w0 h H0 Hf Hh Hsh. rewrite <- (new_abs _ _ _ _ _ _ H0). symmetry.
  apply (machine_history w0 h [] (ex_intro _ e (ex_intro _ self (ex_intro _ quote (ex_intro _ base (ex_intro _ funds (conj H0 Hf)))))) Hh Hsh).
Qed.
Print Assumptions C50_same_outcomes.
Lemma machine_after e self quote base funds w0 h :
  init_world e self quote base funds = Some w0 -> forallb coin_typed funds = true -> history w0 h -> short h ->
  m_after (m_new quote base) h = abs (w_st (run w0 h)) (ideal_run w0 [] h).
Proof.
  intros H0 Hf Hh Hsh. rewrite <- (new_abs _ _ _ _ _ _ H0).
  apply (machine_history w0 h [] (ex_intro _ e (ex_intro _ self (ex_intro _ quote (ex_intro _ base (ex_intro _ funds (conj H0 Hf)))))) Hh Hsh).
Qed.
(** The stored data is that of the machine. *)
Lemma shows_abs w G Q : good w G Q -> shows (w_st w) (abs (w_st w) Q).
Proof.
  intros Hg. pose proof (gd_inv _ _ _ Hg) as Hi. pose proof (gd_ref _ _ _ Hg) as Hr. destruct (i_book _ _ Hi) as (ob & Eob & _).
  destruct (i_fee _ _ Hi) as (f & Ef & _). destruct (i_rcp _ _ Hi) as (rc & Erc). split.
  - exists ob. cbn [abs ma_quote ma_base]. rewrite !(den_eq _ _ _ Eob). auto.
  - cbn [abs ma_set settings_of se_active se_fee se_recipient se_admin se_admin_offer se_moderator se_moderator_offer]. rewrite Ef, Erc. reflexivity.
  - reflexivity.
  - intros t id o Eo. pose proof (i_order _ _ Hi _ _ Eo) as Ho. destruct (oo_live _ _ _ _ Ho) as (n & c & Hl & _).
    destruct (entry_of _ _ _ Hr _ _ _ _ _ Eo Hl) as (en & Hen & (D1 & D2 & D3 & D4 & D5 & D6 & D7) & Eop & Efl).
    pose proof (oo_qty _ _ _ _ Ho) as Hq. exists (strip en). cbn [abs ma_orders]. split.
    + apply find_lives_in; auto; [apply (rf_ids _ _ _ Hr)|]. unfold en_live. apply Z.ltb_lt. lia.
    + cbn [strip re_tick re_id re_dir re_owner re_bounty re_time re_placed re_open re_filled]. rewrite (oo_tick _ _ _ _ Ho), (oo_id _ _ _ _ Ho). cbn [fst snd].
      assert (en_open en + en_filled en = o_quantity o) as -> by lia. rewrite D1, D2, D3, D4, D5, D6, D7. reflexivity.
  - intros t id En. cbn [abs ma_orders]. destruct (find_order t id (lives_of Q)) as [r|] eqn:E; [exfalso|reflexivity].
    apply find_lives_some in E as (en & Hen & Hl & <- & <- & ->). destruct (live_order _ _ _ Hi Hr en Hen Hl) as (o & n & c & Eo & _). congruence.
  - intros r Hin. cbn [abs ma_orders] in Hin. apply lives_in in Hin as (en & Hen & Hl & ->). destruct (entries_nonneg _ _ _ Hr en Hen).
    cbn [strip re_open re_filled]. unfold en_live in Hl. apply Z.ltb_lt in Hl. auto.
  - cbn [abs ma_orders]. pose proof (rf_ids _ _ _ Hr) as Hs. clear -Hs. induction Q as [|e Q IH]; [constructor|]. rewrite lives_of_cons. cbn [map] in Hs.
    apply StronglySorted_inv in Hs as [Hs Hf]. specialize (IH Hs). destruct (en_live e); [|exact IH]. cbn [app map]. constructor; [exact IH|].
    rewrite Forall_forall in *. intros x Hx. apply Hf. apply elem_of_list_In, in_map_iff in Hx as (o & <- & Hx). apply elem_of_list_In, lives_in in Hx as (e' & He' & _ & ->).
    change (re_id (strip e')) with (en_id e'). apply elem_of_list_In, in_map, elem_of_list_In. exact He'.
  - intros t d. cbn [abs ma_orders]. rewrite (open_on_liquidity _ _ _ Hi Hr), (tick_liquidity_open _ _ _ _ Hi). destruct (s_ticks (w_st w) !! t) as [ts|] eqn:Et.
    + rewrite (inv_tick_some _ _ _ _ Hi Et). destruct d; reflexivity.
    + rewrite (i_none _ _ Hi t d Et). reflexivity.
Qed.
Theorem C50_same_state :
  forall e self quote base funds w0 h,
  init_world e self quote base funds = Some w0 -> forallb coin_typed funds = true -> history w0 h -> short h ->
  shows (w_st (run w0 h)) (m_after (m_new quote base) h).
Proof.
  intros e self quote base funds w0 h H0 Hf Hh Hsh. rewrite (machine_after _ _ _ _ _ _ _ H0 Hf Hh Hsh).
  destruct (run_good w0 h) as (G & Hg); [exists e, self, quote, base, funds; auto|exact Hh|]. eapply shows_abs. exact Hg.
Qed.
Print Assumptions C50_same_state.

(** The answers to out-amount queries. *)
Lemma output_one side q : output_for side q ATOM = q.
Proof. unfold output_for, ask_gross, bid_gross, floor_div. destruct side; apply Z.div_mul; discriminate. Qed.
Lemma quote_machine w G Q tin out : ready w G Q -> 0 <= c_amount tin <= U128_MAX ->
  match m_quote tin out (abs (w_st w) Q) with
  | Some a => calc_out_amount_given_in (w_st w) tin out 0 = Ok (mkCoin out a)
  | None => forall answer, calc_out_amount_given_in (w_st w) tin out 0 <> Ok answer
  end.
Proof.
  intros Hrd Hamt. pose proof (rd_good _ _ _ Hrd) as Hg. pose proof (gd_inv _ _ _ Hg) as Hi. pose proof (gd_ref _ _ _ Hg) as Hr.
  destruct (i_book _ _ Hi) as (ob & Eob & Hb). pose proof (fun side => maker_direction _ Q ob (c_denom tin) out side Eob (bo_denoms _ _ Hb)) as Hmd.
  unfold calc_out_amount_given_in. cbn [ensure_swap_fee]. change (ensure_swap_fee 0) with (Ok tt). cbn [rbind]. unfold load_orderbook. rewrite Eob. cbn [ok_or rbind].
  unfold m_quote. destruct (maker_side (abs (w_st w) Q) (c_denom tin) out) as [side|] eqn:Es.
  2:{ intros answer. destruct (direction_from_pair ob (c_denom tin) out) as [d| | |] eqn:Ed; try discriminate. specialize (Hmd (opposite d)). rewrite opp_opp in Hmd.
      specialize (proj2 Hmd eq_refl). discriminate. }
  pose proof (proj1 (Hmd side) eq_refl) as Hdir. destruct (direction_denom _ _ _ _ (bo_denoms _ _ Hb) Hdir) as [D1 D2]. rewrite Hdir. cbn [rbind].
  change (match opposite side with Bid => MAX_TICK | Ask => MIN_TICK end) with (swap_bound (opposite side) None).
  assert (Hfwd : forall m dn, run_market_order_internal (w_st w) (c_amount tin) (opposite side) (swap_bound (opposite side) None) = Ok (m, dn) ->
     c_amount tin <> 0 /\ exists fs r, walk side false (open_on side (lives_of Q)) (levels side None (lives_of Q)) (c_amount tin) ATOM = Some (map drop_in fs, r)).
  { intros m dn Hint. destruct (internal_inv _ _ _ _ _ _ _ _ Hi Eob Hamt Hint) as (l & fs & r & pr & Hp & _). split; [apply Hp|].
    pose proof (internal_fits _ _ _ _ _ _ _ _ _ _ _ _ Hi Eob Hamt Hp Hint) as Hfit. exists fs, r.
    exact (walk_of_pre _ _ _ Hi Hr _ Eob side None _ Hamt _ _ _ _ Hp Hfit). }
  destruct (Z.eqb_spec (c_amount tin) 0) as [E0|Hn0].
  { intros answer H. apply rbind_inv in H as ([m dn] & H & _). destruct (Hfwd _ _ H). contradiction. }
  cbn [abs ma_orders]. destruct (walk _ _ _ _ _ _) as [[f r]|] eqn:Ew.
  2:{ intros answer H. apply rbind_inv in H as ([m dn] & H & _). destruct (Hfwd _ _ H) as (_ & fs & r & Ew'). discriminate. }
  destruct (pre_of_walk _ _ _ Hi Hr _ Eob side None _ Hamt _ _ Ew Hn0) as (l & fs & pr & Hp & Hf & ->); [|discriminate|].
  { intros En. rewrite En in Ew. cbn [walk] in Ew. rewrite output_one, (proj2 (Z.eqb_neq _ _) Hn0) in Ew. discriminate. }
  rewrite (internal_ok128 _ _ _ _ _ _ _ _ _ _ Hi Eob Hamt (liq_ready _ _ _ _ Hrd) Hf Hp). cbn [rbind fst snd mkt_after m_out]. rewrite total_out_map, <- D2, Z.add_0_l. reflexivity.
Qed.
Theorem C50_same_quotes :
  forall e self quote base funds w0 h tin out,
  init_world e self quote base funds = Some w0 -> forallb coin_typed funds = true -> history w0 h -> short h -> coin_typed tin = true ->
  match m_quote tin out (m_after (m_new quote base) h) with
  | Some a => calc_out_amount_given_in (w_st (run w0 h)) tin out 0 = Ok (mkCoin out a)
  | None => forall answer, calc_out_amount_given_in (w_st (run w0 h)) tin out 0 <> Ok answer
  end.
Proof.
  intros e self quote base funds w0 h tin out H0 Hf Hh Hsh Ht. rewrite (machine_after _ _ _ _ _ _ _ H0 Hf Hh Hsh).
  destruct (short_ready w0 h) as (G & Hrd); [exists e, self, quote, base, funds; auto|exact Hh|exact Hsh|]. eapply quote_machine; [exact Hrd|].
  unfold coin_typed, u128 in Ht. apply andb_prop in Ht as [T1 T2]. apply Z.leb_le in T1, T2. auto.
Qed.
Print Assumptions C50_same_quotes.
(** A case: three bids and an ask, partial fills, a refused cancellation, claims by a stranger, a cancellation, swaps to a target,
    administration; both sides computed. *)
Definition hist_machine : list (env * call) :=
  hist_three ++ [cancel "a" 0 0; claim "z" 0 0; claim "z" 0 0; place "d" 100000 Ask 100000 (Some (10 ^ 15)); buy "y" 50000;
                 cancel "c" 0 2; (tenv, CExec (mkInfo "z" []) (BatchClaim [(0, 1); (100000, 3); (5, 7)]));
                 (tenv, CSudo (SwapToTick "y" (mkCoin "quote" 100000) "base" 1 0 200000)); (tenv, CSudo (SudoSetActive false)); claim "z" 100000 3].
Example C50_case :
  history w_start hist_machine /\ short hist_machine /\
  all_outcomes w_start hist_machine = m_outcomes (m_new "quote" "base") hist_machine /\
  map (fun o => match o with Done r => Z.of_nat (length (r_msgs r)) | Failed => -1 end) (all_outcomes w_start hist_machine)
  = [0; 0; 0; 1; -1; 1; -1; 0; 1; 1; 3; 2; 0; -1].
Proof.
  split; [hist|]. split; [unfold short; cbn; lia|]. split; vm_compute; reflexivity.
Qed.
