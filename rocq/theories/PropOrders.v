(** * Properties C03 - C07: placing and cancelling orders. *)
From Verif Require Import Base Dec Types State TickMath Sumtree Tick Order Auth Contract World SpecMath TickMathProofs
  TreeDefs Exec SumtreeProofs SumtreeRebalance SumtreeInsert PrefixSum SumtreeRoot SumtreeFail Ghost Inv StepPlace StepCancel StepClaim
  SwapPlan StepSwap Trans Spec Reach Refine RefineStep Reserve Solvency Books SpecProps PropBase Tests.

Lemma side_ghost s G t d : inv s G -> side_values s t d = tv_of (G t d).
Proof.
  intros Hi. unfold side_values. destruct (s_ticks s !! t) as [ts|] eqn:E.
  - rewrite (inv_tick_some _ _ _ _ Hi E). apply get_ts_of.
  - rewrite (i_none _ _ Hi _ d E). symmetry. apply tv_of0.
Qed.
Lemma bal_exact w w' c l : (forall denom, bal_get (w_bal w') denom = bal_get (credits (w_bal w) (call_funds c)) denom - msgs_in denom l) ->
  forall denom, balance w' denom = balance w denom + received (call_funds c) denom - msgs_in denom l.
Proof.
  intros H denom. unfold balance. change (unwrap_or (w_bal w' !! denom) 0) with (bal_get (w_bal w') denom). rewrite H, credits_get.
  change (unwrap_or (w_bal w !! denom) 0) with (bal_get (w_bal w) denom).
  assert (E : coins_in denom (call_funds c) = received (call_funds c) denom).
  { generalize (call_funds c). clear. induction l as [|x l IH]; [reflexivity|]. cbn [coins_in received foldr]. rewrite IH. reflexivity. }
  rewrite E. reflexivity.
Qed.

(** C03 (only if, and effect): a PlaceLimit that goes through was sent to an active book, for a
    valid tick, a positive quantity, a bounty of at most 1%, with exactly the deposit attached.
    A new order appears under a fresh id announced in the response; that tick and direction
    gains exactly the quantity; nothing is sent; nothing else changes. *)
Theorem C03_place_effect :
  forall e w i t d q b w' r,
  reachable w -> call_ok (w_self w) (CExec i (PlaceLimit t d q b)) = true ->
  step e w (CExec i (PlaceLimit t d q b)) = (w', Done r) ->
  let id := attr_int (r_attrs r) "order_id" in
  (* accepted only under the rule *)
  active (w_st w) = true /\ valid_tick t /\ 0 < q /\ (forall x, b = Some x -> 0 <= x <= 10 ^ 16) /\
  i_funds i = [mkCoin (deposit_denom (w_st w) d) q] /\
  (* the new order *)
  (forall t', s_orders (w_st w) !! (t', id) = None) /\
  (exists o, s_orders (w_st w') = <[(t, id) := o]> (s_orders (w_st w)) /\
     o_tick o = t /\ o_id o = id /\ o_dir o = d /\ o_owner o = i_sender i /\ o_quantity o = q /\
     o_placed_quantity o = q /\ o_bounty o = b /\ o_placed_at o = e_time e) /\
  (* liquidity *)
  tick_liquidity (w_st w') t d = tick_liquidity (w_st w) t d + q /\
  pool_liquidity (w_st w') d = pool_liquidity (w_st w) d + q * ATOM /\
  (* nothing else *)
  (forall t' d', ~ (t' = t /\ d' = d) -> side_values (w_st w') t' d' = side_values (w_st w) t' d') /\
  pool_liquidity (w_st w') (opposite d) = pool_liquidity (w_st w) (opposite d) /\
  r_msgs r = [] /\ admin_data (w_st w') = admin_data (w_st w) /\ denoms_of (w_st w') = denoms_of (w_st w) /\
  (forall denom, balance w' denom = balance w denom + (if bool_decide (denom = deposit_denom (w_st w) d) then q else 0)).
Proof.
  intros e w i t d q b w' r Hre Hok E id. destruct (reachable_inv _ Hre) as (G & Hi).
  destruct (step_done _ _ _ _ _ _ Hi Hok E) as (G' & Ht & Hi' & Eself & Hsend).
  destruct (trans_place _ _ _ _ _ _ _ _ _ _ _ Ht) as (ob & Hq & Hp & Ha & -> & X4 & ->). symmetry in X4.
  pose proof Hp as [P1 P2 P3 P4 P5 P6 P7 P8].
  assert (Eid : id = next_id (w_st w)) by reflexivity. rewrite Eid.
  assert (Ed : deposit_denom (w_st w) d = get_expected_denom ob d) by (apply den_eq; assumption).
  split; [apply active_ne; assumption|]. split; [assumption|]. split; [assumption|].
  split. { intros x ->. cbn in P4. apply andb_prop in P4 as [K1 K2]. apply Z.leb_le in K1, K2. change (dec_percent 1) with (10 ^ 16) in K2. lia. }
  split; [congruence|].
  split. { intros t'. destruct (s_orders (w_st w) !! (t', next_id (w_st w))) as [o|] eqn:Eo; [|reflexivity].
    pose proof (oo_next _ _ _ _ (i_order _ _ Hi _ _ Eo)). cbn in H. lia. }
  split. { exists (placed_order e i (G t d) t d (next_id (w_st w)) q b). rewrite <- X4. split; [reflexivity|]. do 7 (split; [reflexivity|]). reflexivity. }
  split. { rewrite (tick_liquidity_open _ _ _ _ Hi'), (tick_liquidity_open _ _ _ _ Hi), gset_eq.
    unfold g_open, g_place. cbn [g_items g_F]. rewrite nfs_app. cbn. lia. }
  split. { rewrite <- X4. unfold pool_liquidity. cbn [place_st set_dirliq s_dirliq]. rewrite lookup_insert. reflexivity. }
  split. { intros t' d' Hn. rewrite (side_ghost _ _ _ _ Hi'), (side_ghost _ _ _ _ Hi), gset_ne; [reflexivity|].
    destruct (decide (t' = t)); [right|left]; tauto. }
  split. { rewrite <- X4. unfold pool_liquidity. cbn [place_st set_dirliq s_dirliq]. rewrite lookup_insert_ne by (intros E'; exact (opp_ne d (eq_sym E'))). reflexivity. }
  split; [reflexivity|]. split; [rewrite <- X4; reflexivity|].
  split. { unfold denoms_of. rewrite !(trans_den _ _ _ _ _ _ _ _ Ht). reflexivity. }
  intros denom. rewrite (bal_exact w w' (CExec i (PlaceLimit t d q b)) []).
  - cbn [call_funds msgs_in]. rewrite P5. cbn [received foldr c_denom c_amount]. rewrite <- Ed.
    destruct (bool_decide_reflect (deposit_denom (w_st w) d = denom)) as [<-|Hn]; [rewrite bool_decide_true by reflexivity; lia|].
    rewrite bool_decide_false by congruence. lia.
  - intros dn. apply (sends_exact e (w_self w)); [constructor|]. cbn [place_resp r_msgs] in Hsend. assumption.
Qed.
Print Assumptions C03_place_effect.

(** C03 (if): conversely such a PlaceLimit is always accepted. *)
Theorem C03_place_accepted :
  forall e w0 h sender t d q b,
  start w0 -> history w0 h -> short h ->
  let w := run w0 h in
  active (w_st w) = true -> valid_tick t -> 0 < q <= U128_MAX -> (forall x, b = Some x -> 0 <= x <= 10 ^ 16) ->
  succeeds e w (c_place sender [mkCoin (deposit_denom (w_st w) d) q] t d q b).
Proof.
  intros e w0 h sender t d q b Hs Hh Hsh w Ha Ht Hq Hb. destruct (short_ready w0 h Hs Hh Hsh) as (G & [Hre Hg Hn Hto Hl Hct]). fold w in Hre, Hg, Hn, Hto, Hl, Hct.
  pose proof (gd_inv _ _ _ Hg) as Hi. destruct (i_book _ _ Hi) as (ob & Eob & _).
  set (i := mkInfo sender [mkCoin (deposit_denom (w_st w) d) q]).
  assert (Hp : place_pre (w_st w) G ob i t d q b).
  { split; try assumption.
    - lia.
    - destruct b as [x|]; [|reflexivity]. specialize (Hb x eq_refl). cbn. change (dec_percent 1) with (10 ^ 16).
      destruct (Z.leb_spec 0 x), (Z.leb_spec x (10 ^ 16)); try reflexivity; lia.
    - rewrite <- (den_eq _ _ d Eob). reflexivity.
    - unfold U64_MAX. lia.
    - specialize (Hto t d). unfold tot in Hto. fold (tot (G t d)) in *. unfold U128_MAX, U256_MAX in *. rewrite DEC_val. lia.
    - rewrite (total_liquidity _ _ _ Hi (gd_ref _ _ _ Hg)). pose proof (open_dir_bound _ _ _ d (gd_ref _ _ _ Hg)).
      unfold U128_MAX, U256_MAX in *. rewrite DEC_val. nia. }
  pose proof (place_run _ _ _ e _ _ _ _ _ Hi (proj2 Hq) Hp) as Er.
  eexists _, _. apply step_ok.
  - cbn [c_place call_run]. unfold execute. rewrite (bind_ok _ _ _ _ _ (ensure_active _ Ha)). exact Er.
  - reflexivity.
Qed.
Print Assumptions C03_place_accepted.

Definition w_one : world := run w_start [place "a" 10 Bid 100 None].
Example start_ok : start w_start.
Proof. exists tenv, "contract", "quote", "base", []. split; reflexivity. Qed.
Ltac hist := repeat (apply Forall_cons; split; [vm_compute; reflexivity|]); apply Forall_nil; exact I.
Example C03_case :
  history w_start [place "a" 10 Bid 100 None] /\ reachable w_one /\ active (w_st w_one) = true /\
  (exists w' r, step tenv w_one (c_place "b" [mkCoin "base" 7] (-3) Ask 7 (Some (10 ^ 15))) = (w', Done r) /\
    attr_int (r_attrs r) "order_id" = 1 /\ tick_liquidity (w_st w') (-3) Ask = 7).
Proof.
  assert (H : history w_start [place "a" 10 Bid 100 None]) by hist. split; [exact H|].
  split; [apply start_reachable; [apply start_ok|exact H]|]. split; [vm_compute; reflexivity|].
  eexists _, _. split; [apply done_ok; vm_compute; reflexivity|]. split; vm_compute; reflexivity.
Qed.

(** C04: of any two placements in a history the later one gets the larger order id. *)
Lemma place_id e w G c w' r : inv (w_st w) G -> call_ok (w_self w) c = true -> step e w c = (w', Done r) ->
  (exists i t d q b, c = CExec i (PlaceLimit t d q b)) -> attr_int (r_attrs r) "order_id" = next_id (w_st w) /\ next_id (w_st w') = next_id (w_st w) + 1.
Proof.
  intros Hi Hok E (i & t & d & q & b & ->). destruct (step_done _ _ _ _ _ _ Hi Hok E) as (G' & Ht & Hi' & Eself & Hsend).
  destruct (trans_place _ _ _ _ _ _ _ _ _ _ _ Ht) as (ob & Hq & Hp & Ha & -> & X4 & ->). symmetry in X4.
  split; [reflexivity|]. rewrite <- X4. reflexivity.
Qed.
Lemma next_mono w h : reachable w -> history w h -> next_id (w_st w) <= next_id (w_st (run w h)).
Proof.
  revert w. induction h as [|[e c] h IH]; intros w Hre Hh; cbn [run]; [lia|]. apply Forall_cons in Hh as [Hc Hh]. cbn [snd] in Hc.
  destruct (reachable_inv _ Hre) as (G & Hi). destruct (step_stepped e w G c Hi Hc) as (G' & Hst).
  assert (next_id (w_st w) <= next_id (w_st (fst (step e w c)))).
  { destruct Hst as [_|r s' b' G' _ Htr _ _]; [lia|]. pose proof (trans_tot _ _ _ _ _ _ _ 0 Bid Hi Htr). cbn [w_st]. lia. }
  specialize (IH (fst (step e w c)) (step_reach _ _ _ Hre Hc)). lapply IH; [lia|]. unfold history. rewrite step_self. assumption.
Qed.
Theorem C04_ids_increase :
  forall w0 h1 h2 e1 i1 t1 d1 q1 b1 w1 r1 e2 i2 t2 d2 q2 b2 w2 r2,
  let c1 := CExec i1 (PlaceLimit t1 d1 q1 b1) in let c2 := CExec i2 (PlaceLimit t2 d2 q2 b2) in
  start w0 -> history w0 (h1 ++ [(e1, c1)] ++ h2 ++ [(e2, c2)]) ->
  step e1 (run w0 h1) c1 = (w1, Done r1) ->
  step e2 (run w1 h2) c2 = (w2, Done r2) ->
  attr_int (r_attrs r1) "order_id" < attr_int (r_attrs r2) "order_id".
Proof.
  intros w0 h1 h2 e1 i1 t1 d1 q1 b1 w1 r1 e2 i2 t2 d2 q2 b2 w2 r2 c1 c2 Hs Hh E1 E2.
  apply history_app in Hh as [Hh1 Hh]. apply (history_app _ [(e1, c1)]) in Hh as [Hc1 Hh]. cbn [run] in Hh. rewrite E1 in Hh. cbn [fst] in Hh.
  apply history_app in Hh as [Hh2 Hc2]. apply Forall_cons in Hc1 as [Hc1 _]. apply Forall_cons in Hc2 as [Hc2 _]. cbn [snd] in Hc1, Hc2.
  pose proof (start_reachable _ _ Hs Hh1) as Hr1. pose proof (step_reach e1 _ _ Hr1 Hc1) as Hr1'. rewrite E1 in Hr1'. cbn [fst] in Hr1'.
  pose proof (run_reach _ _ Hr1' Hh2) as Hr2. destruct (reachable_inv _ Hr1) as (G1 & Hi1). destruct (reachable_inv _ Hr2) as (G2 & Hi2).
  destruct (place_id _ _ _ _ _ _ Hi1 Hc1 E1) as [-> A]; [unfold c1; eauto 10|]. destruct (place_id _ _ _ _ _ _ Hi2 Hc2 E2) as [-> _]; [unfold c2; eauto 10|].
  pose proof (next_mono _ _ Hr1' Hh2). lia.
Qed.
Print Assumptions C04_ids_increase.
(** ... so an id names at most one order at any time, and an id once issued stays issued. *)
Theorem C04_ids_unique :
  forall w t t' id o o', reachable w ->
  s_orders (w_st w) !! (t, id) = Some o -> s_orders (w_st w) !! (t', id) = Some o' -> t = t' /\ o = o'.
Proof.
  intros w t t' id o o' Hre E E'. destruct (reachable_inv _ Hre) as (G & Hi). pose proof (i_ids _ _ Hi _ _ _ _ _ E E') as <-. split; congruence.
Qed.
Print Assumptions C04_ids_unique.
Example C04_case :
  let c1 := snd (place "a" 5 Bid 4 None) in let c2 := snd (place "b" 5 Ask 9 None) in
  history w_start ([] ++ [(tenv, c1)] ++ [cancel "a" 5 0; cancel "a" 5 0] ++ [(tenv, c2)]) /\
  (exists w1 r1 w2 r2, step tenv (run w_start []) c1 = (w1, Done r1) /\ step tenv (run w1 [cancel "a" 5 0; cancel "a" 5 0]) c2 = (w2, Done r2)).
Proof. split; [hist|]. eexists _, _, _, _. split; apply done_ok; vm_compute; reflexivity. Qed.

(** C05: exact effect of a cancel. *)
Theorem C05_cancel_effect :
  forall e w i t id w' r,
  reachable w -> call_ok (w_self w) (CExec i (CancelLimit t id)) = true ->
  step e w (CExec i (CancelLimit t id)) = (w', Done r) ->
  exists o, s_orders (w_st w) !! (t, id) = Some o /\
  let d := o_dir o in let q := o_quantity o in
  active (w_st w) = true /\ i_sender i = o_owner o /\ i_funds i = [] /\
  (* the only transfer *)
  r_msgs r = [mkSend REPLY_ID_REFUND (o_owner o) (mkCoin (deposit_denom (w_st w) d) q)] /\ 0 < q /\
  (* exactly that order disappears *)
  s_orders (w_st w') = delete (t, id) (s_orders (w_st w)) /\
  (* liquidity *)
  tick_liquidity (w_st w') t d = tick_liquidity (w_st w) t d - q /\
  pool_liquidity (w_st w') d = pool_liquidity (w_st w) d - q * ATOM /\
  (* nothing else *)
  (forall t' d', ~ (t' = t /\ d' = d) -> tick_liquidity (w_st w') t' d' = tick_liquidity (w_st w) t' d') /\
  (forall t' d', t' <> t -> side_values (w_st w') t' d' = side_values (w_st w) t' d') /\
  pool_liquidity (w_st w') (opposite d) = pool_liquidity (w_st w) (opposite d) /\
  s_orderbook (w_st w') = s_orderbook (w_st w) /\
  admin_data (w_st w') = admin_data (w_st w) /\
  (forall denom, balance w' denom = balance w denom - (if bool_decide (denom = deposit_denom (w_st w) d) then q else 0)).
Proof.
  intros e w i t id w' r Hre Hok E. destruct (reachable_inv _ Hre) as (G & Hi).
  destruct (step_done _ _ _ _ _ _ Hi Hok E) as (G' & Ht & Hi' & Eself & Hsend).
  destruct (trans_cancel _ _ _ _ _ _ _ _ _ Ht) as (ob & o & n & cc & m' & tr' & c' & Ha & A1 & A2 & A3 & A4 & A5 & A6 & A7 & -> & X4 & ->). symmetry in X4.
  pose proof (i_order _ _ Hi _ _ A2) as Ho. pose proof (oo_id _ _ _ _ Ho) as Eid. cbn in Eid.
  exists o. split; [assumption|]. cbn zeta. rewrite <- X4 in *.
  assert (Ed : deposit_denom (w_st w) (o_dir o) = get_expected_denom ob (o_dir o)) by (apply den_eq; assumption).
  split; [apply active_ne; assumption|]. split; [assumption|]. split; [assumption|].
  split; [cbn [cancel_resp r_msgs]; congruence|]. split; [apply (oo_qty _ _ _ _ Ho)|].
  split; [rewrite <- Eid; reflexivity|].
  assert (HG : forall t' d', g_open (gcancel G t (o_dir o) id t' d') = g_open (G t' d') - (if bool_decide (t' = t /\ d' = o_dir o) then o_quantity o else 0)).
  { intros t' d'. unfold gcancel. apply (gset_at (fun g => g_open g = g_open (G t' d') - (if bool_decide (t' = t /\ d' = o_dir o) then o_quantity o else 0))).
    - intros -> ->. rewrite bool_decide_true by auto. rewrite <- (gsync_eq G t).
      destruct (cancel_open (gsync G t t (o_dir o)) id n cc (o_quantity o)) as (-> & _); [apply gsync_side, Hi|rewrite gsync_lives; assumption|].
      rewrite gsync_open. reflexivity.
    - intros Hn. rewrite bool_decide_false by tauto. rewrite gsync_open. lia. }
  split. { rewrite (tick_liquidity_open _ _ _ _ Hi'), (tick_liquidity_open _ _ _ _ Hi), HG. rewrite bool_decide_true by auto. reflexivity. }
  split. { unfold pool_liquidity. cbn [cancel_st set_dirliq s_dirliq]. rewrite lookup_insert. reflexivity. }
  split. { intros t' d' Hn. rewrite (tick_liquidity_open _ _ _ _ Hi'), (tick_liquidity_open _ _ _ _ Hi), HG. rewrite bool_decide_false by tauto. lia. }
  split. { intros t' d' Hn. rewrite (side_ghost _ _ _ _ Hi'), (side_ghost _ _ _ _ Hi). unfold gcancel. rewrite gset_ne by auto. rewrite gsync_ne by auto. reflexivity. }
  split. { unfold pool_liquidity. cbn [cancel_st set_dirliq s_dirliq]. rewrite lookup_insert_ne by (intros E'; exact (opp_ne (o_dir o) (eq_sym E'))). reflexivity. }
  split; [reflexivity|]. split; [reflexivity|].
  assert (Hself : o_owner o <> w_self w).
  { unfold call_ok in Hok. apply andb_prop in Hok as [Hok _]. cbn [payer_ok] in Hok. apply negb_true_iff, bool_decide_eq_false in Hok. congruence. }
  intros denom. rewrite (bal_exact w w' (CExec i (CancelLimit t id)) (r_msgs (cancel_resp ob i t id o))).
  - cbn [call_funds cancel_resp r_msgs msgs_in sm_coin c_denom c_amount]. rewrite A3. cbn [received foldr]. rewrite Ed.
    destruct (bool_decide_reflect (get_expected_denom ob (o_dir o) = denom)) as [<-|Hn]; [rewrite bool_decide_true by reflexivity; lia|].
    rewrite bool_decide_false by congruence. lia.
  - intros dn. apply (sends_exact e (w_self w)); [|assumption]. cbn. constructor; [assumption|constructor].
Qed.
Print Assumptions C05_cancel_effect.
Example C05_case :
  let w := run w_start [place "a" 0 Bid 50 None; place "b" 0 Bid 20 None; sell "c" 30] in
  reachable w /\ exists w' r, step tenv w (c_cancel "b" 0 1) = (w', Done r) /\ tick_liquidity (w_st w') 0 Bid = 20 /\ tick_liquidity (w_st w) 0 Bid = 40.
Proof. split; [apply start_reachable; [apply start_ok|hist]|]. eexists _, _. split; [apply done_ok; vm_compute; reflexivity|]. vm_compute. auto. Qed.

(** C06: the owner's cancel of a live order is accepted exactly when the ideal first-in-first-out
    book has filled none of what is left of it. *)
Lemma fifo_zero F n q : 0 < q -> (fifo F n q = 0 <-> F <= n).
Proof. unfold fifo. lia. Qed.
Lemma cancel_accepted e w G Q en :
  ready w G Q -> call_ok (w_self w) (c_cancel (en_owner en) (en_tick en) (en_id en)) = true ->
  active (w_st w) = true -> e_bank_ok e (en_owner en) = true -> en ∈ Q -> en_live en = true -> en_filled en = 0 ->
  exists w' r, step e w (c_cancel (en_owner en) (en_tick en) (en_id en)) = (w', Done r) /\
    r_msgs r = [mkSend REPLY_ID_REFUND (en_owner en) (mkCoin (deposit_denom (w_st w) (en_dir en)) (en_open en))].
Proof.
  intros [Hre Hg Hn Hto Hl Hct] Hok Ha Hbank Hen Hlive Hf. pose proof (gd_inv _ _ _ Hg) as Hi. pose proof (gd_ref _ _ _ Hg) as Hr.
  destruct (live_order _ _ _ Hi Hr en Hen Hlive) as (o & n & c & Eo & Hd & Hlv & He & Ef & Eop).
  destruct Hd as (_ & _ & D1 & D2 & _). rewrite D1 in *. destruct (i_book _ _ Hi) as (ob & Eob & _).
  pose proof (oo_qty _ _ _ _ (i_order _ _ Hi _ _ Eo)) as Hq.
  set (i := mkInfo (en_owner en) []).
  destruct (cancel_cases (w_st w) G ob i (en_tick en) (en_id en) o n c Hi Eob Eo eq_refl D2 Hlv He) as [(HF & m' & tr' & c' & E & Hi' & Hc)|[(HF & _)|(HU & _)]].
  - assert (Ht : trans e (w_st w) G (CExec i (CancelLimit (en_tick en) (en_id en))) (cancel_resp ob i (en_tick en) (en_id en) o)
        (cancel_st (w_st w) G (en_tick en) o m' tr' c') (gcancel G (en_tick en) (o_dir o) (en_id en))).
    { eapply T_cancel; eauto. apply active_ne. assumption. }
    destruct (trans_sends e w G _ _ _ _ Hre (gd_sol _ _ _ Hg) Hi Hok Ht Hi') as (b' & Hb).
    { constructor; [|constructor]. cbn. split; [lia|congruence]. }
    eexists _, _. split.
    + apply step_ok; [|exact Hb]. cbn [c_cancel call_run]. unfold execute. rewrite (bind_ok _ _ _ _ _ (ensure_active _ Ha)). exact E.
    + cbn [cancel_resp r_msgs]. rewrite (den_eq _ _ _ Eob), D2. do 3 f_equal. lia.
  - exfalso. rewrite Hf in Ef. symmetry in Ef. apply fifo_zero in Ef; lia.
  - specialize (Hct (en_tick en)). unfold U64_MAX in HU. lia.
Qed.
Theorem C06_cancel_iff :
  forall e w0 h en, start w0 -> history w0 h -> short h ->
  let w := run w0 h in let c := c_cancel (en_owner en) (en_tick en) (en_id en) in
  en ∈ ideal_run w0 [] h -> en_live en = true ->
  call_ok (w_self w) c = true -> active (w_st w) = true -> e_bank_ok e (en_owner en) = true ->
  succeeds e w c <-> en_filled en = 0.
Proof.
  intros e w0 h en Hs Hh Hsh w c Hen Hlive Hok Ha Hb. destruct (short_ready w0 h Hs Hh Hsh) as (G & Hrd). split.
  - intros (w' & r & E). pose proof (rd_good _ _ _ Hrd) as Hg. fold w in Hg. pose proof (gd_inv _ _ _ Hg) as Hi. pose proof (gd_ref _ _ _ Hg) as Hr.
    destruct (step_done _ _ _ _ _ _ Hi Hok E) as (G' & Ht & Hi' & Eself & Hsend).
    destruct (trans_cancel _ _ _ _ _ _ _ _ _ Ht) as (ob & o & n & cc & m' & tr' & c' & _ & A1 & A2 & A3 & A4 & A5 & A6 & A7 & _ & _ & _).
    destruct (live_order _ _ _ Hi Hr en Hen Hlive) as (o' & n' & cc' & Eo & Hd & Hlv & He & Ef & Eop).
    rewrite A2 in Eo. injection Eo as <-. destruct Hd as (_ & _ & D1 & _). rewrite D1 in *.
    pose proof (lives_unique _ _ _ _ (i_side _ _ Hi _ _) A5 Hlv) as [= <- <-]. rewrite Ef. apply fifo_zero; [|assumption].
    apply (oo_qty _ _ _ _ (i_order _ _ Hi _ _ A2)).
  - intros Hf. destruct (cancel_accepted e w G _ en Hrd Hok Ha Hb Hen Hlive Hf) as (w' & r & E & _). exists w', r. exact E.
Qed.
Print Assumptions C06_cancel_iff.
(** The refusal does not need a short history: whatever happened before, an accepted cancel hits
    an order of which nothing is filled, so no token already paid out to a swapper is refunded. *)
Theorem C06_cancel_unfilled :
  forall e w0 h i t id w' r, start w0 -> history w0 h ->
  let w := run w0 h in
  call_ok (w_self w) (CExec i (CancelLimit t id)) = true -> step e w (CExec i (CancelLimit t id)) = (w', Done r) ->
  exists en, en ∈ ideal_run w0 [] h /\ en_tick en = t /\ en_id en = id /\ en_owner en = i_sender i /\
    en_filled en = 0 /\ 0 < en_open en /\
    r_msgs r = [mkSend REPLY_ID_REFUND (en_owner en) (mkCoin (deposit_denom (w_st w) (en_dir en)) (en_open en))].
Proof.
  intros e w0 h i t id w' r Hs Hh w Hok E. destruct (run_good w0 h Hs Hh) as (G & Hg). fold w in Hg.
  pose proof (gd_inv _ _ _ Hg) as Hi. pose proof (gd_ref _ _ _ Hg) as Hr.
  destruct (step_done _ _ _ _ _ _ Hi Hok E) as (G' & Ht & Hi' & Eself & Hsend).
  destruct (trans_cancel _ _ _ _ _ _ _ _ _ Ht) as (ob & o & n & cc & m' & tr' & c' & _ & A1 & A2 & A3 & A4 & A5 & A6 & A7 & -> & _ & _).
  destruct (entry_of _ _ _ Hr _ _ _ _ _ A2 A5) as (en & Hen & (D0 & D1 & D2 & D3 & _) & Eop & Ef).
  pose proof (oo_qty _ _ _ _ (i_order _ _ Hi _ _ A2)) as Hq. assert (E0 : en_filled en = 0) by (rewrite Ef; apply fifo_zero; lia).
  exists en. do 3 (split; [assumption|]). split; [congruence|]. split; [assumption|]. split; [lia|].
  cbn [cancel_resp r_msgs]. rewrite (den_eq _ _ _ A1), D2, D3. do 3 f_equal. lia.
Qed.
Print Assumptions C06_cancel_unfilled.

(** C07: an order of which nothing is filled can always be withdrawn, for its full open amount. *)
Theorem C07_withdraw :
  forall e w0 h en, start w0 -> history w0 h -> short h ->
  let w := run w0 h in let c := c_cancel (en_owner en) (en_tick en) (en_id en) in
  en ∈ ideal_run w0 [] h -> en_live en = true -> en_filled en = 0 ->
  call_ok (w_self w) c = true -> active (w_st w) = true -> e_bank_ok e (en_owner en) = true ->
  exists w' r, step e w c = (w', Done r) /\
    r_msgs r = [mkSend REPLY_ID_REFUND (en_owner en) (mkCoin (deposit_denom (w_st w) (en_dir en)) (en_open en))].
Proof.
  intros e w0 h en Hs Hh Hsh w c Hen Hlive Hf Hok Ha Hb. destruct (short_ready w0 h Hs Hh Hsh) as (G & Hrd).
  exact (cancel_accepted e w G _ en Hrd Hok Ha Hb Hen Hlive Hf).
Qed.
Print Assumptions C07_withdraw.

(** A case with three orders at one tick: the first is filled, the second partly, the third not. *)
Definition hist_three : list (env * call) :=
  [place "a" 0 Bid 50 None; place "b" 0 Bid 20 (Some (10 ^ 16)); place "c" 0 Bid 30 None; sell "x" 60].
Definition Q_three : ideal := ideal_run w_start [] hist_three.
Example C06_case :
  history w_start hist_three /\ short hist_three /\ active (w_st (run w_start hist_three)) = true /\
  map (fun en => (en_id en, en_open en, en_filled en, en_live en)) Q_three = [(0, 0, 50, true); (1, 10, 10, true); (2, 30, 0, true)] /\
  map (fun en => call_ok (w_self (run w_start hist_three)) (c_cancel (en_owner en) (en_tick en) (en_id en))) Q_three = [true; true; true] /\
  map (fun en => done tenv (run w_start hist_three) (c_cancel (en_owner en) (en_tick en) (en_id en))) Q_three = [false; false; true].
Proof.
  split; [hist|]. split; [unfold short; cbn; lia|]. split; [vm_compute; reflexivity|]. split; [vm_compute; reflexivity|]. split; vm_compute; reflexivity.
Qed.
