(** * Properties C76 and C77: what the queries tell about fills; clean ticks. *)
From Verif Require Import Base Dec Types State TickMath Sumtree Tick Order Auth Contract Query World SpecMath TickMathProofs
  TreeDefs Exec SumtreeProofs SumtreeRebalance SumtreeInsert PrefixSum SumtreeRoot SumtreeFail Ghost Inv StepPlace StepCancel StepClaim
  SwapPlan StepSwap Trans Spec Reach Refine RefineStep Reserve Solvency Books SpecProps SpecTree SpecQuery PropBase PropOrders PropClaims PropHistory PropSwap
  PropTree PropQuery PropBooks SpecClean Tests.

(** ** Whatever is stored is seen *)
(** [g_R]: the realised cancels after a synchronisation. *)
Definition g_R (g : side) : Z := realc (g_F g) 0 0 (g_items g).
Lemma seen_spec w0 h : start w0 -> history w0 h -> short h -> let s := w_st (run w0 h) in
  forall t d, (exists ts, s_ticks s !! t = Some ts) -> forall G, inv s G ->
  seen s t d = Some (tv_of (G t d), (g_R (G t d) - g_crc (G t d)) * DEC).
Proof.
  intros Hs Hh Hsh s t d (ts & Ets) G Hi. unfold seen.
  destruct (C32_all_ticks s (Some t) None (Some 1)) as (sel & Hsel & Hin & ->).
  pose proof (inv_tick_some _ _ _ _ Hi Ets) as Ets'.
  assert (Hf : first 1 sel = [(t, ts)]).
  { assert (K : (t, ts) ∈ sel) by (apply Hin; split; [exact Ets|]; split; [apply Z.le_refl|exact I]).
    destruct sel as [|[t1 ts1] sel]; [inversion K|]. unfold first. cbn [firstn Z.to_nat Pos.to_nat Pos.iter_op].
    assert (t1 = t).
    { apply elem_of_cons in K as [[= <- <-]|K]; [reflexivity|]. exfalso. apply StronglySorted_inv in Hsel as [_ Hall].
      rewrite Forall_forall in Hall. specialize (Hall _ K). cbn in Hall.
      destruct (proj1 (Hin t1 ts1) ltac:(constructor)) as (_ & Hb & _). cbn in Hb. lia. }
    subst t1. destruct (proj1 (Hin t ts1) ltac:(constructor)) as (E & _). replace ts1 with ts by congruence. reflexivity. }
  assert (K : forall d, greedy (g_F (G t d) * DEC) 0 (canl G t d) - g_crc (G t d) * DEC = (g_R (G t d) - g_crc (G t d)) * DEC).
  { intros d'. rewrite greedy_real. unfold canl. rewrite <- (Z.mul_0_l DEC) at 1. rewrite scale_real. unfold g_cans, g_R. rewrite real_realc. lia. }
  assert (Eu : query s (QGetUnrealizedCancels [t]) = Ok (AUnrealized [(t, ((g_R (G t Ask) - g_crc (G t Ask)) * DEC, (g_R (G t Bid) - g_crc (G t Bid)) * DEC))])).
  { cbn [query ticks_unrealized_cancels_by_id]. rewrite Ets. cbn [ok_or rbind]. rewrite Ets'. unfold get_unrealized_cancels.
    rewrite !get_ts_of, (proj1 (unrealized_spec s G t Ask Hi)), (proj1 (unrealized_spec s G t Bid Hi)), !K. reflexivity. }
  rewrite Hf, Eu, Z.eqb_refl, Ets'. cbn [andb]. rewrite get_ts_of. destruct d; reflexivity.
Qed.
(** The side as it would be after a synchronisation. *)
Lemma synced_ok g : side_ok g -> let g' := mkSide (g_items g) (g_F g) (g_R g) 0 in side_ok g' /\ synced g'.
Proof.
  intros [H1 H2 H3 H4 H5 H6] g'. destruct (realc_ok (g_F g) 0 0 (g_items g) (g_R g) 0 _ _ H1 eq_refl) as [K1 K2].
  pose proof (realc_bounds (g_F g) 0 0 _ (all_at_impl _ _ _ _ _ (item_ok_pos _ _ _) H1)) as Hb. fold (g_R g) in Hb.
  split; [|exact K2]. constructor; cbn; try assumption; lia.
Qed.
Lemma realc_full F n c l : all_at item_pos n c l -> n + nfs l <= F -> realc F n c l = c + cns l.
Proof.
  revert n c. induction l as [|[id q|q|q] l IH]; intros n c; cbn; [lia| | |]; rewrite ?Z.add_0_r; intros [Hp Hl] Hle.
  - rewrite IH by (assumption || lia). lia.
  - pose proof (pos_nonneg _ _ _ Hl). destruct (Z.leb_spec n F); [|lia]. rewrite IH by (assumption || lia). lia.
  - rewrite IH by (assumption || lia). lia.
Qed.

(** ** C76 *)
(** The amount a client works out from the queries for a stored order is what price-time priority has filled of it
    and was not claimed yet. *)
Theorem C76_claimable :
  forall w0 h, start w0 -> history w0 h -> short h -> let s := w_st (run w0 h) in
  forall t id o, s_orders s !! (t, id) = Some o ->
  exists en, en ∈ ideal_run w0 [] h /\ en_tick en = t /\ en_id en = id /\ en_owner en = o_owner o /\
    claimable s o = Some (en_filled en) /\ 0 <= en_filled en <= o_quantity o.
Proof.
  intros w0 h Hs Hh Hsh s t id o Eo. destruct (run_good w0 h Hs Hh) as (G & [Hi Hr _]). fold s in Hi, Hr.
  destruct (entry_order _ _ _ Hi Hr _ _ _ Eo) as (en & Hen & Hd & Hq & Hl). pose proof Hd as (D1 & D2 & D3 & D4 & _).
  destruct (live_order _ _ _ Hi Hr en Hen Hl) as (o' & n & c & Eo' & Hd' & Hlv & He & Ef & _).
  assert (o' = o) as -> by congruence.
  exists en. do 4 (split; [first [assumption|congruence]|]).
  assert (Et : o_tick o = t) by (pose proof (i_order _ _ Hi _ _ Eo) as Ho; apply Ho).
  pose proof (rf_entry _ _ _ Hr _ Hen) as [_ K1 K2 _ _ _ _ _ _]. split; [|lia].
  assert (Ek : exists ts, s_ticks s !! t = Some ts).
  { destruct (C32_known_ticks w0 h Hs Hh t) as [_ K]. destruct K as [ts K]; [eauto|]. exists ts. exact K. }
  pose proof (seen_spec w0 h Hs Hh Hsh t (o_dir o) Ek G Hi) as Es. fold s in Es. unfold claimable. rewrite Et, Es. f_equal. cbn [tv_of tv_etas]. rewrite He, Ef.
  rewrite D1, D3 in *. set (g := G t (o_dir o)) in *.
  destruct (synced_ok g (i_side _ _ Hi t (o_dir o))) as [S1 S2].
  destruct (fill_position _ _ _ _ _ S1 S2 Hlv) as (F1 & F2 & _). cbn [g_F g_crc g_items] in F1, F2. rewrite <- F1.
  replace ((g_F g + g_crc g) * DEC + (g_R g - g_crc g) * DEC - (n + c) * DEC) with ((g_F g + g_R g - (n + c)) * DEC) by lia.
  unfold floor_div. change ATOM with DEC. pose proof DEC_pos.
  destruct (Z.le_ge_cases 0 (g_F g + g_R g - (n + c))).
  - rewrite Z.max_r by nia. rewrite Z.div_mul by lia. lia.
  - rewrite Z.max_l by nia. rewrite Z.div_0_l by lia. lia.
Qed.
(** It tells what the book will do with the order: anyone can claim it exactly when the amount is positive, its owner can
    cancel it exactly when the amount is zero, and a claim settles exactly this amount and pays its worth at the tick price. *)
Theorem C76_predicts :
  forall e w0 h t id o sender, start w0 -> history w0 h -> short h -> let w := run w0 h in let s := w_st w in
  s_orders s !! (t, id) = Some o -> active s = true ->
  call_ok (w_self w) (c_claim sender t id) = true -> call_ok (w_self w) (c_cancel (o_owner o) t id) = true ->
  e_bank_ok e sender = true -> e_bank_ok e (unwrap_or (s_recipient s) EmptyString) = true ->
  (forall t' id' o', s_orders s !! (t', id') = Some o' -> e_bank_ok e (o_owner o') = true) ->
  exists n, claimable s o = Some n /\ 0 <= n <= o_quantity o /\
    (succeeds e w (c_claim sender t id) <-> 0 < n) /\
    (succeeds e w (c_cancel (o_owner o) t id) <-> n = 0) /\
    (forall w' r, step e w (c_claim sender t id) = (w', Done r) ->
      (if n =? o_quantity o then s_orders (w_st w') = delete (t, id) (s_orders s)
       else exists o', s_orders (w_st w') = <[(t, id) := o']> (s_orders s) /\ o_quantity o' = o_quantity o - n /\ identity o' = identity o) /\
      exists fee_rate recipient, s_fee s = Some fee_rate /\ s_recipient s = Some recipient /\
      let gross := match o_dir o with Ask => n * tick_price t / ATOM | Bid => n * ATOM / tick_price t end in
      let bounty := match o_bounty o with Some b => gross * b / ATOM | None => 0 end in
      let fee := gross * fee_rate / ATOM in
      let denom := deposit_denom s (opposite (o_dir o)) in
      r_msgs r = pay REPLY_ID_CLAIM (o_owner o) denom (gross - bounty - fee) ++ pay REPLY_ID_CLAIM_BOUNTY sender denom bounty ++
                 pay REPLY_ID_MAKER_FEE recipient denom fee).
Proof.
  intros e w0 h t id o sender Hs Hh Hsh w s Eo Ha Ok1 Ok2 B1 B2 B3.
  destruct (C76_claimable w0 h Hs Hh Hsh t id o Eo) as (en & Hen & D1 & D2 & D3 & Ec & Hb). fold w s in Ec. set (Q := ideal_run w0 [] h) in *.
  destruct (run_good w0 h Hs Hh) as (G & [Hi Hr _]). fold w in Hi, Hr. fold s in Hi, Hr. fold Q in Hr.
  assert (Hu : forall x, x ∈ Q -> en_tick x = t -> en_id x = id -> x = en) by (intros x Hx _ X; eapply ids_same; eauto; congruence).
  destruct (entry_order _ _ _ Hi Hr _ _ _ Eo) as (en' & Hen' & Hd & Hq & Hl). assert (en' = en) as -> by (destruct Hd as (? & ? & _); apply Hu; assumption).
  exists (en_filled en). split; [exact Ec|]. split; [exact Hb|].
  assert (Bo : e_bank_ok e (en_owner en) = true) by (rewrite D3; eapply B3; exact Eo).
  assert (Hdone : forall w' r, step e w (c_claim sender t id) = (w', Done r) -> 0 < en_filled en).
  { intros w' r E. destruct (C08_claim_settles_fifo e w0 h _ _ _ _ _ Hs Hh Ok1 E) as (_ & _ & en1 & o1 & H1 & X1 & X2 & Hf & _). fold Q in H1. rewrite (Hu _ H1 X1 X2) in Hf. exact Hf. }
  split; [split|split].
  - intros (w' & r & E). exact (Hdone _ _ E).
  - intros Hf. destruct (short_ready w0 h Hs Hh Hsh) as (G' & Hrd). fold w Q in Hrd. rewrite <- D1, <- D2 in Ok1 |- *.
    exact (claim_accepted e w G' Q sender en Hrd Ok1 Ha B1 Bo B2 Hen Hf).
  - rewrite <- D3, <- D1, <- D2 in *. apply (C06_cancel_iff e w0 h en Hs Hh Hsh); assumption.
  - intros w' r E. destruct (C08_claim_settles_fifo e w0 h _ _ _ _ _ Hs Hh Ok1 E) as (_ & _ & en1 & o1 & H1 & X1 & X2 & _ & Eo1 & Eq1 & Hord & _). fold Q in H1. fold w in Hord, Eo1. fold s in Hord, Eo1.
    rewrite (Hu _ H1 X1 X2) in *. assert (o1 = o) as -> by congruence. split.
    + destruct (Z.eqb_spec (en_filled en) (o_quantity o)), (Z.eqb_spec (en_open en) 0); try lia; [exact Hord|].
      destruct Hord as (o' & A1 & A2 & A3). exists o'. split; [exact A1|]. split; [lia|exact A3].
    + destruct (C10_claim_split e w0 h _ _ _ _ _ Hs Hh Ok1 E) as (en2 & fr & rc & gross & payout & bounty & fee & H2 & Y1 & Y2 & Ef & Erc & Eg & Eb & Efe & Esum & Ems & _). fold Q in H2. fold w in Ef, Erc, Ems. fold s in Ef, Erc, Ems.
      rewrite (Hu _ H2 Y1 Y2) in *. destruct Hd as (_ & _ & Z3 & Z4 & Z5 & _). exists fr, rc. split; [exact Ef|]. split; [exact Erc|]. cbv zeta.
      rewrite Ems, <- Z3, <- Z5, <- D3. assert (payout = gross - bounty - fee) as -> by lia. subst bounty fee gross. reflexivity.
Qed.
(** Three orders, the second partly filled, and one whose predecessor was cancelled: what the client works out, before any claim. *)
Definition hist_seen : list (env * call) :=
  [place "a" 0 Bid 50 None; place "b" 0 Bid 20 (Some (10 ^ 16)); cancel "a" 0 0; place "c" 0 Bid 30 None; place "d" 0 Bid 7 None; cancel "c" 0 2; sell "x" 24].
Definition claimables (w : world) (l : list (Z * Z)) : list (option (Z * option Z)) :=
  map (fun k => option_map (fun o => (o_quantity o, claimable (w_st w) o)) (s_orders (w_st w) !! k)) l.
Example C76_case :
  history w_start hist_seen /\ short hist_seen /\ forallb id (run_out w_start hist_seen) = true /\ active (w_st (run w_start hist_seen)) = true /\
  claimables (run w_start hist_seen) [(0, 0); (0, 1); (0, 2); (0, 3)] = [None; Some (20, Some 20); None; Some (7, Some 4)] /\
  claimables (run w_start hist_three) [(0, 0); (0, 1); (0, 2)] = [Some (50, Some 50); Some (20, Some 10); Some (30, Some 0)].
Proof. split; [hist|]. split; [vm_compute; discriminate|]. do 3 (split; [vm_compute; reflexivity|]). vm_compute. reflexivity. Qed.

(** ** C77 *)
(** A tick is clean in a direction exactly when nothing is on offer there; the predicted fill position never passes the placed total. *)
Theorem C77_clean_tick :
  forall w0 h, start w0 -> history w0 h -> short h -> let s := w_st (run w0 h) in
  forall t d, (exists ts, s_ticks s !! t = Some ts) ->
  (clean s t d <-> tick_liquidity s t d = 0) /\
  (exists v u, seen s t d = Some (v, u) /\ 0 <= u /\ tv_etas v + u <= tv_ctt v /\ (tv_etas v + u = tv_ctt v <-> tick_liquidity s t d = 0)).
Proof.
  intros w0 h Hs Hh Hsh s t d Ek. destruct (run_good w0 h Hs Hh) as (G & [Hi _ _]). fold s in Hi.
  pose proof (seen_spec w0 h Hs Hh Hsh t d Ek G Hi) as Es. fold s in Es.
  set (g := G t d) in *. pose proof (i_side _ _ Hi t d) as Hso. fold g in Hso.
  assert (El : tick_liquidity s t d = g_open g * DEC / ATOM * 1 \/ tick_liquidity s t d = g_open g) by (right; apply (tick_liquidity_open _ _ _ _ Hi)).
  assert (El' : tick_liquidity s t d = g_open g) by (apply (tick_liquidity_open _ _ _ _ Hi)). clear El.
  pose proof (so_F _ Hso) as HF. pose proof (so_crc _ Hso) as Hc. pose proof (so_items _ Hso) as Hit.
  pose proof (all_at_impl _ _ _ _ _ (item_ok_pos _ _ _) Hit) as Hpos.
  pose proof (realc_bounds (g_F g) 0 0 _ Hpos) as Hb. fold (g_R g) in Hb.
  pose proof (realc_ge _ _ _ _ _ _ Hit ltac:(lia)) as Hge. fold (g_R g) in Hge.
  assert (Hfull : g_F g = nfs (g_items g) -> g_R g = cns (g_items g)) by (intros E; unfold g_R; rewrite realc_full by (assumption || lia); lia).
  pose proof DEC_pos. unfold g_open in El'.
  assert (Hiff : tv_etas (tv_of g) + (g_R g - g_crc g) * DEC = tv_ctt (tv_of g) <-> tick_liquidity s t d = 0).
  { cbn [tv_of tv_etas tv_ctt]. rewrite El'. split; [intros K; nia|]. intros K. rewrite Hfull by lia. nia. }
  split.
  - split.
    + intros (v & u & K1 & K2 & K3). rewrite Es in K1. injection K1 as <- <-. apply Hiff, K3.
    + intros K. exists (tv_of g), ((g_R g - g_crc g) * DEC). split; [exact Es|]. split; [|apply Hiff, K]. cbn [tv_of tv_tal]. unfold g_open. rewrite El' in K. nia.
  - exists (tv_of g), ((g_R g - g_crc g) * DEC). split; [exact Es|]. split; [nia|]. split; [|exact Hiff]. cbn [tv_of tv_etas tv_ctt]. nia.
Qed.
(** Once no order is left, every tick is clean in both directions and the reported pool liquidity is nil. *)
Theorem C77_empty_book :
  forall w0 h, start w0 -> history w0 h -> short h -> let s := w_st (run w0 h) in
  s_orders s = ∅ ->
  (forall t, (exists ts, s_ticks s !! t = Some ts) -> forall d, clean s t d) /\
  total_pool_liquidity s = Ok [mkCoin (deposit_denom s Ask) 0; mkCoin (deposit_denom s Bid) 0].
Proof.
  intros w0 h Hs Hh Hsh s He. destruct (C08_fifo_state w0 h Hs Hh) as (_ & _ & Hord & Hnn & Hliq). fold s in Hord, Hliq.
  set (Q := ideal_run w0 [] h) in *.
  assert (H0 : forall en, en ∈ Q -> en_open en = 0).
  { intros en Hen. destruct (Hnn en Hen) as [N1 N2]. destruct (en_live en) eqn:El.
    - destruct (Hord en Hen El) as (o & Eo & _). rewrite He, lookup_empty in Eo. discriminate.
    - unfold en_live in El. apply Z.ltb_ge in El. lia. }
  split.
  - intros t Ek d. apply (C77_clean_tick w0 h Hs Hh Hsh t d Ek). fold s. rewrite Hliq. unfold open_at. clear -H0.
    induction Q as [|a Q IH]; [reflexivity|]. cbn. rewrite (H0 a) by constructor. unfold ideal_sum in IH. rewrite IH by (intros; apply H0; constructor; assumption). destruct (bool_decide _); reflexivity.
  - destruct (run_good w0 h Hs Hh) as (G & [Hi Hr _]). fold s in Hi, Hr. fold Q in Hr.
    assert (Hz : forall d, open_dir Q d = 0).
    { intros d. clear -H0. unfold open_dir. induction Q as [|a Q IH]; [reflexivity|]. cbn. rewrite (H0 a) by constructor. unfold ideal_sum in IH. rewrite IH by (intros; apply H0; constructor; assumption). destruct (bool_decide _); reflexivity. }
    unfold total_pool_liquidity. destruct (i_book _ _ Hi) as (ob & Eob & _). unfold load_orderbook. rewrite Eob. cbn [ok_or rbind].
    rewrite !(total_liquidity _ _ _ Hi Hr), !floor_scale, !Hz. unfold to_u128. cbn [rbind Z.leb]. unfold deposit_denom. rewrite Eob. reflexivity.
Qed.
(** The end of the fuzz tests (src/tests/e2e/cases/test_fuzz.rs:658-716, clear_remaining_orders; utils.rs:330-375): whatever happened before,
    claiming and then cancelling every order still there, in any order, leaves no order, and every tick clean. *)
Theorem C77_cleared :
  forall e w0 h l, start w0 -> history w0 (h ++ withdraw_all e l) -> short (h ++ withdraw_all e l) ->
  let w := run w0 h in let Q := ideal_run w0 [] h in let s' := w_st (run w (withdraw_all e l)) in
  active (w_st w) = true -> NoDup l -> (forall en, en ∈ l -> en ∈ Q) -> (forall en, en ∈ Q -> en_live en = true -> en ∈ l) ->
  e_bank_ok e (unwrap_or (s_recipient (w_st w)) EmptyString) = true -> (forall en, en ∈ Q -> e_bank_ok e (en_owner en) = true) ->
  s_orders s' = ∅ /\
  (forall t, (exists ts, s_ticks s' !! t = Some ts) -> forall d, clean s' t d) /\
  total_pool_liquidity s' = Ok [mkCoin (deposit_denom s' Ask) 0; mkCoin (deposit_denom s' Bid) 0].
Proof.
  intros e w0 h l Hs Hh Hsh w Q s' Ha Hn Hin Hall B2 B3.
  destruct (wind_down_gen e w0 Hs l h Hh Hsh Ha Hn Hin B2 B3) as (R1 & _). fold w Q in R1.
  assert (He : s_orders s' = ∅).
  { destruct (C08_fifo_state w0 _ Hs Hh) as (_ & Hord & _ & _ & _). rewrite run_app, ideal_run_app in Hord. fold w Q s' in Hord. rewrite R1 in Hord.
    apply map_eq. intros [t id]. rewrite lookup_empty. destruct (s_orders s' !! (t, id)) as [o|] eqn:Eo; [exfalso|reflexivity].
    destruct (Hord _ _ _ Eo) as (en & Hen & _ & _ & Hl & _). apply elem_of_list_fmap in Hen as (x & -> & Hx). case_bool_decide as Hxl; [discriminate|]. apply Hxl, Hall; assumption. }
  split; [exact He|]. pose proof (C77_empty_book w0 _ Hs Hh Hsh) as H. rewrite run_app in H. exact (H He).
Qed.
(** A case: five of six orders are left; they are cleared in the reverse order.  At tick 0 one cancelled range of 30 is not realised yet. *)
Example C77_case :
  let l := filter (fun en => en_live en = true) (rev (ideal_run w_start [] hist_sides)) in
  history w_start (hist_sides ++ withdraw_all tenv l) /\ short (hist_sides ++ withdraw_all tenv l) /\ active (w_st (run w_start hist_sides)) = true /\
  NoDup (map en_id l) /\ map en_id l = [5; 4; 3; 1; 0] /\
  run_out (run w_start hist_sides) (withdraw_all tenv l) = [false; true; false; true; true; true; true; true; true; false] /\
  map (fun t => option_map (fun x => (tv_tal x.1, tv_ctt x.1, tv_etas x.1, x.2)) (seen (w_st (run w_start (hist_sides ++ withdraw_all tenv l))) t Bid)) [0; -100000] =
    [Some (0, 100 * ATOM, 60 * ATOM, 40 * ATOM); Some (0, 9 * ATOM, 0, 9 * ATOM)].
Proof.
  cbv zeta. split. { set (h := hist_sides ++ _). assert (E : forallb (fun ec => call_ok (w_self w_start) (snd ec)) h = true) by (vm_compute; reflexivity).
    rewrite forallb_forall in E. apply Forall_forall. intros x Hx. apply E, elem_of_list_In, Hx. }
  split; [vm_compute; discriminate|]. split; [vm_compute; reflexivity|]. split; [vm_compute; repeat constructor; set_solver|].
  split; [vm_compute; reflexivity|]. split; [vm_compute; reflexivity|]. vm_compute. reflexivity.
Qed.
