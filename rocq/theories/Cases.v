(** * Cases: concrete states that meet the hypotheses of the theorems whose own file has only a
    shared case.  Each is a non-trivial reachable state in which the theorem says something. *)
From Verif Require Import Base Dec Types State TickMath Sumtree Tick Order Auth Contract Query World SpecMath Spec Reach SpecProps SpecAdmin SpecQuery
  PropBase Tests PropOrders PropClaims PropSwap PropAdmin PropQuery PropTree.

Ltac done_case := eexists _, _; apply done_ok; vm_compute; reflexivity.

(** C07: the third of three orders is untouched by the swap and can be withdrawn. *)
Example C07_case :
  start w_start /\ history w_start hist_three /\ short hist_three /\ active (w_st (run w_start hist_three)) = true /\
  exists en, en ∈ ideal_run w_start [] hist_three /\ en_live en = true /\ en_filled en = 0 /\ en_owner en = "c" /\
    call_ok (w_self (run w_start hist_three)) (c_cancel (en_owner en) (en_tick en) (en_id en)) = true /\ e_bank_ok tenv (en_owner en) = true.
Proof.
  split; [apply start_ok|]. split; [hist|]. split; [unfold short; cbn; lia|]. split; [vm_compute; reflexivity|].
  exists (nth 2 Q_three (mkEntry 0 Bid 0 "" None 0 0 0 0 0 0)). split; [|vm_compute; auto 10].
  unfold Q_three. apply elem_of_list_In. apply nth_In. vm_compute. lia.
Qed.
(** C08, C12: the second order is half filled; anybody may claim for it. *)
Example C08_case :
  start w_start /\ history w_start hist_three /\
  call_ok (w_self (run w_start hist_three)) (c_claim "anyone" 0 1) = true /\
  (exists w' r, step tenv (run w_start hist_three) (c_claim "anyone" 0 1) = (w', Done r)) /\
  map (fun m => (sm_to m, c_amount (sm_coin m))) (r_msgs (resp_of tenv (run w_start hist_three) (c_claim "anyone" 0 1))) = [("b", 10)] /\
  option_map o_quantity (order_of (w_st (fst (step tenv (run w_start hist_three) (c_claim "anyone" 0 1)))) 0 1) = Some 10.
Proof. split; [apply start_ok|]. split; [hist|]. split; [vm_compute; reflexivity|]. split; [done_case|]. split; vm_compute; reflexivity. Qed.
(** C12: at price 1.1 an ask of 10 is paid 11, and 3 of it (3.3) are paid 3. *)
Definition hist_price : list (env * call) := [place "a" 100000 Ask 10 None; place "b" 100000 Ask 10 None; buy "t" 15].
Example C12_case :
  start w_start /\ history w_start hist_price /\ let w := run w_start hist_price in
  call_ok (w_self w) (c_claim "z" 100000 1) = true /\ (exists w' r, step tenv w (c_claim "z" 100000 1) = (w', Done r)) /\
  map (fun id => total_paid (r_msgs (resp_of tenv w (c_claim "z" 100000 id)))) [0; 1] = [11; 3].
Proof. split; [apply start_ok|]. split; [hist|]. cbv zeta. split; [vm_compute; reflexivity|]. split; [done_case|]. vm_compute. reflexivity. Qed.
(** C14, C15, C17, C18, C40: see also [swap_cases]. *)
Definition w_buy := fst (step tenv w_asks (buy_call 30 20 (Some 100000))).
Example C14_case : reachable w_asks /\ call_ok (w_self w_asks) (buy_call 30 27 None) = true /\ exists w' r, step tenv w_asks (buy_call 30 27 None) = (w', Done r).
Proof. split; [apply asks_reachable|]. split; [vm_compute; reflexivity|]. done_case. Qed.
Example C15_case :
  reachable w_asks /\ call_ok (w_self w_asks) (buy_call 30 27 None) = true /\ (exists w' r, step tenv w_asks (buy_call 30 27 None) = (w', Done r)) /\
  tick_liquidity (w_st (fst (step tenv w_asks (buy_call 30 27 None)))) 200000 Ask < tick_liquidity (w_st w_asks) 200000 Ask /\
  better_tick Ask 0 200000 /\ 0 < tick_liquidity (w_st w_asks) 0 Ask.
Proof. split; [apply asks_reachable|]. split; [vm_compute; reflexivity|]. split; [done_case|]. repeat split; vm_compute; reflexivity. Qed.
Example C17_case :
  reachable w_asks /\ call_ok (w_self w_asks) (buy_call 30 20 (Some 100000)) = true /\ (exists w' r, step tenv w_asks (buy_call 30 20 (Some 100000)) = (w', Done r)) /\
  map (fun t => (tick_liquidity (w_st w_asks) t Ask, tick_liquidity (w_st w_buy) t Ask)) [0; 100000; 200000] = [(10, 0); (10, 0); (50, 50)].
Proof. split; [apply asks_reachable|]. split; [vm_compute; reflexivity|]. split; [done_case|]. vm_compute. reflexivity. Qed.
Example C18_case :
  reachable w_asks /\ call_ok (w_self w_asks) (buy_call 22 20 None) = true /\ (exists w' r, step tenv w_asks (buy_call 22 20 None) = (w', Done r)) /\
  r_data (resp_of tenv w_asks (buy_call 22 20 None)) = Some 20.
Proof. split; [apply asks_reachable|]. split; [vm_compute; reflexivity|]. split; [done_case|]. vm_compute. reflexivity. Qed.
(** One unit of the input of 22 bought nothing and is kept; the bounded swap of 30 refunds 9. *)
Example C40_case :
  reachable w_asks /\ call_ok (w_self w_asks) (buy_call 22 20 None) = true /\ (exists w' r, step tenv w_asks (buy_call 22 20 None) = (w', Done r)) /\
  balance (fst (step tenv w_asks (buy_call 22 20 None))) "quote" = 22 /\ buys Ask 200000 1 = 0 /\ balance w_buy "quote" = 21.
Proof. split; [apply asks_reachable|]. split; [vm_compute; reflexivity|]. split; [done_case|]. repeat split; vm_compute; reflexivity. Qed.
(** C24: a tick with cancelled ranges, some of them waiting to be realised. *)
Example C24_case :
  start w_start /\ history w_start hist_mixed /\ short hist_mixed /\
  exists ts, s_ticks (w_st (run w_start hist_mixed)) !! 0 = Some ts /\ get_unrealized_cancels (w_st (run w_start hist_mixed)) 0 ts = Ok (0, 8 * ATOM).
Proof.
  split; [apply start_ok|]. split; [hist|]. split; [vm_compute; discriminate|].
  exists (unwrap_or (s_ticks (w_st (run w_start hist_mixed)) !! 0) ts_default). split; vm_compute; reflexivity.
Qed.
(** C26: an inactive book with an order in it; the chain cannot wake it, the moderator can. *)
Definition w_off := run w_start (take 3 hist_admin).
Lemma off_reachable : reachable w_off.
Proof. apply start_reachable; [apply start_ok|hist]. Qed.
Example C26_case :
  reachable w_off /\ active (w_st w_off) = false /\ is_Some (order_of (w_st w_off) 0 0) /\
  (forall a, run_out w_off [(tenv, CSudo (SudoSetActive a))] = [false]) /\
  call_ok (w_self w_off) (c_auth dao (SetActive true)) = true /\ active (w_st (fst (step tenv w_off (c_auth dao (SetActive true))))) = true.
Proof.
  split; [apply off_reachable|]. split; [vm_compute; reflexivity|]. split; [vm_compute; eauto|]. split; [intros []; vm_compute; reflexivity|].
  split; vm_compute; reflexivity.
Qed.
(** C27: a handover, while a stranger tries everything in between. *)
Definition hist_roles : list (env * call) :=
  [(tenv, c_auth gov (TransferAdmin "x")); (tenv, c_auth "evil" ClaimAdmin); (tenv, c_auth "evil" (SetMakerFee 0)); (tenv, c_auth "evil" RenounceAdminship);
   (tenv, c_auth "x" ClaimAdmin); (tenv, c_auth gov (SetMakerFee 1)); (tenv, c_auth "x" (SetMakerFee 1))].
Example C27_case :
  reachable w_start /\ history w_start hist_roles /\ run_out w_start hist_roles = [true; false; false; false; true; false; true] /\
  is_admin (w_st w_start) gov /\ s_admin_offer (w_st w_start) = None /\ is_admin (w_st (run w_start hist_roles)) "x".
Proof. split; [apply (start_reachable w_start []); [apply start_ok|constructor]|]. split; [hist|]. repeat split; vm_compute; reflexivity. Qed.
(** C29: a fee at the cap and an order with the largest bounty. *)
Definition hist_caps : list (env * call) :=
  [(tenv, c_auth gov (SetMakerFee (5 * 10 ^ 16))); place "a" 0 Bid 5 (Some (10 ^ 16)); (tenv, c_auth gov (SetMakerFee (5 * 10 ^ 16 + 1))); place "a" 0 Bid 5 (Some (10 ^ 16 + 1))].
Example C29_case :
  reachable (run w_start hist_caps) /\ run_out w_start hist_caps = [true; true; false; false] /\
  s_fee (w_st (run w_start hist_caps)) = Some five_percent /\ option_map o_bounty (order_of (w_st (run w_start hist_caps)) 0 0) = Some (Some one_percent).
Proof. split; [apply start_reachable; [apply start_ok|hist]|]. repeat split; vm_compute; reflexivity. Qed.
(** C30-C32, C41: the book of [query_case]. *)
Lemma query_reachable : reachable (run w_start hist_query).
Proof. apply start_reachable; [apply start_ok|hist]. Qed.
Example C30_case :
  reachable (run w_start hist_query) /\ length (map_to_list (s_orders (w_st (run w_start hist_query)))) = 4%nat.
Proof. split; [apply query_reachable|]. vm_compute. reflexivity. Qed.
Example C31_case :
  reachable (run w_start hist_query) /\
  match query (w_st (run w_start hist_query)) (QOrdersByTick 0 None None (Some 1)) with Ok (AOrders n l) => (n, map o_id l) = (2, [0]) | _ => False end.
Proof. split; [apply query_reachable|]. vm_compute. reflexivity. Qed.
Example C32_case :
  start w_start /\ history w_start hist_query /\
  map en_tick (ideal_run w_start [] hist_query) = [0; 0; 100000; 0; -100000; 1000000] /\
  match query (w_st (run w_start hist_query)) (QAllTicks None None None) with Ok (ATicks l) => map fst l = [-100000; 0; 100000; 1000000] | _ => False end.
Proof. split; [apply start_ok|]. split; [hist|]. split; vm_compute; reflexivity. Qed.
(** C33: here the spot price is the best price on both sides: bids at 1 and 0.99, asks at 1.1. *)
Example C33_case :
  reachable (run w_start hist_query) /\
  query (w_st (run w_start hist_query)) (QSpotPrice "quote" "base") = Ok (APrice ATOM) /\
  query (w_st (run w_start hist_query)) (QSpotPrice "base" "quote") = Ok (APrice 909090909090909090) /\
  (0 <? tick_liquidity (w_st (run w_start hist_query)) 0 Bid, 0 <? tick_liquidity (w_st (run w_start hist_query)) 100000 Ask) = (true, true).
Proof. split; [apply query_reachable|]. repeat split; vm_compute; reflexivity. Qed.
(** C37: on a book where the swap would have had enough liquidity. *)
Example C37_case :
  reachable w_asks /\ run_out w_asks [(tenv, CSudo (SwapExactAmountOut "z" "quote" 100 (mkCoin "base" 5) 0))] = [false].
Proof. split; [apply asks_reachable|]. vm_compute. reflexivity. Qed.
Example C41_case :
  start w_start /\ history w_start (take 3 hist_admin) /\ active (w_st w_off) = false /\
  (exists a, query (w_st w_off) QGetTotalPoolLiquidity = Ok a) /\ open_dir (ideal_run w_start [] (take 3 hist_admin)) Bid = 5.
Proof.
  split; [apply start_ok|]. split; [hist|]. split; [vm_compute; reflexivity|]. split; [eexists; vm_compute; reflexivity|]. vm_compute. reflexivity.
Qed.
