(** * ConfOrder: the unit tests of src/tests/test_order.rs replayed on the model (see ConfBase.v). *)
From Verif Require Import Base Dec Types State TickMath Sumtree Tick Order Auth Contract Query ConfBase.

(** src/tests/test_order.rs:24-32 *)
Record PlaceLimitTestCase := mkPlaceLimitTestCase {
  pl_name : string; pl_tick : Z; pl_quantity : Z; pl_sent : Z; pl_dir : dir; pl_bounty : option Z; pl_error : option error }.
(** src/tests/test_order.rs:197-348 *)
Definition check_place (c : PlaceLimitTestCase) : bool :=
  let '(s, r) := place_limit menv (mkInfo "owner" [mkCoin (denom_of (pl_dir c)) (pl_sent c)]) (pl_tick c) (pl_dir c) (pl_quantity c) (pl_bounty c) fresh in
  match pl_error c with
  | Some e => err_is e r && eqb (s_orders s !! (pl_tick c, 0)) None && (tv_tal (tick_of s (pl_tick c) (pl_dir c)) =? 0)
  | None => ok_and r (fun r =>
      attr_at r 0 "method" (AStr "placeLimit") && attr_at r 1 "owner" (AStr "owner") && attr_at r 2 "tick_id" (AInt (pl_tick c)) &&
      attr_at r 5 "quantity" (AInt (pl_quantity c)) &&
      match s_orders s !! (pl_tick c, 0) with
      | Some o => (o_tick o =? pl_tick c) && (o_id o =? 0) && eqb (o_dir o) (pl_dir c) && eqb (o_owner o) "owner" && (o_quantity o =? pl_quantity c) && (o_etas o =? 0)
      | None => false
      end &&
      let tv := tick_of s (pl_tick c) (pl_dir c) in
      (tv_tal tv =? pl_quantity c * DEC) && (tv_ctt tv =? pl_quantity c * DEC) && (tv_etas tv =? 0))
  end.
(* BEGIN tests/test_order.rs test_place_limit PlaceLimitTestCase *)
Definition test_place_limit_cases : list PlaceLimitTestCase :=
  [ mkPlaceLimitTestCase "valid order with positive tick id" 10 100 100 Ask None None;
    mkPlaceLimitTestCase "valid order with zero tick id" 0 34321 34321 Bid None None;
    mkPlaceLimitTestCase "valid order with negative tick id" (-5) 100 100 Bid None None;
    mkPlaceLimitTestCase "valid order with large quantity" 3 34321 34321 Ask None None;
    mkPlaceLimitTestCase "valid order with 0.1% claim bounty" 10 100 100 Ask (Some 1000000000000000) None;
    mkPlaceLimitTestCase "valid order with max claim bounty" 10 100 100 Ask (Some 10000000000000000) None;
    mkPlaceLimitTestCase "order with claim bounty > 0.01 (invalid)" 10 100 100 Ask (Some 11000000000000000) (Some (EInvalidClaimBounty (Some 11000000000000000)));
    mkPlaceLimitTestCase "invalid tick id (max)" 182402824 100 100 Ask None (Some (EInvalidTickId 182402824));
    mkPlaceLimitTestCase "invalid tick id (min)" (-108000001) 100 100 Ask None (Some (EInvalidTickId (-108000001)));
    mkPlaceLimitTestCase "invalid quantity" 1 0 1000 Ask None (Some (EInvalidQuantity 0));
    mkPlaceLimitTestCase "insufficient funds" 1 1000 500 Ask None (Some (EInsufficientFunds 500 1000));
    mkPlaceLimitTestCase "excessive funds" 1 100 500 Ask None (Some (EInsufficientFunds 500 100));
    mkPlaceLimitTestCase "max amount on max tick" 182402823 340282366920938463463374607431768211455 340282366920938463463374607431768211455 Bid None None;
    mkPlaceLimitTestCase "max amount on min tick" (-108000000) 340282366920938463463374607431768211455 340282366920938463463374607431768211455 Ask None None;
    mkPlaceLimitTestCase "zero claim order ASK" 1000000 1 1 Ask (Some 0) None;
    mkPlaceLimitTestCase "zero claim order BID" (-5000000) 1 1 Bid (Some 0) None ].
(* END *)
Example test_place_limit : failures pl_name check_place test_place_limit_cases = [].
Proof. vm_compute. reflexivity. Qed.

(** src/tests/test_order.rs:351-362 *)
Record CancelLimitTestCase := mkCancelLimitTestCase {
  cl_name : string; cl_tick : Z; cl_id : Z; cl_dir : dir; cl_quantity : Z; cl_place : bool; cl_error : option error;
  cl_owner : string; cl_sender : option string; cl_sent : list coin }.
(** src/tests/test_order.rs:421-629 *)
Definition check_cancel (c : CancelLimitTestCase) : bool :=
  let s0 := if cl_place c then fst (place_limit menv (mkInfo (cl_owner c) [mkCoin "base" (cl_quantity c)]) (cl_tick c) (cl_dir c) (cl_quantity c) None fresh) else fresh in
  let '(s, r) := cancel_limit (mkInfo (unwrap_or (cl_sender c) (cl_owner c)) (cl_sent c)) (cl_tick c) (cl_id c) s0 in
  let tal := tv_tal (tick_of s (cl_tick c) (cl_dir c)) in
  match cl_error c with
  | Some e => err_is e r && eqb (negb (eqb (s_orders s !! (cl_tick c, cl_id c)) None)) (cl_place c) && (tal =? if cl_place c then cl_quantity c * DEC else 0)
  | None => ok_and r (fun r =>
      attr_at r 0 "method" (AStr "cancelLimit") && attr_at r 1 "owner" (AStr (cl_owner c)) && attr_at r 2 "tick_id" (AInt (cl_tick c)) &&
      attr_at r 3 "order_id" (AInt (cl_id c)) && attr_at r 4 "quantity" (AInt (cl_quantity c)) && attr_at r 5 "order_direction" (ADir (cl_dir c)) &&
      attr_at r 6 "initial_quantity" (AInt (cl_quantity c)) && attr_at r 7 "order_denom" (AStr (denom_of (cl_dir c))) &&
      eqb (r_msgs r) [mkSend REPLY_ID_REFUND (cl_owner c) (mkCoin (denom_of (cl_dir c)) (cl_quantity c))] &&
      eqb (s_orders s !! (cl_tick c, 0)) None && (tal =? 0) &&
      ok_and (get_root_node s (cl_tick c) Ask) (fun t =>
        eqb (traverse 9 s t)
          [ mkNode 1 (cl_tick c) Ask (Some 2) None None (NInternal (cl_quantity c * DEC) 0 (cl_quantity c * DEC) 2);
            mkNode 2 (cl_tick c) Ask None None (Some 1) (NLeaf (cl_quantity c * DEC) 0) ]))
  end.
(* BEGIN tests/test_order.rs test_cancel_limit CancelLimitTestCase *)
Definition test_cancel_limit_cases : list CancelLimitTestCase :=
  [ mkCancelLimitTestCase "valid order cancel" 1 0 Ask 100 true None "owner" None [];
    mkCancelLimitTestCase "sent funds accidentally" 1 0 Ask 100 true (Some (EPayment NonPayable)) "owner" None [mkCoin "quote" 100];
    mkCancelLimitTestCase "unauthorized cancel (not owner)" 1 0 Ask 100 true (Some EUnauthorized) "owner" (Some "malicious_user") [];
    mkCancelLimitTestCase "order not found" 1 0 Ask 100 false (Some (EOrderNotFound 1 0)) "owner" None [] ].
(* END *)
Example test_cancel_limit : failures cl_name check_cancel test_cancel_limit_cases = [].
Proof. vm_compute. reflexivity. Qed.

(** src/tests/test_order.rs:631-640 *)
Record RunMarketOrderTestCase := mkRunMarketOrderTestCase {
  rm_name : string; rm_order : Z * dir; rm_bound : Z; rm_orders : list limit_order; rm_output : Z;
  rm_etas : list (Z * Z); rm_pointers : list (dir * Z); rm_error : option error }.
(** src/tests/test_order.rs:892-1004 *)
Definition check_market (c : RunMarketOrderTestCase) : bool :=
  match place_all "owner" (rm_orders c) fresh with
  | (s0, Ok _) =>
      let before := get_orders_by_owner s0 (FAll "owner") None None None in
      let '(q, d) := rm_order c in
      let '(s, r) := run_market_order q d (rm_bound c) s0 in
      match rm_error c with
      | Some e => err_is e r
      | None => ok_and r (fun r =>
          let '(output, denom, _) := r in
          all (rm_etas c) (fun p => tv_etas (tick_of s p.1 (opposite d)) =? p.2) &&
          book_and s (fun b => all (rm_pointers c) (fun p => (match p.1 with Ask => ob_next_ask b | Bid => ob_next_bid b end) =? p.2)) &&
          eqb before (get_orders_by_owner s (FAll "owner") None None None) &&
          (output =? rm_output c) && eqb denom (denom_of (opposite d)))
      end
  | _ => false
  end.
(* BEGIN tests/test_order.rs test_run_market_order RunMarketOrderTestCase *)
Definition test_run_market_order_cases : list RunMarketOrderTestCase :=
  [ mkRunMarketOrderTestCase "happy path bid at negative tick" (1000, Bid) 182402823 [mkOrder (-1500000) 0 Ask "owner" 100 0 None 100 ttime; mkOrder (-1500000) 0 Ask "owner" 100 0 None 100 ttime; mkOrder (-1500000) 0 Ask "owner" 100 0 None 100 ttime; mkOrder (-1500000) 0 Ask "owner" 100 0 None 100 ttime; mkOrder (-1500000) 0 Ask "owner" 100 0 None 100 ttime; mkOrder (-1500000) 0 Ask "owner" 100 0 None 100 ttime; mkOrder (-1500000) 0 Ask "owner" 100 0 None 100 ttime; mkOrder (-1500000) 0 Ask "owner" 100 0 None 100 ttime; mkOrder (-1500000) 0 Ask "owner" 100 0 None 100 ttime; mkOrder (-1500000) 0 Ask "owner" 100 0 None 100 ttime; mkOrder (-1500000) 0 Ask "owner" 100 0 None 100 ttime; mkOrder (-1500000) 0 Ask "owner" 100 0 None 100 ttime] 1176 [((-1500000), (1176 * DEC))] [(Ask, (-1500000))] None;
    mkRunMarketOrderTestCase "happy path bid at positive tick" (100000, Bid) 182402823 [mkOrder 40000000 0 Ask "owner" 1 0 None 1 ttime; mkOrder 40000000 0 Ask "owner" 1 0 None 1 ttime] 2 [(40000000, (2 * DEC))] [(Ask, 40000000)] None;
    mkRunMarketOrderTestCase "bid at very small negative tick" (1000, Bid) 182402823 [mkOrder (-17765433) 0 Ask "owner" 20250 0 None 20250 ttime; mkOrder (-17765433) 0 Ask "owner" 20250 0 None 20250 ttime; mkOrder (-17765433) 0 Ask "owner" 20250 0 None 20250 ttime; mkOrder (-17765433) 0 Ask "owner" 20250 0 None 20250 ttime] 81000 [((-17765433), (81000 * DEC))] [(Ask, (-17765433))] None;
    mkRunMarketOrderTestCase "bid across multiple ticks" (513, Bid) 182402823 [mkOrder (-1500000) 0 Ask "owner" 100 0 None 100 ttime; mkOrder (-1500000) 0 Ask "owner" 100 0 None 100 ttime; mkOrder (-1500000) 0 Ask "owner" 100 0 None 100 ttime; mkOrder (-1500000) 0 Ask "owner" 100 0 None 100 ttime; mkOrder (-1500000) 0 Ask "owner" 100 0 None 100 ttime; mkOrder (-1500000) 0 Ask "owner" 100 0 None 100 ttime; mkOrder 1500000 0 Ask "owner" 100 0 None 100 ttime; mkOrder 1500000 0 Ask "owner" 100 0 None 100 ttime; mkOrder 1500000 0 Ask "owner" 100 0 None 100 ttime; mkOrder 1500000 0 Ask "owner" 100 0 None 100 ttime; mkOrder 1500000 0 Ask "owner" 100 0 None 100 ttime; mkOrder 1500000 0 Ask "owner" 100 0 None 100 ttime] 601 [((-1500000), (600 * DEC)); (1500000, (1 * DEC))] [(Ask, 1500000)] None;
    mkRunMarketOrderTestCase "happy path ask at positive tick" (100, Ask) (-108000000) [mkOrder 40000000 0 Bid "owner" 1000000 0 None 1000000 ttime; mkOrder 40000000 0 Bid "owner" 1000000 0 None 1000000 ttime; mkOrder 40000000 0 Bid "owner" 1000000 0 None 1000000 ttime; mkOrder 40000000 0 Bid "owner" 1000000 0 None 1000000 ttime; mkOrder 40000000 0 Bid "owner" 1000000 0 None 1000000 ttime] 5000000 [(40000000, (5000000 * DEC))] [(Bid, 40000000)] None;
    mkRunMarketOrderTestCase "ask at negative tick" (1000, Ask) (-108000000) [mkOrder (-17765433) 0 Bid "owner" 10 0 None 10 ttime; mkOrder (-17765433) 0 Bid "owner" 10 0 None 10 ttime] 12 [((-17765433), (12 * DEC))] [(Bid, (-17765433))] None;
    mkRunMarketOrderTestCase "invalid tick bound for bid" (1000, Bid) (-108000001) [mkOrder 10 0 Ask "owner" 10 0 None 10 ttime; mkOrder 10 0 Ask "owner" 10 0 None 10 ttime; mkOrder 10 0 Ask "owner" 10 0 None 10 ttime; mkOrder 10 0 Ask "owner" 10 0 None 10 ttime; mkOrder 10 0 Ask "owner" 10 0 None 10 ttime; mkOrder 10 0 Ask "owner" 10 0 None 10 ttime; mkOrder 10 0 Ask "owner" 10 0 None 10 ttime; mkOrder 10 0 Ask "owner" 10 0 None 10 ttime; mkOrder 10 0 Ask "owner" 10 0 None 10 ttime; mkOrder 10 0 Ask "owner" 10 0 None 10 ttime] 0 [(10, 0)] [(Ask, 10)] (Some (EInvalidTickId (-108000001)));
    mkRunMarketOrderTestCase "invalid tick bound for ask" (1000, Ask) 182402824 [mkOrder 10 0 Bid "owner" 10 0 None 10 ttime; mkOrder 10 0 Bid "owner" 10 0 None 10 ttime; mkOrder 10 0 Bid "owner" 10 0 None 10 ttime; mkOrder 10 0 Bid "owner" 10 0 None 10 ttime; mkOrder 10 0 Bid "owner" 10 0 None 10 ttime; mkOrder 10 0 Bid "owner" 10 0 None 10 ttime; mkOrder 10 0 Bid "owner" 10 0 None 10 ttime; mkOrder 10 0 Bid "owner" 10 0 None 10 ttime; mkOrder 10 0 Bid "owner" 10 0 None 10 ttime; mkOrder 10 0 Bid "owner" 10 0 None 10 ttime] 0 [(10, 0)] [(Bid, (-108000000))] (Some (EInvalidTickId 182402824));
    mkRunMarketOrderTestCase "invalid tick bound due to bid direction" (1000, Bid) (-108000000) [mkOrder (-1500000) 0 Ask "owner" 100 0 None 100 ttime; mkOrder (-1500000) 0 Ask "owner" 100 0 None 100 ttime; mkOrder (-1500000) 0 Ask "owner" 100 0 None 100 ttime; mkOrder (-1500000) 0 Ask "owner" 100 0 None 100 ttime; mkOrder (-1500000) 0 Ask "owner" 100 0 None 100 ttime; mkOrder (-1500000) 0 Ask "owner" 100 0 None 100 ttime; mkOrder (-1500000) 0 Ask "owner" 100 0 None 100 ttime; mkOrder (-1500000) 0 Ask "owner" 100 0 None 100 ttime; mkOrder (-1500000) 0 Ask "owner" 100 0 None 100 ttime; mkOrder (-1500000) 0 Ask "owner" 100 0 None 100 ttime] 0 [((-1500000), 0)] [(Ask, (-1500000))] (Some (EInvalidTickId (-108000000)));
    mkRunMarketOrderTestCase "insufficient liquidity on orderbook" (1000, Bid) 182402823 [mkOrder 1500000 0 Ask "owner" 3 0 None 3 ttime; mkOrder 1500000 0 Ask "owner" 3 0 None 3 ttime; mkOrder 1500000 0 Ask "owner" 3 0 None 3 ttime; mkOrder 1500000 0 Ask "owner" 3 0 None 3 ttime] 0 [] [] (Some EInsufficientLiquidity) ].
(* END *)
Example test_run_market_order : failures rm_name check_market test_run_market_order_cases = [].
Proof. vm_compute. reflexivity. Qed.

(** src/tests/test_order.rs:1007-1014 *)
Record RunMarketOrderMovingTickTestCase := mkRunMarketOrderMovingTickTestCase {
  mt_name : string; mt_ops : list op; mt_values : list (Z * dir * tick_values); mt_pointers : Z * Z }.
(** src/tests/test_order.rs:1548-1582 *)
Definition check_moving (c : RunMarketOrderMovingTickTestCase) : bool :=
  after (mkInfo "sender" []) (mt_ops c) fresh (fun s =>
    all (mt_values c) (fun '(t, d, v) => eqb (tick_of s t d) v) &&
    book_and s (fun b => (ob_next_bid b =? (mt_pointers c).1) && (ob_next_ask b =? (mt_pointers c).2))).
(* BEGIN tests/test_order.rs test_run_market_order_moving_tick RunMarketOrderMovingTickTestCase *)
Definition test_run_market_order_moving_tick_cases : list RunMarketOrderMovingTickTestCase :=
  [ mkRunMarketOrderMovingTickTestCase "positive tick movement on filled market bid" [OpPlace (mkOrder 0 0 Ask "sender" 10 0 None 10 ttime); OpPlace (mkOrder 1 0 Ask "sender" 10 0 None 10 ttime); OpPlace (mkOrder 2 0 Ask "sender" 10 0 None 10 ttime); OpMarket 16 Bid; OpPlace (mkOrder 0 0 Bid "sender" 10 0 None 10 ttime)] [((0, Ask), mkTV 0 (10 * DEC) (10 * DEC) 0 0); ((1, Ask), mkTV (5 * DEC) (10 * DEC) (5 * DEC) 0 0); ((0, Bid), mkTV (10 * DEC) (10 * DEC) 0 0 0)] (0, 1);
    mkRunMarketOrderMovingTickTestCase "no tick movement on filled market bid" [OpPlace (mkOrder 0 0 Ask "sender" 10 0 None 10 ttime); OpPlace (mkOrder 1 0 Ask "sender" 10 0 None 10 ttime); OpMarket 5 Bid; OpPlace (mkOrder 0 0 Bid "sender" 10 0 None 10 ttime)] [((0, Ask), mkTV (5 * DEC) (10 * DEC) (5 * DEC) 0 0); ((1, Ask), mkTV (10 * DEC) (10 * DEC) 0 0 0); ((0, Bid), mkTV (10 * DEC) (10 * DEC) 0 0 0)] (0, 0);
    mkRunMarketOrderMovingTickTestCase "no tick movement on filled market ask" [OpPlace (mkOrder 0 0 Bid "sender" 10 0 None 10 ttime); OpPlace (mkOrder (-1) 0 Bid "sender" 10 0 None 10 ttime); OpMarket 5 Ask; OpPlace (mkOrder 0 0 Ask "sender" 10 0 None 10 ttime)] [((0, Bid), mkTV (5 * DEC) (10 * DEC) (5 * DEC) 0 0); (((-1), Bid), mkTV (10 * DEC) (10 * DEC) 0 0 0); ((0, Ask), mkTV (10 * DEC) (10 * DEC) 0 0 0)] (0, 0);
    mkRunMarketOrderMovingTickTestCase "negative tick movement on filled market ask" [OpPlace (mkOrder 0 0 Bid "sender" 10 0 None 10 ttime); OpPlace (mkOrder (-1) 0 Bid "sender" 10 0 None 10 ttime); OpPlace (mkOrder (-2) 0 Bid "sender" 10 0 None 10 ttime); OpMarket 16 Ask; OpPlace (mkOrder 0 0 Ask "sender" 10 0 None 10 ttime)] [((0, Bid), mkTV 0 (10 * DEC) (10 * DEC) 0 0); (((-1), Bid), mkTV (5 * DEC) (10 * DEC) (5 * DEC) 0 0); ((0, Ask), mkTV (10 * DEC) (10 * DEC) 0 0 0)] ((-1), 0);
    mkRunMarketOrderMovingTickTestCase "negative tick movement followed by positive movement" [OpPlace (mkOrder 0 0 Bid "sender" 10 0 None 10 ttime); OpPlace (mkOrder (-1) 0 Bid "sender" 10 0 None 10 ttime); OpMarket 16 Ask; OpPlace (mkOrder 0 0 Ask "sender" 10 0 None 10 ttime); OpMarket 10 Bid; OpPlace (mkOrder 0 0 Bid "sender" 12 0 None 12 ttime)] [((0, Bid), mkTV (12 * DEC) (22 * DEC) (10 * DEC) 0 0); (((-1), Bid), mkTV (5 * DEC) (10 * DEC) (5 * DEC) 0 0); ((0, Ask), mkTV 0 (10 * DEC) (10 * DEC) 0 0)] (0, 0);
    mkRunMarketOrderMovingTickTestCase "positive tick movement followed by negative movement" [OpPlace (mkOrder 0 0 Ask "sender" 10 0 None 10 ttime); OpPlace (mkOrder 1 0 Ask "sender" 10 0 None 10 ttime); OpMarket 16 Bid; OpPlace (mkOrder 0 0 Bid "sender" 10 0 None 10 ttime); OpMarket 10 Ask; OpPlace (mkOrder 0 0 Ask "sender" 12 0 None 12 ttime)] [((0, Ask), mkTV (12 * DEC) (22 * DEC) (10 * DEC) 0 0); ((1, Ask), mkTV (5 * DEC) (10 * DEC) (5 * DEC) 0 0); ((0, Bid), mkTV 0 (10 * DEC) (10 * DEC) 0 0)] (0, 0) ].
(* END *)
Example test_run_market_order_moving_tick : failures mt_name check_moving test_run_market_order_moving_tick_cases = [].
Proof. vm_compute. reflexivity. Qed.

(** src/tests/test_order.rs:1584-1594 *)
Record ClaimOrderTestCase := mkClaimOrderTestCase {
  co_name : string; co_ops : list op; co_sender : string; co_tick : Z; co_id : Z;
  co_bank : option submsg; co_bounty : option submsg; co_state : option limit_order; co_error : option error }.
(** src/tests/test_order.rs:2822-2906 *)
Definition check_claim (c : ClaimOrderTestCase) : bool :=
  let i := mkInfo (co_sender c) [] in
  after i (co_ops c) fresh (fun s0 =>
    let '(s1, r1) := match co_error c with None => cancel_limit (mkInfo "sender" []) (co_tick c) (co_id c) s0 | Some _ => (s0, Err ECancelFilledOrder) end in
    err_is ECancelFilledOrder r1 &&
    let '(s, r) := claim_limit i (co_tick c) (co_id c) s1 in
    match co_error c with
    | Some e => err_is e r
    | None => ok_and r (fun r =>
        eqb (r_msgs r) (app (match co_bank c with Some m => [m] | None => [] end) (match co_bounty c with Some m => [m] | None => [] end)) &&
        eqb (s_orders s !! (co_tick c, co_id c)) (co_state c))
    end).
(* BEGIN tests/test_order.rs test_claim_order ClaimOrderTestCase *)
Definition test_claim_order_cases : list ClaimOrderTestCase :=
  [ mkClaimOrderTestCase "ASK: valid basic full claim" [OpPlace (mkOrder 0 0 Ask "sender" 10 0 None 10 ttime); OpMarket 10 Bid] "sender" 0 0 (Some (mkSend 2 "sender" (mkCoin "quote" 10))) None None None;
    mkClaimOrderTestCase "ASK: valid basic full claim" [OpPlace (mkOrder 0 0 Ask "sender" 10 0 None 10 ttime); OpMarket 10 Bid] "sender" 0 0 (Some (mkSend 2 "sender" (mkCoin "quote" 10))) None None None;
    mkClaimOrderTestCase "ASK: valid basic partial claim" [OpPlace (mkOrder 0 0 Ask "sender" 10 0 None 10 ttime); OpMarket 5 Bid] "sender" 0 0 (Some (mkSend 2 "sender" (mkCoin "quote" 5))) None (Some (mkOrder 0 0 Ask "sender" 5 (5 * DEC) None 10 ttime)) None;
    mkClaimOrderTestCase "ASK: valid two-step partial claim" [OpPlace (mkOrder 0 0 Ask "sender" 10 0 None 10 ttime); OpMarket 7 Bid; OpClaim 0 0; OpMarket 3 Bid] "sender" 0 0 (Some (mkSend 2 "sender" (mkCoin "quote" 3))) None None None;
    mkClaimOrderTestCase "ASK: valid basic full claim with claim bounty" [OpPlace (mkOrder 0 0 Ask "sender" 100 0 (Some 10000000000000000) 100 ttime); OpMarket 100 Bid] "claimer" 0 0 (Some (mkSend 2 "sender" (mkCoin "quote" 99))) (Some (mkSend 3 "claimer" (mkCoin "quote" 1))) None None;
    mkClaimOrderTestCase "ASK: valid two-step partial claim with claim bounty" [OpPlace (mkOrder 0 0 Ask "sender" 1000 0 (Some 3500000000000000) 1000 ttime); OpMarket 700 Bid; OpClaim 0 0; OpMarket 300 Bid] "claimer" 0 0 (Some (mkSend 2 "sender" (mkCoin "quote" 299))) (Some (mkSend 3 "claimer" (mkCoin "quote" 1))) None None;
    mkClaimOrderTestCase "ASK: valid basic full claim (large positive tick)" [OpPlace (mkOrder 1000000 0 Ask "sender" 10 0 None 10 ttime); OpMarket 20 Bid] "sender" 1000000 0 (Some (mkSend 2 "sender" (mkCoin "quote" 20))) None None None;
    mkClaimOrderTestCase "ASK: valid basic partial claim (large positive tick)" [OpPlace (mkOrder 1000000 0 Ask "sender" 10 0 None 10 ttime); OpMarket 8 Bid] "sender" 1000000 0 (Some (mkSend 2 "sender" (mkCoin "quote" 8))) None (Some (mkOrder 1000000 0 Ask "sender" 6 (4 * DEC) None 10 ttime)) None;
    mkClaimOrderTestCase "ASK: valid two-step partial claim (large positive tick)" [OpPlace (mkOrder 1000000 0 Ask "sender" 10 0 None 10 ttime); OpMarket 12 Bid; OpClaim 1000000 0; OpMarket 8 Bid] "sender" 1000000 0 (Some (mkSend 2 "sender" (mkCoin "quote" 8))) None None None;
    mkClaimOrderTestCase "ASK: valid basic full claim (large negative tick)" [OpPlace (mkOrder (-5000000) 0 Ask "sender" 100 0 None 100 ttime); OpMarket 50 Bid] "sender" (-5000000) 0 (Some (mkSend 2 "sender" (mkCoin "quote" 50))) None None None;
    mkClaimOrderTestCase "ASK: valid basic partial claim (large negative tick)" [OpPlace (mkOrder (-5000000) 0 Ask "sender" 100 0 None 100 ttime); OpMarket 25 Bid] "sender" (-5000000) 0 (Some (mkSend 2 "sender" (mkCoin "quote" 25))) None ((Some (mkOrder (-5000000) 0 Ask "sender" 50 (50 * DEC) None 100 ttime))) None;
    mkClaimOrderTestCase "ASK: valid two-step partial claim (large negative tick)" [OpPlace (mkOrder (-5000000) 0 Ask "sender" 100 0 None 100 ttime); OpMarket 25 Bid; OpClaim (-5000000) 0; OpMarket 25 Bid] "sender" (-5000000) 0 (Some (mkSend 2 "sender" (mkCoin "quote" 25))) None None None;
    mkClaimOrderTestCase "ASK: full claim with a previous cancellation" [OpPlace (mkOrder 0 0 Ask "sender" 50 0 None 50 ttime); OpPlace (mkOrder 0 1 Ask "sender" 100 0 None 100 ttime); OpCancel 0 0; OpMarket 100 Bid] "sender" 0 1 (Some (mkSend 2 "sender" (mkCoin "quote" 100))) None None None;
    mkClaimOrderTestCase "ASK: valid basic partial claim at MIN_TICK" [OpPlace (mkOrder (-108000000) 0 Ask "sender" 3000000000000 0 None 3000000000000 ttime); OpMarket 3 Bid] "sender" (-108000000) 0 (Some (mkSend 2 "sender" (mkCoin "quote" 3))) None None None;
    mkClaimOrderTestCase "BID: valid basic full claim" [OpPlace (mkOrder 0 0 Bid "sender" 10 0 None 10 ttime); OpMarket 10 Ask] "sender" 0 0 (Some (mkSend 2 "sender" (mkCoin "base" 10))) None None None;
    mkClaimOrderTestCase "BID: valid basic partial claim" [OpPlace (mkOrder 0 0 Bid "sender" 10 0 None 10 ttime); OpMarket 5 Ask] "sender" 0 0 (Some (mkSend 2 "sender" (mkCoin "base" 5))) None (Some (mkOrder 0 0 Bid "sender" 5 (5 * DEC) None 10 ttime)) None;
    mkClaimOrderTestCase "BID: valid two-step partial claim" [OpPlace (mkOrder 0 0 Bid "sender" 10 0 None 10 ttime); OpMarket 7 Ask; OpClaim 0 0; OpMarket 3 Ask] "sender" 0 0 (Some (mkSend 2 "sender" (mkCoin "base" 3))) None None None;
    mkClaimOrderTestCase "BID: valid basic full claim (large positive tick)" [OpPlace (mkOrder 1000000 0 Bid "sender" 10 0 None 10 ttime); OpMarket 5 Ask] "sender" 1000000 0 (Some (mkSend 2 "sender" (mkCoin "base" 5))) None None None;
    mkClaimOrderTestCase "BID: valid basic partial claim (large positive tick)" [OpPlace (mkOrder 1000000 0 Bid "sender" 10 0 None 10 ttime); OpMarket 2 Ask] "sender" 1000000 0 (Some (mkSend 2 "sender" (mkCoin "base" 2))) None (Some (mkOrder 1000000 0 Bid "sender" 6 (4 * DEC) None 10 ttime)) None;
    mkClaimOrderTestCase "BID: valid two-step partial claim (large positive tick)" [OpPlace (mkOrder 1000000 0 Bid "sender" 10 0 None 10 ttime); OpMarket 2 Ask; OpClaim 1000000 0; OpMarket 3 Ask] "sender" 1000000 0 (Some (mkSend 2 "sender" (mkCoin "base" 3))) None None None;
    mkClaimOrderTestCase "BID: valid basic full claim (large negative tick)" [OpPlace (mkOrder (-5000000) 0 Bid "sender" 100 0 None 100 ttime); OpMarket 200 Ask] "sender" (-5000000) 0 (Some (mkSend 2 "sender" (mkCoin "base" 200))) None None None;
    mkClaimOrderTestCase "BID: valid basic partial claim (large negative tick)" [OpPlace (mkOrder (-5000000) 0 Bid "sender" 100 0 None 100 ttime); OpMarket 50 Ask] "sender" (-5000000) 0 (Some (mkSend 2 "sender" (mkCoin "base" 50))) None ((Some (mkOrder (-5000000) 0 Bid "sender" 75 (25 * DEC) None 100 ttime))) None;
    mkClaimOrderTestCase "BID: valid two-step partial claim (large negative tick)" [OpPlace (mkOrder (-5000000) 0 Bid "sender" 100 0 None 100 ttime); OpMarket 100 Ask; OpClaim (-5000000) 0; OpMarket 100 Ask] "sender" (-5000000) 0 (Some (mkSend 2 "sender" (mkCoin "base" 100))) None None None;
    mkClaimOrderTestCase "BID: full claim with a previous cancellation" [OpPlace (mkOrder 0 0 Bid "sender" 50 0 None 50 ttime); OpPlace (mkOrder 0 1 Bid "sender" 100 0 None 100 ttime); OpCancel 0 0; OpMarket 100 Ask] "sender" 0 1 (Some (mkSend 2 "sender" (mkCoin "base" 100))) None None None;
    mkClaimOrderTestCase "invalid tick id" [OpPlace (mkOrder 0 0 Ask "sender" 10 0 None 10 ttime); OpMarket 5 Bid] "sender" 1 0 (Some (mkSend 2 "sender" (mkCoin "quote" 5))) None None (Some (EInvalidTickId 1));
    mkClaimOrderTestCase "invalid order id" [OpPlace (mkOrder 0 0 Ask "sender" 10 0 None 10 ttime); OpMarket 5 Bid] "sender" 0 1 (Some (mkSend 2 "sender" (mkCoin "quote" 5))) None None (Some (EOrderNotFound 0 1));
    mkClaimOrderTestCase "invalid order id (cancelled order)" [OpPlace (mkOrder 0 0 Ask "sender" 10 0 None 10 ttime); OpCancel 0 0] "sender" 0 0 (Some (mkSend 2 "sender" (mkCoin "quote" 5))) None None (Some (EOrderNotFound 0 0));
    mkClaimOrderTestCase "zero claim amount" [OpPlace (mkOrder 0 0 Ask "sender" 10 0 None 10 ttime)] "sender" 0 0 (Some (mkSend 2 "sender" (mkCoin "quote" 5))) None None (Some EZeroClaim);
    mkClaimOrderTestCase "zero claim amount (tick etas < order etas)" [OpPlace (mkOrder 0 0 Ask "sender" 10 0 None 10 ttime); OpPlace (mkOrder 0 0 Ask "sender" 10 0 None 10 ttime)] "sender" 0 1 (Some (mkSend 2 "sender" (mkCoin "quote" 5))) None None (Some EZeroClaim);
    mkClaimOrderTestCase "zero claim amount (cancelled order larger etas than order)" [OpPlace (mkOrder 0 0 Ask "sender" 10 0 None 10 ttime); OpPlace (mkOrder 0 0 Ask "sender" 100 0 None 100 ttime); OpCancel 0 1] "sender" 0 0 (Some (mkSend 2 "sender" (mkCoin "quote" 5))) None None (Some EZeroClaim);
    mkClaimOrderTestCase "zero claim amount success case" [OpPlace (mkOrder (-5000000) 0 Ask "sender" 1 0 None 1 ttime); OpPlace (mkOrder (-5000000) 1 Ask "sender" 1 0 None 1 ttime); OpMarket 1 Bid] "sender" (-5000000) 0 None None None None ].
(* END *)
Example test_claim_order : failures co_name check_claim test_claim_order_cases = [].
Proof. vm_compute. reflexivity. Qed.

(** src/tests/test_order.rs:2909-2919 *)
Record MovingClaimOrderTestCase := mkMovingClaimOrderTestCase {
  mc_name : string; mc_ops : list op; mc_sender : string; mc_tick : Z; mc_id : Z; mc_output : submsg; mc_state : option limit_order; mc_error : option error }.
(** src/tests/test_order.rs:3539-3592 *)
Definition check_moving_claim (c : MovingClaimOrderTestCase) : bool :=
  let i := mkInfo (mc_sender c) [] in
  after i (mc_ops c) fresh (fun s0 =>
    let '(s, r) := claim_limit i (mc_tick c) (mc_id c) s0 in
    match mc_error c with
    | Some e => err_is e r
    | None => ok_and r (fun r => eqb (nth_error (r_msgs r) 0) (Some (mc_output c)) && eqb (s_orders s !! (mc_tick c, mc_id c)) (mc_state c))
    end).
(* BEGIN tests/test_order.rs test_claim_order_moving_tick MovingClaimOrderTestCase *)
Definition test_claim_order_moving_tick_cases : list MovingClaimOrderTestCase :=
  [ mkMovingClaimOrderTestCase "ASK: single tick movement full claim" [OpPlace (mkOrder 0 0 Bid "sender" 100 0 None 100 ttime); OpMarket 100 Ask; OpPlace (mkOrder 0 1 Ask "sender" 50 0 None 50 ttime); OpMarket 50 Bid; OpClaim 0 0] "sender" 0 1 (mkSend 2 "sender" (mkCoin "quote" 50)) None None;
    mkMovingClaimOrderTestCase "ASK: single tick movement partial claim" [OpPlace (mkOrder 0 0 Bid "sender" 100 0 None 100 ttime); OpMarket 100 Ask; OpPlace (mkOrder 0 1 Ask "sender" 50 0 None 50 ttime); OpMarket 25 Bid; OpClaim 0 0] "sender" 0 1 (mkSend 2 "sender" (mkCoin "quote" 25)) (Some (mkOrder 0 1 Ask "sender" 25 (25 * DEC) None 50 ttime)) None;
    mkMovingClaimOrderTestCase "ASK: single tick movement partial claim with cancellation" [OpPlace (mkOrder 0 0 Bid "sender" 100 0 None 100 ttime); OpMarket 100 Ask; OpPlace (mkOrder 0 1 Ask "sender" 25 0 None 25 ttime); OpPlace (mkOrder 0 2 Ask "sender" 50 0 None 50 ttime); OpCancel 0 1; OpMarket 25 Bid; OpClaim 0 0] "sender" 0 2 (mkSend 2 "sender" (mkCoin "quote" 25)) (Some (mkOrder 0 2 Ask "sender" 25 (50 * DEC) None 50 ttime)) None;
    mkMovingClaimOrderTestCase "ASK: single tick movement partial claim with cancellation from previous direction" [OpPlace (mkOrder 0 0 Bid "sender" 100 0 None 100 ttime); OpCancel 0 0; OpPlace (mkOrder 0 1 Ask "sender" 50 0 None 50 ttime); OpMarket 25 Bid] "sender" 0 1 (mkSend 2 "sender" (mkCoin "quote" 25)) (Some (mkOrder 0 1 Ask "sender" 25 (25 * DEC) None 50 ttime)) None;
    mkMovingClaimOrderTestCase "ASK: returning tick movement full claim" [OpPlace (mkOrder 0 0 Bid "sender" 100 0 None 100 ttime); OpMarket 100 Ask; OpPlace (mkOrder 0 1 Ask "sender" 50 0 None 50 ttime); OpMarket 50 Bid; OpPlace (mkOrder 0 2 Bid "sender" 100 0 None 100 ttime); OpMarket 100 Ask; OpClaim 0 0; OpClaim 0 2] "sender" 0 1 (mkSend 2 "sender" (mkCoin "quote" 50)) None None;
    mkMovingClaimOrderTestCase "BID: single tick movement full claim" [OpPlace (mkOrder 0 0 Ask "sender" 100 0 None 100 ttime); OpMarket 100 Bid; OpPlace (mkOrder 0 1 Bid "sender" 50 0 None 50 ttime); OpMarket 50 Ask; OpClaim 0 0] "sender" 0 1 (mkSend 2 "sender" (mkCoin "base" 50)) None None;
    mkMovingClaimOrderTestCase "BID: single tick movement partial claim" [OpPlace (mkOrder 0 0 Ask "sender" 100 0 None 100 ttime); OpMarket 100 Bid; OpPlace (mkOrder 0 1 Bid "sender" 50 0 None 50 ttime); OpMarket 25 Ask; OpClaim 0 0] "sender" 0 1 (mkSend 2 "sender" (mkCoin "base" 25)) (Some (mkOrder 0 1 Bid "sender" 25 (25 * DEC) None 50 ttime)) None;
    mkMovingClaimOrderTestCase "BID: single tick movement partial claim with cancellation" [OpPlace (mkOrder 0 0 Ask "sender" 100 0 None 100 ttime); OpMarket 100 Bid; OpPlace (mkOrder 0 1 Bid "sender" 25 0 None 25 ttime); OpPlace (mkOrder 0 2 Bid "sender" 50 0 None 50 ttime); OpCancel 0 1; OpMarket 25 Ask; OpClaim 0 0] "sender" 0 2 (mkSend 2 "sender" (mkCoin "base" 25)) (Some (mkOrder 0 2 Bid "sender" 25 (50 * DEC) None 50 ttime)) None;
    mkMovingClaimOrderTestCase "BID: single tick movement partial claim with cancellation from previous direction" [OpPlace (mkOrder 0 0 Ask "sender" 100 0 None 100 ttime); OpCancel 0 0; OpPlace (mkOrder 0 1 Bid "sender" 50 0 None 50 ttime); OpMarket 25 Ask] "sender" 0 1 (mkSend 2 "sender" (mkCoin "base" 25)) (Some (mkOrder 0 1 Bid "sender" 25 (25 * DEC) None 50 ttime)) None;
    mkMovingClaimOrderTestCase "BID: returning tick movement full claim" [OpPlace (mkOrder 0 0 Ask "sender" 100 0 None 100 ttime); OpMarket 100 Bid; OpPlace (mkOrder 0 1 Bid "sender" 50 0 None 50 ttime); OpMarket 50 Ask; OpPlace (mkOrder 0 2 Ask "sender" 100 0 None 100 ttime); OpMarket 100 Bid; OpClaim 0 0; OpClaim 0 2] "sender" 0 1 (mkSend 2 "sender" (mkCoin "base" 50)) None None ].
(* END *)
Example test_claim_order_moving_tick : failures mc_name check_moving_claim test_claim_order_moving_tick_cases = [].
Proof. vm_compute. reflexivity. Qed.

(** src/tests/test_order.rs:3595-3602 *)
Record BatchClaimOrderTestCase := mkBatchClaimOrderTestCase {
  bc_name : string; bc_ops : list op; bc_orders : list (Z * Z); bc_messages : list submsg; bc_states : option (list limit_order); bc_error : option error }.
(** src/tests/test_order.rs:3754-3830 *)
Definition check_batch (c : BatchClaimOrderTestCase) : bool :=
  after (mkInfo "owner" []) (bc_ops c) fresh (fun s0 =>
    let '(s, r) := batch_claim_limits (mkInfo "sender" []) (bc_orders c) s0 in
    match bc_error c with
    | Some e => err_is e r
    | None => ok_and r (fun r =>
        eqb (r_msgs r) (bc_messages c) &&
        all (bc_orders c) (fun k =>
          eqb (s_orders s !! k) (List.find (fun o => (o_tick o =? k.1) && (o_id o =? k.2)) (unwrap_or (bc_states c) []))))
    end).
(* BEGIN tests/test_order.rs test_batch_claim_order BatchClaimOrderTestCase *)
Definition test_batch_claim_order_cases : list BatchClaimOrderTestCase :=
  [ mkBatchClaimOrderTestCase "Batch claim orders happy path" [OpPlace (mkOrder 0 0 Bid "owner" 100 0 (Some 10000000000000000) 100 ttime); OpPlace (mkOrder 1 1 Ask "owner" 50 0 None 50 ttime); OpMarket 100 Ask; OpMarket 51 Bid] [(0, 0); (1, 1)] [mkSend 2 "owner" (mkCoin "base" 99); mkSend 3 "sender" (mkCoin "base" 1); mkSend 2 "owner" (mkCoin "quote" 50)] None None;
    mkBatchClaimOrderTestCase "Batch claim with unfilled order" [OpPlace (mkOrder 0 0 Bid "owner" 100 0 None 100 ttime); OpPlace (mkOrder 1 1 Ask "owner" 50 0 None 50 ttime); OpPlace (mkOrder (-1) 2 Bid "owner" 25 0 None 25 ttime); OpMarket 100 Ask; OpMarket 51 Bid] [(0, 0); (1, 1); ((-1), 2)] [mkSend 2 "owner" (mkCoin "base" 100); mkSend 2 "owner" (mkCoin "quote" 50)] (Some [mkOrder (-1) 2 Bid "owner" 25 0 None 25 ttime]) None ].
(* END *)
Example test_batch_claim_order : failures bc_name check_batch test_batch_claim_order_cases = [].
Proof. vm_compute. reflexivity. Qed.

(** src/tests/test_order.rs:3833-3837 *)
Record DirectionalLiquidityTestCase := mkDirectionalLiquidityTestCase {
  dl_name : string; dl_ops : list op; dl_liquidity : (dir * Z) * (dir * Z) }.
(** src/tests/test_order.rs:4018-4053 *)
Definition check_liquidity (c : DirectionalLiquidityTestCase) : bool :=
  after (mkInfo "sender" []) (dl_ops c) fresh (fun s =>
    let '(a, b) := dl_liquidity c in
    (get_directional_liquidity s a.1 =? a.2) && (get_directional_liquidity s b.1 =? b.2)).
(* BEGIN tests/test_order.rs test_directional_liquidity DirectionalLiquidityTestCase *)
Definition test_directional_liquidity_cases : list DirectionalLiquidityTestCase :=
  [ mkDirectionalLiquidityTestCase "liquidity increment only" [OpPlace (mkOrder 0 0 Ask "sender" 200 0 None 200 ttime); OpPlace (mkOrder 0 1 Bid "sender" 100 0 None 100 ttime)] (((Ask, (200 * DEC)), (Bid, (100 * DEC))));
    mkDirectionalLiquidityTestCase "liquidity increment & decrement from cancel" [OpPlace (mkOrder 0 0 Ask "sender" 200 0 None 200 ttime); OpPlace (mkOrder 0 1 Bid "sender" 100 0 None 100 ttime); OpCancel 0 0] (((Ask, 0), (Bid, (100 * DEC))));
    mkDirectionalLiquidityTestCase "liquidity increment & decrement from partial fill and full fill" [OpPlace (mkOrder 0 0 Ask "sender" 100 0 None 100 ttime); OpPlace (mkOrder 0 1 Bid "sender" 200 0 None 200 ttime); OpMarket 100 Ask; OpMarket 100 Bid] (((Ask, 0), (Bid, (100 * DEC))));
    mkDirectionalLiquidityTestCase "liquidity increment & decrement from partial fill and full fill on large positive tick" [OpPlace (mkOrder 1000000 0 Ask "sender" 100 0 None 100 ttime); OpPlace (mkOrder 1000000 1 Bid "sender" 200 0 None 200 ttime); OpMarket 50 Ask; OpMarket 200 Bid] (((Ask, 0), (Bid, (100 * DEC))));
    mkDirectionalLiquidityTestCase "liquidity increment & decrement from partial fill and full fill on large negative tick" [OpPlace (mkOrder (-5000000) 0 Ask "sender" 100 0 None 100 ttime); OpPlace (mkOrder (-5000000) 1 Bid "sender" 200 0 None 200 ttime); OpMarket 400 Ask; OpMarket 25 Bid] (((Ask, (50 * DEC)), (Bid, 0))) ].
(* END *)
Example test_directional_liquidity : failures dl_name check_liquidity test_directional_liquidity_cases = [].
Proof. vm_compute. reflexivity. Qed.

(** src/tests/test_order.rs:4056-4065 *)
Record MakerFeeTestCase := mkMakerFeeTestCase {
  mf_name : string; mf_order : limit_order; mf_fee : option Z; mf_recipient : option string;
  mf_claimer : submsg; mf_msg : option submsg; mf_error : option error }.
(** src/tests/test_order.rs:4165-4240 (the reply ids are added by the loop) *)
Definition with_reply (n : Z) (m : submsg) : submsg := mkSend n (sm_to m) (sm_coin m).
Definition check_maker_fee (c : MakerFeeTestCase) : bool :=
  let o := mf_order c in
  let s := set_orderbook (mkBook "quote" "base" 0 0 0) st_empty in
  let s := set_orders {[ (o_tick o, o_id o) := o ]} s in
  let s := match mf_fee c with Some f => set_fee f s | None => s end in
  let s := match mf_recipient c with Some a => set_recipient a s | None => s end in
  let q := o_quantity o * DEC in
  let s := set_ticks {[ o_tick o := set_values ts_default (o_dir o) (mkTV q q q 0 q) ]} s in
  let '(_, r) := claim_order "sender" (o_tick o) (o_id o) s in
  match mf_error c with
  | Some e => err_is e r
  | None => ok_and r (fun '(_, msgs, _) =>
      eqb (nth_error msgs 0) (Some (with_reply REPLY_ID_CLAIM (mf_claimer c))) &&
      eqb (nth_error msgs (match o_bounty o with Some _ => 2%nat | None => 1%nat end)) (option_map (with_reply REPLY_ID_MAKER_FEE) (mf_msg c)))
  end.
(* BEGIN tests/test_order.rs test_maker_fee MakerFeeTestCase *)
Definition test_maker_fee_cases : list MakerFeeTestCase :=
  [ mkMakerFeeTestCase "Basic Maker Fee (no bounty)" (mkOrder 0 0 Bid "sender" 100 0 None 100 ttime) (Some 20000000000000000) (Some "maker") (mkSend 0 "sender" (mkCoin "base" 98)) (Some (mkSend 0 "maker" (mkCoin "base" 2))) None;
    mkMakerFeeTestCase "Basic Maker Fee Test w/ bounty" (mkOrder 0 0 Bid "sender" 100 0 (Some 10000000000000000) 100 ttime) (Some 20000000000000000) (Some "maker") (mkSend 0 "sender" (mkCoin "base" 97)) (Some (mkSend 0 "maker" (mkCoin "base" 2))) None;
    mkMakerFeeTestCase "Basic Maker Fee w/ rounding" (mkOrder 0 0 Bid "sender" 100 0 None 100 ttime) (Some 30303030303030303) (Some "maker") (mkSend 0 "sender" (mkCoin "base" 97)) (Some (mkSend 0 "maker" (mkCoin "base" 3))) None;
    mkMakerFeeTestCase "No maker fee" (mkOrder 0 0 Bid "sender" 100 0 None 100 ttime) None (Some "maker") (mkSend 0 "sender" (mkCoin "base" 100)) None None;
    mkMakerFeeTestCase "Maker fee zero amount" (mkOrder 0 0 Bid "sender" 100 0 None 100 ttime) (Some 1000000000000000) (Some "maker") (mkSend 0 "sender" (mkCoin "base" 100)) None None;
    mkMakerFeeTestCase "No recipient" (mkOrder 0 0 Bid "sender" 100 0 None 100 ttime) (Some 20000000000000000) None (mkSend 0 "sender" (mkCoin "base" 98)) (Some (mkSend 0 "maker" (mkCoin "base" 2))) (Some ENoMakerFeeRecipient) ].
(* END *)
Example test_maker_fee : failures mf_name check_maker_fee test_maker_fee_cases = [].
Proof. vm_compute. reflexivity. Qed.
