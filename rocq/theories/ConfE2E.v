(** * ConfE2E: the end-to-end tests of src/tests/e2e replayed on the model with its bank.

    Like the other Conf*.v files these are tests of the model's faithfulness, not proofs of properties.
    The scenarios of test_orders.rs are replayed as written; the random ones of test_fuzz.rs with a small
    deterministic generator in place of StdRng and with fewer steps.  The maker fee is zero, as it is in
    the repository's runs (utils.rs:55-58). *)
From stdpp Require Import pretty.
From Verif Require Import Base Dec Types State TickMath Sumtree Tick Order Auth Contract Query World Tests ConfBase SpecClean.

(** utils.rs:441-470 place_limit (cf. Tests.place) and :472-505 place_market: at least one token out is asked for. *)
Definition market (who : string) (d : dir) (amt : Z) : env * call :=
  (tenv, CSudo (SwapExactAmountIn who (mkCoin (denom_of d) amt) (denom_of (opposite d)) 1 0)).
Definition quote_of (w : world) (d : dir) (amt : Z) : res coin :=
  calc_out_amount_given_in (w_st w) (mkCoin (denom_of d) amt) (denom_of (opposite d)) 0.
(** Run one call, which must succeed (`.unwrap()`). *)
Definition must (c : env * call) (w : world) (k : world -> bool) : bool :=
  match step (fst c) w (snd c) with (w', Done _) => k w' | _ => false end.
(** The only transfer of a response is [amount] of [denom] to [who] (utils.rs assert::balance_changes; the
    bank of the model keeps the balance of the contract, so the transfers are compared directly). *)
Definition sent (r : response) (who denom : string) : Z :=
  fold_right Z.add 0 (map (fun m => if eqb (sm_to m) who && eqb (c_denom (sm_coin m)) denom then c_amount (sm_coin m) else 0) (r_msgs r)).

(** utils.rs:91-118 pool_liquidity and :120-141 pool_balance *)
Definition pool_liquidity (w : world) (base quote : Z) : bool := ok_is [mkCoin "base" base; mkCoin "quote" quote] (total_pool_liquidity (w_st w)).
Definition pool_balance (w : world) (base quote : Z) : bool := eqb (balance w "base") base && eqb (balance w "quote") quote.
(** utils.rs:143-173 assert::spot_price *)
Definition spot_prices (w : world) (bid_tick ask_tick : Z) : bool :=
  match tick_to_price bid_tick, tick_to_price ask_tick with
  | Ok b, Ok a => ok_is b (spot_price (w_st w) "quote" "base") &&
                  match dec_inv a with Some x => ok_is x (spot_price (w_st w) "base" "quote") | None => false end
  | _, _ => false
  end.
(** utils.rs:175-197 assert::has_liquidity *)
Definition has_liquidity (w : world) : bool :=
  ok_and (total_pool_liquidity (w_st w)) (fun l => all l (fun c => c_amount c <=? balance w (c_denom c))).
(** utils.rs:199-226 has_fillable_liqudity *)
Definition has_fillable (d : dir) (t : Z) (ts : tick_state) : bool :=
  negb (tv_tal (get_values ts d) =? 0) &&
  match tick_to_price t with
  | Ok p => ok_and (amount_to_value d (tv_tal (get_values ts d) / DEC) p RDown) (fun x => negb (x =? 0))
  | _ => false
  end.
(** utils.rs:228-287 assert::tick_invariants *)
Definition tick_invariants (w : world) : bool :=
  book_and (w_st w) (fun b => all (map_to_list (s_ticks (w_st w))) (fun kv =>
    all [Bid; Ask] (fun d =>
      (tv_etas (get_values (snd kv) d) <=? tv_ctt (get_values (snd kv) d)) &&
      (negb (has_fillable d (fst kv) (snd kv)) ||
       match d with Bid => fst kv <=? ob_next_bid b | Ask => ob_next_ask b <=? fst kv end)))).
(** utils.rs:312-316 no_remaining_orders and :318-362 clean_ticks *)
Definition no_orders (w : world) : bool := match map_to_list (s_orders (w_st w)) with [] => true | _ => false end.
Definition clean_ticks (w : world) : bool :=
  all (map_to_list (s_ticks (w_st w))) (fun kv => all [Bid; Ask] (fun d =>
    let v := get_values (snd kv) d in
    (tv_tal v =? 0) && ok_and (unrealized_dir (w_st w) (fst kv) v d) (fun u => tv_etas v + u =? tv_ctt v))).

(** utils.rs:507-539 place_market_and_assert_balance: the sender gets what the quote said. *)
Definition market_checked (who : string) (d : dir) (amt : Z) (w : world) (k : world -> bool) : bool :=
  ok_and (quote_of w d amt) (fun q =>
    match step tenv w (snd (market who d amt)) with
    | (w', Done r) => (sent r who (c_denom q) =? c_amount q) && k w'
    | _ => false
    end).
(** utils.rs:557-658 claim_and_assert_balance *)
Definition claim_checked (who : string) (t id : Z) (w : world) (k : world -> bool) : bool :=
  match s_orders (w_st w) !! (t, id) with
  | Some o =>
      match claimable (w_st w) o, tick_to_price t with
      | Some n, Ok p =>
          ok_and (amount_to_value (o_dir o) n p RDown) (fun got =>
            let bounty := if eqb (o_owner o) who then 0 else match o_bounty o with Some b => got * b / DEC | None => 0 end in
            match step tenv w (snd (claim who t id)) with
            | (w', Done r) =>
                (sent r (o_owner o) (denom_of (opposite (o_dir o))) =? got - bounty) &&
                (eqb (o_owner o) who || (sent r who (denom_of (opposite (o_dir o))) =? bounty)) && k w'
            | _ => false
            end)
      | _, _ => false
      end
  | None => false
  end.
(** utils.rs:673-707 cancel_limit_and_assert_balance *)
Definition cancel_checked (who : string) (t id : Z) (w : world) (k : world -> bool) : bool :=
  match s_orders (w_st w) !! (t, id) with
  | Some o => match step tenv w (snd (cancel who t id)) with
              | (w', Done r) => (sent r who (denom_of (o_dir o)) =? o_quantity o) && k w'
              | _ => false
              end
  | None => false
  end.

(** ** src/tests/e2e/cases/test_orders.rs:12-165 test_basic_order *)
Record BasicFulfilledOrderTestCase := mkBasicFulfilledOrderTestCase {
  bf_name : string; bf_placed : Z; bf_filled : Z; bf_tick : Z; bf_bounty : option Z; bf_dir : dir; bf_claimer : string }.
Definition test_basic_order_cases : list BasicFulfilledOrderTestCase :=
  [ mkBasicFulfilledOrderTestCase "basic fulfilled ask" 10 10 0 None Ask "user1";
    mkBasicFulfilledOrderTestCase "basic fulfilled bid" 10 10 0 None Bid "user1";
    mkBasicFulfilledOrderTestCase "basic partially filled ask" 10 5 0 None Ask "user1";
    mkBasicFulfilledOrderTestCase "basic partially filled bid" 10 5 0 None Bid "user1";
    mkBasicFulfilledOrderTestCase "basic fulfilled ask with bounty" 100 100 0 (Some (10 ^ 16)) Ask "user1";
    mkBasicFulfilledOrderTestCase "basic fulfilled ask with bounty with external claimant" 100 100 0 (Some (10 ^ 16)) Ask "user2" ].
Definition pair_of (d : dir) (f : Z -> Z -> bool) (mine other : Z) : bool := match d with Ask => f mine other | Bid => f other mine end.
Definition check_basic (c : BasicFulfilledOrderTestCase) : bool :=
  let '(bid_tick, ask_tick) := match bf_dir c with Ask => (MIN_TICK, bf_tick c) | Bid => (bf_tick c, MAX_TICK) end in
  let left := bf_placed c - bf_filled c in
  must (place "user1" (bf_tick c) (bf_dir c) (bf_placed c) (bf_bounty c)) w_start (fun w =>
    pair_of (bf_dir c) (pool_liquidity w) (bf_placed c) 0 && pair_of (bf_dir c) (pool_balance w) (bf_placed c) 0 &&
    spot_prices w bid_tick ask_tick &&
    market_checked "user2" (opposite (bf_dir c)) (bf_filled c) w (fun w =>
      pair_of (bf_dir c) (pool_liquidity w) left 0 && pair_of (bf_dir c) (pool_balance w) left (bf_filled c) &&
      spot_prices w bid_tick ask_tick &&
      claim_checked (bf_claimer c) 0 0 w (fun w =>
        pair_of (bf_dir c) (pool_liquidity w) left 0 && pair_of (bf_dir c) (pool_balance w) left 0 &&
        spot_prices w bid_tick ask_tick))).
Example test_basic_order : failures bf_name check_basic test_basic_order_cases = [].
Proof. vm_compute. reflexivity. Qed.

(** ** src/tests/e2e/cases/test_orders.rs:167-228 test_cancelled_orders *)
Definition place_cancel (id : Z) (k : world -> bool) (w : world) : bool :=
  must (place "user1" 0 Ask 100 None) w (fun w => cancel_checked "user1" 0 id w k).
Example test_cancelled_orders_e2e :
  place_cancel 0 (place_cancel 1 (place_cancel 2 (fun w =>
    pool_liquidity w 0 0 && pool_balance w 0 0 && tick_invariants w &&
    must (place "user1" 0 Ask 100 None) w (fun w =>
      pool_liquidity w 100 0 && pool_balance w 100 0 && tick_invariants w &&
      market_checked "user1" Bid 100 w (fun w =>
        pool_liquidity w 0 0 && pool_balance w 0 100 && tick_invariants w &&
        must (claim "user1" 0 3) w tick_invariants))))) w_start = true.
Proof. vm_compute. reflexivity. Qed.

(** ** src/tests/e2e/cases/test_orders.rs:230-290 test_decrementing_market_value, with fewer ticks *)
Definition get_out (w : world) (d : dir) (amt : Z) : Z := match quote_of w d amt with Ok c => c_amount c | _ => 0 end.
Fixpoint drain (fuel : nat) (d : dir) (amt prev : Z) (w : world) : option (nat * world) :=
  match fuel with
  | O => None
  | S f => match step tenv w (snd (market "user1" d amt)) with
           | (w', Done _) => let out := get_out w' d amt in
                             if (out <=? prev) && tick_invariants w' then
                               match drain f d amt out w' with Some (n, w'') => Some (S n, w'') | None => None end
                             else None
           | _ => Some (O, w)
           end
  end.
Definition ladder (d : dir) (w : world) : world :=
  run w (map (fun i => place ("user" +:+ pretty i) ((i - 8) * 250000) d 40 None) (seqZ 0 17)).
Definition check_decrementing (d : dir) (w : world) : option (nat * world) :=
  let w := ladder d w in
  let first := get_out w (opposite d) 100 in
  if first =? 0 then None else drain 60 (opposite d) 100 first w.
Example test_decrementing_market_value :
  match check_decrementing Ask w_start with
  | Some (S _, w) => match check_decrementing Bid w with Some (S _, _) => true | _ => false end
  | _ => false
  end = true.
Proof. vm_compute. reflexivity. Qed.

(** ** src/tests/e2e/cases/test_fuzz.rs, with a linear congruential generator in place of StdRng. *)
Definition next_rng (r : Z) : Z := (r * 6364136223846793005 + 1442695040888963407) mod 2 ^ 64.
Definition draw (r lo hi : Z) : Z * Z := let r := next_rng r in (r, lo + (r / 2 ^ 20) mod (hi - lo + 1)).
Record fuzz := mkFuzz { f_rng : Z; f_world : world; f_orders : list (Z * Z); f_ok : bool; f_counts : Z * Z * Z * Z }.
Definition user (id : Z) : string := "user" +:+ pretty id.
(** test_fuzz.rs:510-567 place_random_limit: an amount up to 2^64, a 80% chance of a bounty of 0% or 1%. *)
Definition random_limit (r : Z) (range : Z * Z) (id : Z) : Z * (Z * dir * Z * option Z) :=
  let r := next_rng r in
  let q := Z.max 1 r in
  let '(r, b) := draw r 0 1 in
  let '(r, t) := draw r (fst range) (snd range) in
  let '(r, h) := draw r 0 9 in
  let '(r, p) := draw r 0 1 in
  (r, (t, if b =? 0 then Bid else Ask, q, if h <? 8 then Some (p * 10 ^ 16) else None)).
(** test_env.rs:358-391 get_max_market_amount *)
Definition max_market (w : world) (d : dir) : Z :=
  fold_right Z.add 0 (map (fun kv =>
    match tick_to_price (fst kv) with
    | Ok p => match amount_to_value (opposite d) (tv_tal (get_values (snd kv) (opposite d)) / DEC) p RDown with Ok x => x | _ => 0 end
    | _ => 0
    end) (map_to_list (s_ticks (w_st w)))).
Definition live (w : world) (l : list (Z * Z)) : list (Z * Z) :=
  List.filter (fun k => match s_orders (w_st w) !! k with Some _ => true | None => false end) l.
Definition bump (n : Z) (c : Z * Z * Z * Z) : Z * Z * Z * Z :=
  let '(a, b, x, y) := c in
  if n =? 0 then (a + 1, b, x, y) else if n =? 1 then (a, b + 1, x, y) else if n =? 2 then (a, b, x + 1, y) else (a, b, x, y + 1).
(** What a checked call does to the state of the fuzzer: [chk] is one of the checkers above. *)
Definition fuzz_act (s : fuzz) (r n : Z) (chk : (world -> bool) -> bool) (c : env * call) (l : list (Z * Z)) : fuzz :=
  let w' := fst (step (fst c) (f_world s) (snd c)) in
  mkFuzz r w' (live w' l) (f_ok s && chk (fun w => tick_invariants w && has_liquidity w)) (bump n (f_counts s)).
(** test_fuzz.rs:268-437 MixedFuzzOperation; an operation that is not possible is skipped. *)
Definition fuzz_step (range : Z * Z) (s : fuzz) (id : Z) : fuzz :=
  let w := f_world s in
  let '(r, x) := draw (f_rng s) 0 99 in
  if x <? 35 then
    let '(r, (t, d, q, b)) := random_limit r range id in
    let '(oid, _, _, _) := f_counts s in
    fuzz_act s r 0 (must (place "trader" t d q b) w) (place "trader" t d q b) (f_orders s ++ [(t, oid)])
  else if x <? 55 then
    let '(r, b) := draw r 0 1 in
    let d := if b =? 0 then Bid else Ask in
    let '(r, amt) := draw r 0 (max_market w d) in
    if (amt =? 0) || (get_out w d amt =? 0) then mkFuzz r w (f_orders s) (f_ok s) (f_counts s)
    else fuzz_act s r 1 (market_checked "taker" d amt w) (market "taker" d amt) (f_orders s)
  else
    let '(r, i) := draw r 0 (Z.max 0 (Z.of_nat (length (f_orders s)) - 1)) in
    match nth_error (f_orders s) (Z.to_nat i) with
    | None => mkFuzz r w (f_orders s) (f_ok s) (f_counts s)
    | Some (t, oid) =>
        match s_orders (w_st w) !! (t, oid) with
        | None => mkFuzz r w (f_orders s) false (f_counts s)
        | Some o =>
            let can := match claimable (w_st w) o with Some n => n | None => -1 end in
            if x <? 75 then
              if 0 <? can then
                mkFuzz r w (f_orders s)
                       (f_ok s && err_is ECancelFilledOrder (snd (execute tenv (mkInfo "trader" []) (CancelLimit t oid) (w_st w)))) (f_counts s)
              else fuzz_act s r 2 (cancel_checked "trader" t oid w) (cancel "trader" t oid) (f_orders s)
            else if can =? 0 then
                mkFuzz r w (f_orders s)
                       (f_ok s && err_is EZeroClaim (snd (execute tenv (mkInfo "trader" []) (ClaimLimit t oid) (w_st w)))) (f_counts s)
            else let who := match o_bounty o with Some _ => "claimant" | None => "trader" end in
                 fuzz_act s r 3 (claim_checked who t oid w) (claim who t oid) (f_orders s)
        end
    end.
(** test_fuzz.rs:655-722 clear_remaining_orders: claim each order, then cancel what is left of it. *)
Definition clear (w : world) (l : list (Z * Z)) : world :=
  run w (flat_map (fun k => [claim "trader" (fst k) (snd k); cancel "trader" (fst k) (snd k)]) l).
Definition fuzz_mixed (seed : Z) (n : Z) (range : Z * Z) : fuzz :=
  fold_left (fuzz_step range) (seqZ 0 n) (mkFuzz seed w_start [] true (0, 0, 0, 0)).
Definition used (c : Z * Z * Z * Z) : bool := let '(a, b, x, y) := c in (0 <? a) && (0 <? b) && (0 <? x) && (0 <? y).
Definition check_mixed (seed n : Z) (range : Z * Z) : bool :=
  let s := fuzz_mixed seed n range in
  let w := clear (f_world s) (f_orders s) in
  f_ok s && used (f_counts s) && no_orders w && clean_ticks w.

(** test_fuzz.rs:107-160 the ranges of test_order_fuzz_mixed*, and test_order_fuzz_large_tick_range *)
Definition mixed_ranges : list (string * (Z * Z)) :=
  [ ("mixed", (-20, 20)); ("mixed_single_tick", (0, 0)); ("mixed_large_negative_tick_range", (-4500000, -4499990));
    ("mixed_large_positive_tick_range", (4499990, 4500000)); ("mixed_min_tick", (MIN_TICK, MIN_TICK + 10));
    ("large_tick_range", (MIN_TICK, 4500000)) ].
Example test_order_fuzz_mixed : failures fst (fun c => check_mixed 42 50 (snd c)) mixed_ranges = [].
Proof. vm_compute. reflexivity. Qed.

(** test_fuzz.rs:162-266 run_fuzz_linear: place (and cancel some), then drain both sides with swaps, then claim. *)
Definition linear_place (range : Z * Z) (pct : Z) (s : fuzz) (id : Z) : fuzz :=
  let '(r, (t, d, q, b)) := random_limit (f_rng s) range id in
  let s1 := fuzz_act s r 0 (must (place "trader" t d q b) (f_world s)) (place "trader" t d q b) (f_orders s ++ [(t, id)]) in
  let '(r, x) := draw r 0 99 in
  if x <? pct then fuzz_act s1 r 2 (cancel_checked "trader" t id (f_world s1)) (cancel "trader" t id) (f_orders s1)
  else mkFuzz r (f_world s1) (f_orders s1) (f_ok s1) (f_counts s1).
(** The money a side holds, as the total of the pool shows it (test_env.rs:278-295). *)
Definition side_liq (w : world) (d : dir) : Z :=
  match total_pool_liquidity (w_st w) with Ok l => fold_right Z.add 0 (map (fun c => if eqb (c_denom c) (denom_of (opposite d)) then c_amount c else 0) l) | _ => 0 end.
(** The last swap of a side takes all that the side can still give. *)
Fixpoint linear_drain (fuel : nat) (d : dir) (s : fuzz) : fuzz :=
  match fuel with
  | O => s
  | S f =>
      let w := f_world s in
      if side_liq w d <=? 1 then s else
      let '(r, amt) := draw (f_rng s) 0 (max_market w d) in
      let amt := if Nat.ltb f 5 then max_market w d - Z.of_nat (4 - f) else amt in
      if (amt <=? 0) || (get_out w d amt =? 0) then linear_drain f d (mkFuzz r w (f_orders s) (f_ok s) (f_counts s))
      else linear_drain f d (fuzz_act s r 1 (market_checked "taker" d amt w) (market "taker" d amt) (f_orders s))
  end.
(** test_fuzz.rs:655-722 clear_remaining_orders: how many orders of a side a claim does not remove. *)
Definition unclaimed (w : world) (l : list (Z * Z)) (d : dir) : Z :=
  let w' := run w (map (fun k => claim "trader" (fst k) (snd k)) l) in
  Z.of_nat (length (List.filter (fun kv => eqb (o_dir (snd kv)) d) (map_to_list (s_orders (w_st w'))))).
Definition fuzz_linear (seed : Z) (n : Z) (range : Z * Z) (pct : Z) : fuzz :=
  linear_drain 10 Ask (linear_drain 10 Bid (fold_left (linear_place range pct) (seqZ 0 n) (mkFuzz seed w_start [] true (0, 0, 0, 0)))).
Definition check_linear (seed n : Z) (c : (Z * Z) * Z) : bool :=
  let s := fuzz_linear seed n (fst c) (snd c) in
  let w := clear (f_world s) (f_orders s) in
  f_ok s && (unclaimed (f_world s) (f_orders s) Bid <=? 1) && (unclaimed (f_world s) (f_orders s) Ask <=? 1) && no_orders w && clean_ticks w.
Definition linear_cases : list (string * ((Z * Z) * Z)) :=
  [ ("large_orders_small_range", ((-10, 10), 20)); ("small_orders_large_range", ((-4500000, 4500000), 20));
    ("small_orders_small_range", ((-10, 0), 10)); ("large_cancelled_orders_small_range", ((MIN_TICK, MIN_TICK + 20), 80));
    ("small_cancelled_orders_large_range", ((-4500000, 4500000), 80)); ("large_all_cancelled_orders_small_range", ((-10, 10), 100));
    ("single_tick", ((0, 0), 20)) ].
Example test_order_fuzz_linear : failures fst (fun c => check_linear 123456789 14 (snd c)) linear_cases = [].
Proof. vm_compute. reflexivity. Qed.
