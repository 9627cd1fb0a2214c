(** * Query: src/query.rs and the query helpers of src/state.rs *)
From Verif Require Import Base Dec Types State TickMath Sumtree Tick Order Auth Contract.

(** src/query.rs:24-70 spot_price.  [Decimal::from_str] fails above u128 atomics. *)
Definition spot_price (s : storage) (quote_asset base_asset : string) : res Z :=
  let? _ := rensure (negb (bool_decide (quote_asset = base_asset))) (EInvalidPair quote_asset base_asset) in
  let? ob := load_orderbook s in
  let? d := direction_from_pair ob base_asset quote_asset in
  let next := match d with Ask => ob_next_bid ob | Bid => ob_next_ask ob end in
  let? price := tick_to_price next in
  let? sp := match d with
             | Ask => Ok price
             | Bid => match dec_inv price with Some x => Ok x | None => Panic end
             end in
  if sp <=? U128_MAX then Ok sp else Err EStd.

(** src/query.rs:72-108 calc_out_amount_given_in *)
Definition calc_out_amount_given_in (s : storage) (token_in : coin) (out_denom : string) (fee : Z)
  : res coin :=
  let? _ := ensure_swap_fee fee in
  let? ob := load_orderbook s in
  let? d := direction_from_pair ob (c_denom token_in) out_denom in
  let bound := match d with Bid => MAX_TICK | Ask => MIN_TICK end in
  let? r := run_market_order_internal s (c_amount token_in) d bound in
  Ok (mkCoin (snd r) (m_out (fst r))).

(** src/query.rs:110-140 total_pool_liquidity: [ask coin; bid coin] *)
Definition total_pool_liquidity (s : storage) : res (list coin) :=
  let? ob := load_orderbook s in
  let conv d := match to_u128 (to_uint_floor (get_directional_liquidity s d)) with
                | Ok x => Ok x | _ => Panic end in
  let? a := conv Ask in
  let? b := conv Bid in
  Ok [mkCoin (get_expected_denom ob Ask) a; mkCoin (get_expected_denom ob Bid) b].

(** Iterator::take with a Z count. *)
Fixpoint takeZ {A} (n : Z) (l : list A) : list A :=
  match l with
  | [] => []
  | x :: l => if n <=? 0 then [] else x :: takeZ (n - 1) l
  end.

(** src/query.rs:142-183 all_ticks ([limit : Option<usize>]) *)
Definition all_ticks (s : storage) (start_from end_at limit : option Z)
  : res (list (Z * tick_state)) :=
  let l := omap (fun t => option_map (pair t) (s_ticks s !! t))
                (sorted_keys (s_ticks s) start_from end_at) in
  Ok (match limit with Some n => takeZ n l | None => l end).

(** src/query.rs:185-189 is_active *)
Definition is_active (s : storage) : bool := unwrap_or (s_active s) true.

(** src/query.rs:191-196 get_swap_fee *)
Definition get_swap_fee : Z := 0.

(** Order of the (i64, u64) keys of orders() in storage: lexicographic. *)
Definition key_le (a b : Z * Z) : Prop := a.1 < b.1 \/ (a.1 = b.1 /\ a.2 <= b.2).
Global Instance key_le_dec a b : Decision (key_le a b).
Proof. unfold key_le. apply _. Defined.
Definition key_leb (a b : Z * Z) : bool := (a.1 <? b.1) || ((a.1 =? b.1) && (a.2 <=? b.2)).
Definition key_in_bounds (lo hi : option (Z * Z)) (k : Z * Z) : bool :=
  match lo with Some l => key_leb l k | None => true end &&
  match hi with Some h => key_leb k h | None => true end.

(** Primary keys selected by [p], in storage order.  The owner MultiIndex of
    src/state.rs:36-53 is modelled as the set of live orders with that owner
    (cw-storage-plus IndexedMap is trusted to keep it in step with save/remove). *)
Definition sorted_order_keys (s : storage) (p : Z * Z -> limit_order -> bool) : list (Z * Z) :=
  merge_sort key_le
    (map fst (filter (fun kv : (Z * Z) * limit_order => Is_true (p kv.1 kv.2))
                     (map_to_list (s_orders s)))).
Definition orders_at (s : storage) (l : list (Z * Z)) : list limit_order :=
  omap (fun k => s_orders s !! k) l.

(** src/state.rs:11 DEFAULT_PAGE_SIZE *)
Definition DEFAULT_PAGE_SIZE : Z := 100.

(** [u64 as usize] on wasm32: keep the low 32 bits. *)
Definition as_usize (n : Z) : Z := n mod 2 ^ 32.

(** src/types/order.rs:117-132 FilterOwnerOrders *)
Inductive owner_filter : Type := FAll (owner : string) | FByTick (tick : Z) (owner : string).
Definition filter_key (f : owner_filter) (k : Z * Z) (o : limit_order) : bool :=
  match f with
  | FAll a => bool_decide (o_owner o = a)                                (* idx.owner.prefix(owner) *)
  | FByTick t a => bool_decide (o_owner o = a) && (o_tick o =? t)        (* idx.tick_and_owner.prefix((tick, owner)) *)
  end.

(** src/state.rs:76-104 get_orders_by_owner *)
Definition get_orders_by_owner (s : storage) (f : owner_filter) (lo hi : option (Z * Z))
           (page : option Z) : list limit_order :=
  let n := as_usize (unwrap_or page DEFAULT_PAGE_SIZE) in
  takeZ n (orders_at s (sorted_order_keys s (fun k o => filter_key f k o && key_in_bounds lo hi k))).

(** src/query.rs:198-226 orders_by_owner: (count, orders) *)
Definition orders_by_owner (s : storage) (owner : string) (lo hi : option (Z * Z))
           (limit : option Z) : res (Z * list limit_order) :=
  let count := Z.of_nat (length (sorted_order_keys s (filter_key (FAll owner)))) in
  Ok (count, get_orders_by_owner s (FAll owner) lo hi limit).

(** src/query.rs:228-234 denoms, 236-239 orderbook_state *)
Definition denoms (s : storage) : res (string * string) :=
  let? ob := load_orderbook s in Ok (ob_quote ob, ob_base ob).
Definition orderbook_state (s : storage) : res orderbook := load_orderbook s.

(** src/query.rs:241-255 ticks_by_id *)
Fixpoint ticks_by_id (s : storage) (l : list Z) : res (list (Z * tick_state)) :=
  match l with
  | [] => Ok []
  | t :: l =>
      let? ts := ok_or (s_ticks s !! t) (EInvalidTickId t) in
      let? r := ticks_by_id s l in
      Ok ((t, ts) :: r)
  end.

(** src/query.rs:257-294 get_unrealized_cancels, one direction *)
Definition unrealized_dir (s : storage) (tick : Z) (tv : tick_values) (d : dir) : res Z :=
  match get_root_node s tick d with
  | Ok root =>
      let? x := get_prefix_sum s root (tv_etas tv) (tv_crc tv) in
      Ok (saturating_sub x (tv_crc tv))
  | _ => Ok 0
  end.
(** src/query.rs:257-294 get_unrealized_cancels: (ask, bid) *)
Definition get_unrealized_cancels (s : storage) (tick : Z) (ts : tick_state) : res (Z * Z) :=
  let? a := unrealized_dir s tick (get_values ts Ask) Ask in
  let? b := unrealized_dir s tick (get_values ts Bid) Bid in
  Ok (a, b).

(** src/query.rs:296-315 ticks_unrealized_cancels_by_id *)
Fixpoint ticks_unrealized_cancels_by_id (s : storage) (l : list Z) : res (list (Z * (Z * Z))) :=
  match l with
  | [] => Ok []
  | t :: l =>
      let? ts := ok_or (s_ticks s !! t) (EInvalidTickId t) in
      let? u := get_unrealized_cancels s t ts in
      let? r := ticks_unrealized_cancels_by_id s l in
      Ok ((t, u) :: r)
  end.

(** src/query.rs:317-348 orders_by_tick: (count, orders) *)
Definition orders_by_tick (s : storage) (tick : Z) (start_from end_at limit : option Z)
  : res (Z * list limit_order) :=
  let l := sorted_order_keys s (fun k _ => (k.1 =? tick) && in_bounds start_from end_at k.2) in
  let count := Z.of_nat (length l) in
  Ok (count, takeZ (as_usize (unwrap_or limit count)) (orders_at s l)).

(** src/contract.rs:128 CalcInAmtGivenOut: unimplemented!() *)
Definition calc_in_amt_given_out (s : storage) : res coin := Panic.

(** src/contract.rs:162 GetMakerFee *)
Definition query_maker_fee (s : storage) : res Z := Ok (get_maker_fee s).

(** src/msg.rs:67-150 QueryMsg *)
Inductive query_msg : Type :=
| QSpotPrice (quote_asset base_asset : string)
| QCalcOutAmountGivenIn (token_in : coin) (out_denom : string) (fee : Z)
| QCalcOutAmtGivenIn (token_in : coin) (out_denom : string) (fee : Z)
| QGetTotalPoolLiquidity
| QCalcInAmtGivenOut
| QAllTicks (start_from end_at limit : option Z)
| QIsActive
| QGetSwapFee
| QOrdersByOwner (owner : string) (start_from end_at : option (Z * Z)) (limit : option Z)
| QOrderbookState
| QTicksById (ids : list Z)
| QOrdersByTick (tick : Z) (start_from end_at limit : option Z)
| QDenoms
| QGetMakerFee
| QGetUnrealizedCancels (ids : list Z)
| QAuth (q : auth_query).

(** The response types of src/msg.rs:160-224 (their JSON is in Codec.v). *)
Inductive answer : Type :=
| APrice (p : Z)
| ATokenOut (c : coin)
| ALiquidity (l : list coin)
| ATicks (l : list (Z * tick_state))
| AFlag (b : bool)
| AFee (f : Z)
| AOrders (count : Z) (l : list limit_order)
| ABook (ob : orderbook)
| ADenoms (quote base : string)
| AUnrealized (l : list (Z * (Z * Z)))
| AAddress (a : option string).

Definition rmap {A B} (f : A -> B) (r : res A) : res B := let? x := r in Ok (f x).

(** src/contract.rs:103-174 query *)
Definition query (s : storage) (m : query_msg) : res answer :=
  match m with
  | QSpotPrice q b => rmap APrice (spot_price s q b)
  | QCalcOutAmountGivenIn tin out fee => rmap ATokenOut (calc_out_amount_given_in s tin out fee)
  | QCalcOutAmtGivenIn tin out fee => rmap ATokenOut (calc_out_amount_given_in s tin out fee)
  | QGetTotalPoolLiquidity => rmap ALiquidity (total_pool_liquidity s)
  | QCalcInAmtGivenOut => rmap ATokenOut (calc_in_amt_given_out s)
  | QAllTicks lo hi n => rmap ATicks (all_ticks s lo hi n)
  | QIsActive => Ok (AFlag (is_active s))
  | QGetSwapFee => Ok (AFee get_swap_fee)
  | QOrdersByOwner a lo hi n => rmap (fun r => AOrders r.1 r.2) (orders_by_owner s a lo hi n)
  | QOrderbookState => rmap ABook (orderbook_state s)
  | QTicksById l => rmap ATicks (ticks_by_id s l)
  | QOrdersByTick t lo hi n => rmap (fun r => AOrders r.1 r.2) (orders_by_tick s t lo hi n)
  | QDenoms => rmap (fun r => ADenoms r.1 r.2) (denoms s)
  | QGetMakerFee => rmap AFee (query_maker_fee s)
  | QGetUnrealizedCancels l => rmap AUnrealized (ticks_unrealized_cancels_by_id s l)
  | QAuth q => Ok (AAddress (auth_query_run s q))
  end.
