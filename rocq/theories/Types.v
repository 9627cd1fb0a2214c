(** * Types: src/constants.rs and src/types/*.rs *)
From Verif Require Import Base Dec.

(** src/constants.rs:4-11 *)
Definition MIN_TICK : Z := -108000000.
Definition MAX_TICK : Z := 182402823.
Definition EXPONENT_AT_PRICE_ONE : Z := -6.
Definition GEOMETRIC_INCREMENT : Z := 9000000. (* GEOMETRIC_EXPONENT_INCREMENT_DISTANCE_IN_TICKS *)
Definition EXPECTED_SWAP_FEE : Z := 0.
Definition MAX_BATCH_CLAIM : Z := 100.
Definition MAX_MAKER_FEE_PERCENTAGE : Z := dec_percent 5.
(** src/constants.rs:14-27 *)
Definition OSMOSIS_GOV_ADDR : string := "osmo10d07y265gmmuvt4z0w9aw880jnsr700jjeq4qp".
Definition CIRCUIT_BREAKER_SUBDAO_ADDR : string :=
  "osmo1peuxfjj66n2qt2v5jmqlvzz8neakjgduez7vttvemw58uug6546sr60ngl".
Definition DEFAULT_MAKER_FEE_RECIPIENT : string := "osmo1r9jc2234fljy93z80cevqjt3nmjycec8aj4cc6".
Definition DEFAULT_MAKER_FEE : Z := 0.
(** src/constants.rs:30-36 max_spot_price, min_spot_price (atomics) *)
Definition max_spot_price : Z := 340282300000000000000 * DEC.
Definition min_spot_price : Z := 10 ^ 6.

(** src/types/reply_id.rs:1-5 *)
Definition REPLY_ID_REFUND : Z := 1.
Definition REPLY_ID_CLAIM : Z := 2.
Definition REPLY_ID_CLAIM_BOUNTY : Z := 3.
Definition REPLY_ID_MAKER_FEE : Z := 4.
Definition REPLY_ID_SUDO_SWAP_EXACT_IN : Z := 5.

(** src/types/order.rs:7-12 OrderDirection *)
Inductive dir : Type := Bid | Ask.
Global Instance dir_eq_dec : EqDecision dir.
Proof. solve_decision. Defined.
Global Instance dir_countable : Countable dir.
Proof.
  refine (inj_countable' (fun d => match d with Bid => true | Ask => false end)
                         (fun b : bool => if b then Bid else Ask) _).
  intros []; reflexivity.
Defined.

(** src/types/order.rs:14-22 OrderDirection::opposite *)
Definition opposite (d : dir) : dir := match d with Bid => Ask | Ask => Bid end.

(** src/types/order.rs:39-52 LimitOrder *)
Record limit_order : Type := mkOrder {
  o_tick : Z;               (* tick_id *)
  o_id : Z;                 (* order_id *)
  o_dir : dir;              (* order_direction *)
  o_owner : string;         (* owner *)
  o_quantity : Z;           (* quantity (Uint128) *)
  o_etas : Z;               (* etas (Decimal256 atomics) *)
  o_bounty : option Z;      (* claim_bounty (Decimal256 atomics) *)
  o_placed_quantity : Z;    (* placed_quantity *)
  o_placed_at : Z           (* placed_at *)
}.

(** src/types/order.rs:54-87 LimitOrder::new(..).with_placed_at(..) *)
Definition new_order (tick id : Z) (d : dir) (owner : string) (q etas : Z)
           (bounty : option Z) (placed_at : Z) : limit_order :=
  mkOrder tick id d owner q etas bounty q placed_at.

(** Field updates used by claim_order (src/order.rs:673-674). *)
Definition order_set_fill (o : limit_order) (q etas : Z) : limit_order :=
  mkOrder (o_tick o) (o_id o) (o_dir o) (o_owner o) q etas (o_bounty o)
          (o_placed_quantity o) (o_placed_at o).

(** src/types/tick.rs:6-33 TickValues (all Decimal256 atomics) *)
Record tick_values : Type := mkTV {
  tv_tal : Z;   (* total_amount_of_liquidity *)
  tv_ctt : Z;   (* cumulative_total_value *)
  tv_etas : Z;  (* effective_total_amount_swapped *)
  tv_crc : Z;   (* cumulative_realized_cancels *)
  tv_last : Z   (* last_tick_sync_etas *)
}.
(** src/types/tick.rs:35-45 *)
Definition tv_default : tick_values := mkTV 0 0 0 0 0.

(** src/types/tick.rs:50-57 TickState *)
Record tick_state : Type := mkTS { ts_ask : tick_values; ts_bid : tick_values }.
Definition ts_default : tick_state := mkTS tv_default tv_default.
(** src/types/tick.rs:60-66 get_values *)
Definition get_values (ts : tick_state) (d : dir) : tick_values :=
  match d with Ask => ts_ask ts | Bid => ts_bid ts end.
(** src/types/tick.rs:68-74 set_values *)
Definition set_values (ts : tick_state) (d : dir) (v : tick_values) : tick_state :=
  match d with Ask => mkTS v (ts_bid ts) | Bid => mkTS (ts_ask ts) v end.

(** src/types/orderbook.rs:7-16 Orderbook *)
Record orderbook : Type := mkBook {
  ob_quote : string;     (* quote_denom *)
  ob_base : string;      (* base_denom *)
  ob_current : Z;        (* current_tick *)
  ob_next_bid : Z;       (* next_bid_tick *)
  ob_next_ask : Z        (* next_ask_tick *)
}.
(** src/types/orderbook.rs:35-42 get_expected_denom *)
Definition get_expected_denom (b : orderbook) (d : dir) : string :=
  match d with Bid => ob_quote b | Ask => ob_base b end.
(** src/types/orderbook.rs:44-51 get_opposite_denom *)
Definition get_opposite_denom (b : orderbook) (d : dir) : string :=
  match d with Bid => ob_base b | Ask => ob_quote b end.
(** src/types/orderbook.rs:53-78 direction_from_pair *)
Definition direction_from_pair (b : orderbook) (tin tout : string) : res dir :=
  if bool_decide (ob_base b = tin /\ ob_quote b = tout) then Ok Ask
  else if bool_decide (ob_quote b = tin /\ ob_base b = tout) then Ok Bid
  else Err (EInvalidPair tin tout).

(** cosmwasm_std::Coin / src/types/coin.rs:16-23 Coin256 (amount, denom). *)
Record coin : Type := mkCoin { c_denom : string; c_amount : Z }.

(** Bank transfers the contract emits: cosmwasm_std BankMsg::Send and
    src/types/coin.rs:43-51 MsgSend256 (from_address is always the contract), each
    wrapped in SubMsg::reply_on_error with a reply id.  Every message built by the
    code carries exactly one coin (simplification: the coin list is that coin). *)
Record submsg : Type := mkSend {
  sm_reply : Z;
  sm_to : string;
  sm_coin : coin
}.

(** Response attribute values; how they are rendered to strings is in Codec.v ([ADec] is a Decimal256 in atomics). *)
Inductive attr : Type :=
| AStr (s : string) | AInt (z : Z) | ADec (z : Z) | ADir (d : dir) | ABool (b : bool) | ACoin (c : coin).

(** src/order.rs:336-357 the "limitClaimed" event *)
Record claim_event : Type := mkClaimEvent {
  ce_sender : string;
  ce_tick : Z;
  ce_id : Z;
  ce_quantity_remaining : Z;
  ce_owner : string;
  ce_dir : dir;
  ce_amount_claimed : Z;
  ce_placed_quantity : Z;
  ce_fully_claimed : bool;
  ce_order_denom : string;
  ce_output_denom : string
}.

(** cosmwasm_std::Response, the parts the contract fills in. *)
Record response : Type := mkResp {
  r_attrs : list (string * attr);
  r_events : list claim_event;
  r_msgs : list submsg;
  r_data : option Z        (* SwapExactAmountInResponseData.token_out_amount *)
}.
Definition resp_default : response := mkResp [] [] [] None.
