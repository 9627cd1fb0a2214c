(** * Contract: src/contract.rs, src/sudo.rs, src/orderbook.rs *)
From Verif Require Import Base Dec Types State TickMath Sumtree Tick Order Auth.

(** src/orderbook.rs:54-64 set_maker_fee_recipient *)
Definition set_maker_fee_recipient (e : env) (a : string) : M storage unit :=
  let! _ := mensure (e_addr_valid e a) EInvalidMakerFeeRecipient in
  mmod (set_recipient a).

(** Supply check of create_orderbook, src/orderbook.rs:19-27. *)
Definition denom_ok (e : env) (denom : string) : bool :=
  match e_supply e denom with Some x => negb (x =? 0) | None => false end.

(** src/orderbook.rs:10-39 create_orderbook *)
Definition create_orderbook (e : env) (quote base : string) : M storage unit :=
  let! _ := mensure (negb (bool_decide (quote = base))) EDuplicateDenoms in
  let! _ := mensure (denom_ok e quote) (EInvalidDenom quote) in
  let! _ := mensure (denom_ok e base) (EInvalidDenom base) in
  let! _ := mmod (set_orderbook (mkBook quote base 0 MIN_TICK MAX_TICK)) in
  let! _ := set_maker_fee DEFAULT_MAKER_FEE in
  set_maker_fee_recipient e DEFAULT_MAKER_FEE_RECIPIENT.

(** src/contract.rs:24-48 instantiate (the cw2 version item is not modelled) *)
Definition instantiate (e : env) (quote base : string) : M storage response :=
  let! _ := mlift (addr_validate e OSMOSIS_GOV_ADDR) in
  let! _ := mmod (set_admin (Some OSMOSIS_GOV_ADDR)) in
  let! _ := mlift (addr_validate e CIRCUIT_BREAKER_SUBDAO_ADDR) in
  let! _ := mmod (set_moderator (Some CIRCUIT_BREAKER_SUBDAO_ADDR)) in
  let! _ := create_orderbook e quote base in
  mret (resp_attrs [("method", AStr "instantiate"); ("quote_denom", AStr quote);
                    ("base_denom", AStr base)]).

(** src/contract.rs:50-53 migrate *)
Definition migrate : M storage response := mret resp_default.

(** src/sudo.rs:262-273 ensure_is_active *)
Definition ensure_is_active : M storage unit :=
  let! a := mread (fun s => unwrap_or (s_active s) true) in
  mensure a EInactive.

(** src/msg.rs:15-35 ExecuteMsg *)
Inductive exec_msg : Type :=
| PlaceLimit (tick : Z) (d : dir) (q : Z) (bounty : option Z)
| CancelLimit (tick id : Z)
| ClaimLimit (tick id : Z)
| BatchClaim (orders : list (Z * Z))
| AuthMsg (m : auth_msg).

(** src/contract.rs:55-98 execute (and 189-210 dispatch_place_limit) *)
Definition execute (e : env) (i : info) (m : exec_msg) : M storage response :=
  let! _ := (match m with AuthMsg _ => mret tt | _ => ensure_is_active end) in
  match m with
  | PlaceLimit tick d q bounty => place_limit e i tick d q bounty
  | CancelLimit tick id => cancel_limit i tick id
  | ClaimLimit tick id => claim_limit i tick id
  | BatchClaim l => batch_claim_limits i l
  | AuthMsg a => auth_dispatch e i a
  end.

(** src/msg.rs:224-271 SudoMsg *)
Inductive sudo_msg : Type :=
| SwapExactAmountIn (sender : string) (token_in : coin) (out_denom : string) (min_out fee : Z)
| SwapToTick (sender : string) (token_in : coin) (out_denom : string) (min_out fee target : Z)
| SwapExactAmountOut (sender : string) (in_denom : string) (max_in : Z) (token_out : coin) (fee : Z)
| SudoTransferAdmin (new_admin : string)
| SudoRemoveAdmin
| SudoSetActive (active : bool).

(** src/sudo.rs:238-249 ensure_swap_fee *)
Definition ensure_swap_fee (fee : Z) : res unit := rensure (fee =? EXPECTED_SWAP_FEE) (EInvalidSwap (WrongFee EXPECTED_SWAP_FEE fee)).

(** src/sudo.rs:199-236 validate_output_amount *)
Definition validate_output_amount (max_in min_out : Z) (input output : coin) : res unit :=
  let? _ := rensure (c_amount input <=? max_in) (EInvalidSwap (ExceededMax max_in (c_amount input))) in
  let? _ := rensure (min_out <=? c_amount output) (EInvalidSwap (BelowMin min_out (c_amount output))) in
  rensure (negb (bool_decide (c_denom output = c_denom input))) (EInvalidSwap SameDenoms).

(** src/sudo.rs:97-180 dispatch_swap_exact_amount_in *)
Definition dispatch_swap_exact_amount_in (e : env) (sender : string) (token_in : coin)
           (out_denom : string) (min_out fee : Z) (target : option Z) : M storage response :=
  let! _ := mlift (ensure_swap_fee fee) in
  let! _ := mensure (negb (bool_decide (c_denom token_in = out_denom))) (EInvalidSwap SameDenoms) in
  let! ob := mreadr load_orderbook in
  let! d := mlift (direction_from_pair ob (c_denom token_in) out_denom) in
  let! _ := mlift (addr_validate e sender) in
  let bound := unwrap_or target (match d with Bid => MAX_TICK | Ask => MIN_TICK end) in
  let! r := run_market_order (c_amount token_in) d bound in
  let '(output, denom, rest) := r in
  let! _ := mlift (validate_output_amount (c_amount token_in) min_out token_in (mkCoin denom output)) in
  let msgs := mkSend REPLY_ID_SUDO_SWAP_EXACT_IN sender (mkCoin denom output)
              :: (if rest =? 0 then []
                  else [mkSend REPLY_ID_REFUND sender (mkCoin (c_denom token_in) rest)]) in
  mret (mkResp
    [("method", AStr "swapExactAmountIn"); ("sender", AStr sender); ("token_in", ACoin token_in);
     ("token_out_denom", AStr out_denom); ("token_out_min_amount", AInt min_out);
     ("output_quantity", AInt output)] [] msgs (Some output)).

(** src/sudo.rs:20-90 sudo (and 182-192 dispatch_swap_exact_amount_out: unimplemented!()) *)
Definition sudo (e : env) (m : sudo_msg) : M storage response :=
  let! _ := ensure_is_active in
  match m with
  | SwapExactAmountIn sender tin out min fee =>
      dispatch_swap_exact_amount_in e sender tin out min fee None
  | SwapToTick sender tin out min fee target =>
      dispatch_swap_exact_amount_in e sender tin out min fee (Some target)
  | SwapExactAmountOut _ _ _ _ _ => mlift Panic
  | SudoTransferAdmin a =>
      let! _ := update_admin e a in
      mret (resp_attrs [("method", AStr "sudo_transfer_admin"); ("new_admin", AStr a)])
  | SudoRemoveAdmin =>
      let! _ := remove_admin in
      mret (resp_attrs [("method", AStr "sudo_remove_admin")])
  | SudoSetActive b => set_active b
  end.

(** src/contract.rs:176-186 reply: fails iff the sub-message failed ([Some] error text). *)
Definition reply (id : Z) (failure : option string) : M storage response :=
  match failure with
  | Some text => mlift (Err (EReplyError id text))
  | None => mret resp_default
  end.
