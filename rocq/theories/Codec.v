(** * Codec: the JSON of stored values, messages and answers (cw_serde structs of src/msg.rs, src/types, src/sumtree/node.rs), and what the
    chain sees of a response (src/types/coin.rs, the attributes of src/order.rs, src/sudo.rs, src/auth.rs). *)
From Verif Require Import Base Dec Types State Order Auth Contract Query World SpecCost Keys Wire.

Notation "'let*' x ':=' m 'in' k" := (match m with Some x => k | None => None end) (at level 200, x name, m at level 100, k at level 200, only parsing).

(** cosmwasm_std::from_json and to_json_vec. *)
Definition from_json {A} (rd : json -> option A) (t : text) : option A := let* j := parse t in rd j.
Definition to_json {A} (w : A -> json) (x : A) : text := show_json (w x).

(** ** Values of single fields *)
Definition w_str (s : string) : json := JStr (txt s).
Definition w_int (z : Z) : json := JNum z.                       (* u64, i64 *)
Definition w_uint (z : Z) : json := JStr (show_nat z).           (* Uint64 (Timestamp), Uint128, Uint256 *)
Definition w_dec (z : Z) : json := JStr (show_dec z).            (* Decimal, Decimal256 *)
Definition w_dir (d : dir) : json := JStr (show_dir d).
Definition w_opt {A} (w : A -> json) (x : option A) : json := match x with Some x => w x | None => JNull end.
Definition w_list {A} (w : A -> json) (l : list A) : json := JArr (map w l).
Definition w_pair {A B} (wa : A -> json) (wb : B -> json) (p : A * B) : json := JArr [wa p.1; wb p.2].
Definition w_obj (l : list (string * json)) : json := JObj (map (fun x => (txt x.1, x.2)) l).

Definition rd_str (j : json) : option string := match j with JStr t => Some (str t) | _ => None end.
Definition rd_bool (j : json) : option bool := match j with JBool b => Some b | _ => None end.
Definition rd_int (ok : Z -> bool) (j : json) : option Z := match j with JNum z => within ok (Some z) | _ => None end.
Definition rd_i64 := rd_int i64.
Definition rd_u64 := rd_int u64.
Definition rd_usize := rd_int (range (2 ^ 32 - 1)).              (* usize of wasm32 *)
Definition rd_uint (hi : Z) (j : json) : option Z := match j with JStr t => within (range hi) (read_nat t) | _ => None end.
Definition rd_u128 := rd_uint U128_MAX.
Definition rd_u256 := rd_uint U256_MAX.
Definition rd_time := rd_uint U64_MAX.
Definition rd_decimal (hi : Z) (j : json) : option Z := match j with JStr t => read_decimal hi t | _ => None end.
Definition rd_dec := rd_decimal U256_MAX.                        (* Decimal256 *)
Definition rd_dec128 := rd_decimal U128_MAX.                     (* Decimal *)
Definition rd_dir (j : json) : option dir := match j with JStr t => read_dir t | _ => None end.
Fixpoint rd_all {A} (rd : json -> option A) (l : list json) : option (list A) :=
  match l with [] => Some [] | j :: l => let* x := rd j in let* l := rd_all rd l in Some (x :: l) end.
Definition rd_list {A} (rd : json -> option A) (j : json) : option (list A) := match j with JArr l => rd_all rd l | _ => None end.
Definition rd_pair {A B} (ra : json -> option A) (rb : json -> option B) (j : json) : option (A * B) :=
  match j with JArr [a; b] => let* x := ra a in let* y := rb b in Some (x, y) | _ => None end.
(** Structs: known fields only (cw_serde: deny_unknown_fields), none twice, in any order. *)
Fixpoint get (l : list (text * json)) (name : text) : option json :=
  match l with [] => None | (k, j) :: l => if bool_decide (k = name) then Some j else get l name end.
Definition rd_obj (names : list string) (j : json) : option (string -> option json) :=
  match j with
  | JObj l => if forallb (fun x : text * json => bool_decide (x.1 ∈ map txt names)) l && bool_decide (NoDup (map fst l)) then Some (fun n => get l (txt n)) else None
  | _ => None
  end.
Definition need {A} (rd : json -> option A) (x : option json) : option A := let* j := x in rd j.
(** Option fields: missing or null is None.  serde(default): missing is the default. *)
Definition maybe {A} (rd : json -> option A) (x : option json) : option (option A) :=
  match x with None => Some None | Some JNull => Some None | Some j => let* v := rd j in Some (Some v) end.
Definition default_to {A} (d : A) (rd : json -> option A) (x : option json) : option A := match x with None => Some d | Some j => rd j end.
(** Enum variants with fields: an object with one field. *)
Definition w_variant (name : string) (fields : list (string * json)) : json := w_obj [(name, w_obj fields)].
Definition rd_variant (j : json) : option (string * json) := match j with JObj [(k, v)] => Some (str k, v) | _ => None end.

(** ** Stored values *)
(** src/types/order.rs:39-52 LimitOrder; placed_at carries serde(default) *)
Definition w_order (o : limit_order) : json := w_obj
  [("tick_id", w_int (o_tick o)); ("order_id", w_int (o_id o)); ("order_direction", w_dir (o_dir o)); ("owner", w_str (o_owner o));
   ("quantity", w_uint (o_quantity o)); ("etas", w_dec (o_etas o)); ("claim_bounty", w_opt w_dec (o_bounty o));
   ("placed_quantity", w_uint (o_placed_quantity o)); ("placed_at", w_uint (o_placed_at o))].
Definition rd_order (j : json) : option limit_order :=
  let* f := rd_obj ["tick_id"; "order_id"; "order_direction"; "owner"; "quantity"; "etas"; "claim_bounty"; "placed_quantity"; "placed_at"] j in
  let* t := need rd_i64 (f "tick_id") in
  let* id := need rd_u64 (f "order_id") in
  let* d := need rd_dir (f "order_direction") in
  let* a := need rd_str (f "owner") in
  let* q := need rd_u128 (f "quantity") in
  let* e := need rd_dec (f "etas") in
  let* b := maybe rd_dec (f "claim_bounty") in
  let* p := need rd_u128 (f "placed_quantity") in
  let* at_ := default_to 0 rd_time (f "placed_at") in
  Some (mkOrder t id d a q e b p at_).
(** src/types/tick.rs:6-57 *)
Definition w_values (v : tick_values) : json := w_obj
  [("total_amount_of_liquidity", w_dec (tv_tal v)); ("cumulative_total_value", w_dec (tv_ctt v)); ("effective_total_amount_swapped", w_dec (tv_etas v));
   ("cumulative_realized_cancels", w_dec (tv_crc v)); ("last_tick_sync_etas", w_dec (tv_last v))].
Definition rd_values (j : json) : option tick_values :=
  let* f := rd_obj ["total_amount_of_liquidity"; "cumulative_total_value"; "effective_total_amount_swapped"; "cumulative_realized_cancels"; "last_tick_sync_etas"] j in
  let* a := need rd_dec (f "total_amount_of_liquidity") in
  let* b := need rd_dec (f "cumulative_total_value") in
  let* c := need rd_dec (f "effective_total_amount_swapped") in
  let* d := need rd_dec (f "cumulative_realized_cancels") in
  let* e := need rd_dec (f "last_tick_sync_etas") in
  Some (mkTV a b c d e).
Definition w_tick (t : tick_state) : json := w_obj [("ask_values", w_values (ts_ask t)); ("bid_values", w_values (ts_bid t))].
Definition rd_tick (j : json) : option tick_state :=
  let* f := rd_obj ["ask_values"; "bid_values"] j in
  let* a := need rd_values (f "ask_values") in
  let* b := need rd_values (f "bid_values") in
  Some (mkTS a b).
(** src/types/orderbook.rs:7-16 *)
Definition w_book (b : orderbook) : json := w_obj
  [("quote_denom", w_str (ob_quote b)); ("base_denom", w_str (ob_base b)); ("current_tick", w_int (ob_current b));
   ("next_bid_tick", w_int (ob_next_bid b)); ("next_ask_tick", w_int (ob_next_ask b))].
Definition rd_book (j : json) : option orderbook :=
  let* f := rd_obj ["quote_denom"; "base_denom"; "current_tick"; "next_bid_tick"; "next_ask_tick"] j in
  let* q := need rd_str (f "quote_denom") in
  let* b := need rd_str (f "base_denom") in
  let* c := need rd_i64 (f "current_tick") in
  let* nb := need rd_i64 (f "next_bid_tick") in
  let* na := need rd_i64 (f "next_ask_tick") in
  Some (mkBook q b c nb na).
(** src/sumtree/node.rs:28-44, 102-111 *)
Definition w_ntype (t : ntype) : json :=
  match t with
  | NLeaf v e => w_variant "leaf" [("value", w_dec v); ("etas", w_dec e)]
  | NInternal a lo hi w => w_variant "internal" [("accumulator", w_dec a); ("range", w_pair w_dec w_dec (lo, hi)); ("weight", w_int w)]
  end.
Definition rd_ntype (j : json) : option ntype :=
  let* v := rd_variant j in
  if bool_decide (v.1 = "leaf") then
    let* f := rd_obj ["value"; "etas"] v.2 in
    let* x := need rd_dec (f "value") in
    let* e := need rd_dec (f "etas") in
    Some (NLeaf x e)
  else if bool_decide (v.1 = "internal") then
    let* f := rd_obj ["accumulator"; "range"; "weight"] v.2 in
    let* a := need rd_dec (f "accumulator") in
    let* r := need (rd_pair rd_dec rd_dec) (f "range") in
    let* w := need rd_u64 (f "weight") in
    Some (NInternal a r.1 r.2 w)
  else None.
Definition w_node (n : tnode) : json := w_obj
  [("key", w_int (n_key n)); ("tick_id", w_int (n_tick n)); ("direction", w_dir (n_dir n)); ("left", w_opt w_int (n_left n));
   ("right", w_opt w_int (n_right n)); ("parent", w_opt w_int (n_parent n)); ("node_type", w_ntype (n_type n))].
Definition rd_node (j : json) : option tnode :=
  let* f := rd_obj ["key"; "tick_id"; "direction"; "left"; "right"; "parent"; "node_type"] j in
  let* k := need rd_u64 (f "key") in
  let* t := need rd_i64 (f "tick_id") in
  let* d := need rd_dir (f "direction") in
  let* l := maybe rd_u64 (f "left") in
  let* r := maybe rd_u64 (f "right") in
  let* p := maybe rd_u64 (f "parent") in
  let* y := need rd_ntype (f "node_type") in
  Some (mkNode k t d l r p y).
(** The JSON stored under a key (Keys.v); the index entries hold the length of the primary key (cw-storage-plus indexes/multi.rs), the version
    item the name and version of the contract (src/contract.rs:20-22, Cargo.toml). *)
Definition entry_json (s : storage) (r : raw_entry) : option json :=
  match r with
  | RCell COrderId => option_map w_int (s_order_id s)
  | RCell COrderbook => option_map w_book (s_orderbook s)
  | RCell (CTick t) => option_map w_tick (s_ticks s !! t)
  | RCell (CLiquidity d) => option_map w_dec (s_dirliq s !! d)
  | RCell (COrder t id) => option_map w_order (s_orders s !! (t, id))
  | RCell (CNode t k) => option_map w_node (s_nodes s !! (t, k))
  | RCell (CNodeId t) => option_map w_int (s_nodectr s !! t)
  | RCell (CTree t d) => option_map w_int (s_tree s !! (t, d))
  | RCell CActive => option_map JBool (s_active s)
  | RCell CFee => option_map w_dec (s_fee s)
  | RCell CRecipient => option_map w_str (s_recipient s)
  | RCell CAdmin => option_map w_str (s_admin s)
  | RCell CAdminOffer => option_map w_str (s_admin_offer s)
  | RCell CModerator => option_map w_str (s_moderator s)
  | RCell CModeratorOffer => option_map w_str (s_moderator_offer s)
  | RByOwner a k => let* o := s_orders s !! k in if bool_decide (o_owner o = a) then Some (w_int (Z.of_nat (length (order_pk k)))) else None
  | RByTickOwner t a k => let* o := s_orders s !! k in if bool_decide (o_owner o = a /\ o_tick o = t) then Some (w_int (Z.of_nat (length (order_pk k)))) else None
  | RVersion => Some (w_obj [("contract", w_str "crates.io:sumtree-orderbook"); ("version", w_str "2.0.0")])
  end.

(** ** Messages *)
Definition w_coin (c : coin) : json := w_obj [("denom", w_str (c_denom c)); ("amount", w_uint (c_amount c))].
Definition rd_coin (hi : Z) (j : json) : option coin :=
  let* f := rd_obj ["denom"; "amount"] j in
  let* d := need rd_str (f "denom") in
  let* a := need (rd_uint hi) (f "amount") in
  Some (mkCoin d a).
(** src/msg.rs:14-62 ExecuteMsg, AuthExecuteMsg *)
Definition w_auth (m : auth_msg) : json :=
  match m with
  | TransferAdmin a => w_variant "transfer_admin" [("new_admin", w_str a)]
  | CancelAdminTransfer => w_variant "cancel_admin_transfer" []
  | RejectAdminTransfer => w_variant "reject_admin_transfer" []
  | ClaimAdmin => w_variant "claim_admin" []
  | RenounceAdminship => w_variant "renounce_adminship" []
  | OfferModerator a => w_variant "offer_moderator" [("new_moderator", w_str a)]
  | RejectModeratorOffer => w_variant "reject_moderator_offer" []
  | ClaimModerator => w_variant "claim_moderator" []
  | SetActive b => w_variant "set_active" [("active", JBool b)]
  | SetMakerFee f => w_variant "set_maker_fee" [("fee", w_dec f)]
  | SetMakerFeeRecipient a => w_variant "set_maker_fee_recipient" [("recipient", w_str a)]
  end.
Definition rd_empty {A} (x : A) (j : json) : option A := let* _f := rd_obj [] j in Some x.
Definition rd_field {A B} (name : string) (rd : json -> option A) (k : A -> B) (j : json) : option B :=
  let* f := rd_obj [name] j in let* x := need rd (f name) in Some (k x).
Definition rd_auth (j : json) : option auth_msg :=
  let* v := rd_variant j in
  let is n := bool_decide (v.1 = n) in
  if is "transfer_admin" then rd_field "new_admin" rd_str TransferAdmin v.2
  else if is "cancel_admin_transfer" then rd_empty CancelAdminTransfer v.2
  else if is "reject_admin_transfer" then rd_empty RejectAdminTransfer v.2
  else if is "claim_admin" then rd_empty ClaimAdmin v.2
  else if is "renounce_adminship" then rd_empty RenounceAdminship v.2
  else if is "offer_moderator" then rd_field "new_moderator" rd_str OfferModerator v.2
  else if is "reject_moderator_offer" then rd_empty RejectModeratorOffer v.2
  else if is "claim_moderator" then rd_empty ClaimModerator v.2
  else if is "set_active" then rd_field "active" rd_bool SetActive v.2
  else if is "set_maker_fee" then rd_field "fee" rd_dec SetMakerFee v.2
  else if is "set_maker_fee_recipient" then rd_field "recipient" rd_str SetMakerFeeRecipient v.2
  else None.
Definition w_exec (m : exec_msg) : json :=
  match m with
  | PlaceLimit t d q b => w_variant "place_limit" [("tick_id", w_int t); ("order_direction", w_dir d); ("quantity", w_uint q); ("claim_bounty", w_opt w_dec b)]
  | CancelLimit t id => w_variant "cancel_limit" [("tick_id", w_int t); ("order_id", w_int id)]
  | ClaimLimit t id => w_variant "claim_limit" [("tick_id", w_int t); ("order_id", w_int id)]
  | BatchClaim l => w_variant "batch_claim" [("orders", w_list (w_pair w_int w_int) l)]
  | AuthMsg m => w_obj [("auth", w_auth m)]
  end.
Definition rd_exec (j : json) : option exec_msg :=
  let* v := rd_variant j in
  let is n := bool_decide (v.1 = n) in
  if is "place_limit" then
    let* f := rd_obj ["tick_id"; "order_direction"; "quantity"; "claim_bounty"] v.2 in
    let* t := need rd_i64 (f "tick_id") in
    let* d := need rd_dir (f "order_direction") in
    let* q := need rd_u128 (f "quantity") in
    let* b := maybe rd_dec (f "claim_bounty") in
    Some (PlaceLimit t d q b)
  else if is "cancel_limit" then
    let* f := rd_obj ["tick_id"; "order_id"] v.2 in
    let* t := need rd_i64 (f "tick_id") in
    let* id := need rd_u64 (f "order_id") in
    Some (CancelLimit t id)
  else if is "claim_limit" then
    let* f := rd_obj ["tick_id"; "order_id"] v.2 in
    let* t := need rd_i64 (f "tick_id") in
    let* id := need rd_u64 (f "order_id") in
    Some (ClaimLimit t id)
  else if is "batch_claim" then rd_field "orders" (rd_list (rd_pair rd_i64 rd_u64)) BatchClaim v.2
  else if is "auth" then let* m := rd_auth v.2 in Some (AuthMsg m)
  else None.
(** src/msg.rs:224-271 SudoMsg *)
Definition w_sudo (m : sudo_msg) : json :=
  match m with
  | SwapExactAmountIn a tin out mn fee => w_variant "swap_exact_amount_in"
      [("sender", w_str a); ("token_in", w_coin tin); ("token_out_denom", w_str out); ("token_out_min_amount", w_uint mn); ("swap_fee", w_dec fee)]
  | SwapToTick a tin out mn fee t => w_variant "swap_to_tick"
      [("sender", w_str a); ("token_in", w_coin tin); ("token_out_denom", w_str out); ("token_out_min_amount", w_uint mn); ("swap_fee", w_dec fee); ("target_tick", w_int t)]
  | SwapExactAmountOut a ind mx tout fee => w_variant "swap_exact_amount_out"
      [("sender", w_str a); ("token_in_denom", w_str ind); ("token_in_max_amount", w_uint mx); ("token_out", w_coin tout); ("swap_fee", w_dec fee)]
  | SudoTransferAdmin a => w_variant "transfer_admin" [("new_admin", w_str a)]
  | SudoRemoveAdmin => w_variant "remove_admin" []
  | SudoSetActive b => w_variant "set_active" [("active", JBool b)]
  end.
Definition rd_sudo (j : json) : option sudo_msg :=
  let* v := rd_variant j in
  let is n := bool_decide (v.1 = n) in
  if is "swap_exact_amount_in" then
    let* f := rd_obj ["sender"; "token_in"; "token_out_denom"; "token_out_min_amount"; "swap_fee"] v.2 in
    let* a := need rd_str (f "sender") in
    let* tin := need (rd_coin U128_MAX) (f "token_in") in
    let* out := need rd_str (f "token_out_denom") in
    let* mn := need rd_u128 (f "token_out_min_amount") in
    let* fee := need rd_dec128 (f "swap_fee") in
    Some (SwapExactAmountIn a tin out mn fee)
  else if is "swap_to_tick" then
    let* f := rd_obj ["sender"; "token_in"; "token_out_denom"; "token_out_min_amount"; "swap_fee"; "target_tick"] v.2 in
    let* a := need rd_str (f "sender") in
    let* tin := need (rd_coin U128_MAX) (f "token_in") in
    let* out := need rd_str (f "token_out_denom") in
    let* mn := need rd_u128 (f "token_out_min_amount") in
    let* fee := need rd_dec128 (f "swap_fee") in
    let* t := need rd_i64 (f "target_tick") in
    Some (SwapToTick a tin out mn fee t)
  else if is "swap_exact_amount_out" then
    let* f := rd_obj ["sender"; "token_in_denom"; "token_in_max_amount"; "token_out"; "swap_fee"] v.2 in
    let* a := need rd_str (f "sender") in
    let* ind := need rd_str (f "token_in_denom") in
    let* mx := need rd_u128 (f "token_in_max_amount") in
    let* tout := need (rd_coin U128_MAX) (f "token_out") in
    let* fee := need rd_dec128 (f "swap_fee") in
    Some (SwapExactAmountOut a ind mx tout fee)
  else if is "transfer_admin" then rd_field "new_admin" rd_str SudoTransferAdmin v.2
  else if is "remove_admin" then rd_empty SudoRemoveAdmin v.2
  else if is "set_active" then rd_field "active" rd_bool SudoSetActive v.2
  else None.

(** src/msg.rs:66-160 QueryMsg, AuthQueryMsg *)
Definition w_key : Z * Z -> json := w_pair w_int w_int.
Definition rd_key : json -> option (Z * Z) := rd_pair rd_i64 rd_u64.
Definition w_auth_query (q : auth_query) : json :=
  match q with
  | QAdmin => w_variant "admin" []
  | QAdminOffer => w_variant "admin_offer" []
  | QModerator => w_variant "moderator" []
  | QModeratorOffer => w_variant "moderator_offer" []
  end.
Definition rd_auth_query (j : json) : option auth_query :=
  let* v := rd_variant j in
  let is n := bool_decide (v.1 = n) in
  if is "admin" then rd_empty QAdmin v.2
  else if is "admin_offer" then rd_empty QAdminOffer v.2
  else if is "moderator" then rd_empty QModerator v.2
  else if is "moderator_offer" then rd_empty QModeratorOffer v.2
  else None.
Definition w_query (q : query_msg) : json :=
  match q with
  | QSpotPrice a b => w_variant "spot_price" [("quote_asset_denom", w_str a); ("base_asset_denom", w_str b)]
  | QCalcOutAmountGivenIn c d f => w_variant "calc_out_amount_given_in" [("token_in", w_coin c); ("token_out_denom", w_str d); ("swap_fee", w_dec f)]
  | QCalcOutAmtGivenIn c d f => w_variant "calc_out_amt_given_in" [("token_in", w_coin c); ("token_out_denom", w_str d); ("swap_fee", w_dec f)]
  | QGetTotalPoolLiquidity => w_variant "get_total_pool_liquidity" []
  | QCalcInAmtGivenOut => w_variant "calc_in_amt_given_out" []
  | QAllTicks lo hi n => w_variant "all_ticks" [("start_from", w_opt w_int lo); ("end_at", w_opt w_int hi); ("limit", w_opt w_int n)]
  | QIsActive => w_variant "is_active" []
  | QGetSwapFee => w_variant "get_swap_fee" []
  | QOrdersByOwner a lo hi n => w_variant "orders_by_owner"
      [("owner", w_str a); ("start_from", w_opt w_key lo); ("end_at", w_opt w_key hi); ("limit", w_opt w_int n)]
  | QOrderbookState => w_variant "orderbook_state" []
  | QTicksById l => w_variant "ticks_by_id" [("tick_ids", w_list w_int l)]
  | QOrdersByTick t lo hi n => w_variant "orders_by_tick"
      [("tick_id", w_int t); ("start_from", w_opt w_int lo); ("end_at", w_opt w_int hi); ("limit", w_opt w_int n)]
  | QDenoms => w_variant "denoms" []
  | QGetMakerFee => w_variant "get_maker_fee" []
  | QGetUnrealizedCancels l => w_variant "get_unrealized_cancels" [("tick_ids", w_list w_int l)]
  | QAuth q => w_obj [("auth", w_auth_query q)]
  end.
Definition rd_quote {A} (k : coin -> string -> Z -> A) (j : json) : option A :=
  let* f := rd_obj ["token_in"; "token_out_denom"; "swap_fee"] j in
  let* c := need (rd_coin U128_MAX) (f "token_in") in
  let* d := need rd_str (f "token_out_denom") in
  let* fee := need rd_dec128 (f "swap_fee") in
  Some (k c d fee).
Definition rd_query (j : json) : option query_msg :=
  let* v := rd_variant j in
  let is n := bool_decide (v.1 = n) in
  if is "spot_price" then
    let* f := rd_obj ["quote_asset_denom"; "base_asset_denom"] v.2 in
    let* a := need rd_str (f "quote_asset_denom") in
    let* b := need rd_str (f "base_asset_denom") in
    Some (QSpotPrice a b)
  else if is "calc_out_amount_given_in" then rd_quote QCalcOutAmountGivenIn v.2
  else if is "calc_out_amt_given_in" then rd_quote QCalcOutAmtGivenIn v.2
  else if is "get_total_pool_liquidity" then rd_empty QGetTotalPoolLiquidity v.2
  else if is "calc_in_amt_given_out" then rd_empty QCalcInAmtGivenOut v.2
  else if is "get_swap_fee" then rd_empty QGetSwapFee v.2
  else if is "all_ticks" then
    let* f := rd_obj ["start_from"; "end_at"; "limit"] v.2 in
    let* lo := maybe rd_i64 (f "start_from") in
    let* hi := maybe rd_i64 (f "end_at") in
    let* n := maybe rd_usize (f "limit") in
    Some (QAllTicks lo hi n)
  else if is "get_maker_fee" then rd_empty QGetMakerFee v.2
  else if is "auth" then let* q := rd_auth_query v.2 in Some (QAuth q)
  else if is "is_active" then rd_empty QIsActive v.2
  else if is "orders_by_owner" then
    let* f := rd_obj ["owner"; "start_from"; "end_at"; "limit"] v.2 in
    let* a := need rd_str (f "owner") in
    let* lo := maybe rd_key (f "start_from") in
    let* hi := maybe rd_key (f "end_at") in
    let* n := maybe rd_u64 (f "limit") in
    Some (QOrdersByOwner a lo hi n)
  else if is "orders_by_tick" then
    let* f := rd_obj ["tick_id"; "start_from"; "end_at"; "limit"] v.2 in
    let* t := need rd_i64 (f "tick_id") in
    let* lo := maybe rd_u64 (f "start_from") in
    let* hi := maybe rd_u64 (f "end_at") in
    let* n := maybe rd_u64 (f "limit") in
    Some (QOrdersByTick t lo hi n)
  else if is "orderbook_state" then rd_empty QOrderbookState v.2
  else if is "denoms" then rd_empty QDenoms v.2
  else if is "ticks_by_id" then rd_field "tick_ids" (rd_list rd_i64) QTicksById v.2
  else if is "get_unrealized_cancels" then rd_field "tick_ids" (rd_list rd_i64) QGetUnrealizedCancels v.2
  else None.

(** ** Answers of queries: src/msg.rs:160-224, src/contract.rs:103-177.
    GetMakerFee answers the bare decimal (src/contract.rs:169), although the message declares the answer MakerFee { maker_fee } (src/msg.rs:99-100). *)
Definition w_ticks {A} (w : A -> string * json) (l : list (Z * A)) : json :=
  w_obj [("ticks", w_list (fun x : Z * A => w_obj [("tick_id", w_int x.1); w x.2]) l)].
Definition w_answer (q : query_msg) (a : answer) : json :=
  match a with
  | APrice p => w_obj [("spot_price", w_dec p)]
  | ATokenOut c => w_obj [("token_out", w_coin c)]
  | ALiquidity l => w_obj [("total_pool_liquidity", w_list w_coin l)]
  | ATicks l => w_ticks (fun ts => ("tick_state", w_tick ts)) l
  | AFlag b => JBool b
  | AFee f => match q with QGetMakerFee => w_dec f | _ => w_obj [("swap_fee", w_dec f)] end
  | AOrders n l => w_obj [("orders", w_list w_order l); ("count", w_int n)]
  | ABook b => w_book b
  | ADenoms q b => w_obj [("quote_denom", w_str q); ("base_denom", w_str b)]
  | AUnrealized l => w_ticks (fun c => ("unrealized_cancels", w_obj [("ask_unrealized_cancels", w_dec c.1); ("bid_unrealized_cancels", w_dec c.2)])) l
  | AAddress a => w_opt w_str a
  end.
Definition rd_ticks {A} (name : string) (rd : json -> option A) (j : json) : option (list (Z * A)) :=
  rd_field "ticks" (rd_list (fun j =>
    let* f := rd_obj ["tick_id"; name] j in
    let* t := need rd_i64 (f "tick_id") in
    let* x := need rd (f name) in
    Some (t, x))) (fun l => l) j.
(** What a client that knows its question reads. *)
Definition rd_answer (q : query_msg) (j : json) : option answer :=
  match q with
  | QSpotPrice _ _ => rd_field "spot_price" rd_dec128 APrice j
  | QCalcOutAmountGivenIn _ _ _ | QCalcOutAmtGivenIn _ _ _ | QCalcInAmtGivenOut => rd_field "token_out" (rd_coin U256_MAX) ATokenOut j
  | QGetTotalPoolLiquidity => rd_field "total_pool_liquidity" (rd_list (rd_coin U128_MAX)) ALiquidity j
  | QAllTicks _ _ _ | QTicksById _ => let* l := rd_ticks "tick_state" rd_tick j in Some (ATicks l)
  | QIsActive => let* b := rd_bool j in Some (AFlag b)
  | QGetSwapFee => rd_field "swap_fee" rd_dec128 AFee j
  | QOrdersByOwner _ _ _ _ | QOrdersByTick _ _ _ _ =>
      let* f := rd_obj ["orders"; "count"] j in
      let* l := need (rd_list rd_order) (f "orders") in
      let* n := need rd_u64 (f "count") in
      Some (AOrders n l)
  | QOrderbookState => let* b := rd_book j in Some (ABook b)
  | QDenoms =>
      let* f := rd_obj ["quote_denom"; "base_denom"] j in
      let* q := need rd_str (f "quote_denom") in
      let* b := need rd_str (f "base_denom") in
      Some (ADenoms q b)
  | QGetMakerFee => let* f := rd_dec j in Some (AFee f)
  | QGetUnrealizedCancels _ =>
      let* l := rd_ticks "unrealized_cancels" (fun j =>
        let* f := rd_obj ["ask_unrealized_cancels"; "bid_unrealized_cancels"] j in
        let* a := need rd_dec (f "ask_unrealized_cancels") in
        let* b := need rd_dec (f "bid_unrealized_cancels") in
        Some (a, b)) j in
      Some (AUnrealized l)
  | QAuth _ => let* a := maybe rd_str (Some j) in Some (AAddress a)
  end.
(** src/msg.rs:189-191 MakerFee, the declared answer of GetMakerFee. *)
Definition rd_maker_fee_declared (j : json) : option Z := rd_field "maker_fee" rd_dec (fun f => f) j.

(** ** Responses as the chain sees them *)
Record wire_event : Type := mkWireEvent { we_type : string; we_attrs : list (string * string) }.
(** A bank message: cosmwasm_std BankMsg::Send, or CosmosMsg::Stargate with the protobuf bytes of osmosis_std MsgSend. *)
Inductive wire_msg : Type :=
| WBank (to : string) (amount : list (string * string))
| WStargate (url : string) (value : text).
Record wire_response : Type := mkWire {
  wr_attrs : list (string * string);
  wr_events : list wire_event;
  wr_msgs : list (Z * wire_msg);
  wr_data : option text
}.
(** Attributes are strings: to_string() of the value. *)
Definition show_attr (a : attr) : string :=
  match a with
  | AStr s => s
  | AInt z => str (show_int z)
  | ADec z => str (show_dec z)
  | ADir d => str (show_dir d)
  | ABool b => str (show_bool b)
  | ACoin c => str (show_coin c)
  end.
(** src/order.rs:336-357 generate_claimed_order_event *)
Definition show_event (ev : claim_event) : wire_event := mkWireEvent "limitClaimed"
  [("sender", ce_sender ev); ("tick_id", str (show_int (ce_tick ev))); ("order_id", str (show_int (ce_id ev)));
   ("quantity_remaining", str (show_int (ce_quantity_remaining ev))); ("owner", ce_owner ev); ("order_direction", str (show_dir (ce_dir ev)));
   ("amount_claimed", str (show_int (ce_amount_claimed ev))); ("placed_quantity", str (show_int (ce_placed_quantity ev)));
   ("fully_claimed", str (show_bool (ce_fully_claimed ev))); ("order_denom", ce_order_denom ev); ("output_denom", ce_output_denom ev)].
(** Protobuf (prost): fields with a tag byte, a varint length and the bytes; empty strings are left out. *)
Fixpoint varint (fuel : nat) (n : Z) : text :=
  match fuel with
  | O => []
  | S f => if n <? 128 then [chr n] else chr (128 + n mod 128) :: varint f (n / 128)
  end.
Definition proto_len (n : nat) : text := varint (S n) (Z.of_nat n).
Definition proto_bytes (field : Z) (b : text) : text := chr (8 * field + 2) :: proto_len (length b) ++ b.
Definition proto_string (field : Z) (b : text) : text := match b with [] => [] | _ => proto_bytes field b end.
(** src/types/coin.rs:25-32 ProtoCoin { denom = 1, amount = 2 }; 53-65 MsgSend { from_address = 1, to_address = 2, amount = 3 } *)
Definition proto_coin (c : coin) : text := proto_string 1 (txt (c_denom c)) ++ proto_string 2 (show_nat (c_amount c)).
Definition proto_send (from to : string) (l : list coin) : text :=
  proto_string 1 (txt from) ++ proto_string 2 (txt to) ++ flat_map (fun c => proto_bytes 3 (proto_coin c)) l.
(** Refunds (src/order.rs:205-211 cancel, src/sudo.rs:164-172 swap) are BankMsg::Send; claims, bounties, fees and swap outputs are MsgSend256. *)
Definition show_msg (self : string) (m : submsg) : Z * wire_msg :=
  (sm_reply m,
   if sm_reply m =? REPLY_ID_REFUND then WBank (sm_to m) [(c_denom (sm_coin m), str (show_nat (c_amount (sm_coin m))))]
   else WStargate "/cosmos.bank.v1beta1.MsgSend" (proto_send self (sm_to m) [sm_coin m])).
(** src/sudo.rs:184-186: the data of a swap *)
Definition show_data (x : Z) : text := to_json (fun x => w_obj [("token_out_amount", w_uint x)]) x.
Definition render (self : string) (r : response) : wire_response :=
  mkWire (map (fun a => (a.1, show_attr a.2)) (r_attrs r)) (map show_event (r_events r)) (map (show_msg self) (r_msgs r)) (option_map show_data (r_data r)).
