(** * Order: src/order.rs *)
From Verif Require Import Base Dec Types State TickMath Sumtree Tick.

(** The environment of a call: block time of cosmwasm_std [Env], the [Api]/[Querier]
    functions the contract uses, and whether the bank module lets an address receive
    coins (used in World.v).  The functions are oracles (universally quantified in
    theorems).  [env.contract.address] only fills [from_address] of the transfers,
    which is implicit in [submsg]. *)
Record env : Type := mkEnv {
  e_time : Z;
  e_addr_valid : string -> bool;          (* Api::addr_validate *)
  e_supply : string -> option Z;          (* Querier::query_supply; None = query error *)
  e_bank_ok : string -> bool              (* bank: recipient not blocked *)
}.

(** cosmwasm_std MessageInfo *)
Record info : Type := mkInfo { i_sender : string; i_funds : list coin }.

(** cw_utils 1.0.3 payment.rs must_pay: exactly one coin, non-zero, of that denom. *)
Definition must_pay (i : info) (denom : string) : res Z :=
  match i_funds i with
  | [c] => if c_amount c =? 0 then Err (EPayment NoFunds)
           else if bool_decide (c_denom c = denom) then Ok (c_amount c) else Err (EPayment (MissingDenom denom))
  | [] => Err (EPayment NoFunds)
  | _ => Err (EPayment MultipleDenoms)
  end.
(** cw_utils 1.0.3 payment.rs nonpayable. *)
Definition nonpayable (i : info) : res unit :=
  match i_funds i with [] => Ok tt | _ => Err (EPayment NonPayable) end.

(** Bounty check of place_limit, src/order.rs:46-56. *)
Definition bounty_ok (b : option Z) : bool :=
  match b with None => true | Some x => (0 <=? x) && (x <=? dec_percent 1) end.

(** Tick pointer update of place_limit, src/order.rs:77-90. *)
Definition place_update_book (b : orderbook) (d : dir) (tick : Z) : orderbook :=
  match d with
  | Bid => if ob_next_bid b <? tick
           then mkBook (ob_quote b) (ob_base b) (ob_current b) tick (ob_next_ask b) else b
  | Ask => if tick <? ob_next_ask b
           then mkBook (ob_quote b) (ob_base b) (ob_current b) (ob_next_bid b) tick else b
  end.

(** src/order.rs:23-136 place_limit *)
Definition place_limit (e : env) (i : info) (tick : Z) (d : dir) (q : Z) (bounty : option Z)
  : M storage response :=
  let! ob := mreadr load_orderbook in
  let! _ := mensure ((MIN_TICK <=? tick) && (tick <=? MAX_TICK)) (EInvalidTickId tick) in
  let! _ := mensure (0 <? q) (EInvalidQuantity q) in
  let! _ := mensure (bounty_ok bounty) (EInvalidClaimBounty bounty) in
  let expected := get_expected_denom ob d in
  let! received := mlift (must_pay i expected) in
  let! _ := mensure (received =? q) (EInsufficientFunds received q) in
  let! id := new_order_id in
  let ob := place_update_book ob d tick in
  let! _ := mmod (set_orderbook ob) in
  let! ts := mread (fun s => unwrap_or (s_ticks s !! tick) ts_default) in
  let tv := get_values ts d in
  let o := new_order tick id d (i_sender i) q (tv_ctt tv) bounty (e_time e) in
  let! qd := mlift (dec_from_ratio (o_quantity o) 1) in
  let! _ := save_order (tick, id) o in
  let! tal := mlift (checked_add256 (tv_tal tv) qd) in
  let! qd' := mlift (dec_from_ratio q 1) in
  let! ctt := mlift (checked_add256 (tv_ctt tv) qd') in
  let tv := mkTV tal ctt (tv_etas tv) (tv_crc tv) (tv_last tv) in
  let! _ := save_tick tick (set_values ts d tv) in
  let! _ := add_directional_liquidity d qd in
  mret (mkResp
    [("method", AStr "placeLimit"); ("owner", AStr (i_sender i)); ("tick_id", AInt tick);
     ("order_id", AInt id); ("order_direction", ADir d); ("quantity", AInt q);
     ("order_denom", AStr expected); ("output_denom", AStr (get_opposite_denom ob d))]
    [] [] None).

(** src/order.rs:138-242 cancel_limit *)
Definition cancel_limit (i : info) (tick id : Z) : M storage response :=
  let! _ := mlift (nonpayable i) in
  let! o := mreadr (fun s => ok_or (s_orders s !! (tick, id)) (EOrderNotFound tick id)) in
  let! _ := mensure (bool_decide (i_sender i = o_owner o)) EUnauthorized in
  let! ts := mread (fun s => unwrap_or (s_ticks s !! tick) ts_default) in
  let! _ := sync_tick tick (tv_etas (get_values ts Bid)) (tv_etas (get_values ts Ask)) in
  let! ts := mread (fun s => unwrap_or (s_ticks s !! tick) ts_default) in
  let! _ := mensure (tv_etas (get_values ts (o_dir o)) <=? o_etas o) ECancelFilledOrder in
  let! tree := get_or_init_root_node tick (o_dir o) in
  let! node_id := generate_node_id (o_tick o) in
  let! cts := mreadr (fun s => ok_or (s_ticks s !! o_tick o) (EInvalidTickId (o_tick o))) in
  let ctv := get_values cts (o_dir o) in
  let! qd := mlift (dec_from_ratio (o_quantity o) 1) in
  let new := new_node (o_tick o) (o_dir o) node_id (NLeaf qd (o_etas o)) in
  let! r := tree_insert tree new in
  let tree := fst r in
  let! ob := mreadr load_orderbook in
  let expected := get_expected_denom ob (o_dir o) in
  let refund := mkSend REPLY_ID_REFUND (o_owner o) (mkCoin expected (o_quantity o)) in
  let! _ := remove_order (o_tick o, o_id o) in
  let! qd' := mlift (dec_from_ratio (o_quantity o) 1) in
  let! tal := mlift (checked_sub (tv_tal ctv) qd') in
  let ctv := mkTV tal (tv_ctt ctv) (tv_etas ctv) (tv_crc ctv) (tv_last ctv) in
  let! _ := save_tick (o_tick o) (set_values cts (o_dir o) ctv) in
  let! _ := subtract_directional_liquidity (o_dir o) qd in
  let! _ := node_save tree in
  mret (mkResp
    [("method", AStr "cancelLimit"); ("owner", AStr (i_sender i)); ("tick_id", AInt tick);
     ("order_id", AInt id); ("quantity", AInt (o_quantity o)); ("order_direction", ADir (o_dir o));
     ("initial_quantity", AInt (o_placed_quantity o)); ("order_denom", AStr expected);
     ("output_denom", AStr (get_opposite_denom ob (o_dir o)))]
    [] [refund] None).

(** src/order.rs:694-710: the bounty; returns (bounty, amount). *)
Definition claim_bounty_split (bounty : option Z) (amount : Z) : res (Z * Z) :=
  match bounty with
  | Some b =>
      if amount =? 0 then Ok (0, amount)
      else
        let? a := dec_from_ratio amount 1 in
        let? x := dec_checked_mul a b in
        let? rest := checked_sub amount (to_uint_floor x) in
        Ok (to_uint_floor x, rest)
  | None => Ok (0, amount)
  end.

(** src/order.rs:712-727: the maker fee; returns (fee, amount). *)
Definition claim_fee_split (fee raw amount : Z) : res (Z * Z) :=
  if fee =? 0 then Ok (0, amount)
  else if amount =? 0 then Ok (0, amount)
  else
    let? a := dec_from_ratio raw 1 in
    let? x := dec_checked_mul a fee in
    let? rest := checked_sub amount (to_uint_floor x) in
    Ok (to_uint_floor x, rest).

(** A transfer unless the amount is zero (src/order.rs:731-764). *)
Definition send_nonzero (reply : Z) (to denom : string) (amount : Z) : list submsg :=
  if amount =? 0 then [] else [mkSend reply to (mkCoin denom amount)].

(** src/order.rs:618-767 claim_order *)
Definition claim_order (sender : string) (tick id : Z)
  : M storage (Z * list submsg * limit_order) :=
  let! ob := mreadr load_orderbook in
  let! ts := mreadr (fun s => ok_or (s_ticks s !! tick) (EInvalidTickId tick)) in
  let! o := mreadr (fun s => ok_or (s_orders s !! (tick, id)) (EOrderNotFound tick id)) in
  let! _ := sync_tick tick (tv_etas (get_values ts Bid)) (tv_etas (get_values ts Ask)) in
  let! ts := mreadr (fun s => ok_or (s_ticks s !! tick) (EInvalidTickId tick)) in
  let tv := get_values ts (o_dir o) in
  let! _ := mensure (o_etas o <? tv_etas tv) EZeroClaim in
  let! diff := mlift (checked_sub (tv_etas tv) (o_etas o)) in
  let! qd := mlift (dec_from_ratio (o_quantity o) 1) in
  let filled_dec := Z.min diff qd in
  let! filled := mlift (to_u128 (to_uint_floor filled_dec)) in
  let! q := mlift (checked_sub (o_quantity o) filled) in
  let! et := mlift (checked_add256 (o_etas o) filled_dec) in
  let o := order_set_fill o q et in
  let! _ := (if o_quantity o =? 0 then remove_order (tick, id) else save_order (tick, id) o) in
  let! price := mlift (tick_to_price tick) in
  let! raw := mlift (amount_to_value (o_dir o) filled price RDown) in
  let denom := get_opposite_denom ob (o_dir o) in
  let! ba := mlift (claim_bounty_split (o_bounty o) raw) in
  let! fee := mread get_maker_fee in
  let! fa := mlift (claim_fee_split fee raw (snd ba)) in
  let amount := snd fa in
  let msgs1 := send_nonzero REPLY_ID_CLAIM (o_owner o) denom amount in
  let msgs2 := send_nonzero REPLY_ID_CLAIM_BOUNTY sender denom (fst ba) in
  let! msgs3 := (if fst fa =? 0 then mret []
                 else
                   let! rcp := mreadr (fun s => ok_or (s_recipient s) ENoMakerFeeRecipient) in
                   mret (send_nonzero REPLY_ID_MAKER_FEE rcp denom (fst fa))) in
  mret (amount, app msgs1 (app msgs2 msgs3), o).

(** src/order.rs:336-357 generate_claimed_order_event *)
Definition generate_claimed_order_event (sender : string) (o : limit_order) (amount : Z)
           (order_denom output_denom : string) : claim_event :=
  mkClaimEvent sender (o_tick o) (o_id o) (o_quantity o) (o_owner o) (o_dir o) amount
               (o_placed_quantity o) (o_quantity o =? 0) order_denom output_denom.

(** src/order.rs:244-277 claim_limit *)
Definition claim_limit (i : info) (tick id : Z) : M storage response :=
  let! _ := mlift (nonpayable i) in
  let! r := claim_order (i_sender i) tick id in
  let '(amount, msgs, o) := r in
  let! ob := mreadr load_orderbook in
  let ev := generate_claimed_order_event (i_sender i) o amount
              (get_expected_denom ob (o_dir o)) (get_opposite_denom ob (o_dir o)) in
  mret (mkResp [("method", AStr "claimLimit")] [ev] msgs None).

(** Loop of batch_claim_limits, src/order.rs:300-327.  Errors are swallowed and the
    storage is NOT rolled back; a panic aborts. *)
Fixpoint batch_claim_loop (ob : orderbook) (sender : string) (l : list (Z * Z))
         (msgs : list submsg) (evs : list claim_event)
  : M storage (list submsg * list claim_event) :=
  match l with
  | [] => mret (msgs, evs)
  | (tick, id) :: l =>
    fun s =>
      match claim_order sender tick id s with
      | (s', Ok (amount, bank, o)) =>
          let ev := generate_claimed_order_event sender o amount
                      (get_expected_denom ob (o_dir o)) (get_opposite_denom ob (o_dir o)) in
          batch_claim_loop ob sender l (app msgs bank) (app evs [ev]) s'
      | (s', Err _) => batch_claim_loop ob sender l msgs evs s'
      | (s', Panic) => (s', Panic)
      | (s', NoFuel) => (s', NoFuel)
      end
  end.

(** src/order.rs:279-334 batch_claim_limits *)
Definition batch_claim_limits (i : info) (l : list (Z * Z)) : M storage response :=
  let! _ := mlift (nonpayable i) in
  let! _ := mensure (Z.of_nat (length l) <=? MAX_BATCH_CLAIM) (EBatchClaimLimitExceeded MAX_BATCH_CLAIM) in
  let! ob := mreadr load_orderbook in
  let! r := batch_claim_loop ob (i_sender i) l [] [] in
  mret (mkResp [("method", AStr "batchClaimLimit"); ("sender", AStr (i_sender i))]
               (snd r) (fst r) None).

(** cw-storage-plus Map::keys/range over i64 keys with inclusive bounds, ascending. *)
Definition in_bounds (lo hi : option Z) (k : Z) : bool :=
  match lo with Some l => l <=? k | None => true end &&
  match hi with Some h => k <=? h | None => true end.
Definition sorted_keys {A} (m : gmap Z A) (lo hi : option Z) : list Z :=
  merge_sort Z.le (filter (fun k => Is_true (in_bounds lo hi k)) (map fst (map_to_list m))).

(** State of the tick loop of run_market_order_internal. *)
Record mkt : Type := mkMkt {
  m_qty : Z;                                (* order.quantity *)
  m_book : orderbook;                       (* orderbook *)
  m_out : Z;                                (* total_output *)
  m_upd : list (Z * tick_state);            (* tick_updates *)
  m_price : Z                               (* last_tick_price *)
}.

(** Tick pointer update, src/order.rs:524-528. *)
Definition set_next_tick (b : orderbook) (d : dir) (t : Z) : orderbook :=
  match d with
  | Ask => mkBook (ob_quote b) (ob_base b) (ob_current b) (ob_next_bid b) t
  | Bid => mkBook (ob_quote b) (ob_base b) (ob_current b) t (ob_next_ask b)
  end.

(** One iteration of the tick loop, src/order.rs:495-581; the boolean tells whether
    the loop goes on ([false] = break). *)
Definition market_tick (d : dir) (ticks : gmap Z tick_state) (t : Z) (m : mkt)
  : res (bool * mkt) :=
  let? ts := ok_or (ticks !! t) EStd in
  let tv := get_values ts (opposite d) in
  if tv_tal tv =? 0 then Ok (true, m)
  else
    let? price := tick_to_price t in
    let? outq := amount_to_value d (m_qty m) price RDown in
    if outq =? 0 then Ok (false, mkMkt 0 (m_book m) (m_out m) (m_upd m) price)
    else
      let book := set_next_tick (m_book m) (opposite d) t in
      let? outd := dec_from_ratio outq 1 in
      let fill_dec := if outd <? tv_tal tv then outd else tv_tal tv in
      let? tal := checked_sub (tv_tal tv) fill_dec in
      let? etas := checked_add256 (tv_etas tv) fill_dec in
      let tv := mkTV tal (tv_ctt tv) etas (tv_crc tv) (tv_last tv) in
      let? fill := to_u128 (to_uint_floor fill_dec) in
      let? input := amount_to_value (opposite d) fill price RUp in
      let? _ := rensure (negb (input =? 0)) (EInvalidSwap ZeroStepInput) in
      let? input128 := to_u128 input in
      let? qty := checked_sub (m_qty m) input128 in
      let ts := set_values ts (opposite d) tv in
      let? out := checked_add256 (m_out m) fill in
      Ok (true, mkMkt qty book out (app (m_upd m) [(t, ts)]) price).

(** The tick loop, src/order.rs:495-581. *)
Fixpoint market_loop (d : dir) (ticks : gmap Z tick_state) (l : list Z) (m : mkt) : res mkt :=
  match l with
  | [] => Ok m
  | t :: l =>
      let? r := market_tick d ticks t m in
      if fst r then market_loop d ticks l (snd r) else Ok (snd r)
  end.

(** Tick range of the iterator, src/order.rs:463-491 (in iteration order). *)
Definition market_ticks (ob : orderbook) (d : dir) (bound : Z) (ticks : gmap Z tick_state)
  : res (list Z) :=
  match d with
  | Ask =>
      let? _ := rensure (bound <=? ob_next_bid ob) (EInvalidTickId bound) in
      Ok (rev (sorted_keys ticks (Some bound) (Some (ob_next_bid ob))))
  | Bid =>
      let? _ := rensure (ob_next_ask ob <=? bound) (EInvalidTickId bound) in
      Ok (sorted_keys ticks (Some (ob_next_ask ob)) (Some bound))
  end.

(** src/order.rs:437-615 run_market_order_internal; the result carries the updated
    book, the tick updates, the output coin and the remaining order quantity.
    The BTreeMap iterator reads the ticks as of the start (the loop does not write). *)
Definition run_market_order_internal (s : storage) (qty : Z) (d : dir) (bound : Z)
  : res (mkt * string) :=
  let? _ := rensure (negb (qty =? 0)) (EInvalidSwap ZeroInput) in
  let? ob := load_orderbook s in
  let output_denom := get_opposite_denom ob d in
  let? _ := rensure ((bound <=? MAX_TICK) && (MIN_TICK <=? bound)) (EInvalidTickId bound) in
  let? l := market_ticks ob d bound (s_ticks s) in
  let? m := market_loop d (s_ticks s) l (mkMkt qty ob 0 [] DEC) in
  let? remaining := amount_to_value d (m_qty m) (m_price m) RDown in
  let partial := match d with Ask => MIN_TICK <? bound | Bid => bound <? MAX_TICK end in
  let? _ := rensure ((remaining =? 0) || partial) EInsufficientLiquidity in
  Ok (m, output_denom).

(** Writing the tick updates, src/order.rs:388-390. *)
Definition save_ticks (l : list (Z * tick_state)) : M storage unit :=
  mmod (fun s => set_ticks (foldl (fun m p => <[p.1 := p.2]> m) (s_ticks s) l) s).

(** src/order.rs:375-411 run_market_order; returns (output, output denom, remaining quantity). *)
Definition run_market_order (qty : Z) (d : dir) (bound : Z) : M storage (Z * string * Z) :=
  let! r := mreadr (fun s => run_market_order_internal s qty d bound) in
  let m := fst r in
  let! _ := save_ticks (m_upd m) in
  let! outd := mlift (dec_from_ratio (m_out m) 1) in
  let! _ := subtract_directional_liquidity (opposite d) outd in
  let! _ := mmod (set_orderbook (m_book m)) in
  mret (m_out m, snd r, m_qty m).
