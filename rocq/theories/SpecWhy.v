(** * SpecWhy: which error a transaction is answered with.

    On the machine of SpecMachine.v: every entry point is a list of checks, made one after the
    other; the first one that fails names the error the caller sees.  Errors that only speak of
    arithmetic or of missing internal data (overflows, missing ticks, broken trees ...) do not
    occur at all: that is part of property C68.

    Two things are read off the contract besides the machine: [used t], whether an order was
    ever placed at tick [t], and [best side], the best-price pointer of a side as the
    orderbook query shows it. *)
From Verif Require Import Base Dec Types State Order Auth Contract Query World SpecMath SpecMachine.

Inductive verdict : Type := Accepted | Refused (e : error) | Aborted.
Fixpoint checks (l : list (bool * error)) (k : verdict) : verdict :=
  match l with
  | [] => k
  | (b, e) :: l => if b then checks l k else Refused e
  end.
Definition some {A} (o : option A) : bool := match o with Some _ => true | None => false end.
Definition on_some {A} (o : option A) (f : A -> bool) : bool := match o with Some x => f x | None => false end.
Definition trading (m : machine) : bool * error := (se_active (ma_set m), EInactive).
Definition unpaid (i : info) : bool * error := (no_funds i, EPayment NonPayable).

(** ** Orders *)
Definition place_verdict (i : info) (t : Z) (d : dir) (q : Z) (b : option Z) (m : machine) : verdict :=
  let sent := match i_funds i with [c] => c_amount c | _ => 0 end in
  checks [ trading m;
           (tick_ok t, EInvalidTickId t);
           (0 <? q, EInvalidQuantity q);
           (match b with Some x => (0 <=? x) && (x <=? 10 ^ 16) | None => true end, EInvalidClaimBounty b);
           (match i_funds i with [] => false | [c] => negb (c_amount c =? 0) | _ => true end, EPayment NoFunds);
           (match i_funds i with _ :: _ :: _ => false | _ => true end, EPayment MultipleDenoms);
           (match i_funds i with [c] => bool_decide (c_denom c = deposit_of m d) | _ => false end, EPayment (MissingDenom (deposit_of m d)));
           (sent =? q, EInsufficientFunds sent q) ] Accepted.
Definition cancel_verdict (i : info) (t id : Z) (m : machine) : verdict :=
  let o := find_order t id (ma_orders m) in
  checks [ trading m;
           unpaid i;
           (some o, EOrderNotFound t id);
           (on_some o (fun o => bool_decide (re_owner o = i_sender i)), EUnauthorized);
           (on_some o (fun o => re_filled o =? 0), ECancelFilledOrder) ] Accepted.
Definition claim_verdict (used : Z -> bool) (i : info) (t id : Z) (m : machine) : verdict :=
  let o := find_order t id (ma_orders m) in
  checks [ trading m;
           unpaid i;
           (used t, EInvalidTickId t);
           (some o, EOrderNotFound t id);
           (on_some o (fun o => 0 <? re_filled o), EZeroClaim) ] Accepted.
(** Orders of a batch that cannot be claimed are skipped, they never make it fail. *)
Definition batch_verdict (i : info) (l : list (Z * Z)) (m : machine) : verdict :=
  checks [ trading m; unpaid i; (Z.of_nat (length l) <=? 100, EBatchClaimLimitExceeded 100) ] Accepted.

(** ** Swaps *)
(** Why the walk of SpecMachine.v finds no result. *)
Fixpoint walk_error (side : dir) (partial : bool) (open : Z -> Z) (l : list Z) (q last : Z) : option error :=
  match l with
  | [] => if (output_for side q last =? 0) || partial then None else Some EInsufficientLiquidity
  | t :: l =>
      let p := tick_price t in
      let w := output_for side q p in
      if w =? 0 then None
      else
        let x := Z.min w (open t) in
        let c := input_for side x p in
        if 2 ^ 128 - 1 <? x then Some EConversion
        else if c =? 0 then Some (EInvalidSwap ZeroStepInput)
        else walk_error side partial open l (q - c) p
  end.
Definition target_of (target : option Z) : Z := match target with Some b => b | None => 0 end.
Definition swap_verdict (e : env) (best : dir -> Z) (sender : string) (tin : coin) (tout : string) (mn fee : Z) (target : option Z) (m : machine) : verdict :=
  checks [ trading m;
           (fee =? 0, EInvalidSwap (WrongFee 0 fee));
           (negb (bool_decide (c_denom tin = tout)), EInvalidSwap SameDenoms);
           (some (maker_side m (c_denom tin) tout), EInvalidPair (c_denom tin) tout);
           (e_addr_valid e sender, EStd);
           (negb (c_amount tin =? 0), EInvalidSwap ZeroInput) ]
    match maker_side m (c_denom tin) tout with
    | Some side =>
        let l := levels side target (ma_orders m) in
        let open := open_on side (ma_orders m) in
        let partial := partial_allowed side target in
        checks [ (match target with Some b => tick_ok b | None => true end, EInvalidTickId (target_of target));
                 (match target with Some b => match side with Ask => best side <=? b | Bid => b <=? best side end | None => true end, EInvalidTickId (target_of target)) ]
          match walk_error side partial open l (c_amount tin) ATOM with
          | Some er => Refused er
          | None => let got := match walk side partial open l (c_amount tin) ATOM with Some x => total_out x.1 | None => 0 end in
                    checks [ (mn <=? got, EInvalidSwap (BelowMin mn got)) ] Accepted
          end
    | None => Refused (EInvalidPair (c_denom tin) tout)
    end.

(** ** Administration *)
Definition auth_verdict (e : env) (x : string) (msg : auth_msg) (m : machine) : verdict :=
  let s := ma_set m in
  let admin := (bool_decide (se_admin s = Some x), EUnauthorized) in
  let valid a := (e_addr_valid e a, EStd) in
  match msg with
  | TransferAdmin a | OfferModerator a => checks [ admin; valid a ] Accepted
  | CancelAdminTransfer | RenounceAdminship => checks [ admin ] Accepted
  | RejectAdminTransfer => checks [ (bool_decide (se_admin_offer s = Some x), EUnauthorized) ] Accepted
  | ClaimAdmin => checks [ (bool_decide (se_admin_offer s = Some x), EUnauthorized); valid x ] Accepted
  | RejectModeratorOffer => checks [ (bool_decide (se_moderator_offer s = Some x), EUnauthorized) ] Accepted
  | ClaimModerator => checks [ (bool_decide (se_moderator_offer s = Some x), EUnauthorized); valid x ] Accepted
  | SetActive _ => checks [ (bool_decide (se_admin s = Some x) || bool_decide (se_moderator s = Some x), EUnauthorized) ] Accepted
  | SetMakerFee f => checks [ admin; (f <=? 5 * 10 ^ 16, EInvalidMakerFee) ] Accepted
  | SetMakerFeeRecipient a => checks [ admin; (e_addr_valid e a, EInvalidMakerFeeRecipient) ] Accepted
  end.

(** ** All transactions *)
Definition verdict_of (e : env) (used : Z -> bool) (best : dir -> Z) (c : call) (m : machine) : verdict :=
  match c with
  | CExec i (PlaceLimit t d q b) => place_verdict i t d q b m
  | CExec i (CancelLimit t id) => cancel_verdict i t id m
  | CExec i (ClaimLimit t id) => claim_verdict used i t id m
  | CExec i (BatchClaim l) => batch_verdict i l m
  | CExec i (AuthMsg a) => auth_verdict e (i_sender i) a m
  | CSudo (SwapExactAmountIn sender tin tout mn fee) => swap_verdict e best sender tin tout mn fee None m
  | CSudo (SwapToTick sender tin tout mn fee target) => swap_verdict e best sender tin tout mn fee (Some target) m
  | CSudo (SwapExactAmountOut _ _ _ _ _) => checks [ trading m ] Aborted      (* not implemented: panics *)
  | CSudo (SudoTransferAdmin a) => checks [ trading m; (e_addr_valid e a, EStd) ] Accepted
  | CSudo SudoRemoveAdmin => checks [ trading m ] Accepted
  | CSudo (SudoSetActive _) => checks [ trading m ] Accepted
  | CMigrate | CDonate _ => Accepted
  end.
(** What the contract answered. *)
Definition says {A} (v : verdict) (r : res A) : Prop :=
  match v with
  | Accepted => exists x, r = Ok x
  | Refused e => r = Err e
  | Aborted => r = Panic
  end.

(** Setting up a new book: the built-in governance and moderator addresses must be valid, the two
    tokens different and in circulation, and the built-in fee recipient valid. *)
Definition new_verdict (e : env) (quote base : string) : verdict :=
  let supplied d := on_some (e_supply e d) (fun x => negb (x =? 0)) in
  checks [ (e_addr_valid e "osmo10d07y265gmmuvt4z0w9aw880jnsr700jjeq4qp", EStd);
           (e_addr_valid e "osmo1peuxfjj66n2qt2v5jmqlvzz8neakjgduez7vttvemw58uug6546sr60ngl", EStd);
           (negb (bool_decide (quote = base)), EDuplicateDenoms);
           (supplied quote, EInvalidDenom quote);
           (supplied base, EInvalidDenom base);
           (e_addr_valid e "osmo1r9jc2234fljy93z80cevqjt3nmjycec8aj4cc6", EInvalidMakerFeeRecipient) ] Accepted.
(** All errors a transaction of a running book can be refused with. *)
Definition known_error (e : error) : Prop :=
  match e with
  | EInactive | EPayment _ | EInvalidTickId _ | EInvalidQuantity _ | EInvalidClaimBounty _ | EInsufficientFunds _ _
  | EOrderNotFound _ _ | EUnauthorized | ECancelFilledOrder | EZeroClaim | EBatchClaimLimitExceeded _
  | EInvalidSwap _ | EInvalidPair _ _ | EStd | EConversion | EInsufficientLiquidity | EInvalidMakerFee | EInvalidMakerFeeRecipient => True
  | _ => False
  end.

(** Queries.  The pool totals do not fit their answer if more than 2^128 - 1 units are open on a side,
    and the query for the input of a given output is not implemented: both panic. *)
Definition all_open (side : dir) (l : list resting) : Z :=
  foldr (fun o acc => (if bool_decide (re_dir o = side) then re_open o else 0) + acc) 0 l.
Definition query_verdict (used : Z -> bool) (q : query_msg) (m : machine) : verdict :=
  match q with
  | QSpotPrice a b => checks [ (some (maker_side m b a), EInvalidPair b a) ] Accepted
  | QCalcOutAmountGivenIn tin out fee | QCalcOutAmtGivenIn tin out fee =>
      checks [ (fee =? 0, EInvalidSwap (WrongFee 0 fee));
               (some (maker_side m (c_denom tin) out), EInvalidPair (c_denom tin) out);
               (negb (c_amount tin =? 0), EInvalidSwap ZeroInput) ]
        match maker_side m (c_denom tin) out with
        | Some side =>
            match walk_error side false (open_on side (ma_orders m)) (levels side None (ma_orders m)) (c_amount tin) ATOM with
            | Some er => Refused er
            | None => Accepted
            end
        | None => Refused (EInvalidPair (c_denom tin) out)
        end
  | QGetTotalPoolLiquidity =>
      if (all_open Bid (ma_orders m) <=? 2 ^ 128 - 1) && (all_open Ask (ma_orders m) <=? 2 ^ 128 - 1) then Accepted else Aborted
  | QCalcInAmtGivenOut => Aborted
  | QTicksById l | QGetUnrealizedCancels l => checks (map (fun t => (used t, EInvalidTickId t)) l) Accepted
  | QAllTicks _ _ _ | QIsActive | QGetSwapFee | QOrdersByOwner _ _ _ _ | QOrderbookState | QOrdersByTick _ _ _ _ | QDenoms | QGetMakerFee | QAuth _ => Accepted
  end.
