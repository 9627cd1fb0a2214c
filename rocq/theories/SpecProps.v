(** * SpecProps: further vocabulary for the theorem statements. *)
From Verif Require Import Base Dec Types State Order Contract World SpecMath Spec.

(** All numbers recorded for one direction of a tick (zeros if the tick was never used). *)
Definition side_values (s : storage) (t : Z) (d : dir) : tick_values :=
  match s_ticks s !! t with Some ts => get_values ts d | None => tv_default end.
(** Liquidity of one side of the whole book, as GetTotalPoolLiquidity reads it (10^-18 units). *)
Definition pool_liquidity (s : storage) (d : dir) : Z := unwrap_or (s_dirliq s !! d) 0.
(** The order an entry of the ideal book describes. *)
Definition order_of (s : storage) (t id : Z) : option limit_order := s_orders s !! (t, id).
(** Denominations never change. *)
Definition denoms_of (s : storage) : string * string := (deposit_denom s Bid, deposit_denom s Ask).
(** Amount of [denom] received with a call. *)
Definition received (l : list coin) (denom : string) : Z :=
  foldr (fun c acc => (if bool_decide (c_denom c = denom) then c_amount c else 0) + acc) 0 l.
(** Calls of the properties. *)
Definition c_place (sender : string) (funds : list coin) (t : Z) (d : dir) (q : Z) (b : option Z) : call :=
  CExec (mkInfo sender funds) (PlaceLimit t d q b).
Definition c_cancel (sender : string) (t id : Z) : call := CExec (mkInfo sender []) (CancelLimit t id).
Definition c_claim (sender : string) (t id : Z) : call := CExec (mkInfo sender []) (ClaimLimit t id).
Definition c_batch (sender : string) (l : list (Z * Z)) : call := CExec (mkInfo sender []) (BatchClaim l).
Definition c_swap (sender : string) (tin : coin) (out : string) (mn : Z) : call := CSudo (SwapExactAmountIn sender tin out mn 0).
Definition succeeds (e : env) (w : world) (c : call) : Prop := exists w' r, step e w c = (w', Done r).

(** ** What a claim of an entry's filled part pays, and to whom *)
Definition claim_gross (en : entry) : Z := proceeds (en_dir en) (en_tick en) (en_filled en).
Definition claim_bounty (en : entry) : Z := share (unwrap_or (en_bounty en) 0) (claim_gross en).
Definition claim_fee (s : storage) (en : entry) : Z := share (unwrap_or (s_fee s) 0) (claim_gross en).
Definition owner_part (s : storage) (en : entry) : Z := claim_gross en - claim_bounty en - claim_fee s en.
Definition claim_pays (s : storage) (sender : string) (en : entry) : list submsg :=
  let denom := proceeds_denom s (en_dir en) in
  pay REPLY_ID_CLAIM (en_owner en) denom (owner_part s en) ++
  pay REPLY_ID_CLAIM_BOUNTY sender denom (claim_bounty en) ++
  pay REPLY_ID_MAKER_FEE (unwrap_or (s_recipient s) EmptyString) denom (claim_fee s en).
(** The entry describes the stored order. *)
Definition describes (en : entry) (o : limit_order) : Prop :=
  en_tick en = o_tick o /\ en_id en = o_id o /\ en_dir en = o_dir o /\ en_owner en = o_owner o /\ en_bounty en = o_bounty o /\
  en_time en = o_placed_at o /\ en_placed en = o_placed_quantity o /\ en_open en + en_filled en = o_quantity o.
(** The part of an order that never changes. *)
Definition identity (o : limit_order) := (o_tick o, o_id o, o_dir o, o_owner o, o_bounty o, o_placed_quantity o, o_placed_at o).
(** Sum of all transfers of a response. *)
Definition total_paid (l : list submsg) : Z := foldr (fun m acc => c_amount (sm_coin m) + acc) 0 l.

(** ** Swaps *)
(** A swap request; with a target tick it is SwapToTick, without it SwapExactAmountIn. *)
Definition swap_call (sender : string) (tin : coin) (out : string) (mn fee : Z) (target : option Z) : call :=
  match target with
  | None => CSudo (SwapExactAmountIn sender tin out mn fee)
  | Some t => CSudo (SwapToTick sender tin out mn fee t)
  end.
(** Tick [t] of maker side [m] has a better price for the taker than [t'] (asks: lower, bids: higher). *)
Definition better_tick (m : dir) (t t' : Z) : Prop := match m with Ask => t < t' | Bid => t' < t end.
(** What a swap took at one tick: output units and input charged. *)
Record fill : Type := mkFill { fl_tick : Z; fl_out : Z; fl_in : Z }.
Definition fills_out (l : list fill) : Z := foldr (fun f acc => fl_out f + acc) 0 l.
Definition fills_in (l : list fill) : Z := foldr (fun f acc => fl_in f + acc) 0 l.
(** Value of [x] units of maker side [m] at price [p], in the taker's input token, rounded up. *)
Definition charge (m : dir) (x p : Z) : Z := match m with Ask => ceil_div (x * p) ATOM | Bid => ceil_div (x * ATOM) p end.
(** Output units of maker side [m] that [q] input units buy at tick [t], rounded down. *)
Definition buys (m : dir) (t q : Z) : Z := match m with Ask => floor_div (q * ATOM) (tick_price t) | Bid => floor_div (q * tick_price t) ATOM end.
(** Tick ids that a swap against side [m] with this target may use. *)
Definition within_target (m : dir) (target : option Z) (t : Z) : Prop :=
  match target with None => True | Some b => match m with Ask => t <= b | Bid => b <= t end end.
(** Best-price pointer of a maker side. *)
Definition next_tick (s : storage) (m : dir) : Z :=
  match s_orderbook s with Some ob => match m with Ask => ob_next_ask ob | Bid => ob_next_bid ob end | None => 0 end.
(** [fills] accounts for all changes of the book between [s] and [s'], a swap against maker side [m]:
    at each filled tick exactly the filled amount leaves the liquidity and enters the fill counter;
    the input charged is the value of the fill at the tick's price rounded up - exactly so when
    buying and whenever the tick keeps liquidity; a sell that empties a tick may be charged up to
    10^-18 below (in the unrounded quotient) and never more; all other numbers of all ticks stay. *)
Record swap_fills (s s' : storage) (m : dir) (fills : list fill) : Prop := {
  sf_once : NoDup (map fl_tick fills);
  sf_valid : forall f, f ∈ fills -> valid_tick (fl_tick f);
  sf_out : forall f, f ∈ fills -> 0 < fl_out f <= tick_liquidity s (fl_tick f) m;
  sf_liq : forall f, f ∈ fills -> tick_liquidity s' (fl_tick f) m = tick_liquidity s (fl_tick f) m - fl_out f;
  sf_side : forall f, f ∈ fills -> let v := side_values s (fl_tick f) m in let x := fl_out f * ATOM in
    side_values s' (fl_tick f) m = mkTV (tv_tal v - x) (tv_ctt v) (tv_etas v + x) (tv_crc v) (tv_last v);
  sf_in : forall f, f ∈ fills -> 0 < fl_in f <= charge m (fl_out f) (tick_price (fl_tick f));
  sf_exact : forall f, f ∈ fills -> m = Ask \/ 0 < tick_liquidity s' (fl_tick f) m -> fl_in f = charge m (fl_out f) (tick_price (fl_tick f));
  sf_short : forall f, f ∈ fills -> m = Bid -> fl_out f * ATOM * ATOM - tick_price (fl_tick f) < fl_in f * tick_price (fl_tick f) * ATOM;
  sf_rest : forall t, t ∉ map fl_tick fills -> side_values s' t m = side_values s t m;
  sf_other : forall t, side_values s' t (opposite m) = side_values s t (opposite m)
}.
(** Sum over a list of ticks. *)
Definition sum_ticks (f : Z -> Z) (l : list Z) : Z := foldr (fun t acc => f t + acc) 0 l.

(** ** Sequences of calls *)
(** What the successful calls of a history returned, in order ([f]: transfers or events). *)
Fixpoint collect {A} (f : response -> list A) (w : world) (h : list (env * call)) : list A :=
  match h with
  | [] => []
  | (e, c) :: h => match snd (step e w c) with Done r => f r | Failed => [] end ++ collect f (fst (step e w c)) h
  end.
(** The claims of a batch as separate transactions. *)
Definition single_claims (e : env) (sender : string) (l : list (Z * Z)) : list (env * call) :=
  map (fun p => (e, c_claim sender p.1 p.2)) l.

(** ** Isolation *)
(** Between ([s], ideal book [Q]) and ([s'], [Q']) nothing happened away from tick [t], direction [d]:
    no liquidity, order, fill or claim; at other ticks not a single recorded number changed, and in the
    other direction of the same tick neither the placed total nor the total ever filled. *)
Record only_at (t : Z) (d : dir) (s s' : storage) (Q Q' : ideal) : Prop := {
  oa_liq : forall t' d', (t', d') <> (t, d) -> tick_liquidity s' t' d' = tick_liquidity s t' d';
  oa_side : forall t' d', t' <> t -> side_values s' t' d' = side_values s t' d';
  oa_opp : let v := side_values s t (opposite d) in let v' := side_values s' t (opposite d) in
    tv_tal v' = tv_tal v /\ tv_ctt v' = tv_ctt v /\ tv_etas v' - tv_crc v' = tv_etas v - tv_crc v;
  oa_order : forall t' id' o, (o_tick o, o_dir o) <> (t, d) -> (order_of s' t' id' = Some o <-> order_of s t' id' = Some o);
  oa_entry : forall en, (en_tick en, en_dir en) <> (t, d) -> (en ∈ Q' <-> en ∈ Q);
  oa_pool : pool_liquidity s' (opposite d) = pool_liquidity s (opposite d)
}.
(** The bank blocks neither the caller [x] nor the fee recipient nor any order's owner. *)
Definition banks_ok (e : env) (w : world) (Q : ideal) (x : string) : Prop :=
  e_bank_ok e x = true /\ e_bank_ok e (unwrap_or (s_recipient (w_st w)) EmptyString) = true /\ (forall en, en ∈ Q -> e_bank_ok e (en_owner en) = true).
(** All transfers of a claim except the bounty. *)
Definition not_bounty (m : submsg) : bool := negb (sm_reply m =? REPLY_ID_CLAIM_BOUNTY).

(** ** Winding the book down *)
(** Every listed order is claimed and then cancelled by its owner (one of the two may fail:
    there may be nothing to claim, or nothing left to cancel). *)
Definition withdraw_all (e : env) (l : list entry) : list (env * call) :=
  flat_map (fun en => [(e, c_claim (en_owner en) (en_tick en) (en_id en)); (e, c_cancel (en_owner en) (en_tick en) (en_id en))]) l.
Definition paid_off (en : entry) : entry := en_set en 0 0 (en_settled en + en_filled en) (en_refunded en + en_open en).
