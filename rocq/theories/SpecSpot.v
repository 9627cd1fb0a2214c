(** * SpecSpot: how the best-price pointers, and with them the spot price, move. *)
From Verif Require Import Base Dec Types State Contract Query World SpecMath Spec SpecProps.

(** Between [s] and [s'], ticks of side [m] lost liquidity, and [T] is the one with the worst price for the taker. *)
Definition worst_touched (s s' : storage) (m : dir) (T : Z) : Prop :=
  tick_liquidity s' T m < tick_liquidity s T m /\
  forall t, tick_liquidity s' t m < tick_liquidity s t m -> ~ better_tick m T t.
(** What a successful transaction does to the two pointers: a placement improves the one of its own side, if it can; a swap sets the one
    of the side it traded against to the last tick it used; nothing else moves them. *)
Definition moves (s s' : storage) (c : call) : Prop :=
  match c with
  | CExec _ (PlaceLimit t Bid _ _) => next_tick s' Bid = Z.max (next_tick s Bid) t /\ next_tick s' Ask = next_tick s Ask
  | CExec _ (PlaceLimit t Ask _ _) => next_tick s' Ask = Z.min (next_tick s Ask) t /\ next_tick s' Bid = next_tick s Bid
  | CSudo (SwapExactAmountIn _ _ out _ _) | CSudo (SwapToTick _ _ out _ _ _) =>
      exists m, out = deposit_denom s m /\ worst_touched s s' m (next_tick s' m) /\ next_tick s' (opposite m) = next_tick s (opposite m)
  | _ => forall m, next_tick s' m = next_tick s m
  end.
(** The spot price query for a side of the book, and the number it gives for a tick: bids at their price, asks at its inverse. *)
Definition spot (s : storage) (m : dir) : res answer := query s (QSpotPrice (deposit_denom s m) (deposit_denom s (opposite m))).
Definition shown (m : dir) (t : Z) : Z := match m with Bid => tick_price t | Ask => floor_div (ATOM * ATOM) (tick_price t) end.
