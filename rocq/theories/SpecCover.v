(** * Specification of the price of an amount on either side of the book (property C66). *)
From Verif Require Import Base Types State SpecMath Spec SpecProps World.

(** Amount offered by the makers of a side at a tick. *)
Definition offered (s : storage) (side : dir) (t : Z) : Z := tick_liquidity s t side.
(** The input a swap is charged for all of [x] output units at price [p]: the worth of [x], rounded up to
    whole units (when selling to bids, where the worth is a quotient, after cutting it off at 18 decimals). *)
Definition paid (side : dir) (x p : Z) : Z :=
  match side with Ask => ceil_div (x * p) ATOM | Bid => ceil_div (floor_div (x * ATOM * ATOM) p) ATOM end.
(** The price of [x] output units taken from the given ticks in turn: what every tick used up is charged, and
    at the last tick the least input that is worth the rest. *)
Fixpoint price_of (side : dir) (liq : Z -> Z) (ticks : list Z) (x : Z) : Z :=
  match ticks with
  | [] => 0
  | t :: ticks =>
      if x <=? liq t then charge side x (tick_price t)
      else paid side (liq t) (tick_price t) + price_of side liq ticks (x - liq t)
  end.
(** [ticks] are the ticks with resting orders of a side at least as good for takers as [T], best price first. *)
Definition ladder (s : storage) (side : dir) (T : Z) (ticks : list Z) : Prop :=
  StronglySorted (better_tick side) ticks /\ forall t, t ∈ ticks <-> ~ better_tick side T t /\ 0 < offered s side t.
(** No bids that are worth less than 10^-18 base units (only possible at prices above 10^18). *)
Definition no_dust (s : storage) (side : dir) : Prop :=
  match side with Ask => True | Bid => forall t, 0 < offered s Bid t -> tick_price t <= offered s Bid t * ATOM * ATOM end.
(** What a swap could be charged for the liquidity at these ticks. *)
Definition capacity (s : storage) (side : dir) (ticks : list Z) : Z :=
  sum_ticks (fun t => paid side (offered s side t) (tick_price t)) ticks.
(** Rounding, over [n] ticks, that a taker may lose in a deeper book: one unit per tick, not counting the first when buying (C62). *)
Definition slack (side : dir) (n : nat) : Z := match side with Ask => Z.of_nat n - 1 | Bid => Z.of_nat n end.
