(** * SpecMath: the price and rounding specification, independent of the model.

    A tick's price is 10^k * (1 + m / 10^6) where k and m are the (floored) quotient
    and remainder of the tick id by 9,000,000.  It is given here in units of 10^-18
    ("atoms"), where it is a whole number for every valid tick. *)
From Coq Require Import ZArith.
Open Scope Z_scope.

Definition ATOM : Z := 10 ^ 18.
Definition tick_price (t : Z) : Z := 10 ^ (12 + t / 9000000) * (10 ^ 6 + t mod 9000000).
Definition valid_tick (t : Z) : Prop := -108000000 <= t <= 182402823.

(** Whole-number rounding of the fraction a / b (b > 0). *)
Definition floor_div (a b : Z) : Z := a / b.
Definition ceil_div (a b : Z) : Z := - ((- a) / b).

(** What [f] units of a fully priced order are worth at price [p] (atoms), rounded down:
    an ask of f base units earns f * p quote units, a bid of f quote units earns f / p base
    units. *)
Definition ask_gross (f p : Z) : Z := floor_div (f * p) ATOM.
Definition bid_gross (f p : Z) : Z := floor_div (f * ATOM) p.
(** A share of [amount] at [rate] atoms (1% is 10^16), rounded down. *)
Definition share (rate amount : Z) : Z := floor_div (amount * rate) ATOM.
