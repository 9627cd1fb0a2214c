(** * Properties C01 and C02: tick prices and amount conversion. *)
From Verif Require Import Base Dec Types TickMath SpecMath TickMathProofs.

(** C01: every valid tick has the price [tick_price], inside the advertised range; prices
    strictly increase with the tick; every other tick id is rejected. *)
Theorem C01_tick_prices :
  (forall t, valid_tick t ->
     tick_to_price t = Ok (tick_price t) /\
     min_spot_price <= tick_price t <= max_spot_price) /\
  (forall t, ~ valid_tick t -> exists err, tick_to_price t = Err err) /\
  (forall a b, valid_tick a -> valid_tick b -> a < b -> tick_price a < tick_price b).
Proof. exact C01_lemma. Qed.
Print Assumptions C01_tick_prices.

Example C01_case : valid_tick (-17765433) /\ tick_price (-17765433) = 12345670000000000
                   /\ ~ valid_tick 182402824.
Proof. unfold valid_tick. split; [lia|]. split; [reflexivity|lia]. Qed.

(** C02: for every valid tick and every Uint128 amount the conversion at the tick's price
    neither errs nor panics.  With p the price in atoms (10^-18):
    - asks (amount * price): exact product, rounded down or up;
    - bids (amount / price) rounded down: the exact floor;
    - bids rounded up: the ceiling of some x/10^18 where x/10^18 is the exact quotient
      or less than 10^-18 below it. *)
Theorem C02_conversion :
  forall (t a : Z), valid_tick t -> 0 <= a <= U128_MAX ->
  let p := tick_price t in
  (exists price, tick_to_price t = Ok price /\
   amount_to_value Ask a price RDown = Ok (floor_div (a * p) ATOM) /\
   amount_to_value Ask a price RUp = Ok (ceil_div (a * p) ATOM) /\
   amount_to_value Bid a price RDown = Ok (floor_div (a * ATOM) p) /\
   exists x, amount_to_value Bid a price RUp = Ok (ceil_div x ATOM) /\
             x * p <= a * ATOM * ATOM < (x + 1) * p).
Proof. exact C02_lemma. Qed.
Print Assumptions C02_conversion.

Example C02_case : valid_tick 40303000 /\ 0 <= 7 <= U128_MAX /\
  amount_to_value Bid 106061 (tick_price 40303000) RDown = Ok 2 /\
  amount_to_value Bid 106061 (tick_price 40303000) RUp = Ok 3.
Proof. unfold valid_tick, U128_MAX. repeat split; try lia; vm_compute; reflexivity. Qed.
