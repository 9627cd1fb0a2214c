(** * TickMath: src/tick_math.rs *)
From Verif Require Import Base Dec Types.

(** src/tick_math.rs:67-76 pow_ten *)
Definition pow_ten (expo : Z) : res Z :=
  let? target := checked_pow256 10 (Z.abs expo) in
  if expo <? 0 then dec_checked_from_ratio 1 target
  else let? r := checked_mul256 1 target in dec_from_ratio r 1.

(** src/tick_math.rs:11-65 tick_to_price.
    [i64 /] is truncated division ([Z.quot]); all intermediate i64/i32 values fit
    because the tick range has been checked (the casts to i32 are the identity). *)
Definition tick_to_price (tick : Z) : res Z :=
  if tick =? 0 then Ok DEC
  else
    let? _ := rensure ((MIN_TICK <=? tick) && (tick <=? MAX_TICK)) (ETickOutOfBounds tick) in
    let delta := Z.quot tick GEOMETRIC_INCREMENT in
    let e0 := EXPONENT_AT_PRICE_ONE + delta in
    let e := if tick <? 0 then e0 - 1 else e0 in
    let? inc := pow_ten e in
    let num_additive := tick - delta * GEOMETRIC_INCREMENT in
    let? geometric := pow_ten delta in
    let? n := dec_from_ratio (Z.abs num_additive) 1 in
    let? additive := dec_checked_mul n inc in
    if num_additive <? 0 then checked_sub geometric additive
    else checked_add256 geometric additive.

(** src/tick_math.rs:78-92 RoundingDirection *)
Inductive rounding : Type := RDown | RUp.
Definition round (r : rounding) (x : Z) : Z :=
  match r with RDown => to_uint_floor x | RUp => to_uint_ceil x end.

(** src/tick_math.rs:94-115 multiply_by_price *)
Definition multiply_by_price (amount price : Z) (r : rounding) : res Z :=
  let? a := dec_from_ratio amount 1 in
  match dec_checked_mul price a with
  | Ok x => Ok (round r x)
  | Err _ => Err EOverflow
  | Panic => Panic
  | NoFuel => NoFuel
  end.

(** src/tick_math.rs:117-135 divide_by_price *)
Definition divide_by_price (amount price : Z) (r : rounding) : res Z :=
  let? a := dec_from_ratio amount 1 in
  match dec_checked_div a price with
  | Ok x => Ok (round r x)
  | Err _ => Err EOverflow
  | Panic => Panic
  | NoFuel => NoFuel
  end.

(** src/tick_math.rs:137-151 amount_to_value *)
Definition amount_to_value (d : dir) (amount price : Z) (r : rounding) : res Z :=
  if amount =? 0 then Ok 0
  else match d with
       | Bid => divide_by_price amount price r
       | Ask => multiply_by_price amount price r
       end.
