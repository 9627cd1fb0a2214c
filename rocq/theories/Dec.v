(** * Dec: the fixed-width integers and [Decimal256] of cosmwasm-std 1.5.5.

    These are library types (not in /repo); the semantics below is the documented
    behaviour of cosmwasm-std 1.5 and is part of the trusted base.
    A [Decimal256] is represented by its atomics (value * 10^18) in [Z]. *)
From Verif Require Import Base.

Definition U64_MAX : Z := 2 ^ 64 - 1.
Definition U128_MAX : Z := 2 ^ 128 - 1.
Definition U256_MAX : Z := 2 ^ 256 - 1.

(** [Decimal256::DECIMAL_FRACTIONAL] = 10^18. *)
Definition DEC : Z := 10 ^ 18.

(** [Uint128::try_from(Uint256)]: Err ConversionOverflow if it does not fit. *)
Definition to_u128 (x : Z) : res Z :=
  if x <=? U128_MAX then Ok x else Err EConversion.

(** [Uint128::checked_sub] / [Uint256::checked_sub] / [Decimal256::checked_sub]. *)
Definition checked_sub (a b : Z) : res Z :=
  if b <=? a then Ok (a - b) else Err EOverflow.

(** [Uint256::checked_add] / [Decimal256::checked_add] (both on 256-bit atomics). *)
Definition checked_add256 (a b : Z) : res Z :=
  if a + b <=? U256_MAX then Ok (a + b) else Err EOverflow.

(** [Uint256::checked_mul]. *)
Definition checked_mul256 (a b : Z) : res Z :=
  if a * b <=? U256_MAX then Ok (a * b) else Err EOverflow.

(** [Uint256::checked_pow]. *)
Definition checked_pow256 (a n : Z) : res Z :=
  if a ^ n <=? U256_MAX then Ok (a ^ n) else Err EOverflow.

(** [Decimal256::saturating_sub]. *)
Definition saturating_sub (a b : Z) : Z := Z.max 0 (a - b).

(** [Decimal256::checked_from_ratio(n, d)] = floor(n * 10^18 / d), 512-bit intermediate. *)
Definition dec_checked_from_ratio (n d : Z) : res Z :=
  if d =? 0 then Err ECheckedFromRatio
  else if n * DEC / d <=? U256_MAX then Ok (n * DEC / d) else Err ECheckedFromRatio.

(** [Decimal256::from_ratio(n, d)]: panics where [checked_from_ratio] errs. *)
Definition dec_from_ratio (n d : Z) : res Z :=
  match dec_checked_from_ratio n d with
  | Ok x => Ok x
  | _ => Panic
  end.

(** [Decimal256::checked_mul]: floor(a * b / 10^18), 512-bit intermediate. *)
Definition dec_checked_mul (a b : Z) : res Z :=
  if a * b / DEC <=? U256_MAX then Ok (a * b / DEC) else Err EOverflow.

(** [Decimal256::checked_div] = [checked_from_ratio] of the atomics. *)
Definition dec_checked_div (a b : Z) : res Z := dec_checked_from_ratio a b.

(** [Decimal256::to_uint_floor]. *)
Definition to_uint_floor (a : Z) : Z := a / DEC.

(** [Decimal256::to_uint_ceil]: 0 for 0, else 1 + (a - 1) / 10^18. *)
Definition to_uint_ceil (a : Z) : Z :=
  if a =? 0 then 0 else 1 + (a - 1) / DEC.

(** [Decimal256::inv]: None for 0, else floor(10^36 / atomics). *)
Definition dec_inv (a : Z) : option Z :=
  if a =? 0 then None else Some (DEC * DEC / a).

(** [Decimal256::percent(x)]. *)
Definition dec_percent (x : Z) : Z := x * 10 ^ 16.
