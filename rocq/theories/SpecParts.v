(** * Specification of buying an amount in parts (property C72). *)
From Verif Require Import Base Types State SpecMath Spec SpecProps World SpecCover.

(** [in_parts side w xs total w']: consecutive swaps against the makers of [side], starting in [w] and ending in [w'], by any senders,
    with any inputs, minimum outputs and targets, received the amounts [xs]; [total] is the sum of the prices these amounts had at their
    turn ([price_of], C66: the least input that gets the amount). *)
Inductive in_parts (side : dir) : world -> list Z -> Z -> world -> Prop :=
| parts_none w : in_parts side w [] 0 w
| parts_more e w sender q mn fee target w1 r x T ticks xs total w2 :
    call_ok (w_self w) (swap_call sender q (deposit_denom (w_st w) side) mn fee target) = true ->
    step e w (swap_call sender q (deposit_denom (w_st w) side) mn fee target) = (w1, Done r) -> r_data r = Some x ->
    ladder (w_st w) side T ticks -> x <= sum_ticks (offered (w_st w) side) ticks ->
    in_parts side w1 xs total w2 ->
    in_parts side w (x :: xs) (price_of side (offered (w_st w) side) ticks x + total) w2.
(** Sum of a list. *)
Definition sum_list (l : list Z) : Z := foldr Z.add 0 l.
