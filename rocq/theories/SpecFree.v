(** * SpecFree: vocabulary for "no free money". *)
From Verif Require Import Base Dec Types State Order Contract World SpecMath Spec SpecProps.

(** Every bid that is still open lies below every ask that is still open. *)
Definition uncrossed (s : storage) : Prop :=
  forall tb ta, 0 < tick_liquidity s tb Bid -> 0 < tick_liquidity s ta Ask -> tb < ta.
(** Only swaps, by anybody, with any amounts, limits and targets, successful or not. *)
Definition only_swaps (h : list (env * call)) : Prop :=
  Forall (fun ec => exists sender tin out mn fee target, snd ec = swap_call sender tin out mn fee target) h.
