(** * Specification of purchases from the ask side (properties C61, C62). *)
From Verif Require Import Base Types State SpecMath Spec SpecProps World.

(** The charge for [x] base units taken from the given ticks in turn: at every tick as much as is still
    wanted and on offer ([liq]), and every tick's charge, quantity times price, rounded up to whole quote
    units. *)
Fixpoint purchase (liq : Z -> Z) (ticks : list Z) (x : Z) : Z :=
  match ticks with
  | [] => 0
  | t :: ticks =>
      let a := Z.min x (liq t) in
      ceil_div (a * tick_price t) ATOM + purchase liq ticks (x - a)
  end.
(** The ticks up to [T] with resting asks, cheapest first. *)
Definition ask_ticks (s : storage) (T : Z) (ticks : list Z) : Prop :=
  StronglySorted Z.lt ticks /\ forall t, t ∈ ticks <-> t <= T /\ 0 < tick_liquidity s t Ask.
(** Ask liquidity at a tick. *)
Definition asks (s : storage) (t : Z) : Z := tick_liquidity s t Ask.
