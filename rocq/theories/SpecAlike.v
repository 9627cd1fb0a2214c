(** * SpecAlike: vocabulary of property C53: two books that look the same. *)
From Verif Require Import Base Dec Types State Order Contract World SpecMath Spec SpecProps.

(** What can be read off an order: everything but its start position in the cumulative count of its tick. *)
Definition visible (o : limit_order) :=
  (o_tick o, o_id o, o_dir o, o_owner o, o_quantity o, o_bounty o, o_placed_quantity o, o_placed_at o).
(** Same tokens and settings, same next id, same orders, same liquidity at every tick.  Nothing is said
    about the cumulative counters of the ticks, the cancellation trees, or the tick pointers. *)
Record alike (s s' : storage) : Prop := {
  al_tokens : forall d, deposit_denom s d = deposit_denom s' d;
  al_active : active s = active s';
  al_settings : (s_fee s, s_recipient s, s_admin s, s_admin_offer s, s_moderator s, s_moderator_offer s)
              = (s_fee s', s_recipient s', s_admin s', s_admin_offer s', s_moderator s', s_moderator_offer s');
  al_next : match s_order_id s with Some n => n | None => 0 end = match s_order_id s' with Some n => n | None => 0 end;
  al_orders : forall t id, option_map visible (s_orders s !! (t, id)) = option_map visible (s_orders s' !! (t, id));
  al_liquidity : forall t d, tick_liquidity s t d = tick_liquidity s' t d
}.
