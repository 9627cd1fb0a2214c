(** * SpecHalves: vocabulary of property C74. *)
From Verif Require Import Base Dec Types State Order Auth Contract World SpecMath Spec SpecProps SpecTrace.

(** A funded placement. *)
Definition placement (e : env) (s dn : string) (t : Z) (d : dir) (b : option Z) (q : Z) : env * call :=
  (e, CExec (mkInfo s [mkCoin dn q]) (PlaceLimit t d q b)).
(** Claiming and cancelling one order; what a cancellation sends back. *)
Definition claim_at (i : info) (t id : Z) : call := CExec i (ClaimLimit t id).
Definition cancel_at (i : info) (t id : Z) : call := CExec i (CancelLimit t id).
Definition refund (s dn : string) (q : Z) : list submsg := [mkSend 1 s (mkCoin dn q)].
(** The answers of the calls that succeeded. *)
Definition answers_of (os : list outcome) : list response := flat_map (fun o => match o with Done r => [r] | Failed => [] end) os.
(** What can be read off an order, apart from its id. *)
Definition visible_data (o : limit_order) := (o_tick o, o_dir o, o_owner o, o_quantity o, o_bounty o, o_placed_quantity o, o_placed_at o).
(** [s'] looks like [s], except that there are two orders [n] and [n + 1] instead of the order [n], and later ids are one higher. *)
Record split_at (n : Z) (s s' : storage) : Prop := {
  sp_tokens : forall d, deposit_denom s d = deposit_denom s' d;
  sp_active : active s = active s';
  sp_settings : (s_fee s, s_recipient s, s_admin s, s_admin_offer s, s_moderator s, s_moderator_offer s)
              = (s_fee s', s_recipient s', s_admin s', s_admin_offer s', s_moderator s', s_moderator_offer s');
  sp_next : match s_order_id s' with Some n => n | None => 0 end = match s_order_id s with Some n => n | None => 0 end + 1;
  sp_orders : forall t id, id <> n -> option_map visible_data (s_orders s !! (t, id)) = option_map visible_data (s_orders s' !! (t, later (n + 1) id));
  sp_liquidity : forall t d, tick_liquidity s t d = tick_liquidity s' t d
}.
