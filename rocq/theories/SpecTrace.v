(** * SpecTrace: vocabulary of property C51.

    An order that was placed with id [n] and cancelled took up the id [n]; without it all later orders
    have the id before.  [later n] is the id that an order has in the history with the extra order. *)
From Verif Require Import Base Dec Types State Order Auth Contract World SpecMath.

Definition later (n id : Z) : Z := if id <? n then id else id + 1.
(** The same call when the ids from [n] on are one higher. *)
Definition later_call (n : Z) (c : call) : call :=
  match c with
  | CExec i (CancelLimit t id) => CExec i (CancelLimit t (later n id))
  | CExec i (ClaimLimit t id) => CExec i (ClaimLimit t (later n id))
  | CExec i (BatchClaim l) => CExec i (BatchClaim (map (fun x => (fst x, later n (snd x))) l))
  | c => c
  end.
Definition later_history (n : Z) (h : list (env * call)) : list (env * call) := map (fun ec => (fst ec, later_call n (snd ec))) h.
(** The same answer with the ids that it mentions one higher. *)
Definition later_attr (n : Z) (a : string * attr) : string * attr :=
  match a with
  | (k, AInt id) => if bool_decide (k = "order_id") then (k, AInt (later n id)) else a
  | _ => a
  end.
Definition later_event (n : Z) (ev : claim_event) : claim_event :=
  mkClaimEvent (ce_sender ev) (ce_tick ev) (later n (ce_id ev)) (ce_quantity_remaining ev) (ce_owner ev) (ce_dir ev) (ce_amount_claimed ev)
    (ce_placed_quantity ev) (ce_fully_claimed ev) (ce_order_denom ev) (ce_output_denom ev).
Definition later_outcome (n : Z) (o : outcome) : outcome :=
  match o with
  | Done r => Done (mkResp (map (later_attr n) (r_attrs r)) (map (later_event n) (r_events r)) (r_msgs r) (r_data r))
  | Failed => Failed
  end.
(** Calls that trade. *)
Definition is_swap (c : call) : bool :=
  match c with CSudo (SwapExactAmountIn _ _ _ _ _) | CSudo (SwapToTick _ _ _ _ _ _) => true | _ => false end.
