(** * SpecEvents: what an indexer that only reads the contract's announcements knows.

    Off-chain services do not read the contract's storage: they listen to the attributes and
    events of successful transactions.  [heard] is such a listener: it keeps a table of live
    orders and is driven by responses alone - never by the calls, the senders or the state. *)
From Verif Require Import Base Dec Types State Order Contract World SpecMath Spec SpecProps.

(** A row of the table. *)
Record known : Type := mkKnown { kn_owner : string; kn_dir : dir; kn_quantity : Z; kn_placed : Z }.
Definition table : Type := gmap (Z * Z) known.

Fixpoint attr_get (l : list (string * attr)) (name : string) : option attr :=
  match l with
  | [] => None
  | (k, v) :: l => if bool_decide (k = name) then Some v else attr_get l name
  end.
(** A claim event: the order is gone, or this is what remains of it. *)
Definition heard_claim (K : table) (ev : claim_event) : table :=
  if ce_fully_claimed ev then delete (ce_tick ev, ce_id ev) K
  else <[(ce_tick ev, ce_id ev) := mkKnown (ce_owner ev) (ce_dir ev) (ce_quantity_remaining ev) (ce_placed_quantity ev)]> K.
(** A response: its claim events, and the attributes of a placement or a cancel. *)
Definition heard (K : table) (r : response) : table :=
  let K := foldl heard_claim K (r_events r) in
  let a := attr_get (r_attrs r) in
  match a "method", a "tick_id", a "order_id", a "owner", a "order_direction", a "quantity" with
  | Some (AStr m), Some (AInt t), Some (AInt id), Some (AStr owner), Some (ADir d), Some (AInt q) =>
      if bool_decide (m = "placeLimit") then <[(t, id) := mkKnown owner d q q]> K
      else if bool_decide (m = "cancelLimit") then delete (t, id) K
      else K
  | _, _, _, _, _, _ => K
  end.
(** All responses of a history, in order. *)
Definition responses (w : world) (h : list (env * call)) : list response := collect (fun r => [r]) w h.

(** The same columns of the orders actually stored. *)
Definition row (o : limit_order) : known := mkKnown (o_owner o) (o_dir o) (o_quantity o) (o_placed_quantity o).
Definition stored (s : storage) : table := row <$> s_orders s.
