(** * Specification of the storage footprint of a call (property C65). *)
From Verif Require Import Base Dec Types State.

(** The entries of the contract storage: one per item, one per key of a map. *)
Inductive cell : Type :=
| COrderId | COrderbook | CTick (t : Z) | CLiquidity (d : dir) | COrder (t id : Z)
| CNode (t k : Z) | CNodeId (t : Z) | CTree (t : Z) (d : dir)
| CActive | CFee | CRecipient | CAdmin | CAdminOffer | CModerator | CModeratorOffer.
Definition same_cell (s s' : storage) (c : cell) : Prop :=
  match c with
  | COrderId => s_order_id s' = s_order_id s
  | COrderbook => s_orderbook s' = s_orderbook s
  | CTick t => s_ticks s' !! t = s_ticks s !! t
  | CLiquidity d => s_dirliq s' !! d = s_dirliq s !! d
  | COrder t id => s_orders s' !! (t, id) = s_orders s !! (t, id)
  | CNode t k => s_nodes s' !! (t, k) = s_nodes s !! (t, k)
  | CNodeId t => s_nodectr s' !! t = s_nodectr s !! t
  | CTree t d => s_tree s' !! (t, d) = s_tree s !! (t, d)
  | CActive => s_active s' = s_active s
  | CFee => s_fee s' = s_fee s
  | CRecipient => s_recipient s' = s_recipient s
  | CAdmin => s_admin s' = s_admin s
  | CAdminOffer => s_admin_offer s' = s_admin_offer s
  | CModerator => s_moderator s' = s_moderator s
  | CModeratorOffer => s_moderator_offer s' = s_moderator_offer s
  end.
(** At most [n] entries differ. *)
Definition changes (n : Z) (s s' : storage) : Prop :=
  exists cells : list cell, Z.of_nat (length cells) <= n /\ forall c, same_cell s s' c \/ c ∈ cells.
