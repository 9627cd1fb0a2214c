(** * SpecBehind: vocabulary of property C58. *)
From Verif Require Import Base Dec Types State Order Auth Contract World SpecMath.

(** The orders that are not behind an order with id [n], direction [d] and tick [t]: those of the other
    direction, those with a better price for the takers, and at the same tick the older ones. *)
Definition ahead (n : Z) (d : dir) (t : Z) (d' : dir) (t' id' : Z) : bool :=
  negb (bool_decide (d' = d)) || (match d with Ask => t' <? t | Bid => t <? t' end) || ((t' =? t) && (id' <? n)).
Definition ahead_event (n : Z) (d : dir) (t : Z) (ev : claim_event) : bool := ahead n d t (ce_dir ev) (ce_tick ev) (ce_id ev).

Definition accepted (o : outcome) : bool := match o with Done _ => true | Failed => false end.
(** Calls that may fill or settle several orders at once. *)
Definition joint (c : call) : bool :=
  match c with CSudo (SwapExactAmountIn _ _ _ _ _) | CSudo (SwapToTick _ _ _ _ _ _) | CExec _ (BatchClaim _) => true | _ => false end.
(** Of the swaps and batch claims of a history, the same are accepted. *)
Fixpoint same_luck (h : list (env * call)) (os os' : list outcome) : Prop :=
  match h, os, os' with
  | (_, c) :: h, o :: os, o' :: os' => (joint c = true -> accepted o' = accepted o) /\ same_luck h os os'
  | _, _, _ => True
  end.
