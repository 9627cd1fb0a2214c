(** * SpecSides: vocabulary of property C75: everything that concerns one side of the book left out. *)
From Verif Require Import Base Dec Types State Order Auth Contract World SpecMath Spec SpecProps SpecTrace SpecCommute SpecHalves.

(** The ids of the orders of a side: those there now, and those placed by a history. *)
Definition ids_at (side : dir) (s : storage) : list Z :=
  map (fun x => o_id x.2) (List.filter (fun x => bool_decide (o_dir x.2 = side)) (map_to_list (s_orders s))).
Fixpoint placed_ids (side : dir) (w : world) (h : list (env * call)) : list Z :=
  match h with
  | [] => []
  | (e, c) :: h =>
      match c, snd (step e w c) with
      | CExec _ (PlaceLimit _ d _ _), Done _ => if bool_decide (d = side) then [next_order_id (w_st w)] else []
      | _, _ => []
      end ++ placed_ids side (fst (step e w c)) h
  end.
Definition mem (id : Z) (l : list Z) : bool := existsb (Z.eqb id) l.
(** Calls about a side, whose orders have the [ids]: placements there, cancellations, claims and batches that name one of its orders,
    and swaps that trade against it. *)
Definition about (s : storage) (side : dir) (ids : list Z) (c : call) : bool :=
  let trades tin tout := bool_decide (c_denom tin = deposit_denom s (opposite side) /\ tout = deposit_denom s side) in
  match c with
  | CExec _ (PlaceLimit _ d _ _) => bool_decide (d = side)
  | CExec _ (CancelLimit _ id) | CExec _ (ClaimLimit _ id) => mem id ids
  | CExec _ (BatchClaim l) => existsb (fun x => mem x.2 ids) l
  | CSudo (SwapExactAmountIn _ tin tout _ _) | CSudo (SwapToTick _ tin tout _ _ _) => trades tin tout
  | _ => false
  end.
(** No batch claims orders of this side together with others. *)
Definition pure (ids : list Z) (c : call) : bool :=
  match c with CExec _ (BatchClaim l) => forallb (fun x => mem x.2 ids) l || forallb (fun x => negb (mem x.2 ids)) l | _ => true end.
(** Without the orders that had the ids [D], an order that had the id [id] has this one. *)
Definition renumber (D : list Z) (id : Z) : Z := id - Z.of_nat (length (List.filter (fun x => x <? id) D)).
Definition renumber_call (f : Z -> Z) (c : call) : call :=
  match c with
  | CExec i (CancelLimit t id) => CExec i (CancelLimit t (f id))
  | CExec i (ClaimLimit t id) => CExec i (ClaimLimit t (f id))
  | CExec i (BatchClaim l) => CExec i (BatchClaim (map (fun x => (fst x, f (snd x))) l))
  | c => c
  end.
Definition renumber_attr (f : Z -> Z) (a : string * attr) : string * attr :=
  match a with (k, AInt id) => if bool_decide (k = "order_id") then (k, AInt (f id)) else a | _ => a end.
Definition renumber_event (f : Z -> Z) (ev : claim_event) : claim_event :=
  mkClaimEvent (ce_sender ev) (ce_tick ev) (f (ce_id ev)) (ce_quantity_remaining ev) (ce_owner ev) (ce_dir ev) (ce_amount_claimed ev)
    (ce_placed_quantity ev) (ce_fully_claimed ev) (ce_order_denom ev) (ce_output_denom ev).
Definition renumber_outcome (f : Z -> Z) (o : outcome) : outcome :=
  match o with
  | Done r => Done (mkResp (map (renumber_attr f) (r_attrs r)) (map (renumber_event f) (r_events r)) (r_msgs r) (r_data r))
  | Failed => Failed
  end.
(** The calls that are not about the side, with the ids that orders then have; and their outcomes among [os]. *)
Definition rest (s : storage) (side : dir) (ids : list Z) (f : Z -> Z) (h : list (env * call)) : list (env * call) :=
  map (fun ec => (fst ec, renumber_call f (snd ec))) (List.filter (fun ec => negb (about s side ids (snd ec))) h).
Fixpoint rest_outcomes (s : storage) (side : dir) (ids : list Z) (h : list (env * call)) (os : list outcome) : list outcome :=
  match h, os with
  | (_, c) :: h, o :: os => (if about s side ids c then [] else [o]) ++ rest_outcomes s side ids h os
  | _, _ => []
  end.
(** The side [d] looks the same in [s] and [s'], where its orders have the ids that [f] gives them. *)
Record same_side (d : dir) (f : Z -> Z) (s s' : storage) : Prop := {
  ss_tokens : forall d, deposit_denom s d = deposit_denom s' d;
  ss_active : active s = active s';
  ss_settings : (s_fee s, s_recipient s, s_admin s, s_admin_offer s, s_moderator s, s_moderator_offer s)
              = (s_fee s', s_recipient s', s_admin s', s_admin_offer s', s_moderator s', s_moderator_offer s');
  ss_next : next_order_id s' = f (next_order_id s);
  ss_orders : forall t id o, s_orders s !! (t, id) = Some o -> o_dir o = d -> option_map visible_data (s_orders s' !! (t, f id)) = Some (visible_data o);
  ss_no_more : forall t id' o', s_orders s' !! (t, id') = Some o' -> o_dir o' = d -> exists id, f id = id' /\ option_map visible_data (s_orders s !! (t, id)) = Some (visible_data o');
  ss_liquidity : forall t, tick_liquidity s t d = tick_liquidity s' t d
}.
