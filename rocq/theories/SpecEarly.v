(** * SpecEarly: vocabulary of property C73. *)
From Verif Require Import Base Dec Types State Order Auth Contract World SpecMath Spec SpecProps SpecBank SpecAlike.

(** A claim of the order [id] at tick [t], by whomever. *)
Definition is_claim_of (t id : Z) (c : call) : bool :=
  match c with CExec _ (ClaimLimit t' id') => (t' =? t) && (id' =? id) | _ => false end.
(** Other calls that name the order: cancellations, claims, batches. *)
Definition names (id : Z) (c : call) : bool :=
  match c with
  | CExec _ (CancelLimit _ id') | CExec _ (ClaimLimit _ id') => id' =? id
  | CExec _ (BatchClaim l) => existsb (fun p => snd p =? id) l
  | _ => false
  end.
(** The same calls without the claims of the order. *)
Definition without_claims (t id : Z) (h : list (env * call)) : list (env * call) :=
  List.filter (fun ec => negb (is_claim_of t id (snd ec))) h.
(** Of the outcomes [os] of the calls [h], those of the other calls, and the answers to the successful claims. *)
Fixpoint other_outcomes (t id : Z) (h : list (env * call)) (os : list outcome) : list outcome :=
  match h, os with
  | (_, c) :: h, o :: os => (if is_claim_of t id c then [] else [o]) ++ other_outcomes t id h os
  | _, _ => []
  end.
Fixpoint claim_answers (t id : Z) (h : list (env * call)) (os : list outcome) : list response :=
  match h, os with
  | (_, c) :: h, o :: os => (if is_claim_of t id c then match o with Done r => [r] | Failed => [] end else []) ++ claim_answers t id h os
  | _, _ => []
  end.
Definition sum (l : list Z) : Z := foldr Z.add 0 l.
(** The books look the same, apart from how much of the order (t, id) is waiting to be claimed. *)
Record alike_but (t id : Z) (s s' : storage) : Prop := {
  ab_tokens : forall d, deposit_denom s d = deposit_denom s' d;
  ab_active : active s = active s';
  ab_settings : (s_fee s, s_recipient s, s_admin s, s_admin_offer s, s_moderator s, s_moderator_offer s)
              = (s_fee s', s_recipient s', s_admin s', s_admin_offer s', s_moderator s', s_moderator_offer s');
  ab_next : match s_order_id s with Some n => n | None => 0 end = match s_order_id s' with Some n => n | None => 0 end;
  ab_orders : forall t' id', (t', id') <> (t, id) -> option_map visible (s_orders s !! (t', id')) = option_map visible (s_orders s' !! (t', id'));
  ab_liquidity : forall t d, tick_liquidity s t d = tick_liquidity s' t d
}.
