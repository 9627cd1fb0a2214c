(** * SpecCommute: vocabulary of property C54. *)
From Verif Require Import Base Dec Types State Order Auth Contract World SpecMath.

(** Calls by which orders are placed, withdrawn and claimed. *)
Definition managing (c : call) : bool :=
  match c with CExec _ (PlaceLimit _ _ _ _) | CExec _ (CancelLimit _ _) | CExec _ (ClaimLimit _ _) | CExec _ (BatchClaim _) => true | _ => false end.
(** The ids of the orders that such a call is about, if [n] is the next id to be given. *)
Definition concerns (n : Z) (c : call) : list Z :=
  match c with
  | CExec _ (PlaceLimit _ _ _ _) => [n]
  | CExec _ (CancelLimit _ id) | CExec _ (ClaimLimit _ id) => [id]
  | CExec _ (BatchClaim l) => map snd l
  | _ => []
  end.
Definition next_order_id (s : storage) : Z := match s_order_id s with Some n => n | None => 0 end.
