(** * Specification of the raw store (property C70). *)
From Verif Require Import Base Dec Types State Order World SpecCost Keys.

(** Order of byte strings in the chain's store: lexicographic. *)
Fixpoint blt (a b : bytes) : Prop :=
  match a, b with
  | _, [] => False
  | [], _ :: _ => True
  | x :: a, y :: b => x < y \/ (x = y /\ blt a b)
  end.
Definition ble (a b : bytes) : Prop := a = b \/ blt a b.
(** What a storage holds, entry by entry. *)
Definition present {A} (x : option A) : Prop := match x with Some _ => True | None => False end.
Definition holds (s : storage) (r : raw_entry) : Prop :=
  match r with
  | RCell COrderId => present (s_order_id s)
  | RCell COrderbook => present (s_orderbook s)
  | RCell (CTick t) => present (s_ticks s !! t)
  | RCell (CLiquidity d) => present (s_dirliq s !! d)
  | RCell (COrder t id) => present (s_orders s !! (t, id))
  | RCell (CNode t k) => present (s_nodes s !! (t, k))
  | RCell (CNodeId t) => present (s_nodectr s !! t)
  | RCell (CTree t d) => present (s_tree s !! (t, d))
  | RCell CActive => present (s_active s)
  | RCell CFee => present (s_fee s)
  | RCell CRecipient => present (s_recipient s)
  | RCell CAdmin => present (s_admin s)
  | RCell CAdminOffer => present (s_admin_offer s)
  | RCell CModerator => present (s_moderator s)
  | RCell CModeratorOffer => present (s_moderator_offer s)
  | RByOwner a k => exists o, s_orders s !! k = Some o /\ o_owner o = a
  | RByTickOwner t a k => exists o, s_orders s !! k = Some o /\ o_owner o = a /\ o_tick o = t
  | RVersion => True
  end.
Definition stored (s : storage) (key : bytes) : Prop := exists r, holds s r /\ raw_key r = key.
(** Numbers within their types; addresses shorter than 2^16 bytes. *)
Definition name_ok (a : string) : Prop := Z.of_nat (String.length a) < 2 ^ 16.
Definition typed_key (k : Z * Z) : Prop := i64 k.1 = true /\ u64 k.2 = true.
Definition typed_entry (r : raw_entry) : Prop :=
  match r with
  | RCell (CTick t) | RCell (CNodeId t) | RCell (CTree t _) => i64 t = true
  | RCell (COrder t id) | RCell (CNode t id) => typed_key (t, id)
  | RByOwner a k => name_ok a /\ typed_key k
  | RByTickOwner t a k => i64 t = true /\ name_ok a /\ typed_key k
  | _ => True
  end.
(** A range scan of the raw store: everything behind a prefix that lies between two bounds (both inclusive), in byte order, without the prefix. *)
Definition scan (keys : bytes -> Prop) (prefix : bytes) (lo hi : option bytes) (l : list bytes) : Prop :=
  StronglySorted blt l /\
  forall x, x ∈ l <-> keys (prefix ++ x) /\ (forall b, lo = Some b -> ble b x) /\ (forall b, hi = Some b -> ble x b).
(** Orders saved under keys within their types. *)
Definition typed_op (op : ix_op) : Prop :=
  match op with IxSave k o => typed_key k /\ i64 (o_tick o) = true /\ name_ok (o_owner o) | IxRemove k => typed_key k end.
