(** * Keys: the raw storage keys behind the maps of src/state.rs, src/auth.rs and src/sumtree.
    Everywhere else the storage is a record of maps (State.v).  Here is how cw-storage-plus 1.2.0
    lays it out in the chain's key-value store, whose keys are byte strings. *)
From Verif Require Import Base Dec Types State Order Query SpecCost.

Definition bytes := list Z.
(** Big-endian bytes of a number (to_be_bytes). *)
Fixpoint be (n : nat) (x : Z) : bytes :=
  match n with O => [] | S n => be n (x / 256) ++ [x mod 256] end.
(** cw-storage-plus int_key.rs: u64 big endian; i64 big endian in two's complement with the sign bit flipped. *)
Definition u64_key (x : Z) : bytes := be 8 x.
Definition i64_key (x : Z) : bytes := be 8 (x + 2 ^ 63).
(** Strings and addresses: their bytes. *)
Definition str_key (s : string) : bytes := map (fun a => Z.of_N (Ascii.N_of_ascii a)) (String.list_ascii_of_string s).
(** cw-storage-plus helpers.rs: all parts of a key but the last are preceded by their length in two bytes. *)
Definition framed (p : bytes) : bytes := be 2 (Z.of_nat (length p)) ++ p.
Definition path (parts : list bytes) (last : bytes) : bytes := foldr (fun p acc => framed p ++ acc) last parts.
(** src/types/order.rs:22-35: the name of a direction. *)
Definition dir_name (d : dir) : string := match d with Bid => "bid" | Ask => "ask" end.
(** The primary key of an order, (tick_id, order_id), src/state.rs:36-40. *)
Definition order_pk (k : Z * Z) : bytes := path [i64_key k.1] (u64_key k.2).

(** What the raw store can hold: the entries of SpecCost.v, the entries of the two indexes of orders() (src/state.rs:22-53), and the
    version item of cw2 (src/contract.rs:33). *)
Inductive raw_entry : Type :=
| RCell (c : cell)
| RByOwner (owner : string) (k : Z * Z)
| RByTickOwner (tick : Z) (owner : string) (k : Z * Z)
| RVersion.
(** src/state.rs:8-20, 36-53; src/auth.rs:11-14; src/sumtree/node.rs:16-17; src/sumtree/tree.rs:7. *)
Definition raw_key (r : raw_entry) : bytes :=
  match r with
  | RCell COrderId => str_key "order_id"
  | RCell COrderbook => str_key "orderbook"
  | RCell (CTick t) => path [str_key "tick_state"] (i64_key t)
  | RCell (CLiquidity d) => path [str_key "direction_liquidity"] (str_key (dir_name d))
  | RCell (COrder t id) => path [str_key "orders"; i64_key t] (u64_key id)
  | RCell (CNode t k) => path [str_key "nodes"; i64_key t] (u64_key k)
  | RCell (CNodeId t) => path [str_key "node_id"] (i64_key t)
  | RCell (CTree t d) => path [str_key "tree"; i64_key t] (str_key (dir_name d))
  | RCell CActive => str_key "is_active"
  | RCell CFee => str_key "maker_fee"
  | RCell CRecipient => str_key "maker_fee_recipient"
  | RCell CAdmin => str_key "admin"
  | RCell CAdminOffer => str_key "admin_offer"
  | RCell CModerator => str_key "moderator"
  | RCell CModeratorOffer => str_key "moderator_offer"
  | RByOwner a k => path [str_key "orders_owner"; str_key a] (order_pk k)
  | RByTickOwner t a k => path [str_key "orders_tick_and_owner"; i64_key t; str_key a] (order_pk k)
  | RVersion => str_key "contract_info"
  end.

(** cw-storage-plus IndexedMap (indexed_map.rs): the primary map and the keys of its indexes.  [save] and [remove] load the old value, take its
    index keys out and put those of the new value in. *)
Record indexed : Type := mkIx { ix_orders : gmap (Z * Z) limit_order; ix_keys : gmap.gset bytes }.
Definition index_keys (k : Z * Z) (o : limit_order) : gmap.gset bytes :=
  {[ raw_key (RByOwner (o_owner o) k); raw_key (RByTickOwner (o_tick o) (o_owner o) k) ]}.
Definition ix_old (ix : indexed) (k : Z * Z) : gmap.gset bytes :=
  match ix_orders ix !! k with Some o => index_keys k o | None => ∅ end.
Inductive ix_op : Type := IxSave (k : Z * Z) (o : limit_order) | IxRemove (k : Z * Z).
Definition ix_apply (ix : indexed) (op : ix_op) : indexed :=
  match op with
  | IxSave k o => mkIx (<[k := o]> (ix_orders ix)) ((ix_keys ix ∖ ix_old ix k) ∪ index_keys k o)
  | IxRemove k => mkIx (delete k (ix_orders ix)) (ix_keys ix ∖ ix_old ix k)
  end.
