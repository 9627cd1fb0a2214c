(** * State: src/state.rs, the storage items of src/auth.rs and src/sumtree *)
From Verif Require Import Base Dec Types.

(** src/sumtree/node.rs:28-44 NodeType *)
Inductive ntype : Type :=
| NLeaf (value etas : Z)
| NInternal (acc lo hi weight : Z).

(** src/sumtree/node.rs:102-111 TreeNode *)
Record tnode : Type := mkNode {
  n_key : Z;
  n_tick : Z;
  n_dir : dir;
  n_left : option Z;
  n_right : option Z;
  n_parent : option Z;
  n_type : ntype
}.
Definition n_set_left (n : tnode) (l : option Z) : tnode :=
  mkNode (n_key n) (n_tick n) (n_dir n) l (n_right n) (n_parent n) (n_type n).
Definition n_set_right (n : tnode) (r : option Z) : tnode :=
  mkNode (n_key n) (n_tick n) (n_dir n) (n_left n) r (n_parent n) (n_type n).
Definition n_set_parent (n : tnode) (p : option Z) : tnode :=
  mkNode (n_key n) (n_tick n) (n_dir n) (n_left n) (n_right n) p (n_type n).
Definition n_set_type (n : tnode) (t : ntype) : tnode :=
  mkNode (n_key n) (n_tick n) (n_dir n) (n_left n) (n_right n) (n_parent n) t.

(** The contract storage.  One field per cw-storage-plus item/map:
    src/state.rs:8-20, src/state.rs:36-53 (orders; the owner and tick_and_owner
    MultiIndexes are derived, see Query.v), src/sumtree/node.rs:16-17,
    src/sumtree/tree.rs:7, src/auth.rs:11-14.  The cw2 version item is not modelled.
    DIRECTION_TOTAL_LIQUIDITY and TREE are keyed by the direction's string
    ("bid"/"ask"); the model keys them by [dir]. *)
Record storage : Type := mkSt {
  s_order_id : option Z;                       (* ORDER_ID *)
  s_orderbook : option orderbook;              (* ORDERBOOK *)
  s_ticks : gmap Z tick_state;                 (* TICK_STATE *)
  s_dirliq : gmap dir Z;                       (* DIRECTION_TOTAL_LIQUIDITY *)
  s_orders : gmap (Z * Z) limit_order;         (* orders(): (tick_id, order_id) *)
  s_nodes : gmap (Z * Z) tnode;                (* NODES: (tick_id, node id) *)
  s_nodectr : gmap Z Z;                        (* NODE_ID_COUNTER *)
  s_tree : gmap (Z * dir) Z;                   (* TREE *)
  s_active : option bool;                      (* IS_ACTIVE *)
  s_fee : option Z;                            (* MAKER_FEE *)
  s_recipient : option string;                 (* MAKER_FEE_RECIPIENT *)
  s_admin : option string;                     (* ADMIN *)
  s_admin_offer : option string;               (* ADMIN_OFFER *)
  s_moderator : option string;                 (* MODERATOR *)
  s_moderator_offer : option string            (* MODERATOR_OFFER *)
}.

(** Empty storage before instantiate. *)
Definition st_empty : storage :=
  mkSt None None ∅ ∅ ∅ ∅ ∅ ∅ None None None None None None None.

(** Item/Map [save]/[remove] primitives of cw-storage-plus, one per field. *)
Definition set_order_id (v : Z) (s : storage) : storage :=
  mkSt (Some v) (s_orderbook s) (s_ticks s) (s_dirliq s) (s_orders s) (s_nodes s) (s_nodectr s)
       (s_tree s) (s_active s) (s_fee s) (s_recipient s) (s_admin s) (s_admin_offer s)
       (s_moderator s) (s_moderator_offer s).
Definition set_orderbook (v : orderbook) (s : storage) : storage :=
  mkSt (s_order_id s) (Some v) (s_ticks s) (s_dirliq s) (s_orders s) (s_nodes s) (s_nodectr s)
       (s_tree s) (s_active s) (s_fee s) (s_recipient s) (s_admin s) (s_admin_offer s)
       (s_moderator s) (s_moderator_offer s).
Definition set_ticks (v : gmap Z tick_state) (s : storage) : storage :=
  mkSt (s_order_id s) (s_orderbook s) v (s_dirliq s) (s_orders s) (s_nodes s) (s_nodectr s)
       (s_tree s) (s_active s) (s_fee s) (s_recipient s) (s_admin s) (s_admin_offer s)
       (s_moderator s) (s_moderator_offer s).
Definition set_dirliq (v : gmap dir Z) (s : storage) : storage :=
  mkSt (s_order_id s) (s_orderbook s) (s_ticks s) v (s_orders s) (s_nodes s) (s_nodectr s)
       (s_tree s) (s_active s) (s_fee s) (s_recipient s) (s_admin s) (s_admin_offer s)
       (s_moderator s) (s_moderator_offer s).
Definition set_orders (v : gmap (Z * Z) limit_order) (s : storage) : storage :=
  mkSt (s_order_id s) (s_orderbook s) (s_ticks s) (s_dirliq s) v (s_nodes s) (s_nodectr s)
       (s_tree s) (s_active s) (s_fee s) (s_recipient s) (s_admin s) (s_admin_offer s)
       (s_moderator s) (s_moderator_offer s).
Definition set_nodes (v : gmap (Z * Z) tnode) (s : storage) : storage :=
  mkSt (s_order_id s) (s_orderbook s) (s_ticks s) (s_dirliq s) (s_orders s) v (s_nodectr s)
       (s_tree s) (s_active s) (s_fee s) (s_recipient s) (s_admin s) (s_admin_offer s)
       (s_moderator s) (s_moderator_offer s).
Definition set_nodectr (v : gmap Z Z) (s : storage) : storage :=
  mkSt (s_order_id s) (s_orderbook s) (s_ticks s) (s_dirliq s) (s_orders s) (s_nodes s) v
       (s_tree s) (s_active s) (s_fee s) (s_recipient s) (s_admin s) (s_admin_offer s)
       (s_moderator s) (s_moderator_offer s).
Definition set_tree (v : gmap (Z * dir) Z) (s : storage) : storage :=
  mkSt (s_order_id s) (s_orderbook s) (s_ticks s) (s_dirliq s) (s_orders s) (s_nodes s) (s_nodectr s)
       v (s_active s) (s_fee s) (s_recipient s) (s_admin s) (s_admin_offer s)
       (s_moderator s) (s_moderator_offer s).
Definition set_active_item (v : bool) (s : storage) : storage :=
  mkSt (s_order_id s) (s_orderbook s) (s_ticks s) (s_dirliq s) (s_orders s) (s_nodes s) (s_nodectr s)
       (s_tree s) (Some v) (s_fee s) (s_recipient s) (s_admin s) (s_admin_offer s)
       (s_moderator s) (s_moderator_offer s).
Definition set_fee (v : Z) (s : storage) : storage :=
  mkSt (s_order_id s) (s_orderbook s) (s_ticks s) (s_dirliq s) (s_orders s) (s_nodes s) (s_nodectr s)
       (s_tree s) (s_active s) (Some v) (s_recipient s) (s_admin s) (s_admin_offer s)
       (s_moderator s) (s_moderator_offer s).
Definition set_recipient (v : string) (s : storage) : storage :=
  mkSt (s_order_id s) (s_orderbook s) (s_ticks s) (s_dirliq s) (s_orders s) (s_nodes s) (s_nodectr s)
       (s_tree s) (s_active s) (s_fee s) (Some v) (s_admin s) (s_admin_offer s)
       (s_moderator s) (s_moderator_offer s).
Definition set_admin (v : option string) (s : storage) : storage :=
  mkSt (s_order_id s) (s_orderbook s) (s_ticks s) (s_dirliq s) (s_orders s) (s_nodes s) (s_nodectr s)
       (s_tree s) (s_active s) (s_fee s) (s_recipient s) v (s_admin_offer s)
       (s_moderator s) (s_moderator_offer s).
Definition set_admin_offer (v : option string) (s : storage) : storage :=
  mkSt (s_order_id s) (s_orderbook s) (s_ticks s) (s_dirliq s) (s_orders s) (s_nodes s) (s_nodectr s)
       (s_tree s) (s_active s) (s_fee s) (s_recipient s) (s_admin s) v
       (s_moderator s) (s_moderator_offer s).
Definition set_moderator (v : option string) (s : storage) : storage :=
  mkSt (s_order_id s) (s_orderbook s) (s_ticks s) (s_dirliq s) (s_orders s) (s_nodes s) (s_nodectr s)
       (s_tree s) (s_active s) (s_fee s) (s_recipient s) (s_admin s) (s_admin_offer s)
       v (s_moderator_offer s).
Definition set_moderator_offer (v : option string) (s : storage) : storage :=
  mkSt (s_order_id s) (s_orderbook s) (s_ticks s) (s_dirliq s) (s_orders s) (s_nodes s) (s_nodectr s)
       (s_tree s) (s_active s) (s_fee s) (s_recipient s) (s_admin s) (s_admin_offer s)
       (s_moderator s) v.

(** ORDERBOOK.load(storage)? : missing item is a StdError. *)
Definition load_orderbook (s : storage) : res orderbook := ok_or (s_orderbook s) EStd.

(** TICK_STATE.save *)
Definition save_tick (t : Z) (ts : tick_state) : M storage unit :=
  mmod (fun s => set_ticks (<[t := ts]> (s_ticks s)) s).
(** orders().save / orders().remove *)
Definition save_order (k : Z * Z) (o : limit_order) : M storage unit :=
  mmod (fun s => set_orders (<[k := o]> (s_orders s)) s).
Definition remove_order (k : Z * Z) : M storage unit :=
  mmod (fun s => set_orders (delete k (s_orders s)) s).

(** src/state.rs:55-59 new_order_id; [id + 1] panics on u64 overflow
    (overflow-checks = true). *)
Definition new_order_id : M storage Z :=
  let! id := mread (fun s => unwrap_or (s_order_id s) 0) in
  let! _ := (if id + 1 <=? U64_MAX then mmod (set_order_id (id + 1)) else mlift Panic) in
  mret id.

(** src/state.rs:108-120 get_directional_liquidity *)
Definition get_directional_liquidity (s : storage) (d : dir) : Z :=
  unwrap_or (s_dirliq s !! d) 0.

(** src/state.rs:122-140 add_directional_liquidity *)
Definition add_directional_liquidity (d : dir) (amount : Z) : M storage unit :=
  let! cur := mread (fun s => get_directional_liquidity s d) in
  let! v := mlift (checked_add256 cur amount) in
  mmod (fun s => set_dirliq (<[d := v]> (s_dirliq s)) s).

(** src/state.rs:142-160 subtract_directional_liquidity *)
Definition subtract_directional_liquidity (d : dir) (amount : Z) : M storage unit :=
  let! cur := mread (fun s => get_directional_liquidity s d) in
  let! v := mlift (checked_sub cur amount) in
  mmod (fun s => set_dirliq (<[d := v]> (s_dirliq s)) s).

(** src/state.rs:162-168 get_maker_fee *)
Definition get_maker_fee (s : storage) : Z := unwrap_or (s_fee s) 0.
