(** * Sumtree: src/sumtree/node.rs and src/sumtree/tree.rs on the node store.

    A [&mut self] method on an in-memory copy of a node becomes a function that
    returns the new copy.  [TreeNode::delete] (node.rs:598-623) and
    [sync_range_and_value_up] (node.rs:289-296) are not called by the contract
    (only by tests): see Delete.v.  The #[cfg(test)] helpers are not modelled. *)
From Verif Require Import Base Dec Types State.

(** src/sumtree/node.rs:19-26 generate_node_id; [counter += 1] panics on overflow. *)
Definition generate_node_id (tick : Z) : M storage Z :=
  let! c := mread (fun s => unwrap_or (s_nodectr s !! tick) 0) in
  if c + 1 <=? U64_MAX then
    let! _ := mmod (fun s => set_nodectr (<[tick := c + 1]> (s_nodectr s)) s) in
    mret (c + 1)
  else mlift Panic.

(** src/sumtree/node.rs:92-100 NodeType::default *)
Definition ntype_default : ntype := NInternal 0 U256_MAX 0 0.

(** src/sumtree/node.rs:117-127 TreeNode::new *)
Definition new_node (tick : Z) (d : dir) (key : Z) (t : ntype) : tnode :=
  mkNode key tick d None None None t.

(** src/sumtree/node.rs:129-131 is_internal *)
Definition is_internal (n : tnode) : bool :=
  match n_type n with NInternal _ _ _ _ => true | NLeaf _ _ => false end.

(** NODES.may_load(storage, (tick, id)) behind an optional id. *)
Definition load_child (s : storage) (tick : Z) (k : option Z) : option tnode :=
  match k with Some i => s_nodes s !! (tick, i) | None => None end.
(** src/sumtree/node.rs:133-155 get_right, get_left, get_parent *)
Definition get_left (s : storage) (n : tnode) : option tnode := load_child s (n_tick n) (n_left n).
Definition get_right (s : storage) (n : tnode) : option tnode := load_child s (n_tick n) (n_right n).
Definition get_parent (s : storage) (n : tnode) : option tnode := load_child s (n_tick n) (n_parent n).

(** src/sumtree/node.rs:157-159 has_child *)
Definition has_child (n : tnode) : bool :=
  match n_left n, n_right n with None, None => false | _, _ => true end.

(** src/sumtree/node.rs:161-163 save *)
Definition node_save (n : tnode) : M storage unit :=
  mmod (fun s => set_nodes (<[(n_tick n, n_key n) := n]> (s_nodes s)) s).

(** src/sumtree/node.rs:165-169 sync *)
Definition node_sync (n : tnode) : M storage tnode :=
  mreadr (fun s => ok_or (s_nodes s !! (n_tick n, n_key n)) EStd).

(** src/sumtree/node.rs:171-180 get_max_range (unwrap of checked_add) *)
Definition get_max_range (n : tnode) : res Z :=
  match n_type n with
  | NInternal _ _ hi _ => Ok hi
  | NLeaf v e => match checked_add256 v e with Ok x => Ok x | _ => Panic end
  end.
(** src/sumtree/node.rs:192-201 get_min_range *)
Definition get_min_range (n : tnode) : Z :=
  match n_type n with NInternal _ lo _ _ => lo | NLeaf _ e => e end.
(** src/sumtree/node.rs:182-190 set_max_range *)
Definition set_max_range (n : tnode) (x : Z) : res tnode :=
  match n_type n with
  | NLeaf _ _ => Err EInvalidNodeType
  | NInternal a lo _ w => Ok (n_set_type n (NInternal a lo x w))
  end.
(** src/sumtree/node.rs:203-211 set_min_range *)
Definition set_min_range (n : tnode) (x : Z) : res tnode :=
  match n_type n with
  | NLeaf _ _ => Err EInvalidNodeType
  | NInternal a _ hi w => Ok (n_set_type n (NInternal a x hi w))
  end.
(** src/sumtree/node.rs:243-251 set_value *)
Definition set_value (n : tnode) (x : Z) : res tnode :=
  match n_type n with
  | NInternal _ lo hi w => Ok (n_set_type n (NInternal x lo hi w))
  | NLeaf _ _ => Err EInvalidNodeType
  end.
(** src/sumtree/node.rs:253-258 get_weight *)
Definition get_weight (n : tnode) : Z :=
  match n_type n with NInternal _ _ _ w => w | NLeaf _ _ => 1 end.
(** src/sumtree/node.rs:267-275 set_weight *)
Definition set_weight (n : tnode) (x : Z) : res tnode :=
  match n_type n with
  | NInternal a lo hi _ => Ok (n_set_type n (NInternal a lo hi x))
  | NLeaf _ _ => Err EInvalidNodeType
  end.
(** src/sumtree/node.rs:282-287 get_value *)
Definition get_value (n : tnode) : Z :=
  match n_type n with NLeaf v _ => v | NInternal a _ _ _ => a end.

(** src/sumtree/node.rs:213-216 in_or_below_range *)
Definition in_or_below_range (self node : tnode) : res bool :=
  let? m := get_max_range node in Ok (get_min_range self <? m).
(** src/sumtree/node.rs:218-221 in_or_above_range *)
Definition in_or_above_range (self node : tnode) : res bool :=
  Ok (get_min_range node <=? get_min_range self).
(** src/sumtree/node.rs:223-231 below_range *)
Definition below_range (self node : tnode) : res bool :=
  let? m := get_max_range self in Ok (m <=? get_min_range node).
(** src/sumtree/node.rs:233-241 above_range *)
Definition above_range (self node : tnode) : res bool :=
  let? m := get_max_range node in Ok (m <=? get_min_range self).

(** src/sumtree/node.rs:301-356 sync_range_and_value *)
Definition sync_range_and_value (self : tnode) : M storage tnode :=
  let! _ := mensure (is_internal self) EInvalidNodeType in
  let! maybe_left := mread (fun s => get_left s self) in
  let! maybe_right := mread (fun s => get_right s self) in
  if negb (has_child self) then mret self
  else
    let! mm := mlift
      (match maybe_left, maybe_right with
       | Some l, None => let? mx := get_max_range l in Ok (get_min_range l, mx)
       | None, Some r => let? mx := get_max_range r in Ok (get_min_range r, mx)
       | Some l, Some r =>
           let? lm := get_max_range l in
           let? rm := get_max_range r in
           Ok (Z.min (get_min_range l) (get_min_range r), Z.max lm rm)
       | None, None => Panic (* unwrap on None, node.rs:321 *)
       end) in
    let! self := mlift (set_min_range self (fst mm)) in
    let! self := mlift (set_max_range self (snd mm)) in
    let lv := unwrap_or (option_map get_value maybe_left) 0 in
    let rv := unwrap_or (option_map get_value maybe_right) 0 in
    let! v := mlift (checked_add256 lv rv) in
    let! self := mlift (set_value self v) in
    let lw := unwrap_or (option_map get_weight maybe_left) 0 in
    let rw := unwrap_or (option_map get_weight maybe_right) 0 in
    (* [weight + 1] panics on u64 overflow *)
    let! w := mlift (if Z.max lw rw + 1 <=? U64_MAX then Ok (Z.max lw rw + 1) else Panic) in
    let! self := mlift (set_weight self w) in
    let! _ := node_save self in
    mret self.

(** src/sumtree/node.rs:541-596 split; returns (self, new_node, id) *)
Definition node_split (self new : tnode) : M storage (tnode * tnode * Z) :=
  let! _ := mensure (negb (is_internal self)) EInvalidNodeType in
  let! id := generate_node_id (n_tick self) in
  let! acc := mlift (checked_add256 (get_value self) (get_value new)) in
  let! lr := mlift
    (let? below := below_range self new in
     if below then Ok (n_key self, n_key new)
     else
       let? above := above_range self new in
       if above then Ok (n_key new, n_key self)
       else Err ENodeInsertionError) in
  let! new_max := mlift
    (let? a := get_max_range new in let? b := get_max_range self in Ok (Z.max a b)) in
  let new_min := Z.min (get_min_range new) (get_min_range self) in
  let p := new_node (n_tick self) (n_dir self) id (NInternal acc new_min new_max 0) in
  let! p := mlift (set_weight p 2) in
  let p := n_set_parent p (n_parent self) in
  let p := n_set_left p (Some (fst lr)) in
  let p := n_set_right p (Some (snd lr)) in
  let self := n_set_parent self (Some id) in
  let new := n_set_parent new (Some id) in
  let! _ := node_save p in
  let! _ := node_save self in
  let! _ := node_save new in
  mret (self, new, id).

(** Rust [u64 as i32]: keep the low 32 bits, two's complement. *)
Definition as_i32 (x : Z) : Z := (x + 2 ^ 31) mod 2 ^ 32 - 2 ^ 31.

(** src/sumtree/node.rs:628-632 get_balance_factor (right - left).  The i32
    subtraction cannot leave the i32 range for weights below 2^31 (the proofs show
    heights stay far below). *)
Definition get_balance_factor (s : storage) (n : tnode) : Z :=
  let lw := unwrap_or (option_map get_weight (get_left s n)) 0 in
  let rw := unwrap_or (option_map get_weight (get_right s n)) 0 in
  as_i32 rw - as_i32 lw.

Definition opt_is (k : Z) (o : option Z) : bool :=
  match o with Some x => x =? k | None => false end.

(** src/sumtree/node.rs:700-759 rotate_right *)
Definition rotate_right (self : tnode) : M storage tnode :=
  let! maybe_parent := mread (fun s => get_parent s self) in
  let is_left_child :=
    match maybe_parent with Some p => opt_is (n_key self) (n_left p) | None => false end in
  let is_right_child :=
    match maybe_parent with Some p => opt_is (n_key self) (n_right p) | None => false end in
  let! maybe_left := mread (fun s => get_left s self) in
  let! lc := mlift (ok_or maybe_left EInvalidNodeType) in
  let lc := n_set_parent lc (n_parent self) in
  let self := n_set_parent self (Some (n_key lc)) in
  let self := n_set_left self (n_right lc) in
  let! nl := mread (fun s => get_left s self) in
  let! _ := (match nl with
             | Some c => node_save (n_set_parent c (Some (n_key self)))
             | None => mret tt
             end) in
  let lc := n_set_right lc (Some (n_key self)) in
  let! _ := node_save lc in
  let! _ := node_save self in
  let! _ := (match n_parent lc with
             | None => mmod (fun s => set_tree (<[(n_tick lc, n_dir lc) := n_key lc]> (s_tree s)) s)
             | Some _ => mret tt
             end) in
  let! self := sync_range_and_value self in
  let! lc := sync_range_and_value lc in
  let! _ := (match is_left_child, maybe_parent with
             | true, Some p => node_save (n_set_left p (Some (n_key lc)))
             | _, _ => mret tt
             end) in
  let! _ := (match is_right_child, maybe_parent with
             | true, Some p => node_save (n_set_right p (Some (n_key lc)))
             | _, _ => mret tt
             end) in
  mret self.

(** src/sumtree/node.rs:766-826 rotate_left *)
Definition rotate_left (self : tnode) : M storage tnode :=
  let! maybe_parent := mread (fun s => get_parent s self) in
  let is_left_child :=
    match maybe_parent with Some p => opt_is (n_key self) (n_left p) | None => false end in
  let is_right_child :=
    match maybe_parent with Some p => opt_is (n_key self) (n_right p) | None => false end in
  let! maybe_right := mread (fun s => get_right s self) in
  let! rc := mlift (ok_or maybe_right EInvalidNodeType) in
  let rc := n_set_parent rc (n_parent self) in
  let self := n_set_parent self (Some (n_key rc)) in
  let self := n_set_right self (n_left rc) in
  let! nr := mread (fun s => get_right s self) in
  let! _ := (match nr with
             | Some c => node_save (n_set_parent c (Some (n_key self)))
             | None => mret tt
             end) in
  let rc := n_set_left rc (Some (n_key self)) in
  let! _ := node_save rc in
  let! _ := node_save self in
  let! _ := (match n_parent rc with
             | None => mmod (fun s => set_tree (<[(n_tick rc, n_dir self) := n_key rc]> (s_tree s)) s)
             | Some _ => mret tt
             end) in
  let! self := sync_range_and_value self in
  let! rc := sync_range_and_value rc in
  let! _ := (match is_left_child, maybe_parent with
             | true, Some p => node_save (n_set_left p (Some (n_key rc)))
             | _, _ => mret tt
             end) in
  let! _ := (match is_right_child, maybe_parent with
             | true, Some p => node_save (n_set_right p (Some (n_key rc)))
             | _, _ => mret tt
             end) in
  mret self.

(** src/sumtree/node.rs:639-693 rebalance *)
Definition rebalance (self : tnode) : M storage tnode :=
  let! self := node_sync self in
  let! _ := mensure (is_internal self) EInvalidNodeType in
  let! _ := mensure (has_child self) EChildlessInternalNode in
  let! bf := mread (fun s => get_balance_factor s self) in
  if Z.abs bf <=? 1 then sync_range_and_value self
  else
    let! maybe_left := mread (fun s => get_left s self) in
    let! maybe_right := mread (fun s => get_right s self) in
    let is_right_leaning := 0 <? bf in
    let is_left_leaning := bf <? 0 in
    let! rbf := mread (fun s => unwrap_or (option_map (get_balance_factor s) maybe_right) 0) in
    let! lbf := mread (fun s => unwrap_or (option_map (get_balance_factor s) maybe_left) 0) in
    if is_right_leaning && (0 <=? rbf) then rotate_left self
    else if is_left_leaning && (lbf <=? 0) then rotate_right self
    else if is_right_leaning && (rbf <? 0) then
      match maybe_right with
      | None => mlift Panic
      | Some r =>
          let! _ := rotate_right r in
          let! self := node_sync self in
          rotate_left self
      end
    else if is_left_leaning && (0 <? lbf) then
      match maybe_left with
      | None => mlift Panic
      | Some l =>
          let! _ := rotate_left l in
          let! self := node_sync self in
          rotate_right self
      end
    else mret self.

(** [Option::map_or(false, f)] for a fallible [f]. *)
Definition map_or_false (o : option tnode) (f : tnode -> res bool) : res bool :=
  match o with Some n => f n | None => Ok false end.

(** src/sumtree/node.rs:375-518 insert; recursion on fuel; returns (self, new_node) *)
Fixpoint node_insert (fuel : nat) (self new : tnode) : M storage (tnode * tnode) :=
  match fuel with
  | O => mlift NoFuel
  | S fuel =>
    let! _ := mensure (is_internal self) EInvalidNodeType in
    let! _ := mensure (negb (is_internal new)) EInvalidNodeType in
    let! maybe_left := mread (fun s => get_left s self) in
    let! maybe_right := mread (fun s => get_right s self) in
    let! _ := mensure (negb (match maybe_left, maybe_right with
                             | None, Some _ => true | _, _ => false end)) EInvalidSumtree in
    let is_left_internal :=
      match maybe_left with Some l => is_internal l | None => false end in
    let is_right_internal :=
      match maybe_right with Some r => is_internal r | None => false end in
    let left_is_leaf :=
      match maybe_left with Some l => negb is_left_internal | None => false end in
    let right_is_leaf :=
      match maybe_right with Some r => negb is_right_internal | None => false end in
    let! is_in_left_range := mlift (map_or_false maybe_left (in_or_below_range new)) in
    let! is_in_right_range := mlift (map_or_false maybe_right (in_or_above_range new)) in
    let! is_less_than_left := mlift (map_or_false maybe_left (below_range new)) in
    match maybe_left, maybe_right with
    | Some lc, _ =>
      (* Case 1 *)
      if is_left_internal && is_in_left_range then
        let! _ := node_save self in
        let! r := node_insert fuel lc new in
        let! self := rebalance self in
        mret (self, snd r)
      else
      match maybe_right with
      | Some rc =>
        (* Case 2 *)
        if is_right_internal && is_in_right_range then
          let! _ := node_save self in
          let! r := node_insert fuel rc new in
          let! self := rebalance self in
          mret (self, snd r)
        (* Case 3 *)
        else if is_right_internal && is_left_internal then
          let! _ := node_save self in
          let! r := node_insert fuel lc new in
          let! self := rebalance self in
          mret (self, snd r)
        (* Case 4 *)
        else if left_is_leaf && negb is_in_right_range then
          let! r := node_split lc new in
          let self := n_set_left self (Some (snd r)) in
          let! _ := node_save self in
          let! self := rebalance self in
          mret (self, snd (fst r))
        (* Case 5 *)
        else if right_is_leaf && negb is_in_left_range then
          let! r := node_split rc new in
          let self := n_set_right self (Some (snd r)) in
          let! _ := node_save self in
          let! self := rebalance self in
          mret (self, snd (fst r))
        else mlift (Err ENodeInsertionError)
      | None =>
        (* Case 6 *)
        if is_less_than_left then
          let self := n_set_right self (n_left self) in
          let self := n_set_left self (Some (n_key new)) in
          let new := n_set_parent new (Some (n_key self)) in
          let! _ := node_save new in
          let! _ := node_save self in
          let! self := rebalance self in
          mret (self, new)
        (* Case 8 *)
        else
          let self := n_set_right self (Some (n_key new)) in
          let new := n_set_parent new (Some (n_key self)) in
          let! _ := node_save new in
          let! _ := node_save self in
          let! self := rebalance self in
          mret (self, new)
      end
    | None, _ =>
      (* Case 7 (the guard above excludes a lone right child) *)
      let self := n_set_left self (Some (n_key new)) in
      let new := n_set_parent new (Some (n_key self)) in
      let! _ := node_save new in
      let! _ := node_save self in
      let! self := rebalance self in
      mret (self, new)
    end
  end.

(** Fuel used for recursion over the store: more than the number of stored nodes. *)
Definition tree_fuel (s : storage) : nat := S (S (size (s_nodes s))).

(** [tree.insert(storage, new_node)] as called from outside. *)
Definition tree_insert (self new : tnode) : M storage (tnode * tnode) :=
  fun s => node_insert (tree_fuel s) self new s.

(** src/sumtree/tree.rs:11-18 get_root_node *)
Definition get_root_node (s : storage) (tick : Z) (d : dir) : res tnode :=
  let? root_id := ok_or (s_tree s !! (tick, d)) EStd in
  ok_or (s_nodes s !! (tick, root_id)) EStd.

(** src/sumtree/tree.rs:23-41 get_or_init_root_node.
    Note that a freshly initialised root is recorded in TREE but not in NODES. *)
Definition get_or_init_root_node (tick : Z) (d : dir) : M storage tnode :=
  let! r := mread (fun s => get_root_node s tick d) in
  match r with
  | Ok tree => mret tree
  | _ =>
    let! id := generate_node_id tick in
    let root := new_node tick d id ntype_default in
    let! _ := mmod (fun s => set_tree (<[(tick, d) := n_key root]> (s_tree s)) s) in
    mret root
  end.

(** src/sumtree/tree.rs:68-212 prefix_sum_walk *)
Fixpoint prefix_sum_walk (fuel : nat) (s : storage) (node : tnode)
         (current_sum target_etas prev_sum : Z) : res Z :=
  match fuel with
  | O => NoFuel
  | S fuel =>
    if target_etas <? get_min_range node then Ok 0
    else
      let? mx := get_max_range node in
      if mx <=? target_etas then Ok current_sum
      else if negb (is_internal node) then Ok current_sum
      else
        let left_child := get_left s node in
        let right_child := get_right s node in
        (* resync condition, tree.rs:111-146; [Some etas] = walk right with that ETAS *)
        let? resync :=
          match left_child, right_child with
          | Some l, Some r =>
              let? sum_at_node := checked_sub current_sum (get_value node) in
              let diff_at_node := saturating_sub prev_sum sum_at_node in
              let unrealized_from_left := saturating_sub (get_value l) diff_at_node in
              let? new_etas := checked_add256 target_etas unrealized_from_left in
              if get_min_range r <=? new_etas then Ok (Some (r, new_etas)) else Ok None
          | _, _ => Ok None
          end in
        match resync with
        | Some (r, new_etas) => prefix_sum_walk fuel s r current_sum new_etas prev_sum
        | None =>
          (* attempt walk left, tree.rs:155-178 *)
          let? walk_left :=
            match left_child with
            | Some l =>
                if target_etas <? get_min_range l then Ok (Some (Ok 0))
                else
                  let? lmx := get_max_range l in
                  if target_etas <? lmx then
                    let right_sum := unwrap_or (option_map get_value right_child) 0 in
                    let? cs := checked_sub current_sum right_sum in
                    Ok (Some (prefix_sum_walk fuel s l cs target_etas prev_sum))
                  else Ok None
            | None => Ok None
            end in
          match walk_left with
          | Some r => r
          | None =>
            (* attempt walk right, tree.rs:184-211 *)
            match right_child with
            | None => Ok current_sum
            | Some r =>
                if target_etas <? get_min_range r then checked_sub current_sum (get_value r)
                else
                  let? rmx := get_max_range r in
                  if target_etas <=? rmx then
                    prefix_sum_walk fuel s r current_sum target_etas prev_sum
                  else Ok current_sum
            end
          end
        end
  end.

(** src/sumtree/tree.rs:45-57 get_prefix_sum *)
Definition get_prefix_sum (s : storage) (root : tnode) (target_etas prev_sum : Z) : res Z :=
  prefix_sum_walk (tree_fuel s) s root (get_value root) target_etas prev_sum.
