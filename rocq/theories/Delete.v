(** * Delete: the node deletion of src/sumtree/node.rs.

    It is a public function of the tree, but no entry point of the contract calls it (only its tests
    do).  As in Sumtree.v, a [&mut self] method on an in-memory copy returns the new copy, and recursion
    takes fuel. *)
From Verif Require Import Base Dec Types State Sumtree.

(** src/sumtree/node.rs:289-296 sync_range_and_value_up *)
Fixpoint sync_range_and_value_up (fuel : nat) (self : tnode) : M storage unit :=
  match fuel with
  | O => mlift NoFuel
  | S fuel =>
      let! self := sync_range_and_value self in
      let! parent := mread (fun s => get_parent s self) in
      match parent with
      | Some p => sync_range_and_value_up fuel p
      | None => mret tt
      end
  end.
(** NODES.remove(storage, &(self.tick_id, self.key)) *)
Definition node_remove (n : tnode) : M storage unit :=
  mmod (fun s => set_nodes (delete (n_tick n, n_key n) (s_nodes s)) s).
(** src/sumtree/node.rs:598-623 delete *)
Fixpoint node_delete (fuel : nat) (self : tnode) : M storage unit :=
  match fuel with
  | O => mlift NoFuel
  | S fuel =>
      let! parent := mread (fun s => get_parent s self) in
      let! _ :=
        match parent with
        | Some p =>
            let p := if opt_is (n_key self) (n_left p) then n_set_left p None
                     else if opt_is (n_key self) (n_right p) then n_set_right p None
                     else p in
            if negb (has_child p) then node_delete fuel p
            else sync_range_and_value_up fuel p
        | None => mret tt
        end in
      node_remove self
  end.
