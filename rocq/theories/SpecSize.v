(** * SpecSize: vocabulary for the statements about what the contract keeps in storage (C67). *)
From Verif Require Import Base Dec Types State Sumtree Tick Order Contract World SpecMath Spec SpecProps SpecTree.

(** Node [k] of tick [t] is reached from node [root] by following child pointers of stored nodes. *)
Inductive linked (s : storage) (t root : Z) : Z -> Prop :=
| lk_root : is_Some (s_nodes s !! (t, root)) -> linked s t root root
| lk_child p n k :
    linked s t root p -> s_nodes s !! (t, p) = Some n -> n_left n = Some k \/ n_right n = Some k ->
    is_Some (s_nodes s !! (t, k)) -> linked s t root k.
(** The nodes stored for a tick and direction. *)
Definition nodes_at (s : storage) (t : Z) (d : dir) : gmap (Z * Z) tnode :=
  filter (fun kn => kn.1.1 = t /\ n_dir kn.2 = d) (s_nodes s).
(** How many nodes a tree over [n] cancelled ranges has. *)
Definition nodes_for (n : nat) : nat := match n with O => 0 | S O => 2 | S (S _ as m) => 2 * n - 1 end%nat.
(** The successful CancelLimit calls of a history. *)
Fixpoint cancels (w : world) (h : list (env * call)) : nat :=
  match h with
  | [] => 0
  | (e, c) :: h =>
      match c, snd (step e w c) with CExec _ (CancelLimit _ _), Done _ => 1 | _, _ => 0 end + cancels (fst (step e w c)) h
  end%nat.
