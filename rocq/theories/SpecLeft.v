(** * SpecLeft: what the orders of a side still offer, as clients see it (property C79). *)
From Verif Require Import Base Dec Types State Contract Query World SpecProps SpecClean.

(** What the order under a key still offers: its remaining quantity less what can be claimed of it; 0 if there is no such order. *)
Definition still_offered (s : storage) (k : Z * Z) : Z :=
  match s_orders s !! k with
  | Some o => match claimable s o with Some n => o_quantity o - n | None => 0 end
  | None => 0
  end.
(** [l] lists, each once, the stored orders of a side, and those of a side at one tick. *)
Definition lists_side (s : storage) (side : dir) (l : list (Z * Z)) : Prop :=
  NoDup l /\ forall k, k ∈ l <-> exists o, s_orders s !! k = Some o /\ o_dir o = side.
Definition lists_tick (s : storage) (t : Z) (side : dir) (l : list (Z * Z)) : Prop :=
  NoDup l /\ forall k, k ∈ l <-> exists o, s_orders s !! k = Some o /\ o_dir o = side /\ o_tick o = t.
Definition sum_keys (f : Z * Z -> Z) (l : list (Z * Z)) : Z := foldr (fun k acc => f k + acc) 0 l.
