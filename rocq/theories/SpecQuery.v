(** * SpecQuery: vocabulary for the query properties. *)
From Verif Require Import Base Dec Types State Order Auth Contract Query World SpecMath Spec SpecProps.

(** Orders sorted by tick, then by id. *)
Definition key_before (a b : limit_order) : Prop := o_tick a < o_tick b \/ (o_tick a = o_tick b /\ o_id a < o_id b).
(** [l] is the list of exactly the live orders satisfying [P], each once, in that order
    (at most one list can be). *)
Definition lists (s : storage) (P : limit_order -> Prop) (l : list limit_order) : Prop :=
  StronglySorted key_before l /\ forall o, o ∈ l <-> order_of s (o_tick o) (o_id o) = Some o /\ P o.
(** Inclusive bounds on (tick, id). *)
Definition from_key (b : option (Z * Z)) (o : limit_order) : Prop :=
  match b with None => True | Some (t, i) => t < o_tick o \/ (t = o_tick o /\ i <= o_id o) end.
Definition to_key (b : option (Z * Z)) (o : limit_order) : Prop :=
  match b with None => True | Some (t, i) => o_tick o < t \/ (o_tick o = t /\ o_id o <= i) end.
Definition from (b : option Z) (x : Z) : Prop := match b with None => True | Some y => y <= x end.
Definition upto (b : option Z) (x : Z) : Prop := match b with None => True | Some y => x <= y end.
(** First [n] elements. *)
Definition first {A} (n : Z) (l : list A) : list A := firstn (Z.to_nat n) l.
(** Page length: 100 by default; of a requested length only the low 32 bits count. *)
Definition page_length (limit : option Z) : Z := match limit with None => 100 | Some n => n mod 2 ^ 32 end.

(** Reading all orders of an owner by [k] requests of [n] orders each, each starting right after the
    last order received. *)
Fixpoint pages (k : nat) (s : storage) (owner : string) (start : option (Z * Z)) (n : Z) : list limit_order :=
  match k with
  | O => []
  | S k =>
      match query s (QOrdersByOwner owner start None (Some n)) with
      | Ok (AOrders _ l) =>
          match last l with
          | Some o => l ++ pages k s owner (Some (o_tick o, o_id o + 1)) n
          | None => []
          end
      | _ => []
      end
  end.
