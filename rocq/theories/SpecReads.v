(** * Specification of what a call depends on (property C69). *)
From Verif Require Import Base Dec Types State Order Auth Contract World SpecCost.

(** Two storages that hold the same in the entries of a set (see SpecCost.v for the entries). *)
Definition agree_on (P : cell -> Prop) (s s' : storage) : Prop := forall c, P c -> same_cell s s' c.
(** Going from [s] to [t] and from [s'] to [t'] does the same: every entry either ends up the same, or is left alone by both. *)
Definition same_effect (s s' t t' : storage) : Prop :=
  forall c, same_cell t t' c \/ (same_cell s t c /\ same_cell s' t' c).
(** Run on another storage, the call has the same outcome (the same response or a failure), moves the same coins and writes the same values. *)
Definition same_run (e : env) (w : world) (c : call) (s' : storage) : Prop :=
  let w' := mkWorld (w_self w) s' (w_bal w) in
  snd (step e w' c) = snd (step e w c) /\
  w_bal (fst (step e w' c)) = w_bal (fst (step e w c)) /\
  same_effect (w_st w) s' (w_st (fst (step e w c))) (w_st (fst (step e w' c))).
(** The call depends on no other entries than those of the set: whatever the others hold, it runs the same. *)
Definition depends_on (P : cell -> Prop) (e : env) (w : world) (c : call) : Prop :=
  forall s', agree_on P (w_st w) s' -> same_run e w c s'.
(** ... on at most [n] entries. *)
Definition looks_at (n : Z) (e : env) (w : world) (c : call) : Prop :=
  exists cells : list cell, Z.of_nat (length cells) <= n /\ depends_on (fun x => x ∈ cells) e w c.
(** The same when the set of known ticks is given (a swap looks through the known ticks in the order of their numbers). *)
Definition depends_on_given_ticks (P : cell -> Prop) (e : env) (w : world) (c : call) : Prop :=
  forall s', (forall t, is_Some (s_ticks s' !! t) <-> is_Some (s_ticks (w_st w) !! t)) -> agree_on P (w_st w) s' -> same_run e w c s'.
(** The entries a swap against the maker side [m] may depend on: the switch, the book, the total of that side, and the known ticks of that side
    between the tick pointer and the target. *)
Definition swap_cells (s : storage) (m : dir) (target : option Z) (c : cell) : Prop :=
  match c with
  | CActive | COrderbook => True
  | CLiquidity d => d = m
  | CTick t => exists ob, s_orderbook s = Some ob /\
      match m with
      | Ask => ob_next_ask ob <= t /\ forall b, target = Some b -> t <= b
      | Bid => t <= ob_next_bid ob /\ forall b, target = Some b -> b <= t
      end
  | _ => False
  end.
