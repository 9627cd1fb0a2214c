(** * SpecTree: vocabulary for the statements about the cancellation trees and the fill position.

    Ranges are pairs (start, length) in 10^-18 units. *)
From Verif Require Import Base Dec Types State Sumtree Tick Order Contract World SpecMath Spec SpecProps.

(** ** Lists of ranges *)
Definition ranges_total (L : list (Z * Z)) : Z := foldr (fun p acc => p.2 + acc) 0 L.
Definition ranges_start (L : list (Z * Z)) : Z := match L with p :: _ => p.1 | [] => 0 end.
Definition ranges_end (L : list (Z * Z)) : Z := match last L with Some p => p.1 + p.2 | None => 0 end.
(** Ascending, non-overlapping, not empty ranges at positions >= 0. *)
Definition ascending (L : list (Z * Z)) : Prop :=
  StronglySorted (fun a b : Z * Z => a.1 + a.2 <= b.1) L /\ Forall (fun p : Z * Z => 0 <= p.1 /\ 0 < p.2) L.
(** Greedy realisation: walk the ranges in order; a range is realised if it does not start beyond the
    amount filled plus everything realised before it, and the first that is not ends the walk. *)
Fixpoint greedy (filled realised : Z) (L : list (Z * Z)) : Z :=
  match L with
  | [] => realised
  | p :: L => if p.1 <=? filled + realised then greedy filled (realised + p.2) L else realised
  end.

(** ** Stored trees *)
(** Node [k] of tick [t] and direction [d], with parent pointer [p], is the root of a well-formed subtree
    of the stored nodes, whose leaves from left to right are the ranges [L], and whose height is [h]. *)
Inductive subtree (s : storage) (t : Z) (d : dir) : option Z -> Z -> list (Z * Z) -> Z -> Prop :=
| st_leaf p k start len :
    s_nodes s !! (t, k) = Some (mkNode k t d None None p (NLeaf len start)) ->
    subtree s t d p k [(start, len)] 1
| st_inner p k kl kr L1 L2 h1 h2 :
    s_nodes s !! (t, k) = Some (mkNode k t d (Some kl) (Some kr) p
      (NInternal (ranges_total (L1 ++ L2)) (ranges_start (L1 ++ L2)) (ranges_end (L1 ++ L2)) (Z.max h1 h2 + 1))) ->
    subtree s t d (Some k) kl L1 h1 -> subtree s t d (Some k) kr L2 h2 ->
    -1 <= h2 - h1 <= 1 ->
    subtree s t d p k (L1 ++ L2) (Z.max h1 h2 + 1).
(** The whole tree of a tick and direction: nothing stored; a root over a single leaf (the only
    node that may have one child); or a balanced tree. *)
Inductive holds_tree (s : storage) (t : Z) (d : dir) : list (Z * Z) -> Z -> Prop :=
| ht_none : (forall k, s_tree s !! (t, d) = Some k -> s_nodes s !! (t, k) = None) -> holds_tree s t d [] 0
| ht_one k kl start len :
    s_tree s !! (t, d) = Some k ->
    s_nodes s !! (t, k) = Some (mkNode k t d (Some kl) None None (NInternal len start (start + len) 2)) ->
    subtree s t d (Some k) kl [(start, len)] 1 ->
    holds_tree s t d [(start, len)] 2
| ht_full k L h :
    s_tree s !! (t, d) = Some k -> (2 <= length L)%nat -> subtree s t d None k L h -> holds_tree s t d L h.

Fixpoint fibonacci (n : nat) : Z :=
  match n with O => 0 | S n' => match n' with O => 1 | S n'' => fibonacci n' + fibonacci n'' end end.

(** ** What happened at a tick *)
(** Ranges of the orders cancelled in a history at tick [t], direction [d]: the place in the queue
    recorded with the order, and what was left of it, just before the successful CancelLimit. *)
Fixpoint cancelled (w : world) (h : list (env * call)) (t : Z) (d : dir) : list (Z * Z) :=
  match h with
  | [] => []
  | (e, c) :: h =>
      match c, snd (step e w c) with
      | CExec _ (CancelLimit t' id), Done _ =>
          match order_of (w_st w) t' id with
          | Some o => if bool_decide (t' = t /\ o_dir o = d) then [(o_etas o, o_quantity o * ATOM)] else []
          | None => []
          end
      | _, _ => []
      end ++ cancelled (fst (step e w c)) h t d
  end.
(** Totals of the ideal book at a tick and direction. *)
Definition sum_at (f : entry -> Z) (Q : ideal) (t : Z) (d : dir) : Z :=
  ideal_sum (fun e => if bool_decide (en_tick e = t /\ en_dir e = d) then f e else 0) Q.

(** ** Synchronisation *)
(** One direction of a tick after synchronising it with its own fill position: nothing happens if the
    fill position is the one of the last synchronisation; otherwise the realised cancels become the
    greedy realisation of the cancelled ranges [L] and the fill position advances by the difference. *)
Definition sync_values (v : tick_values) (L : list (Z * Z)) : tick_values :=
  if tv_last v =? tv_etas v then v
  else let filled := tv_etas v - tv_crc v in
       mkTV (tv_tal v) (tv_ctt v) (filled + greedy filled 0 L) (greedy filled 0 L) (tv_etas v).
(** Synchronise tick [t] at its present fill positions (as every cancel and claim does first). *)
Definition sync_now (t : Z) (s : storage) : storage * res unit :=
  sync_tick t (tv_etas (side_values s t Bid)) (tv_etas (side_values s t Ask)) s.
(** Filled part of an order, in 10^-18 units, read off a fill position. *)
Definition filled_at (position : Z) (o : limit_order) : Z :=
  Z.max 0 (Z.min (position - o_etas o) (o_quantity o * ATOM)).
