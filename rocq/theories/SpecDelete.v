(** * Specification of node deletion (property C64): trees in which inner nodes have one or two children. *)
From Verif Require Import Base Types State Sumtree.

Inductive gtree : Type :=
| GLeaf (k start len : Z)
| GLeft (k : Z) (l : gtree)         (* inner node with a left child only *)
| GRight (k : Z) (r : gtree)        (* ... right child only *)
| GBoth (k : Z) (l r : gtree).
Definition gkey (g : gtree) : Z := match g with GLeaf k _ _ => k | GLeft k _ => k | GRight k _ => k | GBoth k _ _ => k end.
(** Keys of all nodes; leaves from left to right, with their keys. *)
Fixpoint gkeys (g : gtree) : list Z :=
  match g with GLeaf k _ _ => [k] | GLeft k l => k :: gkeys l | GRight k r => k :: gkeys r | GBoth k l r => k :: gkeys l ++ gkeys r end.
Fixpoint gleaves (g : gtree) : list (Z * (Z * Z)) :=
  match g with GLeaf k start len => [(k, (start, len))] | GLeft _ l => gleaves l | GRight _ r => gleaves r | GBoth _ l r => gleaves l ++ gleaves r end.
(** Sum of the lengths, least start, greatest end, number of levels. *)
Fixpoint gtotal (g : gtree) : Z :=
  match g with GLeaf _ _ len => len | GLeft _ l => gtotal l | GRight _ r => gtotal r | GBoth _ l r => gtotal l + gtotal r end.
Fixpoint gstart (g : gtree) : Z :=
  match g with GLeaf _ start _ => start | GLeft _ l => gstart l | GRight _ r => gstart r | GBoth _ l r => Z.min (gstart l) (gstart r) end.
Fixpoint gend (g : gtree) : Z :=
  match g with GLeaf _ start len => len + start | GLeft _ l => gend l | GRight _ r => gend r | GBoth _ l r => Z.max (gend l) (gend r) end.
Fixpoint glevels (g : gtree) : Z :=
  match g with GLeaf _ _ _ => 1 | GLeft _ l => glevels l + 1 | GRight _ r => glevels r + 1 | GBoth _ l r => Z.max (glevels l) (glevels r) + 1 end.
(** The record of the topmost node, with parent [p]. *)
Definition grecord (t : Z) (d : dir) (p : option Z) (g : gtree) : tnode :=
  let inner k kl kr := mkNode k t d kl kr p (NInternal (gtotal g) (gstart g) (gend g) (glevels g)) in
  match g with
  | GLeaf k start len => mkNode k t d None None p (NLeaf len start)
  | GLeft k l => inner k (Some (gkey l)) None
  | GRight k r => inner k None (Some (gkey r))
  | GBoth k l r => inner k (Some (gkey l)) (Some (gkey r))
  end.
(** All nodes of [g] are stored, with right numbers and links. *)
Fixpoint stored (m : gmap (Z * Z) tnode) (t : Z) (d : dir) (p : option Z) (g : gtree) : Prop :=
  m !! (t, gkey g) = Some (grecord t d p g) /\
  match g with
  | GLeaf _ _ _ => True
  | GLeft k c | GRight k c => stored m t d (Some k) c
  | GBoth k l r => stored m t d (Some k) l /\ stored m t d (Some k) r
  end.
(** The tree without the leaf [k]; inner nodes without children disappear. *)
Fixpoint prune (k : Z) (g : gtree) : option gtree :=
  match g with
  | GLeaf k' _ _ => if k' =? k then None else Some g
  | GLeft i l => option_map (GLeft i) (prune k l)
  | GRight i r => option_map (GRight i) (prune k r)
  | GBoth i l r =>
      match prune k l, prune k r with
      | Some l, Some r => Some (GBoth i l r)
      | Some l, None => Some (GLeft i l)
      | None, Some r => Some (GRight i r)
      | None, None => None
      end
  end.
Definition all_leaves (g : option gtree) : list (Z * (Z * Z)) := match g with Some g => gleaves g | None => [] end.
Definition all_keys (g : option gtree) : list Z := match g with Some g => gkeys g | None => [] end.
