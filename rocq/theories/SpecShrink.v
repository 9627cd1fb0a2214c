(** * SpecShrink: a stretch of history in which nobody places orders on one side of the book (property C78). *)
From Verif Require Import Base Types State Order Contract World.

Definition no_placements (side : dir) (h : list (env * call)) : Prop :=
  Forall (fun ec => match snd ec with CExec _ (PlaceLimit _ d _ _) => d <> side | _ => True end) h.
