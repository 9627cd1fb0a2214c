(** * SpecBank: vocabulary for transfers and donations. *)
From Verif Require Import Base Dec Types State Order Contract World SpecMath Spec SpecProps.

(** Amount of [denom] that a list of transfers takes away from [self]. *)
Definition leaving (self : string) (l : list submsg) (denom : string) : Z :=
  foldr (fun m acc => (if bool_decide (c_denom (sm_coin m) = denom /\ sm_to m <> self) then c_amount (sm_coin m) else 0) + acc) 0 l.
(** The bank carries out a transfer: positive amount, recipient not blocked (funds aside). *)
Definition transferable (e : env) (m : submsg) : Prop := 0 < c_amount (sm_coin m) /\ e_bank_ok e (sm_to m) = true.
(** Plain bank transfers to the contract's address, which bypass its code. *)
Definition is_donation (c : call) : bool := match c with CDonate _ => true | _ => false end.
Definition without_donations (h : list (env * call)) : list (env * call) :=
  List.filter (fun ec => negb (is_donation (snd ec))) h.
Definition donated (h : list (env * call)) (denom : string) : Z :=
  foldr (fun ec acc => match snd ec with CDonate c => if bool_decide (c_denom c = denom) then c_amount c else 0 | _ => 0 end + acc) 0 h.
(** Outcomes of the calls of a history that are not donations. *)
Fixpoint outcomes (w : world) (h : list (env * call)) : list outcome :=
  match h with
  | [] => []
  | (e, c) :: h => (if is_donation c then [] else [snd (step e w c)]) ++ outcomes (fst (step e w c)) h
  end.
