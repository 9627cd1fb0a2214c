(** * SpecAccount: vocabulary of property C59. *)
From Coq Require Import QArith.
From Verif Require Import Base Dec Types State Order Auth Contract World SpecMath Spec SpecProps.
Local Open Scope Z_scope.

Notation rational := QArith_base.Q.
Definition rat (x : Z) : rational := inject_Z x.
(** The exact worth of [x] units of a maker order of direction [d] at tick [t], in the token it is paid in. *)
Definition worth_exact (d : dir) (t x : Z) : rational :=
  match d with Ask => rat x * rat (tick_price t) / rat ATOM | Bid => rat x * rat ATOM / rat (tick_price t) end%Q.
(** What the book owes, without any rounding, in the token that orders of direction [d] deposit: their unfilled deposits and the
    unclaimed proceeds of the orders of the other direction. *)
Definition owed_exact (B : ideal) (d : dir) : rational :=
  foldr (fun en acc => (if bool_decide (en_dir en = d) then rat (en_open en) else worth_exact (en_dir en) (en_tick en) (en_filled en)) + acc)%Q 0%Q B.
(** What the contract holds beyond that. *)
Definition surplus (w : world) (B : ideal) (d : dir) : rational := (rat (balance w (deposit_denom (w_st w) d)) - owed_exact B d)%Q.

(** Transfers of a response that the contract makes to itself (it may be the recipient of the maker fee). *)
Definition to_itself (self : string) (l : list submsg) (denom : string) : Z :=
  foldr (fun m acc => (if bool_decide (c_denom (sm_coin m) = denom /\ sm_to m = self) then c_amount (sm_coin m) else 0) + acc) 0 l.
(** Number of claims announced by a response that were paid in the token of direction [d]. *)
Definition claims_paid (r : response) (d : dir) : Z := Z.of_nat (length (List.filter (fun ev => bool_decide (ce_dir ev = opposite d)) (r_events r))).
(** Where a swap leaves something behind: nothing in the token it pays out; in the token it takes in, at every tick it used less than
    one unit of rounding (at most 10^-18 to the other side), and an amount that buys nothing at any price still on offer. *)
Definition swap_leaves_behind (s s' : storage) (out : string) (d : dir) (x : rational) : Prop :=
  exists m, out = deposit_denom s m /\ (d = m -> x == 0)%Q /\
    (d = opposite m -> exists (ticks : list Z) (kept : Z), let n := Z.of_nat (length ticks) in
       NoDup ticks /\ (forall t, t ∈ ticks <-> tick_liquidity s' t m < tick_liquidity s t m) /\
       0 <= kept /\ (0 < kept -> exists t, 0 < tick_liquidity s' t m) /\ (forall t, 0 < tick_liquidity s' t m -> buys m t kept = 0) /\
       (rat kept - rat n / rat ATOM < x /\ x < rat kept + rat n)%Q).
(** By how much a successful transaction can change the surplus. *)
Definition leaves_behind (self : string) (s s' : storage) (c : call) (r : response) (d : dir) (x : rational) : Prop :=
  match c with
  | CExec _ (PlaceLimit _ _ _ _) | CExec _ (CancelLimit _ _) => (x == 0)%Q
  | CExec _ (ClaimLimit _ _) | CExec _ (BatchClaim _) =>
      (* less than one unit per claim *)
      let own := rat (to_itself self (r_msgs r) (deposit_denom s d)) in let n := claims_paid r d in
      (own <= x)%Q /\ (if n =? 0 then x == own else x < own + rat n)%Q
  | CSudo (SwapExactAmountIn _ _ out _ _) | CSudo (SwapToTick _ _ out _ _ _) => swap_leaves_behind s s' out d x
  | _ => (x == rat (received (call_funds c) (deposit_denom s d)))%Q        (* a gift *)
  end.
(** The changes of the surplus over a history, one for each transaction. *)
Fixpoint changes (d : dir) (w : world) (h : list (env * call)) (xs : list rational) : Prop :=
  match h, xs with
  | [], [] => True
  | (e, c) :: h, x :: xs =>
      match step e w c with
      | (w', Done r) => leaves_behind (w_self w) (w_st w) (w_st w') c r d x
      | (_, Failed) => (x == 0)%Q
      end /\ changes d (fst (step e w c)) h xs
  | _, _ => False
  end.
Definition rat_sum (l : list rational) : rational := foldr Qplus 0%Q l.
