(** * SpecLife: what an order earned over its whole life. *)
From Verif Require Import Base Dec Types State Order Contract World SpecMath Spec SpecProps.

(** All claims of order [id] of tick [t] announced in a history, oldest first. *)
Definition claims_of (t id : Z) (w : world) (h : list (env * call)) : list claim_event :=
  List.filter (fun ev => (ce_tick ev =? t) && (ce_id ev =? id)) (collect r_events w h).
(** What its owner was sent by them, in total. *)
Definition earned (l : list claim_event) : Z := foldr (fun ev acc => ce_amount_claimed ev + acc) 0 l.
(** The order's price as a fraction: one filled unit of an ask earns price/ATOM quote units,
    one of a bid earns ATOM/price base units. *)
Definition rate_num (d : dir) (t : Z) : Z := match d with Ask => tick_price t | Bid => ATOM end.
Definition rate_den (d : dir) (t : Z) : Z := match d with Ask => ATOM | Bid => tick_price t end.
(** [x] is what [q] filled units are worth at the order's price, less at most 6 percent (5 maker
    fee, 1 bounty) and less than one unit of rounding for each of the [n] claims. *)
Definition fair (d : dir) (t q n x : Z) : Prop :=
  x * rate_den d t <= q * rate_num d t /\
  94 * (q * rate_num d t - n * rate_den d t) <= 100 * (x * rate_den d t).
