(** * SpecClean: what a client can work out from the queries about fills, and when a tick is clean (properties C76, C77). *)
From Verif Require Import Base Dec Types State TickMath Tick Contract Query World SpecMath Spec SpecProps.

(** What a client sees of one tick and direction: the fields of AllTicks, and the amount of GetUnrealizedCancels (the client's
    requests: AllTicks from the tick on, one entry; GetUnrealizedCancels for the tick). *)
Definition seen (s : storage) (t : Z) (d : dir) : option (tick_values * Z) :=
  match query s (QAllTicks (Some t) None (Some 1)), query s (QGetUnrealizedCancels [t]) with
  | Ok (ATicks [(t', ts)]), Ok (AUnrealized [(t'', (ask, bid))]) =>
      if (t' =? t) && (t'' =? t) then Some (get_values ts d, match d with Ask => ask | Bid => bid end) else None
  | _, _ => None
  end.
(** The claimable amount of an order as the end-to-end tests work it out
    (src/tests/e2e/test_env.rs:393-439, get_order_claimable_amount): the fill position the tick would have after a
    synchronisation, less the order's own start, no less than 0, in whole units, and no more than the order's quantity. *)
Definition claimable (s : storage) (o : limit_order) : option Z :=
  match seen s (o_tick o) (o_dir o) with
  | Some (v, u) => Some (Z.min (floor_div (Z.max 0 (tv_etas v + u - o_etas o)) ATOM) (o_quantity o))
  | None => None
  end.
(** A tick is clean in a direction (src/tests/e2e/utils.rs:330-375, clean_ticks): nothing on offer, and the fill position it would
    have after a synchronisation is the total ever placed. *)
Definition clean (s : storage) (t : Z) (d : dir) : Prop :=
  exists v u, seen s t d = Some (v, u) /\ tv_tal v = 0 /\ tv_etas v + u = tv_ctt v.
