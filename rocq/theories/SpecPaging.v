(** * Specification of paged reading while the book is in use (property C63). *)
From Verif Require Import Base Dec Types State Order Auth Contract Query World SpecMath Spec SpecProps SpecQuery.

(** An owner's orders are read in pages of [n], each request starting right after the last order
    received, until a page is empty.  Before each request other transactions may run: [batches] are the
    transactions before the first, second, ... request.  Result: the orders received, and whether the
    end was reached. *)
Fixpoint read_while (owner : string) (n : Z) (cursor : option (Z * Z)) (w : world) (batches : list (list (env * call))) : list limit_order * bool :=
  match batches with
  | [] => ([], false)
  | h :: batches =>
      let w := run w h in
      match query (w_st w) (QOrdersByOwner owner cursor None (Some n)) with
      | Ok (AOrders _ page) =>
          match last page with
          | None => ([], true)
          | Some o => let '(rest, fin) := read_while owner n (Some (o_tick o, o_id o + 1)) w batches in (page ++ rest, fin)
          end
      | _ => ([], false)
      end
  end.
(** The same for the orders at a tick, each request starting right after the last id received. *)
Fixpoint read_tick (t n : Z) (cursor : option Z) (w : world) (batches : list (list (env * call))) : list limit_order * bool :=
  match batches with
  | [] => ([], false)
  | h :: batches =>
      let w := run w h in
      match query (w_st w) (QOrdersByTick t cursor None (Some n)) with
      | Ok (AOrders _ page) =>
          match last page with
          | None => ([], true)
          | Some o => let '(rest, fin) := read_tick t n (Some (o_id o + 1)) w batches in (page ++ rest, fin)
          end
      | _ => ([], false)
      end
  end.
(** The same for the ticks of the book. *)
Fixpoint read_ticks (n : Z) (cursor : option Z) (w : world) (batches : list (list (env * call))) : list (Z * tick_state) * bool :=
  match batches with
  | [] => ([], false)
  | h :: batches =>
      let w := run w h in
      match query (w_st w) (QAllTicks cursor None (Some n)) with
      | Ok (ATicks page) =>
          match last page with
          | None => ([], true)
          | Some x => let '(rest, fin) := read_ticks n (Some (fst x + 1)) w batches in (page ++ rest, fin)
          end
      | _ => ([], false)
      end
  end.
