(** * ConfBase: running the repository's own unit tests on the model.

    The Conf*.v files replay the table-driven unit tests of /repo on the model.  They are tests of the
    model's faithfulness to the code, not proofs of properties: the tables (inputs and expected results)
    are translated from the Rust sources by tools/conform.py, the loops over them are transcribed by hand
    next to the tables.  Every example states that no case of the table disagrees with the model. *)
From Verif Require Import Base Dec Types State TickMath Sumtree Tick Order Auth Contract Query.

Global Instance order_eq_dec : EqDecision limit_order. Proof. solve_decision. Defined.
Global Instance tv_eq_dec : EqDecision tick_values. Proof. solve_decision. Defined.
Global Instance ts_eq_dec : EqDecision tick_state. Proof. solve_decision. Defined.
Global Instance book_eq_dec : EqDecision orderbook. Proof. solve_decision. Defined.
Global Instance coin_eq_dec : EqDecision coin. Proof. solve_decision. Defined.
Global Instance submsg_eq_dec : EqDecision submsg. Proof. solve_decision. Defined.
Global Instance attr_eq_dec : EqDecision attr. Proof. solve_decision. Defined.
Global Instance payment_fault_eq_dec : EqDecision payment_fault. Proof. solve_decision. Defined.
Global Instance swap_fault_eq_dec : EqDecision swap_fault. Proof. solve_decision. Defined.
Global Instance error_eq_dec : EqDecision error. Proof. solve_decision. Defined.
Global Instance ntype_eq_dec : EqDecision ntype. Proof. solve_decision. Defined.
Global Instance tnode_eq_dec : EqDecision tnode. Proof. solve_decision. Defined.

(** Boolean equality and the shapes of results. *)
Definition eqb {A} `{EqDecision A} (a b : A) : bool := bool_decide (a = b).
Definition err_is {A} (e : error) (r : res A) : bool := match r with Err e' => eqb e e' | _ => false end.
Definition ok_is {A} `{EqDecision A} (x : A) (r : res A) : bool := match r with Ok y => eqb x y | _ => false end.
Definition ok_and {A} (r : res A) (k : A -> bool) : bool := match r with Ok y => k y | _ => false end.
Definition all {A} (l : list A) (k : A -> bool) : bool := forallb k l.
(** The names of the cases that disagree. *)
Definition failures {A} (name : A -> string) (check : A -> bool) (l : list A) : list string :=
  map name (List.filter (fun c => negb (check c)) l).

(** cosmwasm_std::testing::mock_env: the block time; src/tests/mock_querier.rs:43-74: only the two test
    denoms have a supply. *)
Definition ttime : Z := 1571797419879305533.
Definition menv : env := mkEnv ttime (fun _ => true) (fun d => if eqb d "base" || eqb d "quote" then Some 1000000000000 else Some 0) (fun _ => true).
(** create_orderbook(deps, QUOTE_DENOM, BASE_DENOM) on an empty storage. *)
Definition fresh : storage := fst (create_orderbook menv "quote" "base" st_empty).

(** src/tests/test_utils.rs:19-27 OrderOperation and 29-91 its run *)
Inductive op : Type :=
| OpMarket (q : Z) (d : dir)
| OpMulti (ticks : list Z) (n : nat) (q : Z) (d : dir)
| OpPlace (o : limit_order)
| OpClaim (tick id : Z)
| OpCancel (tick id : Z).
Definition denom_of (d : dir) : string := match d with Ask => "base" | Bid => "quote" end.
Definition place_as (owner : string) (o : limit_order) : M storage response :=
  place_limit menv (mkInfo owner [mkCoin (denom_of (o_dir o)) (o_quantity o)]) (o_tick o) (o_dir o) (o_quantity o) (o_bounty o).
Fixpoint place_all (owner : string) (l : list limit_order) : M storage unit :=
  match l with [] => mret tt | o :: l => let! _ := place_as owner o in place_all owner l end.
Definition full_bound (d : dir) : Z := match d with Bid => MAX_TICK | Ask => MIN_TICK end.
Definition op_run (i : info) (o : op) : M storage unit :=
  match o with
  | OpMarket q d => let! _ := run_market_order q d (full_bound d) in mret tt
  | OpMulti ts n q d => place_all (i_sender i) (flat_map (fun t => repeat (new_order t 0 d "owner" q 0 None 0) n) ts)
  | OpPlace o => let! _ := place_as (o_owner o) o in mret tt
  | OpClaim t id => let! _ := claim_limit i t id in mret tt
  | OpCancel t id =>
      let! o := mreadr (fun s => ok_or (s_orders s !! (t, id)) (EOrderNotFound t id)) in
      let! _ := cancel_limit (mkInfo (o_owner o) []) t id in mret tt
  end.
Fixpoint ops_run (i : info) (l : list op) : M storage unit :=
  match l with [] => mret tt | o :: l => let! _ := op_run i o in ops_run i l end.
(** All operations must succeed (`.unwrap()`); the storage after them. *)
Definition after (i : info) (l : list op) (s : storage) (k : storage -> bool) : bool :=
  match ops_run i l s with (s', Ok _) => k s' | _ => false end.
Definition tick_of (s : storage) (t : Z) (d : dir) : tick_values := get_values (unwrap_or (s_ticks s !! t) ts_default) d.
Definition attr_at (r : response) (n : nat) (k : string) (v : attr) : bool := eqb (nth_error (r_attrs r) n) (Some (k, v)).
Definition book_and (s : storage) (k : orderbook -> bool) : bool := match s_orderbook s with Some b => k b | None => false end.
(** The test-only traversal (src/sumtree/node.rs:846-860), as node ids; fuel bounds the depth. *)
Fixpoint traverse (fuel : nat) (s : storage) (n : tnode) : list tnode :=
  match fuel with
  | O => []
  | S f => n :: (if is_internal n then app (match get_left s n with Some l => traverse f s l | None => [] end)
                                          (match get_right s n with Some r => traverse f s r | None => [] end) else [])
  end.
(** src/sumtree/node.rs:862-872 get_height *)
Fixpoint get_height (fuel : nat) (s : storage) (n : tnode) : Z :=
  match fuel with
  | O => 0
  | S f => 1 + Z.max (match get_left s n with Some l => get_height f s l | None => 0 end)
                     (match get_right s n with Some r => get_height f s r | None => 0 end)
  end.
