(** * Tests: the model run on the repository's own end-to-end unit tests.
    These are tests of the model's faithfulness, not proofs of properties. *)
From Verif Require Import Base Dec Types State TickMath Sumtree Tick Order Auth Contract Query World.

Definition tenv : env := mkEnv 7 (fun _ => true) (fun _ => Some 1) (fun _ => true).
Definition w_start : world :=
  unwrap_or (init_world tenv "contract" "quote" "base" []) (mkWorld "" st_empty ∅).

Definition place (sender : string) (t : Z) (d : dir) (q : Z) (b : option Z) : env * call :=
  (tenv, CExec (mkInfo sender [mkCoin (match d with Bid => "quote" | Ask => "base" end) q])
               (PlaceLimit t d q b)).
Definition cancel (sender : string) (t id : Z) : env * call :=
  (tenv, CExec (mkInfo sender []) (CancelLimit t id)).
Definition claim (sender : string) (t id : Z) : env * call :=
  (tenv, CExec (mkInfo sender []) (ClaimLimit t id)).
Definition sell (sender : string) (amt : Z) : env * call :=
  (tenv, CSudo (SwapExactAmountIn sender (mkCoin "base" amt) "quote" 0 0)).
Definition buy (sender : string) (amt : Z) : env * call :=
  (tenv, CSudo (SwapExactAmountIn sender (mkCoin "quote" amt) "base" 0 0)).

Fixpoint run_out (w : world) (h : list (env * call)) : list bool :=
  match h with
  | [] => []
  | (e, c) :: h =>
      let r := step e w c in
      (match snd r with Done _ => true | Failed => false end) :: run_out (fst r) h
  end.

(** src/tests/test_order.rs:4243-4314 test_cancelled_orders *)
Definition hist_cancelled : list (env * call) :=
  [place "a" 0 Bid 2 None;
   place "a" 0 Bid 2 None; cancel "a" 0 1;
   place "a" 0 Bid 2 None; cancel "a" 0 2;
   place "a" 0 Bid 2 None;
   place "a" 0 Bid 2 None; cancel "a" 0 4;
   place "a" 0 Bid 2 None; cancel "a" 0 5;
   place "a" 0 Bid 2 None;
   place "a" 0 Bid 2 None; cancel "a" 0 7;
   place "a" 0 Bid 2 None; cancel "a" 0 8;
   place "a" 0 Bid 2 None].
Definition w_cancelled := run w_start hist_cancelled.

Definition shape (w : world) (k : Z) : option (option Z * option Z * option Z * ntype) :=
  option_map (fun n => (n_left n, n_right n, n_parent n, n_type n)) (s_nodes (w_st w) !! (0, k)).
Definition D (x : Z) : Z := x * DEC.
Example test_tree :
  (s_tree (w_st w_cancelled) !! (0, Bid), map (shape w_cancelled) [5; 1; 9; 7; 11; 2; 8])
  = (Some 5,
     [Some (Some 1, Some 9, None, NInternal (D 12) (D 2) (D 18) 4);
      Some (Some 2, Some 3, Some 5, NInternal (D 4) (D 2) (D 6) 2);
      Some (Some 7, Some 11, Some 5, NInternal (D 8) (D 8) (D 18) 3);
      Some (Some 4, Some 6, Some 9, NInternal (D 4) (D 8) (D 12) 2);
      Some (Some 8, Some 10, Some 9, NInternal (D 4) (D 14) (D 18) 2);
      Some (None, None, Some 1, NLeaf (D 2) (D 2));
      Some (None, None, Some 11, NLeaf (D 2) (D 14))]).
Proof. vm_compute. reflexivity. Qed.

Definition hist_rest : list (env * call) :=
  [claim "a" 0 9; place "a" 0 Bid 2 None; sell "b" 7;
   cancel "a" 0 9; claim "a" 0 9; cancel "a" 0 9;
   cancel "a" 0 3; claim "a" 0 3; cancel "a" 0 6; claim "a" 0 6; cancel "a" 0 0; claim "a" 0 0;
   claim "a" 0 10; cancel "a" 0 10].
Example test_rest_outcomes :
  run_out w_cancelled hist_rest
  = [false; true; true; false; true; true; false; true; false; true; false; true; false; true].
Proof. vm_compute. reflexivity. Qed.
Example test_rest_state :
  let w := run w_cancelled hist_rest in
  (option_map (fun ts => get_values ts Bid) (s_ticks (w_st w) !! 0),
   map_to_list (s_orders (w_st w)), balance w "quote", balance w "base")
  = (Some (mkTV 0 (D 22) (D 19) (D 12) (D 19)), [], 0, 0).
Proof. vm_compute. reflexivity. Qed.

(** src/tests/test_tick_math.rs:26-124 test_tick_to_price (all cases; MAX_TICK-1 below) *)
Example test_prices :
  map tick_to_price
    [MAX_TICK; MIN_TICK; 40000000; 4010000; 40000001; -9999900; -2000; 40303000;
     MIN_TICK + 1; -17765433; -17765432; -107765433; -107765432; 81234567; 81234568; 0;
     MAX_TICK + 1; MIN_TICK - 1]
  = [Ok max_spot_price; Ok (10 ^ 6); Ok (50000 * DEC); Ok (501 * 10 ^ 16); Ok (5000001 * 10 ^ 16);
     Ok (90001 * 10 ^ 12); Ok (9998 * 10 ^ 14); Ok (53030 * DEC);
     Ok 1000001; Ok (1234567 * 10 ^ 10); Ok (1234568 * 10 ^ 10); Ok 1234567; Ok 1234568;
     Ok (1234567000 * DEC); Ok (1234568000 * DEC); Ok DEC;
     Err (ETickOutOfBounds 182402824); Err (ETickOutOfBounds (-108000001))].
Proof. vm_compute. reflexivity. Qed.

(** Helpers for the concrete cases beside the theorems. *)
Definition done (e : env) (w : world) (c : call) : bool := match snd (step e w c) with Done _ => true | Failed => false end.
Definition resp_of (e : env) (w : world) (c : call) : response := match snd (step e w c) with Done r => r | Failed => resp_default end.
Lemma done_ok e w c : done e w c = true -> step e w c = (fst (step e w c), Done (resp_of e w c)).
Proof. unfold done, resp_of. destruct (step e w c) as [w' [r|]]; [reflexivity|discriminate]. Qed.
