(** * ConfRest: the unit tests of src/tests/test_sudo.rs, test_state.rs, test_orderbook.rs and
    test_instantiate.rs replayed on the model (see ConfBase.v). *)
From stdpp Require Import pretty.
From Verif Require Import Base Dec Types State TickMath Sumtree Tick Order Auth Contract Query ConfBase ConfAuth.

(** src/tests/test_sudo.rs:31-113 *)
Record ValidateOutputAmountTestCase := mkValidateOutputAmountTestCase { vo_name : string; vo_max : Z; vo_min : Z; vo_in : coin; vo_out : coin; vo_error : option error }.
(* BEGIN tests/test_sudo.rs test_validate_output_amount ValidateOutputAmountTestCase *)
Definition test_validate_output_amount_cases : list ValidateOutputAmountTestCase :=
  [ mkValidateOutputAmountTestCase "valid output" 100 0 (mkCoin "denoma" 50) (mkCoin "denomb" 50) None;
    mkValidateOutputAmountTestCase "exceed max" 100 0 (mkCoin "denomb" 101) (mkCoin "denoma" 50) (Some (EInvalidSwap (ExceededMax 100 101)));
    mkValidateOutputAmountTestCase "do not meet min" 100 50 (mkCoin "denoma" 50) (mkCoin "denomb" 41) (Some (EInvalidSwap (BelowMin 50 41)));
    mkValidateOutputAmountTestCase "duplicate denom" 100 0 (mkCoin "denoma" 50) (mkCoin "denoma" 41) (Some (EInvalidSwap SameDenoms)) ].
(* END *)
Example test_validate_output_amount :
  failures vo_name (fun c => fails_with (vo_error c) (validate_output_amount (vo_max c) (vo_min c) (vo_in c) (vo_out c)) true true) test_validate_output_amount_cases = [].
Proof. vm_compute. reflexivity. Qed.

(** src/tests/test_sudo.rs:115-127, 352-436 *)
Record SwapExactAmountInTestCase := mkSwapExactAmountInTestCase {
  sx_name : string; sx_ops : list op; sx_in : coin; sx_out : string; sx_min : Z; sx_fee : Z; sx_target : option Z;
  sx_output : coin; sx_msgs : Z; sx_refund : option submsg; sx_error : option error }.
Definition check_swap (c : SwapExactAmountInTestCase) : bool :=
  after (by_sender "sender") (sx_ops c) fresh (fun s =>
    let r := snd (dispatch_swap_exact_amount_in menv "sender" (sx_in c) (sx_out c) (sx_min c) (sx_fee c) (sx_target c) s) in
    match sx_error c with
    | Some e => err_is e r
    | None => ok_and r (fun r =>
        (Z.of_nat (length (r_msgs r)) =? sx_msgs c) &&
        eqb (nth_error (r_msgs r) 0) (Some (mkSend REPLY_ID_SUDO_SWAP_EXACT_IN "sender" (sx_output c))) &&
        match sx_refund c with Some m => eqb (nth_error (r_msgs r) 1) (Some m) | None => true end &&
        eqb (r_data r) (Some (c_amount (sx_output c))))
    end).
(* BEGIN tests/test_sudo.rs test_swap_exact_amount_in SwapExactAmountInTestCase *)
Definition test_swap_exact_amount_in_cases : list SwapExactAmountInTestCase :=
  [ mkSwapExactAmountInTestCase "BID: valid basic swap" [OpPlace (mkOrder 0 0 Ask "sender" 100 0 None 100 ttime)] (mkCoin "quote" 100) "base" 100 0 None (mkCoin "base" 100) 1 None None;
    mkSwapExactAmountInTestCase "BID: min amount not met" [OpPlace (mkOrder 0 0 Ask "sender" 10 0 None 10 ttime)] (mkCoin "quote" 100) "base" 100 0 None (mkCoin "base" 100) 1 None (Some EInsufficientLiquidity);
    mkSwapExactAmountInTestCase "BID: zero liquidity in orderbook" [] (mkCoin "quote" 100) "base" 100 0 None (mkCoin "base" 100) 1 None (Some EInsufficientLiquidity);
    mkSwapExactAmountInTestCase "ASK: valid basic swap" [OpPlace (mkOrder 0 0 Bid "sender" 100 0 None 100 ttime)] (mkCoin "base" 100) "quote" 100 0 None (mkCoin "quote" 100) 1 None None;
    mkSwapExactAmountInTestCase "ASK: min amount not met" [OpPlace (mkOrder 0 0 Bid "sender" 10 0 None 10 ttime)] (mkCoin "base" 100) "quote" 100 0 None (mkCoin "quote" 100) 1 None (Some EInsufficientLiquidity);
    mkSwapExactAmountInTestCase "ASK: zero liquidity in orderbook" [] (mkCoin "base" 100) "quote" 100 0 None (mkCoin "quote" 100) 1 None (Some EInsufficientLiquidity);
    mkSwapExactAmountInTestCase "invalid in denom" [] (mkCoin "notadenom" 100) "quote" 100 0 None (mkCoin "quote" 100) 1 None (Some (EInvalidPair "notadenom" "quote"));
    mkSwapExactAmountInTestCase "invalid out denom" [] (mkCoin "base" 100) "notadenom" 100 0 None (mkCoin "quote" 100) 1 None (Some (EInvalidPair "base" "notadenom"));
    mkSwapExactAmountInTestCase "invalid duplicate denom" [] (mkCoin "base" 100) "base" 100 0 None (mkCoin "quote" 100) 1 None (Some (EInvalidSwap SameDenoms));
    mkSwapExactAmountInTestCase "invalid swap fee" [] (mkCoin "base" 100) "notadenom" 100 (1 * DEC) None (mkCoin "quote" 100) 1 None (Some (EInvalidSwap (WrongFee 0 (1 * DEC))));
    mkSwapExactAmountInTestCase "BID: valid basic swap to tick" [OpPlace (mkOrder 0 0 Ask "sender" 90 0 None 90 ttime); OpPlace (mkOrder 10 1 Ask "sender" 10 0 None 10 ttime)] (mkCoin "quote" 100) "base" 90 0 (Some 5) (mkCoin "base" 90) 2 (Some (mkSend 1 "sender" (mkCoin "quote" 10))) None ].
(* END *)
Example test_swap_exact_amount_in : failures sx_name check_swap test_swap_exact_amount_in_cases = [].
Proof. vm_compute. reflexivity. Qed.

(** src/tests/test_sudo.rs:438-474 *)
Example test_sudo_transfer_admin :
  let '(s, r) := sudo aenv (SudoTransferAdmin "newadmin") st_empty in
  match r with Ok _ => true | _ => false end && eqb (s_admin s) (Some "newadmin") &&
  err_is EStd (snd (sudo aenv (SudoTransferAdmin "ab") s)) = true.
Proof. vm_compute. reflexivity. Qed.
(** src/tests/test_sudo.rs:476-495 *)
Example test_sudo_remove_admin :
  let '(s, r) := sudo aenv SudoRemoveAdmin (roles (Some "admin") None None None) in
  match r with Ok _ => true | _ => false end && eqb (s_admin s) None = true.
Proof. vm_compute. reflexivity. Qed.
(** src/tests/test_sudo.rs:497-551 *)
Definition with_active (a : option bool) (s : storage) : storage := match a with Some b => fst (set_active b s) | None => s end.
Record SetActiveTestCase := mkSetActiveTestCase { sa_name : string; sa_status : option bool; sa_error : option error }.
(* BEGIN tests/test_sudo.rs test_set_active SetActiveTestCase *)
Definition test_set_active_cases : list SetActiveTestCase :=
  [ mkSetActiveTestCase "active: true" (Some true) None;
    mkSetActiveTestCase "active: None" None None;
    mkSetActiveTestCase "active: false" (Some false) (Some EInactive) ].
(* END *)
Example test_set_active :
  failures sa_name (fun c =>
    let s := with_active (sa_status c) st_empty in
    fails_with (sa_error c) (snd (ensure_is_active s)) true (eqb (s_active s) (sa_status c))) test_set_active_cases = [].
Proof. vm_compute. reflexivity. Qed.
(** src/tests/test_sudo.rs:553-661 *)
Record SetActiveExecuteTestCase := mkSetActiveExecuteTestCase { se_name : string; se_msg : exec_msg; se_status : option bool; se_error : option error }.
(* BEGIN tests/test_sudo.rs test_set_active_execute SetActiveExecuteTestCase *)
Definition test_set_active_execute_cases : list SetActiveExecuteTestCase :=
  [ mkSetActiveExecuteTestCase "active: true, message type: order" (PlaceLimit 0 Ask 100 None) (Some true) None;
    mkSetActiveExecuteTestCase "active: None, message type: order" (PlaceLimit 0 Ask 100 None) None None;
    mkSetActiveExecuteTestCase "active: false, message type: order" (PlaceLimit 0 Ask 100 None) (Some false) (Some EInactive);
    mkSetActiveExecuteTestCase "active: true, message type: auth" (AuthMsg (TransferAdmin "new_admin")) (Some true) None;
    mkSetActiveExecuteTestCase "active: true, message type: auth" (AuthMsg (TransferAdmin "new_admin")) None None;
    mkSetActiveExecuteTestCase "active: true, message type: auth" (AuthMsg (TransferAdmin "new_admin")) (Some false) None ].
(* END *)
Definition as_admin (s : storage) : storage := set_admin (Some "sender") s.
Example test_set_active_execute :
  failures se_name (fun c =>
    fails_with (se_error c) (snd (execute menv (mkInfo "sender" [mkCoin "base" 100]) (se_msg c) (with_active (se_status c) (as_admin fresh)))) true true)
    test_set_active_execute_cases = [].
Proof. vm_compute. reflexivity. Qed.
(** src/tests/test_sudo.rs:663-766 *)
Record SetActiveSudoTestCase := mkSetActiveSudoTestCase { ss_name : string; ss_ops : list op; ss_msg : sudo_msg; ss_status : option bool; ss_error : option error }.
(* BEGIN tests/test_sudo.rs test_set_active_sudo SetActiveSudoTestCase *)
Definition test_set_active_sudo_cases : list SetActiveSudoTestCase :=
  [ mkSetActiveSudoTestCase "active book, swap exact in" [OpPlace (mkOrder 0 0 Ask "sender" 100 0 None 100 ttime)] (SwapExactAmountIn "sender" (mkCoin "quote" 100) "base" 100 0) (Some true) None;
    mkSetActiveSudoTestCase "inactive, swap exact in" [OpPlace (mkOrder 0 0 Ask "sender" 100 0 None 100 ttime)] (SwapExactAmountIn "sender" (mkCoin "quote" 100) "base" 100 0) (Some false) (Some EInactive) ].
(* END *)
Example test_set_active_sudo :
  failures ss_name (fun c =>
    after (mkInfo "sender" [mkCoin "base" 100]) (ss_ops c) fresh (fun s =>
      fails_with (ss_error c) (snd (sudo menv (ss_msg c) (with_active (ss_status c) (as_admin s)))) true true))
    test_set_active_sudo_cases = [].
Proof. vm_compute. reflexivity. Qed.

(** src/tests/test_state.rs:6-13 *)
Example test_order_id_works :
  let '(s, r) := new_order_id st_empty in r = Ok 0 /\ snd (new_order_id s) = Ok 1.
Proof. vm_compute. split; reflexivity. Qed.
(** src/tests/test_state.rs:15-38 (the code iterates ticks in both orders) *)
Definition ticks_of (l : list Z) : gmap Z tick_state := list_to_map (map (fun t => (t, ts_default)) l).
Definition from (a : Z) (n : nat) : list Z := map (fun i => a + Z.of_nat i) (seq 0 n).
Example test_tick_iteration :
  sorted_keys (ticks_of (from (-50) 100)) None None = from (-50) 100.
Proof. vm_compute. reflexivity. Qed.
(** The orders of the test: [tick i], [owner i] for i < n. *)
Definition stored (n : nat) (tick : nat -> Z) (owner : nat -> string) : storage :=
  set_orders (list_to_map (map (fun i =>
    ((tick i, Z.of_nat i), mkOrder (tick i) (Z.of_nat i) Ask (owner i) (Z.of_nat i) 0 None (Z.of_nat i) ttime)) (seq 0 n))) st_empty.
(** src/tests/test_state.rs:40-72 *)
Example test_order_iteration :
  ok_and (orders_by_tick (stored 50 (fun _ => 0) (fun i => pretty i)) 0 None None None)
    (fun p => eqb (map o_id (snd p)) (from 0 50)) = true.
Proof. vm_compute. reflexivity. Qed.
Definition half (i : nat) : string := if Nat.even i then "owner1" else String.append "owner" (pretty i).
(** src/tests/test_state.rs:74-109 *)
Example test_get_orders_by_owner_all :
  let l := get_orders_by_owner (stored 10 (fun _ => 0) half) (FAll "owner1") None None None in
  Nat.eqb (length l) 6 && all l (fun o => eqb (o_owner o) "owner1") = true.
Proof. vm_compute. reflexivity. Qed.
(** src/tests/test_state.rs:111-146 *)
Example test_get_orders_by_owner_all_larger_than_default_page_size :
  let l := get_orders_by_owner (stored 400 (fun _ => 0) half) (FAll "owner1") None None (Some 150) in
  Nat.eqb (length l) 150 && all l (fun o => eqb (o_owner o) "owner1") = true.
Proof. vm_compute. reflexivity. Qed.
(** src/tests/test_state.rs:148-190 *)
Definition three (i : nat) : Z := Z.of_nat i mod 3.
Example test_get_orders_by_owner_by_tick :
  all [0; 1; 2] (fun t =>
    let l := get_orders_by_owner (stored 100 three half) (FByTick t "owner1") None None None in
    negb (Nat.eqb (length l) 0) && all l (fun o => eqb (o_owner o) "owner1" && (o_tick o =? t))) = true.
Proof. vm_compute. reflexivity. Qed.
(** src/tests/test_state.rs:192-255 *)
Fixpoint read_pages (fuel : nat) (s : storage) (start : option (Z * Z)) : nat * nat :=
  match fuel with
  | O => (0%nat, 0%nat)
  | S f =>
      let l := get_orders_by_owner s (FAll "owner1") start None (Some 8) in
      match last l with
      | None => (0%nat, 0%nat)
      | Some o => let '(n, p) := read_pages f s (Some (o_tick o, o_id o + 1)) in ((length l + n)%nat, S p)
      end
  end.
Example test_get_orders_by_owner_with_pagination : read_pages 50 (stored 100 three (fun _ => "owner1")) None = (100%nat, 13%nat).
Proof. vm_compute. reflexivity. Qed.

(** src/tests/test_orderbook.rs:12-90 *)
Record CreateOrderbookTestCase := mkCreateOrderbookTestCase { cb_name : string; cb_quote : string; cb_base : string; cb_error : option error }.
(* BEGIN tests/test_orderbook.rs test_create_orderbook CreateOrderbookTestCase *)
Definition test_create_orderbook_cases : list CreateOrderbookTestCase :=
  [ mkCreateOrderbookTestCase "valid_orderbook" "quote" "base" None;
    mkCreateOrderbookTestCase "invalid quote denom" "notadenom" "base" (Some (EInvalidDenom "notadenom"));
    mkCreateOrderbookTestCase "invalid base denom" "quote" "notadenom" (Some (EInvalidDenom "notadenom"));
    mkCreateOrderbookTestCase "empty denom" "quote" "" (Some (EInvalidDenom ""));
    mkCreateOrderbookTestCase "duplicate denoms" "quote" "quote" (Some EDuplicateDenoms) ].
(* END *)
Example test_create_orderbook :
  failures cb_name (fun c =>
    let '(s, r) := create_orderbook menv (cb_quote c) (cb_base c) st_empty in
    fails_with (cb_error c) r true (book_and s (fun b =>
      eqb (ob_quote b) (cb_quote c) && eqb (ob_base b) (cb_base c) && (ob_current b =? 0) && (ob_next_bid b =? MIN_TICK) && (ob_next_ask b =? MAX_TICK))))
    test_create_orderbook_cases = [].
Proof. vm_compute. reflexivity. Qed.
(** src/tests/test_instantiate.rs:12-67; InstantiateMsg as (quote, base) *)
Record InstantiateTestCase := mkInstantiateTestCase { in_name : string; in_msg : string * string; in_error : option error }.
(* BEGIN tests/test_instantiate.rs test_instantiate InstantiateTestCase *)
Definition test_instantiate_cases : list InstantiateTestCase :=
  [ mkInstantiateTestCase "valid instantiate" ("quote", "base") None;
    mkInstantiateTestCase "invalid instantiate" ("quote", "quote") (Some EDuplicateDenoms) ].
(* END *)
Example test_instantiate :
  failures in_name (fun c => fails_with (in_error c) (snd (instantiate menv (fst (in_msg c)) (snd (in_msg c)) st_empty)) true true) test_instantiate_cases = [].
Proof. vm_compute. reflexivity. Qed.
