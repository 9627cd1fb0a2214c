(** * ConfTick: the unit tests of src/tests/test_tick.rs and src/tests/test_tick_math.rs replayed on the
    model (see ConfBase.v). *)
From Verif Require Import Base Dec Types State TickMath Sumtree Delete Tick Order Auth Contract Query ConfBase ConfTree.

(** src/tests/test_tick.rs:9-27 *)
Record SyncTickTestCase := mkSyncTickTestCase {
  sy_name : string; sy_bid : tick_values; sy_ask : tick_values; sy_cancels_bid : list ntype; sy_cancels_ask : list ntype;
  sy_new_bid : Z; sy_new_ask : Z; sy_syncs : Z; sy_realized_bid : Z; sy_realized_ask : Z; sy_etas_bid : Z; sy_etas_ask : Z }.
(** src/sumtree/test/test_tree.rs:297-318 insert_and_refetch, at any tick and direction *)
Definition insert_at (tick : Z) (d : dir) (t : ntype) : M storage tnode :=
  let! tree := get_or_init_root_node tick d in
  let! id := generate_node_id tick in
  let! _ := tree_insert tree (new_node tick d id t) in
  mreadr (fun s => get_root_node s tick d).
Fixpoint insert_at_all (tick : Z) (d : dir) (l : list ntype) : M storage unit :=
  match l with [] => mret tt | t :: l => let! _ := insert_at tick d t in insert_at_all tick d l end.
(** src/tests/test_tick.rs:616-640 increment_tick_etas: the new tick state and the two new values *)
Definition incremented (c : SyncTickTestCase) (ts : tick_state) : tick_state :=
  let up v x := mkTV (tv_tal v) (tv_ctt v) (tv_etas v + x) (tv_crc v) (tv_last v) in
  set_values (set_values ts Bid (up (get_values ts Bid) (sy_new_bid c))) Ask (up (get_values ts Ask) (sy_new_ask c)).
Definition sync_to (ts : tick_state) : M storage unit := sync_tick 0 (tv_etas (get_values ts Bid)) (tv_etas (get_values ts Ask)).
Definition realized (s : storage) (d : dir) : Z := tv_crc (tick_of s 0 d).
(** src/tests/test_tick.rs:482-545: the two states that are synced in turn *)
Fixpoint sync_loop (n : nat) (c : SyncTickTestCase) (local : tick_state) (s m : storage) (k : storage -> bool) : bool :=
  match n with
  | O => k s
  | S n =>
      match s_ticks s !! 0 with
      | None => false
      | Some ts =>
          let ts := incremented c ts in
          let s := fst (save_tick 0 ts s) in
          match sync_to ts m with
          | (m, Ok _) =>
              let local := incremented c local in
              let s := fst (save_tick 0 local s) in
              match sync_to local s with
              | (s, Ok _) => all [Ask; Bid] (fun d => realized m d =? realized s d) && sync_loop n c local s m k
              | _ => false
              end
          | _ => false
          end
      end
  end.
Definition check_sync (c : SyncTickTestCase) : bool :=
  let ts := set_values (set_values ts_default Bid (sy_bid c)) Ask (sy_ask c) in
  let s := fst (save_tick 0 ts st_empty) in
  match (let! _ := insert_at_all 0 Bid (sy_cancels_bid c) in insert_at_all 0 Ask (sy_cancels_ask c)) s with
  | (s, Ok _) =>
      sync_loop (Z.to_nat (sy_syncs c)) c ts s s (fun s =>
        (realized s Bid =? sy_realized_bid c) && (realized s Ask =? sy_realized_ask c) &&
        (tv_etas (tick_of s 0 Bid) =? sy_etas_bid c) && (tv_etas (tick_of s 0 Ask) =? sy_etas_ask c))
  | _ => false
  end.
(* BEGIN tests/test_tick.rs test_sync_tick SyncTickTestCase *)
Definition test_sync_tick_cases : list SyncTickTestCase :=
  [ mkSyncTickTestCase "Basic Sync - Bid" (mkTV (5 * DEC) (10 * DEC) 0 0 0) (mkTV 0 0 0 0 0) [(NLeaf (5 * DEC) (3 * DEC))] [] (3 * DEC) 0 1 (5 * DEC) 0 (8 * DEC) 0;
    mkSyncTickTestCase "No unrealized cancels - Bid" (mkTV (10 * DEC) (10 * DEC) 0 0 0) (mkTV 0 0 0 0 0) [] [] (5 * DEC) 0 1 0 0 (5 * DEC) 0;
    mkSyncTickTestCase "Multiple unrealized cancels - Bid" (mkTV (20 * DEC) (35 * DEC) 0 0 0) (mkTV 0 0 0 0 0) [(NLeaf (3 * DEC) (2 * DEC)); (NLeaf (12 * DEC) (5 * DEC))] [] (5 * DEC) 0 1 (15 * DEC) 0 (20 * DEC) 0;
    mkSyncTickTestCase "Multiple syncs - Bid" (mkTV (200 * DEC) (350 * DEC) 0 0 0) (mkTV 0 0 0 0 0) [(NLeaf (30 * DEC) (2 * DEC)); (NLeaf (12 * DEC) (50 * DEC)); (NLeaf (10 * DEC) (62 * DEC)); (NLeaf (28 * DEC) (80 * DEC)); (NLeaf (70 * DEC) (128 * DEC))] [] (7 * DEC) 0 4 (80 * DEC) 0 (108 * DEC) 0;
    mkSyncTickTestCase "Basic Sync - Ask" (mkTV 0 0 0 0 0) (mkTV (5 * DEC) (10 * DEC) 0 0 0) [] [(NLeaf (5 * DEC) (3 * DEC))] 0 (3 * DEC) 1 0 (5 * DEC) 0 (8 * DEC);
    mkSyncTickTestCase "No unrealized cancels - Ask" (mkTV 0 0 0 0 0) (mkTV (10 * DEC) (10 * DEC) 0 0 0) [] [] 0 (5 * DEC) 1 0 0 0 (5 * DEC);
    mkSyncTickTestCase "Multiple unrealized cancels - Ask" (mkTV 0 0 0 0 0) (mkTV (20 * DEC) (35 * DEC) 0 0 0) [] [(NLeaf (3 * DEC) (2 * DEC)); (NLeaf (12 * DEC) (5 * DEC))] 0 (5 * DEC) 1 0 (15 * DEC) 0 (20 * DEC);
    mkSyncTickTestCase "Multiple syncs - Ask" (mkTV 0 0 0 0 0) (mkTV (200 * DEC) (350 * DEC) 0 0 0) [] [(NLeaf (30 * DEC) (2 * DEC)); (NLeaf (12 * DEC) (50 * DEC)); (NLeaf (10 * DEC) (62 * DEC)); (NLeaf (28 * DEC) (80 * DEC)); (NLeaf (70 * DEC) (128 * DEC))] 0 (7 * DEC) 4 0 (80 * DEC) 0 (108 * DEC);
    mkSyncTickTestCase "Basic Sync - Bid and Ask" (mkTV (5 * DEC) (10 * DEC) 0 0 0) (mkTV (5 * DEC) (10 * DEC) 0 0 0) [(NLeaf (5 * DEC) (3 * DEC))] [(NLeaf (5 * DEC) (3 * DEC))] (3 * DEC) (3 * DEC) 1 (5 * DEC) (5 * DEC) (8 * DEC) (8 * DEC);
    mkSyncTickTestCase "Multiple Syncs - Bid and Ask" (mkTV (100 * DEC) (150 * DEC) 0 0 0) (mkTV (200 * DEC) (350 * DEC) 0 0 0) [(NLeaf (25 * DEC) (45 * DEC)); (NLeaf (25 * DEC) (10 * DEC))] [(NLeaf (50 * DEC) (10 * DEC)); (NLeaf (100 * DEC) (60 * DEC))] (5 * DEC) (40 * DEC) 2 (25 * DEC) (150 * DEC) (35 * DEC) (230 * DEC);
    mkSyncTickTestCase "Batch realization: simple case" (mkTV (100 * DEC) (150 * DEC) 0 0 0) (mkTV 0 0 0 0 0) [(NLeaf (25 * DEC) (45 * DEC)); (NLeaf (25 * DEC) (10 * DEC))] [] (10 * DEC) 0 2 (50 * DEC) 0 (70 * DEC) 0;
    mkSyncTickTestCase "Batch realization: all but most right" (mkTV (200 * DEC) (278 * DEC) 0 0 0) (mkTV 0 0 0 0 0) [(NLeaf (3 * DEC) (180 * DEC)); (NLeaf (15 * DEC) (130 * DEC)); (NLeaf (25 * DEC) (45 * DEC)); (NLeaf (10 * DEC) (90 * DEC)); (NLeaf (25 * DEC) (10 * DEC))] [] (20 * DEC) 0 4 (75 * DEC) 0 (155 * DEC) 0;
    mkSyncTickTestCase "Batch realization: chained batch claim (worst case for non-optimized)" (mkTV (10 * DEC) (20 * DEC) 0 0 0) (mkTV 0 0 0 0 0) [(NLeaf (1 * DEC) (1 * DEC)); (NLeaf (1 * DEC) (2 * DEC)); (NLeaf (1 * DEC) (3 * DEC)); (NLeaf (1 * DEC) (4 * DEC)); (NLeaf (1 * DEC) (5 * DEC)); (NLeaf (1 * DEC) (6 * DEC)); (NLeaf (1 * DEC) (7 * DEC)); (NLeaf (1 * DEC) (8 * DEC)); (NLeaf (1 * DEC) (9 * DEC)); (NLeaf (1 * DEC) (10 * DEC))] [] (1 * DEC) 0 1 (10 * DEC) 0 (11 * DEC) 0 ].
(* END *)
Example test_sync_tick : failures sy_name check_sync test_sync_tick_cases = [].
Proof. vm_compute. reflexivity. Qed.

(** src/tests/test_tick_math.rs:9-13, 126-139 *)
Record TickToPriceTestCase := mkTickToPriceTestCase { tp_tick : Z; tp_price : Z; tp_error : option error }.
Definition check_price (c : TickToPriceTestCase) : bool :=
  match tp_error c with Some e => err_is e (tick_to_price (tp_tick c)) | None => ok_is (tp_price c) (tick_to_price (tp_tick c)) end.
(* BEGIN tests/test_tick_math.rs test_tick_to_price TickToPriceTestCase tick_price_test_cases *)
Definition test_tick_to_price_cases : list TickToPriceTestCase :=
  [ mkTickToPriceTestCase 182402823 (340282300000000000000 * DEC) None;
    mkTickToPriceTestCase (-108000000) 1000000 None;
    mkTickToPriceTestCase 40000000 (50000 * DEC) None;
    mkTickToPriceTestCase 4010000 5010000000000000000 None;
    mkTickToPriceTestCase 40000001 50000010000000000000000 None;
    mkTickToPriceTestCase (-9999900) 90001000000000000 None;
    mkTickToPriceTestCase (-2000) 999800000000000000 None;
    mkTickToPriceTestCase 40303000 (53030 * DEC) None;
    mkTickToPriceTestCase 182402822 (340282200000000000000 * DEC) None;
    mkTickToPriceTestCase (-108000000) 1000000 None;
    mkTickToPriceTestCase (-107999999) 1000001 None;
    mkTickToPriceTestCase (-17765433) 12345670000000000 None;
    mkTickToPriceTestCase (-17765432) 12345680000000000 None;
    mkTickToPriceTestCase (-107765433) 1234567 None;
    mkTickToPriceTestCase (-107765432) 1234568 None;
    mkTickToPriceTestCase 81234567 (1234567000 * DEC) None;
    mkTickToPriceTestCase 81234567 (1234567000 * DEC) None;
    mkTickToPriceTestCase 81234568 (1234568000 * DEC) None;
    mkTickToPriceTestCase 0 (1 * DEC) None ].
(* END *)
Example test_tick_to_price : all test_tick_to_price_cases check_price = true.
Proof. vm_compute. reflexivity. Qed.
(** src/tests/test_tick_math.rs:141-167 *)
(* BEGIN tests/test_tick_math.rs test_tick_to_price_error_cases TickToPriceTestCase *)
Definition test_tick_to_price_error_cases_cases : list TickToPriceTestCase :=
  [ mkTickToPriceTestCase 182402824 0 (Some (ETickOutOfBounds 182402824));
    mkTickToPriceTestCase (-108000001) 0 (Some (ETickOutOfBounds (-108000001))) ].
(* END *)
Example test_tick_to_price_error_cases : all test_tick_to_price_error_cases_cases check_price = true.
Proof. vm_compute. reflexivity. Qed.
(** src/tests/test_tick_math.rs:169-211 *)
Record PowTenTestCase := mkPowTenTestCase { pt_exponent : Z; pt_expected : Z }.
(* BEGIN tests/test_tick_math.rs test_pow_ten PowTenTestCase *)
Definition test_pow_ten_cases : list PowTenTestCase :=
  [ mkPowTenTestCase 0 (1 * DEC);
    mkPowTenTestCase 1 (10 * DEC);
    mkPowTenTestCase (-1) 100000000000000000;
    mkPowTenTestCase 5 (100000 * DEC);
    mkPowTenTestCase (-5) 10000000000000;
    mkPowTenTestCase 10 (10000000000 * DEC);
    mkPowTenTestCase (-10) 100000000 ].
(* END *)
Example test_pow_ten : all test_pow_ten_cases (fun c => ok_is (pt_expected c) (pow_ten (pt_exponent c))) = true.
Proof. vm_compute. reflexivity. Qed.
(** src/tests/test_tick_math.rs:213-274 *)
Record OperByPriceTestCase := mkOperByPriceTestCase {
  ob_name : string; ob_price : Z; ob_amount : Z; ob_expected : Z; ob_error : option error; ob_rounding : rounding }.
Definition check_oper (f : Z -> Z -> rounding -> res Z) (c : OperByPriceTestCase) : bool :=
  let r := f (ob_amount c) (ob_price c) (ob_rounding c) in
  match ob_error c with Some e => err_is e r | None => ok_is (ob_expected c) r end.
(* BEGIN tests/test_tick_math.rs test_multiply_by_price OperByPriceTestCase *)
Definition test_multiply_by_price_cases : list OperByPriceTestCase :=
  [ mkOperByPriceTestCase "basic price multiplication" (5 * DEC) 10 50 None RDown;
    mkOperByPriceTestCase "basic price multiplication w/ rounding (down)" 50000000000000000 3 0 None RDown;
    mkOperByPriceTestCase "basic price multiplication w/ rounding (up)" 50000000000000000 3 1 None RUp;
    mkOperByPriceTestCase "error overflow" 115792089237316195423570985008687907853269984665640564039457584007913129639935 340282366920938463463374607431768211455 1 (Some EOverflow) RDown ].
(* END *)
Example test_multiply_by_price : failures ob_name (check_oper multiply_by_price) test_multiply_by_price_cases = [].
Proof. vm_compute. reflexivity. Qed.
(** src/tests/test_tick_math.rs:276-326 *)
(* BEGIN tests/test_tick_math.rs test_divide_by_price OperByPriceTestCase *)
Definition test_divide_by_price_cases : list OperByPriceTestCase :=
  [ mkOperByPriceTestCase "basic price division" (5 * DEC) 10 2 None RDown;
    mkOperByPriceTestCase "basic price division w/ rounding (down)" (5 * DEC) 1 0 None RDown;
    mkOperByPriceTestCase "basic price division w/ rounding (up)" (5 * DEC) 1 1 None RUp;
    mkOperByPriceTestCase "error overflow" 0 340282366920938463463374607431768211455 1 (Some EOverflow) RDown ].
(* END *)
Example test_divide_by_price : failures ob_name (check_oper divide_by_price) test_divide_by_price_cases = [].
Proof. vm_compute. reflexivity. Qed.
