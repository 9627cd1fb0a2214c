(** * ConfQuery: the unit tests of src/tests/test_query.rs replayed on the model (see ConfBase.v). *)
From Verif Require Import Base Dec Types State TickMath Sumtree Tick Order Auth Contract Query ConfBase.

Definition after_ops (sender : string) (l : list op) (k : storage -> bool) : bool := after (mkInfo sender []) l fresh k.
Definition result_is {A} `{EqDecision A} (err : option error) (x : A) (r : res A) : bool :=
  match err with Some e => err_is e r | None => ok_is x r end.

(** src/tests/test_query.rs:26-33, 385-426 *)
Record SpotPriceTestCase := mkSpotPriceTestCase { sp_name : string; sp_ops : list op; sp_base : string; sp_quote : string; sp_price : Z; sp_error : option error }.
Definition check_spot (c : SpotPriceTestCase) : bool :=
  after_ops "sender" (sp_ops c) (fun s => result_is (sp_error c) (sp_price c) (spot_price s (sp_quote c) (sp_base c))).
(* BEGIN tests/test_query.rs test_query_spot_price SpotPriceTestCase *)
Definition test_query_spot_price_cases : list SpotPriceTestCase :=
  [ mkSpotPriceTestCase "BID: basic price 1 query" [OpPlace (mkOrder 0 0 Ask "sender" 1 0 None 1 ttime)] "quote" "base" (1 * DEC) None;
    mkSpotPriceTestCase "BID: multi tick lowest price" [OpPlace (mkOrder 0 1 Ask "sender" 2 0 None 2 ttime); OpPlace (mkOrder 1 2 Ask "sender" 2 0 None 2 ttime); OpPlace (mkOrder 2 3 Ask "sender" 2 0 None 2 ttime)] "quote" "base" (1 * DEC) None;
    mkSpotPriceTestCase "BID: multi direction lowest tick" [OpPlace (mkOrder 0 0 Bid "sender" 1 0 None 1 ttime); OpPlace (mkOrder 0 1 Ask "sender" 1 0 None 1 ttime)] "quote" "base" (1 * DEC) None;
    mkSpotPriceTestCase "BID: change in spot price" [OpPlace (mkOrder 0 0 Ask "sender" 1 0 None 1 ttime); OpPlace (mkOrder 1000000 1 Ask "sender" 340282366920938463463374607431768211455 0 None 340282366920938463463374607431768211455 ttime); OpMarket 3 Bid] "quote" "base" 500000000000000000 None;
    mkSpotPriceTestCase "BID: max tick" [OpPlace (mkOrder 182402823 0 Ask "sender" 1 0 None 1 ttime)] "quote" "base" 0 None;
    mkSpotPriceTestCase "BID: min tick" [OpPlace (mkOrder (-108000000) 0 Ask "sender" 1 0 None 1 ttime)] "quote" "base" (1000000000000 * DEC) None;
    mkSpotPriceTestCase "ASK: basic price 1 query" [OpPlace (mkOrder 0 0 Bid "sender" 1 0 None 1 ttime)] "base" "quote" (1 * DEC) None;
    mkSpotPriceTestCase "ASK: multi tick lowest price" [OpPlace (mkOrder 0 1 Bid "sender" 2 0 None 2 ttime); OpPlace (mkOrder (-1) 2 Bid "sender" 2 0 None 2 ttime); OpPlace (mkOrder (-2) 3 Bid "sender" 2 0 None 2 ttime)] "base" "quote" (1 * DEC) None;
    mkSpotPriceTestCase "ASK: multi direction lowest tick" [OpPlace (mkOrder 0 0 Bid "sender" 1 0 None 1 ttime); OpPlace (mkOrder 0 1 Ask "sender" 1 0 None 1 ttime)] "base" "quote" (1 * DEC) None;
    mkSpotPriceTestCase "ASK: change in spot price" [OpPlace (mkOrder 0 0 Bid "sender" 1 0 None 1 ttime); OpPlace (mkOrder (-5000000) 1 Bid "sender" 340282366920938463463374607431768211455 0 None 340282366920938463463374607431768211455 ttime); OpMarket 3 Ask] "base" "quote" 500000000000000000 None;
    mkSpotPriceTestCase "ASK: large positive tick" [OpPlace (mkOrder 1000000 0 Bid "sender" 340282366920938463463374607431768211455 0 None 340282366920938463463374607431768211455 ttime); OpMarket 100 Ask] "base" "quote" (2 * DEC) None;
    mkSpotPriceTestCase "ASK: max tick" [OpPlace (mkOrder 182402823 0 Bid "sender" 340282366920938463463374607431768211455 0 None 340282366920938463463374607431768211455 ttime)] "base" "quote" (340282300000000000000 * DEC) None;
    mkSpotPriceTestCase "ASK: min tick" [OpPlace (mkOrder (-108000000) 0 Bid "sender" 340282366920938463463374607431768211455 0 None 340282366920938463463374607431768211455 ttime)] "base" "quote" 1000000 None;
    mkSpotPriceTestCase "invalid: duplicate denom" [] "base" "base" 500000000000000000 (Some (EInvalidPair "base" "base"));
    mkSpotPriceTestCase "invalid: incorrect base denom" [] "notadenom" "quote" 500000000000000000 (Some (EInvalidPair "notadenom" "quote"));
    mkSpotPriceTestCase "invalid: incorrect quote denom" [] "base" "notadenom" 500000000000000000 (Some (EInvalidPair "base" "notadenom")) ].
(* END *)
Example test_query_spot_price : failures sp_name check_spot test_query_spot_price_cases = [].
Proof. vm_compute. reflexivity. Qed.

(** src/tests/test_query.rs:428-436, 664-708 *)
Record CalcOutAmountGivenInTestCase := mkCalcOutAmountGivenInTestCase {
  co_name : string; co_ops : list op; co_in : coin; co_out : string; co_fee : Z; co_expected : coin; co_error : option error }.
Definition check_calc (c : CalcOutAmountGivenInTestCase) : bool :=
  after_ops "sender" (co_ops c) (fun s => result_is (co_error c) (co_expected c) (calc_out_amount_given_in s (co_in c) (co_out c) (co_fee c))).
(* BEGIN tests/test_query.rs test_calc_out_amount_given_in CalcOutAmountGivenInTestCase *)
Definition test_calc_out_amount_given_in_cases : list CalcOutAmountGivenInTestCase :=
  [ mkCalcOutAmountGivenInTestCase "BID: simple swap" [OpPlace (mkOrder 0 0 Ask "sender" 100 0 None 100 ttime)] (mkCoin "quote" 100) "base" 0 (mkCoin "base" 100) None;
    mkCalcOutAmountGivenInTestCase "BID: invalid partial fill" [OpPlace (mkOrder 0 0 Ask "sender" 25 0 None 25 ttime)] (mkCoin "quote" 150) "base" 0 (mkCoin "base" 0) (Some EInsufficientLiquidity);
    mkCalcOutAmountGivenInTestCase "BID: multi-tick/direction swap" [OpPlace (mkOrder 0 0 Ask "sender" 100 0 None 100 ttime); OpPlace (mkOrder 1000000 0 Ask "sender" 100 0 None 100 ttime); OpPlace (mkOrder 0 0 Bid "sender" 100 0 None 100 ttime); OpPlace (mkOrder 1000000 0 Bid "sender" 100 0 None 100 ttime)] (mkCoin "quote" 150) "base" 0 (mkCoin "base" 125) None;
    mkCalcOutAmountGivenInTestCase "ASK: simple swap" [OpPlace (mkOrder 0 0 Bid "sender" 100 0 None 100 ttime)] (mkCoin "base" 100) "quote" 0 (mkCoin "quote" 100) None;
    mkCalcOutAmountGivenInTestCase "ASK: invalid partial fill" [OpPlace (mkOrder 0 0 Bid "sender" 25 0 None 25 ttime)] (mkCoin "base" 150) "quote" 0 (mkCoin "quote" 0) (Some EInsufficientLiquidity);
    mkCalcOutAmountGivenInTestCase "ASK: multi-tick/direction swap" [OpPlace (mkOrder 0 0 Bid "sender" 100 0 None 100 ttime); OpPlace (mkOrder 1000000 0 Bid "sender" 100 0 None 100 ttime); OpPlace (mkOrder 0 0 Ask "sender" 100 0 None 100 ttime); OpPlace (mkOrder 1000000 0 Ask "sender" 25 0 None 25 ttime)] (mkCoin "base" 150) "quote" 0 (mkCoin "quote" 200) None;
    mkCalcOutAmountGivenInTestCase "insufficient liquidity" [] (mkCoin "quote" 100) "base" 0 (mkCoin "base" 0) (Some EInsufficientLiquidity);
    mkCalcOutAmountGivenInTestCase "invalid duplicate denom" [] (mkCoin "base" 100) "base" 0 (mkCoin "base" 0) (Some (EInvalidPair "base" "base"));
    mkCalcOutAmountGivenInTestCase "invalid in denom" [] (mkCoin "notadenom" 100) "base" 0 (mkCoin "base" 0) (Some (EInvalidPair "notadenom" "base"));
    mkCalcOutAmountGivenInTestCase "invalid out denom" [] (mkCoin "base" 100) "notadenom" 0 (mkCoin "base" 0) (Some (EInvalidPair "base" "notadenom"));
    mkCalcOutAmountGivenInTestCase "invalid zero amount" [] (mkCoin "base" 0) "quote" 0 (mkCoin "base" 0) (Some (EInvalidSwap ZeroInput)) ].
(* END *)
Example test_calc_out_amount_given_in : failures co_name check_calc test_calc_out_amount_given_in_cases = [].
Proof. vm_compute. reflexivity. Qed.

(** src/tests/test_query.rs:711-716, 777-820 *)
Record TotalPoolLiquidityTestCase := mkTotalPoolLiquidityTestCase { tl_name : string; tl_ops : list op; tl_expected : list coin; tl_error : option error }.
Definition check_liquidity (c : TotalPoolLiquidityTestCase) : bool :=
  after_ops "sender" (tl_ops c) (fun s => result_is (tl_error c) (tl_expected c) (total_pool_liquidity s)).
(* BEGIN tests/test_query.rs test_total_pool_liquidity TotalPoolLiquidityTestCase *)
Definition test_total_pool_liquidity_cases : list TotalPoolLiquidityTestCase :=
  [ mkTotalPoolLiquidityTestCase "simple test" [] [mkCoin "base" 0; mkCoin "quote" 0] None;
    mkTotalPoolLiquidityTestCase "basic single tick non-empty query" [OpPlace (mkOrder 0 0 Bid "sender" 100 0 None 100 ttime); OpPlace (mkOrder 0 1 Ask "sender" 100 0 None 100 ttime)] [mkCoin "base" 100; mkCoin "quote" 100] None;
    mkTotalPoolLiquidityTestCase "multi-tick test" [OpMulti [(-1); (-2); (-3); (-5); (-8); (-13); (-21); (-34); (-55); (-5000000)] 100 50 Bid; OpMulti [1; 2; 3; 5; 8; 13; 21; 34; 55; 1000000] 100 110 Ask] [mkCoin "base" 110000; mkCoin "quote" 50000] None ].
(* END *)
Example test_total_pool_liquidity : failures tl_name check_liquidity test_total_pool_liquidity_cases = [].
Proof. vm_compute. reflexivity. Qed.

(** src/tests/test_query.rs:822-829, 1160-1197 *)
Record AllTicksTestCase := mkAllTicksTestCase { at_name : string; at_ops : list op; at_expected : list tick_state; at_start : option Z; at_end : option Z; at_limit : option Z }.
Definition check_ticks (c : AllTicksTestCase) : bool :=
  after_ops "sender" (at_ops c) (fun s => ok_and (all_ticks s (at_start c) (at_end c) (at_limit c)) (fun l => eqb (map snd l) (at_expected c))).
(* BEGIN tests/test_query.rs test_all_ticks AllTicksTestCase *)
Definition test_all_ticks_cases : list AllTicksTestCase :=
  [ mkAllTicksTestCase "Test all ticks" [] [] None None None;
    mkAllTicksTestCase "Single order, single tick" [OpPlace (mkOrder 0 0 Ask "sender" 1 0 None 1 ttime)] [mkTS (mkTV (1 * DEC) (1 * DEC) 0 0 0) (mkTV 0 0 0 0 0)] None None None;
    mkAllTicksTestCase "Multiple directions, single tick" [OpPlace (mkOrder 0 0 Ask "sender" 1 0 None 1 ttime); OpPlace (mkOrder 0 0 Bid "sender" 1 0 None 1 ttime)] [mkTS (mkTV (1 * DEC) (1 * DEC) 0 0 0) (mkTV (1 * DEC) (1 * DEC) 0 0 0)] None None None;
    mkAllTicksTestCase "Multiple directions, many ticks" [OpMulti [0; 1; 2; 3; 4; 5; 6; 7; 8; 9; 10; 11; 12; 13; 14; 15; 16; 17; 18; 19; 20; 21; 22; 23; 24; 25; 26; 27; 28; 29; 30; 31; 32; 33; 34; 35; 36; 37; 38; 39; 40; 41; 42; 43; 44; 45; 46; 47; 48; 49; 50; 51; 52; 53; 54; 55; 56; 57; 58; 59; 60; 61; 62; 63; 64; 65; 66; 67; 68; 69; 70; 71; 72; 73; 74; 75; 76; 77; 78; 79; 80; 81; 82; 83; 84; 85; 86; 87; 88; 89; 90; 91; 92; 93; 94; 95; 96; 97; 98; 99] 10 10 Ask; OpMulti [0; 1; 2; 3; 4; 5; 6; 7; 8; 9; 10; 11; 12; 13; 14; 15; 16; 17; 18; 19; 20; 21; 22; 23; 24; 25; 26; 27; 28; 29; 30; 31; 32; 33; 34; 35; 36; 37; 38; 39; 40; 41; 42; 43; 44; 45; 46; 47; 48; 49; 50; 51; 52; 53; 54; 55; 56; 57; 58; 59; 60; 61; 62; 63; 64; 65; 66; 67; 68; 69; 70; 71; 72; 73; 74; 75; 76; 77; 78; 79; 80; 81; 82; 83; 84; 85; 86; 87; 88; 89; 90; 91; 92; 93; 94; 95; 96; 97; 98; 99] 10 100 Bid] ((repeat (mkTS (mkTV (100 * DEC) (100 * DEC) 0 0 0) (mkTV (1000 * DEC) (1000 * DEC) 0 0 0)) 100)) None None None;
    mkAllTicksTestCase "Multiple directions, many ticks w/ limit" [OpMulti [0; 1; 2; 3; 4; 5; 6; 7; 8; 9; 10; 11; 12; 13; 14; 15; 16; 17; 18; 19; 20; 21; 22; 23; 24; 25; 26; 27; 28; 29; 30; 31; 32; 33; 34; 35; 36; 37; 38; 39; 40; 41; 42; 43; 44; 45; 46; 47; 48; 49; 50; 51; 52; 53; 54; 55; 56; 57; 58; 59; 60; 61; 62; 63; 64; 65; 66; 67; 68; 69; 70; 71; 72; 73; 74; 75; 76; 77; 78; 79; 80; 81; 82; 83; 84; 85; 86; 87; 88; 89; 90; 91; 92; 93; 94; 95; 96; 97; 98; 99] 10 10 Ask; OpMulti [0; 1; 2; 3; 4; 5; 6; 7; 8; 9; 10; 11; 12; 13; 14; 15; 16; 17; 18; 19; 20; 21; 22; 23; 24; 25; 26; 27; 28; 29; 30; 31; 32; 33; 34; 35; 36; 37; 38; 39; 40; 41; 42; 43; 44; 45; 46; 47; 48; 49; 50; 51; 52; 53; 54; 55; 56; 57; 58; 59; 60; 61; 62; 63; 64; 65; 66; 67; 68; 69; 70; 71; 72; 73; 74; 75; 76; 77; 78; 79; 80; 81; 82; 83; 84; 85; 86; 87; 88; 89; 90; 91; 92; 93; 94; 95; 96; 97; 98; 99] 10 100 Bid] ((repeat (mkTS (mkTV (100 * DEC) (100 * DEC) 0 0 0) (mkTV (1000 * DEC) (1000 * DEC) 0 0 0)) 50)) None None (Some 50);
    mkAllTicksTestCase "Multiple directions, many ticks w/ start after" [OpMulti [0; 1; 2; 3; 4; 5; 6; 7; 8; 9; 10; 11; 12; 13; 14; 15; 16; 17; 18; 19; 20; 21; 22; 23; 24; 25; 26; 27; 28; 29; 30; 31; 32; 33; 34; 35; 36; 37; 38; 39; 40; 41; 42; 43; 44; 45; 46; 47; 48; 49; 50; 51; 52; 53; 54; 55; 56; 57; 58; 59; 60; 61; 62; 63; 64; 65; 66; 67; 68; 69; 70; 71; 72; 73; 74; 75; 76; 77; 78; 79; 80; 81; 82; 83; 84; 85; 86; 87; 88; 89; 90; 91; 92; 93; 94; 95; 96; 97; 98; 99] 10 10 Ask; OpMulti [0; 1; 2; 3; 4; 5; 6; 7; 8; 9; 10; 11; 12; 13; 14; 15; 16; 17; 18; 19; 20; 21; 22; 23; 24; 25; 26; 27; 28; 29; 30; 31; 32; 33; 34; 35; 36; 37; 38; 39; 40; 41; 42; 43; 44; 45; 46; 47; 48; 49; 50; 51; 52; 53; 54; 55; 56; 57; 58; 59; 60; 61; 62; 63; 64; 65; 66; 67; 68; 69; 70; 71; 72; 73; 74; 75; 76; 77; 78; 79; 80; 81; 82; 83; 84; 85; 86; 87; 88; 89; 90; 91; 92; 93; 94; 95; 96; 97; 98; 99] 10 100 Bid] ((repeat (mkTS (mkTV (100 * DEC) (100 * DEC) 0 0 0) (mkTV (1000 * DEC) (1000 * DEC) 0 0 0)) 10)) (Some 90) None None;
    mkAllTicksTestCase "Multiple directions, many ticks w/ end at" [OpMulti [0; 1; 2; 3; 4; 5; 6; 7; 8; 9; 10; 11; 12; 13; 14; 15; 16; 17; 18; 19; 20; 21; 22; 23; 24; 25; 26; 27; 28; 29; 30; 31; 32; 33; 34; 35; 36; 37; 38; 39; 40; 41; 42; 43; 44; 45; 46; 47; 48; 49; 50; 51; 52; 53; 54; 55; 56; 57; 58; 59; 60; 61; 62; 63; 64; 65; 66; 67; 68; 69; 70; 71; 72; 73; 74; 75; 76; 77; 78; 79; 80; 81; 82; 83; 84; 85; 86; 87; 88; 89; 90; 91; 92; 93; 94; 95; 96; 97; 98; 99] 10 10 Ask; OpMulti [0; 1; 2; 3; 4; 5; 6; 7; 8; 9; 10; 11; 12; 13; 14; 15; 16; 17; 18; 19; 20; 21; 22; 23; 24; 25; 26; 27; 28; 29; 30; 31; 32; 33; 34; 35; 36; 37; 38; 39; 40; 41; 42; 43; 44; 45; 46; 47; 48; 49; 50; 51; 52; 53; 54; 55; 56; 57; 58; 59; 60; 61; 62; 63; 64; 65; 66; 67; 68; 69; 70; 71; 72; 73; 74; 75; 76; 77; 78; 79; 80; 81; 82; 83; 84; 85; 86; 87; 88; 89; 90; 91; 92; 93; 94; 95; 96; 97; 98; 99] 10 100 Bid] ((repeat (mkTS (mkTV (100 * DEC) (100 * DEC) 0 0 0) (mkTV (1000 * DEC) (1000 * DEC) 0 0 0)) 45)) None (Some 44) None;
    mkAllTicksTestCase "Multiple directions, many ticks w/ start after & end at" [OpMulti [0; 1; 2; 3; 4; 5; 6; 7; 8; 9; 10; 11; 12; 13; 14; 15; 16; 17; 18; 19; 20; 21; 22; 23; 24; 25; 26; 27; 28; 29; 30; 31; 32; 33; 34; 35; 36; 37; 38; 39; 40; 41; 42; 43; 44; 45; 46; 47; 48; 49; 50; 51; 52; 53; 54; 55; 56; 57; 58; 59; 60; 61; 62; 63; 64; 65; 66; 67; 68; 69; 70; 71; 72; 73; 74; 75; 76; 77; 78; 79; 80; 81; 82; 83; 84; 85; 86; 87; 88; 89; 90; 91; 92; 93; 94; 95; 96; 97; 98; 99] 10 10 Ask; OpMulti [0; 1; 2; 3; 4; 5; 6; 7; 8; 9; 10; 11; 12; 13; 14; 15; 16; 17; 18; 19; 20; 21; 22; 23; 24; 25; 26; 27; 28; 29; 30; 31; 32; 33; 34; 35; 36; 37; 38; 39; 40; 41; 42; 43; 44; 45; 46; 47; 48; 49; 50; 51; 52; 53; 54; 55; 56; 57; 58; 59; 60; 61; 62; 63; 64; 65; 66; 67; 68; 69; 70; 71; 72; 73; 74; 75; 76; 77; 78; 79; 80; 81; 82; 83; 84; 85; 86; 87; 88; 89; 90; 91; 92; 93; 94; 95; 96; 97; 98; 99] 10 100 Bid] ((repeat (mkTS (mkTV (100 * DEC) (100 * DEC) 0 0 0) (mkTV (1000 * DEC) (1000 * DEC) 0 0 0)) 24)) (Some 21) (Some 44) None;
    mkAllTicksTestCase "large number of ticks" [OpMulti [0; 1; 2; 3; 4; 5; 6; 7; 8; 9; 10; 11; 12; 13; 14; 15; 16; 17; 18; 19; 20; 21; 22; 23; 24; 25; 26; 27; 28; 29; 30; 31; 32; 33; 34; 35; 36; 37; 38; 39; 40; 41; 42; 43; 44; 45; 46; 47; 48; 49; 50; 51; 52; 53; 54; 55; 56; 57; 58; 59; 60; 61; 62; 63; 64; 65; 66; 67; 68; 69; 70; 71; 72; 73; 74; 75; 76; 77; 78; 79; 80; 81; 82; 83; 84; 85; 86; 87; 88; 89; 90; 91; 92; 93; 94; 95; 96; 97; 98; 99; 100; 101; 102; 103; 104; 105; 106; 107; 108; 109; 110; 111; 112; 113; 114; 115; 116; 117; 118; 119; 120; 121; 122; 123; 124; 125; 126; 127; 128; 129; 130; 131; 132; 133; 134; 135; 136; 137; 138; 139; 140; 141; 142; 143; 144; 145; 146; 147; 148; 149; 150; 151; 152; 153; 154; 155; 156; 157; 158; 159; 160; 161; 162; 163; 164; 165; 166; 167; 168; 169; 170; 171; 172; 173; 174; 175; 176; 177; 178; 179; 180; 181; 182; 183; 184; 185; 186; 187; 188; 189; 190; 191; 192; 193; 194; 195; 196; 197; 198; 199; 200; 201; 202; 203; 204; 205; 206; 207; 208; 209; 210; 211; 212; 213; 214; 215; 216; 217; 218; 219; 220; 221; 222; 223; 224; 225; 226; 227; 228; 229; 230; 231; 232; 233; 234; 235; 236; 237; 238; 239; 240; 241; 242; 243; 244; 245; 246; 247; 248; 249; 250; 251; 252; 253; 254; 255; 256; 257; 258; 259; 260; 261; 262; 263; 264; 265; 266; 267; 268; 269; 270; 271; 272; 273; 274; 275; 276; 277; 278; 279; 280; 281; 282; 283; 284; 285; 286; 287; 288; 289; 290; 291; 292; 293; 294; 295; 296; 297; 298; 299; 300; 301; 302; 303; 304; 305; 306; 307; 308; 309; 310; 311; 312; 313; 314; 315; 316; 317; 318; 319; 320; 321; 322; 323; 324; 325; 326; 327; 328; 329; 330; 331; 332; 333; 334; 335; 336; 337; 338; 339; 340; 341; 342; 343; 344; 345; 346; 347; 348; 349; 350; 351; 352; 353; 354; 355; 356; 357; 358; 359; 360; 361; 362; 363; 364; 365; 366; 367; 368; 369; 370; 371; 372; 373; 374; 375; 376; 377; 378; 379; 380; 381; 382; 383; 384; 385; 386; 387; 388; 389; 390; 391; 392; 393; 394; 395; 396; 397; 398; 399; 400; 401; 402; 403; 404; 405; 406; 407; 408; 409; 410; 411; 412; 413; 414; 415; 416; 417; 418; 419; 420; 421; 422; 423; 424; 425; 426; 427; 428; 429; 430; 431; 432; 433; 434; 435; 436; 437; 438; 439; 440; 441; 442; 443; 444; 445; 446; 447; 448; 449; 450; 451; 452; 453; 454; 455; 456; 457; 458; 459; 460; 461; 462; 463; 464; 465; 466; 467; 468; 469; 470; 471; 472; 473; 474; 475; 476; 477; 478; 479; 480; 481; 482; 483; 484; 485; 486; 487; 488; 489; 490; 491; 492; 493; 494; 495; 496; 497; 498; 499; 500; 501; 502; 503; 504; 505; 506; 507; 508; 509; 510; 511; 512; 513; 514; 515; 516; 517; 518; 519; 520; 521; 522; 523; 524; 525; 526; 527; 528; 529; 530; 531; 532; 533; 534; 535; 536; 537; 538; 539; 540; 541; 542; 543; 544; 545; 546; 547; 548; 549; 550; 551; 552; 553; 554; 555; 556; 557; 558; 559; 560; 561; 562; 563; 564; 565; 566; 567; 568; 569; 570; 571; 572; 573; 574; 575; 576; 577; 578; 579; 580; 581; 582; 583; 584; 585; 586; 587; 588; 589; 590; 591; 592; 593; 594; 595; 596; 597; 598; 599; 600; 601; 602; 603; 604; 605; 606; 607; 608; 609; 610; 611; 612; 613; 614; 615; 616; 617; 618; 619; 620; 621; 622; 623; 624; 625; 626; 627; 628; 629; 630; 631; 632; 633; 634; 635; 636; 637; 638; 639; 640; 641; 642; 643; 644; 645; 646; 647; 648; 649; 650; 651; 652; 653; 654; 655; 656; 657; 658; 659; 660; 661; 662; 663; 664; 665; 666; 667; 668; 669; 670; 671; 672; 673; 674; 675; 676; 677; 678; 679; 680; 681; 682; 683; 684; 685; 686; 687; 688; 689; 690; 691; 692; 693; 694; 695; 696; 697; 698; 699; 700; 701; 702; 703; 704; 705; 706; 707; 708; 709; 710; 711; 712; 713; 714; 715; 716; 717; 718; 719; 720; 721; 722; 723; 724; 725; 726; 727; 728; 729; 730; 731; 732; 733; 734; 735; 736; 737; 738; 739; 740; 741; 742; 743; 744; 745; 746; 747; 748; 749; 750; 751; 752; 753; 754; 755; 756; 757; 758; 759; 760; 761; 762; 763; 764; 765; 766; 767; 768; 769; 770; 771; 772; 773; 774; 775; 776; 777; 778; 779; 780; 781; 782; 783; 784; 785; 786; 787; 788; 789; 790; 791; 792; 793; 794; 795; 796; 797; 798; 799; 800; 801; 802; 803; 804; 805; 806; 807; 808; 809; 810; 811; 812; 813; 814; 815; 816; 817; 818; 819; 820; 821; 822; 823; 824; 825; 826; 827; 828; 829; 830; 831; 832; 833; 834; 835; 836; 837; 838; 839; 840; 841; 842; 843; 844; 845; 846; 847; 848; 849; 850; 851; 852; 853; 854; 855; 856; 857; 858; 859; 860; 861; 862; 863; 864; 865; 866; 867; 868; 869; 870; 871; 872; 873; 874; 875; 876; 877; 878; 879; 880; 881; 882; 883; 884; 885; 886; 887; 888; 889; 890; 891; 892; 893; 894; 895; 896; 897; 898; 899; 900; 901; 902; 903; 904; 905; 906; 907; 908; 909; 910; 911; 912; 913; 914; 915; 916; 917; 918; 919; 920; 921; 922; 923; 924; 925; 926; 927; 928; 929; 930; 931; 932; 933; 934; 935; 936; 937; 938; 939; 940; 941; 942; 943; 944; 945; 946; 947; 948; 949; 950; 951; 952; 953; 954; 955; 956; 957; 958; 959; 960; 961; 962; 963; 964; 965; 966; 967; 968; 969; 970; 971; 972; 973; 974; 975; 976; 977; 978; 979; 980; 981; 982; 983; 984; 985; 986; 987; 988; 989; 990; 991; 992; 993; 994; 995; 996; 997; 998; 999; 1000; 1001; 1002; 1003; 1004; 1005; 1006; 1007; 1008; 1009] 10 100 Bid] ((repeat (mkTS (mkTV 0 0 0 0 0) (mkTV (1000 * DEC) (1000 * DEC) 0 0 0)) 1010)) None None None;
    mkAllTicksTestCase "single tick paginated" [OpMulti [0; 1; 2; 3; 4; 5; 6; 7; 8; 9; 10; 11; 12; 13; 14; 15; 16; 17; 18; 19; 20; 21; 22; 23; 24; 25; 26; 27; 28; 29; 30; 31; 32; 33; 34; 35; 36; 37; 38; 39; 40; 41; 42; 43; 44; 45; 46; 47; 48; 49; 50; 51; 52; 53; 54; 55; 56; 57; 58; 59; 60; 61; 62; 63; 64; 65; 66; 67; 68; 69; 70; 71; 72; 73; 74; 75; 76; 77; 78; 79; 80; 81; 82; 83; 84; 85; 86; 87; 88; 89; 90; 91; 92; 93; 94; 95; 96; 97; 98; 99; 100; 101; 102; 103; 104; 105; 106; 107; 108; 109; 110; 111; 112; 113; 114; 115; 116; 117; 118; 119; 120; 121; 122; 123; 124; 125; 126; 127; 128; 129; 130; 131; 132; 133; 134; 135; 136; 137; 138; 139; 140; 141; 142; 143; 144; 145; 146; 147; 148; 149; 150; 151; 152; 153; 154; 155; 156; 157; 158; 159; 160; 161; 162; 163; 164; 165; 166; 167; 168; 169; 170; 171; 172; 173; 174; 175; 176; 177; 178; 179; 180; 181; 182; 183; 184; 185; 186; 187; 188; 189; 190; 191; 192; 193; 194; 195; 196; 197; 198; 199] 10 100 Bid] [mkTS (mkTV 0 0 0 0 0) (mkTV (1000 * DEC) (1000 * DEC) 0 0 0)] (Some 11) (Some 11) None ].
(* END *)
Example test_all_ticks : failures at_name check_ticks test_all_ticks_cases = [].
Proof. vm_compute. reflexivity. Qed.

(** src/tests/test_query.rs:1199-1243 *)
Record IsActiveTestCase := mkIsActiveTestCase { ia_name : string; ia_active : option bool }.
(* BEGIN tests/test_query.rs test_is_active IsActiveTestCase *)
Definition test_is_active_cases : list IsActiveTestCase :=
  [ mkIsActiveTestCase "active status" (Some true);
    mkIsActiveTestCase "inactive status" (Some false);
    mkIsActiveTestCase "no active status (active)" None ].
(* END *)
Example test_is_active :
  failures ia_name (fun c => eqb (is_active (match ia_active c with Some b => fst (set_active b st_empty) | None => st_empty end)) (unwrap_or (ia_active c) true)) test_is_active_cases = [].
Proof. vm_compute. reflexivity. Qed.

(** src/tests/test_query.rs:1245-1255, 1493-1553 *)
Record OrdersByOwnerTestCase := mkOrdersByOwnerTestCase {
  oo_name : string; oo_ops : list op; oo_expected : list limit_order; oo_count : Z; oo_owner : string;
  oo_start : option (Z * Z); oo_end : option (Z * Z); oo_limit : option Z; oo_error : option error }.
Definition check_owner (c : OrdersByOwnerTestCase) : bool :=
  after_ops (oo_owner c) (oo_ops c) (fun s =>
    result_is (oo_error c) (oo_count c, oo_expected c) (orders_by_owner s (oo_owner c) (oo_start c) (oo_end c) (oo_limit c))).
(* BEGIN tests/test_query.rs test_orders_by_owner OrdersByOwnerTestCase *)
Definition test_orders_by_owner_cases : list OrdersByOwnerTestCase :=
  [ mkOrdersByOwnerTestCase "no orders" [] [] 0 "sender" None None None None;
    mkOrdersByOwnerTestCase "single order" [OpPlace (mkOrder 0 0 Bid "sender" 100 0 None 100 ttime)] [mkOrder 0 0 Bid "sender" 100 0 None 100 ttime] 1 "sender" None None None None;
    mkOrdersByOwnerTestCase "multiple orders, pagination limit" [OpPlace (mkOrder 0 0 Ask "sender" 50 0 None 50 ttime); OpPlace (mkOrder 1 1 Bid "sender" 150 0 None 150 ttime)] [mkOrder 0 0 Ask "sender" 50 0 None 50 ttime] 2 "sender" None None (Some 1) None;
    mkOrdersByOwnerTestCase "multiple orders, start_from" [OpPlace (mkOrder 0 0 Ask "sender" 50 0 None 50 ttime); OpPlace (mkOrder 1 1 Bid "sender" 150 0 None 150 ttime)] [mkOrder 1 1 Bid "sender" 150 0 None 150 ttime] 2 "sender" (Some (0, 1)) None None None;
    mkOrdersByOwnerTestCase "multiple orders, end_at" [OpPlace (mkOrder 0 0 Ask "sender" 50 0 None 50 ttime); OpPlace (mkOrder 1 1 Bid "sender" 150 0 None 150 ttime)] [mkOrder 0 0 Ask "sender" 50 0 None 50 ttime] 2 "sender" None (Some (0, 0)) None None;
    mkOrdersByOwnerTestCase "multiple orders, ordering by tick maintained" [OpPlace (mkOrder 0 0 Ask "sender" 50 0 None 50 ttime); OpPlace (mkOrder 1 1 Bid "sender" 150 0 None 150 ttime); OpPlace (mkOrder 1 2 Bid "sender" 150 0 None 150 ttime); OpPlace (mkOrder 0 3 Ask "sender" 150 0 None 150 ttime); OpCancel 1 1] [mkOrder 0 0 Ask "sender" 50 0 None 50 ttime; mkOrder 0 3 Ask "sender" 150 (50 * DEC) None 150 ttime; mkOrder 1 2 Bid "sender" 150 (150 * DEC) None 150 ttime] 3 "sender" None None None None ].
(* END *)
Example test_orders_by_owner : failures oo_name check_owner test_orders_by_owner_cases = [].
Proof. vm_compute. reflexivity. Qed.

(** src/tests/test_query.rs:1556-1566, 1821-1882 *)
Record TestOrdersByTicksCase := mkTestOrdersByTicksCase {
  ot_name : string; ot_ops : list op; ot_expected : list limit_order; ot_count : Z; ot_tick : Z; ot_limit : option Z;
  ot_start : option Z; ot_end : option Z; ot_error : option error }.
Definition check_by_tick (c : TestOrdersByTicksCase) : bool :=
  after_ops "sender" (ot_ops c) (fun s =>
    result_is (ot_error c) (ot_count c, ot_expected c) (orders_by_tick s (ot_tick c) (ot_start c) (ot_end c) (ot_limit c))).
(* BEGIN tests/test_query.rs test_orders_by_ticks TestOrdersByTicksCase *)
Definition test_orders_by_ticks_cases : list TestOrdersByTicksCase :=
  [ mkTestOrdersByTicksCase "no orders" [] [] 0 0 None None None None;
    mkTestOrdersByTicksCase "single order" [OpPlace (mkOrder 0 0 Bid "sender" 100 0 None 100 ttime)] [mkOrder 0 0 Bid "sender" 100 0 None 100 ttime] 1 0 None None None None;
    mkTestOrdersByTicksCase "multiple orders" [OpPlace (mkOrder 1 0 Bid "owner" 100 0 None 100 ttime); OpPlace (mkOrder 1 1 Ask "owner" 200 0 None 200 ttime)] [mkOrder 1 0 Bid "owner" 100 0 None 100 ttime; mkOrder 1 1 Ask "owner" 200 0 None 200 ttime] 2 1 None None None None;
    mkTestOrdersByTicksCase "multiple orders w/ limit" [OpPlace (mkOrder 1 0 Bid "owner" 100 0 None 100 ttime); OpPlace (mkOrder 1 1 Ask "owner" 200 0 None 200 ttime); OpPlace (mkOrder 1 2 Bid "owner" 100 0 None 100 ttime)] [mkOrder 1 0 Bid "owner" 100 0 None 100 ttime; mkOrder 1 1 Ask "owner" 200 0 None 200 ttime] 3 1 (Some 2) None None None;
    mkTestOrdersByTicksCase "multiple orders w/ limit + start from" [OpPlace (mkOrder 1 0 Bid "owner" 100 0 None 100 ttime); OpPlace (mkOrder 1 1 Ask "owner" 200 0 None 200 ttime); OpPlace (mkOrder 1 2 Bid "owner" 100 0 None 100 ttime)] [mkOrder 1 1 Ask "owner" 200 0 None 200 ttime; mkOrder 1 2 Bid "owner" 100 (100 * DEC) None 100 ttime] 2 1 (Some 2) (Some 1) None None;
    mkTestOrdersByTicksCase "multiple orders w/ limit + end at" [OpPlace (mkOrder 1 0 Bid "owner" 100 0 None 100 ttime); OpPlace (mkOrder 1 1 Ask "owner" 200 0 None 200 ttime); OpPlace (mkOrder 1 2 Bid "owner" 100 0 None 100 ttime)] [mkOrder 1 0 Bid "owner" 100 0 None 100 ttime] 1 1 (Some 2) None (Some 0) None ].
(* END *)
Example test_orders_by_ticks : failures ot_name check_by_tick test_orders_by_ticks_cases = [].
Proof. vm_compute. reflexivity. Qed.

(** src/tests/test_query.rs:1884-1890, 2059-2107 *)
Record TicksByIdTestCase := mkTicksByIdTestCase { ti_name : string; ti_ops : list op; ti_expected : list tick_state; ti_ids : list Z; ti_error : option error }.
Definition check_by_id (c : TicksByIdTestCase) : bool :=
  after_ops "sender" (ti_ops c) (fun s =>
    match ti_error c with
    | Some e => err_is e (ticks_by_id s (ti_ids c))
    | None => ok_and (ticks_by_id s (ti_ids c)) (fun l => eqb (map snd l) (ti_expected c))
    end).
(* BEGIN tests/test_query.rs test_ticks_by_id TicksByIdTestCase *)
Definition test_ticks_by_id_cases : list TicksByIdTestCase :=
  [ mkTicksByIdTestCase "no orders" [] [] [] None;
    mkTicksByIdTestCase "single order" [OpPlace (mkOrder 1 100 Bid "trader1" 500 0 None 500 ttime)] [mkTS (mkTV 0 0 0 0 0) (mkTV (500 * DEC) (500 * DEC) 0 0 0)] [1] None;
    mkTicksByIdTestCase "multiple orders, multiple ticks" [OpPlace (mkOrder 1 100 Bid "trader1" 300 0 None 300 ttime); OpPlace (mkOrder 2 200 Ask "trader2" 400 0 None 400 ttime)] [mkTS (mkTV 0 0 0 0 0) (mkTV (300 * DEC) (300 * DEC) 0 0 0); mkTS (mkTV (400 * DEC) (400 * DEC) 0 0 0) (mkTV 0 0 0 0 0)] [1; 2] None;
    mkTicksByIdTestCase "Single order (cancelled + unrealized), single tick" [OpPlace (mkOrder 0 0 Ask "sender" 1 0 None 1 ttime); OpCancel 0 0] [mkTS (mkTV 0 (1 * DEC) 0 0 0) (mkTV 0 0 0 0 0)] [0] None;
    mkTicksByIdTestCase "Single order (cancelled + realized), single tick" [OpPlace (mkOrder 0 0 Ask "sender" 1 0 None 1 ttime); OpCancel 0 0; OpPlace (mkOrder 0 1 Ask "sender" 1 0 None 1 ttime); OpMarket 1 Bid; OpClaim 0 1] [mkTS (mkTV 0 (2 * DEC) (2 * DEC) (1 * DEC) (1 * DEC)) (mkTV 0 0 0 0 0)] [0] None;
    mkTicksByIdTestCase "error: invalid tick id" [OpPlace (mkOrder 1 100 Bid "trader1" 500 0 None 500 ttime)] [] [1; 2] (Some (EInvalidTickId 2)) ].
(* END *)
Example test_ticks_by_id : failures ti_name check_by_id test_ticks_by_id_cases = [].
Proof. vm_compute. reflexivity. Qed.

(** src/tests/test_query.rs:2110-2115, 2186-2243 *)
Record TestTickUnrealizedCancelsByIdCase := mkTestTickUnrealizedCancelsByIdCase { tu_name : string; tu_ops : list op; tu_expected : list (Z * (dir * Z)); tu_ids : list Z }.
Definition check_unrealized (c : TestTickUnrealizedCancelsByIdCase) : bool :=
  after_ops "sender" (tu_ops c) (fun s =>
    ok_and (ticks_unrealized_cancels_by_id s (tu_ids c)) (fun l =>
      Nat.eqb (length l) (length (tu_ids c)) &&
      eqb (List.filter (fun p => negb (snd (snd p) =? 0)) (flat_map (fun p => [(fst p, (Bid, snd (snd p))); (fst p, (Ask, fst (snd p)))]) l)) (tu_expected c))).
(* BEGIN tests/test_query.rs test_tick_unrealized_cancels_by_id TestTickUnrealizedCancelsByIdCase *)
Definition test_tick_unrealized_cancels_by_id_cases : list TestTickUnrealizedCancelsByIdCase :=
  [ mkTestTickUnrealizedCancelsByIdCase "no orders" [] [] [];
    mkTestTickUnrealizedCancelsByIdCase "single order not cancelled" [OpPlace (mkOrder 0 0 Bid "sender" 1 0 None 1 ttime)] [] [0];
    mkTestTickUnrealizedCancelsByIdCase "single order cancelled and unrealized" [OpPlace (mkOrder 0 0 Bid "sender" 1 0 None 1 ttime); OpCancel 0 0] [(0, (Bid, (1 * DEC)))] [0];
    mkTestTickUnrealizedCancelsByIdCase "single order cancelled and realized" [OpPlace (mkOrder 0 0 Bid "sender" 1 0 None 1 ttime); OpCancel 0 0; OpPlace (mkOrder 0 1 Bid "sender" 1 0 None 1 ttime); OpMarket 1 Ask; OpClaim 0 1] [] [0] ].
(* END *)
Example test_tick_unrealized_cancels_by_id : failures tu_name check_unrealized test_tick_unrealized_cancels_by_id_cases = [].
Proof. vm_compute. reflexivity. Qed.
