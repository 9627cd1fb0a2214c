(** * C69, continued: the ticks a swap looks at can be multiplied for free. *)
From Verif Require Import Base Dec Types State TickMath Sumtree Tick Order Auth Contract World Spec SpecMath SpecProps SpecSpot SpecCost SpecReads
  Exec Inv Reach Trans Refine Books Solvency PropBase PropOrders PropSwap PropQuery PropFree PropCurve PropQuote PropSpot PropMachine PropReads Tests.

(** The [j]-th tick in front of tick [T] on side [m]: better priced by [j] ticks. *)
Definition ahead (m : dir) (T j : Z) : Z := match m with Ask => T - j | Bid => T + j end.
(** Calls by [a] that place an order of one unit, or take one back. *)
Definition place_or_cancel (a : string) (c : call) : Prop :=
  exists t, (exists d funds, c = c_place a funds t d 1 None) \/ (exists id, c = c_cancel a t id).
(** The two books offer the same orders, hold the same amounts and are open alike. *)
Record same_market (w w' : world) : Prop := {
  sm_orders : s_orders (w_st w') = s_orders (w_st w);
  sm_liq : forall t d, tick_liquidity (w_st w') t d = tick_liquidity (w_st w) t d;
  sm_pool : forall d, pool_liquidity (w_st w') d = pool_liquidity (w_st w) d;
  sm_admin : admin_data (w_st w') = admin_data (w_st w);
  sm_denoms : denoms_of (w_st w') = denoms_of (w_st w);
  sm_bal : forall denom, balance w' denom = balance w denom
}.
Lemma admin_active s s' : admin_data s' = admin_data s -> active s' = active s.
Proof. unfold admin_data, active. intros E. injection E as -> _. reflexivity. Qed.
Lemma market_refl w : same_market w w.
Proof. constructor; reflexivity. Qed.
Lemma market_trans w w' w'' : same_market w w' -> same_market w' w'' -> same_market w w''.
Proof. intros [A1 A2 A3 A4 A5 A6] [B1 B2 B3 B4 B5 B6]. constructor; intros; congruence. Qed.
Lemma market_denom w w' d : same_market w w' -> deposit_denom (w_st w') d = deposit_denom (w_st w) d.
Proof. intros H. pose proof (sm_denoms _ _ H) as E. unfold denoms_of in E. injection E. destruct d; auto. Qed.

Lemma known_step self e w c w' r : reachable w -> self = w_self w -> call_ok self c = true -> step e w c = (w', Done r) ->
  forall t, known (w_st w') t <-> known (w_st w) t \/ exists i d q b, c = CExec i (PlaceLimit t d q b).
Proof.
  intros Hre -> Hok E t. destruct (reachable_inv _ Hre) as (G & Hi). destruct (step_done _ _ _ _ _ _ Hi Hok E) as (G' & Ht & _).
  eapply trans_known; eauto.
Qed.
Definition further (m : dir) (x t : Z) : Z := match m with Ask => Z.min x t | Bid => Z.max x t end.
Lemma round_trip w0 h e a m t :
  start w0 -> history w0 h -> short (h ++ [(e, CMigrate); (e, CMigrate)]) -> let w := run w0 h in
  active (w_st w) = true -> valid_tick t -> a <> w_self w -> e_bank_ok e a = true ->
  exists id, let h' := [(e, c_place a [mkCoin (deposit_denom (w_st w) m) 1] t m 1 None); (e, c_cancel a t id)] in
    let w' := run w h' in
    history w0 (h ++ h') /\ same_market w w' /\ known (w_st w') t /\ (forall x, known (w_st w) x -> known (w_st w') x) /\
    next_tick (w_st w') m = further m (next_tick (w_st w) m) t.
Proof.
  intros Hs Hh Hsh w Ha Ht Hself Hbk.
  assert (Hsh0 : short h) by (eapply short_app; exact Hsh).
  pose proof (start_reachable _ _ Hs Hh) as Hre. fold w in Hre.
  set (c1 := c_place a [mkCoin (deposit_denom (w_st w) m) 1] t m 1 None).
  assert (Ok1 : call_ok (w_self w) c1 = true).
  { unfold call_ok, c1, c_place. cbn [payer_ok i_sender i_funds forallb exec_typed]. rewrite bool_decide_false by exact Hself.
    unfold coin_typed. cbn [c_amount opt_typed]. unfold valid_tick in Ht.
    assert (i64 t = true) as -> by (unfold i64; apply andb_true_intro; split; [apply Z.leb_le|apply Z.ltb_lt]; lia). reflexivity. }
  destruct (C03_place_accepted e w0 h a t m 1 None Hs Hh Hsh0 Ha Ht ltac:(unfold U128_MAX; lia) ltac:(discriminate)) as (w1 & r1 & E1). fold w c1 in E1.
  pose proof (C03_place_effect e w _ _ _ _ _ w1 r1 Hre Ok1 E1) as P. cbv zeta in P. set (id := attr_int (r_attrs r1) "order_id") in *.
  destruct P as (_ & _ & _ & _ & _ & Pnew & (o & Po & O1 & O2 & O3 & O4 & O5 & _) & Pl & Pp & Ps & Pp' & _ & Pa & Pd & Pb). cbn [i_sender] in O4.
  exists id. set (h' := [(e, c1); (e, c_cancel a t id)]).
  assert (Ok2 : call_ok (w_self w) (c_cancel a t id) = true).
  { unfold call_ok, c_cancel. cbn [payer_ok i_sender i_funds forallb exec_typed]. rewrite bool_decide_false by exact Hself. unfold valid_tick in Ht.
    assert (i64 t = true) as -> by (unfold i64; apply andb_true_intro; split; [apply Z.leb_le|apply Z.ltb_lt]; lia).
    assert (u64 id = true) as ->; [|reflexivity].
    destruct (short_ready w0 h Hs Hh Hsh0) as (G & Hrd). fold w in Hrd. pose proof (gd_inv _ _ _ (rd_good _ _ _ Hrd)) as Hi.
    destruct (step_done _ _ _ _ _ _ Hi Ok1 E1) as (G' & Tr & _). destruct (trans_place _ _ _ _ _ _ _ _ _ _ _ Tr) as (ob & _ & _ & _ & Er & _).
    assert (id = next_id (w_st w)) as -> by (unfold id; rewrite Er; reflexivity).
    pose proof (rd_next _ _ _ Hrd) as Hn. pose proof (i_next _ _ Hi) as Hn0. unfold u64. apply andb_true_intro; split; apply Z.leb_le; unfold U64_MAX; lia. }
  assert (Hh1 : history w0 (h ++ [(e, c1)])).
  { apply history_app. split; [exact Hh|]. constructor; [|constructor]. exact Ok1. }
  assert (R1 : run w0 (h ++ [(e, c1)]) = w1) by (rewrite run_last; fold w; rewrite E1; reflexivity).
  assert (Q1 : ideal_run w0 [] (h ++ [(e, c1)]) = ideal_place t m id a None (e_time e) 1 (ideal_run w0 [] h)).
  { rewrite ideal_run_last. fold w. unfold ideal_step. rewrite E1. reflexivity. }
  assert (Hsh1 : short (h ++ [(e, c1)])).
  { unfold short in *. rewrite app_length in *. cbn [length] in *. lia. }
  set (en := mkEntry t m id a None (e_time e) 1 1 0 0 0).
  assert (S1 : w_self w1 = w_self w) by (rewrite <- R1; unfold w; rewrite !run_self; reflexivity).
  pose proof (start_reachable _ _ Hs Hh1) as Hre1. rewrite R1 in Hre1.
  pose proof (C07_withdraw e w0 (h ++ [(e, c1)]) en Hs Hh1 Hsh1) as W. cbv zeta in W. rewrite R1, Q1 in W.
  destruct W as (w2 & r2 & E2 & _).
  { unfold ideal_place. apply elem_of_app. right. constructor. }
  { reflexivity. } { reflexivity. }
  { rewrite S1. exact Ok2. } { rewrite (admin_active _ _ Pa). exact Ha. } { exact Hbk. }
  cbn [en_owner en_tick en_id en] in E2. fold (c_cancel a t id) in E2.
  assert (R2 : run w h' = w2). { unfold h'. cbn [run]. rewrite E1. cbn [fst run]. rewrite E2. reflexivity. }
  cbv zeta. fold c1 h'. rewrite R2.
  rewrite <- S1 in Ok2. destruct (C05_cancel_effect e w1 _ _ _ w2 r2 Hre1 Ok2 E2) as (o' & Eo' & C). cbv zeta in C.
  assert (o' = o) as -> by (rewrite Po, lookup_insert in Eo'; congruence). rewrite O3, O5 in C.
  destruct C as (_ & _ & _ & _ & _ & Co & Cl & Cp & Cl' & _ & Cp' & Cob & Ca & Cb).
  split. { apply history_app. split; [exact Hh|]. fold w. unfold history. constructor; [exact Ok1|]. constructor; [|constructor]. cbn [snd]. rewrite <- S1. exact Ok2. }
  split.
  { constructor.
    - rewrite Co, Po. apply delete_insert, Pnew.
    - intros t' d'. destruct (decide (t' = t /\ d' = m)) as [[-> ->]|Hn]; [lia|]. rewrite (Cl' _ _ Hn). specialize (Ps t' d' Hn).
      rewrite !liq_side, Ps. reflexivity.
    - intros d'. destruct (decide (d' = m)) as [->|Hn]; [lia|]. assert (d' = opposite m) as -> by (destruct d', m; cbn; congruence). congruence.
    - congruence.
    - unfold denoms_of, deposit_denom in *. rewrite Cob. exact Pd.
    - intros dn. rewrite Cb, Pb. assert (deposit_denom (w_st w1) m = deposit_denom (w_st w) m) as -> by (unfold denoms_of in Pd; injection Pd; destruct m; auto).
      destruct (bool_decide _); lia. }
  pose proof (known_step _ _ _ _ _ _ Hre eq_refl Ok1 E1) as K1. pose proof (known_step _ _ _ _ _ _ Hre1 eq_refl Ok2 E2) as K2.
  split. { apply K2. left. apply K1. right. unfold c1, c_place. eauto. }
  split. { intros x Hx. apply K2. left. apply K1. left. exact Hx. }
  pose proof (C57_pointers _ _ _ _ _ Hre Ok1 E1) as M1. pose proof (C57_pointers _ _ _ _ _ Hre1 Ok2 E2) as M2. cbn [moves c_place c_cancel c1] in M1, M2.
  rewrite M2. destruct m; cbn [further]; apply M1.
Qed.

(** For any book that trades, anyone who holds a single unit for the time of a transaction can, by [2 * n] calls that
    leave every order, every amount on offer, every balance and every setting as it was, bring about that whichever
    swap against the chosen side comes next, if it succeeds, depends on at least [n] entries. *)
Theorem C69_free_scans :
  forall w0 h e a m n, start w0 -> history w0 h -> let w := run w0 h in let T := next_tick (w_st w) m in
  active (w_st w) = true -> a <> w_self w -> e_bank_ok e a = true ->
  (forall j, 0 < j <= Z.of_nat n -> valid_tick (ahead m T j)) -> Z.of_nat (length h) + 2 * Z.of_nat n <= 2 ^ 56 ->
  exists h', length h' = (2 * n)%nat /\ Forall (fun ec => place_or_cancel a (snd ec)) h' /\ history w0 (h ++ h') /\
    let w' := run w h' in same_market w w' /\
    forall e' sender tin mn fee target w1 r (cells : list cell), let c := swap_call sender tin (deposit_denom (w_st w) m) mn fee target in
      call_ok (w_self w') c = true -> step e' w' c = (w1, Done r) ->
      depends_on_given_ticks (fun x => x ∈ cells) e' w' c -> (n <= length cells)%nat.
Proof.
  intros w0 h e a m n Hs Hh w T Ha Hself Hbk Hv Hlen.
  assert (I : forall k, (k <= n)%nat -> exists h', length h' = (2 * k)%nat /\ Forall (fun ec => place_or_cancel a (snd ec)) h' /\ history w0 (h ++ h') /\
    same_market w (run w h') /\ next_tick (w_st (run w h')) m = ahead m T (Z.of_nat k) /\
    forall j, 0 < j <= Z.of_nat k -> known (w_st (run w h')) (ahead m T j)).
  { induction k as [|k IH]; intros Hk.
    - exists []. rewrite app_nil_r. cbn [run]. split; [reflexivity|]. split; [constructor|]. split; [exact Hh|]. split; [apply market_refl|].
      split; [unfold ahead; destruct m; unfold T; lia|]. intros j Hj. lia.
    - destruct (IH ltac:(lia)) as (h1 & L1 & F1 & H1 & M1 & N1 & K1). clear IH.
      destruct (round_trip w0 (h ++ h1) e a m (ahead m T (Z.of_nat (S k))) Hs H1) as (id & R).
      { unfold short. rewrite !app_length, L1. cbn [length]. lia. }
      { rewrite run_app. fold w. rewrite (admin_active _ _ (sm_admin _ _ M1)). exact Ha. }
      { apply Hv. lia. }
      { rewrite run_self. unfold w in Hself. rewrite run_self in Hself. exact Hself. }
      { exact Hbk. }
      cbv zeta in R. rewrite !run_app in R. fold w in R. destruct R as (R1 & R2 & R3 & R4 & R5). set (h2 := [_; _]) in *.
      exists (h1 ++ h2). rewrite run_app. split; [rewrite app_length, L1; cbn; lia|].
      split. { apply Forall_app. split; [exact F1|]. constructor; [|constructor; [|constructor]]; cbn [snd]; eexists; [left|right]; eauto. }
      split; [rewrite app_assoc; exact R1|]. split; [eapply market_trans; eassumption|].
      split. { rewrite R5, N1. unfold ahead, further. destruct m; lia. }
      intros j Hj. destruct (Z.eq_dec j (Z.of_nat (S k))) as [->|Hne]; [exact R3|]. apply R4, K1. lia. }
  destruct (I n (le_n n)) as (h' & L & F & H & M & N & K). clear I.
  exists h'. split; [exact L|]. split; [exact F|]. split; [exact H|]. cbv zeta. set (w' := run w h') in *. split; [exact M|].
  intros e' sender tin mn fee target w1 r cells Hok E Hdep.
  assert (Hre : reachable w') by (unfold w', w; rewrite <- run_app; apply start_reachable; assumption).
  assert (Hout : deposit_denom (w_st w) m = deposit_denom (w_st w') m) by (symmetry; apply market_denom, M).
  rewrite Hout in *.
  destruct (swap_done _ _ _ _ _ _ _ _ _ _ Hre Hok E) as (m' & G & l & fs & rest & pr & S).
  assert (m' = m) as ->.
  { pose proof (sw_out _ _ _ _ _ _ _ _ _ _ _ _ _ _ _ _ S) as Eo. pose proof (sw_inv _ _ _ _ _ _ _ _ _ _ _ _ _ _ _ _ S) as Hi.
    eapply deposit_inj; [exact Hre|]. symmetry. exact Eo. }
  pose proof (swapped_fills _ _ _ _ _ _ _ _ _ _ _ _ _ _ _ _ S) as [F1 F2 F3 F4 _ _ _ _ _ _].
  destruct (C14_swap_result _ _ _ _ _ _ _ _ _ _ Hre Hok E) as (m1 & am & _ & _ & _ & _ & _ & _ & _ & _ & _ & Hpos & _ & Hdata & _).
  destruct fs as [|f fs].
  { rewrite (sw_resp _ _ _ _ _ _ _ _ _ _ _ _ _ _ _ _ S) in Hdata. cbn in Hdata. injection Hdata as Hdata. lia. }
  specialize (F3 (fill_of f) ltac:(constructor)). specialize (F4 (fill_of f) ltac:(constructor)). set (u := fl_tick (fill_of f)) in *.
  assert (Hu : ~ better_tick m u T).
  { apply C15_pointer; [apply start_reachable; assumption|]. rewrite <- (sm_liq _ _ M). fold w'. lia. }
  destruct (s_orderbook (w_st w')) as [ob|] eqn:Eob; [|exfalso; destruct (i_book _ _ (sw_inv _ _ _ _ _ _ _ _ _ _ _ _ _ _ _ _ S)) as (ob & C & _); congruence].
  assert (Hin : forall j, 0 < j <= Z.of_nat n -> CTick (ahead m T j) ∈ cells).
  { intros j Hj. apply (C69_swap_scans e' w' sender tin _ mn fee target m w1 r cells eq_refl E Hdep u (ahead m T j) ob).
    - lia.
    - apply K, Hj.
    - right. unfold better_tick, ahead in *. destruct m; lia.
    - exact Eob.
    - unfold next_tick in N. rewrite Eob in N. unfold ahead in *. destruct m; lia. }
  set (ts := map (fun k => CTick (ahead m T (Z.of_nat k))) (seq 1 n)).
  assert (Hnd : NoDup ts).
  { apply NoDup_fmap_2; [|apply NoDup_seq]. intros x y [= Exy]. unfold ahead in Exy. destruct m; lia. }
  assert (Hsub : ts ⊆ cells).
  { intros c Hc. unfold ts in Hc. apply elem_of_list_fmap in Hc as (k & -> & Hk). apply elem_of_seq in Hk. apply Hin. lia. }
  replace n with (length ts) by (unfold ts; rewrite map_length, seq_length; reflexivity).
  apply submseteq_length. apply NoDup_submseteq; assumption.
Qed.
Print Assumptions C69_free_scans.

(** A book with one ask of one unit at price 1, which a buyer of one unit takes however many ticks are in front of it. *)
Definition w_single : world := run w_start [place "m" 0 Ask 1 None].
Lemma single_facts :
  active (w_st w_single) = true /\ next_tick (w_st w_single) Ask = 0 /\ w_self w_single = "contract" /\
  deposit_denom (w_st w_single) Ask = "base" /\ deposit_denom (w_st w_single) Bid = "quote" /\
  tick_liquidity (w_st w_single) 0 Ask = 1 /\ buys Ask 0 1 = 1 /\ charge Ask 1 (tick_price 0) = 1.
Proof. repeat (first [apply conj; [vm_compute; reflexivity|]|vm_compute; reflexivity]). Qed.
Lemma place_balance e w i t d q b : reachable w -> call_ok (w_self w) (CExec i (PlaceLimit t d q b)) = true -> done e w (CExec i (PlaceLimit t d q b)) = true ->
  forall denom, balance (run w [(e, CExec i (PlaceLimit t d q b))]) denom <= balance w denom + q.
Proof.
  intros Hre Hok Hd denom. apply done_ok in Hd. cbn [run]. set (w' := fst _) in *.
  pose proof (C03_place_effect _ _ _ _ _ _ _ _ _ Hre Hok Hd) as P. cbv zeta in P. destruct P as (_ & _ & Hq & _ & _ & _ & _ & _ & _ & _ & _ & _ & _ & _ & P).
  rewrite P. destruct (bool_decide _); lia.
Qed.
Lemma single_balance denom : balance w_single denom <= 1.
Proof.
  unfold w_single, place. etransitivity; [apply place_balance|].
  - exact (start_reachable w_start [] start_ok ltac:(constructor)).
  - vm_compute. reflexivity.
  - vm_compute. reflexivity.
  - assert (balance w_start denom = 0) as -> by (unfold balance; cbn; reflexivity). lia.
Qed.
Lemma unbounded_at W w0 pl n : run w0 [pl] = W -> start w0 -> history w0 [pl] -> Z.of_nat n <= 108000000 ->
  active (w_st W) = true /\ next_tick (w_st W) Ask = 0 /\ w_self W = "contract" /\
  deposit_denom (w_st W) Ask = "base" /\ deposit_denom (w_st W) Bid = "quote" /\
  tick_liquidity (w_st W) 0 Ask = 1 /\ buys Ask 0 1 = 1 /\ charge Ask 1 (tick_price 0) = 1 ->
  (forall denom, balance W denom <= 1) ->
  exists h, history w0 h /\ let w := run w0 h in let c := snd (buy "t" 1) in
    succeeds tenv w c /\
    (forall t, tick_liquidity (w_st w) t Ask = tick_liquidity (w_st W) t Ask) /\
    forall cells : list cell, depends_on_given_ticks (fun x => x ∈ cells) tenv w c -> (n <= length cells)%nat.
Proof.
  intros HW Hs Hh Hn (F11 & F12 & F13 & F14 & F15 & F21 & F22 & F23) Hb.
  pose proof (C69_free_scans w0 [pl] tenv "a" Ask n Hs Hh) as X. cbv zeta in X. rewrite HW in X.
  rewrite F12, F13, F14 in X. destruct X as (h' & L & _ & H & M & D).
  - exact F11.
  - discriminate.
  - reflexivity.
  - intros j Hj. unfold valid_tick, ahead. lia.
  - cbn [length]. lia.
  - exists ([pl] ++ h'). assert (R : run w0 ([pl] ++ h') = run W h') by (rewrite run_app, HW; reflexivity).
    split; [exact H|]. cbv zeta. rewrite R. set (w := run W h') in *.
    assert (Es : w_self w = "contract") by (unfold w; rewrite run_self; exact F13).
    assert (Ok : call_ok (w_self w) (swap_call "t" (mkCoin "quote" 1) "base" 0 0 None) = true) by (rewrite Es; vm_compute; reflexivity).
    pose proof (C34_buy_executes tenv w0 ([pl] ++ h') "t" 1 0 [0] 0 Hs H) as X. cbv zeta in X. rewrite R in X.
    rewrite !(market_denom _ _ _ M), F14, F15, (sm_liq _ _ M), F21, F22 in X.
    destruct X as (x & Hx & Q & X).
    + unfold short. rewrite app_length. cbn [length]. rewrite L. lia.
    + exact Ok.
    + rewrite (admin_active _ _ (sm_admin _ _ M)). exact F11.
    + reflexivity.
    + reflexivity.
    + intros denom. rewrite (sm_bal _ _ M). pose proof (Hb denom). unfold U128_MAX. lia.
    + lia.
    + lia.
    + repeat constructor. intros C. inversion C.
    + unfold sum_ticks. cbn [foldr]. rewrite (sm_liq _ _ M), F21, F23. lia.
    + destruct (X ltac:(lia)) as (w1 & r & E & Ed). change (swap_call "t" (mkCoin "quote" 1) "base" 0 0 None) with (snd (buy "t" 1)) in *.
      split; [exists w1, r; exact E|split; [intros t; apply (sm_liq _ _ M)|intros cells Hd; exact (D tenv "t" (mkCoin "quote" 1) 0 0 None w1 r cells Ok E Hd)]].
Qed.
Theorem C69_swap_unbounded :
  forall n, Z.of_nat n <= 108000000 ->
  exists h, history w_start h /\ let w := run w_start h in let c := snd (buy "t" 1) in
    succeeds tenv w c /\
    (forall t, tick_liquidity (w_st w) t Ask = tick_liquidity (w_st w_single) t Ask) /\
    forall cells : list cell, depends_on_given_ticks (fun x => x ∈ cells) tenv w c -> (n <= length cells)%nat.
Proof.
  intros n Hn. apply (unbounded_at w_single w_start (place "m" 0 Ask 1 None) n eq_refl start_ok ltac:(hist) Hn single_facts single_balance).
Qed.
Print Assumptions C69_swap_unbounded.

(** Concrete cases: six orders cancelled at tick 0, so that the bounds are 33 entries for a claim and 170 for a cancel however long the
    history; the claim and the cancel happen.  A buy over three stored ticks of which one, tick 50000, is empty. *)
Definition h_gap : list (env * call) :=
  [place "a" 0 Ask 5 None; place "a" 50000 Ask 3 None; cancel "a" 50000 1; place "b" 100000 Ask 10 None].
Example C69_case :
  start w_start /\ history w_start hist_cancelled /\ depth w_start hist_cancelled 0 Bid = 2 /\ depth w_start hist_cancelled 0 Ask = 0 /\
  done tenv w_cancelled (snd (cancel "a" 0 9)) = true /\ done tenv (run w_cancelled [sell "b" 7]) (snd (claim "a" 0 0)) = true /\
  history w_start h_gap /\ map (fun t => tick_liquidity (w_st (run w_start h_gap)) t Ask) [0; 50000; 100000] = [5; 0; 10] /\
  match s_ticks (w_st (run w_start h_gap)) !! 50000 with Some _ => True | None => False end /\
  done tenv (run w_start h_gap) (snd (buy "t" 15)) = true /\
  tick_liquidity (w_st (fst (step tenv (run w_start h_gap) (snd (buy "t" 15))))) 100000 Ask = 1.
Proof.
  split; [exact start_ok|]. split; [hist|]. do 2 (split; [vm_compute; reflexivity|]). do 2 (split; [vm_compute; reflexivity|]).
  split; [hist|]. split; [vm_compute; reflexivity|]. split; [vm_compute; exact I|]. split; vm_compute; reflexivity.
Qed.
