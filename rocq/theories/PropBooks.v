(** * Properties C19 and C20: reported totals and solvency. *)
From Verif Require Import Base Dec Types State TickMath Sumtree Tick Order Auth Contract Query World SpecMath TickMathProofs
  TreeDefs Exec SumtreeProofs SumtreeRebalance SumtreeInsert PrefixSum SumtreeRoot SumtreeFail Ghost Inv StepPlace StepCancel StepClaim
  SwapPlan StepSwap Trans Spec Reach Refine RefineStep Reserve Solvency Books SpecProps PropBase Tests PropOrders PropClaims PropHistory PropSwap PropQuote PropBatch.

(** ** C19 *)
Lemma sum_ticks_add f g L : sum_ticks (fun t => f t + g t) L = sum_ticks f L + sum_ticks g L.
Proof. induction L as [|t L IH]; [reflexivity|]. unfold sum_ticks in *. cbn. rewrite IH. lia. Qed.
Lemma sum_ticks_one L t x : NoDup L -> t ∈ L -> sum_ticks (fun t' => if t' =? t then x else 0) L = x.
Proof.
  induction L as [|a L IH]; intros Hn Hin; [inversion Hin|]. apply NoDup_cons in Hn as [Ha Hn]. cbn [sum_ticks foldr]. fold (sum_ticks (fun t' => if t' =? t then x else 0) L).
  destruct (Z.eqb_spec a t) as [->|Hne].
  - assert (E : sum_ticks (fun t' => if t' =? t then x else 0) L = 0); [|lia].
    clear -Ha. induction L as [|b L IH]; [reflexivity|]. cbn [sum_ticks foldr]. fold (sum_ticks (fun t' => if t' =? t then x else 0) L).
    destruct (Z.eqb_spec b t) as [->|]; [exfalso; apply Ha; constructor|]. rewrite IH; [reflexivity|]. intros K. apply Ha. constructor. assumption.
  - apply elem_of_cons in Hin as [->|Hin]; [contradiction|]. rewrite IH by assumption. lia.
Qed.
Lemma open_split Q d L : NoDup L -> (forall en, en ∈ Q -> en_dir en = d -> en_open en <> 0 -> en_tick en ∈ L) ->
  open_dir Q d = sum_ticks (fun t => open_at Q t d) L.
Proof.
  intros HL. induction Q as [|en Q IH]; intros H.
  - unfold open_dir, open_at. cbn. clear. induction L as [|t L IH]; [reflexivity|]. unfold sum_ticks in *. cbn. lia.
  - transitivity ((if bool_decide (en_dir en = d) then en_open en else 0) + open_dir Q d); [reflexivity|]. rewrite IH by (intros; apply H; [constructor; assumption|assumption|assumption]).
    transitivity (sum_ticks (fun t => (if bool_decide (en_tick en = t /\ en_dir en = d) then en_open en else 0) + open_at Q t d) L); [|reflexivity].
    rewrite sum_ticks_add. f_equal. destruct (bool_decide_reflect (en_dir en = d)) as [Ed|Ed].
    + destruct (Z.eq_dec (en_open en) 0) as [E0|E0].
      * rewrite E0. clear. induction L as [|t L IH]; [reflexivity|]. unfold sum_ticks in *. cbn. rewrite <- IH. destruct (bool_decide _); reflexivity.
      * rewrite <- (sum_ticks_one L (en_tick en) (en_open en)) at 1; [|assumption|apply H; [constructor|assumption|assumption]].
        clear -Ed. induction L as [|t L IH]; [reflexivity|]. unfold sum_ticks in *. cbn. rewrite IH. f_equal.
        destruct (Z.eqb_spec t (en_tick en)) as [->|Hn]; [rewrite bool_decide_true by auto; reflexivity|rewrite bool_decide_false by (intros [? _]; auto); reflexivity].
    + symmetry. clear -Ed. induction L as [|t L IH]; [reflexivity|]. unfold sum_ticks in *. cbn. rewrite IH. rewrite bool_decide_false by tauto. reflexivity.
Qed.

(** C19: the reported total of each side is the sum of the unfilled quantities of all its orders,
    and the sum of the tick liquidities over any list of ticks that misses no liquid tick.  The
    query answers as long as the contract holds no more tokens than the u128 of a bank balance. *)
Theorem C19_pool_liquidity :
  forall w0 h, start w0 -> history w0 h -> let w := run w0 h in let s := w_st w in let Q := ideal_run w0 [] h in
  (forall denom, balance w denom <= U128_MAX) ->
  total_pool_liquidity s = Ok [mkCoin (deposit_denom s Ask) (open_dir Q Ask); mkCoin (deposit_denom s Bid) (open_dir Q Bid)] /\
  (forall d, 0 <= open_dir Q d) /\
  (forall d L, NoDup L -> (forall t, 0 < tick_liquidity s t d -> t ∈ L) -> open_dir Q d = sum_ticks (fun t => tick_liquidity s t d) L).
Proof.
  intros w0 h Hs Hh w s Q Hbal. destruct (run_good w0 h Hs Hh) as (G & Hg). fold w in Hg. fold Q in Hg.
  pose proof (gd_inv _ _ _ Hg) as Hi. pose proof (gd_ref _ _ _ Hg) as Hr. fold s in Hi, Hr.
  assert (Hnn : forall d, 0 <= open_dir Q d).
  { intros d. pose proof (rf_entry _ _ _ Hr) as He. unfold open_dir. clear -He. induction Q as [|en Q IH]; [reflexivity|]. cbn [ideal_sum foldr].
    fold (ideal_sum (fun e => if bool_decide (en_dir e = d) then en_open e else 0) Q). specialize (IH ltac:(intros; apply He; constructor; assumption)).
    pose proof (He en ltac:(constructor)) as [_ K _ _ _ _ _ _ _]. destruct (bool_decide _); lia. }
  assert (Hle : forall d, open_dir Q d <= U128_MAX).
  { intros d. pose proof (open_owed _ _ _ d Hr). pose proof (good_owed _ _ _ d Hg). specialize (Hbal (deposit_denom s d)). change (den (w_st w) d) with (deposit_denom s d) in *. lia. }
  split; [|split; [assumption|]].
  - unfold total_pool_liquidity. destruct (i_book _ _ Hi) as (ob & Eob & _). unfold load_orderbook. rewrite Eob. cbn [ok_or rbind].
    rewrite !(total_liquidity _ _ _ Hi Hr), !floor_scale. unfold to_u128. rewrite !(proj2 (Z.leb_le _ _) (Hle _)). cbn [rbind].
    unfold deposit_denom. rewrite Eob. reflexivity.
  - intros d L HL Hc. rewrite (open_split Q d L HL).
    + clear -Hi Hr. induction L as [|t L IH]; [reflexivity|]. unfold sum_ticks in *. cbn. rewrite IH. f_equal. symmetry. apply (liquidity_open _ _ _ Hi Hr).
    + intros en Hen Hd Ho. apply Hc. rewrite (liquidity_open _ _ _ Hi Hr). unfold open_at.
      pose proof (rf_entry _ _ _ Hr) as He. clear -He Hen Hd Ho. induction Q as [|a Q IH]; [inversion Hen|]. cbn [ideal_sum foldr].
      fold (ideal_sum (fun e => if bool_decide (en_tick e = en_tick en /\ en_dir e = d) then en_open e else 0) Q).
      assert (0 <= ideal_sum (fun e => if bool_decide (en_tick e = en_tick en /\ en_dir e = d) then en_open e else 0) Q).
      { assert (He' : forall e, e ∈ Q -> entry_ok s e) by (intros; apply He; constructor; assumption). clear -He'.
        induction Q as [|b Q IH]; [reflexivity|]. cbn [ideal_sum foldr]. specialize (IH ltac:(intros; apply He'; constructor; assumption)). unfold ideal_sum in IH.
        pose proof (He' b ltac:(constructor)) as [_ K _ _ _ _ _ _ _]. destruct (bool_decide _); lia. }
      pose proof (He a ltac:(constructor)) as [_ K _ _ _ _ _ _ _]. apply elem_of_cons in Hen as [->|Hen].
      * rewrite bool_decide_true by auto. lia.
      * specialize (IH Hen ltac:(intros; apply He; constructor; assumption)). destruct (bool_decide _); lia.
Qed.
Print Assumptions C19_pool_liquidity.
Definition hist_sides : list (env * call) :=
  hist_three ++ [place "d" 100000 Ask 25 None; place "e" 200000 Ask 5 None; cancel "c" 0 2; buy "y" 11; place "f" (-100000) Bid 9 None].
Example C19_case :
  let w := run w_start hist_sides in let Q := ideal_run w_start [] hist_sides in
  history w_start hist_sides /\ forallb id (run_out w_start hist_sides) = true /\
  total_pool_liquidity (w_st w) = Ok [mkCoin "base" 20; mkCoin "quote" 19] /\
  map (fun en => (en_tick en, en_dir en, en_open en, en_filled en)) Q =
   [(0, Bid, 0, 50); (0, Bid, 10, 10); (0, Bid, 0, 0); (100000, Ask, 15, 10); (200000, Ask, 5, 0); (-100000, Bid, 9, 0)].
Proof. split; [hist|]. repeat split; vm_compute; reflexivity. Qed.

(** ** C20 *)
(** C20: at every moment the balance covers the unfilled deposits and the gross proceeds of
    everything filled and not yet claimed, in both tokens. *)
Theorem C20_solvent :
  forall w0 h d, start w0 -> history w0 h ->
  let w := run w0 h in let Q := ideal_run w0 [] h in
  ideal_sum (fun en => if bool_decide (en_dir en = d) then en_open en else proceeds (en_dir en) (en_tick en) (en_filled en)) Q
  <= balance w (deposit_denom (w_st w) d).
Proof.
  intros w0 h d Hs Hh w Q. destruct (run_good w0 h Hs Hh) as (G & Hg). exact (good_owed _ _ _ d Hg).
Qed.
Print Assumptions C20_solvent.
Example C20_case :
  let w := run w_start hist_sides in let Q := ideal_run w_start [] hist_sides in
  (owed Q Bid, balance w "quote", owed Q Ask, balance w "base") = (30, 30, 80, 80).
Proof. vm_compute. reflexivity. Qed.

(** No transaction of any kind fails for lack of funds: if the code accepts it, the transfers
    it asks for are covered (they fail only for a zero amount or a blocked recipient). *)
Theorem C20_transfers_covered :
  forall e w c s' r, reachable w -> call_ok (w_self w) c = true -> call_run e c (w_st w) = (s', Ok r) ->
  (forall m, m ∈ r_msgs r -> 0 < c_amount (sm_coin m) /\ e_bank_ok e (sm_to m) = true) ->
  succeeds e w c.
Proof.
  intros e w c s' r Hre Hok E Hm. destruct (reach_good _ Hre) as (w0 & h & G & _ & _ & _ & Hg).
  destruct (call_trans _ _ _ _ _ _ _ (gd_inv _ _ _ Hg) Hok E) as (G' & Ht & Hi').
  destruct (trans_sends e w G c r s' G' Hre (gd_sol _ _ _ Hg) (gd_inv _ _ _ Hg) Hok Ht Hi') as (b' & Hb).
  { apply Forall_forall. exact Hm. }
  eexists _, _. exact (step_ok _ _ _ _ _ _ E Hb).
Qed.
Print Assumptions C20_transfers_covered.

(** *** Everybody can be paid off, in any order *)
Lemma map_if_eq {A} (p : A -> bool) (f g : A -> A) l : (forall x, x ∈ l -> p x = true -> f x = g x) ->
  map (fun x => if p x then f x else x) l = map (fun x => if p x then g x else x) l.
Proof.
  induction l as [|a l IH]; intros H; [reflexivity|]. cbn. rewrite IH by (intros; apply H; [constructor|]; assumption). f_equal.
  destruct (p a) eqn:E; [|reflexivity]. apply H; [constructor|assumption].
Qed.
Lemma map_if_id {A} (p : A -> bool) (f : A -> A) l : (forall x, x ∈ l -> p x = true -> f x = x) -> map (fun x => if p x then f x else x) l = l.
Proof.
  induction l as [|a l IH]; intros H; [reflexivity|]. cbn. rewrite IH by (intros; apply H; [constructor|]; assumption). f_equal.
  destruct (p a) eqn:E; [|reflexivity]. apply H; [constructor|assumption].
Qed.
Lemma collect_app {A} (f : response -> list A) w h1 h2 : collect f w (h1 ++ h2) = collect f w h1 ++ collect f (run w h1) h2.
Proof. revert w. induction h1 as [|[e c] h1 IH]; intros w; [reflexivity|]. cbn [app collect run]. rewrite IH, app_assoc. reflexivity. Qed.
Definition pay_off1 (en : entry) (Q : ideal) : ideal := map (fun x => if en_is (en_tick en) (en_id en) x then paid_off x else x) Q.
Lemma claim_cancel_ideal t id Q : ideal_cancel t id (ideal_claim t id Q) = map (fun x => if en_is t id x then paid_off x else x) Q.
Proof.
  unfold ideal_cancel, ideal_claim. rewrite map_map. apply map_ext. intros x. destruct (en_is t id x) eqn:E.
  - change (en_is t id (en_set x (en_open x) 0 (en_settled x + en_filled x) (en_refunded x))) with (en_is t id x). rewrite E. reflexivity.
  - rewrite E. reflexivity.
Qed.
Lemma active_admin s s' : admin_data s = admin_data s' -> active s = active s'.
Proof. unfold admin_data, active. intros [= -> _ _ _ _ _ _]. reflexivity. Qed.
Lemma deposit_book s s' d : s_orderbook s = s_orderbook s' -> deposit_denom s d = deposit_denom s' d.
Proof. unfold deposit_denom. intros ->. reflexivity. Qed.
Lemma claim_pays_same s s' x en : admin_data s = admin_data s' -> s_orderbook s = s_orderbook s' -> claim_pays s x en = claim_pays s' x en.
Proof.
  unfold admin_data. intros [= _ Hf Hrc _ _ _ _] Hb. unfold claim_pays, owner_part, claim_fee, proceeds_denom. rewrite Hf, Hrc, (deposit_book _ _ _ Hb). reflexivity.
Qed.
Lemma claim_pays_zero s x en : valid_tick (en_tick en) -> en_filled en = 0 -> claim_pays s x en = [].
Proof.
  intros Ht E. pose proof (tick_price_pos _ Ht). assert (Eg : claim_gross en = 0).
  { unfold claim_gross, proceeds. rewrite E. unfold ask_gross, bid_gross, floor_div. destruct (en_dir en); reflexivity. }
  unfold claim_pays, owner_part, claim_bounty, claim_fee. rewrite Eg. unfold share, floor_div. rewrite !Z.mul_0_l. reflexivity.
Qed.

Lemma pay_off_step e w0 h en : start w0 ->
  let hh := [(e, c_claim (en_owner en) (en_tick en) (en_id en)); (e, c_cancel (en_owner en) (en_tick en) (en_id en))] in
  history w0 (h ++ hh) -> short (h ++ hh) ->
  let w := run w0 h in let Q := ideal_run w0 [] h in let s := w_st w in
  active s = true -> en ∈ Q -> banks_ok e w Q (en_owner en) ->
  let w2 := run w hh in
  ideal_run w Q hh = pay_off1 en Q /\
  collect r_msgs w hh = claim_pays s (en_owner en) en ++ pay REPLY_ID_REFUND (en_owner en) (deposit_denom s (en_dir en)) (en_open en) /\
  admin_data (w_st w2) = admin_data s /\ s_orderbook (w_st w2) = s_orderbook s.
Proof.
  intros Hs hh Hh Hsh w Q s Ha Hen (B1 & B2 & B3) w2. set (t := en_tick en) in *. set (id := en_id en) in *. set (ow := en_owner en) in *.
  apply history_app in Hh as [Hh Hh2]. fold w in Hh2. unfold history in Hh2. apply Forall_cons in Hh2 as [Ok1 Hh2]. apply Forall_cons in Hh2 as [Ok2 _]. cbn [snd] in Ok1, Ok2.
  assert (Hsh1 : short h) by (unfold short in *; rewrite app_length in Hsh; lia).
  destruct (run_good w0 h Hs Hh) as (G & [Hi Hr _]). fold w in Hi, Hr. fold Q in Hr. pose proof (rf_entry _ _ _ Hr _ Hen) as [_ K1 K2 _ _ _ _ _ K9].
  assert (Huniq : forall x, x ∈ Q -> en_is t id x = true -> x = en).
  { intros x Hx E. apply en_is_true in E as [_ E]. exact (ids_same _ _ _ x en Hr Hx Hen E). }
  set (c1 := c_claim ow t id) in *. set (c2 := c_cancel ow t id) in *.
  (* the claim *)
  assert (S1 : let w1 := fst (step e w c1) in
     ideal_step e w c1 Q = ideal_claim t id Q /\ match snd (step e w c1) with Done r => r_msgs r | Failed => [] end = claim_pays s ow en /\
     admin_data (w_st w1) = admin_data s /\ s_orderbook (w_st w1) = s_orderbook s).
  { cbv zeta. destruct (C09_claim_iff e w0 h ow t id Hs Hh Hsh1 Ok1 Ha B1 B2 B3) as [Hiff Hfail]. fold w in Hiff, Hfail. fold c1 in Hiff, Hfail. fold Q in Hiff.
    destruct (Z_lt_le_dec 0 (en_filled en)) as [Hf|Hf].
    - destruct (proj2 Hiff ltac:(exists en; auto)) as (w' & r & E).
      destruct (C08_claim_settles_fifo e w0 h (mkInfo ow []) t id w' r Hs Hh Ok1 E) as (_ & _ & en' & o & Hen' & D1 & D2 & _ & _ & _ & _ & Ems & _ & _ & _ & Eb & Ead).
      assert (en' = en) as -> by (apply Huniq; [assumption|apply en_is_true; auto]).
      unfold ideal_step. rewrite E. cbn [fst snd]. split; [reflexivity|]. split; [exact Ems|]. split; [exact Ead|exact Eb].
    - assert (E : step e w c1 = (w, Failed)).
      { apply Hfail. intros Hsu. apply Hiff in Hsu as (en' & Hen' & D1 & D2 & Hf'). assert (en' = en) as -> by (apply Huniq; [assumption|apply en_is_true; auto]). lia. }
      unfold ideal_step. rewrite E. cbn [fst snd]. split.
      + symmetry. apply ideal_claim_zero. intros x Hx X1 X2. rewrite (Huniq x Hx) by (apply en_is_true; auto). lia.
      + split; [|auto]. symmetry. apply claim_pays_zero; [assumption|lia]. }
  cbv zeta in S1. destruct S1 as (SQ & SM & SA & SB).
  set (w1 := fst (step e w c1)) in *. set (h1 := h ++ [(e, c1)]).
  assert (Ew1 : run w0 h1 = w1) by apply run_last.
  assert (EQ1 : ideal_run w0 [] h1 = ideal_claim t id Q) by (unfold h1; rewrite ideal_run_last; fold w; fold Q; exact SQ).
  assert (Hh1 : history w0 h1) by (apply history_app; split; [assumption|constructor; [exact Ok1|constructor]]).
  assert (Hsh2 : short h1) by (unfold short, h1 in *; rewrite app_length in *; cbn [length hh] in *; lia).
  set (en1 := en_set en (en_open en) 0 (en_settled en + en_filled en) (en_refunded en)).
  assert (Hen1 : en1 ∈ ideal_claim t id Q) by (apply upd_elem; exists en; split; [assumption|]; left; split; [apply en_is_true; auto|reflexivity]).
  assert (Ok2' : call_ok (w_self w1) c2 = true) by (unfold w1; rewrite step_self; exact Ok2).
  assert (Ha1 : active (w_st w1) = true) by (rewrite (active_admin _ _ SA); exact Ha).
  (* the cancel *)
  assert (S2 : let w2 := fst (step e w1 c2) in
     ideal_step e w1 c2 (ideal_claim t id Q) = ideal_cancel t id (ideal_claim t id Q) /\
     match snd (step e w1 c2) with Done r => r_msgs r | Failed => [] end = pay REPLY_ID_REFUND ow (deposit_denom s (en_dir en)) (en_open en) /\
     admin_data (w_st w2) = admin_data s /\ s_orderbook (w_st w2) = s_orderbook s).
  { cbv zeta. destruct (Z_lt_le_dec 0 (en_open en)) as [Ho|Ho].
    - assert (Hlv : en_live en1 = true) by (unfold en_live; cbn; apply Z.ltb_lt; lia).
      assert (X : exists w' r, step e w1 c2 = (w', Done r) /\ r_msgs r = [mkSend REPLY_ID_REFUND ow (mkCoin (deposit_denom (w_st w1) (en_dir en)) (en_open en))]).
      { rewrite <- Ew1. apply (C07_withdraw e w0 h1 en1 Hs Hh1 Hsh2); try assumption; try reflexivity.
        - rewrite EQ1. assumption.
        - rewrite Ew1. assumption.
        - rewrite Ew1. assumption. }
      destruct X as (w' & r & E & Em). assert (Hre1 : reachable w1) by (rewrite <- Ew1; apply start_reachable; assumption).
      destruct (C05_cancel_effect e w1 (mkInfo ow []) t id w' r Hre1 Ok2' E) as (o & _ & X). cbv zeta in X. destruct X as (_ & _ & _ & _ & _ & _ & _ & _ & _ & _ & _ & Eb & Ead & _).
      unfold ideal_step. rewrite E. cbn [fst snd]. split; [reflexivity|]. split.
      + rewrite Em. unfold pay. destruct (Z.eqb_spec (en_open en) 0); [lia|]. rewrite (deposit_book _ _ _ SB). reflexivity.
      + split; congruence.
    - assert (E : step e w1 c2 = (w1, Failed)).
      { destruct (step e w1 c2) as [w' [r|]] eqn:E; [exfalso|rewrite (step_failed _ _ _ _ E); reflexivity]. rewrite <- Ew1 in E, Ok2'.
        destruct (C06_cancel_unfilled e w0 h1 (mkInfo ow []) t id w' r Hs Hh1 Ok2' E) as (en' & Hen' & D1 & D2 & _ & _ & Ho' & _).
        rewrite EQ1 in Hen'. apply upd_elem in Hen' as (e0 & He0 & [[E0 ->]|[E0 ->]]).
        - rewrite (Huniq e0 He0 E0) in Ho'. cbn in Ho'. lia.
        - apply en_is_false in E0. tauto. }
      unfold ideal_step. rewrite E. cbn [fst snd]. split.
      + symmetry. unfold ideal_cancel. apply map_if_id. intros x Hx E0. apply upd_elem in Hx as (e0 & He0 & [[E1 ->]|[E1 ->]]); [|congruence].
        rewrite (Huniq e0 He0 E1). replace (en_open en) with 0 by lia. unfold en_set. cbn. replace (en_open en) with 0 by lia. rewrite Z.add_0_r. reflexivity.
      + split; [|auto]. unfold pay. destruct (Z.eqb_spec (en_open en) 0); [reflexivity|lia]. }
  cbv zeta in S2. destruct S2 as (TQ & TM & TA & TB). unfold w2, hh. cbn [run ideal_run collect]. fold w1. rewrite SQ, TQ, SM, TM, app_nil_r.
  split; [apply claim_cancel_ideal|]. split; [reflexivity|]. split; assumption.
Qed.

Global Instance entry_eq_dec : EqDecision entry.
Proof. solve_decision. Defined.
Lemma wind_down_gen e w0 : start w0 -> forall l h, history w0 (h ++ withdraw_all e l) -> short (h ++ withdraw_all e l) ->
  let w := run w0 h in let Q := ideal_run w0 [] h in let s := w_st w in
  active s = true -> NoDup l -> (forall en, en ∈ l -> en ∈ Q) -> e_bank_ok e (unwrap_or (s_recipient s) EmptyString) = true ->
  (forall en, en ∈ Q -> e_bank_ok e (en_owner en) = true) ->
  ideal_run w Q (withdraw_all e l) = map (fun en => if bool_decide (en ∈ l) then paid_off en else en) Q /\
  collect r_msgs w (withdraw_all e l) =
    flat_map (fun en => claim_pays s (en_owner en) en ++ pay REPLY_ID_REFUND (en_owner en) (deposit_denom s (en_dir en)) (en_open en)) l.
Proof.
  intros Hs. induction l as [|en l IH]; intros h Hh Hsh w Q s Ha Hn Hin B2 B3.
  - split; [|reflexivity]. cbn. symmetry. clear. induction Q as [|a Q IH]; [reflexivity|]. cbn. f_equal; assumption.
  - apply NoDup_cons in Hn as [Hnin Hn]. assert (Hen : en ∈ Q) by (apply Hin; constructor). cbn [withdraw_all flat_map] in Hh, Hsh |- *. fold (withdraw_all e l) in Hh, Hsh |- *.
    set (hh := [(e, c_claim (en_owner en) (en_tick en) (en_id en)); (e, c_cancel (en_owner en) (en_tick en) (en_id en))]) in *.
    rewrite app_assoc in Hh, Hsh. pose proof Hh as Hh0. apply history_app in Hh0 as [Hh1 _].
    assert (Hsh1 : short (h ++ hh)) by (unfold short in *; rewrite app_length in Hsh; lia).
    destruct (pay_off_step e w0 h en Hs Hh1 Hsh1 Ha Hen) as (P1 & P2 & P3 & P4); [split; [auto|split; assumption]|]. fold w in P1, P2, P3, P4. fold Q in P1. fold s in P2, P3, P4. fold hh in P1, P2, P3, P4.
    destruct (run_good w0 h Hs ltac:(apply history_app in Hh1; tauto)) as (G & [Hi Hr _]). fold w in Hi, Hr. fold Q in Hr.
    assert (EQ : ideal_run w0 [] (h ++ hh) = pay_off1 en Q) by (rewrite ideal_run_app; exact P1).
    assert (Ew : run w0 (h ++ hh) = run w hh) by apply run_app.
    assert (Hne : forall x, x ∈ Q -> x <> en -> en_is (en_tick en) (en_id en) x = false).
    { intros x Hx Hxn. apply en_is_false. intros [_ E]. apply Hxn. exact (ids_same _ _ _ x en Hr Hx Hen E). }
    assert (Hin' : forall x, x ∈ l -> x ∈ pay_off1 en Q).
    { intros x Hx. apply upd_elem. exists x. assert (x ∈ Q) by (apply Hin; constructor; assumption). split; [assumption|]. right. split; [|reflexivity]. apply Hne; [assumption|]. intros ->. contradiction. }
    assert (X := IH (h ++ hh)). cbv zeta in X. rewrite EQ, Ew in X.
    destruct X as (R1 & R2); try assumption.
    + rewrite (active_admin _ _ P3). assumption.
    + assert (Erc : s_recipient (w_st (run w hh)) = s_recipient s) by (unfold admin_data in P3; congruence). rewrite Erc. assumption.
    + intros x Hx. apply upd_elem in Hx as (x0 & Hx0 & [[_ ->]|[_ ->]]); cbn; auto.
    + split.
      * rewrite (ideal_run_app w Q hh), P1, R1. unfold pay_off1. rewrite map_map. apply map_ext_in. intros x Hx. apply elem_of_list_In in Hx.
        destruct (decide (x = en)) as [->|Hxn].
        -- assert (en_is (en_tick en) (en_id en) en = true) as -> by (apply en_is_true; auto). rewrite (bool_decide_true (en ∈ en :: l)) by constructor.
           assert (Hidem : forall y, paid_off (paid_off y) = paid_off y) by (intros y; unfold paid_off, en_set; cbn; f_equal; lia). rewrite Hidem. destruct (bool_decide _); reflexivity.
        -- rewrite (Hne x Hx Hxn). destruct (bool_decide_reflect (x ∈ l)) as [Hl|Hl].
           ++ rewrite bool_decide_true by (constructor; assumption). reflexivity.
           ++ rewrite bool_decide_false; [reflexivity|]. intros K. apply elem_of_cons in K as [K|K]; contradiction.
      * rewrite collect_app, P2. cbn [flat_map]. f_equal. rewrite R2. clear -P3 P4 w0. induction l as [|x l IHl]; [reflexivity|]. cbn [flat_map].
        rewrite (claim_pays_same _ _ _ _ P3 P4), (deposit_book _ _ _ P4), IHl. reflexivity.
Qed.

(** C20: in any reachable (active) state all orders can be withdrawn in any order [l] the owners
    like.  Every owner is paid the full proceeds of what is filled (less the agreed shares) and the
    full remainder of the deposit; the transfers are exactly these; afterwards the book is empty. *)
Theorem C20_wind_down :
  forall e w0 h l, start w0 -> history w0 (h ++ withdraw_all e l) -> short (h ++ withdraw_all e l) ->
  let w := run w0 h in let Q := ideal_run w0 [] h in let s := w_st w in let w' := run w (withdraw_all e l) in
  active s = true -> l ≡ₚ Q -> e_bank_ok e (unwrap_or (s_recipient s) EmptyString) = true ->
  (forall en, en ∈ Q -> e_bank_ok e (en_owner en) = true) ->
  ideal_run w Q (withdraw_all e l) = map paid_off Q /\
  collect r_msgs w (withdraw_all e l) =
    flat_map (fun en => claim_pays s (en_owner en) en ++ pay REPLY_ID_REFUND (en_owner en) (deposit_denom s (en_dir en)) (en_open en)) l /\
  s_orders (w_st w') = ∅ /\ (forall t d, tick_liquidity (w_st w') t d = 0).
Proof.
  intros e w0 h l Hs Hh Hsh w Q s w' Ha Hp B2 B3. pose proof Hh as Hh0. apply history_app in Hh0 as [Hh1 _].
  assert (HN : NoDup Q).
  { destruct (C08_fifo_state w0 h Hs Hh1) as (Hnd & _). fold Q in Hnd. clear -Hnd. induction Q as [|a Q IH]; [constructor|]. cbn in Hnd. apply NoDup_cons in Hnd as [K1 K2].
    constructor; [|auto]. intros Hin. apply K1. apply elem_of_list_fmap. eauto. }
  destruct (wind_down_gen e w0 Hs l h Hh Hsh Ha) as (R1 & R2); try assumption.
  - rewrite Hp. assumption.
  - intros en Hen. rewrite Hp in Hen. exact Hen.
  - fold w in R1, R2. fold Q in R1. fold s in R2.
    assert (EQ : ideal_run w Q (withdraw_all e l) = map paid_off Q).
    { rewrite R1. apply map_ext_in. intros x Hx. apply elem_of_list_In in Hx. rewrite bool_decide_true; [reflexivity|]. rewrite Hp. exact Hx. }
    split; [exact EQ|]. split; [exact R2|].
    destruct (C08_fifo_state w0 _ Hs Hh) as (_ & Hord & _ & _ & Hliq). rewrite run_app, ideal_run_app in Hord, Hliq. fold w in Hord, Hliq. fold w' in Hord, Hliq. fold Q in Hord, Hliq. rewrite EQ in Hord, Hliq. split.
    + apply map_eq. intros [t id]. rewrite lookup_empty. destruct (s_orders (w_st w') !! (t, id)) as [o|] eqn:Eo; [exfalso|reflexivity].
      destruct (Hord _ _ _ Eo) as (en & Hen & _ & _ & Hl & _). apply elem_of_list_fmap in Hen as (x & -> & _). discriminate.
    + intros t d. rewrite Hliq. unfold open_at. clear. induction Q as [|a Q IH]; [reflexivity|]. cbn. destruct (bool_decide _); exact IH.
Qed.
Print Assumptions C20_wind_down.
Example C20_wind_down_case :
  let w := run w_start hist_sides in let Q := ideal_run w_start [] hist_sides in let l := rev Q in let h' := withdraw_all tenv l in
  history w_start (hist_sides ++ h') /\ short (hist_sides ++ h') /\ active (w_st w) = true /\
  run_out w h' = [false; true; false; true; true; true; false; false; true; true; true; false] /\
  map (fun m => (sm_to m, sm_coin m)) (collect r_msgs w h') =
    [("f", mkCoin "quote" 9); ("e", mkCoin "base" 5); ("d", mkCoin "quote" 11); ("d", mkCoin "base" 15);
     ("b", mkCoin "base" 10); ("b", mkCoin "quote" 10); ("a", mkCoin "base" 50)] /\
  map_to_list (s_orders (w_st (run w h'))) = [] /\ balance (run w h') "quote" = 0 /\ balance (run w h') "base" = 0.
Proof.
  split. { set (h := hist_sides ++ _). assert (E : forallb (fun ec => call_ok (w_self w_start) (snd ec)) h = true) by (vm_compute; reflexivity).
    rewrite forallb_forall in E. apply Forall_forall. intros x Hx. apply E, elem_of_list_In, Hx. }
  split; [vm_compute; discriminate|]. split; [vm_compute; reflexivity|]. split; [vm_compute; reflexivity|]. split; [vm_compute; reflexivity|].
  split; [vm_compute; reflexivity|]. split; vm_compute; reflexivity.
Qed.
