(** * Property C57: the spot price follows placements and fills. *)
From Verif Require Import Base Dec Types State TickMath Sumtree Tick Order Auth Contract Query World SpecMath TickMathProofs
  TreeDefs Exec SumtreeProofs SumtreeRebalance SumtreeInsert PrefixSum SumtreeRoot SumtreeFail Ghost Inv StepPlace StepCancel StepClaim
  SwapPlan StepSwap Trans Spec Reach Refine RefineStep Reserve Solvency Books SpecProps PropBase Tests PropOrders PropClaims PropSwap SpecQuery PropQuery SpecAdmin PropAdmin SpecSpot.

Lemma sublist_ordered d l l' : sublist l l' -> ordered d l' -> ordered d l.
Proof.
  induction 1 as [|x l1 l2 Hs IH|x l1 l2 Hs IH]; intros Ho; [exact Ho| |].
  - apply StronglySorted_inv in Ho as [H1 H2]. constructor; [apply IH, H1|]. rewrite Forall_forall in *. intros y Hy. apply H2. eapply sublist_in; eassumption.
  - apply StronglySorted_inv in Ho as [H1 _]. apply IH, H1.
Qed.
Lemma ordered_last d l x : ordered d (l ++ [x]) -> forall y, y ∈ l ++ [x] -> ~ better d x y.
Proof.
  induction l as [|a l IH]; cbn [app]; intros Ho y Hy.
  - apply elem_of_list_singleton in Hy as ->. destruct d; cbn; lia.
  - apply StronglySorted_inv in Ho as [H1 H2]. apply elem_of_cons in Hy as [->|Hy]; [|apply IH; assumption].
    rewrite Forall_forall in H2. specialize (H2 x ltac:(apply elem_of_app; right; constructor)). destruct d; cbn in *; lia.
Qed.
Lemma swap_moves e w sender tin out mn fee target w' r : reachable w -> call_ok (w_self w) (swap_call sender tin out mn fee target) = true ->
  step e w (swap_call sender tin out mn fee target) = (w', Done r) ->
  exists m, out = deposit_denom (w_st w) m /\ worst_touched (w_st w) (w_st w') m (next_tick (w_st w') m) /\ next_tick (w_st w') (opposite m) = next_tick (w_st w) (opposite m).
Proof.
  intros Hre Hok E. destruct (swap_done _ _ _ _ _ _ _ _ _ _ Hre Hok E) as (m & G & l & fs & rest & pr & H). exists m. split; [apply H|].
  destruct (sw_ob _ _ _ _ _ _ _ _ _ _ _ _ _ _ _ _ H) as (ob & Eob & _ & Es).
  pose proof (sw_good _ _ _ _ _ _ _ _ _ _ _ _ _ _ _ _ H) as Hg.
  assert (Hne : fs <> []).
  { intros ->. pose proof (sw_sends _ _ _ _ _ _ _ _ _ _ _ _ _ _ _ _ H) as Hsend. rewrite (sw_resp _ _ _ _ _ _ _ _ _ _ _ _ _ _ _ _ H) in Hsend. cbn in Hsend. discriminate. }
  destruct (book_after_last ob m fs Hne) as (fs0 & f & Ef & Eb).
  assert (Eob' : s_orderbook (w_st w') = Some (set_next_tick ob m (f_tick f))) by (rewrite Es; cbn; rewrite Eb; reflexivity).
  assert (En : next_tick (w_st w') m = f_tick f) by (unfold next_tick; rewrite Eob'; destruct m; reflexivity).
  split; [|unfold next_tick; rewrite Eob', Eob; destruct m; reflexivity]. rewrite En. split.
  - rewrite (sw_liq H), (sw_liq' H). pose proof (sw_nodup H) as Hnd. pose proof (pg_fills _ _ _ _ _ _ _ _ Hg) as Hf.
    assert (0 < taken fs (f_tick f)); [|lia]. rewrite Ef in *. apply Forall_app in Hf as [_ Hf]. apply Forall_cons in Hf as [Hf _]. destruct Hf as (F1 & _).
    rewrite map_app in Hnd. apply NoDup_app in Hnd as (_ & Hn & _). clear - F1 Hn.
    assert (Hz : taken fs0 (f_tick f) = 0).
    { apply taken_notin. intros Hin. apply (Hn _ Hin). constructor. }
    assert (Ha : forall a b t, taken (a ++ b) t = taken a t + taken b t).
    { intros a b t. induction a as [|x a IH]; cbn; [reflexivity|]. rewrite IH. lia. }
    rewrite Ha, Hz. cbn. rewrite Z.eqb_refl. lia.
  - intros t Ht. rewrite (sw_liq H), (sw_liq' H) in Ht. destruct (sw_taken_pos H t ltac:(lia)) as [Hin _].
    pose proof (sublist_ordered _ _ _ (pg_ticks _ _ _ _ _ _ _ _ Hg) (sw_ord _ _ _ _ _ _ _ _ _ _ _ _ _ _ _ _ H)) as Hord.
    rewrite Ef, map_app in Hord, Hin. cbn [map] in Hord, Hin. pose proof (ordered_last _ _ _ Hord t Hin) as Hb. destruct m; exact Hb.
Qed.
Theorem C57_pointers :
  forall e w c w' r, reachable w -> call_ok (w_self w) c = true -> step e w c = (w', Done r) -> moves (w_st w) (w_st w') c.
Proof.
  intros e w c w' r Hre Hok E. destruct (reachable_inv _ Hre) as (G & Hi). destruct (step_done _ _ _ _ _ _ Hi Hok E) as (G' & Ht & _ & _ & _).
  assert (Hsame : forall s', s_orderbook s' = s_orderbook (w_st w) -> forall m, next_tick s' m = next_tick (w_st w) m) by (intros s' Es m; unfold next_tick; rewrite Es; reflexivity).
  destruct c as [i msg|msg| |c]; cbn [moves].
  - destruct msg as [t d q b|t id|t id|l|a].
    + destruct (trans_place _ _ _ _ _ _ _ _ _ _ _ Ht) as (ob & _ & [P1 _ _ _ _ _ _ _] & _ & _ & Es & _). unfold next_tick. rewrite Es, P1.
      unfold place_st. cbn [s_orderbook set_dirliq set_orderbook]. destruct d; cbn [place_update_book].
      * destruct (Z.ltb_spec (ob_next_bid ob) t); cbn; split; lia.
      * destruct (Z.ltb_spec t (ob_next_ask ob)); cbn; split; lia.
    + destruct (trans_cancel _ _ _ _ _ _ _ _ _ Ht) as (ob & o & n & cc & m' & tr' & c' & _ & _ & _ & _ & _ & _ & _ & _ & _ & Es & _). rewrite Es. apply Hsame. reflexivity.
    + destruct (trans_claim _ _ _ _ _ _ _ _ _ Ht) as (ob & a & ms & o & _ & _ & _ & Hc & _). apply claim1_frame in Hc as (_ & Es & _). apply Hsame, Es.
    + destruct (trans_batch _ _ _ _ _ _ _ _ Ht) as (ob & ms & es & _ & _ & _ & _ & Hc & _). apply claims_frame in Hc as (_ & Es & _). apply Hsame, Es.
    + destruct (trans_auth _ _ _ _ _ _ _ _ Ht) as (_ & Hb & _). apply Hsame. destruct Hb; congruence.
  - destruct msg; try exact (swap_moves e w _ _ _ _ _ None _ _ Hre Hok E); try exact (swap_moves e w _ _ _ _ _ (Some _) _ _ Hre Hok E);
      (inversion Ht; subst; try discriminate; try reflexivity; apply Hsame; match goal with K : same_book _ _ |- _ => destruct K; congruence end).
  - unfold step in E. cbn in E. injection E as <- <-. reflexivity.
  - unfold step in E. cbn in E. injection E as <- <-. reflexivity.
Qed.
Print Assumptions C57_pointers.

Definition current (s : storage) : Z := match s_orderbook s with Some ob => ob_current ob | None => 0 end.
Lemma current_step e w c : reachable w -> call_ok (w_self w) c = true -> current (w_st (fst (step e w c))) = current (w_st w).
Proof.
  intros Hre Hok. destruct (step e w c) as [w' [r|]] eqn:E; cbn [fst]; [|rewrite (step_failed _ _ _ _ E); reflexivity].
  destruct (reachable_inv _ Hre) as (G & Hi). destruct (step_done _ _ _ _ _ _ Hi Hok E) as (G' & Ht & _ & _ & _).
  assert (Hsame : forall s', s_orderbook s' = s_orderbook (w_st w) -> current s' = current (w_st w)) by (intros s' Es; unfold current; rewrite Es; reflexivity).
  destruct c as [i msg|msg| |c].
  - destruct msg as [t d q b|t id|t id|l|a].
    + destruct (trans_place _ _ _ _ _ _ _ _ _ _ _ Ht) as (ob & _ & [P1 _ _ _ _ _ _ _] & _ & _ & Es & _). unfold current. rewrite Es, P1.
      unfold place_st. cbn [s_orderbook set_dirliq set_orderbook]. destruct d; cbn [place_update_book]; destruct (_ <? _); reflexivity.
    + destruct (trans_cancel _ _ _ _ _ _ _ _ _ Ht) as (ob & o & n & cc & m' & tr' & c' & _ & _ & _ & _ & _ & _ & _ & _ & _ & Es & _). rewrite Es. apply Hsame. reflexivity.
    + destruct (trans_claim _ _ _ _ _ _ _ _ _ Ht) as (ob & a & ms & o & _ & _ & _ & Hc & _). apply claim1_frame in Hc as (_ & Es & _). apply Hsame, Es.
    + destruct (trans_batch _ _ _ _ _ _ _ _ Ht) as (ob & ms & es & _ & _ & _ & _ & Hc & _). apply claims_frame in Hc as (_ & Es & _). apply Hsame, Es.
    + destruct (trans_auth _ _ _ _ _ _ _ _ Ht) as (_ & Hb & _). apply Hsame. destruct Hb; congruence.
  - assert (Hsw : forall sender tin out mn fee target, CSudo msg = swap_call sender tin out mn fee target -> current (w_st w') = current (w_st w)).
    { intros sender tin out mn fee target Ec. rewrite Ec in *. destruct (swap_done _ _ _ _ _ _ _ _ _ _ Hre Hok E) as (m & G0 & l & fs & rest & pr & H).
      destruct (sw_ob _ _ _ _ _ _ _ _ _ _ _ _ _ _ _ _ H) as (ob & Eob & _ & Es). unfold current. rewrite Es, Eob. cbn.
      destruct fs as [|f fs]; [reflexivity|]. destruct (book_after_last ob m (f :: fs) ltac:(discriminate)) as (fs0 & f0 & _ & ->). destruct m; reflexivity. }
    destruct msg; try exact (Hsw _ _ _ _ _ None eq_refl); try exact (Hsw _ _ _ _ _ (Some _) eq_refl);
      (inversion Ht; subst; try discriminate; try reflexivity; apply Hsame; match goal with K : same_book _ _ |- _ => destruct K; congruence end).
  - unfold step in E. cbn in E. injection E as <- <-. reflexivity.
  - unfold step in E. cbn in E. injection E as <- <-. reflexivity.
Qed.
Lemma current_run h : forall w, reachable w -> history w h -> current (w_st (run w h)) = current (w_st w).
Proof.
  induction h as [|[e c] h IH]; intros w Hre Hh; cbn [run]; [reflexivity|].
  inversion Hh as [|x l Hok Hh']; subst. cbn [snd] in Hok. rewrite IH.
  - apply current_step; assumption.
  - apply step_reach; assumption.
  - unfold history. rewrite step_self. exact Hh'.
Qed.
(** In terms of the queries: OrderbookState shows the pointers next to the fixed tokens, SpotPrice the price of the pointer. *)
Theorem C57_shown :
  forall w, reachable w ->
  query (w_st w) QOrderbookState = Ok (ABook (mkBook (deposit_denom (w_st w) Bid) (deposit_denom (w_st w) Ask) 0 (next_tick (w_st w) Bid) (next_tick (w_st w) Ask))) /\
  forall m, spot (w_st w) m = Ok (APrice (shown m (next_tick (w_st w) m))).
Proof.
  intros w Hre. split; [|intros []; apply (C33_spot_price w Hre)].
  assert (Hc : current (w_st w) = 0).
  { destruct Hre as (e & self & quote & base & funds & w0 & h & H0 & Hf & Hh & <-). rewrite current_run.
    - destruct (C38_instantiate e self quote base funds) as [_ H]. destruct (H w0 H0) as (_ & _ & _ & _ & _ & _ & _ & Eob & _). unfold current. rewrite Eob. reflexivity.
    - exists e, self, quote, base, funds, w0, []. repeat split; auto.
    - unfold history. destruct (C38_instantiate e self quote base funds) as [_ H]. destruct (H w0 H0) as (-> & _). exact Hh. }
  destruct (reachable_inv _ Hre) as (G & Hi). destruct (i_book _ _ Hi) as (ob & Eob & _). cbn [query]. unfold orderbook_state, load_orderbook. rewrite !(den_eq _ _ _ Eob).
  unfold next_tick. unfold current in Hc. rewrite Eob in *. cbn. rewrite <- Hc. destruct ob; reflexivity.
Qed.
Print Assumptions C57_shown.
(** Right after a swap the spot price is the price of the last tick used - and the best price on offer, if that tick has anything left. *)
Theorem C57_after_swap :
  forall e w sender tin out mn fee target w' r, reachable w -> call_ok (w_self w) (swap_call sender tin out mn fee target) = true ->
  step e w (swap_call sender tin out mn fee target) = (w', Done r) ->
  exists m T, out = deposit_denom (w_st w) m /\ worst_touched (w_st w) (w_st w') m T /\
    spot (w_st w') m = Ok (APrice (shown m T)) /\ spot (w_st w') (opposite m) = spot (w_st w) (opposite m) /\
    forall t, 0 < tick_liquidity (w_st w') t m -> ~ better_tick m t T.
Proof.
  intros e w sender tin out mn fee target w' r Hre Hok E. destruct (swap_moves _ _ _ _ _ _ _ _ _ _ Hre Hok E) as (m & E1 & E2 & E3).
  pose proof (step_reach e w _ Hre Hok) as Hre'. rewrite E in Hre'. cbn [fst] in Hre'.
  destruct (C57_shown w Hre) as [_ S1]. destruct (C57_shown w' Hre') as [_ S2].
  exists m, (next_tick (w_st w') m). split; [exact E1|]. split; [exact E2|]. split; [apply S2|]. split; [rewrite S1, S2, E3; reflexivity|].
  intros t Hl. apply C15_pointer; assumption.
Qed.
Print Assumptions C57_after_swap.
(** A case: asks at prices 1.1 (10), 1.2 (10) and 2 (5); buying 15 moves the ask pointer from 1.1 to 1.2, placing at 1.1 moves it back. *)
Definition hist_ladder := [place "a" 1000000 Ask 5 None; place "a" 100000 Ask 10 None; place "b" 200000 Ask 10 None].
Example C57_case :
  history w_start (hist_ladder ++ [buy "t" 17; place "c" 100000 Ask 3 None]) /\
  run_out w_start (hist_ladder ++ [buy "t" 17; place "c" 100000 Ask 3 None]) = [true; true; true; true; true] /\
  next_tick (w_st (run w_start hist_ladder)) Ask = 100000 /\
  next_tick (w_st (run w_start (hist_ladder ++ [buy "t" 17]))) Ask = 200000 /\
  tick_liquidity (w_st (run w_start (hist_ladder ++ [buy "t" 17]))) 200000 Ask = 5 /\
  next_tick (w_st (run w_start (hist_ladder ++ [buy "t" 17; place "c" 100000 Ask 3 None]))) Ask = 100000 /\
  next_tick (w_st (run w_start (hist_ladder ++ [buy "t" 17]))) Bid = MIN_TICK.
Proof. split; [hist|]. repeat (split; [vm_compute; reflexivity|]). vm_compute; reflexivity. Qed.
