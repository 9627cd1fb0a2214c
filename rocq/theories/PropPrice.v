(** * Property C60: what a taker pays lies between the spot prices before and after. *)
From Coq Require Import QArith Lqa.
From Verif Require Import Base Dec Types State TickMath Sumtree Tick Order Auth Contract Query World SpecMath TickMathProofs
  TreeDefs Exec SumtreeProofs Ghost Inv StepPlace StepCancel StepClaim SwapPlan StepSwap Trans Spec Reach Refine RefineStep Reserve Solvency Books SpecProps PropBase Tests PropOrders PropClaims PropBatch PropSwap PropQuote PropQuery PropAdmin
  PropCurve SpecFree PropFree SpecSpot PropSpot SpecAccount PropAccount.
Local Open Scope Z_scope.

(** A better tick for the taker is a cheaper one. *)
Lemma worth_mono m t t' x : valid_tick t -> valid_tick t' -> 0 <= x -> ~ better_tick m t' t -> (worth_exact m t x <= worth_exact m t' x)%Q.
Proof.
  intros Ht Ht' Hx Hb. pose proof (tick_price_pos t Ht) as Hp. pose proof (tick_price_pos t' Ht') as Hp'. unfold worth_exact, better_tick in *. destruct m.
  - pose proof (price_mono t' t Ht' Ht ltac:(lia)) as Hm. apply div_le; [apply rat_pos; exact Hp'|].
    assert (E : (rat x * rat ATOM / rat (tick_price t) * rat (tick_price t') == (rat (x * ATOM * tick_price t')) / rat (tick_price t))%Q).
    { rewrite !rat_mult. field. pose proof (rat_pos _ Hp) as K. intros E. rewrite E in K. lra. }
    rewrite E. apply div_ge; [apply rat_pos; exact Hp|]. rewrite <- !rat_mult. apply rat_le. unfold ATOM. nia.
  - pose proof (price_mono t t' Ht Ht' ltac:(lia)) as Hm. apply div_ge; [reflexivity|].
    assert (E : (rat x * rat (tick_price t') / rat ATOM * rat ATOM == rat (x * tick_price t'))%Q) by (rewrite rat_mult; field; discriminate).
    rewrite E. rewrite <- rat_mult. apply rat_le. nia.
Qed.
Lemma worth_fills m t (l : list fill) : valid_tick t -> (foldr (fun g acc => worth_exact m t (fl_out g) + acc)%Q 0%Q l == worth_exact m t (fills_out l))%Q.
Proof.
  intros Ht. induction l as [|g l IH]; [cbn [foldr]; symmetry; apply worth_zero; exact Ht|]. cbn [foldr]. change (fills_out (g :: l)) with (fl_out g + fills_out l).
  pose proof (worth_plus m t (fl_out g) (fills_out l) Ht). lra.
Qed.
Lemma sum_mono (f g : fill -> rational) l : (forall x, x ∈ l -> (f x <= g x)%Q) -> (foldr (fun x acc => f x + acc)%Q 0%Q l <= foldr (fun x acc => g x + acc)%Q 0%Q l)%Q.
Proof. induction l as [|a l IH]; intros H; [apply Qle_refl|]. cbn [foldr]. pose proof (H a ltac:(constructor)). specialize (IH ltac:(intros; apply H; constructor; assumption)). lra. Qed.
Lemma fills_in_exact s s' fills l : swap_fills s s' Ask fills -> (forall f, f ∈ l -> f ∈ fills) ->
  (foldr (fun g acc => worth_exact Ask (fl_tick g) (fl_out g) + acc)%Q 0%Q l <= rat (fills_in l))%Q.
Proof.
  intros [_ F2 F3 _ _ F6 F7 _ _ _]. induction l as [|g l IH]; intros Hl; [apply Qle_refl|]. cbn [foldr]. change (fills_in (g :: l)) with (fl_in g + fills_in l). pose proof (Hl g ltac:(constructor)) as Hg.
  specialize (IH ltac:(intros; apply Hl; constructor; assumption)). pose proof (rat_plus (fl_in g) (fills_in l)) as E.
  assert (K : (worth_exact Ask (fl_tick g) (fl_out g) <= rat (fl_in g))%Q); [|lra]. rewrite (F7 g Hg (or_introl eq_refl)). unfold worth_exact, charge.
  apply div_ge; [reflexivity|]. rewrite <- !rat_mult. apply rat_le. pose proof (ceil_spec (fl_out g * tick_price (fl_tick g)) ATOM ltac:(reflexivity)). lia.
Qed.

(** C60: [amount] is what the swap pays out, [charged] what it costs, [kept] a remainder that buys nothing.  The cost is at least
    the worth of the output at the spot price before the swap (for sells up to 10^-18 of a unit for each tick used) and exceeds its
    worth at the spot price after the swap, and at the target price, by less than one unit for each tick used. *)
Theorem C60_corridor :
  forall e w sender tin out mn fee target w' r, reachable w ->
  call_ok (w_self w) (swap_call sender tin out mn fee target) = true ->
  step e w (swap_call sender tin out mn fee target) = (w', Done r) ->
  exists (m : dir) (ticks : list Z) (amount charged refund kept : Z), let n := Z.of_nat (length ticks) in
    out = deposit_denom (w_st w) m /\ r_data r = Some amount /\ 0 < amount /\
    r_msgs r = mkSend REPLY_ID_SUDO_SWAP_EXACT_IN sender (mkCoin out amount) :: pay REPLY_ID_REFUND sender (c_denom tin) refund /\
    c_amount tin = charged + refund + kept /\ 0 < charged /\ 0 <= refund /\ 0 <= kept /\
    (forall t, 0 < tick_liquidity (w_st w') t m -> buys m t kept = 0) /\
    NoDup ticks /\ (forall t, t ∈ ticks <-> tick_liquidity (w_st w') t m < tick_liquidity (w_st w) t m) /\
    (worth_exact m (next_tick (w_st w) m) amount - rat n / rat ATOM < rat charged)%Q /\
    (m = Ask -> worth_exact m (next_tick (w_st w) m) amount <= rat charged)%Q /\
    (rat charged < worth_exact m (next_tick (w_st w') m) amount + rat n)%Q /\
    (forall b, target = Some b -> rat charged < worth_exact m b amount + rat n)%Q.
Proof.
  intros e w sender tin out mn fee target w' r Hre Hok E.
  destruct (C14_swap_result _ _ _ _ _ _ _ _ _ _ Hre Hok E) as (m & amount & refund & charged & dust & _ & _ & Din & Dout & Hne & _ & Hpos & Hms & Hdata & _ & Hch & Hrf & Hdu & Hsum & _).
  destruct (C40_leftover _ _ _ _ _ _ _ _ _ _ Hre Hok E) as (m2 & fills & refund2 & kept & Dout2 & Hf & Hms2 & Hsum2 & Hk & _ & _ & _ & Hkept & _).
  assert (m = m2) as <- by (apply (deposit_inj w); [assumption|congruence]).
  destruct (swap_moves _ _ _ _ _ _ _ _ _ _ Hre Hok E) as (m3 & Dout3 & [Hw1 Hw2] & _).
  assert (m = m3) as <- by (apply (deposit_inj w); [assumption|congruence]).
  rewrite Hms in Hms2. injection Hms2 as Eam Epay. apply pay_inj in Epay. subst amount refund2.
  assert (Hnil : fills <> []) by (intros ->; cbn in Hpos; lia).
  pose proof (step_reach e w _ Hre Hok) as Hre'. rewrite E in Hre'. cbn [fst] in Hre'.
  assert (Htk : forall t, t ∈ map fl_tick fills <-> tick_liquidity (w_st w') t m < tick_liquidity (w_st w) t m).
  { intros t. split.
    - intros Ht. apply elem_of_list_fmap in Ht as (f & -> & Hff). rewrite (sf_liq _ _ _ _ Hf f Hff). pose proof (sf_out _ _ _ _ Hf f Hff). lia.
    - intros Hlt. destruct (decide (t ∈ map fl_tick fills)) as [|Hno]; [assumption|]. exfalso. rewrite !liq_side, (sf_rest _ _ _ _ Hf) in Hlt by assumption. lia. }
  assert (Hliv : forall f, f ∈ fills -> 0 < tick_liquidity (w_st w) (fl_tick f) m) by (intros f Hff; pose proof (sf_out _ _ _ _ Hf f Hff); lia).
  assert (Hlt : forall f, f ∈ fills -> tick_liquidity (w_st w') (fl_tick f) m < tick_liquidity (w_st w) (fl_tick f) m) by (intros f Hff; apply Htk; apply elem_of_list_fmap; eauto).
  assert (Hn1 : forall w, reachable w -> valid_tick (next_tick (w_st w) m)).
  { clear. intros w Hre. destruct (reachable_inv _ Hre) as (G & Hi). destruct (i_book _ _ Hi) as (ob & Eob & Hbk). pose proof Hbk as [_ B2 B3 _ _]. unfold next_tick. rewrite Eob. destruct m; assumption. }
  pose proof (Hn1 w Hre) as V1. pose proof (Hn1 w' Hre') as V2.
  destruct (fills_in_rat _ _ _ _ fills Hf ltac:(auto)) as (_ & _ & F). specialize (F Hnil). cbv zeta in F. destruct F as [F1 F2].
  set (W := foldr (fun g acc => worth_exact m (fl_tick g) (fl_out g) + acc)%Q 0%Q fills) in *.
  assert (Hlow : (worth_exact m (next_tick (w_st w) m) (fills_out fills) <= W)%Q).
  { rewrite <- (worth_fills m _ fills V1). apply sum_mono. intros f Hff. apply worth_mono; [exact V1|apply (sf_valid _ _ _ _ Hf); exact Hff|pose proof (sf_out _ _ _ _ Hf f Hff); lia|]. apply C15_pointer; [exact Hre|apply Hliv, Hff]. }
  assert (Hup : forall b, valid_tick b -> (forall f, f ∈ fills -> ~ better_tick m b (fl_tick f)) -> (W <= worth_exact m b (fills_out fills))%Q).
  { intros b Vb Hb. rewrite <- (worth_fills m _ fills Vb). apply sum_mono. intros f Hff. apply worth_mono; [apply (sf_valid _ _ _ _ Hf); exact Hff|exact Vb|pose proof (sf_out _ _ _ _ Hf f Hff); lia|apply Hb, Hff]. }
  exists m, (map fl_tick fills), (fills_out fills), (fills_in fills), refund, kept. rewrite map_length. cbv zeta.
  split; [exact Dout|]. split; [exact Hdata|]. split; [exact Hpos|]. split; [exact Hms|]. split; [lia|]. split.
  { destruct fills as [|f l]; [congruence|]. change (fills_in (f :: l)) with (fl_in f + fills_in l). pose proof (sf_in _ _ _ _ Hf f ltac:(constructor)).
    assert (K : forall k, (forall g, g ∈ k -> g ∈ f :: l) -> 0 <= fills_in k).
    { induction k as [|g k IH]; intros Hs; [reflexivity|]. change (fills_in (g :: k)) with (fl_in g + fills_in k). pose proof (sf_in _ _ _ _ Hf g ltac:(apply Hs; constructor)). specialize (IH ltac:(intros; apply Hs; constructor; assumption)). lia. }
    specialize (K l ltac:(intros; constructor; assumption)). lia. }
  split; [exact Hrf|]. split; [exact Hk|]. split.
  { intros t Ht. destruct (Z.eq_dec kept 0) as [->|]; [destruct m; reflexivity|]. apply Hkept; [lia|exact Ht]. }
  split; [apply (sf_once _ _ _ _ Hf)|]. split; [exact Htk|]. split; [lra|]. split; [|split].
  - intros ->. pose proof (fills_in_exact _ _ _ fills Hf ltac:(auto)) as K. fold W in K. lra.
  - assert (Hb : forall f, f ∈ fills -> ~ better_tick m (next_tick (w_st w') m) (fl_tick f)) by (intros f Hff; apply Hw2, Hlt, Hff).
    pose proof (Hup _ V2 Hb). lra.
  - intros b ->. destruct (C17_swap_to_tick _ _ _ _ _ _ _ _ _ _ Hre Hok E) as (Vb & m4 & Dout4 & Hb).
    assert (m = m4) as <- by (apply (deposit_inj w); [assumption|congruence]).
    assert (Hbb : forall f, f ∈ fills -> ~ better_tick m b (fl_tick f)).
    { intros f Hff. assert (Hside : side_values (w_st w') (fl_tick f) m <> side_values (w_st w) (fl_tick f) m) by (intros Eq; pose proof (Hlt f Hff) as K; rewrite !liq_side, Eq in K; lia).
      destruct (Hb _ _ Hside) as (_ & _ & Hc). unfold better_tick. destruct m; lia. }
    pose proof (Hup _ Vb Hbb). lra.
Qed.
Print Assumptions C60_corridor.
(** A case: asks at prices 1.1 (10), 1.2 (10) and 2 (5); 17 units buy 15, at a cost of 11 + 6 = 17, between 16.5 and 18. *)
Example C60_case :
  let w := run w_start hist_ladder in let w' := fst (step tenv w (snd (buy "t" 17))) in
  reachable w /\ step tenv w (snd (buy "t" 17)) = (w', Done (resp_of tenv w (snd (buy "t" 17)))) /\
  r_data (resp_of tenv w (snd (buy "t" 17))) = Some 15 /\
  Qred (worth_exact Ask (next_tick (w_st w) Ask) 15) = (33 # 2)%Q /\ Qred (worth_exact Ask (next_tick (w_st w') Ask) 15) = 18%Q.
Proof.
  cbv zeta. split; [apply start_reachable; [apply start_ok|hist]|]. split; [apply done_ok; vm_compute; reflexivity|]. split; [vm_compute; reflexivity|]. split; vm_compute; reflexivity.
Qed.
