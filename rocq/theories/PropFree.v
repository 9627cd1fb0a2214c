(** * Property C46: no sequence of swaps makes money out of nothing. *)
From Verif Require Import Base Dec Types State TickMath Sumtree Tick Order Auth Contract Query World SpecMath TickMathProofs
  TreeDefs Exec SumtreeProofs SumtreeRebalance SumtreeInsert PrefixSum SumtreeRoot SumtreeFail Ghost Inv StepPlace StepCancel StepClaim
  SwapPlan StepSwap Trans Spec Reach Refine RefineStep Reserve Solvency Books SpecProps PropBase Tests PropOrders PropSwap PropQuote PropAdmin PlanCurve PropCurve SpecFree.

(** Prices of neighbouring ticks are more than a factor 1 + 10^-18 apart. *)
Lemma price_gap t : -108000000 <= t -> tick_price t * (ATOM + 1) < tick_price (t + 1) * ATOM.
Proof.
  intros H. unfold tick_price, ATOM. pose proof (Z.div_mod t 9000000 ltac:(lia)) as D. pose proof (Z.mod_pos_bound t 9000000 ltac:(lia)) as B.
  set (k := t / 9000000) in *. set (m := t mod 9000000) in *. assert (Hk : -12 <= k) by (unfold k; apply Z.div_le_lower_bound; lia).
  assert (P : 0 < 10 ^ (12 + k)) by (apply Z.pow_pos_nonneg; lia).
  destruct (Z.lt_ge_cases (m + 1) 9000000) as [Hm|Hm].
  - assert (E1 : (t + 1) / 9000000 = k) by (symmetry; apply (Z.div_unique _ _ _ (m + 1)); lia).
    assert (E2 : (t + 1) mod 9000000 = m + 1) by (symmetry; apply (Z.mod_unique _ _ k); lia).
    rewrite E1, E2. nia.
  - assert (E1 : (t + 1) / 9000000 = k + 1) by (symmetry; apply (Z.div_unique _ _ _ 0); lia).
    assert (E2 : (t + 1) mod 9000000 = 0) by (symmetry; apply (Z.mod_unique _ _ (k + 1)); lia).
    rewrite E1, E2. replace (12 + (k + 1)) with (Z.succ (12 + k)) by lia. rewrite Z.pow_succ_r by lia. nia.
Qed.

(** A reference price between the two sides. *)
Definition between (s : storage) (p : Z) : Prop :=
  0 < p /\ (forall t, 0 < tick_liquidity s t Ask -> p <= tick_price t) /\
  (forall t, 0 < tick_liquidity s t Bid -> tick_price t * (ATOM + 1) < p * ATOM).
Lemma greatest (P : Z -> Prop) `{!forall t, Decision (P t)} lo (n : nat) :
  (forall t, lo <= t < lo + Z.of_nat n -> ~ P t) \/ exists t, P t /\ lo <= t /\ forall t', P t' -> t' < lo + Z.of_nat n -> t' <= t.
Proof.
  induction n as [|n [IH|(t & Ht & Hlo & IH)]].
  - left. intros; lia.
  - destruct (decide (P (lo + Z.of_nat n))) as [Hp|Hn].
    + right. exists (lo + Z.of_nat n). split; [assumption|]. split; [lia|]. intros; lia.
    + left. intros t Ht. destruct (Z.eq_dec t (lo + Z.of_nat n)) as [->|]; [assumption|]. apply IH. lia.
  - destruct (decide (P (lo + Z.of_nat n))) as [Hp|Hn].
    + right. exists (lo + Z.of_nat n). split; [assumption|]. split; [lia|]. intros; lia.
    + right. exists t. split; [assumption|]. split; [assumption|]. intros t' Ht' Hb. apply IH; [assumption|].
      destruct (Z.eq_dec t' (lo + Z.of_nat n)) as [->|]; [contradiction|lia].
Qed.
Lemma greatest_below (P : Z -> Prop) `{!forall t, Decision (P t)} lo hi : lo <= hi ->
  (forall t, lo <= t < hi -> ~ P t) \/ exists t, P t /\ lo <= t /\ forall t', P t' -> t' < hi -> t' <= t.
Proof.
  intros Hl. pose proof (greatest P lo (Z.to_nat (hi - lo))) as G. rewrite Z2Nat.id in G by lia. replace (lo + (hi - lo)) with hi in G by lia. exact G.
Qed.
Lemma live_valid w t d : reachable w -> 0 < tick_liquidity (w_st w) t d -> valid_tick t.
Proof.
  intros Hre Hl. destruct (reachable_inv _ Hre) as (G & Hi). unfold tick_liquidity in Hl. destruct (s_ticks (w_st w) !! t) as [ts|] eqn:Et; [|lia].
  destruct (i_some _ _ Hi _ _ Et) as [V _]. exact V.
Qed.
Lemma between_exists w : reachable w -> uncrossed (w_st w) -> exists p, between (w_st w) p.
Proof.
  intros Hre Hu. set (s := w_st w) in *.
  destruct (greatest_below (fun t => 0 < tick_liquidity s t Bid) (-108000000) 182402824 ltac:(lia)) as [Hn|(t & Ht & Hlo & Hmax)].
  - exists 1. split; [lia|]. split.
    + intros t Ht. pose proof (tick_price_pos t (live_valid _ _ _ Hre Ht)). lia.
    + intros t Ht. destruct (live_valid _ _ _ Hre Ht) as [V1 V2]. destruct (Hn t); [lia|assumption].
  - assert (Hv : valid_tick t) by (eapply live_valid; eauto). destruct Hv as [V1 V2].
    pose proof (tick_price_pos t (conj V1 V2)). pose proof (tick_price_succ t V1). exists (tick_price (t + 1)). split; [lia|]. split.
    + intros ta Ha. specialize (Hu t ta Ht Ha). apply tick_price_mono_le; lia.
    + intros tb Hb. destruct (live_valid _ _ _ Hre Hb) as [W1 W2]. assert (tb <= t) by (apply Hmax; [assumption|lia]).
      pose proof (price_gap t V1). pose proof (tick_price_mono_le tb t W1 ltac:(lia)). unfold ATOM in *. nia.
Qed.

(** Contract's holdings valued at the reference price. *)
Definition worth (s : storage) (w : world) (p : Z) : Z := balance w (deposit_denom s Bid) * ATOM + balance w (deposit_denom s Ask) * p.
Lemma swap_fills_worth s s' m fills p : between s p -> swap_fills s s' m fills ->
  match m with
  | Ask => fills_out fills * p <= fills_in fills * ATOM
  | Bid => fills_out fills * ATOM <= fills_in fills * p /\ (fills <> [] -> fills_out fills * ATOM < fills_in fills * p)
  end.
Proof.
  intros (Hp & Ha & Hb) [_ F2 F3 _ _ F6 F7 F8 _ _].
  assert (K : forall f, f ∈ fills -> match m with Ask => fl_out f * p <= fl_in f * ATOM | Bid => fl_out f * ATOM < fl_in f * p end).
  { intros f Hf. pose proof (F3 f Hf) as O. pose proof (F6 f Hf) as I. pose proof (tick_price_pos _ (F2 f Hf)) as Pp. destruct m.
    - pose proof (F8 f Hf eq_refl) as S. pose proof (Hb (fl_tick f) ltac:(lia)) as B. unfold ATOM in *. nia.
    - rewrite (F7 f Hf (or_introl eq_refl)). pose proof (Ha (fl_tick f) ltac:(lia)) as A. unfold charge, ceil_div.
      pose proof (Z.div_mod (- (fl_out f * tick_price (fl_tick f))) ATOM ltac:(discriminate)). pose proof (Z.mod_pos_bound (- (fl_out f * tick_price (fl_tick f))) ATOM eq_refl). nia. }
  clear F2 F3 F6 F7 F8. induction fills as [|f l IH]; [destruct m; cbn; [split; [lia|congruence]|lia]|].
  assert (Kf := K f ltac:(constructor)). specialize (IH ltac:(intros g Hg; apply K; constructor; exact Hg)).
  cbn [fills_out fills_in foldr]. fold (fills_out l) (fills_in l). destruct m; [destruct IH as [IH _]; split; [nia|intros _; nia]|nia].
Qed.

Lemma liq_side s t d : tick_liquidity s t d = tv_tal (side_values s t d) / DEC.
Proof. unfold tick_liquidity, side_values. destruct (s_ticks s !! t); [reflexivity|]. cbn. reflexivity. Qed.
Lemma fills_less s s' m fills t d : swap_fills s s' m fills -> tick_liquidity s' t d <= tick_liquidity s t d.
Proof.
  intros [_ _ F3 F4 _ _ _ _ F9 F10]. destruct (decide (d = m)) as [->|Hd].
  - destruct (decide (t ∈ map fl_tick fills)) as [Hin|Hn].
    + apply elem_of_list_fmap in Hin as (f & -> & Hf). rewrite (F4 f Hf). pose proof (F3 f Hf). lia.
    + rewrite !liq_side, F9 by assumption. lia.
  - assert (d = opposite m) as -> by (destruct d, m; cbn; congruence). rewrite !liq_side, F10. lia.
Qed.
Lemma pay_inj i to d a b : pay i to d a = pay i to d b -> a = b.
Proof. unfold pay. destruct (Z.eqb_spec a 0), (Z.eqb_spec b 0); intros H; try discriminate; try congruence. Qed.

Lemma swap_worth e w sender tin out mn fee target w' r p :
  reachable w -> call_ok (w_self w) (swap_call sender tin out mn fee target) = true ->
  step e w (swap_call sender tin out mn fee target) = (w', Done r) -> between (w_st w) p ->
  denoms_of (w_st w') = denoms_of (w_st w) /\ between (w_st w') p /\ worth (w_st w) w p <= worth (w_st w) w' p /\
  (worth (w_st w) w p < worth (w_st w) w' p \/ balance w (deposit_denom (w_st w) Bid) < balance w' (deposit_denom (w_st w) Bid)).
Proof.
  intros Hre Hok E Hb.
  destruct (C14_swap_result _ _ _ _ _ _ _ _ _ _ Hre Hok E) as (m & amount & refund & charged & dust & _ & _ & Din & Dout & Hne & _ & Hpos & Hms & _ & _ & Hch & Hrf & Hdu & Hsum & _ & _ & _ & B1 & B2 & _ & _ & Hden & _).
  destruct (C18_swap_fills _ _ _ _ _ _ _ _ _ _ Hre Hok E) as (m2 & fills & Dout2 & Hf & _ & _ & refund2 & R1 & _ & Hms2).
  assert (m = m2) as <- by (apply (deposit_inj w); [assumption|congruence]).
  rewrite Hms in Hms2. injection Hms2 as Eam Epay. apply pay_inj in Epay. subst amount refund2.
  assert (Hin : fills_in fills <= charged + dust) by lia.
  split; [exact Hden|]. split.
  { destruct Hb as (P1 & P2 & P3). split; [assumption|]. split; intros t Ht; [apply P2|apply P3].
    - pose proof (fills_less _ _ _ _ t Ask Hf). lia.
    - pose proof (fills_less _ _ _ _ t Bid Hf). lia. }
  pose proof (swap_fills_worth _ _ _ _ p Hb Hf) as Hw.
  assert (Hne0 : fills <> []) by (intros ->; cbn in Hpos; lia).
  destruct Hb as (P1 & _). unfold worth. unfold proceeds_denom in Din. destruct m; cbn [opposite] in Din; rewrite Din in B2; rewrite Dout in B1; rewrite B1, B2.
  - destruct Hw as [_ Hw]. specialize (Hw Hne0). split; [nia|]. left. nia.
  - split; [unfold ATOM in *; nia|]. right. lia.
Qed.

(** C46: on a book that is not crossed no sequence of swaps - any number, directions, amounts, limits
    and traders - can take money out of the contract for nothing: if at least one of them succeeds,
    the contract ends up with more quote or with more base than before. *)
Theorem C46_no_free_money :
  forall w h, reachable w -> uncrossed (w_st w) -> history w h -> only_swaps h ->
  let w' := run w h in let quote := deposit_denom (w_st w) Bid in let base := deposit_denom (w_st w) Ask in
  w' = w \/ balance w quote < balance w' quote \/ balance w base < balance w' base.
Proof.
  intros w h Hre Hu Hh Hs w' quote base. destruct (between_exists w Hre Hu) as (p & Hb). pose proof (proj1 Hb) as Hp.
  assert (K : w' = w \/ (worth (w_st w) w p <= worth (w_st w) w' p /\ (worth (w_st w) w p < worth (w_st w) w' p \/ balance w quote < balance w' quote))).
  { unfold w', quote. clear w' quote base Hu Hp. revert w Hre Hb Hh Hs. induction h as [|[e c] h IH]; intros w Hre Hb Hh Hs; cbn [run]; [left; reflexivity|].
    inversion Hh as [|x l Hok Hh']; subst. inversion Hs as [|x l (sender & tin & out & mn & fee & target & Ec) Hs']; subst. cbn [snd] in Hok, Ec. subst c.
    pose proof (step_reach e w _ Hre Hok) as Hre'. pose proof (step_self e w (swap_call sender tin out mn fee target)) as Eself.
    destruct (step e w (swap_call sender tin out mn fee target)) as [w1 [r|]] eqn:E; cbn [fst] in *.
    - destruct (swap_worth _ _ _ _ _ _ _ _ _ _ p Hre Hok E Hb) as (Hden & Hb1 & W1 & W2).
      assert (Hh1 : history w1 h) by (unfold history; rewrite Eself; exact Hh').
      injection Hden as D1 D2. right.
      destruct (IH w1 Hre' Hb1 Hh1 Hs') as [->|[V1 V2]]; [split; assumption|].
      unfold worth in *. rewrite D1, D2 in *. split; [lia|]. destruct W2 as [W2|W2], V2 as [V2|V2]; try (left; lia). right. lia.
    - rewrite (step_failed _ _ _ _ E). apply IH; try assumption. }
  destruct K as [K|[_ [K|K]]]; [left; assumption| |right; left; assumption].
  right. unfold worth in K. fold quote base in K. destruct (Z.lt_ge_cases (balance w quote) (balance w' quote)); [left; assumption|]. right. unfold ATOM in *. nia.
Qed.
Print Assumptions C46_no_free_money.

(** A book with both sides (buying 50 and selling them back costs 5), and a crossed one, where the
    same trip gains 50: there the hypothesis is needed. *)
Definition uncrossedb (s : storage) : bool :=
  let ks := map fst (map_to_list (s_ticks s)) in
  forallb (fun tb => forallb (fun ta => negb ((0 <? tick_liquidity s tb Bid) && (0 <? tick_liquidity s ta Ask)) || (tb <? ta)) ks) ks.
Lemma uncrossedb_sound s : uncrossedb s = true -> uncrossed s.
Proof.
  unfold uncrossedb. intros H tb ta Hb Ha. rewrite forallb_forall in H.
  assert (K : forall t d, 0 < tick_liquidity s t d -> In t (map fst (map_to_list (s_ticks s)))).
  { intros t d Hl. unfold tick_liquidity in Hl. destruct (s_ticks s !! t) as [ts|] eqn:Et; [|lia].
    apply in_map_iff. exists (t, ts). split; [reflexivity|]. apply elem_of_list_In, elem_of_map_to_list. assumption. }
  specialize (H tb (K _ _ Hb)). rewrite forallb_forall in H. specialize (H ta (K _ _ Ha)).
  rewrite (proj2 (Z.ltb_lt _ _) Hb), (proj2 (Z.ltb_lt _ _) Ha) in H. cbn in H. apply Z.ltb_lt in H. exact H.
Qed.
Definition trip (q b : Z) : list (env * call) := [(tenv, swap_call "z" (mkCoin "quote" q) "base" 0 0 None); (tenv, swap_call "z" (mkCoin "base" b) "quote" 0 0 None)].
Definition w_sides : world := run w_start [place "a" 0 Bid 100 None; place "b" 100000 Ask 100 None].
Definition w_cross : world := run w_start [place "a" 1000000 Bid 100 None; place "b" 0 Ask 100 None].
Example C46_case :
  let w' := run w_sides (trip 55 50) in
  reachable w_sides /\ uncrossed (w_st w_sides) /\ history w_sides (trip 55 50) /\ only_swaps (trip 55 50) /\
  (balance w_sides "quote", balance w_sides "base", balance w' "quote", balance w' "base") = (100, 100, 105, 100).
Proof.
  split; [apply start_reachable; [apply start_ok|hist]|]. split; [apply uncrossedb_sound; vm_compute; reflexivity|].
  split; [hist|]. split; [|vm_compute; reflexivity]. unfold only_swaps, trip. repeat (apply Forall_cons; split; [cbn [snd]; eauto 10|]). apply Forall_nil. exact I.
Qed.
Example C46_crossed :
  let w' := run w_cross (trip 50 50) in
  reachable w_cross /\ uncrossedb (w_st w_cross) = false /\
  (balance w_cross "quote", balance w_cross "base", balance w' "quote", balance w' "base") = (100, 100, 50, 100).
Proof. split; [apply start_reachable; [apply start_ok|hist]|]. vm_compute. auto. Qed.
