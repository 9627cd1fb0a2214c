(** * Properties C61 and C62: the price of an amount, and the effect of more depth. *)
From Verif Require Import Base Dec Types State TickMath Sumtree Tick Order Auth Contract Query World SpecMath TickMathProofs
  TreeDefs Exec SumtreeProofs SumtreeRebalance SumtreeInsert PrefixSum SumtreeRoot SumtreeFail Ghost Inv StepPlace StepCancel StepClaim
  SwapPlan StepSwap Trans Spec Reach Refine RefineStep Reserve Solvency Books SpecProps PropBase Tests PropOrders PropClaims PropBatch PropSwap PropQuote PropAdmin PropQuery PlanCurve PropCurve
  SpecAdmin SpecBank PropBank SpecMachine MachineBase MachineSwap PropMachine PropDepth SpecBuy.

(** ** The walk through the asks *)
Lemma atom_pos : 0 < ATOM. Proof. reflexivity. Qed.
Lemma purchase_zero liq l : (forall t, t ∈ l -> 0 <= liq t) -> purchase liq l 0 = 0.
Proof.
  induction l as [|t l IH]; intros H; cbn [purchase]; [reflexivity|]. pose proof (H t ltac:(constructor)). rewrite Z.min_l by assumption.
  cbn [Z.mul Z.sub]. rewrite Z.sub_0_r. rewrite IH by (intros; apply H; constructor; assumption). reflexivity.
Qed.
Lemma walk_zero partial open l last : walk Ask partial open l 0 last = Some ([], 0).
Proof. destruct l; reflexivity. Qed.
Lemma purchase_nonneg liq l : forall x, (forall t, t ∈ l -> 0 <= liq t /\ 0 < tick_price t) -> 0 <= x -> 0 <= purchase liq l x.
Proof.
  induction l as [|t l IH]; intros x H Hx; cbn [purchase]; [lia|]. pose proof (H t ltac:(constructor)) as [H1 H2].
  specialize (IH (x - Z.min x (liq t)) ltac:(intros; apply H; constructor; assumption) ltac:(lia)).
  assert (0 <= ceil_div (Z.min x (liq t) * tick_price t) ATOM); [|lia]. apply ceil_ge; [reflexivity|]. unfold ATOM. nia.
Qed.
(** The charge buys the amount, with nothing left over. *)
Lemma walk_buys partial open l : forall x last, (forall t, t ∈ l -> 0 < open t <= U128_MAX /\ 0 < tick_price t) -> 0 <= x <= lsumf open l ->
  exists f, walk Ask partial open l (purchase open l x) last = Some (f, 0) /\ x <= total_out f.
Proof.
  induction l as [|t l IH]; intros x last H Hx.
  { cbn in Hx. exists []. cbn. split; [reflexivity|lia]. }
  destruct (Z.eq_dec x 0) as [->|Hx0].
  { rewrite purchase_zero by (intros u Hu; destruct (H u Hu); lia). exists []. split; [apply walk_zero|cbn; lia]. }
  pose proof (H t ltac:(constructor)) as [Ho Hp]. assert (Hl : forall u, u ∈ l -> 0 < open u <= U128_MAX /\ 0 < tick_price u) by (intros; apply H; constructor; assumption).
  cbn [lsumf] in Hx. cbn [purchase walk]. set (p := tick_price t) in *. set (a := Z.min x (open t)).
  set (c := ceil_div (a * p) ATOM). set (q' := purchase open l (x - a)).
  assert (Hq' : 0 <= q') by (apply purchase_nonneg; [intros u Hu; destruct (Hl u Hu); lia|unfold a; lia]).
  pose proof (ceil_spec (a * p) ATOM atom_pos) as Hc. fold c in Hc.
  assert (Ha : 0 < a) by (unfold a; lia). assert (Hc0 : 0 < c) by (apply (Z.mul_pos_cancel_r _ ATOM atom_pos); nia).
  cbn [output_for]. unfold bid_gross.
  pose proof (floor_spec ((c + q') * ATOM) p Hp) as Hw. set (w := floor_div ((c + q') * ATOM) p) in *.
  assert (Haw : a <= w) by (apply floor_ge; [assumption|]; unfold ATOM in *; nia).
  assert ((w =? 0) = false) as -> by (apply Z.eqb_neq; lia). cbv zeta. cbn [input_for].
  destruct (Z.le_gt_cases (open t) x) as [Hge|Hlt].
  - assert (Ea : a = open t) by (unfold a; lia). assert (Em : Z.min w (open t) = a) by lia. rewrite Em. fold c.
    assert ((a <=? 2 ^ 128 - 1) && negb (c =? 0) = true) as ->.
    { apply andb_true_intro. split; [apply Z.leb_le; unfold U128_MAX in *; lia|]. apply negb_true_iff, Z.eqb_neq. lia. }
    replace (c + q' - c) with q' by lia. destruct (IH (x - a) p Hl) as (f & Hf & Hsum); [lia|]. fold q' in Hf. rewrite Hf.
    exists ((t, a) :: f). split; [reflexivity|]. cbn. unfold total_out in Hsum. lia.
  - assert (Ea : a = x) by (unfold a; lia). assert (Eq : q' = 0).
    { unfold q'. replace (x - a) with 0 by lia. apply purchase_zero. intros u Hu. destruct (Hl u Hu). lia. }
    set (m := Z.min w (open t)). assert (Hm : x <= m) by lia. pose proof (ceil_spec (m * p) ATOM atom_pos) as Hcm.
    assert (Em : ceil_div (m * p) ATOM = c).
    { assert (c <= ceil_div (m * p) ATOM) by (apply ceil_ge; [reflexivity|]; nia).
      assert (ceil_div (m * p) ATOM <= c) by (apply ceil_le; [reflexivity|]; nia). lia. }
    rewrite Em. assert ((m <=? 2 ^ 128 - 1) && negb (c =? 0) = true) as ->.
    { apply andb_true_intro. split; [apply Z.leb_le; unfold U128_MAX in *; lia|]. apply negb_true_iff, Z.eqb_neq. lia. }
    replace (c + q' - c) with 0 by lia. rewrite walk_zero. exists [(t, m)]. split; [reflexivity|]. cbn. lia.
Qed.
(** Nothing smaller does. *)
Lemma walk_needs partial open l : forall q last f r x, ordered Bid l -> (forall t, t ∈ l -> valid_tick t /\ 0 < open t) -> 0 <= q -> 0 <= x ->
  walk Ask partial open l q last = Some (f, r) -> x <= total_out f -> purchase open l x <= q.
Proof.
  induction l as [|t l IH]; intros q last f r x Hl H Hq Hx Hw Hf; cbn [purchase walk] in *; [lia|].
  pose proof (H t ltac:(constructor)) as [Hv Ho]. pose proof (tick_price_pos t Hv) as Hp.
  destruct (ordered_head _ _ _ Hl) as (Hl' & _ & Hb). assert (Hr : forall u, u ∈ l -> valid_tick u /\ 0 < open u) by (intros; apply H; constructor; assumption).
  set (p := tick_price t) in *. cbn [output_for input_for] in Hw. unfold bid_gross in Hw.
  pose proof (floor_spec (q * ATOM) p Hp) as Hfl. set (w := floor_div (q * ATOM) p) in *.
  destruct (Z.eqb_spec w 0) as [Ew|Hw0].
  { injection Hw as <- _. cbn in Hf. assert (x = 0) as -> by lia. rewrite Z.min_l by lia. rewrite Z.sub_0_r.
    rewrite purchase_zero by (intros u Hu; destruct (Hr u Hu); lia). change (ceil_div (0 * p) ATOM) with 0. lia. }
  assert (Hwp : 0 <= w) by (apply floor_ge; [assumption|]; unfold ATOM; nia).
  set (m := Z.min w (open t)) in *. pose proof (ceil_spec (m * p) ATOM atom_pos) as Hcm. set (c := ceil_div (m * p) ATOM) in *.
  destruct (_ && _); [|discriminate]. destruct (walk Ask partial open l (q - c) p) as [[f' r']|] eqn:E; [|discriminate]. injection Hw as <- <-.
  assert (Hcq : c <= q) by (apply ceil_le; [reflexivity|]; nia).
  change (x <= m + total_out f') in Hf.
  destruct (Z.le_gt_cases x m) as [Hxm|Hxm].
  { rewrite Z.min_l by lia. rewrite Z.sub_diag, purchase_zero by (intros u Hu; destruct (Hr u Hu); lia). rewrite Z.add_0_r.
    apply ceil_le; [reflexivity|]. nia. }
  destruct (Z.le_gt_cases (open t) w) as [Hfull|Hpart].
  - assert (Em : m = open t) by lia. rewrite Z.min_r by lia. rewrite <- Em. fold c. specialize (IH (q - c) p f' r' (x - m) Hl' Hr ltac:(lia) ltac:(lia) E ltac:(lia)). lia.
  - exfalso. assert (Em : m = w) by lia. assert (Hz : forall u, u ∈ l -> output_for Ask (q - c) (tick_price u) = 0).
    { intros u Hu. destruct (Hr u Hu) as [Hvu _]. pose proof (price_mono t u Hv Hvu) as Hpm. specialize (Hb u Hu). cbn in Hb. specialize (Hpm ltac:(lia)). fold p in Hpm.
      cbn [output_for]. unfold bid_gross, floor_div. apply Z.div_small. rewrite Em in Hcm. split; [unfold ATOM; lia|]. nia. }
    assert (total_out f' = 0); [|lia]. destruct l as [|u l].
    + cbn [walk] in E. destruct (_ || _); [|discriminate]. injection E as <- _. reflexivity.
    + cbn [walk] in E. rewrite (Hz u ltac:(constructor)) in E. cbn in E. injection E as <- _. reflexivity.
Qed.
(** What was taken, and what it is worth. *)
Lemma lsumf_ext f g l : (forall t, t ∈ l -> f t = g t) -> lsumf f l = lsumf g l.
Proof.
  induction l as [|t l IH]; intros H; cbn [lsumf]; [reflexivity|]. rewrite (H t ltac:(constructor)), IH; [reflexivity|]. intros; apply H; constructor; assumption.
Qed.
Lemma walk_paid partial open l : forall q last f r, ordered Bid l -> (forall t, t ∈ l -> valid_tick t /\ 0 < open t) -> 0 <= q ->
  walk Ask partial open l q last = Some (f, r) ->
  lsumf (taken_at f) l = total_out f /\ lsumf (fun t => taken_at f t * tick_price t) l <= q * ATOM.
Proof.
  induction l as [|t l IH]; intros q last f r Hl H Hq Hw; cbn [walk] in Hw.
  { destruct (_ || _); [|discriminate]. injection Hw as <- _. cbn. unfold ATOM. lia. }
  pose proof (H t ltac:(constructor)) as [Hv Ho]. pose proof (tick_price_pos t Hv) as Hp.
  destruct (ordered_head _ _ _ Hl) as (Hl' & Hn & Hb). assert (Hr : forall u, u ∈ l -> valid_tick u /\ 0 < open u) by (intros; apply H; constructor; assumption).
  set (p := tick_price t) in *. cbn [output_for input_for] in Hw. unfold bid_gross in Hw.
  pose proof (floor_spec (q * ATOM) p Hp) as Hfl. set (w := floor_div (q * ATOM) p) in *.
  destruct (Z.eqb_spec w 0) as [Ew|Hw0].
  { injection Hw as <- _. assert (Z0 : forall g, lsumf (fun u => taken_at [] u * g u) (t :: l) = 0).
    { intros g. generalize (t :: l). intros k. induction k as [|u k IHk]; cbn [lsumf]; [reflexivity|]. rewrite IHk. reflexivity. }
    rewrite Z0. split; [|unfold ATOM; lia]. rewrite (lsumf_ext _ (fun u => taken_at [] u * 1)) by (intros; cbn; lia). apply Z0. }
  assert (Hwp : 0 <= w) by (apply floor_ge; [assumption|]; unfold ATOM; nia).
  set (m := Z.min w (open t)) in *. pose proof (ceil_spec (m * p) ATOM atom_pos) as Hcm. set (c := ceil_div (m * p) ATOM) in *.
  destruct (_ && _); [|discriminate]. destruct (walk Ask partial open l (q - c) p) as [[f' r']|] eqn:E; [|discriminate]. injection Hw as <- <-.
  assert (Hcq : c <= q) by (apply ceil_le; [reflexivity|]; nia).
  destruct (IH (q - c) p f' r' Hl' Hr ltac:(lia) E) as [I1 I2]. pose proof (walk_taken _ _ _ _ _ _ _ _ E t Hn) as Hz.
  assert (T0 : forall u, taken_at ((t, m) :: f') u = (if t =? u then m else 0) + taken_at f' u) by reflexivity.
  assert (T1 : forall u, u ∈ l -> taken_at ((t, m) :: f') u = taken_at f' u).
  { intros u Hu. rewrite T0. destruct (Z.eqb_spec t u) as [->|]; [contradiction|lia]. }
  cbn [lsumf]. rewrite T0, Z.eqb_refl, Hz. fold p. split.
  - rewrite (lsumf_ext _ (taken_at f')) by exact T1. change (total_out ((t, m) :: f')) with (m + total_out f'). lia.
  - rewrite (lsumf_ext _ (fun u => taken_at f' u * tick_price u)) by (intros u Hu; rewrite T1 by exact Hu; reflexivity). lia.
Qed.
(** Buying at the cheapest ticks costs least. *)
Fixpoint greedy (open : Z -> Z) (l : list Z) (y : Z) : Z :=
  match l with [] => 0 | t :: l => let a := Z.min y (open t) in a * tick_price t + greedy open l (y - a) end.
Lemma greedy_zero open l : (forall t, t ∈ l -> 0 <= open t) -> greedy open l 0 = 0.
Proof.
  induction l as [|t l IH]; intros H; cbn [greedy]; [reflexivity|]. pose proof (H t ltac:(constructor)). rewrite Z.min_l by assumption.
  rewrite Z.sub_0_r, IH by (intros; apply H; constructor; assumption). lia.
Qed.
Lemma greedy_min open a l : forall p0 y, ordered Bid l -> (forall t, t ∈ l -> valid_tick t /\ 0 <= a t <= open t /\ p0 <= tick_price t) -> 0 <= y <= lsumf a l ->
  greedy open l y + p0 * (lsumf a l - y) <= lsumf (fun t => a t * tick_price t) l.
Proof.
  induction l as [|t l IH]; intros p0 y Hl H Hy; cbn [greedy lsumf] in *; [assert (y = 0) as -> by lia; lia|].
  pose proof (H t ltac:(constructor)) as (Hv & Ha & Hp0). pose proof (tick_price_pos t Hv) as Hp. destruct (ordered_head _ _ _ Hl) as (Hl' & _ & Hb).
  assert (Hr : forall u, u ∈ l -> valid_tick u /\ 0 <= a u <= open u /\ tick_price t <= tick_price u).
  { intros u Hu. destruct (H u ltac:(constructor; assumption)) as (Hvu & Hau & _). repeat split; try apply Hvu; try apply Hau. apply price_mono; try assumption. specialize (Hb u Hu). cbn in Hb. lia. }
  assert (Hs : 0 <= lsumf a l).
  { clear -Hr. induction l as [|u l IHl]; cbn [lsumf]; [lia|]. pose proof (Hr u ltac:(constructor)) as (_ & ? & _). specialize (IHl ltac:(intros; apply Hr; constructor; assumption)). lia. }
  set (p := tick_price t) in *. destruct (Z.le_gt_cases y (open t)) as [Hle|Hgt].
  - rewrite Z.min_l by lia. rewrite Z.sub_diag, greedy_zero by (intros u Hu; destruct (Hr u Hu) as (_ & ? & _); lia).
    specialize (IH p 0 Hl' Hr ltac:(lia)). rewrite greedy_zero in IH by (intros u Hu; destruct (Hr u Hu) as (_ & ? & _); lia). nia.
  - rewrite Z.min_r by lia. specialize (IH p (y - open t) Hl' Hr ltac:(lia)). nia.
Qed.
Lemma purchase_greedy open l post : forall x, (forall t, t ∈ l ++ post -> 0 <= open t) -> 0 <= x <= lsumf open l ->
  purchase open (l ++ post) x * ATOM <= greedy open (l ++ post) x + Z.of_nat (length l) * (ATOM - 1).
Proof.
  induction l as [|t l IH]; intros x H Hx; cbn [app] in *.
  { cbn in Hx. assert (x = 0) as -> by lia. rewrite purchase_zero, greedy_zero by exact H. cbn. lia. }
  cbn [purchase greedy lsumf length] in *. pose proof (H t ltac:(constructor)). specialize (IH (x - Z.min x (open t)) ltac:(intros; apply H; constructor; assumption) ).
  assert (0 <= lsumf open l).
  { clear -H. induction l as [|u l IHl]; cbn [lsumf]; [lia|]. pose proof (H u ltac:(right; left)). specialize (IHl ltac:(intros v Hv; apply H; inversion Hv; subst; [left|right; right; assumption])). lia. }
  specialize (IH ltac:(lia)). pose proof (ceil_spec (Z.min x (open t) * tick_price t) ATOM atom_pos). lia.
Qed.
Lemma purchase_prefix open l post : forall x, (forall t, t ∈ l ++ post -> 0 <= open t) -> 0 <= x <= lsumf open l ->
  purchase open (l ++ post) x = purchase open l x.
Proof.
  induction l as [|t l IH]; intros x H Hx; cbn [app] in *.
  { cbn in Hx. assert (x = 0) as -> by lia. rewrite purchase_zero by exact H. reflexivity. }
  cbn [purchase lsumf] in *. pose proof (H t ltac:(constructor)). specialize (IH (x - Z.min x (open t)) ltac:(intros; apply H; constructor; assumption) ).
  assert (0 <= lsumf open l).
  { clear -H. induction l as [|u l IHl]; cbn [lsumf]; [lia|]. pose proof (H u ltac:(right; left)). specialize (IHl ltac:(intros v Hv; apply H; inversion Hv; subst; [left|right; right; assumption])). lia. }
  rewrite IH by lia. reflexivity.
Qed.
Lemma sorted_prefix T L : forall l, StronglySorted Z.lt L -> StronglySorted Z.lt l -> (forall t, t ∈ l <-> t <= T /\ t ∈ L) -> exists post, L = l ++ post.
Proof.
  induction L as [|u L IH]; intros l HL Hl H.
  { destruct l as [|v l]; [exists []; reflexivity|]. exfalso. destruct (proj1 (H v) ltac:(constructor)) as [_ K]. inversion K. }
  destruct l as [|v l]; [exists (u :: L); reflexivity|]. apply StronglySorted_inv in HL as [HL HuL]. apply StronglySorted_inv in Hl as [Hl Hvl]. rewrite Forall_forall in HuL. rewrite Forall_forall in Hvl.
  assert (Euv : u = v).
  { destruct (proj1 (H v) ltac:(constructor)) as [K1 K2]. apply elem_of_cons in K2 as [->|K2]; [reflexivity|]. specialize (HuL v K2).
    assert (Hu : u ∈ v :: l) by (apply H; split; [lia|constructor]). apply elem_of_cons in Hu as [->|Hu]; [reflexivity|]. specialize (Hvl u Hu). lia. }
  subst v. destruct (IH l HL Hl) as (post & ->).
  { intros t. split.
    - intros Ht. pose proof (Hvl t Ht). destruct (proj1 (H t) ltac:(constructor; assumption)) as [K1 K2]. split; [exact K1|]. apply elem_of_cons in K2 as [->|K2]; [lia|exact K2].
    - intros [K1 K2]. pose proof (HuL t K2). assert (Ht : t ∈ u :: l) by (apply H; split; [exact K1|constructor; exact K2]). apply elem_of_cons in Ht as [->|Ht]; [lia|exact Ht]. }
  exists post. reflexivity.
Qed.

(** ** The book *)
Definition buy_quote (s : storage) (q : Z) : res coin := calc_out_amount_given_in s (mkCoin (deposit_denom s Bid) q) (deposit_denom s Ask) 0.
Lemma buy_quote_walk w G Q q : ready w G Q -> 0 < q <= U128_MAX -> let s := w_st w in
  forall y, buy_quote s q = Ok (mkCoin (deposit_denom s Ask) y) <->
  exists f r, walk Ask false (asks s) (levels Ask None (lives_of Q)) q ATOM = Some (f, r) /\ total_out f = y.
Proof.
  intros Hrd Hq s y. pose proof (rd_good _ _ _ Hrd) as Hg. pose proof (gd_inv _ _ _ Hg) as Hi. pose proof (gd_ref _ _ _ Hg) as Hr.
  pose proof (quote_machine w G Q (mkCoin (deposit_denom s Bid) q) (deposit_denom s Ask) Hrd ltac:(cbn [c_amount]; lia)) as HQ.
  unfold m_quote, maker_side in HQ. cbn [c_denom c_amount abs ma_quote ma_base ma_orders] in HQ. rewrite bool_decide_true in HQ by (split; reflexivity).
  rewrite (proj2 (Z.eqb_neq q 0)) in HQ by lia.
  assert (Ew : walk Ask false (open_on Ask (lives_of Q)) (levels Ask None (lives_of Q)) q ATOM = walk Ask false (asks s) (levels Ask None (lives_of Q)) q ATOM).
  { generalize ATOM. generalize q. generalize (levels Ask None (lives_of Q)). intros l. induction l as [|t l IH]; intros q0 p0; cbn [walk]; [reflexivity|].
    rewrite (open_on_liquidity s G Q Hi Hr). fold (asks s t). destruct (_ =? 0); [reflexivity|]. destruct (_ && _); [|reflexivity]. rewrite IH. reflexivity. }
  rewrite Ew in HQ. destruct (walk Ask false (asks s) _ q ATOM) as [[f r]|] eqn:E.
  - unfold buy_quote, s in *. rewrite HQ. split.
    + intros [= <-]. exists f, r. auto.
    + intros (f' & r' & [= <- <-] & <-). reflexivity.
  - split; [intros H; exfalso; exact (HQ _ H)|]. intros (f & r & [=] & _).
Qed.
Lemma level_facts w G Q : good w G Q -> let s := w_st w in let L := levels Ask None (lives_of Q) in
  ordered Bid L /\ (forall t, t ∈ L -> valid_tick t /\ 0 < asks s t) /\ (forall t, t ∈ L <-> 0 < asks s t) /\ (forall t, 0 <= asks s t) /\
  (forall t, asks s t <= balance w (deposit_denom s Ask)).
Proof.
  intros Hg s L. pose proof (gd_inv _ _ _ Hg) as Hi. pose proof (gd_ref _ _ _ Hg) as Hr.
  assert (Hnn : forall t, 0 <= asks s t).
  { intros t. unfold asks. rewrite (tick_liquidity_open _ _ _ _ Hi). apply g_open_nonneg, (i_side _ _ Hi). }
  assert (Hin : forall t, t ∈ L <-> 0 < asks s t).
  { intros t. unfold L. rewrite (levels_liquidity s G Q Hi Hr). fold (asks s t). specialize (Hnn t). cbn [within_target]. split; [intros [K _]; lia|intros K; split; [lia|exact I]]. }
  split; [apply (levels_ordered Ask)|]. split; [|split; [exact Hin|split; [exact Hnn|]]].
  - intros t Ht. split; [exact (level_valid s G Q Hr Ask None t Ht)|apply Hin, Ht].
  - intros t. etransitivity; [|exact (good_owed w G Q Ask Hg)]. etransitivity; [|exact (open_owed _ _ _ Ask Hr)].
    unfold asks. rewrite (liquidity_open s G Q Hi Hr). unfold open_at, open_dir. pose proof (rf_entry _ _ _ Hr) as He. clear -He.
    induction Q as [|en Q IH]; [reflexivity|]. specialize (IH ltac:(intros; apply He; constructor; assumption)). pose proof (He en ltac:(constructor)) as [_ K1 _ _ _ _ _ _ _].
    cbn [ideal_sum foldr] in *. unfold ideal_sum in IH. destruct (bool_decide_reflect (en_tick en = t /\ en_dir en = Ask)) as [[_ E]|_].
    + rewrite (bool_decide_true _ E). lia.
    + destruct (bool_decide _); lia.
Qed.
Lemma buy_quote_zero w G Q y : ready w G Q -> buy_quote (w_st w) 0 <> Ok y.
Proof.
  intros Hrd. pose proof (quote_machine w G Q (mkCoin (deposit_denom (w_st w) Bid) 0) (deposit_denom (w_st w) Ask) Hrd ltac:(cbn [c_amount]; unfold U128_MAX; lia)) as HQ.
  unfold m_quote, maker_side in HQ. cbn [c_denom c_amount abs ma_quote ma_base ma_orders] in HQ. rewrite bool_decide_true in HQ by (split; reflexivity). apply HQ.
Qed.
Lemma ladder_prefix w G Q T ticks : good w G Q -> ask_ticks (w_st w) T ticks -> exists post, levels Ask None (lives_of Q) = ticks ++ post.
Proof.
  intros Hg [H1 H2]. destruct (level_facts _ _ _ Hg) as (L1 & _ & L3 & _ & _). apply (sorted_prefix T); [exact L1|exact H1|]. intros t. rewrite H2, L3. reflexivity.
Qed.
(** C61: with [x] base units on offer at the [ticks], [price] quote units buy at least [x], and less does not. *)
Theorem C61_price_of_amount :
  forall w0 h T ticks x, start w0 -> history w0 h -> short h ->
  let w := run w0 h in let s := w_st w in let base := deposit_denom s Ask in
  balance w base <= U128_MAX -> ask_ticks s T ticks -> 0 < x <= sum_ticks (asks s) ticks ->
  let quote q := calc_out_amount_given_in s (mkCoin (deposit_denom s Bid) q) base 0 in
  let price := purchase (asks s) ticks x in
  0 < price /\
  (price <= U128_MAX -> exists y, x <= y /\ quote price = Ok (mkCoin base y)) /\
  (forall q y, 0 <= q <= U128_MAX -> quote q = Ok (mkCoin base y) -> x <= y -> price <= q).
Proof.
  intros w0 h T ticks x Hs Hh Hsh w s base Hbal Ht Hx quote price.
  destruct (short_ready w0 h Hs Hh Hsh) as (G & Hrd). fold w in Hrd. pose proof (rd_good _ _ _ Hrd) as Hg.
  destruct (level_facts _ _ _ Hg) as (L1 & L2 & L3 & L4 & L5). fold s in L2, L3, L4, L5. fold base in L5.
  destruct (ladder_prefix _ _ _ _ _ Hg Ht) as (post & EL). set (Q := ideal_run w0 [] h) in *. rewrite sum_ticks_lsumf in Hx.
  assert (Ep : price = purchase (asks s) (levels Ask None (lives_of Q)) x).
  { unfold price. rewrite EL. symmetry. apply purchase_prefix; [intros; apply L4|lia]. }
  assert (Hx' : 0 <= x <= lsumf (asks s) (levels Ask None (lives_of Q))).
  { rewrite EL. assert (E : forall l, lsumf (asks s) (l ++ post) = lsumf (asks s) l + lsumf (asks s) post) by (induction l as [|a l IHl]; cbn; lia). rewrite E.
    assert (forall l, 0 <= lsumf (asks s) l) by (induction l as [|a l IHl]; cbn; [lia|]; specialize (L4 a); lia). specialize (H post). lia. }
  destruct (walk_buys false (asks s) (levels Ask None (lives_of Q)) x ATOM) as (f & Hw & Hf).
  { intros t K. destruct (L2 t K) as [V P]. specialize (L5 t). split; [lia|]. apply tick_price_pos, V. }
  { exact Hx'. }
  rewrite <- Ep in Hw. assert (Hpos : 0 < price).
  { assert (0 <= price) by (rewrite Ep; apply purchase_nonneg; [intros t K; destruct (L2 t K) as [V P]; split; [lia|apply tick_price_pos, V]|lia]).
    destruct (Z.eq_dec price 0) as [E0|]; [|lia]. exfalso. rewrite E0, walk_zero in Hw. injection Hw as <-. cbn in Hf. lia. }
  split; [exact Hpos|]. split.
  - intros Hmax. exists (total_out f). split; [exact Hf|]. apply (buy_quote_walk w G Q price Hrd ltac:(lia)). exists f, 0. auto.
  - intros q y Hq Eq Hy. destruct (Z.eq_dec q 0) as [->|]; [exfalso; eapply buy_quote_zero; [exact Hrd|exact Eq]|].
    apply (buy_quote_walk w G Q q Hrd ltac:(lia)) in Eq as (f' & r' & Ew & <-). rewrite Ep.
    eapply walk_needs; [exact L1|exact L2| | |exact Ew|exact Hy]; lia.
Qed.
Print Assumptions C61_price_of_amount.
(** ... in particular the whole ask side can be bought, for its price. *)
Theorem C61_sold_out :
  forall w0 h ticks, start w0 -> history w0 h -> short h ->
  let w := run w0 h in let s := w_st w in let base := deposit_denom s Ask in
  balance w base <= U128_MAX -> StronglySorted Z.lt ticks -> (forall t, t ∈ ticks <-> 0 < asks s t) -> ticks <> [] ->
  let all := sum_ticks (asks s) ticks in
  purchase (asks s) ticks all <= U128_MAX ->
  calc_out_amount_given_in s (mkCoin (deposit_denom s Bid) (purchase (asks s) ticks all)) base 0 = Ok (mkCoin base all).
Proof.
  intros w0 h ticks Hs Hh Hsh w s base Hbal Hst Hin Hne all Hmax.
  destruct (short_ready w0 h Hs Hh Hsh) as (G & Hrd). fold w in Hrd. pose proof (rd_good _ _ _ Hrd) as Hg.
  destruct (level_facts _ _ _ Hg) as (L1 & L2 & L3 & L4 & L5). fold s in L2, L3, L4, L5. fold base in L5.
  assert (Ht : ask_ticks s 182402823 ticks).
  { split; [exact Hst|]. intros t. rewrite Hin. fold (asks s t). split; [|tauto]. intros K. split; [|exact K]. apply L3 in K. destruct (L2 t K) as [[_ V] _]. exact V. }
  assert (Hall : 0 < all).
  { unfold all. destruct ticks as [|t ticks]; [contradiction|]. rewrite sum_ticks_lsumf. cbn [lsumf]. pose proof (proj1 (Hin t) ltac:(constructor)).
    assert (forall l, 0 <= lsumf (asks s) l) by (induction l as [|a l IHl]; cbn; [lia|]; specialize (L4 a); lia). specialize (H0 ticks). lia. }
  destruct (C61_price_of_amount w0 h 182402823 ticks all Hs Hh Hsh Hbal Ht) as (P1 & P2 & _); [fold w s all; lia|]. fold w s base in P1, P2. destruct (P2 Hmax) as (y & Hy & Eq).
  enough (y <= all) by (rewrite Eq; do 2 f_equal; lia).
  apply (buy_quote_walk w G _ _ Hrd (conj P1 Hmax)) in Eq as (f & r & Ew & <-). fold s in Ew.
  destruct (walk_paid _ _ _ _ _ _ _ L1 L2 (Z.lt_le_incl _ _ P1) Ew) as [<- _]. unfold all. rewrite sum_ticks_lsumf.
  set (L := levels Ask None (lives_of (ideal_run w0 [] h))) in *.
  assert (Hle : forall l, (forall t, t ∈ l -> taken_at f t <= asks s t) -> lsumf (taken_at f) l <= lsumf (asks s) l).
  { induction l as [|a l IHl]; intros K; cbn; [lia|]. pose proof (K a ltac:(constructor)). specialize (IHl ltac:(intros; apply K; constructor; assumption)). lia. }
  etransitivity; [apply (Hle L)|].
  - intros t K. destruct (walk_bounds Ask false (asks s) L _ _ _ _ (Z.lt_le_incl _ _ P1) ltac:(intros; apply L2; assumption) ltac:(intros; apply L4) (ordered_nodup _ _ L1) Ew t) as [_ B]. apply B, K.
  - apply lsumf_sub; [exact L4|eapply ordered_nodup; exact L1|]. intros t K _. apply Hin, L3, K.
Qed.
Print Assumptions C61_sold_out.
(** C62: a book with at least as much on offer at every tick sells [x] units for at most one quote unit
    more for each tick needed, not counting the first. *)
Theorem C62_deeper_book :
  forall w0 h w0' h' T ticks q x, start w0 -> history w0 h -> short h -> start w0' -> history w0' h' -> short h' ->
  let w := run w0 h in let s := w_st w in let w' := run w0' h' in let s' := w_st w' in
  balance w' (deposit_denom s' Ask) <= U128_MAX -> (forall t, asks s t <= asks s' t) ->
  0 <= q -> q + Z.of_nat (length ticks) <= U128_MAX -> 0 < x ->
  calc_out_amount_given_in s (mkCoin (deposit_denom s Bid) q) (deposit_denom s Ask) 0 = Ok (mkCoin (deposit_denom s Ask) x) ->
  ask_ticks s' T ticks -> x <= sum_ticks (asks s') ticks ->
  exists q' x', 0 <= q' <= q + Z.of_nat (length ticks) - 1 /\ x <= x' /\
    calc_out_amount_given_in s' (mkCoin (deposit_denom s' Bid) q') (deposit_denom s' Ask) 0 = Ok (mkCoin (deposit_denom s' Ask) x').
Proof.
  intros w0 h w0' h' T ticks q x Hs Hh Hsh Hs' Hh' Hsh' w s w' s' Hbal Hle Hq Hqm Hx Eq Ht Hxs.
  destruct (short_ready w0 h Hs Hh Hsh) as (G & Hrd). fold w in Hrd. pose proof (rd_good _ _ _ Hrd) as Hg.
  destruct (short_ready w0' h' Hs' Hh' Hsh') as (G' & Hrd'). fold w' in Hrd'. pose proof (rd_good _ _ _ Hrd') as Hg'.
  destruct (C61_price_of_amount w0' h' T ticks x Hs' Hh' Hsh' Hbal Ht ltac:(fold w' s'; lia)) as (P1 & P2 & _). fold w' s' in P1, P2.
  set (price := purchase (asks s') ticks x) in *. enough (Hpr : price <= q + Z.of_nat (length ticks) - 1).
  { destruct (P2 ltac:(lia)) as (y & Hy & E). exists price, y. split; [lia|]. auto. }
  destruct (Z.eq_dec q 0) as [->|]; [exfalso; eapply buy_quote_zero; [exact Hrd|exact Eq]|].
  assert (Hq0 : 0 < q <= U128_MAX) by lia. apply (buy_quote_walk w G _ _ Hrd Hq0) in Eq as (f & r & Ew & Ef).
  destruct (level_facts _ _ _ Hg) as (L1 & L2 & L3 & L4 & _). fold s in Ew, L2, L3, L4. destruct (level_facts _ _ _ Hg') as (M1 & M2 & M3 & M4 & _). fold s' in M2, M3, M4.
  set (L := levels Ask None (lives_of (ideal_run w0 [] h))) in *. set (L' := levels Ask None (lives_of (ideal_run w0' [] h'))) in *.
  destruct (ladder_prefix _ _ _ _ _ Hg' Ht) as (post & EL). fold L' in EL.
  destruct (walk_paid _ _ _ _ _ _ _ L1 L2 Hq Ew) as [S1 S2].
  assert (Hb : forall t, 0 <= taken_at f t /\ (t ∈ L -> taken_at f t <= asks s t)).
  { eapply walk_bounds; [exact Hq|intros; apply L2; assumption|intros; apply L4|eapply ordered_nodup; exact L1|exact Ew]. }
  assert (Hout : forall t, t ∉ L -> taken_at f t = 0) by (eapply walk_taken; exact Ew).
  assert (Hin : forall t, t ∈ L -> t ∈ L') by (intros t K; apply M3; apply L3 in K; specialize (Hle t); lia).
  assert (Hsame : forall g, (forall t, t ∈ L -> 0 <= g t) -> lsumf (fun t => taken_at f t * g t) L' = lsumf (fun t => taken_at f t * g t) L).
  { intros g Hgg. set (F := fun t => taken_at f t * g t). assert (HF : forall t, 0 <= F t).
    { intros t. unfold F. destruct (decide (t ∈ L)) as [K|K]; [|rewrite (Hout t K); lia]. specialize (Hgg t K). destruct (Hb t). nia. }
    apply Z.le_antisymm; apply lsumf_sub; try exact HF; try (eapply ordered_nodup; first [exact L1|exact M1]).
    - intros t _ Hnz. destruct (decide (t ∈ L)) as [K|K]; [exact K|]. exfalso. apply Hnz. unfold F. rewrite (Hout t K). reflexivity.
    - intros t K _. apply Hin, K. }
  assert (E1 : lsumf (taken_at f) L' = x).
  { rewrite <- Ef, <- S1. rewrite !(lsumf_ext (taken_at f) (fun t => taken_at f t * 1)) by (intros; lia). apply Hsame. intros; lia. }
  assert (E2 : lsumf (fun t => taken_at f t * tick_price t) L' <= q * ATOM).
  { rewrite Hsame; [exact S2|]. intros t K. apply Z.lt_le_incl, tick_price_pos, L2, K. }
  pose proof (greedy_min (asks s') (taken_at f) L' 0 x M1) as HG. rewrite E1 in HG. specialize (HG ltac:(
    intros t K; destruct (M2 t K) as [V P]; destruct (Hb t) as [B1 B2]; split; [exact V|]; split; [|apply Z.lt_le_incl, tick_price_pos, V];
    split; [exact B1|]; destruct (decide (t ∈ L)) as [K'|K']; [specialize (B2 K'); specialize (Hle t); lia|rewrite (Hout t K'); lia]) ltac:(lia)).
  rewrite sum_ticks_lsumf in Hxs. pose proof (purchase_greedy (asks s') ticks post x ltac:(intros; apply M4) ltac:(lia)) as HP. rewrite <- EL in HP.
  assert (Ep : purchase (asks s') L' x = price) by (unfold price; rewrite EL; apply purchase_prefix; [intros; apply M4|lia]). rewrite Ep in HP.
  assert (Hn : 0 < Z.of_nat (length ticks)) by (destruct ticks; [cbn in Hxs; lia|cbn; lia]).
  assert (price * ATOM < (q + Z.of_nat (length ticks)) * ATOM) by (unfold ATOM in *; lia). unfold ATOM in *. lia.
Qed.
Print Assumptions C62_deeper_book.
(** A case, and the reason for the extra units: asks of 10 at 1.6; the same with one more unit at 1.5.  With 5 quote units
    a taker gets 3 from the first book, and only 2 from the second, where the two ticks are charged 2 and 4 for 1 and 2 units. *)
Definition hist_plain : list (env * call) := [place "a" 600000 Ask 10 None].
Definition hist_more : list (env * call) := [place "a" 600000 Ask 10 None; place "b" 500000 Ask 1 None].
Lemma plain_asks t : asks (w_st (run w_start hist_plain)) t = (if t =? 600000 then 10 else 0) /\
  asks (w_st (run w_start hist_more)) t = (if t =? 600000 then 10 else if t =? 500000 then 1 else 0).
Proof.
  destruct (C08_fifo_state w_start hist_plain start_ok ltac:(hist)) as (_ & _ & _ & _ & H1).
  destruct (C08_fifo_state w_start hist_more start_ok ltac:(hist)) as (_ & _ & _ & _ & H2).
  unfold asks. rewrite H1, H2.
  assert (E1 : ideal_run w_start [] hist_plain = [mkEntry 600000 Ask 0 "a" None 7 10 10 0 0 0]) by (vm_compute; reflexivity).
  assert (E2 : ideal_run w_start [] hist_more = [mkEntry 600000 Ask 0 "a" None 7 10 10 0 0 0; mkEntry 500000 Ask 1 "b" None 7 1 1 0 0 0]) by (vm_compute; reflexivity).
  rewrite E1, E2. unfold open_at. cbn [ideal_sum foldr en_tick en_dir en_open].
  destruct (Z.eqb_spec t 600000) as [->|N1].
  - rewrite (bool_decide_true (600000 = 600000 /\ Ask = Ask)) by auto. rewrite (bool_decide_false (500000 = 600000 /\ Ask = Ask)) by (intros [? _]; lia). split; reflexivity.
  - rewrite (bool_decide_false (600000 = t /\ Ask = Ask)) by (intros [? _]; lia). destruct (Z.eqb_spec t 500000) as [->|N2].
    + rewrite bool_decide_true by auto. split; reflexivity.
    + rewrite bool_decide_false by (intros [? _]; lia). split; reflexivity.
Qed.
Theorem C62_exact_refuted :
  ~ (forall w0 h w0' h' q x x', start w0 -> history w0 h -> short h -> start w0' -> history w0' h' -> short h' ->
     let s := w_st (run w0 h) in let s' := w_st (run w0' h') in
     (forall t, asks s t <= asks s' t) ->
     calc_out_amount_given_in s (mkCoin (deposit_denom s Bid) q) (deposit_denom s Ask) 0 = Ok (mkCoin (deposit_denom s Ask) x) ->
     calc_out_amount_given_in s' (mkCoin (deposit_denom s' Bid) q) (deposit_denom s' Ask) 0 = Ok (mkCoin (deposit_denom s' Ask) x') ->
     x <= x').
Proof.
  intros H. enough (3 <= 2) by lia.
  refine (H w_start hist_plain w_start hist_more 5 3 2 start_ok _ _ start_ok _ _ _ _ _).
  - hist.
  - vm_compute; discriminate.
  - hist.
  - vm_compute; discriminate.
  - intros t. destruct (plain_asks t) as [-> ->]. destruct (t =? 600000), (t =? 500000); lia.
  - vm_compute; reflexivity.
  - vm_compute; reflexivity.
Qed.
Print Assumptions C62_exact_refuted.
Lemma asks_eq s t : tick_liquidity s t Ask = asks s t. Proof. reflexivity. Qed.
Lemma more_ticks : ask_ticks (w_st (run w_start hist_more)) 600000 [500000; 600000].
Proof.
  split; [repeat constructor; lia|]. intros t. rewrite asks_eq, (proj2 (plain_asks t)), !elem_of_cons, elem_of_nil. destruct (Z.eqb_spec t 600000); [|destruct (Z.eqb_spec t 500000)]; lia.
Qed.
Lemma more_asks t : asks (w_st (run w_start hist_plain)) t <= asks (w_st (run w_start hist_more)) t.
Proof. destruct (plain_asks t) as [-> ->]; destruct (t =? 600000), (t =? 500000); lia. Qed.
Lemma more_balance : balance (run w_start hist_more) (deposit_denom (w_st (run w_start hist_more)) Ask) <= U128_MAX.
Proof. vm_compute; discriminate. Qed.
Lemma more_purchases : 3 <= sum_ticks (asks (w_st (run w_start hist_more))) [500000; 600000] /\
  purchase (asks (w_st (run w_start hist_plain))) [600000] 3 = 5 /\
  purchase (asks (w_st (run w_start hist_more))) [500000; 600000] 3 = 6 /\ purchase (asks (w_st (run w_start hist_more))) [500000; 600000] 11 = 18.
Proof. split; [vm_compute; discriminate|]. repeat split; vm_compute; reflexivity. Qed.
(** The hypotheses of C61 and C62 are met here. *)
Example C61_C62_case :
  start w_start /\ history w_start hist_plain /\ short hist_plain /\ history w_start hist_more /\ short hist_more /\
  balance (run w_start hist_more) (deposit_denom (w_st (run w_start hist_more)) Ask) <= U128_MAX /\
  (forall t, asks (w_st (run w_start hist_plain)) t <= asks (w_st (run w_start hist_more)) t) /\
  ask_ticks (w_st (run w_start hist_more)) 600000 [500000; 600000] /\ 3 <= sum_ticks (asks (w_st (run w_start hist_more))) [500000; 600000] /\
  purchase (asks (w_st (run w_start hist_plain))) [600000] 3 = 5 /\
  purchase (asks (w_st (run w_start hist_more))) [500000; 600000] 3 = 6 /\ purchase (asks (w_st (run w_start hist_more))) [500000; 600000] 11 = 18 /\
  (let bought h q := match calc_out_amount_given_in (w_st (run w_start h)) (mkCoin "quote" q) "base" 0 with Ok a => c_amount a | _ => -1 end in
   map (bought hist_plain) [4; 5; 6; 16; 17; 18] = [2; 3; 3; 10; 10; -1] /\ map (bought hist_more) [4; 5; 6; 16; 17; 18] = [2; 2; 3; 9; 10; 11]).
Proof.
  split; [apply start_ok|]. split; [hist|]. split; [vm_compute; discriminate|]. split; [hist|]. split; [vm_compute; discriminate|].
  split; [exact more_balance|]. split; [exact more_asks|]. split; [exact more_ticks|]. destruct more_purchases as (P1 & P2 & P3 & P4).
  split; [exact P1|]. split; [exact P2|]. split; [exact P3|]. split; [exact P4|]. split; vm_compute; reflexivity.
Qed.
