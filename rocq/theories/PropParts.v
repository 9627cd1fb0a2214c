(** * Property C72: an amount bought in parts costs at most one unit per part more. *)
From Verif Require Import Base Dec Types State TickMath Sumtree Tick Order Auth Contract Query World SpecMath TickMathProofs
  TreeDefs Exec SumtreeProofs SumtreeRebalance SumtreeInsert PrefixSum SumtreeRoot SumtreeFail Ghost Inv StepPlace StepCancel StepClaim
  SwapPlan StepSwap Trans Spec Reach Refine RefineStep Reserve Solvency Books SpecProps PropBase Tests PropOrders PropClaims PropBatch PropSwap PropQuote PropAdmin PropQuery PlanCurve PropCurve
  SpecAdmin SpecBank PropBank SpecMachine MachineBase MachineSwap PropMachine PropDepth SpecBuy PropBuy SpecCover PropCover RangeProofs PropDeep SpecParts.

(** ** Rounding at one tick *)
Lemma ceil_sub a b n : 0 < n -> ceil_div (a + b) n <= ceil_div a n + ceil_div b n <= ceil_div (a + b) n + 1.
Proof.
  intros Hn. pose proof (ceil_spec a n Hn). pose proof (ceil_spec b n Hn). pose proof (ceil_spec (a + b) n Hn). split; [apply ceil_le; [exact Hn|]; nia|]. nia.
Qed.
Lemma charge_parts side x z p : 0 < p -> charge side (x + z) p <= charge side x p + charge side z p <= charge side (x + z) p + 1.
Proof.
  intros Hp. pose proof atom_pos. destruct side; cbn [charge]; rewrite Z.mul_add_distr_r; apply ceil_sub; assumption.
Qed.
Lemma paid_parts side x z p : 0 < p -> 0 <= x -> 0 <= z -> paid side (x + z) p <= charge side x p + paid side z p <= paid side (x + z) p + 1.
Proof.
  intros Hp Hx Hz. pose proof atom_pos as HA. destruct side; cbn [paid charge]; [|rewrite Z.mul_add_distr_r; apply ceil_sub; assumption].
  pose proof (floor_spec (x * ATOM * ATOM) p Hp) as F1. set (F := floor_div (x * ATOM * ATOM) p) in *.
  pose proof (floor_spec (z * ATOM * ATOM) p Hp) as F2. set (V := floor_div (z * ATOM * ATOM) p) in *.
  pose proof (floor_spec ((x + z) * ATOM * ATOM) p Hp) as F3. set (U := floor_div ((x + z) * ATOM * ATOM) p) in *.
  pose proof (ceil_spec (x * ATOM) p Hp) as C1. set (c := ceil_div (x * ATOM) p) in *.
  pose proof (ceil_spec V ATOM HA) as C2. set (v := ceil_div V ATOM) in *. pose proof (ceil_spec U ATOM HA) as C3. set (u := ceil_div U ATOM) in *.
  split.
  - apply ceil_le; [exact HA|]. assert (K1 : U * p < (c * ATOM + (V + 1)) * p) by nia. assert (U < c * ATOM + (V + 1)) by nia. nia.
  - assert (K1 : F + V <= U) by (enough (K : (F + V) * p < (U + 1) * p) by nia; nia).
    assert (K2 : (c - 1) * ATOM <= F) by (apply floor_ge; [exact Hp|]; nia).
    assert (K3 : (c - 1 + v - 1) * ATOM < U) by nia. nia.
Qed.
(** ** Along the ladder *)
Lemma price_ext side f g l : forall x, (forall t, t ∈ l -> f t = g t) -> price_of side f l x = price_of side g l x.
Proof.
  induction l as [|t l IH]; intros x H; cbn [price_of]; [reflexivity|]. rewrite (H t ltac:(constructor)). rewrite (IH (x - g t)) by (intros; apply H; constructor; assumption). reflexivity.
Qed.
Lemma paid_zero side p : paid side 0 p = 0. Proof. destruct side; reflexivity. Qed.
Lemma price_parts side liq l : forall x z, NoDup l -> (forall t, t ∈ l -> valid_tick t /\ 0 <= liq t) -> 0 < x -> 0 < z -> x + z <= lsumf liq l ->
  price_of side liq l (x + z) <= price_of side liq l x + price_of side (fun t => liq t - alloc liq l x t) l z <= price_of side liq l (x + z) + 1.
Proof.
  induction l as [|t l IH]; intros x z Hn H Hx Hz Hs; cbn [lsumf] in Hs; [cbn in *; lia|]. apply NoDup_cons in Hn as [Ht Hn].
  destruct (H t ltac:(constructor)) as [Hv Hq]. pose proof (tick_price_pos t Hv) as Hp. assert (Hr : forall u, u ∈ l -> valid_tick u /\ 0 <= liq u) by (intros; apply H; constructor; assumption).
  assert (Hne : forall u, u ∈ l -> (t =? u) = false) by (intros u Hu; apply Z.eqb_neq; intros ->; contradiction).
  cbn [price_of alloc]. destruct (Z.leb_spec x (liq t)) as [K|K].
  - rewrite Z.eqb_refl. rewrite (price_ext side (fun u => liq u - (if t =? u then x else 0)) liq l) by (intros u Hu; rewrite (Hne u Hu); lia).
    destruct (Z.leb_spec (x + z) (liq t)) as [K2|K2].
    + rewrite (proj2 (Z.leb_le z (liq t - x))) by lia. apply charge_parts. exact Hp.
    + rewrite (proj2 (Z.leb_gt z (liq t - x))) by lia. replace (z - (liq t - x)) with (x + z - liq t) by lia.
      pose proof (paid_parts side x (liq t - x) _ Hp ltac:(lia) ltac:(lia)) as HP. replace (x + (liq t - x)) with (liq t) in HP by lia. lia.
  - destruct (Z.leb_spec (x + z) (liq t)) as [K2|K2]; [lia|]. rewrite Z.eqb_refl.
    destruct (alloc_bounds liq l (x - liq t) t Hn ltac:(intros; apply Hr; assumption) ltac:(lia)) as (_ & _ & B). rewrite (B Ht).
    replace (liq t - (liq t + 0)) with 0 by lia. rewrite (proj2 (Z.leb_gt z 0)) by lia. rewrite paid_zero, Z.sub_0_r.
    rewrite (price_ext side (fun u => liq u - ((if t =? u then liq t else 0) + alloc liq l (x - liq t) u)) (fun u => liq u - alloc liq l (x - liq t) u) l) by (intros u Hu; rewrite (Hne u Hu); lia).
    specialize (IH (x - liq t) z Hn Hr ltac:(lia) Hz ltac:(lia)). replace (x - liq t + z) with (x + z - liq t) in IH by lia. lia.
Qed.
Lemma price_skip side liq l : forall z, (forall t, t ∈ l -> 0 <= liq t) -> 0 < z -> price_of side liq l z = price_of side liq (filter (fun t => 0 < liq t) l) z.
Proof.
  induction l as [|t l IH]; intros z H Hz; [reflexivity|]. rewrite filter_cons. pose proof (H t ltac:(constructor)). assert (Hr : forall u, u ∈ l -> 0 <= liq u) by (intros; apply H; constructor; assumption).
  destruct (decide (0 < liq t)) as [K|K]; cbn [price_of].
  - destruct (Z.leb_spec z (liq t)); [reflexivity|]. rewrite IH by (try assumption; lia). reflexivity.
  - assert (liq t = 0) as -> by lia. rewrite (proj2 (Z.leb_gt z 0)) by lia. rewrite paid_zero, Z.sub_0_r, IH by assumption. reflexivity.
Qed.
(** Taking the best first leaves what [alloc] leaves. *)
Lemma taken_alloc (R : Z -> Z -> Prop) liq d l : forall x, NoDup l -> StronglySorted R l -> (forall t, t ∈ l -> 0 <= d t <= liq t) ->
  (forall t t', t ∈ l -> t' ∈ l -> R t' t -> 0 < d t -> d t' = liq t') -> lsumf d l = x -> forall t, t ∈ l -> d t = alloc liq l x t.
Proof.
  induction l as [|t l IH]; intros x Hn Hl H Hb Hx u Hu; [inversion Hu|]. apply NoDup_cons in Hn as [Hnt Hn]. cbn [lsumf alloc] in *. apply StronglySorted_inv in Hl as [Hl Hf]. rewrite Forall_forall in Hf.
  pose proof (H t ltac:(constructor)) as Ht. assert (Hr : forall u, u ∈ l -> 0 <= d u <= liq u) by (intros; apply H; constructor; assumption).
  assert (Hnn : 0 <= lsumf d l) by (apply lsumf_nonneg; intros v Hv; apply Hr, Hv).
  assert (Hrest : 0 < lsumf d l -> d t = liq t).
  { intros Hpos. assert (exists v, v ∈ l /\ 0 < d v) as (v & Hv & Hd).
    { clear -Hpos Hr. induction l as [|a l IH]; cbn [lsumf] in *; [lia|]. destruct (Z.lt_ge_cases 0 (d a)); [exists a; split; [constructor|assumption]|].
      destruct IH as (v & Hv & Hd); [intros; apply Hr; constructor; assumption|pose proof (Hr a ltac:(constructor)); lia|]. exists v. split; [constructor; assumption|assumption]. }
    apply (Hb v t); [constructor; exact Hv|constructor|apply Hf, Hv|exact Hd]. }
  destruct (Z.leb_spec x (liq t)) as [K|K].
  - assert (E0 : lsumf d l = 0) by (destruct (Z.lt_ge_cases 0 (lsumf d l)) as [P|P]; [specialize (Hrest P); lia|lia]).
    apply elem_of_cons in Hu as [->|Hu]; [rewrite Z.eqb_refl; lia|]. rewrite (proj2 (Z.eqb_neq t u)) by (intros ->; contradiction).
    clear -E0 Hr Hu. induction l as [|a l IH]; [inversion Hu|]. cbn [lsumf] in E0. pose proof (Hr a ltac:(constructor)). assert (Hr' : forall v, v ∈ l -> 0 <= d v <= liq v) by (intros; apply Hr; constructor; assumption).
    pose proof (lsumf_nonneg d l ltac:(intros v Hv; apply Hr', Hv)). apply elem_of_cons in Hu as [->|Hu]; [lia|]. apply IH; first [exact Hr'|exact Hu|lia].
  - assert (Ed : d t = liq t) by (apply Hrest; lia). apply elem_of_cons in Hu as [->|Hu].
    + rewrite Z.eqb_refl. destruct (alloc_bounds liq l (x - liq t) t Hn ltac:(intros v Hv; specialize (Hr v Hv); lia) ltac:(lia)) as (_ & _ & B). rewrite (B Hnt). lia.
    + rewrite (proj2 (Z.eqb_neq t u)) by (intros ->; contradiction). rewrite Z.add_0_l. apply IH; try assumption; [|lia].
      intros v v' Hv Hv'. apply Hb; constructor; assumption.
Qed.
(** ** The book *)
Lemma swap_leaves e w sender tin side mn fee target w' r x : reachable w -> let s := w_st w in let out := deposit_denom s side in
  call_ok (w_self w) (swap_call sender tin out mn fee target) = true ->
  step e w (swap_call sender tin out mn fee target) = (w', Done r) -> r_data r = Some x ->
  forall L, StronglySorted (better_tick side) L -> (forall t, t ∈ L <-> 0 < offered s side t) ->
  0 < x <= lsumf (offered s side) L /\ forall t, offered (w_st w') side t = offered s side t - alloc (offered s side) L x t.
Proof.
  intros Hre s out Hok Hst Er L HL Hin.
  destruct (C18_swap_fills _ _ _ _ _ _ _ _ _ _ Hre Hok Hst) as (m & fills & Em & Hsf & Er' & _). rewrite Er in Er'. injection Er' as ->.
  destruct (C15_price_priority _ _ _ _ _ _ _ _ _ _ Hre Hok Hst) as (m' & Em' & Hpr).
  destruct (C14_swap_result _ _ _ _ _ _ _ _ _ _ Hre Hok Hst) as (m2 & amount & _ & _ & _ & _ & _ & _ & Em2 & _ & _ & Hpos & _ & Er2 & _). rewrite Er in Er2. injection Er2 as E2.
  assert (Hsides : forall a b, deposit_denom s a = deposit_denom s b -> a = b).
  { destruct (reach_good _ Hre) as (w0 & h0 & G & _ & _ & _ & Hg). destruct (i_book _ _ (gd_inv _ _ _ Hg)) as (ob & Eob & Hb). pose proof (bo_denoms _ _ Hb) as Hne.
    intros a b. unfold deposit_denom, s. rewrite Eob. destruct a, b; cbn; congruence. }
  apply Hsides in Em, Em'. subst m m'. fold s in Hsf, Hpr.
  destruct (reach_good _ Hre) as (w0 & h0 & G & Hs0 & Hh0 & Ew & Hg).
  destruct (side_facts _ _ _ side Hg) as (_ & L2 & L3 & L4 & _). fold s in L2, L3, L4.
  set (d := fun t => offered s side t - offered (w_st w') side t).
  assert (Hnd : NoDup L). { clear -HL. induction HL as [|t k H IH Hf]; [constructor|]. apply NoDup_cons. split; [|exact IH]. intros Ht. rewrite Forall_forall in Hf. specialize (Hf t Ht). destruct side; cbn in Hf; lia. }
  assert (Hliq : forall a t, tick_liquidity a t side = tv_tal (side_values a t side) / DEC).
  { intros a t. unfold tick_liquidity, side_values. destruct (s_ticks a !! t); [reflexivity|]. reflexivity. }
  assert (Hrest : forall t, t ∉ map fl_tick fills -> d t = 0).
  { intros t Ht. unfold d, offered. rewrite !Hliq, (sf_rest _ _ _ _ Hsf t Ht). lia. }
  assert (Hfill : forall f, f ∈ fills -> d (fl_tick f) = fl_out f /\ 0 < fl_out f <= offered s side (fl_tick f)).
  { intros f Hf. unfold d, offered. rewrite (sf_liq _ _ _ _ Hsf f Hf). split; [lia|]. apply (sf_out _ _ _ _ Hsf f Hf). }
  assert (Hd : forall t, 0 <= d t <= offered s side t).
  { intros t. destruct (decide (t ∈ map fl_tick fills)) as [K|K]; [|rewrite (Hrest t K); specialize (L4 t); lia].
    apply elem_of_list_fmap in K as (f & -> & Hf). destruct (Hfill f Hf) as [-> ?]. lia. }
  assert (Hsum : lsumf d L = fills_out fills).
  { assert (Hfs : lsumf d (map fl_tick fills) = fills_out fills).
    { clear -Hfill. induction fills as [|f fs IH]; [reflexivity|]. cbn [map lsumf fills_out foldr]. rewrite (proj1 (Hfill f ltac:(constructor))). fold (fills_out fs). rewrite <- IH by (intros; apply Hfill; constructor; assumption). lia. }
    rewrite <- Hfs. apply Z.le_antisymm; apply lsumf_sub; try (intros; apply Hd).
    - exact Hnd.
    - intros t _ Hz. destruct (decide (t ∈ map fl_tick fills)) as [K|K]; [exact K|]. exfalso. apply Hz, Hrest, K.
    - exact (sf_once _ _ _ _ Hsf).
    - intros t Ht _. apply elem_of_list_fmap in Ht as (f & -> & Hf). apply Hin. destruct (Hfill f Hf). lia. }
  assert (Hbest : forall t t', t ∈ L -> t' ∈ L -> better_tick side t' t -> 0 < d t -> d t' = offered s side t').
  { intros t t' _ _ Hb Hdt. unfold d in Hdt. specialize (Hpr t t' ltac:(unfold offered in Hdt; lia) Hb). unfold d, offered. rewrite Hpr. lia. }
  split; [split; [lia|]|].
  - rewrite <- Hsum. clear -Hd. induction L as [|t L IH]; cbn [lsumf]; [lia|]. specialize (Hd t). lia.
  - intros t. enough (d t = alloc (offered s side) L (fills_out fills) t) by (unfold d in *; lia). destruct (decide (t ∈ L)) as [K|K].
    + apply (taken_alloc (better_tick side) (offered s side) d L); try assumption. intros; apply Hd.
    + destruct (alloc_bounds (offered s side) L (fills_out fills) t Hnd ltac:(intros; apply L4) ltac:(lia)) as (_ & _ & B). rewrite (B K).
      assert (offered s side t = 0) by (specialize (L4 t); rewrite Hin in K; lia). specialize (Hd t). lia.
Qed.
Lemma swap_denoms e w sender tin out mn fee target w' r d : reachable w -> call_ok (w_self w) (swap_call sender tin out mn fee target) = true ->
  step e w (swap_call sender tin out mn fee target) = (w', Done r) -> reachable w' /\ deposit_denom (w_st w') d = deposit_denom (w_st w) d.
Proof.
  intros Hre Hok Hst. split.
  - replace w' with (run w [(e, swap_call sender tin out mn fee target)]) by (cbn; rewrite Hst; reflexivity). apply run_reach; [exact Hre|]. constructor; [exact Hok|constructor].
  - pose proof (denoms_step e w _ Hre Hok) as H. rewrite Hst in H. cbn [fst] in H. unfold denoms_of in H. injection H as H1 H2. destruct d; assumption.
Qed.
(** C72: two parts. *)
Theorem C72_two_parts :
  forall e w sender tin side mn fee target w1 r x z T ticks T1 ticks1, reachable w ->
  let s := w_st w in let s1 := w_st w1 in let out := deposit_denom s side in
  call_ok (w_self w) (swap_call sender tin out mn fee target) = true ->
  step e w (swap_call sender tin out mn fee target) = (w1, Done r) -> r_data r = Some x -> 0 < z ->
  ladder s side T ticks -> x + z <= sum_ticks (offered s side) ticks ->
  ladder s1 side T1 ticks1 -> z <= sum_ticks (offered s1 side) ticks1 ->
  let price := price_of side (offered s side) ticks in let price1 := price_of side (offered s1 side) ticks1 in
  price (x + z) <= price x + price1 z <= price (x + z) + 1.
Proof.
  intros e w sender tin side mn fee target w1 r x z T ticks T1 ticks1 Hre s s1 out Hok Hst Er Hz Ht Hs Ht1 Hs1 price price1.
  destruct (reach_good _ Hre) as (w0 & h0 & G & _ & _ & _ & Hg). destruct (side_facts _ _ _ side Hg) as (L1 & L2 & L3 & L4 & _). fold s in L2, L3, L4.
  destruct (side_prefix _ _ _ _ _ _ Hg Ht) as (post & EL). set (L := levels side None _) in *.
  assert (HL : StronglySorted (better_tick side) L) by (destruct side; exact L1).
  destruct (swap_leaves _ _ _ _ _ _ _ _ _ _ _ Hre Hok Hst Er L HL L3) as [Hx Hleft]. fold s s1 in Hx, Hleft. rewrite sum_ticks_lsumf in Hs, Hs1.
  assert (Hnd : NoDup L) by (eapply ordered_nodup; exact L1).
  pose proof (lsumf_nonneg (offered s side) post ltac:(intros; apply L4)) as Hpost.
  assert (HsL : lsumf (offered s side) L = lsumf (offered s side) ticks + lsumf (offered s side) post) by (rewrite EL; apply lsumf_app).
  pose proof (price_parts side (offered s side) L x z Hnd ltac:(intros t K; split; [apply L2, K|apply L4]) ltac:(lia) Hz ltac:(lia)) as HP.
  assert (Ep : forall y, 0 < y <= x + z -> price_of side (offered s side) L y = price y) by (intros y Hy; rewrite EL; apply price_prefix; lia).
  rewrite !Ep in HP by lia.
  assert (Hnn1 : forall t, 0 <= offered s1 side t).
  { intros t. rewrite Hleft. destruct (alloc_bounds (offered s side) L x t Hnd ltac:(intros; apply L4) ltac:(lia)) as (_ & B1 & B2). destruct (decide (t ∈ L)) as [K|K]; [specialize (B1 K); lia|rewrite (B2 K); specialize (L4 t); lia]. }
  rewrite (price_ext side _ (offered s1 side) L) in HP by (intros t _; symmetry; apply Hleft).
  rewrite (price_skip side (offered s1 side) L) in HP by (try assumption; intros; apply Hnn1).
  destruct (sorted_by_prefix (better_tick side) (fun t => ~ better_tick side T1 t) (filter (fun t => 0 < offered s1 side t) L)) with (l := ticks1) as (post1 & E1).
  - intros a b. destruct side; cbn; lia.
  - intros a b. destruct side; cbn; lia.
  - clear -HL. induction HL as [|t k H IH Hf]; [constructor|]. rewrite filter_cons. destruct (decide _); [|exact IH]. constructor; [exact IH|]. rewrite Forall_forall in *. intros u Hu. apply Hf. apply elem_of_list_filter in Hu. tauto.
  - apply Ht1.
  - intros t. destruct Ht1 as [_ Ht1]. rewrite Ht1. rewrite elem_of_list_filter. fold s1. split; [|tauto]. intros [K1 K2]. split; [exact K1|]. split; [exact K2|]. apply L3.
    rewrite Hleft in K2. destruct (alloc_bounds (offered s side) L x t Hnd ltac:(intros; apply L4) ltac:(lia)) as (B0 & _ & _). lia.
  - rewrite E1, price_prefix in HP by lia. exact HP.
Qed.
Print Assumptions C72_two_parts.

Lemma ladder_price w side T ticks T' ticks' x : reachable w -> let liq := offered (w_st w) side in ladder (w_st w) side T ticks -> ladder (w_st w) side T' ticks' ->
  0 < x -> x <= sum_ticks liq ticks -> x <= sum_ticks liq ticks' -> price_of side liq ticks x = price_of side liq ticks' x.
Proof.
  intros Hre liq Ht Ht' Hx H H'. destruct (reach_good _ Hre) as (w0 & h0 & G & _ & _ & _ & Hg).
  destruct (side_prefix _ _ _ _ _ _ Hg Ht) as (post & EL). destruct (side_prefix _ _ _ _ _ _ Hg Ht') as (post' & EL'). rewrite sum_ticks_lsumf in *.
  rewrite <- (price_prefix side liq ticks post) by lia. rewrite <- (price_prefix side liq ticks' post') by lia. rewrite <- EL, <- EL'. reflexivity.
Qed.
(** What is on offer in all can be put on a ladder. *)
Lemma whole_ladder w side : reachable w -> exists T L, ladder (w_st w) side T L /\ StronglySorted (better_tick side) L /\ (forall t, t ∈ L <-> 0 < offered (w_st w) side t).
Proof.
  intros Hre. destruct (reach_good _ Hre) as (w0 & h0 & G & _ & _ & _ & Hg). destruct (side_facts _ _ _ side Hg) as (L1 & L2 & L3 & L4 & _). set (L := levels side None _) in *.
  exists (match side with Ask => 182402823 | Bid => -108000000 end), L. assert (HL : StronglySorted (better_tick side) L) by (destruct side; exact L1).
  split; [split; [exact HL|]|auto]. intros t. rewrite L3. split; [|tauto]. intros K. split; [|exact K]. apply L3, L2 in K as [[V1 V2] _]. destruct side; cbn [better_tick]; lia.
Qed.
Lemma ladder_sum w side T ticks L : reachable w -> ladder (w_st w) side T ticks -> StronglySorted (better_tick side) L -> (forall t, t ∈ L <-> 0 < offered (w_st w) side t) ->
  sum_ticks (offered (w_st w) side) ticks <= sum_ticks (offered (w_st w) side) L.
Proof.
  intros Hre [Ht1 Ht2] HL Hin. destruct (reach_good _ Hre) as (w0 & h0 & G & _ & _ & _ & Hg). destruct (side_facts _ _ _ side Hg) as (_ & _ & _ & L4 & _).
  rewrite !sum_ticks_lsumf. apply lsumf_sub; [exact L4| |].
  - clear -Ht1. induction Ht1 as [|t k H IH Hf]; [constructor|]. apply NoDup_cons. split; [|exact IH]. intros Ht. rewrite Forall_forall in Hf. specialize (Hf t Ht). destruct side; cbn in Hf; lia.
  - intros t K _. apply Hin. apply Ht2 in K. apply K.
Qed.
Lemma lsumf_minus f g k l : (forall t, f t = g t - k t) -> lsumf f l = lsumf g l - lsumf k l.
Proof. intros H. induction l as [|t l IH]; cbn [lsumf]; [reflexivity|]. rewrite H, IH. lia. Qed.
(** ... and what is left on offer is what was on offer less the parts. *)
Lemma swap_left_sum e w sender tin side mn fee target w' r x L L' : reachable w -> let s := w_st w in let out := deposit_denom s side in
  call_ok (w_self w) (swap_call sender tin out mn fee target) = true ->
  step e w (swap_call sender tin out mn fee target) = (w', Done r) -> r_data r = Some x ->
  StronglySorted (better_tick side) L -> (forall t, t ∈ L <-> 0 < offered s side t) ->
  StronglySorted (better_tick side) L' -> (forall t, t ∈ L' <-> 0 < offered (w_st w') side t) ->
  0 < x /\ sum_ticks (offered (w_st w') side) L' = sum_ticks (offered s side) L - x.
Proof.
  intros Hre s out Hok Hst Er HL Hin HL' Hin'. destruct (swap_leaves _ _ _ _ _ _ _ _ _ _ _ Hre Hok Hst Er L HL Hin) as [Hx Hleft]. fold s in Hx, Hleft.
  split; [apply Hx|]. rewrite !sum_ticks_lsumf.
  assert (Hnd : forall k, StronglySorted (better_tick side) k -> NoDup k).
  { clear. intros k H. induction H as [|t k H IH Hf]; [constructor|]. apply NoDup_cons. split; [|exact IH]. intros Ht. rewrite Forall_forall in Hf. specialize (Hf t Ht). destruct side; cbn in Hf; lia. }
  destruct (reach_good _ Hre) as (w0 & h0 & G & _ & _ & _ & Hg). destruct (side_facts _ _ _ side Hg) as (_ & _ & _ & L4 & _). fold s in L4.
  assert (HB : forall t, 0 <= alloc (offered s side) L x t <= offered s side t).
  { intros t. destruct (alloc_bounds (offered s side) L x t (Hnd _ HL) ltac:(intros; apply L4) ltac:(lia)) as (B0 & B1 & B2). destruct (decide (t ∈ L)) as [K|K]; [specialize (B1 K); lia|rewrite (B2 K); specialize (L4 t); lia]. }
  assert (Hnn : forall t, 0 <= offered (w_st w') side t) by (intros t; rewrite Hleft; specialize (HB t); lia).
  assert (E1 : lsumf (offered (w_st w') side) L' = lsumf (offered (w_st w') side) L).
  { apply Z.le_antisymm; apply lsumf_sub; try exact Hnn; try (apply Hnd; assumption).
    - intros t _ K. apply Hin. specialize (Hnn t). specialize (HB t). rewrite Hleft in K, Hnn. lia.
    - intros t _ K. apply Hin'. specialize (Hnn t). lia. }
  rewrite E1. pose proof (alloc_sum (offered s side) (fun _ => 1) L L x (Hnd _ HL) ltac:(auto) ltac:(lia) ltac:(lia)) as A. rewrite cheap_one in A by lia.
  rewrite (lsumf_minus _ _ _ L Hleft). enough (lsumf (alloc (offered s side) L x) L = x) by lia. etransitivity; [|exact A]. apply lsumf_ext. intros; lia.
Qed.
Lemma parts_on_offer side w xs total w' L : in_parts side w xs total w' -> reachable w -> StronglySorted (better_tick side) L -> (forall t, t ∈ L <-> 0 < offered (w_st w) side t) ->
  Forall (fun x => 0 < x) xs /\ sum_list xs <= sum_ticks (offered (w_st w) side) L.
Proof.
  intros H. revert L. induction H as [w|e w sender tin mn fee target w1 r x T ticks xs total w2 Hok Hst Er Ht Hx Hp IH]; intros L Hre HL Hin.
  - split; [constructor|]. cbn [sum_list foldr]. rewrite sum_ticks_lsumf. apply lsumf_nonneg. intros t Ht. apply Hin in Ht. lia.
  - destruct (swap_denoms _ _ _ _ _ _ _ _ _ _ Bid Hre Hok Hst) as [Hre1 _]. destruct (whole_ladder w1 side Hre1) as (T1 & L1 & _ & HL1 & Hin1).
    destruct (IH L1 Hre1 HL1 Hin1) as [I1 I2]. destruct (swap_left_sum _ _ _ _ _ _ _ _ _ _ _ L L1 Hre Hok Hst Er HL Hin HL1 Hin1) as [Hpos Hsum].
    split; [constructor; assumption|]. cbn [sum_list foldr]. fold (sum_list xs). lia.
Qed.
Lemma sum_list_pos xs : xs <> [] -> Forall (fun x => 0 < x) xs -> 0 < sum_list xs.
Proof.
  intros Hn H. destruct H as [|x xs Hx H]; [contradiction|]. cbn [sum_list foldr]. enough (0 <= foldr Z.add 0 xs) by lia. clear -H. induction H; cbn; lia.
Qed.
(** C72: an amount taken in parts by consecutive swaps costs at least its price in one piece, and at most one unit per cut more. *)
Theorem C72_parts :
  forall side w xs total w' T ticks, reachable w -> in_parts side w xs total w' -> xs <> [] ->
  ladder (w_st w) side T ticks -> sum_list xs <= sum_ticks (offered (w_st w) side) ticks ->
  let price := price_of side (offered (w_st w) side) ticks (sum_list xs) in
  price <= total <= price + Z.of_nat (length xs) - 1.
Proof.
  intros side w xs total w' T ticks Hre H. revert T ticks. induction H as [w|e w sender tin mn fee target w1 r x T0 ticks0 xs total w2 Hok Hst Er Ht0 Hx Hp IH]; intros T ticks Hn Ht Hs price; [contradiction|].
  destruct (swap_denoms _ _ _ _ _ _ _ _ _ _ Bid Hre Hok Hst) as [Hre1 _]. destruct (whole_ladder w1 side Hre1) as (T1 & L1 & HT1 & HL1 & Hin1).
  destruct (whole_ladder w side Hre) as (TL & L & _ & HL & Hin).
  destruct (parts_on_offer _ _ _ _ _ L1 Hp Hre1 HL1 Hin1) as [I1 I2].
  destruct (swap_left_sum _ _ _ _ _ _ _ _ _ _ _ L L1 Hre Hok Hst Er HL Hin HL1 Hin1) as [Hpos _].
  unfold price in *. cbn [sum_list foldr length] in *. fold (sum_list xs) in *.
  destruct xs as [|y ys].
  - inversion Hp; subst. cbn [sum_list foldr length] in *. rewrite Z.add_0_r in *. rewrite (ladder_price w side T0 ticks0 T ticks x Hre Ht0 Ht) by lia. lia.
  - pose proof (sum_list_pos (y :: ys) ltac:(discriminate) I1) as Hz. specialize (IH Hre1 T1 L1 ltac:(discriminate) HT1 I2). cbv zeta in IH.
    pose proof (C72_two_parts e w sender tin side mn fee target w1 r x (sum_list (y :: ys)) T ticks T1 L1 Hre Hok Hst Er Hz Ht Hs HT1 I2) as H2. cbv zeta in H2.
    rewrite (ladder_price w side T0 ticks0 T ticks x Hre Ht0 Ht) by lia. cbn [length] in *. lia.
Qed.
Print Assumptions C72_parts.
(** A case: asks of 10 at 1.6; a swap of 2 quote units gets one unit, a swap of 4 then gets two; in one piece three units have the price 5. *)
Definition hist_part : list (env * call) := hist_plain ++ [buy "t" 2].
Lemma part_asks t : offered (w_st (run w_start hist_plain)) Ask t = (if t =? 600000 then 10 else 0) /\ offered (w_st (run w_start hist_part)) Ask t = (if t =? 600000 then 9 else 0).
Proof.
  destruct (C08_fifo_state w_start hist_plain start_ok ltac:(hist)) as (_ & _ & _ & _ & H1).
  destruct (C08_fifo_state w_start hist_part start_ok ltac:(hist)) as (_ & _ & _ & _ & H2).
  unfold offered. rewrite H1, H2.
  assert (E1 : ideal_run w_start [] hist_plain = [mkEntry 600000 Ask 0 "a" None 7 10 10 0 0 0]) by (vm_compute; reflexivity).
  assert (E2 : ideal_run w_start [] hist_part = [mkEntry 600000 Ask 0 "a" None 7 10 9 1 0 0]) by (vm_compute; reflexivity).
  rewrite E1, E2. unfold open_at. cbn [ideal_sum foldr en_tick en_dir en_open].
  destruct (Z.eqb_spec t 600000) as [->|N1]; [split; reflexivity|]. rewrite !(bool_decide_false (600000 = t /\ Ask = Ask)) by (intros [? _]; lia). split; reflexivity.
Qed.
Lemma part_ladders : ladder (w_st (run w_start hist_plain)) Ask 600000 [600000] /\ ladder (w_st (run w_start hist_part)) Ask 600000 [600000].
Proof.
  split; (split; [repeat constructor|]; intros t; destruct (part_asks t) as [E1 E2]; rewrite ?E1, ?E2, elem_of_list_singleton; cbn [better_tick]; destruct (Z.eqb_spec t 600000); lia).
Qed.
Lemma parts_step side e w sender tin mn fee target x T ticks xs total w2 : let c := swap_call sender tin (deposit_denom (w_st w) side) mn fee target in
  call_ok (w_self w) c = true -> match snd (step e w c) with Done r => r_data r | Failed => None end = Some x ->
  ladder (w_st w) side T ticks -> x <= sum_ticks (offered (w_st w) side) ticks -> in_parts side (run w [(e, c)]) xs total w2 ->
  in_parts side w (x :: xs) (price_of side (offered (w_st w) side) ticks x + total) w2.
Proof.
  intros c Hok Hr Ht Hx Hp. destruct (step e w c) as [w1 [r|]] eqn:E; cbn [snd] in Hr; [|discriminate].
  eapply parts_more; [exact Hok|exact E|exact Hr|exact Ht|exact Hx|]. cbn [run] in Hp. rewrite E in Hp. exact Hp.
Qed.
Lemma part_base h : h = hist_plain \/ h = hist_part -> deposit_denom (w_st (run w_start h)) Ask = "base".
Proof. intros [->| ->]; vm_compute; reflexivity. Qed.
Lemma part_in_parts : in_parts Ask (run w_start hist_plain) [1; 2]
    (price_of Ask (offered (w_st (run w_start hist_plain)) Ask) [600000] 1 + (price_of Ask (offered (w_st (run w_start hist_part)) Ask) [600000] 2 + 0))
    (run (run w_start hist_part) [(tenv, swap_call "t" (mkCoin "quote" 4) "base" 0 0 None)]).
Proof.
  destruct part_ladders as [T1 T2].
  apply (parts_step Ask tenv _ "t" (mkCoin "quote" 2) 0 0 None 1 600000); [vm_compute; reflexivity|vm_compute; reflexivity|exact T1|vm_compute; discriminate|].
  rewrite part_base by auto. rewrite <- run_app. change (hist_plain ++ [(tenv, swap_call "t" (mkCoin "quote" 2) "base" 0 0 None)]) with hist_part.
  apply (parts_step Ask tenv _ "t" (mkCoin "quote" 4) 0 0 None 2 600000); [vm_compute; reflexivity|vm_compute; reflexivity|exact T2|vm_compute; discriminate|].
  rewrite part_base by auto. constructor.
Qed.
Example C72_case :
  reachable (run w_start hist_plain) /\
  in_parts Ask (run w_start hist_plain) [1; 2]
    (price_of Ask (offered (w_st (run w_start hist_plain)) Ask) [600000] 1 + (price_of Ask (offered (w_st (run w_start hist_part)) Ask) [600000] 2 + 0))
    (run (run w_start hist_part) [(tenv, swap_call "t" (mkCoin "quote" 4) "base" 0 0 None)]) /\
  ladder (w_st (run w_start hist_plain)) Ask 600000 [600000] /\ sum_list [1; 2] <= sum_ticks (offered (w_st (run w_start hist_plain)) Ask) [600000] /\
  price_of Ask (offered (w_st (run w_start hist_plain)) Ask) [600000] 1 = 2 /\ price_of Ask (offered (w_st (run w_start hist_part)) Ask) [600000] 2 = 4 /\
  price_of Ask (offered (w_st (run w_start hist_plain)) Ask) [600000] (sum_list [1; 2]) = 5.
Proof.
  split; [apply (start_reachable w_start hist_plain); [apply start_ok|hist]|]. split; [exact part_in_parts|]. split; [apply part_ladders|]. split; [vm_compute; discriminate|].
  split; [vm_compute; reflexivity|]. split; vm_compute; reflexivity.
Qed.
