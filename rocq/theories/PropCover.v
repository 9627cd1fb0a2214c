(** * Property C66: a swap with a minimum executes exactly when its input covers the price of the minimum. *)
From Verif Require Import Base Dec Types State TickMath Sumtree Tick Order Auth Contract Query World SpecMath TickMathProofs
  TreeDefs Exec SumtreeProofs SumtreeRebalance SumtreeInsert PrefixSum SumtreeRoot SumtreeFail Ghost Inv StepPlace StepCancel StepClaim
  SwapPlan StepSwap Trans Spec Reach Refine RefineStep Reserve Solvency Books SpecProps PropBase Tests PropOrders PropClaims PropBatch PropSwap PropQuote PropAdmin PropQuery PlanCurve PropCurve
  SpecAdmin SpecBank PropBank SpecMachine MachineBase MachineSwap PropMachine PropDepth SpecBuy PropBuy SpecCover.

(** ** Arithmetic at one tick *)
Lemma output_gross_ side q p : output_for side q p = gross (opposite side) q p. Proof. destruct side; reflexivity. Qed.
Lemma paid_input side x p : input_for side x p = paid side x p. Proof. destruct side; reflexivity. Qed.
Lemma paid_cost side x p : paid side x p = cost (opposite side) x p. Proof. destruct side; reflexivity. Qed.
(** The true price is the least input that is worth the amount. *)
Lemma charge_least side q x p : 0 < p -> (x <= output_for side q p <-> charge side x p <= q).
Proof.
  intros Hp. pose proof atom_pos as HA. destruct side; cbn [output_for charge]; unfold bid_gross, ask_gross.
  - pose proof (floor_spec (q * p) ATOM HA). pose proof (ceil_spec (x * ATOM) p Hp). split; intros H1.
    + apply ceil_le; [exact Hp|]. nia.
    + apply floor_ge; [exact HA|]. nia.
  - pose proof (floor_spec (q * ATOM) p Hp). pose proof (ceil_spec (x * p) ATOM HA). split; intros H1.
    + apply ceil_le; [exact HA|]. nia.
    + apply floor_ge; [exact Hp|]. nia.
Qed.
Lemma paid_bounds side x p : 0 < p -> 0 <= x -> charge side x p - 1 <= paid side x p <= charge side x p /\ 0 <= paid side x p.
Proof.
  intros Hp Hx. pose proof atom_pos as HA. destruct side; cbn [paid charge].
  - pose proof (floor_spec (x * ATOM * ATOM) p Hp) as F. set (u := floor_div (x * ATOM * ATOM) p) in *.
    pose proof (ceil_spec u ATOM HA) as C. set (c := ceil_div u ATOM) in *. pose proof (ceil_spec (x * ATOM) p Hp) as D. set (d := ceil_div (x * ATOM) p) in *.
    assert (Hu : 0 <= u) by (apply floor_ge; unfold ATOM in *; nia). split; [|apply ceil_ge; [exact HA|]; unfold ATOM in *; lia]. split.
    + enough (d <= c + 1) by lia. apply ceil_le; [exact Hp|]. assert (x * ATOM * ATOM < (c * ATOM + 1) * p) by nia. assert ((c * ATOM + 1) * p <= (c + 1) * p * ATOM) by (unfold ATOM in *; nia). nia.
    + apply ceil_le; [exact HA|]. unfold u. apply floor_le; [exact Hp|]. nia.
  - split; [lia|]. apply ceil_ge; [exact HA|]. unfold ATOM in *. nia.
Qed.
Lemma charge_pos side x p : 0 < p -> 0 < x -> 0 < charge side x p.
Proof. intros Hp Hx. pose proof atom_pos. destruct side; cbn [charge]; apply Z.le_succ_l, ceil_ge; try assumption; nia. Qed.
Lemma output_nonneg side q p : 0 < p -> 0 <= q -> 0 <= output_for side q p.
Proof. intros. rewrite output_gross_. apply gross_nonneg; assumption. Qed.
Lemma output_neg side q p : 0 < p -> q <= 0 -> output_for side q p <= 0.
Proof. intros Hp Hq. pose proof atom_pos. destruct side; cbn [output_for]; unfold ask_gross, bid_gross; apply floor_le; try assumption; nia. Qed.
(** Nothing is charged only for dust. *)
Lemma paid_nonzero side x p : 0 < p -> 0 < x -> (side = Bid -> p <= x * ATOM * ATOM) -> 0 < paid side x p.
Proof.
  intros Hp Hx Hd. pose proof atom_pos as HA. destruct side; cbn [paid]; [|apply Z.le_succ_l, ceil_ge; [exact HA|]; nia].
  assert (1 <= floor_div (x * ATOM * ATOM) p) by (apply floor_ge; [exact Hp|]; specialize (Hd eq_refl); lia).
  apply Z.le_succ_l, ceil_ge; [exact HA|]. lia.
Qed.
(** ... which what an input is worth never is. *)
Lemma worth_no_dust q p : 0 < p -> 0 < output_for Bid q p -> p <= output_for Bid q p * ATOM * ATOM.
Proof.
  intros Hp. cbn [output_for]. unfold ask_gross. pose proof atom_pos as HA. pose proof (floor_spec (q * p) ATOM HA) as F. set (w := floor_div (q * p) ATOM) in *.
  intros Hw. assert (Hq : 1 <= q) by nia. destruct (Z.le_gt_cases p (ATOM * ATOM)) as [H|H]; [nia|].
  assert (p - ATOM < w * ATOM) by nia. assert (H1 : p * 2 <= p * ATOM) by (unfold ATOM; lia). assert (H2 : ATOM * ATOM < p) by lia. nia.
Qed.

(** ** The walk *)
Lemma price_nonneg side liq l : forall x, (forall t, t ∈ l -> 0 < liq t /\ 0 < tick_price t) -> 0 < x -> x <= lsumf liq l -> 0 < price_of side liq l x.
Proof.
  induction l as [|t l IH]; intros x H Hx Hs; cbn [lsumf price_of] in *; [lia|]. destruct (H t ltac:(constructor)) as [Ho Hp].
  destruct (Z.leb_spec x (liq t)); [apply charge_pos; assumption|].
  specialize (IH (x - liq t) ltac:(intros; apply H; constructor; assumption) ltac:(lia) ltac:(lia)). pose proof (paid_bounds side (liq t) (tick_price t) Hp ltac:(lia)). lia.
Qed.
(** After a partial fill the rest is worthless here and further on. *)
Lemma rest_worthless side t l q : ordered (opposite side) (t :: l) -> (forall u, u ∈ t :: l -> valid_tick u) -> 0 <= q ->
  let p := tick_price t in let r := q - paid side (output_for side q p) p in
  0 <= r /\ forall u, u ∈ t :: l -> output_for side r (tick_price u) = 0.
Proof.
  intros Hl Hv Hq p r. assert (Hvt : valid_tick t) by (apply Hv; constructor). pose proof (tick_price_pos t Hvt) as Hp. fold p in Hp.
  pose proof (output_nonneg side q p Hp Hq) as Hw. pose proof (paid_bounds side _ p Hp Hw) as [[_ Hc] _].
  pose proof (proj1 (charge_least side q _ p Hp) (Z.le_refl _)) as Hc'. assert (Hr : 0 <= r) by (unfold r; lia). split; [exact Hr|].
  assert (H0 : output_for side r p = 0).
  { unfold r. rewrite paid_cost, !output_gross_. apply full_take_rest; [exact Hq|apply tick_gap, Hvt]. }
  intros u Hu. apply elem_of_cons in Hu as [->|Hu]; [exact H0|]. destruct (ordered_head _ _ _ Hl) as (_ & _ & Hb). assert (Hvu : valid_tick u) by (apply Hv; constructor; exact Hu).
  pose proof (tick_price_pos u Hvu) as Hpu. pose proof (better_price _ _ _ Hvt Hvu (Hb u Hu)) as Hw'. unfold worse_eq in Hw'.
  pose proof (gross_worse (opposite side) r p (tick_price u) Hr Hp Hpu Hw') as Hg. rewrite output_gross_ in *. pose proof (gross_nonneg (opposite side) r (tick_price u) Hr Hpu). lia.
Qed.
Lemma walk_worthless side partial open l q last f r : (forall u, u ∈ l -> output_for side q (tick_price u) = 0) -> walk side partial open l q last = Some (f, r) -> f = [].
Proof.
  destruct l as [|u l]; cbn [walk]; intros H.
  - destruct (_ || _); [|discriminate]. intros [= <- _]. reflexivity.
  - rewrite (H u ltac:(constructor)). cbn. intros [= <- _]. reflexivity.
Qed.
Lemma walk_out side partial open l : forall q last f r, (forall t, t ∈ l -> valid_tick t /\ 0 < open t) -> 0 <= q ->
  walk side partial open l q last = Some (f, r) -> 0 <= total_out f.
Proof.
  induction l as [|u l IH]; intros q last f r Hr Hq E; cbn [walk] in E.
  - destruct (_ || _); [|discriminate]. injection E as <- _. cbn. lia.
  - destruct (Hr u ltac:(constructor)) as [Hv Ho]. pose proof (tick_price_pos u Hv) as Hp. pose proof (output_nonneg side q _ Hp Hq).
    destruct (_ =? 0); [injection E as <- _; cbn; lia|]. destruct (_ && _); [|discriminate]. destruct (walk _ _ _ l _ _) as [[f1 r1]|] eqn:E1; [|discriminate].
    injection E as <- _. cbn. apply IH in E1; [unfold total_out in E1; lia|intros; apply Hr; constructor; assumption|].
    rewrite paid_input. set (m := Z.min _ _). pose proof (paid_bounds side m _ Hp ltac:(lia)). assert (charge side m (tick_price u) <= q) by (apply charge_least; lia). lia.
Qed.
(** The output reaches [x] exactly if the input reaches the price of [x]. *)
Lemma walk_price side partial open l : forall q last f r x, ordered (opposite side) l -> (forall t, t ∈ l -> valid_tick t /\ 0 < open t) -> 0 <= q ->
  walk side partial open l q last = Some (f, r) -> 0 < x <= lsumf open l ->
  (x <= total_out f <-> price_of side open l x <= q).
Proof.
  induction l as [|t l IH]; intros q last f r x Hl H Hq Hw Hx; cbn [lsumf] in Hx; [lia|]. cbn [walk price_of] in *.
  destruct (H t ltac:(constructor)) as [Hv Ho]. pose proof (tick_price_pos t Hv) as Hp. destruct (ordered_head _ _ _ Hl) as (Hl' & _ & _).
  assert (Hr : forall u, u ∈ l -> valid_tick u /\ 0 < open u) by (intros; apply H; constructor; assumption).
  pose proof (fun x => charge_least side q x (tick_price t) Hp) as HC. pose proof (output_nonneg side q _ Hp Hq) as Hw0.
  pose proof (rest_worthless side t l q Hl ltac:(intros; apply H; assumption) Hq) as [R1 R2]. cbv zeta in R1, R2.
  set (p := tick_price t) in *. set (w := output_for side q p) in *. set (L := open t) in *.
  (* the price beyond this level *)
  assert (Hbig : L < x -> charge side L p <= paid side L p + price_of side open l (x - L)).
  { intros HL. pose proof (paid_bounds side L p Hp ltac:(lia)). pose proof (price_nonneg side open l (x - L) ltac:(intros u Hu; destruct (Hr u Hu); split; [assumption|apply tick_price_pos; assumption]) ltac:(lia) ltac:(lia)). lia. }
  destruct (Z.eqb_spec w 0) as [Ew|Hwn].
  { injection Hw as <- _. cbn [total_out foldr]. split; [lia|]. intros HP. exfalso. destruct (Z.leb_spec x L) as [K|K].
    - apply HC in HP. lia.
    - specialize (Hbig K). assert (K' : charge side L p <= q) by lia. apply HC in K'. lia. }
  destruct (_ && _) eqn:E; [|discriminate]. rewrite paid_input in Hw. set (m := Z.min w L) in *.
  destruct (walk side partial open l (q - paid side m p) p) as [[f' r']|] eqn:E'; [|discriminate]. injection Hw as <- <-.
  change (total_out ((t, m) :: f')) with (m + total_out f').
  assert (Hf' : w < L -> total_out f' = 0).
  { intros K. assert (Em : m = w) by lia. rewrite Em in E'. enough (f' = []) as -> by reflexivity.
    eapply walk_worthless; [|exact E']. intros u Hu. apply R2. constructor. exact Hu. }
  assert (Hnn : 0 <= total_out f').
  { assert (Hq' : 0 <= q - paid side m p).
    { pose proof (paid_bounds side m p Hp ltac:(lia)). assert (charge side m p <= q) by (apply HC; lia). lia. }
    eapply walk_out; [exact Hr|exact Hq'|exact E']. }
  destruct (Z.leb_spec x L) as [K|K].
  - rewrite <- HC. split; [|intros; lia]. intros H1. destruct (Z.le_gt_cases x w) as [|Kw]; [assumption|]. specialize (Hf' ltac:(lia)). lia.
  - destruct (Z.le_gt_cases L w) as [Kw|Kw].
    + assert (Em : m = L) by lia. rewrite Em in E'. assert (Hq' : 0 <= q - paid side L p).
      { pose proof (paid_bounds side L p Hp ltac:(lia)). assert (charge side L p <= q) by (apply HC; lia). lia. }
      specialize (IH _ _ _ _ (x - L) Hl' Hr Hq' E' ltac:(lia)). lia.
    + specialize (Hf' ltac:(lia)). split; [lia|]. intros HP. specialize (Hbig K). assert (K' : charge side L p <= q) by lia. apply HC in K'. lia.
Qed.
(** Without dust a walk within the capacity goes through. *)
Lemma walk_some side open l : forall q last, ordered (opposite side) l -> (forall t, t ∈ l -> valid_tick t /\ 0 < open t <= U128_MAX) ->
  (side = Bid -> forall t, t ∈ l -> tick_price t <= open t * ATOM * ATOM) -> 0 <= q <= lsumf (fun t => paid side (open t) (tick_price t)) l -> 0 < last ->
  exists f r, walk side false open l q last = Some (f, r).
Proof.
  induction l as [|t l IH]; intros q last Hl H Hd Hq Hlast; cbn [lsumf] in Hq.
  { assert (q = 0) as -> by lia. cbn [walk]. pose proof (output_neg side 0 last Hlast ltac:(lia)). pose proof (output_nonneg side 0 last Hlast ltac:(lia)).
    assert ((output_for side 0 last =? 0) = true) as -> by (apply Z.eqb_eq; lia). cbn. eauto. }
  cbn [walk]. destruct (H t ltac:(constructor)) as [Hv Ho]. pose proof (tick_price_pos t Hv) as Hp. destruct (ordered_head _ _ _ Hl) as (Hl' & _ & _).
  pose proof (rest_worthless side t l q Hl ltac:(intros; apply H; assumption) ltac:(lia)) as [R1 R2]. cbv zeta in R1, R2.
  pose proof (output_nonneg side q _ Hp ltac:(lia)) as Hw0. assert (Hdt : side = Bid -> tick_price t <= open t * ATOM * ATOM) by (intros E; apply Hd; [exact E|constructor]).
  assert (Hdw : side = Bid -> 0 < output_for side q (tick_price t) -> tick_price t <= output_for side q (tick_price t) * ATOM * ATOM) by (intros ->; apply worth_no_dust; exact Hp).
  pose proof (fun x => charge_least side q x (tick_price t) Hp) as HC.
  rewrite paid_input. set (p := tick_price t) in *. set (w := output_for side q p) in *. destruct (Z.eqb_spec w 0) as [|Hwn]; [eauto|]. set (m := Z.min w (open t)).
  assert (Hm : 0 < paid side m p).
  { apply paid_nonzero; [exact Hp|unfold m; lia|]. intros E. unfold m. destruct (Z.min_spec w (open t)) as [[_ ->]|[_ ->]]; [apply Hdw; [exact E|lia]|apply Hdt, E]. }
  assert ((m <=? 2 ^ 128 - 1) && negb (paid side m p =? 0) = true) as ->.
  { apply andb_true_intro. split; [apply Z.leb_le; unfold m, U128_MAX in *; lia|]. apply negb_true_iff, Z.eqb_neq. lia. }
  enough (exists f r, walk side false open l (q - paid side m p) p = Some (f, r)) as (f & r & ->) by eauto.
  destruct (Z.le_gt_cases (open t) w) as [K|K].
  - assert (Em : m = open t) by (unfold m; lia). apply IH; [exact Hl'|intros; apply H; constructor; assumption|intros; apply Hd; [assumption|constructor; assumption]| |exact Hp].
    rewrite Em. split; [|lia]. pose proof (paid_bounds side (open t) p Hp ltac:(lia)). assert (charge side (open t) p <= q) by (apply HC; lia). lia.
  - assert (Em : m = w) by (unfold m; lia). rewrite Em. destruct l as [|u l]; cbn [walk].
    + pose proof (R2 t ltac:(constructor)) as R0. fold p in R0. rewrite R0. cbn. eauto.
    + rewrite (R2 u ltac:(do 2 constructor)). cbn. eauto.
Qed.

(** ** The book *)
Lemma quote_walk w G Q side q : ready w G Q -> 0 < q <= U128_MAX -> let s := w_st w in
  let out := deposit_denom s side in let tin := mkCoin (deposit_denom s (opposite side)) q in
  (forall y, calc_out_amount_given_in s tin out 0 = Ok (mkCoin out y) <->
     exists f r, walk side false (offered s side) (levels side None (lives_of Q)) q ATOM = Some (f, r) /\ total_out f = y) /\
  (forall a, calc_out_amount_given_in s tin out 0 = Ok a -> a = mkCoin out (c_amount a)).
Proof.
  intros Hrd Hq s out tin. pose proof (rd_good _ _ _ Hrd) as Hg. pose proof (gd_inv _ _ _ Hg) as Hi. pose proof (gd_ref _ _ _ Hg) as Hr.
  pose proof (quote_machine w G Q tin out Hrd ltac:(cbn [c_amount tin]; lia)) as HQ.
  unfold m_quote in HQ. assert (Es : maker_side (abs (w_st w) Q) (c_denom tin) out = Some side).
  { destruct (i_book _ _ Hi) as (ob & Eob & Hb). pose proof (bo_denoms _ _ Hb) as Hne. unfold maker_side, tin, out, s. cbn [c_denom abs ma_quote ma_base].
    unfold deposit_denom. rewrite Eob. destruct side; cbn [opposite].
    - rewrite bool_decide_false by (intros [K _]; cbn in K; congruence). rewrite bool_decide_true by (split; reflexivity). reflexivity.
    - rewrite bool_decide_true by (split; reflexivity). reflexivity. }
  rewrite Es in HQ. cbn [c_amount tin abs ma_orders] in HQ. rewrite (proj2 (Z.eqb_neq q 0)) in HQ by lia.
  assert (Ew : walk side false (open_on side (lives_of Q)) (levels side None (lives_of Q)) q ATOM = walk side false (offered s side) (levels side None (lives_of Q)) q ATOM).
  { generalize ATOM. generalize q. generalize (levels side None (lives_of Q)). intros l. induction l as [|t l IH]; intros q0 p0; cbn [walk]; [reflexivity|].
    rewrite (open_on_liquidity s G Q Hi Hr). fold (offered s side t). destruct (_ =? 0); [reflexivity|]. destruct (_ && _); [|reflexivity]. rewrite IH. reflexivity. }
  rewrite Ew in HQ. destruct (walk side false (offered s side) _ q ATOM) as [[f r]|] eqn:E.
  - fold s in HQ. rewrite HQ. split.
    + intros y. split.
      * intros [= <-]. exists f, r. auto.
      * intros (f' & r' & [= <- <-] & <-). reflexivity.
    + intros a [= <-]. reflexivity.
  - split.
    + intros y. split; [intros H; exfalso; exact (HQ _ H)|]. intros (f & r & [=] & _).
    + intros a H. exfalso. exact (HQ _ H).
Qed.

Lemma side_facts w G Q side : good w G Q -> let s := w_st w in let L := levels side None (lives_of Q) in
  ordered (opposite side) L /\ (forall t, t ∈ L -> valid_tick t /\ 0 < offered s side t) /\ (forall t, t ∈ L <-> 0 < offered s side t) /\ (forall t, 0 <= offered s side t) /\
  (forall t, offered s side t <= balance w (deposit_denom s side)).
Proof.
  intros Hg s L. pose proof (gd_inv _ _ _ Hg) as Hi. pose proof (gd_ref _ _ _ Hg) as Hr.
  assert (Hnn : forall t, 0 <= offered s side t).
  { intros t. unfold offered. rewrite (tick_liquidity_open _ _ _ _ Hi). apply g_open_nonneg, (i_side _ _ Hi). }
  assert (Hin : forall t, t ∈ L <-> 0 < offered s side t).
  { intros t. unfold L. rewrite (levels_liquidity s G Q Hi Hr). fold (offered s side t). specialize (Hnn t). cbn [within_target]. split; [intros [K _]; lia|intros K; split; [lia|exact I]]. }
  split; [apply (levels_ordered side)|]. split; [|split; [exact Hin|split; [exact Hnn|]]].
  - intros t Ht. split; [exact (level_valid s G Q Hr side None t Ht)|apply Hin, Ht].
  - intros t. etransitivity; [|exact (good_owed w G Q side Hg)]. etransitivity; [|exact (open_owed _ _ _ side Hr)].
    unfold offered. rewrite (liquidity_open s G Q Hi Hr). unfold open_at, open_dir. pose proof (rf_entry _ _ _ Hr) as He. clear -He.
    induction Q as [|en Q IH]; [reflexivity|]. specialize (IH ltac:(intros; apply He; constructor; assumption)). pose proof (He en ltac:(constructor)) as [_ K1 _ _ _ _ _ _ _].
    cbn [ideal_sum foldr] in *. unfold ideal_sum in IH. destruct (bool_decide_reflect (en_tick en = t /\ en_dir en = side)) as [[_ E]|_].
    + rewrite (bool_decide_true _ E). lia.
    + destruct (bool_decide _); lia.
Qed.
Lemma sorted_by_prefix (R : Z -> Z -> Prop) (P : Z -> Prop) L : (forall a b, R a b -> ~ R b a) -> (forall a b, P b -> R a b -> P a) -> 
  forall l, StronglySorted R L -> StronglySorted R l -> (forall t, t ∈ l <-> P t /\ t ∈ L) -> exists post, L = l ++ post.
Proof.
  intros Has Hdown. induction L as [|u L IH]; intros l HL Hl H.
  { destruct l as [|v l]; [exists []; reflexivity|]. exfalso. destruct (proj1 (H v) ltac:(constructor)) as [_ K]. inversion K. }
  destruct l as [|v l]; [exists (u :: L); reflexivity|]. apply StronglySorted_inv in HL as [HL HuL]. apply StronglySorted_inv in Hl as [Hl Hvl]. rewrite Forall_forall in HuL. rewrite Forall_forall in Hvl.
  assert (Hirr : forall a, ~ R a a) by (intros a K; exact (Has _ _ K K)).
  assert (Euv : u = v).
  { destruct (proj1 (H v) ltac:(constructor)) as [K1 K2]. apply elem_of_cons in K2 as [->|K2]; [reflexivity|]. specialize (HuL v K2).
    assert (Hu : u ∈ v :: l) by (apply H; split; [eapply Hdown; eauto|constructor]). apply elem_of_cons in Hu as [->|Hu]; [reflexivity|]. specialize (Hvl u Hu). exfalso. exact (Has _ _ HuL Hvl). }
  subst v. destruct (IH l HL Hl) as (post & ->).
  { intros t. split.
    - intros Ht. pose proof (Hvl t Ht). destruct (proj1 (H t) ltac:(constructor; assumption)) as [K1 K2]. split; [exact K1|]. apply elem_of_cons in K2 as [->|K2]; [exfalso; eapply Hirr; eauto|exact K2].
    - intros [K1 K2]. pose proof (HuL t K2). assert (Ht : t ∈ u :: l) by (apply H; split; [exact K1|constructor; exact K2]). apply elem_of_cons in Ht as [->|Ht]; [exfalso; eapply Hirr; eauto|exact Ht]. }
  exists post. reflexivity.
Qed.
Lemma side_prefix w G Q side T ticks : good w G Q -> ladder (w_st w) side T ticks -> exists post, levels side None (lives_of Q) = ticks ++ post.
Proof.
  intros Hg [H1 H2]. destruct (side_facts _ _ _ side Hg) as (L1 & _ & L3 & _ & _).
  apply (sorted_by_prefix (better_tick side) (fun t => ~ better_tick side T t)).
  - intros a b. destruct side; cbn; lia.
  - intros a b. destruct side; cbn; lia.
  - destruct side; exact L1.
  - exact H1.
  - intros t. rewrite H2, L3. reflexivity.
Qed.
Lemma price_prefix side open l post : forall x, 0 < x <= lsumf open l -> price_of side open (l ++ post) x = price_of side open l x.
Proof.
  induction l as [|t l IH]; intros x Hx; cbn [lsumf app price_of] in *; [lia|]. destruct (Z.leb_spec x (open t)); [reflexivity|]. rewrite IH by lia. reflexivity.
Qed.
Lemma lsumf_app f l k : lsumf f (l ++ k) = lsumf f l + lsumf f k. Proof. induction l as [|a l IH]; cbn; lia. Qed.
Lemma lsumf_nonneg f l : (forall t, t ∈ l -> 0 <= f t) -> 0 <= lsumf f l.
Proof. induction l as [|a l IH]; intros H; cbn; [lia|]. pose proof (H a ltac:(constructor)). specialize (IH ltac:(intros; apply H; constructor; assumption)). lia. Qed.

(** C66: a quote reaches [x] exactly if the input reaches the price of [x]. *)
Theorem C66_quote_covers :
  forall w0 h side T ticks x q y, start w0 -> history w0 h -> short h ->
  let s := w_st (run w0 h) in let out := deposit_denom s side in
  ladder s side T ticks -> 0 < x <= sum_ticks (offered s side) ticks -> 0 <= q <= U128_MAX ->
  calc_out_amount_given_in s (mkCoin (deposit_denom s (opposite side)) q) out 0 = Ok (mkCoin out y) ->
  (x <= y <-> price_of side (offered s side) ticks x <= q).
Proof.
  intros w0 h side T ticks x q y Hs Hh Hsh s out Ht Hx Hq Eq.
  destruct (short_ready w0 h Hs Hh Hsh) as (G & Hrd). pose proof (rd_good _ _ _ Hrd) as Hg.
  destruct (side_facts _ _ _ side Hg) as (L1 & L2 & L3 & L4 & _). fold s in L2, L3, L4. set (Q := ideal_run w0 [] h) in *.
  destruct (side_prefix _ _ _ _ _ _ Hg Ht) as (post & EL). rewrite sum_ticks_lsumf in Hx.
  destruct (Z.eq_dec q 0) as [->|Hq0].
  { exfalso. pose proof (quote_machine _ G Q (mkCoin (deposit_denom s (opposite side)) 0) out Hrd ltac:(cbn [c_amount]; unfold U128_MAX; lia)) as HQ.
    unfold m_quote in HQ. cbn [c_amount] in HQ. destruct (maker_side _ _ _); eapply HQ; exact Eq. }
  apply (quote_walk _ G Q side q Hrd ltac:(lia)) in Eq as (f & r & Ew & <-). fold s in Ew.
  rewrite <- (price_prefix side _ ticks post) by exact Hx. rewrite <- EL. eapply walk_price; [exact L1|exact L2|lia|exact Ew|].
  rewrite EL, lsumf_app. pose proof (lsumf_nonneg (offered s side) post ltac:(intros; apply L4)). lia.
Qed.
Print Assumptions C66_quote_covers.
(** ... and a swap within the capacity of the book that asks for at least [x] executes exactly if its input
    covers the price of [x]. *)
Theorem C66_executes_iff_covered :
  forall e w0 h sender side T ticks all x q, start w0 -> history w0 h -> short h ->
  let w := run w0 h in let s := w_st w in let out := deposit_denom s side in
  let c := swap_call sender (mkCoin (deposit_denom s (opposite side)) q) out x 0 None in
  call_ok (w_self w) c = true -> active s = true -> e_addr_valid e sender = true -> e_bank_ok e sender = true ->
  balance w out <= U128_MAX -> no_dust s side -> NoDup all -> q <= capacity s side all ->
  ladder s side T ticks -> 0 < x <= sum_ticks (offered s side) ticks ->
  (succeeds e w c <-> price_of side (offered s side) ticks x <= q).
Proof.
  intros e w0 h sender side T ticks all x q Hs Hh Hsh w s out c Hok Ha Hav Hbk Hbal Hd Hnd Hcap Ht Hx.
  destruct (short_ready w0 h Hs Hh Hsh) as (G & Hrd). pose proof (rd_good _ _ _ Hrd) as Hg. fold w in Hg, Hrd.
  pose proof (coin_in_bounds _ _ _ _ _ _ _ Hok) as Hamt. cbn [c_amount] in Hamt.
  destruct (side_facts _ _ _ side Hg) as (L1 & L2 & L3 & L4 & L5). fold s in L2, L3, L4, L5. set (Q := ideal_run w0 [] h) in *.
  destruct (side_prefix _ _ _ _ _ _ Hg Ht) as (post & EL).
  assert (Hpos : 0 < price_of side (offered s side) ticks x).
  { rewrite sum_ticks_lsumf in Hx. rewrite <- (price_prefix side _ ticks post) by exact Hx. rewrite <- EL. apply price_nonneg; [|lia|].
    - intros t K. destruct (L2 t K) as [V P]. split; [exact P|apply tick_price_pos, V].
    - rewrite EL, lsumf_app. pose proof (lsumf_nonneg (offered s side) post ltac:(intros; apply L4)). lia. }
  assert (HQ : forall a, calc_out_amount_given_in s (mkCoin (deposit_denom s (opposite side)) q) out 0 = Ok a ->
    (succeeds e w c <-> price_of side (offered s side) ticks x <= q)).
  { intros a Ea. destruct (quote_exact e w0 h sender _ out x a Hs Hh Hsh Hok Ha Hav Hbk Ea) as (E1 & E2 & E3 & _). fold w c in E3. destruct a as [d y]. cbn [c_denom c_amount] in *. subst d.
    pose proof (C66_quote_covers w0 h side T ticks x q y Hs Hh Hsh Ht Hx Hamt Ea) as HC. fold w s in HC. rewrite <- HC, E3. lia. }
  split.
  - intros Hsu. destruct (calc_out_amount_given_in s (mkCoin (deposit_denom s (opposite side)) q) out 0) as [a|er| |] eqn:Ea; [apply (HQ a); auto| | |];
      exfalso; destruct Hsu as (w' & r & Hst); pose proof (quote_fails e w sender (mkCoin (deposit_denom s (opposite side)) q) out x 0) as HF; fold s in HF; rewrite Ea in HF;
      specialize (HF ltac:(discriminate)); fold c in HF; rewrite HF in Hst; discriminate.
  - intros Hpr. assert (Hq : 0 < q <= U128_MAX) by lia.
    destruct (walk_some side (offered s side) (levels side None (lives_of Q)) q ATOM) as (f & r & Ew).
    + exact L1.
    + intros t K. destruct (L2 t K). specialize (L5 t). fold out in L5. split; [assumption|lia].
    + intros -> t K. apply Hd, L3, K.
    + split; [lia|]. etransitivity; [exact Hcap|]. unfold capacity. rewrite sum_ticks_lsumf.
      assert (Hz : forall t, offered s side t = 0 -> paid side (offered s side t) (tick_price t) = 0).
      { intros t ->. destruct side; cbn [paid]; [|reflexivity]. unfold floor_div. cbn [Z.mul]. reflexivity. }
      assert (Hnn : forall t, 0 <= paid side (offered s side t) (tick_price t)).
      { intros t. destruct (Z.eq_dec (offered s side t) 0) as [E|E]; [rewrite Hz by exact E; lia|]. pose proof (L4 t). apply paid_bounds; [|lia]. apply tick_price_pos. apply (L2 t). apply L3. lia. }
      apply lsumf_sub; [exact Hnn|exact Hnd|]. intros t _ K. apply L3. specialize (L4 t). destruct (Z.eq_dec (offered s side t) 0) as [E|E]; [exfalso; apply K, Hz, E|lia].
    + exact atom_pos.
    + pose proof (proj2 (proj1 (quote_walk w G Q side q Hrd Hq) (total_out f)) ltac:(eauto)) as Ea. apply (HQ _ Ea). exact Hpr.
Qed.
Print Assumptions C66_executes_iff_covered.
(** A case: three bids, 7 at 2.0, 10 at 1.1 and 5 at 0.85. *)
Definition hist_bids : list (env * call) := [place "a" 1000000 Bid 7 None; place "b" 100000 Bid 10 None; place "c" (-1500000) Bid 5 None].
Lemma bids_offered t : offered (w_st (run w_start hist_bids)) Bid t = (if t =? 1000000 then 7 else if t =? 100000 then 10 else if t =? -1500000 then 5 else 0).
Proof.
  destruct (C08_fifo_state w_start hist_bids start_ok ltac:(hist)) as (_ & _ & _ & _ & H1). unfold offered. rewrite H1.
  assert (E1 : ideal_run w_start [] hist_bids = [mkEntry 1000000 Bid 0 "a" None 7 7 7 0 0 0; mkEntry 100000 Bid 1 "b" None 7 10 10 0 0 0; mkEntry (-1500000) Bid 2 "c" None 7 5 5 0 0 0]) by (vm_compute; reflexivity).
  rewrite E1. unfold open_at. cbn [ideal_sum foldr en_tick en_dir en_open].
  assert (K : forall a x, (if bool_decide (a = t /\ Bid = Bid) then x else 0) = (if t =? a then x else 0)).
  { intros a x. destruct (Z.eqb_spec t a) as [->|N]; [rewrite bool_decide_true by auto; reflexivity|]. rewrite bool_decide_false by (intros [? _]; congruence). reflexivity. }
  rewrite !K. destruct (Z.eqb_spec t 1000000) as [->|]; [reflexivity|]. destruct (Z.eqb_spec t 100000) as [->|]; [reflexivity|]. destruct (t =? -1500000); reflexivity.
Qed.
Lemma bids_ladder : ladder (w_st (run w_start hist_bids)) Bid (-1500000) [1000000; 100000; -1500000].
Proof.
  split; [repeat constructor|]. intros t. rewrite bids_offered, !elem_of_cons, elem_of_nil. cbn [better_tick].
  destruct (Z.eqb_spec t 1000000); [lia|]. destruct (Z.eqb_spec t 100000); [lia|]. destruct (Z.eqb_spec t (-1500000)); lia.
Qed.
Lemma bids_no_dust : no_dust (w_st (run w_start hist_bids)) Bid.
Proof.
  intros t. rewrite bids_offered. destruct (Z.eqb_spec t 1000000) as [->|]; [intros _; vm_compute; discriminate|]. destruct (Z.eqb_spec t 100000) as [->|]; [intros _; vm_compute; discriminate|].
  destruct (Z.eqb_spec t (-1500000)) as [->|]; [intros _; vm_compute; discriminate|]. lia.
Qed.
Lemma bids_balance : balance (run w_start hist_bids) "quote" <= U128_MAX. Proof. vm_compute; discriminate. Qed.
Lemma bids_active : active (w_st (run w_start hist_bids)) = true. Proof. vm_compute; reflexivity. Qed.
Lemma bids_denoms : map (deposit_denom (w_st (run w_start hist_bids))) [Bid; Ask] = ["quote"; "base"]. Proof. vm_compute; reflexivity. Qed.
(** The hypotheses of C66 are met here; the prices of 1, 7, 8, 17, 18 and 22 quote units, what these inputs and
    one unit less are quoted, and a swap that asks for 18 quote units for 15 and for 16 base units. *)
Example C66_case :
  start w_start /\ history w_start hist_bids /\ short hist_bids /\ balance (run w_start hist_bids) "quote" <= U128_MAX /\ active (w_st (run w_start hist_bids)) = true /\
  map (deposit_denom (w_st (run w_start hist_bids))) [Bid; Ask] = ["quote"; "base"] /\
  ladder (w_st (run w_start hist_bids)) Bid (-1500000) [1000000; 100000; -1500000] /\ no_dust (w_st (run w_start hist_bids)) Bid /\
  sum_ticks (offered (w_st (run w_start hist_bids)) Bid) [1000000; 100000; -1500000] = 22 /\ capacity (w_st (run w_start hist_bids)) Bid [1000000; 100000; -1500000] = 20 /\
  map (price_of Bid (offered (w_st (run w_start hist_bids)) Bid) [1000000; 100000; -1500000]) [1; 7; 8; 17; 18; 22] = [1; 4; 5; 14; 16; 20] /\
  (let got q := match calc_out_amount_given_in (w_st (run w_start hist_bids)) (mkCoin "base" q) "quote" 0 with Ok a => c_amount a | _ => -1 end in
   map got [1; 3; 4; 5; 13; 14; 15; 16; 19; 20] = [2; 6; 7; 8; 16; 17; 17; 18; 21; 22]) /\
  (let c q := swap_call "t" (mkCoin "base" q) "quote" 18 0 None in
   call_ok "contract" (c 15) = true /\ snd (step tenv (run w_start hist_bids) (c 15)) = Failed /\
   exists w' r, step tenv (run w_start hist_bids) (c 16) = (w', Done r) /\ r_data r = Some 18).
Proof.
  split; [apply start_ok|]. split; [hist|]. split; [vm_compute; discriminate|]. split; [exact bids_balance|]. split; [exact bids_active|]. split; [exact bids_denoms|].
  split; [exact bids_ladder|]. split; [exact bids_no_dust|]. split; [vm_compute; reflexivity|]. split; [vm_compute; reflexivity|]. split; [vm_compute; reflexivity|].
  split; [vm_compute; reflexivity|]. split; [vm_compute; reflexivity|]. split; [vm_compute; reflexivity|].
  eexists _, _. split; [apply done_ok; vm_compute; reflexivity|vm_compute; reflexivity].
Qed.
