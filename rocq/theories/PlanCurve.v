(** * PlanCurve: how the outcome of a market order depends on its size. *)
From Verif Require Import Base Dec Types State TickMath Order SpecMath TickMathProofs StepClaim SwapPlan.

Lemma gross_mono d q q' p : 0 <= q <= q' -> 0 < p -> gross d q p <= gross d q' p.
Proof.
  intros Hq Hp. pose proof DEC_pos as HD. destruct d; unfold gross, ask_gross, bid_gross; rewrite <- DEC_ATOM; apply floor_ge; try assumption.
  - pose proof (floor_spec (q * DEC) p Hp). nia.
  - pose proof (floor_spec (q * p) DEC HD). nia.
Qed.
Lemma gross_super d q q' p : 0 <= q -> 0 <= q' -> 0 < p -> gross d q p + gross d q' p <= gross d (q + q') p.
Proof.
  intros Hq Hq' Hp. pose proof DEC_pos as HD. destruct d; unfold gross, ask_gross, bid_gross; rewrite <- DEC_ATOM; apply floor_ge; try assumption.
  - pose proof (floor_spec (q * DEC) p Hp). pose proof (floor_spec (q' * DEC) p Hp). nia.
  - pose proof (floor_spec (q * p) DEC HD). pose proof (floor_spec (q' * p) DEC HD). nia.
Qed.
(** Taking all that the input can buy at a tick is charged in full (no undercharge). *)
Lemma full_take_exact d q p : 0 <= q -> gap_ok p -> let x := gross d q p in
  match d with Bid => x * p <= cost d x p * DEC | Ask => x * DEC <= cost d x p * p end.
Proof.
  intros Hq [Hp Hg] x. pose proof DEC_pos as HD. assert (Hp0 : 0 < p) by lia.
  pose proof (gross_nonneg d q p Hq Hp0) as Hx0. fold x in Hx0.
  pose proof (cost_le d q p x ltac:(unfold x; lia) Hp0) as Hc.
  pose proof (full_take_rest d q p Hq (conj Hp Hg)) as Hr. cbn zeta in Hr. fold x in Hr.
  destruct d.
  - unfold cost. pose proof (ceil_spec (x * p) DEC HD). lia.
  - destruct Hg as [Hg|Hg].
    + rewrite sell_cost_exact in * by lia. pose proof (ceil_spec (x * DEC) p Hp0). lia.
    + set (c := cost Ask x p) in *. unfold gross, ask_gross in Hr. rewrite <- DEC_ATOM in Hr.
      pose proof (floor_spec ((q - c) * p) DEC HD) as Hf. rewrite Hr in Hf. rewrite DEC_val in Hg.
      assert (Eqc : q = c) by (rewrite DEC_val in Hf; nia). rewrite <- Eqc.
      unfold x, gross, ask_gross. rewrite <- DEC_ATOM. pose proof (floor_spec (q * p) DEC HD). lia.
Qed.
(** Taking two parts together costs no more, when the first is charged in full. *)
Lemma cost_join d x y p : 0 <= x -> 0 <= y -> 0 < p ->
  match d with Bid => x * p <= cost d x p * DEC | Ask => x * DEC <= cost d x p * p end ->
  cost d (x + y) p <= cost d x p + cost d y p.
Proof.
  intros Hx Hy Hp H. pose proof DEC_pos as HD. set (cx := cost d x p) in *. destruct d.
  - unfold cost. pose proof (ceil_spec (y * p) DEC HD). apply ceil_le; [assumption|]. nia.
  - unfold cost. pose proof (floor_spec (y * DEC * DEC) p Hp) as Hfy. set (fy := floor_div (y * DEC * DEC) p) in *.
    pose proof (ceil_spec fy DEC HD) as Hcy. set (cy := ceil_div fy DEC) in *.
    apply ceil_le; [assumption|]. pose proof (floor_spec ((x + y) * DEC * DEC) p Hp) as Hf. set (f := floor_div _ p) in *.
    assert (x * DEC * DEC <= cx * p * DEC) by nia. assert (f * p < ((cx + cy) * DEC + 1) * p) by nia. nia.
Qed.

Lemma sum_out_nonneg d open fs : Forall (fill_good d open) fs -> 0 <= sum_out fs.
Proof. induction 1 as [|f fs (H & _) _ IH]; cbn; lia. Qed.
(** The start price does not matter for the fills. *)
Lemma plan_ext d open open' l : forall q p0, (forall t, t ∈ l -> open t = open' t) -> plan d open l q p0 = plan d open' l q p0.
Proof.
  induction l as [|t l IH]; intros q p0 H; cbn [plan]; [reflexivity|].
  rewrite <- (H t) by constructor. assert (Hl : forall t', t' ∈ l -> open t' = open' t') by (intros; apply H; constructor; assumption).
  rewrite !IH by assumption. reflexivity.
Qed.
(** Input that buys nothing at any of the ticks takes nothing. *)
Lemma plan_zero d open l q p0 fs r pr :
  (forall t, t ∈ l -> gross d q (tick_price t) = 0) -> plan d open l q p0 = Some (fs, r, pr) -> fs = [].
Proof.
  revert p0. induction l as [|t l IH]; intros p0 H; cbn [plan]; [congruence|].
  destruct (open t =? 0); [apply IH; intros; apply H; constructor; assumption|].
  rewrite (H t) by constructor. cbn. congruence.
Qed.
Lemma plan_fills d open l q p0 fs r pr :
  ordered d l -> (forall t, t ∈ l -> valid_tick t) -> (forall t, t ∈ l -> 0 <= open t) -> 0 <= q ->
  plan d open l q p0 = Some (fs, r, pr) -> 0 <= sum_out fs /\ sublist (map f_tick fs) l.
Proof.
  intros H1 H2 H3 H4 H5. rewrite (plan_ext _ _ (fun t => Z.max 0 (open t))) in H5 by (intros t Ht; specialize (H3 t Ht); lia).
  assert (H3' : forall t, 0 <= Z.max 0 (open t)) by (intros; lia).
  pose proof (plan_spec _ _ _ _ _ _ _ _ H1 H2 H3' H4 H5) as Hg. split; [eapply sum_out_nonneg, Hg|apply Hg].
Qed.
(** After a partial fill nothing more is bought: what is left is worthless at worse prices too. *)
Lemma after_partial d open t l q p0 fs r pr :
  ordered d (t :: l) -> (forall t', t' ∈ t :: l -> valid_tick t') -> 0 <= q ->
  let x := gross d q (tick_price t) in
  plan d open l (q - cost d x (tick_price t)) p0 = Some (fs, r, pr) -> fs = [].
Proof.
  intros Hord Hval Hq x H. apply StronglySorted_inv in Hord as [Hord Ht]. rewrite Forall_forall in Ht.
  assert (Hvt : valid_tick t) by (apply Hval; constructor). pose proof (tick_price_pos t Hvt) as Hp.
  pose proof (gross_nonneg d q _ Hq Hp) as Hx. fold x in Hx. pose proof (cost_le d q (tick_price t) x ltac:(unfold x in *; lia) Hp) as Hc.
  eapply plan_zero; [|exact H]. intros t' Hin. assert (Hv' : valid_tick t') by (apply Hval; constructor; assumption).
  pose proof (tick_price_pos t' Hv') as Hp'. pose proof (better_price d t t' Hvt Hv' (Ht _ Hin)) as Hb.
  pose proof (gross_worse d (q - cost d x (tick_price t)) (tick_price t) (tick_price t') ltac:(lia) Hp Hp' Hb) as Hg.
  pose proof (full_take_rest d q _ Hq (tick_gap _ Hvt)) as Hz. cbn zeta in Hz. fold x in Hz.
  pose proof (gross_nonneg d (q - cost d x (tick_price t)) _ ltac:(lia) Hp'). lia.
Qed.

(** More input never buys less. *)
Lemma plan_mono d open l : forall q q' p0 p0' fs r pr fs' r' pr',
  ordered d l -> (forall t, t ∈ l -> valid_tick t) -> (forall t, t ∈ l -> 0 <= open t) -> 0 <= q <= q' ->
  plan d open l q p0 = Some (fs, r, pr) -> plan d open l q' p0' = Some (fs', r', pr') -> sum_out fs <= sum_out fs'.
Proof.
  induction l as [|t l IH]; intros q q' p0 p0' fs r pr fs' r' pr' Hord Hval Hop Hq H H'.
  { cbn in H, H'. injection H as <- _ _. injection H' as <- _ _. reflexivity. }
  pose proof Hord as Hord0. apply StronglySorted_inv in Hord as [Hord Ht].
  assert (Hvt : valid_tick t) by (apply Hval; constructor). pose proof (tick_price_pos t Hvt) as Hp.
  assert (Hvl : forall t', t' ∈ l -> valid_tick t') by (intros; apply Hval; constructor; assumption).
  assert (Hol : forall t', t' ∈ l -> 0 <= open t') by (intros; apply Hop; constructor; assumption).
  pose proof (plan_fills _ _ _ _ _ _ _ _ Hord0 Hval Hop (Z.le_trans _ _ _ (proj1 Hq) (proj2 Hq)) H') as [Hs' _].
  specialize (Hop t ltac:(constructor)) as Hot. cbn [plan] in H, H'.
  destruct (Z.eqb_spec (open t) 0); [eapply IH; eauto|]. set (p := tick_price t) in *.
  pose proof (gross_nonneg d q p (proj1 Hq) Hp) as Hw0. pose proof (gross_mono d q q' p Hq Hp) as Hww.
  destruct (Z.eqb_spec (gross d q p) 0) as [Ew|Hw]; [injection H as <- _ _; cbn; assumption|].
  destruct (Z.eqb_spec (gross d q' p) 0) as [Ew'|Hw']; [lia|].
  set (x := Z.min (gross d q p) (open t)) in *. set (x' := Z.min (gross d q' p) (open t)) in *.
  destruct (cost d x p =? 0); [discriminate|]. destruct (cost d x' p =? 0) eqn:Ec'; [discriminate|].
  destruct (plan d open l (q - cost d x p) p) as [[[fs0 r0] pr0]|] eqn:E; [|discriminate]. injection H as <- <- <-.
  destruct (plan d open l (q' - cost d x' p) p) as [[[fs0' r0'] pr0']|] eqn:E'; [|discriminate]. injection H' as <- <- <-.
  cbn [sum_out f_out fst snd] in *.
  pose proof (cost_le d q p x ltac:(unfold x; lia) Hp). pose proof (cost_le d q' p x' ltac:(unfold x'; lia) Hp).
  destruct (Z.le_gt_cases (open t) (gross d q p)).
  - assert (x = open t) as Ex by (unfold x; lia). assert (x' = open t) as Ex' by (unfold x'; lia). rewrite Ex, Ex' in *.
    enough (sum_out fs0 <= sum_out fs0') by lia. eapply IH; [..|exact E|exact E']; try assumption. lia.
  - assert (x = gross d q p) as Ex by (unfold x; lia). rewrite Ex in E. fold p in E.
    pose proof (after_partial d open t l q p fs0 r0 pr0 Hord0 Hval (proj1 Hq) E) as ->. cbn [sum_out].
    assert (Hpf_Hs0 := fun K => plan_fills _ _ _ _ _ _ _ _ Hord Hvl Hol K E'). specialize (Hpf_Hs0 ltac:(lia)). destruct Hpf_Hs0 as [Hs0 _].
    assert (x <= x') by (unfold x, x'; lia). lia.
Qed.

(** Two market orders in a row never buy more than one of the combined size. *)
Lemma plan_split d open l : forall q1 q2 q p1 p2 p0 fs1 r1 pr1 fs2 r2 pr2 fs r pr,
  ordered d l -> (forall t, t ∈ l -> valid_tick t) -> (forall t, t ∈ l -> 0 <= open t) -> 0 <= q1 -> 0 <= q2 -> q1 + q2 <= q ->
  plan d open l q1 p1 = Some (fs1, r1, pr1) -> plan d (fun t => open t - taken fs1 t) l q2 p2 = Some (fs2, r2, pr2) ->
  plan d open l q p0 = Some (fs, r, pr) -> sum_out fs1 + sum_out fs2 <= sum_out fs.
Proof.
  induction l as [|t l IH]; intros q1 q2 q p1 p2 p0 fs1 r1 pr1 fs2 r2 pr2 fs r pr Hord Hval Hop Hq1 Hq2 Hq H1 H2 H.
  { cbn in H, H1, H2. injection H as <- _ _. injection H1 as <- _ _. injection H2 as <- _ _. reflexivity. }
  pose proof Hord as Hord0. apply StronglySorted_inv in Hord as [Hord Ht]. rewrite Forall_forall in Ht.
  assert (Hvt : valid_tick t) by (apply Hval; constructor). pose proof (tick_price_pos t Hvt) as Hp.
  assert (Hvl : forall t', t' ∈ l -> valid_tick t') by (intros; apply Hval; constructor; assumption).
  assert (Hol : forall t', t' ∈ l -> 0 <= open t') by (intros; apply Hop; constructor; assumption).
  assert (Htl : t ∉ l) by (intros Hin; specialize (Ht t Hin); destruct d; cbn in Ht; lia).
  specialize (Hop t ltac:(constructor)) as Hot. cbn [plan] in H1.
  assert (Hskip : forall f, sublist (map f_tick f) l -> taken f t = 0) by (intros f Hf; apply taken_notin; intros Hin; apply Htl; eapply sublist_in; eauto).
  destruct (Z.eqb_spec (open t) 0) as [E0|Hne].
  { pose proof (plan_fills _ _ _ _ _ _ _ _ Hord Hvl Hol Hq1 H1) as [_ Hsub]. cbn [plan] in H2, H. rewrite E0, (Hskip _ Hsub) in H2. rewrite E0 in H. cbn in H, H2.
    eapply (IH q1 q2 q); [..|exact H1|exact H2|exact H]; assumption. }
  set (p := tick_price t) in *. pose proof (gross_nonneg d q1 p Hq1 Hp) as Hw1.
  destruct (Z.eqb_spec (gross d q1 p) 0) as [Ew1|Hw1n].
  { injection H1 as <- _ _. cbn [taken sum_out] in *. rewrite (plan_ext _ _ open) in H2 by (intros; lia).
    rewrite Z.add_0_l. eapply plan_mono; [..|exact H2|exact H]; try assumption. lia. }
  cbn [plan] in H. destruct (Z.eqb_spec (open t) 0) as [|_]; [contradiction|]. fold p in H.
  pose proof (gross_super d q1 q2 p Hq1 Hq2 Hp) as Hsup. pose proof (gross_mono d (q1 + q2) q p ltac:(lia) Hp) as Hmo.
  pose proof (gross_nonneg d q2 p Hq2 Hp) as Hw2.
  destruct (Z.eqb_spec (gross d q p) 0) as [|Hwn]; [lia|].
  set (x1 := Z.min (gross d q1 p) (open t)) in *. set (x := Z.min (gross d q p) (open t)) in *.
  destruct (cost d x1 p =? 0); [discriminate|]. destruct (cost d x p =? 0) eqn:Ec; [discriminate|].
  destruct (plan d open l (q1 - cost d x1 p) p) as [[[fs1' r1'] pr1']|] eqn:E1; [|discriminate]. injection H1 as <- <- <-.
  destruct (plan d open l (q - cost d x p) p) as [[[fs' r'] pr']|] eqn:E; [|discriminate]. injection H as <- <- <-.
  pose proof (cost_le d q1 p x1 ltac:(unfold x1; lia) Hp) as Hc1. pose proof (cost_le d q p x ltac:(unfold x; lia) Hp) as Hc.
  assert (Hpf_Hs1 := fun K => plan_fills _ _ _ _ _ _ _ _ Hord Hvl Hol K E1). specialize (Hpf_Hs1 ltac:(lia)). destruct Hpf_Hs1 as [Hs1 Hsub1].
  assert (Hpf_Hs := fun K => plan_fills _ _ _ _ _ _ _ _ Hord Hvl Hol K E). specialize (Hpf_Hs ltac:(lia)). destruct Hpf_Hs as [Hs _].
  cbn [plan] in H2. cbn [taken f_tick f_out fst snd] in H2. rewrite Z.eqb_refl, (Hskip _ Hsub1), Z.add_0_r in H2. fold p in H2.
  assert (Hext : forall q p0, plan d (fun t0 => open t0 - ((if t =? t0 then x1 else 0) + taken fs1' t0)) l q p0 = plan d (fun t0 => open t0 - taken fs1' t0) l q p0).
  { intros. apply plan_ext. intros t' Hin. destruct (Z.eqb_spec t t'); [subst; contradiction|lia]. }
  rewrite !Hext in H2. cbn [sum_out f_out fst snd].
  destruct (Z.le_gt_cases (open t) (gross d q1 p)) as [Hfull|Hpart].
  - (* the first order empties the tick *)
    assert (x1 = open t) as Ex1 by (unfold x1; lia). assert (x = open t) as Ex by (unfold x; lia). rewrite Ex1, Ex in *.
    rewrite Z.sub_diag in H2. cbn in H2. enough (sum_out fs1' + sum_out fs2 <= sum_out fs') by lia.
    eapply (IH (q1 - cost d (open t) p) q2 (q - cost d (open t) p)); [..|exact E1|exact H2|exact E]; try assumption; lia.
  - (* the first order ends here *)
    assert (x1 = gross d q1 p) as Ex1 by (unfold x1; lia).
    assert (fs1' = []) as ->. { rewrite Ex1 in E1. exact (after_partial d open t l q1 p fs1' r1' pr1' Hord0 Hval Hq1 E1). }
    cbn [sum_out taken] in *. rewrite Z.add_0_r.
    assert (Hx1x : x1 <= x) by (unfold x1, x; lia).
    destruct (Z.eqb_spec (open t - x1) 0); [lia|].
    destruct (Z.eqb_spec (gross d q2 p) 0) as [|Hw2n]; [injection H2 as <- _ _; cbn; lia|].
    set (x2 := Z.min (gross d q2 p) (open t - x1)) in *. destruct (cost d x2 p =? 0); [discriminate|].
    destruct (plan d (fun t0 => open t0 - 0) l (q2 - cost d x2 p) p) as [[[fs2' r2'] pr2']|] eqn:E2; [|discriminate]. injection H2 as <- <- <-.
    rewrite (plan_ext _ _ open) in E2 by (intros; lia). cbn [sum_out f_out fst snd].
    pose proof (cost_le d q2 p x2 ltac:(unfold x2; lia) Hp) as Hc2.
    assert (Hx12 : x1 + x2 <= x) by (unfold x, x2; lia).
    destruct (Z.le_gt_cases (open t - x1) (gross d q2 p)).
    + assert (Ex2 : x2 = open t - x1) by (unfold x2; lia). assert (Ex : x = x1 + x2) by (unfold x in *; lia).
      pose proof (full_take_exact d q1 p Hq1 (tick_gap _ Hvt)) as Hex. cbn zeta in Hex. rewrite <- Ex1 in Hex.
      pose proof (cost_join d x1 x2 p ltac:(lia) ltac:(unfold x2; lia) Hp Hex) as Hj. rewrite <- Ex in Hj.
      enough (sum_out fs2' <= sum_out fs') by lia. eapply plan_mono; [..|exact E2|exact E]; try assumption. lia.
    + assert (Ex2 : x2 = gross d q2 p) by (unfold x2; lia). rewrite Ex2 in E2.
      pose proof (after_partial d open t l q2 p fs2' r2' pr2' Hord0 Hval Hq2 E2) as ->. cbn [sum_out]. lia.
Qed.

(** Only ticks with liquidity matter. *)
Lemma plan_nonempty d open l : forall q p0, plan d open l q p0 = plan d open (filter (fun t => open t <> 0) l) q p0.
Proof.
  induction l as [|t l IH]; intros q p0; [reflexivity|]. rewrite filter_cons. destruct (decide _) as [Hn|Hn].
  - cbn [plan]. rewrite <- !IH. reflexivity.
  - cbn [plan]. destruct (Z.eqb_spec (open t) 0); [apply IH|]. destruct Hn. assumption.
Qed.
Lemma ordered_filter d (P : Z -> Prop) `{!forall t, Decision (P t)} l : ordered d l -> ordered d (filter P l).
Proof.
  induction 1 as [|t l Hl IH Ht]; [constructor|]. rewrite filter_cons. destruct (decide _); [|assumption].
  constructor; [assumption|]. rewrite Forall_forall in Ht |- *. intros t' Hin. apply Ht. apply elem_of_list_filter in Hin as [_ Hin]. assumption.
Qed.
Lemma ordered_unique d l1 : forall l2, ordered d l1 -> ordered d l2 -> (forall t, t ∈ l1 <-> t ∈ l2) -> l1 = l2.
Proof.
  assert (Hirr : forall a, ~ better d a a) by (intros a; destruct d; cbn; lia).
  assert (Has : forall a b, better d a b -> better d b a -> False) by (intros a b; destruct d; cbn; lia).
  induction l1 as [|a l1 IH]; intros [|b l2] H1 H2 H; [reflexivity| | |].
  - specialize (proj2 (H b) ltac:(constructor)) as K. inversion K.
  - specialize (proj1 (H a) ltac:(constructor)) as K. inversion K.
  - apply StronglySorted_inv in H1 as [H1 F1]. apply StronglySorted_inv in H2 as [H2 F2]. rewrite Forall_forall in F1, F2.
    assert (a = b) as ->.
    { pose proof (proj1 (H a) ltac:(constructor)) as K1. pose proof (proj2 (H b) ltac:(constructor)) as K2.
      apply elem_of_cons in K1 as [|K1]; [assumption|]. apply elem_of_cons in K2 as [|K2]; [congruence|].
      destruct (Has a b); auto. }
    f_equal. apply IH; [assumption|assumption|]. intros t. specialize (H t). rewrite !elem_of_cons in H. split; intros K.
    + destruct (proj1 H (or_intror K)) as [->|]; [destruct (Hirr b); auto|assumption].
    + destruct (proj2 H (or_intror K)) as [->|]; [destruct (Hirr b); auto|assumption].
Qed.
Lemma plan_same d open l l' q p0 :
  ordered d l -> ordered d l' -> (forall t, open t <> 0 -> (t ∈ l <-> t ∈ l')) -> plan d open l q p0 = plan d open l' q p0.
Proof.
  intros H1 H2 H. rewrite (plan_nonempty d open l), (plan_nonempty d open l'). f_equal.
  apply (ordered_unique d); [apply ordered_filter; assumption|apply ordered_filter; assumption|].
  intros t. rewrite !elem_of_list_filter. specialize (H t). tauto.
Qed.
