(** * MachineSwap: the swaps of the machine. *)
From Verif Require Import Base Dec Types State TickMath Sumtree Tick Order Auth Contract Query World SpecMath TickMathProofs
  TreeDefs Exec SumtreeProofs SumtreeRebalance SumtreeInsert PrefixSum SumtreeRoot SumtreeFail Ghost Inv StepPlace StepCancel StepClaim
  SwapPlan StepSwap Trans Spec Reach Refine RefineStep Reserve Solvency Books SpecProps PropBase Tests PropOrders PropClaims PropBatch PropSwap PropQuote PropAdmin PlanCurve PropCurve
  SpecAdmin SpecMachine MachineBase.

(** ** The loop, exactly *)
Definition fits128 (fs : list (Z * Z * Z)) : Prop := Forall (fun f => f_out f <= U128_MAX) fs.
Lemma market_loop_exact d (ticks : gmap Z tick_state) G l : forall m,
  (forall t, t ∈ l -> ticks !! t = Some (ts_of G t) /\ valid_tick t) -> (forall t, side_ok (G t (opposite d))) ->
  0 <= m_qty m <= U128_MAX ->
  (forall m', market_loop d ticks l m = Ok m' -> exists fs r pr, plan d (opens G (opposite d)) l (m_qty m) (m_price m) = Some (fs, r, pr) /\
      m' = mkt_after G (opposite d) m fs r pr /\ fits128 fs) /\
  (forall fs r pr, plan d (opens G (opposite d)) l (m_qty m) (m_price m) = Some (fs, r, pr) -> fits128 fs ->
      m_out m + lsumf (opens G (opposite d)) l <= U256_MAX -> exists m', market_loop d ticks l m = Ok m').
Proof.
  induction l as [|t l IH]; intros m Hl Hs Hq.
  { cbn [market_loop plan]. split; [|eauto]. intros m' [= <-]. exists [], (m_qty m), (m_price m). split; [reflexivity|]. split; [|constructor].
    unfold mkt_after. cbn [sum_out map book_after foldl]. rewrite Z.add_0_r, app_nil_r. destruct m; reflexivity. }
  destruct (Hl t ltac:(constructor)) as [Ht Hv].
  assert (Hl' : forall t', t' ∈ l -> ticks !! t' = Some (ts_of G t') /\ valid_tick t') by (intros; apply Hl; constructor; assumption).
  pose proof (market_tick_spec d ticks G t m Ht Hv (Hs t) Hq) as E. cbn zeta in E.
  cbn [market_loop plan lsumf]. rewrite E. clear E.
  assert (Ho : forall t', 0 <= opens G (opposite d) t') by (intros; apply g_open_nonneg, Hs).
  assert (Hls : 0 <= lsumf (opens G (opposite d)) l) by (clear -Ho; induction l as [|a l IHl]; cbn; [lia|]; specialize (Ho a); lia).
  set (o := opens G (opposite d) t). specialize (Ho t) as Hot. fold o in Hot.
  destruct (Z.eqb_spec o 0) as [Eo|Hne].
  { cbn [rbind fst snd]. rewrite Eo. apply (IH m Hl' Hs Hq). }
  set (p := tick_price t). set (w := gross d (m_qty m) p).
  destruct (Z.eqb_spec w 0) as [Ew|Hwn].
  { cbn [rbind fst snd]. split; [|eauto]. intros m' [= <-]. exists [], 0, p. split; [reflexivity|]. split; [|constructor]. unfold mkt_after. cbn [sum_out map book_after foldl].
    rewrite Z.add_0_r, app_nil_r. reflexivity. }
  set (x := Z.min w o). set (c := cost d x p). assert (Hxo : x <= o) by (unfold x; lia).
  destruct (Z.ltb_spec U128_MAX x) as [Hx|Hx].
  { cbn [rbind]. split; [discriminate|]. intros fs r pr Hp Hf _. exfalso. destruct (c =? 0); [discriminate|].
    destruct (plan _ _ _ _ _) as [[[fs' r'] pr']|]; [|discriminate]. injection Hp as <- <- <-. apply Forall_cons in Hf as [Hf _]. cbn in Hf. lia. }
  destruct (Z.eqb_spec c 0) as [Ec|Hc]; [cbn [rbind]; split; discriminate|].
  destruct (Z.ltb_spec U256_MAX (m_out m + x)) as [Hm|Hm]; [cbn [rbind]; split; [discriminate|]; intros; lia|].
  cbn [rbind fst snd]. pose proof (tick_price_pos t Hv) as Hp. fold p in Hp.
  pose proof (gross_nonneg d (m_qty m) p ltac:(lia) Hp) as Hw0. fold w in Hw0.
  assert (Hx0 : 0 < x <= w) by (unfold x; lia).
  pose proof (cost_le d (m_qty m) p x ltac:(fold w; lia) Hp) as Hcq. fold c in Hcq.
  pose proof (cost_nonneg d x p ltac:(lia) Hp) as Hc0. fold c in Hc0.
  set (m1 := mkMkt _ _ _ _ _). destruct (IH m1 Hl' Hs ltac:(cbn; lia)) as [IH1 IH2]. cbn [m1 m_qty m_price m_out] in IH1, IH2.
  split.
  - intros m' E. destruct (IH1 m' E) as (fs & r & pr & -> & -> & Hf). exists ((t, x, c) :: fs), r, pr. split; [reflexivity|].
    split; [|constructor; [exact Hx|exact Hf]].
    unfold mkt_after, m1. cbn [m_book m_out m_upd sum_out map book_after foldl f_out f_tick fst snd].
    rewrite <- Z.add_assoc, <- app_assoc. reflexivity.
  - intros fs r pr E Hf Hmx. destruct (plan _ _ l (m_qty m - c) p) as [[[fs' r'] pr']|] eqn:Ep; [|discriminate]. injection E as <- <- <-.
    apply Forall_cons in Hf as [_ Hf]. eapply IH2; [reflexivity|exact Hf|lia].
Qed.
Lemma internal_fits s G ob q d bound l fs r pr m dn :
  inv s G -> s_orderbook s = Some ob -> 0 <= q <= U128_MAX -> swap_pre s G ob d bound q l fs r pr ->
  run_market_order_internal s q d bound = Ok (m, dn) -> fits128 fs.
Proof.
  intros Hi Eob Hq [P1 P2 P3 P4 P5] H. unfold run_market_order_internal in H.
  apply rbind_inv in H as (u & _ & H). unfold load_orderbook in H. rewrite Eob in H. cbn [ok_or rbind] in H.
  apply rbind_inv in H as (u' & _ & H). rewrite P3 in H. cbn [rbind] in H. apply rbind_inv in H as (m1 & H1 & _).
  destruct (plan_ctx _ _ _ _ _ _ Hi P3) as (C1 & C2 & C3 & _).
  destruct (market_loop_exact d (s_ticks s) G l (mkMkt q ob 0 [] DEC) C2 (fun t => i_side _ _ Hi t _) Hq) as [HL _].
  destruct (HL _ H1) as (fs' & r' & pr' & E & _ & Hf). cbn [m_qty m_price] in E. rewrite P4 in E. injection E as <- <- <-. exact Hf.
Qed.
Lemma internal_ok128 s G ob q d bound l fs r pr :
  inv s G -> s_orderbook s = Some ob -> 0 <= q <= U128_MAX -> get_directional_liquidity s (opposite d) <= U256_MAX -> fits128 fs ->
  swap_pre s G ob d bound q l fs r pr ->
  run_market_order_internal s q d bound = Ok (mkt_after G (opposite d) (mkMkt q ob 0 [] DEC) fs r pr, get_opposite_denom ob d).
Proof.
  intros Hi Eob Hq Hliq Hfit [P1 P2 P3 P4 P5]. unfold run_market_order_internal.
  destruct (Z.eqb_spec q 0); [contradiction|]. cbn [negb rensure rbind]. unfold load_orderbook. rewrite Eob. cbn [ok_or rbind].
  rewrite (proj2 (bound_b bound) P2). cbn [rensure rbind]. rewrite P3. cbn [rbind].
  destruct (plan_ctx _ _ _ _ _ _ Hi P3) as (C1 & C2 & C3 & _).
  destruct (market_loop_exact d (s_ticks s) G l (mkMkt q ob 0 [] DEC) C2 (fun t => i_side _ _ Hi t _) Hq) as [HL1 HL2].
  cbn [m_qty m_price m_out] in HL1, HL2.
  assert (Hlm : lsumf (opens G (opposite d)) l <= msum (fun t _ => opens G (opposite d) t) (s_ticks s)).
  { apply lsumf_msum; [assumption|eapply ordered_nodup; eauto|]. intros t Ht. apply C2 in Ht as [E _]. eauto. }
  pose proof (liq_opens _ _ (opposite d) Hi) as Ho. pose proof DEC_pos.
  assert (0 <= lsumf (opens G (opposite d)) l) by (clear -C3; induction l as [|a l IHl]; cbn; [lia|]; specialize (C3 a); lia).
  destruct (HL2 fs r pr P4 Hfit ltac:(nia)) as (m' & E). rewrite E. destruct (HL1 _ E) as (fs' & r' & pr' & E' & -> & _).
  rewrite P4 in E'. injection E' as <- <- <-. cbn [rbind mkt_after m_qty m_price].
  destruct (plan_good_inv _ _ _ _ _ _ _ _ _ _ Hi (proj1 Hq) P3 P4) as [Hg (t & Hv & Ep)].
  pose proof (plan_rest_le _ _ _ _ _ _ _ _ Hg). rewrite Ep. destruct (gross_spec d r t Hv ltac:(lia)) as (E1 & _). rewrite E1. cbn [rbind].
  rewrite Ep in P5. fold (partial_ok d bound).
  assert (Hb : (gross d r (tick_price t) =? 0) || partial_ok d bound = true) by (apply orb_true_iff; rewrite Z.eqb_eq; exact P5).
  rewrite Hb. reflexivity.
Qed.

(** ** Levels *)
Lemma add_level_in side t l u : u ∈ add_level side t l <-> u = t \/ u ∈ l.
Proof.
  induction l as [|v l IH]; cbn [add_level]; [rewrite elem_of_list_singleton, elem_of_nil; tauto|].
  destruct (Z.eqb_spec t v) as [->|Hn]; [rewrite !elem_of_cons; tauto|].
  destruct (better_for_taker side t v); rewrite !elem_of_cons, ?IH; tauto.
Qed.
Lemma add_level_ordered side t l : ordered (opposite side) l -> ordered (opposite side) (add_level side t l).
Proof.
  unfold ordered. induction l as [|v l IH]; intros H; cbn [add_level]; [constructor; constructor|].
  apply StronglySorted_inv in H as [H1 H2]. destruct (Z.eqb_spec t v) as [->|Hn]; [constructor; assumption|].
  destruct (better_for_taker side t v) eqn:E.
  - constructor; [constructor; assumption|]. constructor; [|].
    + destruct side; cbn in *; apply Z.ltb_lt in E; lia.
    + rewrite Forall_forall in *. intros u Hu. specialize (H2 u Hu). destruct side; cbn in *; apply Z.ltb_lt in E; lia.
  - constructor; [apply IH, H1|]. rewrite Forall_forall in *. intros u Hu. apply add_level_in in Hu as [->|Hu]; [|apply H2, Hu].
    destruct side; cbn in *; apply Z.ltb_ge in E; lia.
Qed.
Lemma levels_ordered side target l : ordered (opposite side) (levels side target l).
Proof.
  induction l as [|o l IH]; cbn [levels foldr]; [constructor|]. fold (levels side target l). destruct (reachable_level side target o); [apply add_level_ordered|]; exact IH.
Qed.
Lemma levels_in side target l t : t ∈ levels side target l <-> exists o, o ∈ l /\ reachable_level side target o = true /\ re_tick o = t.
Proof.
  induction l as [|o l IH]; cbn [levels foldr].
  - rewrite elem_of_nil. split; [tauto|]. intros (o & H & _). apply elem_of_nil in H. exact H.
  - fold (levels side target l). destruct (reachable_level side target o) eqn:E.
    + rewrite add_level_in, IH. split.
      * intros [->|(o' & H1 & H2)]; [exists o|exists o']; (split; [constructor; assumption|auto]).
      * intros (o' & H1 & H2 & H3). apply elem_of_cons in H1 as [->|H1]; [left; congruence|right; eauto].
    + rewrite IH. split; intros (o' & H1 & H2 & H3); exists o'; (split; [|auto]); [constructor; assumption|].
      apply elem_of_cons in H1 as [->|H1]; [congruence|assumption].
Qed.
Lemma open_on_lives Q side t : (forall e, e ∈ Q -> 0 <= en_open e /\ 0 <= en_filled e) -> open_on side (lives_of Q) t = open_at Q t side.
Proof.
  induction Q as [|e Q IH]; intros H; [reflexivity|]. rewrite lives_of_cons. unfold open_at in *. cbn [ideal_sum foldr]. fold (ideal_sum (fun e => if bool_decide (en_tick e = t /\ en_dir e = side) then en_open e else 0) Q).
  rewrite <- IH by (intros; apply H; constructor; assumption). destruct (H e ltac:(constructor)) as [H1 H2].
  destruct (en_live e) eqn:E.
  - cbn [app open_on foldr]. fold (open_on side (lives_of Q) t). cbn [strip re_dir re_tick re_open].
    f_equal. destruct (bool_decide_reflect (en_dir e = side /\ en_tick e = t)), (bool_decide_reflect (en_tick e = t /\ en_dir e = side)); tauto.
  - unfold en_live in E. apply Z.ltb_ge in E. cbn [app]. destruct (bool_decide _); lia.
Qed.

(** ** The walk is the plan *)
Lemma output_gross side q p : output_for side q p = gross (opposite side) q p.
Proof. destruct side; reflexivity. Qed.
Lemma input_cost side x p : input_for side x p = cost (opposite side) x p.
Proof. destruct side; reflexivity. Qed.
Definition drop_in (f : Z * Z * Z) : Z * Z := (f_tick f, f_out f).
Lemma total_out_map fs : total_out (map drop_in fs) = sum_out fs.
Proof. induction fs as [|f fs IH]; cbn; [reflexivity|]. unfold total_out in IH. rewrite IH. reflexivity. Qed.
Lemma taken_at_map fs t : taken_at (map drop_in fs) t = taken fs t.
Proof. induction fs as [|f fs IH]; cbn; [reflexivity|]. unfold taken_at in IH. rewrite IH. reflexivity. Qed.
Lemma walk_plan side partial open l : forall q p0, (forall t, t ∈ l -> open t <> 0) ->
  (forall fs r pr, plan (opposite side) open l q p0 = Some (fs, r, pr) -> fits128 fs -> gross (opposite side) r pr = 0 \/ partial = true ->
     walk side partial open l q p0 = Some (map drop_in fs, r)) /\
  (forall f r, walk side partial open l q p0 = Some (f, r) -> exists fs pr, plan (opposite side) open l q p0 = Some (fs, r, pr) /\ fits128 fs /\
     (gross (opposite side) r pr = 0 \/ partial = true) /\ f = map drop_in fs).
Proof.
  induction l as [|t l IH]; intros q p0 Ho; cbn [plan walk].
  - rewrite output_gross. split.
    + intros fs r pr [= <- <- <-] _ H. assert ((gross (opposite side) q p0 =? 0) || partial = true) as -> by (apply orb_true_iff; rewrite Z.eqb_eq; exact H). reflexivity.
    + intros f r. destruct ((gross (opposite side) q p0 =? 0) || partial) eqn:E; [|discriminate]. intros [= <- <-]. exists [], p0.
      apply orb_true_iff in E. rewrite Z.eqb_eq in E. repeat split; [constructor|exact E].
  - destruct (Z.eqb_spec (open t) 0) as [E|_]; [exfalso; eapply Ho; [constructor|exact E]|].
    rewrite output_gross, input_cost. set (p := tick_price t). set (w := gross (opposite side) q p). destruct (w =? 0).
    + split; [intros fs r pr [= <- <- <-] _ _; reflexivity|]. intros f r [= <- <-]. exists [], p. repeat split; [constructor|]. left.
      unfold gross, ask_gross, bid_gross. destruct side; reflexivity.
    + set (x := Z.min w (open t)). set (c := cost (opposite side) x p). destruct (IH (q - c) p (fun t' Ht => Ho t' ltac:(constructor; exact Ht))) as [I1 I2].
      change (2 ^ 128 - 1) with U128_MAX. destruct (c =? 0); cbn [negb andb].
      * rewrite andb_false_r. split; intros; discriminate.
      * rewrite andb_true_r. split.
        -- intros fs r pr E Hf Hl. destruct (plan (opposite side) open l (q - c) p) as [[[fs' r'] pr']|]; [|discriminate]. injection E as <- <- <-.
           apply Forall_cons in Hf as [Hx Hf]. cbn in Hx. rewrite (proj2 (Z.leb_le _ _) Hx), (I1 _ _ _ eq_refl Hf Hl). reflexivity.
        -- intros f r E. destruct (Z.leb_spec x U128_MAX) as [Hx|]; [|discriminate]. destruct (walk side partial open l (q - c) p) as [[f' r']|]; [|discriminate].
           injection E as <- <-. destruct (I2 _ _ eq_refl) as (fs & pr & -> & Hf & Hl & ->). exists ((t, x, c) :: fs), pr. repeat split; [constructor; assumption|exact Hl].
Qed.

(** ** Fills *)
Lemma fill_lives side : forall Q x X, (forall e, e ∈ Q -> 0 <= en_open e /\ 0 <= en_filled e) -> (forall t, 0 <= x t) ->
  (forall t d, X t d = if decide (d = side) then x t else 0) -> fill_side side x (lives_of Q) = lives_of (ideal_fill X Q).
Proof.
  induction Q as [|e Q IH]; intros x X He Hx HX; [reflexivity|]. cbn [ideal_fill]. rewrite !lives_of_cons.
  destruct (He e ltac:(constructor)) as [H1 H2]. pose proof (Hx (en_tick e)) as Hxe.
  set (a := Z.min (X (en_tick e) (en_dir e)) (en_open e)).
  assert (Ha : 0 <= a <= en_open e) by (unfold a; rewrite HX; destruct (decide _); lia).
  assert (El : en_live (en_set e (en_open e - a) (en_filled e + a) (en_settled e) (en_refunded e)) = en_live e) by (unfold en_live; cbn; f_equal; lia).
  rewrite El. specialize (fun x X => IH x X (fun e' H => He e' ltac:(constructor; exact H))).
  assert (IHe : forall x', (forall t, x' t = if decide (en_dir e = side) then (if t =? en_tick e then x t - a else x t) else x t) -> (forall t, 0 <= x' t) ->
     fill_side side x' (lives_of Q) = lives_of (ideal_fill (fun t d => if bool_decide (t = en_tick e /\ d = en_dir e) then X t d - a else X t d) Q)).
  { intros x' Ex Hp. apply IH; [exact Hp|]. intros t d. rewrite Ex, !HX. destruct (bool_decide_reflect (t = en_tick e /\ d = en_dir e)) as [[-> ->]|Hn].
    - rewrite Z.eqb_refl. destruct (decide (en_dir e = side)); [reflexivity|]. unfold a. rewrite HX, decide_False by assumption. lia.
    - destruct (decide (d = side)) as [->|]; [|reflexivity]. destruct (decide (en_dir e = side)) as [<-|]; [|reflexivity].
      destruct (Z.eqb_spec t (en_tick e)) as [->|]; [tauto|reflexivity]. }
  destruct (en_live e) eqn:El2.
  - cbn [app fill_side strip re_dir re_tick re_open re_filled]. destruct (bool_decide_reflect (en_dir e = side)) as [Hd|Hd].
    + assert (Ea : Z.min (x (en_tick e)) (en_open e) = a) by (unfold a; rewrite HX, decide_True by assumption; reflexivity).
      rewrite Ea. f_equal. apply IHe; [intros t; rewrite decide_True by assumption; reflexivity|].
      intros t. destruct (Z.eqb_spec t (en_tick e)) as [->|]; [lia|apply Hx].
    + assert (Ea : a = 0) by (unfold a; rewrite HX, decide_False by assumption; lia). f_equal.
      * unfold strip. cbn. rewrite Ea, Z.sub_0_r, Z.add_0_r. reflexivity.
      * apply IHe; [intros t; rewrite decide_False by assumption; reflexivity|exact Hx].
  - cbn [app]. unfold en_live in El2. apply Z.ltb_ge in El2. assert (Ea : a = 0) by lia. apply IHe; [|exact Hx].
    intros t. rewrite Ea, Z.sub_0_r. destruct (decide _), (t =? en_tick e); reflexivity.
Qed.
