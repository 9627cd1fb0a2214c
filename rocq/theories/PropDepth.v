(** * Property C56: depth beyond the marginal price does not matter. *)
From Verif Require Import Base Dec Types State TickMath Sumtree Tick Order Auth Contract Query World SpecMath TickMathProofs
  TreeDefs Exec SumtreeProofs SumtreeRebalance SumtreeInsert PrefixSum SumtreeRoot SumtreeFail Ghost Inv StepPlace StepCancel StepClaim
  SwapPlan StepSwap Trans Spec Reach Refine RefineStep Reserve Solvency Books SpecProps PropBase Tests PropOrders PropClaims PropBatch PropSwap PropQuote PropAdmin PlanCurve PropCurve
  SpecAdmin SpecBank PropBank SpecMachine MachineBase MachineSwap PropMachine.

(** ** Walks *)
Lemma worse_better side t u : better_tick side t u <-> better (opposite side) t u.
Proof. destruct side; reflexivity. Qed.
Lemma walk_none side partial open l : forall q last,
  (forall t, t ∈ l -> output_for side q (tick_price t) = 0) -> output_for side q last = 0 ->
  exists r, walk side partial open l q last = Some ([], r) /\ (r = 0 \/ r = q).
Proof.
  destruct l as [|t l]; intros q last Hl Hq; cbn [walk].
  - rewrite Hq. cbn. eauto.
  - rewrite (Hl t) by constructor. cbn. eauto.
Qed.
Lemma walk_taken side partial open l : forall q last f r, walk side partial open l q last = Some (f, r) -> forall t, t ∉ l -> taken_at f t = 0.
Proof.
  induction l as [|t l IH]; intros q last f r H u Hu; cbn [walk] in H.
  - destruct (_ || _); [|discriminate]. injection H as <- _. reflexivity.
  - destruct (_ =? 0); [injection H as <- _; reflexivity|]. destruct (_ && _); [|discriminate].
    destruct (walk _ _ _ _ _ _) as [[f' r']|] eqn:E; [|discriminate]. injection H as <- _. rewrite not_elem_of_cons in Hu. destruct Hu as [H1 H2].
    cbn [taken_at foldr fst snd]. destruct (Z.eqb_spec t u); [congruence|]. fold (taken_at f' u). rewrite (IH _ _ _ _ E u H2). reflexivity.
Qed.
Lemma walk_bounds side partial open l : forall q last f r, 0 <= q -> (forall t, t ∈ l -> valid_tick t) -> (forall t, t ∈ l -> 0 <= open t) -> NoDup l ->
  walk side partial open l q last = Some (f, r) -> forall t, 0 <= taken_at f t /\ (t ∈ l -> taken_at f t <= open t).
Proof.
  induction l as [|t l IH]; intros q last f r Hq Hv Ho Hnd H u; cbn [walk] in H.
  - destruct (_ || _); [|discriminate]. injection H as <- _. split; [reflexivity|]. intros K. inversion K.
  - destruct (_ =? 0); [injection H as <- _; cbn; split; [lia|apply Ho]|]. rewrite output_gross, input_cost in H.
    pose proof (tick_price_pos t (Hv t ltac:(constructor))) as Hp. pose proof (gross_nonneg (opposite side) q _ Hq Hp) as Hg.
    pose proof (Ho t ltac:(constructor)) as Hot. set (x := Z.min _ (open t)) in *.
    pose proof (cost_le (opposite side) q (tick_price t) x ltac:(unfold x; lia) Hp) as Hc.
    destruct (_ && _); [|discriminate].
    destruct (walk _ _ _ _ _ _) as [[f' r']|] eqn:E; [|discriminate]. injection H as <- _.
    apply NoDup_cons in Hnd as [Hni Hnd].
    assert (Hqc : 0 <= q - cost (opposite side) x (tick_price t)) by lia.
    destruct (IH _ _ _ _ Hqc (fun u Hu => Hv u ltac:(constructor; exact Hu)) (fun u Hu => Ho u ltac:(constructor; exact Hu)) Hnd E u) as [I1 I2].
    cbn [taken_at foldr fst snd]. fold (taken_at f' u). destruct (Z.eqb_spec t u) as [<-|Hn].
    + rewrite (walk_taken _ _ _ _ _ _ _ _ E t Hni). unfold x. lia.
    + rewrite Z.add_0_l. split; [exact I1|]. intros Hin. apply elem_of_cons in Hin as [->|Hin]; [contradiction|]. apply I2, Hin.
Qed.
Lemma ordered_head d t l : ordered d (t :: l) -> ordered d l /\ t ∉ l /\ forall u, u ∈ l -> better d t u.
Proof.
  intros H. apply StronglySorted_inv in H as [H1 H2]. rewrite Forall_forall in H2. split; [exact H1|]. split; [|exact H2].
  intros Hin. specialize (H2 t Hin). destruct d; cbn in H2; lia.
Qed.
(** If tick [T] keeps liquidity, the walk is the same over all books that agree up to [T]. *)
Lemma walk_reach side partial partial' open open' T : forall l l' q last last' f r,
  ordered (opposite side) l -> ordered (opposite side) l' -> (forall t, t ∈ l -> valid_tick t) -> (forall t, t ∈ l' -> valid_tick t) ->
  (forall t, t ∈ l -> 0 < open t) ->
  (forall t, ~ better_tick side T t -> (t ∈ l <-> t ∈ l') /\ open' t = open t) -> T ∈ l -> 0 <= q ->
  walk side partial open l q last = Some (f, r) -> taken_at f T < open T ->
  (exists r', walk side partial' open' l' q last' = Some (f, r') /\ output_for side r' (tick_price T) = 0) /\
  output_for side r (tick_price T) = 0 /\ (forall t, better_tick side T t -> taken_at f t = 0).
Proof.
  assert (Hz : forall p, output_for side 0 p = 0).
  { intros p. unfold output_for, ask_gross, bid_gross, floor_div. destruct side; reflexivity. }
  induction l as [|t l IH]; intros l' q last last' f r Hord Hord' Hv Hv' Ho Hag HT Hq Hw Ht; [inversion HT|].
  destruct (ordered_head _ _ _ Hord) as (Hl & Htl & Hbt). pose proof (Hv T HT) as HvT.
  assert (HtT : ~ better_tick side T t).
  { rewrite worse_better. apply elem_of_cons in HT as [->|HT]; [destruct side; cbn; lia|]. specialize (Hbt T HT). destruct side; cbn in *; lia. }
  destruct (Hag t HtT) as [Hin Eo]. pose proof (proj1 Hin ltac:(constructor)) as Hin'.
  destruct l' as [|t' l']; [inversion Hin'|]. destruct (ordered_head _ _ _ Hord') as (Hl' & Htl' & Hbt').
  assert (t' = t) as ->.
  { apply elem_of_cons in Hin' as [->|Hin']; [reflexivity|]. specialize (Hbt' t Hin').
    assert (Hn : ~ better_tick side T t') by (rewrite worse_better in *; destruct side; cbn in *; lia).
    destruct (Hag t' Hn) as [K _]. pose proof (proj2 K ltac:(constructor)) as Hx. apply elem_of_cons in Hx as [->|Hx]; [reflexivity|].
    specialize (Hbt t' Hx). destruct side; cbn in *; lia. }
  pose proof (tick_price_pos t (Hv t ltac:(constructor))) as Hp. pose proof (gross_nonneg (opposite side) q _ Hq Hp) as Hg.
  pose proof (Ho t ltac:(constructor)) as Hot. pose proof (tick_price_pos T HvT) as HpT.
  cbn [walk] in Hw |- *. rewrite Eo. rewrite !(output_gross side q), !input_cost in *.
  destruct (Z.eqb_spec (gross (opposite side) q (tick_price t)) 0) as [E0|Hn0].
  { injection Hw as <- <-. split; [exists 0; split; [reflexivity|apply Hz]|]. split; [apply Hz|reflexivity]. }
  set (x := Z.min _ (open t)) in *. pose proof (cost_le (opposite side) q (tick_price t) x ltac:(unfold x; lia) Hp) as Hc. set (c := cost _ x _) in *.
  destruct ((x <=? _) && _) eqn:Ec; [|discriminate].
  destruct (walk side partial open l (q - c) (tick_price t)) as [[f' r0]|] eqn:E; [|discriminate]. injection Hw as <- <-.
  cbn [taken_at foldr fst snd] in Ht. fold (taken_at f' T) in Ht.
  destruct (Z.eqb_spec t T) as [->|HnT].
  - rewrite (walk_taken _ _ _ _ _ _ _ _ E T Htl) in Ht. assert (Ex : x = gross (opposite side) q (tick_price T)) by (unfold x in *; lia).
    pose proof (full_take_rest (opposite side) q _ Hq (tick_gap _ HvT)) as Hr. cbn zeta in Hr. rewrite <- Ex in Hr. fold c in Hr.
    assert (Hworse : forall u, valid_tick u -> better (opposite side) T u -> output_for side (q - c) (tick_price u) = 0).
    { intros u Hvu Hu. rewrite output_gross. pose proof (tick_price_pos u Hvu) as Hpu. pose proof (better_price _ _ _ HvT Hvu Hu) as Hb.
      pose proof (gross_worse (opposite side) (q - c) _ _ ltac:(lia) Hp Hpu Hb). pose proof (gross_nonneg (opposite side) (q - c) _ ltac:(lia) Hpu). lia. }
    assert (Hr' : output_for side (q - c) (tick_price T) = 0) by (rewrite output_gross; exact Hr).
    destruct (walk_none side partial open l (q - c) (tick_price T)) as (r1 & E1 & R1).
    { intros u Hu. apply Hworse; [apply Hv; constructor; exact Hu|apply Hbt, Hu]. } { exact Hr'. }
    destruct (walk_none side partial' open' l' (q - c) (tick_price T)) as (r2 & E2 & R2).
    { intros u Hu. apply Hworse; [apply Hv'; constructor; exact Hu|apply Hbt', Hu]. } { exact Hr'. }
    rewrite E1 in E. injection E as <- <-. split; [|split].
    + exists r2. rewrite E2. split; [reflexivity|]. destruct R2 as [->| ->]; [apply Hz|exact Hr'].
    + destruct R1 as [->| ->]; [apply Hz|exact Hr'].
    + intros u Hu. cbn [taken_at foldr fst snd]. destruct (Z.eqb_spec T u); [subst; destruct side; cbn in Hu; lia|reflexivity].
  - assert (HTl : T ∈ l) by (apply elem_of_cons in HT as [?|?]; [congruence|assumption]).
    destruct (IH l' (q - c) (tick_price t) (tick_price t) f' r0 Hl Hl') as ((r' & I1 & I2) & I3 & I4);
      [intros; apply Hv; constructor; assumption|intros; apply Hv'; constructor; assumption|intros; apply Ho; constructor; assumption| |exact HTl|lia|exact E|lia|].
    + intros u Hu. destruct (Hag u Hu) as [K1 K2]. split; [|exact K2]. rewrite !elem_of_cons in K1. split; intros Hx.
      * destruct (proj1 K1 (or_intror Hx)) as [->|]; [contradiction|assumption].
      * destruct (proj2 K1 (or_intror Hx)) as [->|]; [contradiction|assumption].
    + rewrite I1. split; [exists r'; split; [reflexivity|exact I2]|]. split; [exact I3|]. intros u Hu. cbn [taken_at foldr fst snd]. fold (taken_at f' u). rewrite (I4 u Hu).
      destruct (Z.eqb_spec t u); [subst; contradiction|reflexivity].
Qed.
(** ** What a fill leaves open *)
Lemma open_on_nonneg side l t : (forall o, o ∈ l -> 0 <= re_open o) -> 0 <= open_on side l t.
Proof.
  induction l as [|o l IH]; intros H; cbn [open_on foldr]; [lia|]. fold (open_on side l t). specialize (IH ltac:(intros; apply H; constructor; assumption)).
  pose proof (H o ltac:(constructor)). destruct (bool_decide _); lia.
Qed.
Lemma open_fill side l t : forall x, (forall o, o ∈ l -> 0 <= re_open o) -> (forall u, 0 <= x u) ->
  open_on side (fill_side side x l) t = open_on side l t - Z.min (x t) (open_on side l t).
Proof.
  induction l as [|o l IH]; intros x Ho Hx; cbn [fill_side]; [cbn; specialize (Hx t); lia|].
  pose proof (Ho o ltac:(constructor)) as H0. assert (Hol : forall o', o' ∈ l -> 0 <= re_open o') by (intros; apply Ho; constructor; assumption).
  pose proof (open_on_nonneg side l t Hol) as Hn. pose proof (Hx (re_tick o)) as Hxo.
  destruct (bool_decide_reflect (re_dir o = side)) as [Ed|Ed].
  - cbn [open_on foldr set_parts re_dir re_tick re_open]. fold (open_on side l t).
    set (x' := fun t0 => if t0 =? re_tick o then _ else _). fold (open_on side (fill_side side x' l) t). rewrite (IH x' Hol).
    2:{ intros u. unfold x'. destruct (Z.eqb_spec u (re_tick o)) as [->|]; [lia|apply Hx]. }
    unfold x'. destruct (Z.eqb_spec t (re_tick o)) as [->|Hnt].
    + rewrite bool_decide_true by auto. lia.
    + rewrite bool_decide_false by (intros [_ ?]; congruence). lia.
  - cbn [open_on foldr]. fold (open_on side l t). fold (open_on side (fill_side side x l) t). rewrite (IH x Hol Hx).
    rewrite bool_decide_false by (intros [? _]; congruence). lia.
Qed.

(** ** C56 *)
Lemma m_step_swap e m sender tin out mn fee target m' o : m_step e m (swap_call sender tin out mn fee target) = (m', o) ->
  match m_swap e sender tin out mn fee target m with
  | Some (m1, r) => if forallb (fun s => (0 <? c_amount (sm_coin s)) && e_bank_ok e (sm_to s)) (r_msgs r) then m' = m1 /\ o = Done r else m' = m /\ o = Failed
  | None => m' = m /\ o = Failed
  end.
Proof.
  unfold m_step. assert (m_run e (swap_call sender tin out mn fee target) m = m_swap e sender tin out mn fee target m) as ->.
  { destruct target; cbn [swap_call m_run]; unfold m_sudo; destruct (ma_set m); reflexivity. }
  destruct (m_swap _ _ _ _ _ _ _ _) as [[m1 r]|]; [destruct (forallb _ _)|]; intros [= <- <-]; auto.
Qed.
(** The liquidity after a step of the machine. *)
Lemma swap_leaves w G Q w1 G1 Q1 side f : good w G Q -> good w1 G1 Q1 -> (forall t, 0 <= taken_at f t) ->
  abs (w_st w1) Q1 = with_orders (abs (w_st w) Q) (fill_side side (taken_at f) (lives_of Q)) ->
  forall t, tick_liquidity (w_st w1) t side = tick_liquidity (w_st w) t side - Z.min (taken_at f t) (tick_liquidity (w_st w) t side).
Proof.
  intros Hg Hg1 Hf E t. rewrite <- !(open_on_liquidity _ _ _ (gd_inv _ _ _ Hg) (gd_ref _ _ _ Hg)), <- (open_on_liquidity _ _ _ (gd_inv _ _ _ Hg1) (gd_ref _ _ _ Hg1)).
  apply (f_equal ma_orders) in E. cbn [abs ma_orders with_orders] in E. rewrite E. apply open_fill; [|exact Hf].
  intros o Ho. apply lives_in in Ho as (en & Hen & _ & ->). apply (entries_nonneg _ _ _ (gd_ref _ _ _ Hg) en Hen).
Qed.
Theorem C56_depth :
  forall e w0 h w0' h' sender tin out mn fee target target' side T w1 r,
  start w0 -> history w0 h -> short h -> start w0' -> history w0' h' -> short h' ->
  let w := run w0 h in let w' := run w0' h' in
  (* the same two tokens, and both books trade *)
  (forall d, deposit_denom (w_st w') d = deposit_denom (w_st w) d) -> active (w_st w') = true ->
  (* the same liquidity at all ticks of the side that are at least as good as [T] *)
  (forall t, ~ better_tick side T t -> tick_liquidity (w_st w') t side = tick_liquidity (w_st w) t side) ->
  out = deposit_denom (w_st w) side ->
  within_target side target T -> within_target side target' T -> (forall b, target' = Some b -> valid_tick b) ->
  let c := swap_call sender tin out mn fee target in let c' := swap_call sender tin out mn fee target' in
  call_ok (w_self w) c = true -> call_ok (w_self w') c' = true ->
  (* the swap does not use up tick [T] *)
  step e w c = (w1, Done r) -> 0 < tick_liquidity (w_st w1) T side ->
  exists w1' r', step e w' c' = (w1', Done r') /\
    r_data r' = r_data r /\ r_attrs r' = r_attrs r /\ hd_error (r_msgs r') = hd_error (r_msgs r) /\
    (forall m, m ∈ tl (r_msgs r) \/ m ∈ tl (r_msgs r') -> sm_to m = sender /\ c_denom (sm_coin m) = c_denom tin /\ buys side T (c_amount (sm_coin m)) = 0) /\
    (forall t, ~ better_tick side T t -> tick_liquidity (w_st w1') t side = tick_liquidity (w_st w1) t side) /\
    (forall t, better_tick side T t -> tick_liquidity (w_st w1') t side = tick_liquidity (w_st w') t side).
Proof.
  intros e w0 h w0' h' sender tin out mn fee target target' side T w1 r Hs Hh Hsh Hs' Hh' Hsh' w w' Hden Hact Hliq Hout Hwt Hwt' Hvt c c' Hok Hok' E HT.
  destruct (short_ready w0 h Hs Hh Hsh) as (G & Hrd). destruct (short_ready w0' h' Hs' Hh' Hsh') as (G' & Hrd'). fold w in Hrd. fold w' in Hrd'.
  set (Q := ideal_run w0 [] h) in *. set (Q' := ideal_run w0' [] h') in *.
  pose proof (rd_good _ _ _ Hrd) as Hg. pose proof (rd_good _ _ _ Hrd') as Hg'.
  pose proof (gd_inv _ _ _ Hg) as Hi. pose proof (gd_ref _ _ _ Hg) as Hr. pose proof (gd_inv _ _ _ Hg') as Hi'. pose proof (gd_ref _ _ _ Hg') as Hr'.
  pose proof (machine_step e w0 h c Hs Hh Hsh Hok) as Hm. pose proof (machine_step e w0' h' c' Hs' Hh' Hsh' Hok') as Hm'. cbv zeta in Hm, Hm'.
  fold w Q in Hm. fold w' Q' in Hm'. rewrite E in Hm. cbn [fst snd] in Hm.
  pose proof (m_step_swap _ _ _ _ _ _ _ _ _ _ Hm) as Hd. clear Hm.
  pose proof (coin_in_bounds _ _ _ _ _ _ _ Hok) as Hamt.
  assert (Hside : maker_side (abs (w_st w) Q) (c_denom tin) out = Some side).
  { unfold m_swap in Hd. destruct (maker_side (abs (w_st w) Q) (c_denom tin) out) as [side0|] eqn:Es; [|destruct Hd as [_ Hd]; discriminate]. f_equal.
    destruct (i_book _ _ Hi) as (ob & Eob & Hb). pose proof (proj1 (maker_direction _ Q _ _ _ _ Eob (bo_denoms _ _ Hb)) Es) as Hdir.
    destruct (direction_denom _ _ _ _ (bo_denoms _ _ Hb) Hdir) as [_ D2]. rewrite D2 in Hout. rewrite (den_eq _ _ _ Eob) in Hout. 
    pose proof (bo_denoms _ _ Hb). destruct side0, side; cbn in Hout; congruence. }
  assert (Hside' : maker_side (abs (w_st w') Q') (c_denom tin) out = Some side).
  { rewrite <- Hside. unfold maker_side. cbn [abs ma_quote ma_base]. rewrite !Hden. reflexivity. }
  unfold m_swap in Hd. rewrite Hside in Hd.
  destruct (se_active (ma_set (abs (w_st w) Q)) && (fee =? 0) && e_addr_valid e sender && negb (c_amount tin =? 0) &&
         match target with Some b => tick_ok b | None => true end) eqn:Ec; [|destruct Hd as [_ Hd]; discriminate].
  apply andb_prop in Ec as [Ec _]. apply andb_prop in Ec as [Ec Hq0]. apply andb_prop in Ec as [Ec Hav]. apply andb_prop in Ec as [_ Hfee].
  cbn [abs ma_orders] in Hd. fold (abs (w_st w) Q) in Hd.
  destruct (walk side (partial_allowed side target) (open_on side (lives_of Q)) (levels side target (lives_of Q)) (c_amount tin) ATOM) as [[f rest]|] eqn:Ew;
    [|destruct Hd as [_ Hd]; discriminate].
  destruct (Z.leb_spec mn (total_out f)) as [Hmn|]; [|destruct Hd as [_ Hd]; discriminate]. cbn [r_msgs] in Hd.
  match type of Hd with if forallb ?p ?l then _ else _ => destruct (forallb p l) eqn:Eb; [|destruct Hd as [_ Hd]; discriminate] end.
  destruct Hd as [Ea Hd]. injection Hd as ->. rename Ea into Hm.
  assert (Hlv : forall t, t ∈ levels side target (lives_of Q) -> valid_tick t) by (intros t; apply (level_valid _ _ _ Hr)).
  assert (Hlo : forall t, 0 <= open_on side (lives_of Q) t).
  { intros t. apply open_on_nonneg. intros o Ho. apply lives_in in Ho as (en & Hen & _ & ->). apply (entries_nonneg _ _ _ Hr en Hen). }
  pose proof (levels_ordered side target (lives_of Q)) as Hord. pose proof (levels_ordered side target' (lives_of Q')) as Hord'.
  pose proof (walk_bounds _ _ _ _ _ _ _ _ (proj1 Hamt) Hlv (fun t _ => Hlo t) (ordered_nodup _ _ Hord) Ew) as Htk.
  destruct (step_good e w G Q c Hg Hok) as (G1 & Hg1 & _). rewrite E in Hg1. cbn [fst] in Hg1.
  pose proof (swap_leaves w G Q w1 G1 _ side f Hg Hg1 (fun t => proj1 (Htk t)) Hm) as Hleft.
  assert (Hop : forall t, open_on side (lives_of Q) t = tick_liquidity (w_st w) t side) by (intros; apply (open_on_liquidity _ _ _ Hi Hr)).
  assert (Hop' : forall t, open_on side (lives_of Q') t = tick_liquidity (w_st w') t side) by (intros; apply (open_on_liquidity _ _ _ Hi' Hr')).
  pose proof (Hleft T) as HlT. rewrite <- Hop in HlT. pose proof (Hlo T) as HoT. destruct (Htk T) as [HtT _].
  assert (HTl : T ∈ levels side target (lives_of Q)).
  { apply (levels_liquidity _ _ _ Hi Hr). split; [rewrite <- Hop; lia|exact Hwt]. }
  assert (Hbetter : forall b t, within_target side b T -> ~ better_tick side T t -> within_target side b t).
  { intros b t Hb Ht. unfold within_target in *. destruct b; [|exact I]. destruct side; cbn in *; lia. }
  destruct (walk_reach side (partial_allowed side target) (partial_allowed side target') (open_on side (lives_of Q)) (open_on side (lives_of Q')) T
     (levels side target (lives_of Q)) (levels side target' (lives_of Q')) (c_amount tin) ATOM ATOM f rest Hord Hord' Hlv) as ((rest' & Ew' & Hrest') & Hrest & Hworse).
  { intros t. apply (level_valid _ _ _ Hr'). }
  { intros t Ht. apply (levels_liquidity _ _ _ Hi Hr) in Ht as [Ht _]. specialize (Hlo t). rewrite Hop in *. lia. }
  { intros t Ht. rewrite (levels_liquidity _ _ _ Hi Hr), (levels_liquidity _ _ _ Hi' Hr'), Hop, Hop', (Hliq t Ht).
    pose proof (Hbetter target t Hwt Ht). pose proof (Hbetter target' t Hwt' Ht). tauto. }
  { exact HTl. } { lia. } { exact Ew. } { lia. }
  destruct (step e w' c') as [w1' o'] eqn:E'. cbn [fst snd] in Hm'.
  pose proof (m_step_swap _ _ _ _ _ _ _ _ _ _ Hm') as Hd'. clear Hm'.
  unfold m_swap in Hd'. rewrite Hside' in Hd'. 
  assert (Ec' : se_active (ma_set (abs (w_st w') Q')) && (fee =? 0) && e_addr_valid e sender && negb (c_amount tin =? 0) &&
         match target' with Some b => tick_ok b | None => true end = true).
  { rewrite abs_active, Hact, Hfee, Hav, Hq0. cbn [andb]. destruct target' as [b|]; [|reflexivity]. destruct (Hvt b eq_refl). apply bools; apply Z.leb_le; assumption. }
  rewrite Ec' in Hd'. cbn [abs ma_orders] in Hd'. fold (abs (w_st w') Q') in Hd'. rewrite Ew', (proj2 (Z.leb_le _ _) Hmn) in Hd'. cbn [r_msgs] in Hd'.
  assert (Hr0 : 0 <= rest').
  { clear -Ew' Hamt Hr'. pose proof (fun t => level_valid _ _ _ Hr' side target' t) as Hv. pose proof (fun t => entries_nonneg _ _ _ Hr' t) as He.
    assert (Ho : forall t, 0 <= open_on side (lives_of Q') t).
    { intros t. apply open_on_nonneg. intros o Ho. apply lives_in in Ho as (en & Hen & _ & ->). apply (He en Hen). }
    revert Hv Ew'. destruct Hamt as [Hq _]. revert Hq. generalize (levels side target' (lives_of Q')). generalize (c_amount tin). generalize ATOM.
    revert f. intros f z z0 l. revert f z z0. induction l as [|t l IH]; intros f last q Hq Hv H; cbn [walk] in H.
    - destruct (_ || _); [|discriminate]. injection H as _ <-. exact Hq.
    - destruct (_ =? 0); [injection H as _ <-; lia|]. rewrite output_gross, input_cost in H.
      pose proof (tick_price_pos t (Hv t ltac:(constructor))) as Hp. pose proof (gross_nonneg (opposite side) q _ Hq Hp) as Hg.
      specialize (Ho t) as Hot. set (x := Z.min _ (open_on _ _ _)) in *.
      pose proof (cost_le (opposite side) q (tick_price t) x ltac:(unfold x; lia) Hp) as Hc.
      destruct (_ && _); [|discriminate]. destruct (walk _ _ _ _ _ _) as [[f' r']|] eqn:E; [|discriminate]. injection H as _ <-.
      eapply IH; [|intros u Hu; apply Hv; constructor; exact Hu|exact E]. lia. }
  assert (Eb' : forallb (fun s => (0 <? c_amount (sm_coin s)) && e_bank_ok e (sm_to s)) (mkSend 5 sender (mkCoin out (total_out f)) :: payment 1 sender (c_denom tin) rest') = true).
  { cbn [forallb] in Eb |- *. apply andb_prop in Eb as [Eb1 _]. apply bools; [exact Eb1|]. unfold payment. destruct (Z.eqb_spec rest' 0); [reflexivity|].
    cbn [forallb sm_coin sm_to c_amount]. rewrite andb_true_r. apply andb_prop in Eb1 as [_ Eb1]. apply bools; [apply Z.ltb_lt; lia|exact Eb1]. }
  rewrite Eb' in Hd'. destruct Hd' as [Hm' ->].
  assert (Htk' : forall t, 0 <= taken_at f t) by (intros t; apply Htk).
  destruct (step_good e w' G' Q' c' Hg' Hok') as (G1' & Hg1' & _). rewrite E' in Hg1'. cbn [fst] in Hg1'.
  pose proof (swap_leaves w' G' Q' w1' G1' _ side f Hg' Hg1' Htk' Hm') as Hleft'.
  exists w1'. eexists. split; [reflexivity|]. cbn [r_data r_attrs r_msgs hd_error tl]. split; [reflexivity|]. split; [reflexivity|]. split; [reflexivity|].
  split; [|split].
  - assert (Hpay : forall m x, output_for side x (tick_price T) = 0 -> m ∈ payment 1 sender (c_denom tin) x ->
      sm_to m = sender /\ c_denom (sm_coin m) = c_denom tin /\ buys side T (c_amount (sm_coin m)) = 0).
    { intros m x Hx Hin. unfold payment in Hin. destruct (x =? 0); [inversion Hin|]. apply elem_of_list_singleton in Hin as ->. cbn. split; [reflexivity|]. split; [reflexivity|].
      exact Hx. }
    intros m [Hin|Hin]; eapply Hpay; [exact Hrest|exact Hin|exact Hrest'|exact Hin].
  - intros t Ht. rewrite Hleft, Hleft', (Hliq t Ht). reflexivity.
  - intros t Ht. rewrite Hleft', (Hworse t Ht). specialize (Hop' t). rewrite <- Hop'. 
    assert (0 <= open_on side (lives_of Q') t); [|lia]. apply open_on_nonneg. intros o Ho. apply lives_in in Ho as (en & Hen & _ & ->). apply (entries_nonneg _ _ _ Hr' en Hen).
Qed.
Print Assumptions C56_depth.

(** 12 units at price 2 offered by one order, nothing else - or by two orders, with more offers behind and bids in front: 5 input units
    buy 2 in both books; the left-over input unit is handed back in the first and kept in the second. *)
Definition hist_thin := [place "a" 1000000 Ask 12 None].
Definition hist_deep := [place "b" 1000000 Ask 5 None; place "z" (-100000) Bid 77 None; place "c" 2000000 Ask 40 None; place "d" 1000000 Ask 7 None].
Lemma thin_deep t : t <= 1000000 -> tick_liquidity (w_st (run w_start hist_deep)) t Ask = tick_liquidity (w_st (run w_start hist_thin)) t Ask.
Proof.
  intros Ht. destruct (C08_fifo_state w_start hist_deep start_ok ltac:(hist)) as (_ & _ & _ & _ & L1). destruct (C08_fifo_state w_start hist_thin start_ok ltac:(hist)) as (_ & _ & _ & _ & L2).
  rewrite L1, L2. clear L1 L2.
  assert (E : forall Q (l : list (Z * dir * Z)), map (fun e => (en_tick e, en_dir e, en_open e)) Q = l ->
    open_at Q t Ask = foldr (fun x acc => (if bool_decide (x.1.1 = t /\ x.1.2 = Ask) then x.2 else 0) + acc) 0 l).
  { intros Q l <-. unfold open_at, ideal_sum. induction Q as [|x Q IH]; [reflexivity|]. cbn [map foldr fst snd]. rewrite IH. reflexivity. }
  rewrite (E _ [(1000000, Ask, 5); (-100000, Bid, 77); (2000000, Ask, 40); (1000000, Ask, 7)]), (E (ideal_run w_start [] hist_thin) [(1000000, Ask, 12)]); [|vm_compute; reflexivity|vm_compute; reflexivity].
  cbn [foldr fst snd]. repeat case_bool_decide; try lia; exfalso; intuition (congruence || lia).
Qed.
Example C56_case :
  start w_start /\ history w_start hist_thin /\ short hist_thin /\ history w_start hist_deep /\ short hist_deep /\
  let w := run w_start hist_thin in let w' := run w_start hist_deep in
  (forall d, deposit_denom (w_st w') d = deposit_denom (w_st w) d) /\ active (w_st w') = true /\
  (forall t, ~ better_tick Ask 1000000 t -> tick_liquidity (w_st w') t Ask = tick_liquidity (w_st w) t Ask) /\
  call_ok (w_self w) (buy_call 5 0 None) = true /\ call_ok (w_self w') (buy_call 5 0 (Some 3000000)) = true /\
  done tenv w (buy_call 5 0 None) = true /\ tick_liquidity (w_st (fst (step tenv w (buy_call 5 0 None)))) 1000000 Ask = 10 /\
  map (fun m => c_amount (sm_coin m)) (r_msgs (resp_of tenv w (buy_call 5 0 None))) = [2; 1] /\
  map (fun m => c_amount (sm_coin m)) (r_msgs (resp_of tenv w' (buy_call 5 0 (Some 3000000)))) = [2].
Proof.
  split; [apply start_ok|]. split; [hist|]. split; [vm_compute; discriminate|]. split; [hist|]. split; [vm_compute; discriminate|]. cbv zeta.
  split; [intros []; vm_compute; reflexivity|]. split; [vm_compute; reflexivity|].
  split; [intros t Ht; apply thin_deep; cbn in Ht; lia|]. repeat (split; [vm_compute; reflexivity|]). vm_compute; reflexivity.
Qed.
