(** * Property C55: time priority. *)
From Verif Require Import Base Dec Types State TickMath Sumtree Tick Order Auth Contract Query World SpecMath TickMathProofs
  TreeDefs Exec SumtreeProofs SumtreeRebalance SumtreeInsert PrefixSum SumtreeRoot SumtreeFail Ghost Inv StepPlace StepCancel StepClaim
  SwapPlan StepSwap Trans Spec Reach Refine RefineStep Reserve Solvency Books SpecProps PropBase Tests PropOrders PropClaims PropBooks PropHistory PropSwap PropFree.

Definition waits (a b : entry) : Prop :=
  en_tick a = en_tick b -> en_dir a = en_dir b -> 0 < en_filled b + en_settled b -> en_open a = 0.
Definition prior (Q : ideal) : Prop := StronglySorted waits Q.

Lemma prior_map f Q : prior Q ->
  (forall e, en_tick (f e) = en_tick e /\ en_dir (f e) = en_dir e /\ en_filled (f e) + en_settled (f e) = en_filled e + en_settled e /\ (en_open e = 0 -> en_open (f e) = 0)) ->
  prior (map f Q).
Proof.
  intros H Hf. induction H as [|a Q H IH Ha]; cbn [map]; [constructor|]. constructor; [exact IH|]. rewrite Forall_forall in *. intros x Hx.
  apply elem_of_list_fmap in Hx as (b & -> & Hb). specialize (Ha b Hb). destruct (Hf a) as (A1 & A2 & A3 & A4), (Hf b) as (B1 & B2 & B3 & B4).
  intros E1 E2 E3. apply A4, Ha; congruence || lia.
Qed.
Lemma prior_cancel t id Q : prior Q -> prior (ideal_cancel t id Q).
Proof. intros H. apply prior_map; [exact H|]. intros e. destruct (en_is t id e); cbn; auto. Qed.
Lemma prior_claim t id Q : prior Q -> prior (ideal_claim t id Q).
Proof. intros H. apply prior_map; [exact H|]. intros e. destruct (en_is t id e); cbn; repeat split; auto; lia. Qed.
Lemma prior_claims l : forall Q, prior Q -> prior (foldl (fun Q ev => ideal_claim (ce_tick ev) (ce_id ev) Q) Q l).
Proof. induction l as [|ev l IH]; intros Q H; cbn [foldl]; [exact H|]. apply IH, prior_claim, H. Qed.
Lemma prior_place t d id owner b time q Q : prior Q -> prior (ideal_place t d id owner b time q Q).
Proof.
  unfold ideal_place. induction 1 as [|a Q H IH Ha]; cbn [app]; [repeat constructor|]. constructor; [exact IH|]. rewrite Forall_forall in *. intros x Hx.
  apply elem_of_app in Hx as [Hx|Hx]; [auto|]. apply elem_of_list_singleton in Hx as ->. intros _ _. cbn. lia.
Qed.
Lemma fill_step Q : forall x, (forall e, e ∈ Q -> 0 <= en_open e) -> forall b, b ∈ ideal_fill x Q -> exists b0, b0 ∈ Q /\ en_tick b0 = en_tick b /\ en_dir b0 = en_dir b /\
  (x (en_tick b) (en_dir b) = 0 -> b = b0).
Proof.
  induction Q as [|a Q IH]; intros x Ho b Hb; [inversion Hb|]. cbn [ideal_fill] in Hb. apply elem_of_cons in Hb as [->|Hb].
  - exists a. split; [constructor|]. cbn. split; [reflexivity|]. split; [reflexivity|]. intros ->. pose proof (Ho a ltac:(constructor)). rewrite Z.min_l by lia.
    unfold en_set. destruct a; cbn. f_equal; lia.
  - apply IH in Hb as (b0 & H0 & E1 & E2 & E3); [|intros; apply Ho; constructor; assumption]. exists b0. split; [constructor; assumption|]. split; [exact E1|]. split; [exact E2|].
    intros Hx. apply E3. destruct (bool_decide_reflect (en_tick b = en_tick a /\ en_dir b = en_dir a)) as [[K1 K2]|K]; [|exact Hx].
    rewrite <- K1, <- K2, Hx. pose proof (Ho a ltac:(constructor)). lia.
Qed.
Lemma prior_fill Q : forall x, prior Q -> (forall t d, 0 <= x t d) -> (forall e, e ∈ Q -> 0 <= en_open e) -> prior (ideal_fill x Q).
Proof.
  induction Q as [|a Q IH]; intros x H Hx Ho; cbn [ideal_fill]; [constructor|]. apply StronglySorted_inv in H as [H Ha].
  pose proof (Ho a ltac:(constructor)) as Hoa. pose proof (Hx (en_tick a) (en_dir a)) as Hxa.
  assert (Ho' : forall e, e ∈ Q -> 0 <= en_open e) by (intros; apply Ho; constructor; assumption).
  constructor.
  - apply IH; [exact H| |exact Ho']. intros t d. destruct (bool_decide_reflect (t = en_tick a /\ d = en_dir a)) as [[-> ->]|_]; [lia|apply Hx].
  - rewrite Forall_forall in *. intros b Hb E1 E2 E3. cbn [en_set en_tick en_dir en_open] in *.
    destruct (fill_step Q _ Ho' b Hb) as (b0 & H0 & F1 & F2 & F3). cbv beta in F3. rewrite bool_decide_true in F3 by (split; congruence). rewrite <- E1, <- E2 in F3.
    destruct (Z.eq_dec (en_open a - Z.min (x (en_tick a) (en_dir a)) (en_open a)) 0) as [Hz|Hz]; [exact Hz|].
    rewrite F3 in E3 by lia. specialize (Ha b0 H0). assert (en_open a = 0) by (apply Ha; congruence). lia.
Qed.
Lemma prior_step e w G Q c : reachable w -> good w G Q -> call_ok (w_self w) c = true -> prior Q -> prior (ideal_step e w c Q).
Proof.
  intros Hre Hg Hok H. unfold ideal_step. destruct (step e w c) as [w' [r|]] eqn:E; [|exact H].
  assert (Hs : forall sender tin out mn fee target, c = swap_call sender tin out mn fee target ->
    prior (ideal_fill (fun t d => tick_liquidity (w_st w) t d - tick_liquidity (w_st w') t d) Q)).
  { intros sender tin out mn fee target ->. destruct (C18_swap_fills _ _ _ _ _ _ _ _ _ _ Hre Hok E) as (m & fills & _ & Hf & _).
    apply prior_fill; [exact H| |].
    - intros t d. pose proof (fills_less _ _ _ _ t d Hf). lia.
    - intros en Hen. apply (eo_open _ _ (rf_entry _ _ _ (gd_ref _ _ _ Hg) _ Hen)). }
  destruct c as [i [t d q b|t id|t id|l|m]|[sender tin outd mn fee|sender tin outd mn fee tgt|sender ind mx tout fee|a| |b]| |]; try exact H.
  - apply prior_place, H.
  - apply prior_cancel, H.
  - apply prior_claim, H.
  - apply prior_claims, H.
  - apply (Hs sender tin outd mn fee None eq_refl).
  - apply (Hs sender tin outd mn fee (Some tgt) eq_refl).
Qed.
Lemma run_prior w0 h : start w0 -> history w0 h -> prior (ideal_run w0 [] h).
Proof.
  intros Hs Hh. induction h as [|[e c] h IH] using rev_ind; [constructor|].
  apply history_app in Hh as [Hh Hc]. inversion Hc as [|x l Hok _]; subst. cbn [snd] in Hok. destruct (run_good w0 h Hs Hh) as (G & Hg).
  rewrite ideal_run_last. eapply prior_step; eauto. apply start_reachable; assumption.
Qed.

(** C55: of two orders at the same tick and direction, the later one is filled only when nothing of
    the earlier one is waiting any more. *)
Theorem C55_time_priority :
  forall w0 h a b, start w0 -> history w0 h ->
  a ∈ ideal_run w0 [] h -> b ∈ ideal_run w0 [] h ->
  en_tick a = en_tick b -> en_dir a = en_dir b -> en_id a < en_id b ->
  0 < en_filled b + en_settled b -> en_open a = 0.
Proof.
  intros w0 h a b Hs Hh Ha Hb E1 E2 Hlt Hp. pose proof (run_prior w0 h Hs Hh) as Hpr. destruct (run_good w0 h Hs Hh) as (G & Hg).
  pose proof (rf_ids _ _ _ (gd_ref _ _ _ Hg)) as Hids. clear Hg G. revert Ha Hb Hpr Hids. generalize (ideal_run w0 [] h). intros Q Ha Hb Hpr Hids. unfold prior in Hpr.
  induction Hpr as [|x Q Hpr IH Hx]; [inversion Ha|]. cbn [map] in Hids. apply StronglySorted_inv in Hids as [Hids Hmin]. rewrite Forall_forall in Hx. rewrite Forall_forall in Hmin.
  apply elem_of_cons in Ha as [->|Ha].
  - apply elem_of_cons in Hb as [->|Hb]; [lia|]. apply (Hx b Hb); assumption.
  - apply elem_of_cons in Hb as [->|Hb]; [|auto]. specialize (Hmin (en_id a)). assert (en_id x < en_id a) by (apply Hmin, elem_of_list_fmap; eauto). lia.
Qed.
Print Assumptions C55_time_priority.

(** ** The same, seen from outside *)
(** Announced claims belong to entries that were filled and claimed. *)
Definition heard (Q : ideal) (evs : list claim_event) : Prop :=
  forall ev, ev ∈ evs -> exists en, en ∈ Q /\ en_tick en = ce_tick ev /\ en_id en = ce_id ev /\ 0 < en_settled en.
Lemma heard_evolves Q Q' evs : heard Q evs -> (forall en, en ∈ Q -> exists en', en' ∈ Q' /\ evolves en en') -> heard Q' evs.
Proof.
  intros H K ev Hev. destruct (H ev Hev) as (en & Hen & E1 & E2 & E3). destruct (K en Hen) as (en' & Hen' & Hv). exists en'. destruct Hv. split; [exact Hen'|].
  repeat split; congruence || lia.
Qed.
Lemma heard_claim sender s G Q t id s' G' a ms o' ev evs :
  inv s G -> refines s G Q -> claim1 sender s G t id s' G' (a, ms, o') -> ce_tick ev = t -> ce_id ev = id ->
  heard Q evs -> heard (ideal_claim t id Q) (evs ++ [ev]).
Proof.
  intros Hi Hr Hc E1 E2 H. destruct (claim_entry _ _ _ _ _ _ _ _ _ _ _ Hi Hr Hc) as (en & o & Hen & D1 & D2 & Hf & _).
  intros x Hx. apply elem_of_app in Hx as [Hx|Hx].
  - eapply heard_evolves; [exact H| |exact Hx]. intros y Hy. eapply claim_evolves; [apply (rf_entry _ _ _ Hr)|exact Hy].
  - apply elem_of_list_singleton in Hx as ->. eexists. split; [apply elem_of_list_fmap; exists en; split; [reflexivity|exact Hen]|].
    cbv beta. unfold en_is. rewrite D1, D2, !Z.eqb_refl. cbn. pose proof (eo_settled _ _ (rf_entry _ _ _ Hr _ Hen)). repeat split; congruence || lia.
Qed.
Lemma heard_claims ob sender s G l s' G' ms es : claims ob sender s G l s' G' ms es -> forall Q evs, refines s G Q -> heard Q evs ->
  heard (foldl (fun Q ev => ideal_claim (ce_tick ev) (ce_id ev) Q) Q es) (evs ++ es).
Proof.
  induction 1 as [s G|s G t id l s1 G1 s2 G2 ms es Hi Hm Hi1 Hc IH|s G t id l s1 G1 a bank o s2 G2 ms es Hi Hm Hi1 Hc IH]; intros Q evs Hr Hl.
  - rewrite app_nil_r. assumption.
  - apply IH; [eapply ref_miss1; eauto|assumption].
  - cbn [foldl]. destruct (claim1_event _ _ _ _ _ _ _ _ _ _ Hi Hm) as [E1 E2]. rewrite cons_middle, app_assoc.
    assert (E1' : ce_tick (generate_claimed_order_event sender o a (get_expected_denom ob (o_dir o)) (get_opposite_denom ob (o_dir o))) = t) by exact E1.
    assert (E2' : ce_id (generate_claimed_order_event sender o a (get_expected_denom ob (o_dir o)) (get_opposite_denom ob (o_dir o))) = id) by exact E2.
    rewrite E1', E2'. apply IH; [exact (ref_claim1 _ _ _ _ _ _ _ _ _ Hi Hr Hm)|]. eapply (heard_claim _ _ _ _ _ _ _ _ _ _ _ _ _ Hi Hr Hm); [exact E1'|exact E2'|exact Hl].
Qed.
Lemma heard_step e w G Q c evs : good w G Q -> call_ok (w_self w) c = true -> heard Q evs ->
  heard (ideal_step e w c Q) (evs ++ match snd (step e w c) with Done r => r_events r | Failed => [] end).
Proof.
  intros Hg Hok Hl. pose proof (gd_ref _ _ _ Hg) as Hr. pose proof (gd_inv _ _ _ Hg) as Hi.
  assert (K : heard (ideal_step e w c Q) evs) by (eapply heard_evolves; [exact Hl|]; intros en Hen; eapply step_evolves; [apply (rf_entry _ _ _ Hr)|exact Hen]).
  unfold ideal_step in *. destruct (step e w c) as [w' [r|]] eqn:E; cbn [snd]; [|rewrite app_nil_r; exact K].
  destruct (step_done _ _ _ _ _ _ Hi Hok E) as (G' & Ht & _).
  match type of K with heard ?Q' _ => assert (K0 : forall l, l = [] -> heard Q' (evs ++ l)) by (intros l ->; rewrite app_nil_r; exact K) end.
  destruct c as [i [t d q b|t id|t id|l|m]|m| |c].
  - destruct (trans_place _ _ _ _ _ _ _ _ _ _ _ Ht) as (ob & _ & _ & _ & Er & _). apply K0. rewrite Er. reflexivity.
  - destruct (trans_cancel _ _ _ _ _ _ _ _ _ Ht) as (ob & o & n & cc & m' & tr' & c' & _ & _ & _ & _ & _ & _ & _ & _ & Er & _). apply K0. rewrite Er. reflexivity.
  - destruct (trans_claim _ _ _ _ _ _ _ _ _ Ht) as (ob & a & ms & o' & _ & _ & _ & A3 & ->). cbn [r_events].
    destruct (claim1_event _ _ _ _ _ _ _ _ _ _ Hi A3) as [E1 E2]. eapply (heard_claim _ _ _ _ _ _ _ _ _ _ _ _ _ Hi Hr A3); [exact E1|exact E2|exact Hl].
  - destruct (trans_batch _ _ _ _ _ _ _ _ Ht) as (ob & ms & es & _ & _ & _ & _ & A & ->). cbn [r_events]. eapply heard_claims; eauto.
  - destruct (trans_auth _ _ _ _ _ _ _ _ Ht) as (_ & _ & _ & Er & _). apply K0, Er.
  - apply K0. destruct (swap_args (CSudo m)) as [[[[[[sender tin] out] mn] fee] target]|] eqn:Ea.
    + destruct (trans_swap _ _ _ _ _ _ _ _ _ _ _ _ _ Ea Ht) as (d & ob & l & fs & rest & pr & _ & _ & _ & _ & _ & _ & _ & -> & _). reflexivity.
    + destruct m as [s0 tin out mn fee|s0 tin out mn fee tg|? ? ? ? ?|a| |b]; try discriminate Ea.
      all: inversion Ht as [| | | | | |m0 r0 s0 Ha A1 A2 A3 A4 A5 A6 A7|cl A]; subst; try discriminate; try assumption.
      all: match goal with K : _ \/ _ |- _ => destruct K as [K|[? K]]; discriminate end.
  - inversion Ht; subst; try discriminate; apply K0; reflexivity.
  - inversion Ht; subst; try discriminate; apply K0; reflexivity.
Qed.
Lemma run_heard h : forall w G Q evs, good w G Q -> history w h -> heard Q evs -> heard (ideal_run w Q h) (evs ++ collect r_events w h).
Proof.
  induction h as [|[e c] h IH]; intros w G Q evs Hg Hh H; cbn [ideal_run collect]; [rewrite app_nil_r; exact H|].
  apply Forall_cons in Hh as [Hc Hh]. cbn [snd] in Hc. destruct (step_good e w G Q c Hg Hc) as (G' & Hg' & _). rewrite app_assoc.
  eapply IH; [exact Hg'|unfold history; rewrite step_self; exact Hh|]. eapply heard_step; eauto.
Qed.

(** Two orders rest at the same tick and direction, [a] with the lower id.  As soon as a claim of [b]
    was announced, [a] can never be cancelled again, and a claim of [a] pays it off completely. *)
Theorem C55_seen :
  forall w0 h h' t a b oa ob, start w0 -> history w0 (h ++ h') ->
  let w := run w0 h in let w' := run w0 (h ++ h') in
  order_of (w_st w) t a = Some oa -> order_of (w_st w) t b = Some ob -> o_dir oa = o_dir ob -> a < b ->
  (exists ev, ev ∈ collect r_events w h' /\ ce_tick ev = t /\ ce_id ev = b) ->
  (forall e i, call_ok (w_self w') (CExec i (CancelLimit t a)) = true -> step e w' (CExec i (CancelLimit t a)) = (w', Failed)) /\
  (forall e i w'' r, call_ok (w_self w') (CExec i (ClaimLimit t a)) = true -> step e w' (CExec i (ClaimLimit t a)) = (w'', Done r) ->
     order_of (w_st w'') t a = None /\ exists ev, r_events r = [ev] /\ ce_quantity_remaining ev = 0 /\ ce_fully_claimed ev = true).
Proof.
  intros w0 h h' t a b oa ob Hs Hh w w' Ea Eb Ed Hlt (ev & Hev & Et & Eid).
  pose proof Hh as K. apply history_app in K as [Hh1 Hh2]. fold w in Hh2. destruct (run_good w0 h Hs Hh1) as (G & Hg). fold w in Hg.
  destruct (C08_fifo_state w0 h Hs Hh1) as (_ & S1 & _). fold w in S1.
  destruct (S1 _ _ _ Ea) as (ena & Hena & A1 & A2 & _ & Da). destruct (S1 _ _ _ Eb) as (enb & Henb & B1 & B2 & _ & Db).
  assert (EQ : ideal_run w0 [] (h ++ h') = ideal_run w (ideal_run w0 [] h) h') by apply ideal_run_app.
  destruct (run_evolves h' _ _ _ ena Hg Hh2 Hena) as (xa & Hxa & Va). destruct (run_evolves h' _ _ _ enb Hg Hh2 Henb) as (xb & Hxb & Vb).
  destruct (run_good w0 _ Hs Hh) as (G2 & Hg2). fold w' in Hg2. pose proof (gd_ref _ _ _ Hg2) as Hr2. rewrite EQ in Hr2.
  assert (Hset : 0 < en_settled xb).
  { assert (H0 : heard (ideal_run w0 [] h) []) by (intros x Hx; inversion Hx). destruct (run_heard h' w G _ [] Hg Hh2 H0 ev Hev) as (y & Hy & Y1 & Y2 & Y3).
    assert (y = xb) as ->; [|exact Y3]. eapply ids_same; [exact Hr2|exact Hy|exact Hxb|]. rewrite (ev_id _ _ Vb). congruence. }
  assert (Hopen : en_open xa = 0).
  { eapply (C55_time_priority w0 (h ++ h') xa xb Hs Hh); rewrite ?EQ; try assumption.
    - rewrite (ev_tick _ _ Va), (ev_tick _ _ Vb). congruence.
    - rewrite (ev_dir _ _ Va), (ev_dir _ _ Vb). destruct Da as (_ & _ & -> & _), Db as (_ & _ & -> & _). exact Ed.
    - rewrite (ev_id _ _ Va), (ev_id _ _ Vb). lia.
    - pose proof (eo_filled _ _ (rf_entry _ _ _ Hr2 _ Hxb)). lia. }
  assert (Xt : en_tick xa = t) by (rewrite (ev_tick _ _ Va); exact A1). assert (Xi : en_id xa = a) by (rewrite (ev_id _ _ Va); exact A2).
  split.
  - intros e i Hok. destruct (step e w' (CExec i (CancelLimit t a))) as [w'' [r|]] eqn:E; [|rewrite (step_failed _ _ _ _ E); reflexivity]. exfalso.
    destruct (C05_cancel_effect _ _ _ _ _ _ _ (start_reachable _ _ Hs Hh) Hok E) as (o & Eo & _ & _ & _ & _ & Hq & _ & Hl & _).
    set (hc := h ++ h' ++ [(e, CExec i (CancelLimit t a))]).
    assert (Hhc : history w0 hc).
    { unfold hc. rewrite app_assoc. apply history_app. split; [exact Hh|]. constructor; [exact Hok|constructor]. }
    destruct (C08_fifo_state w0 _ Hs Hh) as (_ & S2 & _ & _ & L2). destruct (C08_fifo_state w0 _ Hs Hhc) as (_ & _ & _ & _ & L3).
    unfold hc in L3. rewrite app_assoc, run_last in L3. fold w' in L2, L3, S2. rewrite E in L3. cbn [fst] in L3. rewrite L2, L3, ideal_run_last in Hl. fold w' in Hl. unfold ideal_step in Hl. rewrite E in Hl.
    destruct (S2 _ _ _ Eo) as (eo & Heo & O1 & O2 & _). assert (eo = xa) as -> by (rewrite EQ in Heo; eapply ids_same; [exact Hr2|exact Heo|exact Hxa|congruence]).
    rewrite EQ in Hl. enough (open_at (ideal_cancel t a (ideal_run w (ideal_run w0 [] h) h')) t (o_dir o) = open_at (ideal_run w (ideal_run w0 [] h) h') t (o_dir o)) by lia.
    clear - Hr2 Hxa Hopen Xi. 
    assert (Hx : forall e, e ∈ ideal_run w (ideal_run w0 [] h) h' -> en_is t a e = true -> en_open e = 0).
    { intros e He Ee. apply andb_true_iff in Ee as [_ Ee]. apply Z.eqb_eq in Ee. assert (e = xa) as -> by (eapply ids_same; [exact Hr2|exact He|exact Hxa|congruence]). exact Hopen. }
    revert Hx. generalize (ideal_run w (ideal_run w0 [] h) h'). intros Q Hx. unfold open_at, ideal_sum, ideal_cancel. induction Q as [|y Q IH]; [reflexivity|]. cbn [map foldr].
    rewrite IH by (intros; apply Hx; [constructor|]; assumption). f_equal. pose proof (Hx y ltac:(constructor)) as Hy. destruct (en_is t a y); [|reflexivity]. cbn [en_set en_tick en_dir en_open]. rewrite Hy by reflexivity. reflexivity.
  - intros e i w'' r Hok E. destruct (C08_claim_settles_fifo _ _ _ _ _ _ _ _ Hs Hh Hok E) as (_ & _ & en & o & Hen & E1 & E2 & _ & _ & _ & Eord & _ & (v & Ev & _ & _ & _ & Erem & Efull & _) & _).
    assert (en = xa) as -> by (rewrite EQ in Hen; eapply ids_same; [exact Hr2|exact Hen|exact Hxa|congruence]). rewrite Hopen in *. cbn [Z.eqb] in *.
    split; [unfold order_of; rewrite Eord; apply lookup_delete|]. exists v. auto.
Qed.
Print Assumptions C55_seen.

(** Two asks of 10 at price 1.1; 12 are bought, 2 of them from "b", who claims; "a" cannot cancel, only claim. *)
Definition hist_queue := [place "a" 100000 Ask 10 None; place "b" 100000 Ask 10 None].
Definition hist_served := [buy "t" 14; claim "b" 100000 1].
Example C55_case :
  start w_start /\ history w_start (hist_queue ++ hist_served) /\
  (let w := run w_start hist_queue in
   option_map o_dir (order_of (w_st w) 100000 0) = Some Ask /\ option_map o_dir (order_of (w_st w) 100000 1) = Some Ask /\
   map (fun ev => (ce_tick ev, ce_id ev, ce_quantity_remaining ev)) (collect r_events w hist_served) = [(100000, 1, 8)]) /\
  run_out w_start (hist_queue ++ hist_served ++ [cancel "a" 100000 0; claim "z" 100000 0]) = [true; true; true; true; false; true] /\
  map (fun en => (en_id en, en_open en, en_filled en, en_settled en)) (ideal_run w_start [] (hist_queue ++ hist_served)) = [(0, 0, 10, 0); (1, 8, 0, 2)].
Proof. split; [apply start_ok|]. split; [hist|]. cbv zeta. split; [vm_compute; repeat split; reflexivity|]. split; vm_compute; reflexivity. Qed.
