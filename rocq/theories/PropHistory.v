(** * Properties C11, C35, C36, C39: orders over whole histories; isolation. *)
From Verif Require Import Base Dec Types State TickMath Sumtree Tick Order Auth Contract World SpecMath TickMathProofs
  TreeDefs Exec SumtreeProofs SumtreeRebalance SumtreeInsert PrefixSum SumtreeRoot SumtreeFail Ghost Inv StepPlace StepCancel StepClaim
  SwapPlan StepSwap Trans Spec Reach Refine RefineStep Reserve Solvency Books SpecProps PropBase Tests PropOrders PropClaims.

(** ** An entry never loses its identity and only shrinks *)
Record evolves (a b : entry) : Prop := {
  ev_tick : en_tick b = en_tick a;
  ev_dir : en_dir b = en_dir a;
  ev_id : en_id b = en_id a;
  ev_owner : en_owner b = en_owner a;
  ev_bounty : en_bounty b = en_bounty a;
  ev_time : en_time b = en_time a;
  ev_placed : en_placed b = en_placed a;
  ev_left : en_open b + en_filled b <= en_open a + en_filled a;
  ev_settled : en_settled a <= en_settled b;
  ev_refunded : en_refunded a <= en_refunded b
}.
Lemma evolves_refl a : evolves a a.
Proof. split; lia || reflexivity. Qed.
Lemma evolves_trans a b c : evolves a b -> evolves b c -> evolves a c.
Proof. intros [] []. split; congruence || lia. Qed.
Lemma cancel_evolves s t id Q en : (forall en, en ∈ Q -> entry_ok s en) -> en ∈ Q -> exists en', en' ∈ ideal_cancel t id Q /\ evolves en en'.
Proof.
  intros Hok Hen. pose proof (Hok _ Hen) as [_ K1 K2 _ _ _ _ _ _]. eexists. split; [apply elem_of_list_fmap; exists en; split; [reflexivity|assumption]|].
  cbn beta. destruct (en_is t id en); [|apply evolves_refl]. split; cbn; reflexivity || lia.
Qed.
Lemma claim_evolves s t id Q en : (forall en, en ∈ Q -> entry_ok s en) -> en ∈ Q -> exists en', en' ∈ ideal_claim t id Q /\ evolves en en'.
Proof.
  intros Hok Hen. pose proof (Hok _ Hen) as [_ K1 K2 _ _ _ _ _ _]. eexists. split; [apply elem_of_list_fmap; exists en; split; [reflexivity|assumption]|].
  cbn beta. destruct (en_is t id en); [|apply evolves_refl]. split; cbn; reflexivity || lia.
Qed.
Lemma claim_ok_entries s t id Q : (forall en, en ∈ Q -> entry_ok s en) -> forall en, en ∈ ideal_claim t id Q -> entry_ok s en.
Proof.
  intros Hok en Hen. apply elem_of_list_fmap in Hen as (e & -> & He). specialize (Hok _ He). destruct (en_is t id e); [|assumption].
  destruct Hok. split; cbn; try assumption; lia.
Qed.
Lemma claims_evolve s l : forall Q en, (forall en, en ∈ Q -> entry_ok s en) -> en ∈ Q ->
  exists en', en' ∈ foldl (fun Q ev => ideal_claim (ce_tick ev) (ce_id ev) Q) Q l /\ evolves en en'.
Proof.
  induction l as [|ev l IH]; intros Q en Hok Hen; cbn [foldl]; [exists en; split; [assumption|apply evolves_refl]|].
  destruct (claim_evolves s (ce_tick ev) (ce_id ev) Q en Hok Hen) as (e1 & H1 & E1).
  destruct (IH (ideal_claim (ce_tick ev) (ce_id ev) Q) e1 (claim_ok_entries _ _ _ _ Hok) H1) as (e2 & H2 & E2).
  exists e2. split; [assumption|eapply evolves_trans; eauto].
Qed.
Lemma fill_evolves Q : forall x en, en ∈ Q -> exists en', en' ∈ ideal_fill x Q /\ evolves en en'.
Proof.
  induction Q as [|a Q IH]; intros x en Hen; [inversion Hen|]. cbn [ideal_fill]. apply elem_of_cons in Hen as [->|Hen].
  - eexists. split; [apply elem_of_cons; left; reflexivity|]. split; cbn; reflexivity || lia.
  - destruct (IH (fun t d => if bool_decide (t = en_tick a /\ d = en_dir a) then x t d - Z.min (x (en_tick a) (en_dir a)) (en_open a) else x t d) en Hen) as (e & He & E).
    exists e. split; [apply elem_of_cons; right; assumption|assumption].
Qed.
Lemma step_evolves e w c Q en : (forall en, en ∈ Q -> entry_ok (w_st w) en) -> en ∈ Q -> exists en', en' ∈ ideal_step e w c Q /\ evolves en en'.
Proof.
  intros Hok Hen. unfold ideal_step. assert (H0 : exists en', en' ∈ Q /\ evolves en en') by (exists en; split; [assumption|apply evolves_refl]).
  destruct (step e w c) as [w' [r|]]; [|assumption].
  destruct c as [i [t d q b|t id|t id|l|m]|[sender tin outd mn fee|sender tin outd mn fee tgt|sender ind mx tout fee|a| |b]| |]; try assumption.
  - exists en. split; [|apply evolves_refl]. apply elem_of_app. auto.
  - eapply cancel_evolves; eauto.
  - eapply claim_evolves; eauto.
  - eapply claims_evolve; eauto.
  - apply fill_evolves. assumption.
  - apply fill_evolves. assumption.
Qed.
Lemma run_evolves h : forall w G Q en, good w G Q -> history w h -> en ∈ Q -> exists en', en' ∈ ideal_run w Q h /\ evolves en en'.
Proof.
  induction h as [|[e c] h IH]; intros w G Q en Hg Hh Hen; cbn [ideal_run]; [exists en; split; [assumption|apply evolves_refl]|].
  apply Forall_cons in Hh as [Hc Hh]. cbn [snd] in Hc. destruct (step_good e w G Q c Hg Hc) as (G' & Hg' & _).
  destruct (step_evolves e w c Q en (rf_entry _ _ _ (gd_ref _ _ _ Hg)) Hen) as (e1 & H1 & E1).
  destruct (IH _ _ _ e1 Hg' ltac:(unfold history; rewrite step_self; assumption) H1) as (e2 & H2 & E2).
  exists e2. split; [assumption|eapply evolves_trans; eauto].
Qed.

(** C11: every order's quantity is accounted for exactly once ... *)
Theorem C11_accounting :
  forall w0 h en, start w0 -> history w0 h -> en ∈ ideal_run w0 [] h ->
  en_placed en = en_open en + en_filled en + en_settled en + en_refunded en /\
  0 <= en_open en /\ 0 <= en_filled en /\ 0 <= en_settled en /\ 0 <= en_refunded en.
Proof.
  intros w0 h en Hs Hh Hen. destruct (run_good w0 h Hs Hh) as (G & [_ Hr _]). destruct (rf_entry _ _ _ Hr _ Hen). auto 10.
Qed.
Print Assumptions C11_accounting.
(** ... and once nothing of it is left, the order is gone for good: in every continuation it does
    not exist and every claim or cancel of it fails without effect. *)
Lemma no_order w G Q en : good w G Q -> en ∈ Q -> en_live en = false -> forall t, s_orders (w_st w) !! (t, en_id en) = None.
Proof.
  intros [Hi Hr _] Hen Hl t. destruct (s_orders (w_st w) !! (t, en_id en)) as [o|] eqn:Eo; [|reflexivity].
  destruct (entry_order _ _ _ Hi Hr _ _ _ Eo) as (en' & Hen' & (_ & Hd & _) & _ & Hl').
  rewrite (ids_same _ _ _ en' en Hr Hen' Hen Hd) in Hl'. congruence.
Qed.
Lemma absent_fails e w G t id i : inv (w_st w) G -> s_orders (w_st w) !! (t, id) = None ->
  (call_ok (w_self w) (CExec i (CancelLimit t id)) = true -> step e w (CExec i (CancelLimit t id)) = (w, Failed)) /\
  (call_ok (w_self w) (CExec i (ClaimLimit t id)) = true -> step e w (CExec i (ClaimLimit t id)) = (w, Failed)).
Proof.
  intros Hi En. split; intros Hok; destruct (step e w _) as [w' [r|]] eqn:E; try (rewrite (step_failed _ _ _ _ E); reflexivity); exfalso;
    destruct (step_done _ _ _ _ _ _ Hi Hok E) as (G' & Ht & _).
  - destruct (trans_cancel _ _ _ _ _ _ _ _ _ Ht) as (ob & o & n & cc & m' & tr' & c' & _ & _ & A & _). congruence.
  - destruct (trans_claim _ _ _ _ _ _ _ _ _ Ht) as (ob & a & ms & o & _ & _ & _ & Hc & _). inversion Hc. congruence.
Qed.
Theorem C11_gone_for_good :
  forall w0 h h2 en e i, start w0 -> history w0 (h ++ h2) -> en ∈ ideal_run w0 [] h -> en_live en = false ->
  let w := run w0 (h ++ h2) in
  (forall t, s_orders (w_st w) !! (t, en_id en) = None) /\
  (forall t, call_ok (w_self w) (CExec i (CancelLimit t (en_id en))) = true -> step e w (CExec i (CancelLimit t (en_id en))) = (w, Failed)) /\
  (forall t, call_ok (w_self w) (CExec i (ClaimLimit t (en_id en))) = true -> step e w (CExec i (ClaimLimit t (en_id en))) = (w, Failed)).
Proof.
  intros w0 h h2 en e i Hs Hh Hen Hl w. pose proof Hh as Hh0. apply history_app in Hh as [H1 H2].
  destruct (run_good w0 h Hs H1) as (G & Hg). destruct (run_evolves h2 _ _ _ en Hg H2 Hen) as (en' & Hen' & Hev).
  rewrite <- ideal_run_app in Hen'. destruct (run_good w0 (h ++ h2) Hs Hh0) as (G2 & Hg2). fold w in Hg2.
  assert (Hl' : en_live en' = false).
  { pose proof (rf_entry _ _ _ (gd_ref _ _ _ Hg2) _ Hen') as [_ K1 K2 _ _ _ _ _ _]. pose proof (ev_left _ _ Hev). unfold en_live in *. apply Z.ltb_ge in Hl. apply Z.ltb_ge. lia. }
  pose proof (no_order _ _ _ _ Hg2 Hen' Hl') as Hn. rewrite (ev_id _ _ Hev) in Hn.
  split; [assumption|]. split; intros t; eapply absent_fails; try apply Hn; apply (gd_inv _ _ _ Hg2).
Qed.
Print Assumptions C11_gone_for_good.
Definition hist_over : list (env * call) := hist_three ++ [claim "y" 0 0; claim "y" 0 1; cancel "c" 0 2].
Example C11_case :
  history w_start hist_over /\
  map (fun en => (en_placed en, en_open en, en_filled en, en_settled en, en_refunded en, en_live en)) (ideal_run w_start [] hist_over)
  = [(50, 0, 0, 50, 0, false); (20, 10, 0, 10, 0, true); (30, 0, 0, 0, 30, false)].
Proof. split; [hist|]. vm_compute. reflexivity. Qed.

(** C39: an order keeps its identity, and its quantity stays positive and never grows. *)
Theorem C39_order_identity :
  forall w h k o o', reachable w -> history w h ->
  s_orders (w_st w) !! k = Some o -> s_orders (w_st (run w h)) !! k = Some o' ->
  identity o' = identity o /\ (o_tick o, o_id o) = k /\ 0 < o_quantity o' <= o_quantity o /\ o_quantity o <= o_placed_quantity o.
Proof.
  intros w h [t id] o o' Hre Hh Eo Eo'. destruct (reach_good _ Hre) as (w0 & h0 & G & Hs & Hh0 & Ew & Hg).
  destruct (run_good w0 (h0 ++ h) Hs ltac:(apply history_app; rewrite Ew; auto)) as (G' & Hg'). rewrite run_app, Ew, ideal_run_app, Ew in Hg'.
  destruct (entry_order _ _ _ (gd_inv _ _ _ Hg) (gd_ref _ _ _ Hg) _ _ _ Eo) as (a & Ha & Da & Qa & _).
  destruct (entry_order _ _ _ (gd_inv _ _ _ Hg') (gd_ref _ _ _ Hg') _ _ _ Eo') as (b & Hb & Db & Qb & _).
  destruct (run_evolves h _ _ _ a Hg Hh Ha) as (b' & Hb' & Hev). destruct Da as (A1 & A2 & A3 & A4 & A5 & A6 & A7). destruct Db as (B1 & B2 & B3 & B4 & B5 & B6 & B7).
  assert (b' = b) as -> by (eapply (ids_same _ _ _ b' b (gd_ref _ _ _ Hg')); [assumption|assumption|]; rewrite (ev_id _ _ Hev); congruence).
  pose proof (i_order _ _ (gd_inv _ _ _ Hg) _ _ Eo) as O. pose proof (i_order _ _ (gd_inv _ _ _ Hg') _ _ Eo') as O'.
  pose proof (oo_tick _ _ _ _ O) as T1. pose proof (oo_id _ _ _ _ O) as T2. pose proof (oo_tick _ _ _ _ O') as T3. pose proof (oo_id _ _ _ _ O') as T4. cbn in T1, T2, T3, T4.
  destruct Hev. split. { unfold identity. congruence. }
  split; [congruence|]. pose proof (oo_qty _ _ _ _ O). pose proof (oo_qty _ _ _ _ O'). lia.
Qed.
Print Assumptions C39_order_identity.
Example C39_case :
  let w := run w_start hist_three in
  reachable w /\ history w [claim "y" 0 1; sell "z" 3] /\
  option_map o_quantity (s_orders (w_st w) !! (0, 1)) = Some 20 /\
  option_map o_quantity (s_orders (w_st (run w [claim "y" 0 1; sell "z" 3])) !! (0, 1)) = Some 10.
Proof.
  split; [apply start_reachable; [apply start_ok|hist]|]. split; [hist|]. split; vm_compute; reflexivity.
Qed.
