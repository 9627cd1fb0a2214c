(** * Property C63: paged reading while the book is in use. *)
From Verif Require Import Base Dec Types State TickMath Sumtree Tick Order Auth Contract Query World SpecMath TickMathProofs
  TreeDefs Exec SumtreeProofs SumtreeRebalance SumtreeInsert PrefixSum SumtreeRoot SumtreeFail Ghost Inv StepPlace StepCancel StepClaim
  SwapPlan StepSwap Trans Spec Reach Refine RefineStep Reserve Solvency Books SpecProps SpecQuery PropBase Tests PropOrders PropClaims PropHistory PropQuery SpecPaging.

(** An order that is there at first and at last was there all the time. *)
Lemma stays w h1 h2 t id o o2 : reachable w -> history w (h1 ++ h2) ->
  order_of (w_st w) t id = Some o -> order_of (w_st (run w (h1 ++ h2))) t id = Some o2 ->
  exists o1, order_of (w_st (run w h1)) t id = Some o1 /\ o_owner o1 = o_owner o.
Proof.
  intros Hre Hh Eo Eo2. unfold order_of in *. apply history_app in Hh as [Hh1 Hh2]. destruct (reach_good _ Hre) as (w0 & h0 & G & Hs & Hh0 & Ew & Hg).
  assert (Hh01 : history w0 (h0 ++ h1)) by (apply history_app; rewrite Ew; auto).
  destruct (run_good w0 (h0 ++ h1) Hs Hh01) as (G1 & Hg1). rewrite run_app, Ew, ideal_run_app, Ew in Hg1.
  destruct (run_good w0 ((h0 ++ h1) ++ h2) Hs) as (G2 & Hg2). { apply history_app. split; [exact Hh01|]. rewrite run_app, Ew. exact Hh2. }
  rewrite run_app, run_app, Ew, ideal_run_app, run_app, Ew, ideal_run_app, Ew in Hg2. rewrite run_app in Eo2.
  destruct (entry_order _ _ _ (gd_inv _ _ _ Hg) (gd_ref _ _ _ Hg) _ _ _ Eo) as (a & Ha & Da & Qa & _).
  destruct (entry_order _ _ _ (gd_inv _ _ _ Hg2) (gd_ref _ _ _ Hg2) _ _ _ Eo2) as (c & Hc & Dc & Qc & _).
  destruct (run_evolves h1 _ _ _ a Hg Hh1 Ha) as (b & Hb & Eb).
  destruct (run_evolves h2 _ _ _ b Hg1 Hh2 Hb) as (c' & Hc' & Ec).
  pose proof (i_order _ _ (gd_inv _ _ _ Hg) _ _ Eo) as O. pose proof (i_order _ _ (gd_inv _ _ _ Hg2) _ _ Eo2) as O2.
  pose proof (oo_tick _ _ _ _ O) as T1. pose proof (oo_id _ _ _ _ O) as T2. pose proof (oo_tick _ _ _ _ O2) as T3. pose proof (oo_id _ _ _ _ O2) as T4. cbn in T1, T2, T3, T4.
  destruct Da as (A1 & A2 & A3 & A4 & A5 & A6 & A7). destruct Dc as (C1 & C2 & C3 & C4 & C5 & C6 & C7).
  assert (c' = c) as -> by (eapply (ids_same _ _ _ c' c (gd_ref _ _ _ Hg2)); [assumption|assumption|]; rewrite (ev_id _ _ Ec), (ev_id _ _ Eb); congruence).
  pose proof (oo_qty _ _ _ _ O2).
  assert (Hlive : en_live b = true) by (unfold en_live; apply Z.ltb_lt; pose proof (ev_left _ _ Ec); lia).
  destruct (C08_fifo_state w0 (h0 ++ h1) Hs Hh01) as (_ & _ & K & _). rewrite run_app, Ew, ideal_run_app, Ew in K. destruct (K b Hb Hlive) as (o1 & E1 & D1).
  exists o1. destruct D1 as (B1 & B2 & B3 & B4 & B5 & B6 & B7). rewrite (ev_tick _ _ Eb), (ev_id _ _ Eb) in E1. split; [|pose proof (ev_owner _ _ Eb); congruence].
  replace (t, id) with (en_tick a, en_id a) by congruence. exact E1.
Qed.
Lemma sorted_join (l1 l2 : list limit_order) : StronglySorted key_before l1 -> StronglySorted key_before l2 -> (forall a b, a ∈ l1 -> b ∈ l2 -> key_before a b) ->
  StronglySorted key_before (l1 ++ l2).
Proof.
  induction l1 as [|x l1 IH]; intros H1 H2 H; [exact H2|]. apply StronglySorted_inv in H1 as [H1 F]. cbn. constructor.
  - apply IH; [exact H1|exact H2|]. intros a b Ha Hb. apply H; [constructor; exact Ha|exact Hb].
  - apply Forall_app. split; [exact F|]. apply Forall_forall. intros b Hb. apply H; [constructor|exact Hb].
Qed.
Lemma sorted_app_l (l1 l2 : list limit_order) : StronglySorted key_before (l1 ++ l2) -> StronglySorted key_before l1.
Proof.
  induction l1 as [|x l1 IH]; intros H; [constructor|]. cbn in H. apply StronglySorted_inv in H as [H F]. constructor; [auto|]. apply Forall_app in F as [F _]. exact F.
Qed.
Definition key_from (b : option (Z * Z)) (t id : Z) : Prop := match b with None => True | Some (u, i) => u < t \/ (u = t /\ i <= id) end.
Lemma read_spec owner n : 0 < n < 2 ^ 32 -> forall batches cursor w l fin, reachable w -> history w (concat batches) ->
  read_while owner n cursor w batches = (l, fin) ->
  StronglySorted key_before l /\
  (forall o, o ∈ l -> from_key cursor o /\ o_owner o = owner /\
     exists k, (1 <= k <= length batches)%nat /\ order_of (w_st (run w (concat (take k batches)))) (o_tick o) (o_id o) = Some o) /\
  (fin = true -> forall t id, key_from cursor t id ->
     (forall k, (1 <= k <= length batches)%nat -> exists o, order_of (w_st (run w (concat (take k batches)))) t id = Some o /\ o_owner o = owner) ->
     exists o, o ∈ l /\ o_tick o = t /\ o_id o = id).
Proof.
  intros Hn. induction batches as [|h batches IH]; intros cursor w l fin Hre Hh Hr; cbn [read_while] in Hr.
  { injection Hr as <- <-. split; [constructor|]. split; [intros o Ho; inversion Ho|discriminate]. }
  cbn [concat] in Hh. apply history_app in Hh as [Hh1 Hh2]. set (w1 := run w h) in *. pose proof (run_reach w h Hre Hh1) as Hre1. fold w1 in Hre1.
  destruct (by_owner w1 owner cursor None (Some n) Hre1) as (own & sel & _ & [S1 S2] & Eq). rewrite Eq in Hr. cbn [page_length] in Hr. rewrite (Z.mod_small n) in Hr by lia. unfold first in Hr.
  set (page := firstn (Z.to_nat n) sel) in *. set (more := skipn (Z.to_nat n) sel).
  assert (El : sel = page ++ more) by (symmetry; apply firstn_skipn).
  assert (Hpg : forall o, o ∈ page -> order_of (w_st w1) (o_tick o) (o_id o) = Some o /\ o_owner o = owner /\ from_key cursor o).
  { intros o Ho. assert (Hs : o ∈ sel) by (rewrite El; apply elem_of_app; auto). apply S2 in Hs as (X1 & X2 & X3 & _). auto. }
  assert (Hw1 : forall k, run w (concat (take (S k) (h :: batches))) = run w1 (concat (take k batches))) by (intros k; cbn [take concat]; rewrite run_app; reflexivity).
  assert (Hw0 : run w (concat (take 1 (h :: batches))) = w1) by (rewrite Hw1; destruct batches; reflexivity).
  assert (Hkeys := order_keys w1 Hre1).
  destruct (last page) as [o|] eqn:Elast.
  - destruct (read_while owner n (Some (o_tick o, o_id o + 1)) w1 batches) as [rest fin'] eqn:Er. injection Hr as <- <-.
    destruct (IH _ _ _ _ Hre1 Hh2 Er) as (R1 & R2 & R3). apply last_elem in Elast as (l0 & El0).
    assert (Ho : o ∈ page) by (rewrite El0; apply elem_of_app; right; constructor).
    assert (Hps : StronglySorted key_before page) by (rewrite El in S1; eapply sorted_app_l; exact S1).
    assert (Hle : forall a, a ∈ page -> a = o \/ key_before a o).
    { intros a Ha. rewrite El0 in Ha, Hps. apply elem_of_app in Ha as [Ha|Ha]; [right|left; apply elem_of_list_singleton, Ha].
      apply (sorted_app_before _ _ Hps a o Ha). constructor. }
    split; [|split].
    + apply sorted_join; [exact Hps|exact R1|]. intros a b Ha Hb. destruct (R2 b Hb) as (B & _). cbn in B. unfold key_before.
      destruct (Hle a Ha) as [->|K]; [lia|]. unfold key_before in K. lia.
    + intros x Hx. apply elem_of_app in Hx as [Hx|Hx].
      * destruct (Hpg x Hx) as (X1 & X2 & X3). split; [exact X3|]. split; [exact X2|]. exists 1%nat. split; [cbn; lia|]. rewrite Hw0. exact X1.
      * destruct (R2 x Hx) as (X1 & X2 & k & Hk & X3). split.
        { destruct (Hpg o Ho) as (_ & _ & F). cbn in X1. unfold from_key in *. destruct cursor as [[u i]|]; [|exact I]. lia. }
        split; [exact X2|]. exists (S k). split; [cbn; lia|]. rewrite Hw1. exact X3.
    + intros Hfin t id Hkf Hall. destruct (Hall 1%nat ltac:(cbn; lia)) as (x & X1 & X2). rewrite Hw0 in X1. destruct (Hkeys (t, id) x X1) as [K1 K2]. cbn in K1, K2. subst t id.
      assert (Hs : x ∈ sel). { apply S2. split; [exact X1|]. split; [exact X2|]. split; [|exact I]. unfold from_key, key_from in *. destruct cursor as [[u i]|]; [|exact I]. lia. }
      rewrite El in Hs. apply elem_of_app in Hs as [Hs|Hs]; [exists x; split; [apply elem_of_app; auto|auto]|].
      rewrite El in S1. pose proof (sorted_app_before _ _ S1 o x Ho Hs) as Hb.
      destruct (R3 Hfin (o_tick x) (o_id x)) as (y & Hy & Y1 & Y2).
      * cbn. unfold key_before in Hb. lia.
      * intros k Hk. destruct (Hall (S k) ltac:(cbn; lia)) as (z & Z1 & Z2). rewrite Hw1 in Z1. eauto.
      * exists y. split; [apply elem_of_app; auto|auto].
  - injection Hr as <- <-. split; [constructor|]. split; [intros o Ho; inversion Ho|]. intros _ t id Hkf Hall. exfalso.
    destruct (Hall 1%nat ltac:(cbn; lia)) as (x & X1 & X2). rewrite Hw0 in X1. destruct (Hkeys (t, id) x X1) as [K1 K2]. cbn in K1, K2. subst t id.
    assert (Hs : x ∈ sel). { apply S2. split; [exact X1|]. split; [exact X2|]. split; [|exact I]. unfold from_key, key_from in *. destruct cursor as [[u i]|]; [|exact I]. lia. }
    apply last_None in Elast. destruct sel as [|y sel']; [inversion Hs|]. assert (L1 : length page = Nat.min (Z.to_nat n) (length (y :: sel'))) by apply firstn_length. rewrite Elast in L1. cbn [length] in L1. lia.
Qed.

(** C63: however trading goes on between the requests, no order is received twice, everything received
    was a live order of the owner at one of the requests, and an order that is live at the first and at
    the last request is received. *)
Theorem C63_paging_while_trading :
  forall w owner n first_batch batches l fin, reachable w -> history w (first_batch ++ concat batches) -> 0 < n < 2 ^ 32 ->
  read_while owner n None w (first_batch :: batches) = (l, fin) ->
  NoDup (map (fun o => (o_tick o, o_id o)) l) /\ StronglySorted key_before l /\
  (forall o, o ∈ l -> o_owner o = owner /\
     exists k, order_of (w_st (run w (first_batch ++ concat (take k batches)))) (o_tick o) (o_id o) = Some o) /\
  (fin = true -> forall t id o o', 
     order_of (w_st (run w first_batch)) t id = Some o -> o_owner o = owner ->
     order_of (w_st (run w (first_batch ++ concat batches))) t id = Some o' ->
     exists x, x ∈ l /\ o_tick x = t /\ o_id x = id).
Proof.
  intros w owner n hf batches l fin Hre Hh Hn Hr.
  destruct (read_spec owner n Hn (hf :: batches) None w l fin Hre Hh Hr) as (R1 & R2 & R3). split; [|split; [exact R1|split]].
  - clear -R1. induction R1 as [|a l Hl IH F]; [constructor|]. cbn [map]. constructor; [|exact IH]. rewrite elem_of_list_fmap. intros (b & E & Hb).
    rewrite Forall_forall in F. specialize (F b Hb). injection E as E1 E2. unfold key_before in F. lia.
  - intros o Ho. destruct (R2 o Ho) as (_ & X2 & k & Hk & X3). split; [exact X2|]. destruct k as [|k]; [lia|]. exists k. exact X3.
  - intros Hfin t id o o' Eo Eown Eo'. apply (R3 Hfin t id I). intros k Hk. destruct k as [|k]; [lia|]. cbn [take concat].
    apply history_app in Hh as [Hh1 Hh2]. pose proof (run_reach w hf Hre Hh1) as Hre1. rewrite run_app in Eo'.
    assert (Ec : concat batches = concat (take k batches) ++ concat (drop k batches)) by (rewrite <- concat_app, take_drop; reflexivity). rewrite Ec in Hh2, Eo'.
    destruct (stays (run w hf) _ _ t id o o' Hre1 Hh2 Eo Eo') as (o1 & E1 & E2). exists o1. rewrite run_app. split; [exact E1|congruence].
Qed.
Print Assumptions C63_paging_while_trading.
(** A case: one order per page; meanwhile the first is withdrawn, one is added before and one after the cursor. *)
Definition batches_read : list (list (env * call)) :=
  [[cancel "a" 0 0; place "a" (-100000) Bid 5 None; place "b" 100000 Bid 6 None]; [place "a" 300000 Bid 7 None]; []; []].
Definition first_read : list (env * call) := [place "a" 0 Bid 1 None; place "a" 100000 Bid 2 None; place "a" 200000 Bid 3 None].
Example C63_case :
  reachable w_start /\ history w_start (first_read ++ concat batches_read) /\
  (let '(l, fin) := read_while "a" 1 None w_start (first_read :: batches_read) in (map (fun o => (o_tick o, o_id o)) l, fin)) =
  ([(0, 0); (100000, 1); (200000, 2); (300000, 5)], true) /\
  map (fun k => match order_of (w_st (run w_start (first_read ++ concat batches_read))) (fst k) (snd k) with Some o => o_quantity o | None => -1 end)
    [(0, 0); (-100000, 3); (100000, 1); (200000, 2); (300000, 5)] = [-1; 5; 2; 3; 7].
Proof.
  split; [apply (start_reachable w_start []); [apply start_ok|constructor]|]. split; [hist|]. split; vm_compute; reflexivity.
Qed.
