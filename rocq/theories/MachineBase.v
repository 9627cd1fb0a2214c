(** * MachineBase: lemmas about the machine of SpecMachine. *)
From Verif Require Import Base Dec Types State TickMath Sumtree Tick Order Auth Contract Query World SpecMath TickMathProofs
  TreeDefs Exec SumtreeProofs SumtreeRebalance SumtreeInsert PrefixSum SumtreeRoot SumtreeFail Ghost Inv StepPlace StepCancel StepClaim
  SwapPlan StepSwap Trans Spec Reach Refine RefineStep Reserve Solvency Books SpecProps PropBase Tests PropOrders PropClaims PropBatch PropSwap PropQuote PropAdmin PlanCurve PropCurve
  SpecAdmin SpecMachine.

Definition strip (e : entry) : resting :=
  mkResting (en_tick e) (en_dir e) (en_id e) (en_owner e) (en_bounty e) (en_time e) (en_placed e) (en_open e) (en_filled e).
Definition settings_of (s : storage) : settings :=
  mkSettings (active s) (unwrap_or (s_fee s) 0) (unwrap_or (s_recipient s) EmptyString) (s_admin s) (s_admin_offer s) (s_moderator s) (s_moderator_offer s).
Definition lives_of (Q : ideal) : list resting := map strip (List.filter en_live Q).
Definition abs (s : storage) (Q : ideal) : machine :=
  mkMachine (deposit_denom s Bid) (deposit_denom s Ask) (settings_of s) (next_id s) (lives_of Q).

Lemma abs_deposit s Q d : deposit_of (abs s Q) d = deposit_denom s d.
Proof. destruct d; reflexivity. Qed.
Lemma abs_payout s Q d : payout_of (abs s Q) d = proceeds_denom s d.
Proof. destruct d; reflexivity. Qed.

(** ** Finding and changing orders *)
Lemma lives_of_cons e Q : lives_of (e :: Q) = (if en_live e then [strip e] else []) ++ lives_of Q.
Proof. unfold lives_of. cbn. destruct (en_live e); reflexivity. Qed.
Lemma find_lives t id Q : find_order t id (lives_of Q) = None -> forall e, e ∈ Q -> en_live e = true -> ~ (en_tick e = t /\ en_id e = id).
Proof.
  intros H e He Hl [<- <-]. unfold find_order in H. eapply find_none in H.
  2:{ apply in_map, filter_In. split; [apply elem_of_list_In, He|exact Hl]. }
  unfold is_order in H. cbn in H. rewrite !Z.eqb_refl in H. discriminate.
Qed.
Lemma find_lives_some t id Q r : find_order t id (lives_of Q) = Some r ->
  exists e, e ∈ Q /\ en_live e = true /\ en_tick e = t /\ en_id e = id /\ r = strip e.
Proof.
  intros H. apply find_some in H as [H E]. apply in_map_iff in H as (e & <- & H). apply filter_In in H as [H Hl]. exists e.
  apply elem_of_list_In in H. unfold is_order in E. apply andb_prop in E as [E1 E2]. apply Z.eqb_eq in E1, E2. auto.
Qed.
Lemma find_lives_in t id Q e : StronglySorted Z.lt (map en_id Q) -> e ∈ Q -> en_live e = true -> en_tick e = t -> en_id e = id ->
  find_order t id (lives_of Q) = Some (strip e).
Proof.
  intros Hs He Hl Et Ei. destruct (find_order t id (lives_of Q)) as [r|] eqn:E.
  - apply find_lives_some in E as (e' & He' & _ & _ & Ei' & ->). f_equal. f_equal. eapply (ids_inj Q); eauto. congruence.
  - exfalso. eapply find_lives; eauto.
Qed.
Lemma change_lives t id phi f Q :
  (forall e, e ∈ Q -> en_tick e = t -> en_id e = id ->
     if en_live e then (match f (strip e) with Some o => en_live (phi e) = true /\ strip (phi e) = o | None => en_live (phi e) = false end)
     else en_live (phi e) = false) ->
  lives_of (map (fun e => if en_is t id e then phi e else e) Q) = change t id f (lives_of Q).
Proof.
  induction Q as [|e Q IH]; intros H; [reflexivity|]. cbn [map]. rewrite !lives_of_cons. unfold change in *. rewrite flat_map_app, <- IH by (intros; apply H; [constructor|..]; assumption).
  f_equal. assert (Es : is_order t id (strip e) = en_is t id e) by reflexivity.
  destruct (en_is t id e) eqn:E.
  - apply en_is_true in E as [E1 E2]. specialize (H e ltac:(constructor) E1 E2). destruct (en_live e).
    + cbn [flat_map]. rewrite Es, app_nil_r. destruct (f (strip e)) as [o|]; [destruct H as [-> ->]|rewrite H]; reflexivity.
    + rewrite H. reflexivity.
  - destruct (en_live e); [|reflexivity]. cbn [flat_map]. rewrite Es. reflexivity.
Qed.
Lemma cancel_lives s G Q t id : refines s G Q -> (forall e, e ∈ Q -> en_tick e = t -> en_id e = id -> en_filled e = 0) ->
  lives_of (ideal_cancel t id Q) = change t id (fun _ => None) (lives_of Q).
Proof.
  intros Hr Hf. unfold ideal_cancel. apply change_lives. intros e He Et Ei. specialize (Hf e He Et Ei).
  assert (en_live (en_set e 0 (en_filled e) (en_settled e) (en_refunded e + en_open e)) = false) as ->.
  { unfold en_live. cbn. rewrite Hf. reflexivity. }
  destruct (en_live e); reflexivity.
Qed.
Lemma claim_lives s G Q t id : refines s G Q ->
  lives_of (ideal_claim t id Q) = change t id (fun o => if re_open o =? 0 then None else Some (set_parts o (re_open o) 0)) (lives_of Q).
Proof.
  intros Hr. unfold ideal_claim. apply change_lives. intros e He Et Ei. pose proof (rf_entry _ _ _ Hr _ He) as Ho.
  pose proof (eo_open _ _ Ho). pose proof (eo_filled _ _ Ho).
  assert (El : en_live (en_set e (en_open e) 0 (en_settled e + en_filled e) (en_refunded e)) = (0 <? en_open e)).
  { unfold en_live. cbn. f_equal. lia. }
  rewrite El. cbn [strip re_open]. unfold en_live. destruct (Z.ltb_spec 0 (en_open e + en_filled e)).
  - destruct (Z.eqb_spec (en_open e) 0); [apply Z.ltb_ge; lia|]. split; [apply Z.ltb_lt; lia|reflexivity].
  - apply Z.ltb_ge. lia.
Qed.

(** ** Claims *)
Lemma settings_frame s s' : admin_data s' = admin_data s -> settings_of s' = settings_of s.
Proof. unfold admin_data, settings_of, active. intros [= -> -> -> -> -> -> ->]. reflexivity. Qed.
Lemma denom_frame s s' d : s_orderbook s' = s_orderbook s -> deposit_denom s' d = deposit_denom s d.
Proof. unfold deposit_denom. intros ->. reflexivity. Qed.
Lemma abs_frame s s' Q : admin_data s' = admin_data s -> s_orderbook s' = s_orderbook s -> next_id s' = next_id s ->
  abs s' Q = abs s Q.
Proof. intros H1 H2 H3. unfold abs. rewrite (settings_frame _ _ H1), !(denom_frame _ _ _ H2), H3. reflexivity. Qed.
Lemma same_admin_data s s' : same_admin s s' -> admin_data s' = admin_data s.
Proof. intros []. unfold admin_data. congruence. Qed.
Lemma with_abs s Q Q' : with_orders (abs s Q) (lives_of Q') = abs s Q'.
Proof. reflexivity. Qed.
Lemma claim_gross_strip en : earned (strip en) = claim_gross en.
Proof. reflexivity. Qed.
Lemma payments_abs s Q sender en : payments (abs s Q) sender (strip en) = claim_pays s sender en.
Proof. unfold payments. rewrite abs_payout. reflexivity. Qed.
Lemma claim1_machine ob sender s G Q t id s' G' a ms o :
  inv s G -> refines s G Q -> s_orderbook s = Some ob -> claim1 sender s G t id s' G' (a, ms, o) ->
  claim_one sender t id (abs s Q) =
    Some (abs s' (ideal_claim t id Q), ms, generate_claimed_order_event sender o a (get_expected_denom ob (o_dir o)) (get_opposite_denom ob (o_dir o))).
Proof.
  intros Hi Hr Eob Hc. destruct (claim_entry _ _ _ _ _ _ _ _ _ _ _ Hi Hr Hc) as (en & o0 & Hen & D1 & D2 & Hf & Hop & Eo & Hd & -> & -> & Eq & Eid & Es).
  assert (Hl : en_live en = true) by (unfold en_live; apply Z.ltb_lt; lia).
  unfold claim_one. cbn [abs ma_orders]. rewrite (find_lives_in t id Q en (rf_ids _ _ _ Hr) Hen Hl D1 D2). cbn [strip re_filled].
  destruct (Z.ltb_spec 0 (en_filled en)); [|lia]. f_equal. f_equal; [f_equal|].
  - rewrite <- (claim_lives s G Q t id Hr). apply claim1_frame in Hc as (A1 & A2 & A3 & _).
    rewrite (abs_frame s s'); [reflexivity|apply same_admin_data; assumption|assumption|unfold next_id; rewrite A3; reflexivity].
  - apply payments_abs.
  - assert (Hid : o_tick o = t /\ o_id o = id /\ o_dir o = en_dir en /\ o_owner o = en_owner en /\ o_placed_quantity o = en_placed en).
    { unfold identity in Eid. injection Eid as -> -> -> -> _ -> _. destruct Hd as (K1 & K2 & K3 & K4 & _ & _ & K5 & _). repeat split; congruence. }
    destruct Hid as (I1 & I2 & I3 & I4 & I5). unfold announcement, generate_claimed_order_event. fold (strip en). rewrite abs_deposit, abs_payout. cbn [strip re_tick re_id re_open re_owner re_dir re_placed].
    rewrite I1, I2, I3, I4, I5, Eq. unfold proceeds_denom. rewrite !(den_eq _ _ _ Eob), <- opp_denom, D1, D2. reflexivity.
Qed.
Lemma miss1_machine sender s G Q t id s' G' :
  inv s G -> refines s G Q -> miss1 s G t id s' G' -> claim_one sender t id (abs s Q) = None /\ abs s' Q = abs s Q.
Proof.
  intros Hi Hr Hm. split.
  - unfold claim_one. cbn [abs ma_orders]. destruct (find_order t id (lives_of Q)) as [r|] eqn:E; [|reflexivity].
    apply find_lives_some in E as (en & Hen & Hl & D1 & D2 & ->). cbn [strip re_filled].
    enough (en_filled en = 0) as -> by reflexivity. destruct (live_order _ _ _ Hi Hr en Hen Hl) as (o & n & c & Eo & Hd & Hli & He & Ef & _).
    rewrite D1, D2 in *. destruct Hm as [Hn|o' n' c' tr' c'' Eo' Hl' He' Hz _ _]; [congruence|]. rewrite Eo in Eo'. injection Eo' as <-.
    destruct Hd as (_ & _ & K3 & _). rewrite K3 in *. rewrite Ef.
    destruct (entry_of _ _ _ Hr _ _ _ _ _ Eo Hl') as (en2 & Hen2 & Hd2 & _ & Ef2). rewrite Hz in Ef2.
    assert (en2 = en) as ->; [|rewrite <- Ef; assumption].
    destruct Hd2 as (_ & K2 & _). eapply (ids_inj Q); [apply (rf_ids _ _ _ Hr)|assumption|assumption|congruence].
  - apply miss1_frame in Hm as (A1 & A2 & A3 & _). apply abs_frame; [apply same_admin_data; assumption|assumption|unfold next_id; rewrite A3; reflexivity].
Qed.
Lemma claims_machine ob sender s G l s' G' ms es :
  claims ob sender s G l s' G' ms es -> forall Q, s_orderbook s = Some ob -> refines s G Q ->
  claim_all sender l (abs s Q) = (abs s' (foldl (fun Q ev => ideal_claim (ce_tick ev) (ce_id ev) Q) Q es), ms, es).
Proof.
  induction 1 as [s G|s G t id l s1 G1 s2 G2 ms es Hi Hm Hi1 Hc IH|s G t id l s1 G1 a bank o s2 G2 ms es Hi Hm Hi1 Hc IH]; intros Q Eob Hr.
  - reflexivity.
  - cbn [claim_all]. destruct (miss1_machine sender _ _ _ _ _ _ _ Hi Hr Hm) as [-> <-]. apply IH; [|eapply ref_miss1; eauto].
    apply miss1_frame in Hm as (_ & -> & _). assumption.
  - cbn [claim_all]. rewrite (claim1_machine _ _ _ _ _ _ _ _ _ _ _ _ Hi Hr Eob Hm). rewrite IH; [|apply claim1_frame in Hm as (_ & -> & _); assumption|exact (ref_claim1 _ _ _ _ _ _ _ _ _ Hi Hr Hm)].
    cbn [foldl generate_claimed_order_event ce_tick ce_id]. destruct (claim1_event _ _ _ _ _ _ _ _ _ _ Hi Hm) as [-> ->]. reflexivity.
Qed.

(** ** Administration *)
Lemma auth_machine e i msg s s' r Q :
  auth_dispatch e i msg s = (s', Ok r) -> m_auth e (i_sender i) msg (abs s Q) = Some (abs s' Q, r).
Proof.
  destruct msg; cbn [auth_dispatch];
    unfold dispatch_transfer_admin, dispatch_cancel_admin_transfer, dispatch_claim_admin, dispatch_reject_admin_transfer,
      dispatch_renounce_adminship, dispatch_offer_moderator, dispatch_claim_moderator, dispatch_reject_moderator_offer,
      dispatch_set_active, dispatch_set_maker_fee, dispatch_set_maker_fee_recipient, ensure_is_admin, ensure_is_admin_or_moderator,
      offer_admin, remove_admin_transfer, update_admin, remove_admin, offer_moderator, remove_moderator_offer, update_moderator, set_active, set_maker_fee, addr_validate;
    intros H.
  all: repeat match type of H with
       | mbindM _ _ _ = _ => first [rewrite bind_read in H | rewrite bind_mod in H | rewrite bind_assoc in H |
            (let x := fresh "x" in let s1 := fresh "s1" in let H1 := fresh "Hm" in
             apply bind_inv in H as (x & s1 & H1 & H);
             first [ apply mensure_inv in H1 as [-> H1] | apply mlift_inv in H1 as [-> H1] | apply mret_inv in H1 as [-> ->] ])]
       | mret _ _ = _ => apply mret_inv in H as [-> ->]
       end.
  all: repeat match goal with
       | H : rensure _ _ = Ok _ |- _ => apply rensure_inv in H
       | H : bool_decide (Some _ = _) = true |- _ => apply bool_decide_eq_true in H; symmetry in H
       | H : bool_decide (_ = Some _) = true |- _ => apply bool_decide_eq_true in H
       | H : _ || _ = true |- _ => apply orb_true_iff in H
       end.
  all: unfold m_auth, abs, settings_of; cbn [ma_set].
  all: rewrite ?(bool_decide_true _ ltac:(eassumption)); rewrite ?bool_decide_true by assumption.
  all: repeat match goal with H : e_addr_valid _ _ = true |- _ => rewrite H end; cbn [andb orb].
  all: try reflexivity.
  - destruct Hm as [Hm|Hm]; rewrite Hm, ?orb_true_r; reflexivity.
  - change (5 * 10 ^ 16) with MAX_MAKER_FEE_PERCENTAGE. rewrite Hm0. injection Hm1 as <-. reflexivity.
Qed.
Lemma role_machine e msg s s' r Q :
  is_role_sudo msg = true -> sudo e msg s = (s', Ok r) -> m_sudo e msg (abs s Q) = Some (abs s' Q, r).
Proof.
  intros Hrole H. unfold sudo in H. apply bind_inv in H as (u & s1 & H1 & H). apply active_inv in H1 as [-> Ha]. apply active_ne in Ha.
  destruct msg; try discriminate; unfold update_admin, remove_admin, set_active, addr_validate in H;
    repeat match type of H with
       | mbindM _ _ _ = _ => first [rewrite bind_read in H | rewrite bind_mod in H | rewrite bind_assoc in H |
            (let x := fresh "x" in let s1 := fresh "s1" in let H1 := fresh "Hm" in
             apply bind_inv in H as (x & s1 & H1 & H); apply mlift_inv in H1 as [-> H1])]
       | mret _ _ = _ => apply mret_inv in H as [-> ->]
       end; unfold m_sudo, abs, settings_of; cbn [ma_set].
  1: apply rensure_inv in Hm; rewrite Hm, andb_true_r.
  all: match goal with |- context [if ?c then ?a else None] => transitivity a; [destruct c; [reflexivity|congruence]|reflexivity] end.
Qed.
