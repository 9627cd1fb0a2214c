(** * PropAdmin: roles, switch, fees and instantiation (C25-C29, C37, C38). *)
From Verif Require Import Base Dec Types State TickMath Sumtree Tick Order Auth Contract Query World Tests SpecMath TickMathProofs
  TreeDefs Exec SumtreeProofs SumtreeRebalance SumtreeInsert PrefixSum SumtreeRoot SumtreeFail Ghost Inv StepPlace StepCancel StepClaim SwapPlan StepSwap Trans
  Spec Reach Refine RefineStep Reserve Solvency Books SpecProps PropBase PropOrders SpecAdmin.

(** ** Exact behaviour of the administration messages *)
Lemma ensure_true {S} b er (s : S) : b = true -> mensure b er s = (s, Ok tt).
Proof. intros ->. reflexivity. Qed.

Lemma auth_exact e i m s :
  (may e s (i_sender i) m -> exists s' r, auth_dispatch e i m s = (s', Ok r) /\ admin_data s' = effect s (i_sender i) m /\
     trading_data s' = trading_data s /\ r_msgs r = [] /\ r_events r = []) /\
  (~ may e s (i_sender i) m -> exists s' er, auth_dispatch e i m s = (s', Err er)).
Proof.
  destruct m; cbn [auth_dispatch may effect];
    unfold dispatch_transfer_admin, dispatch_cancel_admin_transfer, dispatch_claim_admin, dispatch_reject_admin_transfer,
      dispatch_renounce_adminship, dispatch_offer_moderator, dispatch_claim_moderator, dispatch_reject_moderator_offer,
      dispatch_set_active, dispatch_set_maker_fee, dispatch_set_maker_fee_recipient, ensure_is_admin, ensure_is_admin_or_moderator,
      offer_admin, remove_admin_transfer, update_admin, remove_admin, offer_moderator, remove_moderator_offer, update_moderator, set_active, set_maker_fee,
      addr_validate, is_admin, is_moderator; rewrite ?bind_read.
  all: unfold mbindM, mensure, mlift, rensure, mread, mmod, mret.
  all: assert (five_percent = MAX_MAKER_FEE_PERCENTAGE) as E5 by reflexivity; try rewrite E5.
  all: repeat match goal with |- context [bool_decide ?P] => destruct (bool_decide_reflect P); cbn [orb] end;
       try (destruct (e_addr_valid e _) eqn:Ev); try (destruct (Z.leb_spec fee MAX_MAKER_FEE_PERCENTAGE));
       (split; [intros Hm|intros Hn]).
  all: first [ solve [do 2 eexists; split; [reflexivity|]; repeat split; reflexivity]
             | solve [do 2 eexists; reflexivity]
             | solve [exfalso; intuition (congruence || lia)]
             | exfalso; apply Hn; split; congruence ].
Qed.

Lemma balance_credits w c s' : forall denom,
  balance (mkWorld (w_self w) s' (credits (w_bal w) (call_funds c))) denom = balance w denom + received (call_funds c) denom.
Proof.
  intros denom. rewrite (bal_exact w _ c []); [cbn; lia|]. intros dn. cbn [w_bal msgs_in]. cbn. lia.
Qed.

(** C27: an Auth message goes through exactly when its sender is entitled to send it; then it has
    exactly the stated effect on switch, fee and roles, leaves all trading data alone and pays
    nothing (coins attached to it stay with the contract).  Otherwise nothing changes. *)
Theorem C27_auth_exact :
  forall e w i m,
  (may e (w_st w) (i_sender i) m ->
     exists w' r, step e w (CExec i (AuthMsg m)) = (w', Done r) /\
       admin_data (w_st w') = effect (w_st w) (i_sender i) m /\ trading_data (w_st w') = trading_data (w_st w) /\
       r_msgs r = [] /\ r_events r = [] /\ w_self w' = w_self w /\
       forall denom, balance w' denom = balance w denom + received (i_funds i) denom) /\
  (~ may e (w_st w) (i_sender i) m -> step e w (CExec i (AuthMsg m)) = (w, Failed)).
Proof.
  intros e w i m. destruct (auth_exact e i m (w_st w)) as [H1 H2]. split.
  - intros Hm. destruct (H1 Hm) as (s' & r & E & A1 & A2 & A3 & A4).
    exists (mkWorld (w_self w) s' (credits (w_bal w) (i_funds i))), r.
    split. { apply step_ok; [exact E|]. rewrite A3. reflexivity. }
    cbn [w_st w_self]. repeat (split; [assumption || reflexivity|]).
    apply (balance_credits w (CExec i (AuthMsg m)) s').
  - intros Hm. destruct (H2 Hm) as (s' & er & E). unfold step. cbn [call_run call_funds].
    assert (Ex : execute e i (AuthMsg m) (w_st w) = (s', Err er)) by exact E. rewrite Ex. reflexivity.
Qed.

(** The three role and switch messages of the chain. *)
Theorem C27_chain_exact :
  forall e w m, is_role_sudo m = true ->
  (chain_may e (w_st w) m ->
     exists w' r, step e w (CSudo m) = (w', Done r) /\
       admin_data (w_st w') = chain_effect (w_st w) m /\ trading_data (w_st w') = trading_data (w_st w) /\
       r_msgs r = [] /\ (forall denom, balance w' denom = balance w denom)) /\
  (~ chain_may e (w_st w) m -> step e w (CSudo m) = (w, Failed)).
Proof.
  intros e w m Hm. unfold step. cbn [call_run]. unfold sudo, ensure_is_active. rewrite bind_assoc, bind_read.
  fold (active (w_st w)).
  destruct m; try discriminate; cbn [chain_may chain_effect];
    unfold update_admin, remove_admin, set_active, addr_validate, mbindM, mensure, mlift, rensure, mmod, mret;
    destruct (Spec.active (w_st w)); try (destruct (e_addr_valid e _));
    (split; [intros H|intros H; try reflexivity]);
    solve [ do 2 eexists; split; [reflexivity|]; split; [reflexivity|]; split; [reflexivity|]; split; [reflexivity|]; reflexivity
          | exfalso; intuition congruence ].
Qed.

(** All other calls leave roles, fee and switch alone. *)
Lemma admin_of s s' : same_admin s s' -> admin_data s' = admin_data s.
Proof. intros []. unfold admin_data. congruence. Qed.
Theorem C27_others :
  forall e w c, reachable w -> call_ok (w_self w) c = true -> administers c = false ->
  admin_data (w_st (fst (step e w c))) = admin_data (w_st w).
Proof.
  intros e w c Hre Hok Hc. destruct (step e w c) as [w' [r|]] eqn:E; cbn [fst]; [|rewrite (step_failed _ _ _ _ E); reflexivity].
  destruct (reachable_inv _ Hre) as (G & Hi).
  destruct (step_done _ _ _ _ _ _ Hi Hok E) as (G' & Ht & _ & _ & _).
  destruct c as [i [t d q b|t id|t id|l|m]|m| |]; try discriminate.
  - destruct (trans_place _ _ _ _ _ _ _ _ _ _ _ Ht) as (ob & _ & _ & _ & _ & -> & _). reflexivity.
  - destruct (trans_cancel _ _ _ _ _ _ _ _ _ Ht) as (ob & o & n & c & m' & tr' & c' & _ & _ & _ & _ & _ & _ & _ & _ & _ & -> & _). reflexivity.
  - destruct (trans_claim _ _ _ _ _ _ _ _ _ Ht) as (ob & a & ms & o & _ & _ & _ & Hcl & _).
    apply claim1_frame in Hcl as (F & _). apply admin_of. exact F.
  - destruct (trans_batch _ _ _ _ _ _ _ _ Ht) as (ob & ms & es & _ & _ & _ & _ & Hcl & _).
    apply claims_frame in Hcl as (F & _). apply admin_of. exact F.
  - destruct m; try discriminate.
    + destruct (trans_swap _ _ _ (swap_call sender token_in out_denom min_out fee None) _ _ _ _ _ _ _ _ _ eq_refl Ht) as (d & ob & l & fs & rest & pr & _ & _ & _ & _ & _ & _ & _ & _ & -> & _). reflexivity.
    + destruct (trans_swap _ _ _ (swap_call sender token_in out_denom min_out fee (Some target)) _ _ _ _ _ _ _ _ _ eq_refl Ht) as (d & ob & l & fs & rest & pr & _ & _ & _ & _ & _ & _ & _ & _ & -> & _). reflexivity.
    + exfalso. unfold step in E. cbn [call_run] in E. unfold sudo, ensure_is_active in E. rewrite bind_assoc, bind_read in E.
      unfold mbindM, mensure, mlift, rensure in E. destruct (unwrap_or _ _) in E; discriminate.
  - unfold step in E. cbn in E. injection E as <- <-. reflexivity.
  - unfold step in E. cbn in E. injection E as <- <-. reflexivity.
Qed.

(** Permissions are decidable. *)
Lemma may_dec e s x m : may e s x m \/ ~ may e s x m.
Proof.
  assert (D : forall P : Prop, Decision P -> P \/ ~ P) by (intros P []; auto).
  unfold may, is_admin, is_moderator. destruct m; apply D; apply _.
Qed.
Lemma chain_may_dec e s m : chain_may e s m \/ ~ chain_may e s m.
Proof.
  assert (D : forall P : Prop, Decision P -> P \/ ~ P) by (intros P []; auto).
  unfold chain_may. destruct m; try (right; tauto); apply D; apply _.
Qed.

(** What a successful administration call did. *)
Lemma admin_step e w c : reachable w -> call_ok (w_self w) c = true ->
  (fst (step e w c) = w /\ snd (step e w c) = Failed) \/
  (exists i m, c = CExec i (AuthMsg m) /\ may e (w_st w) (i_sender i) m /\ admin_data (w_st (fst (step e w c))) = effect (w_st w) (i_sender i) m) \/
  (exists m, c = CSudo m /\ chain_may e (w_st w) m /\ admin_data (w_st (fst (step e w c))) = chain_effect (w_st w) m) \/
  (administers c = false /\ admin_data (w_st (fst (step e w c))) = admin_data (w_st w)).
Proof.
  intros Hre Hok. destruct (step e w c) as [w' [r|]] eqn:E; cbn [fst snd]; [|rewrite (step_failed _ _ _ _ E); auto]. right.
  assert (Ho : administers c = false -> admin_data (w_st w') = admin_data (w_st w)).
  { intros Ha. pose proof (C27_others e w c Hre Hok Ha) as X. rewrite E in X. exact X. }
  destruct c as [i [t d q b|t id|t id|l|m]|m| |]; auto.
  - left. exists i, m. split; [reflexivity|]. destruct (C27_auth_exact e w i m) as [H1 H2].
    destruct (auth_exact e i m (w_st w)) as [H3 H4].
    assert (Hm : may e (w_st w) (i_sender i) m).
    { destruct (may_dec e (w_st w) (i_sender i) m) as [|Hn]; [assumption|]. rewrite (H2 Hn) in E. discriminate. }
    split; [assumption|]. destruct (H1 Hm) as (w2 & r2 & E2 & A & _). rewrite E in E2. injection E2 as <- <-. exact A.
  - destruct (is_role_sudo m) eqn:Em; [|auto]. right. left. exists m. split; [reflexivity|].
    destruct (C27_chain_exact e w m Em) as [H1 H2].
    assert (Hm : chain_may e (w_st w) m).
    { destruct (chain_may_dec e (w_st w) m) as [|Hn]; [assumption|]. rewrite (H2 Hn) in E. discriminate. }
    split; [assumption|]. destruct (H1 Hm) as (w2 & r2 & E2 & A & _). rewrite E in E2. injection E2 as <- <-. exact A.
Qed.

(** C27: who can change what.  In a transaction from a reachable state
    - the fee rate changes only by SetMakerFee of the admin, to at most 5%;
    - the fee recipient changes only by SetMakerFeeRecipient of the admin;
    - the switch changes only by SetActive of admin or moderator, or by the chain while the book is active;
    - the admin changes only when the offered address itself claims, the admin renounces, or by the chain;
    - the admin offer changes only by the admin or by the offered address;
    - the moderator changes only when the offered address itself claims;
    - the moderator offer changes only by the admin or by the offered address. *)
Theorem C27_who_changes :
  forall e w c, reachable w -> call_ok (w_self w) c = true ->
  let s := w_st w in let s' := w_st (fst (step e w c)) in
  (s_fee s' <> s_fee s -> exists i f, c = CExec i (AuthMsg (SetMakerFee f)) /\ is_admin s (i_sender i) /\ s_fee s' = Some f /\ f <= five_percent) /\
  (s_recipient s' <> s_recipient s -> exists i a, c = CExec i (AuthMsg (SetMakerFeeRecipient a)) /\ is_admin s (i_sender i) /\
     s_recipient s' = Some a /\ e_addr_valid e a = true) /\
  (s_active s' <> s_active s ->
     (exists i b, c = CExec i (AuthMsg (SetActive b)) /\ (is_admin s (i_sender i) \/ is_moderator s (i_sender i)) /\ s_active s' = Some b) \/
     (exists b, c = CSudo (SudoSetActive b) /\ active s = true /\ s_active s' = Some b)) /\
  (s_admin s' <> s_admin s ->
     (exists i, c = CExec i (AuthMsg ClaimAdmin) /\ s_admin_offer s = Some (i_sender i) /\ s_admin s' = Some (i_sender i)) \/
     (exists i, c = CExec i (AuthMsg RenounceAdminship) /\ is_admin s (i_sender i) /\ s_admin s' = None) \/
     (exists a, c = CSudo (SudoTransferAdmin a) /\ active s = true /\ s_admin s' = Some a) \/
     (c = CSudo SudoRemoveAdmin /\ active s = true /\ s_admin s' = None)) /\
  (s_admin_offer s' <> s_admin_offer s ->
     (exists i a, c = CExec i (AuthMsg (TransferAdmin a)) /\ is_admin s (i_sender i) /\ s_admin_offer s' = Some a) \/
     (exists i, c = CExec i (AuthMsg CancelAdminTransfer) /\ is_admin s (i_sender i) /\ s_admin_offer s' = None) \/
     (exists i, (c = CExec i (AuthMsg ClaimAdmin) \/ c = CExec i (AuthMsg RejectAdminTransfer)) /\
        s_admin_offer s = Some (i_sender i) /\ s_admin_offer s' = None)) /\
  (s_moderator s' <> s_moderator s ->
     exists i, c = CExec i (AuthMsg ClaimModerator) /\ s_moderator_offer s = Some (i_sender i) /\ s_moderator s' = Some (i_sender i)) /\
  (s_moderator_offer s' <> s_moderator_offer s ->
     (exists i a, c = CExec i (AuthMsg (OfferModerator a)) /\ is_admin s (i_sender i) /\ s_moderator_offer s' = Some a) \/
     (exists i, (c = CExec i (AuthMsg ClaimModerator) \/ c = CExec i (AuthMsg RejectModeratorOffer)) /\
        s_moderator_offer s = Some (i_sender i) /\ s_moderator_offer s' = None)).
Proof.
  intros e w c Hre Hok s s'. unfold s'.
  destruct (admin_step e w c Hre Hok) as [[-> _]|[(i & m & -> & Hm & E)|[(m & -> & Hm & E)|[_ E]]]].
  - fold s. repeat split; intros H; exfalso; apply H; reflexivity.
  - fold s s' in Hm, E |- *.
    destruct m; cbn [may effect] in Hm, E; unfold admin_data in E; injection E as E1 E2 E3 E4 E5 E6 E7;
      rewrite E1, E2, E3, E4, E5, E6, E7; repeat split; intros Hne; try (exfalso; apply Hne; reflexivity).
    all: try (match type of Hm with _ /\ _ => destruct Hm as [Hm Hm2] end).
    all: first [ solve [eauto 10] | solve [left; eauto 10] | solve [right; left; eauto 10] | solve [right; right; eauto 10] | solve [right; eauto 10] | idtac].
    all: try solve [left; do 2 eexists; eauto 10].
  - fold s s' in Hm, E |- *.
    destruct m; cbn [chain_may chain_effect] in Hm, E; try tauto; unfold admin_data in E; injection E as E1 E2 E3 E4 E5 E6 E7;
      rewrite E1, E2, E3, E4, E5, E6, E7; repeat split; intros Hne; try (exfalso; apply Hne; reflexivity).
    + destruct Hm. right. right. left. eauto.
    + right. right. right. auto.
    + right. eauto.
  - fold s s' in E |- *. unfold admin_data in E; injection E as E1 E2 E3 E4 E5 E6 E7;
      rewrite E1, E2, E3, E4, E5, E6, E7; repeat split; intros Hne; exfalso; apply Hne; reflexivity.
Qed.

(** An admin without a pending offer who stays silent, and whom the chain does not replace, stays admin,
    and neither fee nor recipient nor the offers move, whatever all others send. *)
Theorem C27_admin_keeps :
  forall w a h, reachable w -> history w h -> is_admin (w_st w) a -> s_admin_offer (w_st w) = None ->
  (forall ec, ec ∈ h -> auth_by a (snd ec) = false /\ is_sudo_admin (snd ec) = false) ->
  let s := w_st w in let s' := w_st (run w h) in
  is_admin s' a /\ s_admin_offer s' = None /\ s_fee s' = s_fee s /\ s_recipient s' = s_recipient s /\
  (s_moderator_offer s = None -> s_moderator s' = s_moderator s /\ s_moderator_offer s' = None).
Proof.
  intros w a h. revert w. induction h as [|[e c] h IH]; intros w Hre Hh Ha Ho Hq; cbv zeta; cbn [run]; [auto 10|].
  inversion Hh as [|x l Hok Hh']; subst. cbn [snd] in Hok.
  assert (Hre' : reachable (fst (step e w c))) by (apply step_reach; assumption).
  destruct (Hq (e, c) ltac:(constructor)) as [Q1 Q2]. cbn [snd] in Q1, Q2.
  assert (K : let s := w_st w in let s' := w_st (fst (step e w c)) in
    is_admin s' a /\ s_admin_offer s' = None /\ s_fee s' = s_fee s /\ s_recipient s' = s_recipient s /\
    (s_moderator_offer s = None -> s_moderator s' = s_moderator s /\ s_moderator_offer s' = None)).
  { cbv zeta. destruct (admin_step e w c Hre Hok) as [[-> _]|[(i & m & -> & Hm & E)|[(m & -> & Hm & E)|[_ E]]]].
    - auto 10.
    - cbn [auth_by] in Q1. apply bool_decide_eq_false in Q1. unfold is_admin in Ha.
      destruct m; cbn [may effect] in Hm, E; unfold is_admin in Hm; unfold admin_data in E; injection E as E1 E2 E3 E4 E5 E6 E7;
        rewrite ?E1, ?E2, ?E3, ?E4, ?E5, ?E6, ?E7; unfold is_admin; try rewrite E4;
        try (exfalso; intuition congruence; fail).
      + split; [assumption|]. split; [assumption|]. split; [reflexivity|]. split; [reflexivity|]. intros Hn. rewrite Hn in Hm. discriminate.
      + split; [assumption|]. split; [assumption|]. split; [reflexivity|]. split; [reflexivity|]. intros Hn. rewrite Hn in Hm. destruct Hm; discriminate.
      + auto 10.
    - destruct m; try discriminate; cbn [chain_may chain_effect] in Hm, E; try tauto; unfold admin_data in E; injection E as E1 E2 E3 E4 E5 E6 E7.
      unfold is_admin. rewrite E2, E3, E4, E5, E6, E7. auto 10.
    - unfold admin_data in E; injection E as E1 E2 E3 E4 E5 E6 E7. unfold is_admin. rewrite E2, E3, E4, E5, E6, E7. auto 10. }
  cbv zeta in K. destruct K as (K1 & K2 & K3 & K4 & K5).
  assert (Hh2 : history (fst (step e w c)) h) by (unfold history; rewrite step_self; exact Hh').
  destruct (IH _ Hre' Hh2 K1 K2) as (R1 & R2 & R3 & R4 & R5). { intros ec Hec. apply Hq. right. exact Hec. }
  split; [assumption|]. split; [assumption|]. split; [congruence|]. split; [congruence|].
  intros Hn. destruct (K5 Hn) as [X1 X2]. destruct (R5 X2). split; congruence.
Qed.

(** Handing over works: offer by the admin, then claim by the offered address. *)
Theorem C27_handover :
  forall e e' w a x, is_admin (w_st w) a -> e_addr_valid e x = true -> e_addr_valid e' x = true ->
  let w' := run w [(e, c_auth a (TransferAdmin x)); (e', c_auth x ClaimAdmin)] in
  is_admin (w_st w') x /\ s_admin_offer (w_st w') = None /\ trading_data (w_st w') = trading_data (w_st w).
Proof.
  intros e e' w a x Ha V1 V2. cbn [run]. cbv zeta.
  destruct (proj1 (C27_auth_exact e w (mkInfo a []) (TransferAdmin x)) (conj Ha V1)) as (w1 & r1 & E1 & D1 & T1 & _).
  change (c_auth a (TransferAdmin x)) with (CExec (mkInfo a []) (AuthMsg (TransferAdmin x))). rewrite E1. cbn [fst]. cbn [effect] in D1. injection D1 as _ _ _ _ D _ _.
  destruct (proj1 (C27_auth_exact e' w1 (mkInfo x []) ClaimAdmin) (conj D V2)) as (w2 & r2 & E2 & D2 & T2 & _).
  unfold c_auth. rewrite E2. cbn [fst]. cbn [effect i_sender] in D2. unfold admin_data in D2. injection D2 as _ _ _ X Y _ _.
  split; [exact X|]. split; [exact Y|]. congruence.
Qed.

(** ** C25: the switch *)
(** While the book is switched off every trading message and every message of the chain fails and
    changes nothing. *)
Theorem C25_inactive :
  forall e w c, active (w_st w) = false ->
  (exists i m, c = CExec i m /\ is_auth m = false) \/ (exists m, c = CSudo m) ->
  step e w c = (w, Failed).
Proof.
  intros e w c Ha Hc.
  assert (E : ensure_is_active (w_st w) = (w_st w, Err EInactive)).
  { unfold ensure_is_active. rewrite bind_read. unfold active in Ha. rewrite Ha. reflexivity. }
  destruct Hc as [(i & m & -> & Hm)|(m & ->)]; unfold step; cbn [call_run].
  - unfold execute. destruct m; try discriminate; unfold mbindM; rewrite E; reflexivity.
  - unfold sudo. unfold mbindM. rewrite E. reflexivity.
Qed.
(** Hence while it stays off, over any number of transactions, no order, tick, total or tree
    changes and nothing is paid out. *)
Theorem C25_frozen :
  forall h w, active (w_st w) = false ->
  (forall ec, ec ∈ h -> switches_on (snd ec) = false) ->
  active (w_st (run w h)) = false /\ trading_data (w_st (run w h)) = trading_data (w_st w) /\
  collect r_msgs w h = [].
Proof.
  induction h as [|[e c] h IH]; intros w Ha Hq; cbn [run collect]; [auto|].
  assert (K : active (w_st (fst (step e w c))) = false /\ trading_data (w_st (fst (step e w c))) = trading_data (w_st w) /\
    match snd (step e w c) with Done r => r_msgs r | Failed => [] end = []).
  { pose proof (Hq (e, c) ltac:(constructor)) as Hon. cbn [snd] in Hon.
    destruct c as [i m|m| |cn].
    - destruct (is_auth m) eqn:Em; [|rewrite (C25_inactive e w _ Ha) by eauto; cbn; auto].
      destruct m as [| | | |m]; try discriminate. destruct (C27_auth_exact e w i m) as [H1 H2].
      destruct (may_dec e (w_st w) (i_sender i) m) as [Hm|Hn]; [|rewrite (H2 Hn); cbn; auto].
      destruct (H1 Hm) as (w' & r & E & D & T & M & _). rewrite E. cbn [fst snd]. split; [|auto].
      unfold admin_data in D. destruct m as [| | | | | | | |[]| |]; try discriminate; cbn [effect] in D; injection D as D1 _ _ _ _ _ _; unfold active in *; rewrite D1; auto.
    - rewrite (C25_inactive e w _ Ha) by eauto. cbn. auto.
    - unfold step. cbn. auto.
    - unfold step. cbn. auto. }
  destruct K as (K1 & K2 & K3). rewrite K3. cbn [app].
  destruct (IH _ K1) as (R1 & R2 & R3). { intros ec Hec. apply Hq. right. exact Hec. }
  split; [assumption|]. split; [congruence|assumption].
Qed.

(** Administration does not depend on the switch (the permission [may] does not mention it): an
    Auth message succeeds with the book off exactly when it succeeds with the book on. *)
Theorem C25_auth_works :
  forall e w w' i m,
  (s_fee (w_st w'), s_recipient (w_st w'), s_admin (w_st w'), s_admin_offer (w_st w'), s_moderator (w_st w'), s_moderator_offer (w_st w')) =
  (s_fee (w_st w), s_recipient (w_st w), s_admin (w_st w), s_admin_offer (w_st w), s_moderator (w_st w), s_moderator_offer (w_st w)) ->
  (succeeds e w (CExec i (AuthMsg m)) <-> succeeds e w' (CExec i (AuthMsg m))).
Proof.
  assert (K : forall e w i m, succeeds e w (CExec i (AuthMsg m)) <-> may e (w_st w) (i_sender i) m).
  { intros e w i m. destruct (C27_auth_exact e w i m) as [H1 H2]. split.
    - intros (w' & r & E). destruct (may_dec e (w_st w) (i_sender i) m) as [|Hn]; [assumption|]. rewrite (H2 Hn) in E. discriminate.
    - intros Hm. destruct (H1 Hm) as (w' & r & E & _). exists w', r. exact E. }
  intros e w w' i m H. injection H as E1 E2 E3 E4 E5 E6. rewrite !K.
  destruct m; cbn [may]; unfold is_admin, is_moderator; rewrite ?E1, ?E2, ?E3, ?E4, ?E5, ?E6; tauto.
Qed.

(** ** C26: reactivation *)
(** The chain cannot switch an inactive book on: its SetActive message is itself rejected. *)
Theorem C26_sudo_refuted :
  forall e w b, active (w_st w) = false ->
  step e w (CSudo (SudoSetActive b)) = (w, Failed) /\ active (w_st (fst (step e w (CSudo (SudoSetActive b))))) = false.
Proof.
  intros e w b Ha. assert (E : step e w (CSudo (SudoSetActive b)) = (w, Failed)) by (apply C25_inactive; eauto).
  rewrite E. auto.
Qed.
(** Only the admin or the moderator can. *)
Theorem C26_who_reactivates :
  forall e w c, reachable w -> call_ok (w_self w) c = true ->
  active (w_st w) = false -> active (w_st (fst (step e w c))) = true ->
  exists i, c = CExec i (AuthMsg (SetActive true)) /\ (is_admin (w_st w) (i_sender i) \/ is_moderator (w_st w) (i_sender i)).
Proof.
  intros e w c Hre Hok Ha Ha'. destruct (C27_who_changes e w c Hre Hok) as (_ & _ & H & _).
  destruct H as [(i & b & -> & Hr & E)|(b & -> & Hr & E)].
  - intros E. unfold active in *. rewrite E in Ha'. congruence.
  - unfold active in Ha'. rewrite E in Ha'. cbn in Ha'. subst b. eauto.
  - congruence.
Qed.
(** There always is a moderator, and the moderator's message goes through: the book cannot be
    locked for good while the moderator acts (even without an admin). *)
Lemma moderator_stays w : reachable w -> exists m, is_moderator (w_st w) m.
Proof.
  intros Hre. destruct (reachable_start _ Hre) as (w0 & h & Hs & Hh & <-). clear Hre.
  assert (H0 : reachable w0 /\ exists m, is_moderator (w_st w0) m).
  { split; [apply (start_reachable w0 []); [assumption|constructor]|].
    destruct (start_inv _ Hs) as (_ & (q & b & -> & _) & _). eexists. reflexivity. }
  clear Hs. revert w0 Hh H0. induction h as [|[e c] h IH]; intros w Hh [Hre [m Hm]]; cbn [run]; [eauto|].
  inversion Hh as [|x l Hok Hh']; subst. cbn [snd] in Hok. apply IH; [unfold history; rewrite step_self; exact Hh'|].
  split; [apply step_reach; assumption|].
  destruct (C27_who_changes e w c Hre Hok) as (_ & _ & _ & _ & _ & H & _). unfold is_moderator in *.
  destruct (decide (s_moderator (w_st (fst (step e w c))) = s_moderator (w_st w))) as [E|Hn]; [rewrite E; eauto|].
  destruct (H Hn) as (i & _ & _ & E). eauto.
Qed.
Theorem C26_moderator_can :
  forall w, reachable w -> exists m, is_moderator (w_st w) m /\
  forall e, exists w' r, step e w (c_auth m (SetActive true)) = (w', Done r) /\
    active (w_st w') = true /\ trading_data (w_st w') = trading_data (w_st w).
Proof.
  intros w Hre. destruct (moderator_stays w Hre) as (m & Hm). exists m. split; [assumption|]. intros e.
  destruct (proj1 (C27_auth_exact e w (mkInfo m []) (SetActive true)) (or_intror Hm)) as (w' & r & E & D & T & _).
  exists w', r. split; [exact E|]. split; [|exact T]. unfold admin_data in D. cbn [effect] in D. injection D as D _ _ _ _ _ _. unfold active. rewrite D. reflexivity.
Qed.

(** ** C28: renouncing *)
(** Expected: once the admin renounced (or was removed by the chain) nobody becomes admin except
    through the chain.  Refuted: a pending offer survives, and the offered address then becomes admin -
    also when the chain has just appointed somebody else. *)
Theorem C28_offer_survives :
  forall e w c w1 r x, s_admin_offer (w_st w) = Some x ->
  (exists i, c = CExec i (AuthMsg RenounceAdminship)) \/ c = CSudo SudoRemoveAdmin \/ (exists y, c = CSudo (SudoTransferAdmin y)) ->
  step e w c = (w1, Done r) ->
  s_admin_offer (w_st w1) = Some x /\
  forall e', e_addr_valid e' x = true ->
  exists w2 r2, step e' w1 (c_auth x ClaimAdmin) = (w2, Done r2) /\ is_admin (w_st w2) x.
Proof.
  intros e w c w1 r x Ho Hc E.
  assert (Hk : s_admin_offer (w_st w1) = Some x).
  { destruct Hc as [[i ->]|[->|[y ->]]].
    - destruct (C27_auth_exact e w i RenounceAdminship) as [H1 H2].
      destruct (may_dec e (w_st w) (i_sender i) RenounceAdminship) as [Hm|Hn]; [|rewrite (H2 Hn) in E; discriminate].
      destruct (H1 Hm) as (w' & r' & E' & D & _). rewrite E in E'. injection E' as <- <-. cbn [effect] in D. unfold admin_data in D. congruence.
    - destruct (C27_chain_exact e w SudoRemoveAdmin eq_refl) as [H1 H2].
      destruct (chain_may_dec e (w_st w) SudoRemoveAdmin) as [Hm|Hn]; [|rewrite (H2 Hn) in E; discriminate].
      destruct (H1 Hm) as (w' & r' & E' & D & _). rewrite E in E'. injection E' as <- <-. cbn [chain_effect] in D. unfold admin_data in D. congruence.
    - destruct (C27_chain_exact e w (SudoTransferAdmin y) eq_refl) as [H1 H2].
      destruct (chain_may_dec e (w_st w) (SudoTransferAdmin y)) as [Hm|Hn]; [|rewrite (H2 Hn) in E; discriminate].
      destruct (H1 Hm) as (w' & r' & E' & D & _). rewrite E in E'. injection E' as <- <-. cbn [chain_effect] in D. unfold admin_data in D. congruence. }
  split; [assumption|]. intros e' Hv.
  destruct (proj1 (C27_auth_exact e' w1 (mkInfo x []) ClaimAdmin) (conj Hk Hv)) as (w2 & r2 & E2 & D2 & _).
  exists w2, r2. split; [exact E2|]. cbn [effect i_sender] in D2. unfold admin_data in D2. injection D2 as _ _ _ X _ _ _. exact X.
Qed.
(** What does hold: without a pending offer the adminship is gone for good unless the chain appoints
    somebody, and fee, recipient and moderator offers can never change again. *)
Theorem C28_final_without_offer :
  forall w h, reachable w -> history w h -> s_admin (w_st w) = None -> s_admin_offer (w_st w) = None ->
  (forall ec, ec ∈ h -> is_sudo_transfer (snd ec) = false) ->
  let s := w_st w in let s' := w_st (run w h) in
  s_admin s' = None /\ s_admin_offer s' = None /\ s_fee s' = s_fee s /\ s_recipient s' = s_recipient s /\
  (s_moderator_offer s = None -> s_moderator s' = s_moderator s /\ s_moderator_offer s' = None).
Proof.
  intros w h. revert w. induction h as [|[e c] h IH]; intros w Hre Hh Ha Ho Hq; cbv zeta; cbn [run]; [auto 10|].
  inversion Hh as [|x l Hok Hh']; subst. cbn [snd] in Hok.
  assert (Hre' : reachable (fst (step e w c))) by (apply step_reach; assumption).
  pose proof (Hq (e, c) ltac:(constructor)) as Q1. cbn [snd] in Q1.
  assert (K : let s := w_st w in let s' := w_st (fst (step e w c)) in
    s_admin s' = None /\ s_admin_offer s' = None /\ s_fee s' = s_fee s /\ s_recipient s' = s_recipient s /\
    (s_moderator_offer s = None -> s_moderator s' = s_moderator s /\ s_moderator_offer s' = None)).
  { cbv zeta. destruct (admin_step e w c Hre Hok) as [[-> _]|[(i & m & -> & Hm & E)|[(m & -> & Hm & E)|[_ E]]]].
    - auto 10.
    - destruct m; cbn [may effect] in Hm, E; unfold is_admin in Hm; unfold admin_data in E; injection E as E1 E2 E3 E4 E5 E6 E7;
        rewrite ?E1, ?E2, ?E3, ?E4, ?E5, ?E6, ?E7; try (exfalso; intuition congruence; fail).
      + split; [assumption|]. split; [assumption|]. split; [reflexivity|]. split; [reflexivity|]. intros Hn. rewrite Hn in Hm. discriminate.
      + split; [assumption|]. split; [assumption|]. split; [reflexivity|]. split; [reflexivity|]. intros Hn. rewrite Hn in Hm. destruct Hm; discriminate.
      + auto 10.
    - destruct m; try discriminate; cbn [chain_may chain_effect] in Hm, E; try tauto; unfold admin_data in E; injection E as E1 E2 E3 E4 E5 E6 E7;
        rewrite E2, E3, E4, E5, E6, E7; auto 10.
    - unfold admin_data in E; injection E as E1 E2 E3 E4 E5 E6 E7. rewrite E2, E3, E4, E5, E6, E7. auto 10. }
  cbv zeta in K. destruct K as (K1 & K2 & K3 & K4 & K5).
  assert (Hh2 : history (fst (step e w c)) h) by (unfold history; rewrite step_self; exact Hh').
  destruct (IH _ Hre' Hh2 K1 K2) as (R1 & R2 & R3 & R4 & R5). { intros ec Hec. apply Hq. right. exact Hec. }
  split; [assumption|]. split; [assumption|]. split; [congruence|]. split; [congruence|].
  intros Hn. destruct (K5 Hn) as [X1 X2]. destruct (R5 X2). split; congruence.
Qed.

(** ** C29: limits of the configuration *)
Theorem C29_limits :
  forall w, reachable w ->
  (exists f, s_fee (w_st w) = Some f /\ 0 <= f <= five_percent) /\
  (exists r, s_recipient (w_st w) = Some r) /\
  (forall t id o b, order_of (w_st w) t id = Some o -> o_bounty o = Some b -> 0 <= b <= one_percent) /\
  deposit_denom (w_st w) Bid <> deposit_denom (w_st w) Ask.
Proof.
  intros w Hre. destruct (reachable_inv _ Hre) as (G & Hi). split; [exact (i_fee _ _ Hi)|]. split; [exact (i_rcp _ _ Hi)|]. split.
  - intros t id o b Eo Eb. pose proof (oo_bounty _ _ _ _ (i_order _ _ Hi _ _ Eo)) as Hb. apply (bounty_u _ Hb _ Eb).
  - destruct (i_book _ _ Hi) as (ob & Eob & [B _ _ _ _]). unfold deposit_denom. rewrite Eob. exact B.
Qed.
Lemma denoms_step e w c : reachable w -> call_ok (w_self w) c = true -> denoms_of (w_st (fst (step e w c))) = denoms_of (w_st w).
Proof.
  intros Hre Hok. destruct (step e w c) as [w' [r|]] eqn:E; cbn [fst]; [|rewrite (step_failed _ _ _ _ E); reflexivity].
  destruct (reachable_inv _ Hre) as (G & Hi). destruct (step_done _ _ _ _ _ _ Hi Hok E) as (G' & Ht & _ & _ & _).
  unfold denoms_of. rewrite !(trans_den _ _ _ _ _ _ _ _ Ht). reflexivity.
Qed.
Theorem C29_denoms_fixed :
  forall w h, reachable w -> history w h -> denoms_of (w_st (run w h)) = denoms_of (w_st w).
Proof.
  intros w h. revert w. induction h as [|[e c] h IH]; intros w Hre Hh; cbn [run]; [reflexivity|].
  inversion Hh as [|x l Hok Hh']; subst. cbn [snd] in Hok. rewrite IH.
  - apply denoms_step; assumption.
  - apply step_reach; assumption.
  - unfold history. rewrite step_self. exact Hh'.
Qed.

(** ** C37: unsupported operations *)
Theorem C37_exact_out_fails :
  forall e w sender denom_in max_in tout fee, step e w (CSudo (SwapExactAmountOut sender denom_in max_in tout fee)) = (w, Failed).
Proof.
  intros. unfold step. cbn [call_run]. unfold sudo, ensure_is_active. rewrite bind_assoc, bind_read.
  unfold mbindM, mensure, mlift, rensure. destruct (unwrap_or _ _); reflexivity.
Qed.
Theorem C37_calc_in_fails : forall s x, calc_in_amt_given_out s <> Ok x.
Proof. discriminate. Qed.

(** ** C38: instantiation *)
(** The contract comes into existence exactly for two different tokens that exist (positive
    supply), provided the three built-in addresses are valid on the chain; it is then an active,
    empty book without fee, governed by the Osmosis governance module, moderated by the circuit
    breaker DAO, without pending offers, with best-bid/best-ask pointers at the ends of the range. *)
Theorem C38_instantiate :
  forall e self quote base funds,
  let supplied d := exists x, e_supply e d = Some x /\ x <> 0 in
  (is_Some (init_world e self quote base funds) <->
     quote <> base /\ supplied quote /\ supplied base /\ e_addr_valid e "osmo10d07y265gmmuvt4z0w9aw880jnsr700jjeq4qp" = true /\
     e_addr_valid e "osmo1peuxfjj66n2qt2v5jmqlvzz8neakjgduez7vttvemw58uug6546sr60ngl" = true /\ e_addr_valid e "osmo1r9jc2234fljy93z80cevqjt3nmjycec8aj4cc6" = true) /\
  (forall w, init_world e self quote base funds = Some w ->
     let s := w_st w in
     w_self w = self /\ active s = true /\
     s_orders s = ∅ /\ s_ticks s = ∅ /\ s_nodes s = ∅ /\ s_tree s = ∅ /\ (forall d, pool_liquidity s d = 0) /\
     s_orderbook s = Some (mkBook quote base 0 (-108000000) 182402823) /\
     s_fee s = Some 0 /\ s_recipient s = Some "osmo1r9jc2234fljy93z80cevqjt3nmjycec8aj4cc6" /\
     is_admin s "osmo10d07y265gmmuvt4z0w9aw880jnsr700jjeq4qp" /\ s_admin_offer s = None /\
     is_moderator s "osmo1peuxfjj66n2qt2v5jmqlvzz8neakjgduez7vttvemw58uug6546sr60ngl" /\ s_moderator_offer s = None /\
     (forall denom, balance w denom = received funds denom)).
Proof.
  change "osmo1r9jc2234fljy93z80cevqjt3nmjycec8aj4cc6" with DEFAULT_MAKER_FEE_RECIPIENT.
  change "osmo1peuxfjj66n2qt2v5jmqlvzz8neakjgduez7vttvemw58uug6546sr60ngl" with CIRCUIT_BREAKER_SUBDAO_ADDR.
  change "osmo10d07y265gmmuvt4z0w9aw880jnsr700jjeq4qp" with OSMOSIS_GOV_ADDR.
  intros e self quote base funds supplied. subst supplied.
  assert (Hd : forall d, denom_ok e d = true <-> exists x, e_supply e d = Some x /\ x <> 0).
  { intros d. unfold denom_ok. destruct (e_supply e d) as [x|]; split.
    - intros H. apply negb_true_iff, Z.eqb_neq in H. eauto.
    - intros (y & [= <-] & Hy). apply negb_true_iff, Z.eqb_neq. assumption.
    - discriminate.
    - intros (y & [=] & _). }
  unfold init_world. split.
  - split.
    + destruct (instantiate e quote base st_empty) as [s [r|er| |]] eqn:E; try (intros [? ?]; discriminate). intros _.
      apply instantiate_inv in E as (_ & A1 & A2 & A3 & A4 & A5 & A6). rewrite <- !Hd. auto 10.
    + intros (A1 & A2 & A3 & A4 & A5 & A6). apply Hd in A2, A3.
      unfold instantiate, create_orderbook, set_maker_fee, set_maker_fee_recipient, addr_validate. rewrite A4, A5.
      unfold mbindM, mlift, rensure, mmod, mensure, mlift, rensure. rewrite bool_decide_false by assumption. cbn [negb]. rewrite A2, A3, A6.
      unfold mret. cbn. eauto.
  - intros w. destruct (instantiate e quote base st_empty) as [s [r|er| |]] eqn:E; try discriminate.
    apply instantiate_inv in E as (-> & _). intros [= <-]. cbv zeta. cbn [w_st w_self].
    split; [reflexivity|]. split; [reflexivity|]. do 4 (split; [reflexivity|]).
    split. { intros []; reflexivity. } do 7 (split; [reflexivity|]).
    intros denom. unfold balance. cbn [w_bal]. change (unwrap_or (credits ∅ funds !! denom) 0) with (bal_get (credits ∅ funds) denom).
    rewrite credits_get. unfold bal_get. rewrite lookup_empty. cbn [unwrap_or].
    clear. induction funds as [|x l IH]; [reflexivity|]. cbn [coins_in received foldr]. fold (received l denom). rewrite <- IH. lia.
Qed.

(** What a newborn contract tells anyone who asks: every query except the spot price, whose answer
    on an empty book is the two ends of the tick range (C33). *)
Theorem C38_queries :
  forall e self quote base funds w, init_world e self quote base funds = Some w ->
  let ask := query (w_st w) in
  ask QIsActive = Ok (AFlag true) /\
  ask QGetMakerFee = Ok (AFee 0) /\ ask QGetSwapFee = Ok (AFee 0) /\
  ask QDenoms = Ok (ADenoms quote base) /\
  ask QOrderbookState = Ok (ABook (mkBook quote base 0 (-108000000) 182402823)) /\
  ask QGetTotalPoolLiquidity = Ok (ALiquidity [mkCoin base 0; mkCoin quote 0]) /\
  (forall lo hi n, ask (QAllTicks lo hi n) = Ok (ATicks [])) /\
  (forall who lo hi n, ask (QOrdersByOwner who lo hi n) = Ok (AOrders 0 [])) /\
  (forall t lo hi n, ask (QOrdersByTick t lo hi n) = Ok (AOrders 0 [])) /\
  (forall c out fee x, coin_typed c = true -> ask (QCalcOutAmountGivenIn c out fee) <> Ok x /\ ask (QCalcOutAmtGivenIn c out fee) <> Ok x) /\
  ask (QAuth QAdmin) = Ok (AAddress (Some "osmo10d07y265gmmuvt4z0w9aw880jnsr700jjeq4qp")) /\ ask (QAuth QAdminOffer) = Ok (AAddress None) /\
  ask (QAuth QModerator) = Ok (AAddress (Some "osmo1peuxfjj66n2qt2v5jmqlvzz8neakjgduez7vttvemw58uug6546sr60ngl")) /\ ask (QAuth QModeratorOffer) = Ok (AAddress None).
Proof.
  intros e self quote base funds w Hw. pose proof Hw as Hi. unfold init_world in Hi.
  destruct (instantiate e quote base st_empty) as [s [r|er| |]] eqn:E; try discriminate.
  apply instantiate_inv in E as (-> & _). injection Hi as <-. cbv zeta. cbn [w_st].
  do 6 (split; [reflexivity|]).
  split. { intros lo hi n. destruct n; reflexivity. }
  split. { intros who lo hi n. reflexivity. }
  split. { intros t lo hi n. reflexivity. }
  split. 2: { repeat split. }
  intros c out fee x Hc. unfold coin_typed in Hc. apply andb_true_iff in Hc as [Hc1 Hc2]. apply Z.leb_le in Hc1, Hc2.
  assert (H : forall y, calc_out_amount_given_in (st_init quote base) c out fee <> Ok y).
  { intros y. unfold calc_out_amount_given_in. destruct (ensure_swap_fee fee); try discriminate. cbn [rbind load_orderbook st_init s_orderbook ok_or]; unfold load_orderbook; cbn [rbind ok_or st_init s_orderbook].
    unfold run_market_order_internal.
    destruct (direction_from_pair (mkBook quote base 0 MIN_TICK MAX_TICK) (c_denom c) out) as [d|?| |]; try discriminate. cbn [rbind].
    destruct (Z.eqb_spec (c_amount c) 0) as [E0|E0]; [discriminate|]. cbn [rensure negb rbind load_orderbook st_init s_orderbook ok_or].
    assert (Hp : price_ok DEC) by (unfold price_ok, min_spot_price, max_spot_price, DEC; lia).
    assert (Hv : amount_to_value d (c_amount c) DEC RDown = Ok (c_amount c)).
    { rewrite amount_to_value_spec by (assumption || lia). destruct d; unfold floor_div; rewrite Z.div_mul by discriminate; reflexivity. }
    assert (Hm : market_ticks (mkBook quote base 0 MIN_TICK MAX_TICK) d (match d with Bid => MAX_TICK | Ask => MIN_TICK end) (s_ticks (st_init quote base)) = Ok [])
      by (destruct d; reflexivity).
    assert (Hb : ((match d with Bid => MAX_TICK | Ask => MIN_TICK end <=? MAX_TICK) && (MIN_TICK <=? match d with Bid => MAX_TICK | Ask => MIN_TICK end)) = true)
      by (destruct d; reflexivity).
    rewrite Hb, Hm. cbn [rensure rbind market_loop m_qty m_price]. rewrite Hv. cbn [rbind]. rewrite (proj2 (Z.eqb_neq _ _) E0).
    destruct d; discriminate. }
  split; cbn [query]; unfold rmap; destruct (calc_out_amount_given_in _ c out fee) eqn:E; try discriminate; exfalso; eapply H; reflexivity.
Qed.
(** The newborn book is open for trading: everybody's valid order is accepted as the first call. *)
Theorem C38_open_for_trading :
  forall e self quote base funds w, init_world e self quote base funds = Some w -> forallb coin_typed funds = true ->
  forall e' sender t d q b, valid_tick t -> 0 < q <= U128_MAX -> (forall x, b = Some x -> 0 <= x <= 10 ^ 16) ->
  succeeds e' w (c_place sender [mkCoin (match d with Bid => quote | Ask => base end) q] t d q b).
Proof.
  intros e self quote base funds w Hw Hf e' sender t d q b Ht Hq Hb.
  assert (Hs : start w) by (exists e, self, quote, base, funds; auto).
  destruct (C38_instantiate e self quote base funds) as [_ H]. destruct (H w Hw) as (_ & Ha & _ & _ & _ & _ & _ & Eob & _). clear H.
  pose proof (C03_place_accepted e' w [] sender t d q b Hs ltac:(constructor) ltac:(vm_compute; discriminate) Ha Ht Hq Hb) as H.
  cbn [run] in H. unfold deposit_denom in H. rewrite Eob in H. destruct d; exact H.
Qed.
Print Assumptions C38_open_for_trading.

(** ** Concrete cases *)
Definition gov : string := OSMOSIS_GOV_ADDR.
Definition dao : string := CIRCUIT_BREAKER_SUBDAO_ADDR.
(** C25-C27: an order rests; the moderator switches off; nothing trades, not even the chain's own
    switch works; the moderator may not touch the fee, the admin may; the moderator switches on. *)
Definition hist_admin : list (env * call) :=
  [place "a" 0 Bid 5 None; (tenv, c_auth dao (SetActive false));
   sell "b" 1; cancel "a" 0 0; (tenv, CSudo (SudoSetActive true));
   (tenv, c_auth dao (SetMakerFee (10 ^ 16))); (tenv, c_auth gov (SetMakerFee (10 ^ 16))); (tenv, c_auth gov (SetMakerFee (6 * 10 ^ 16)));
   (tenv, c_auth dao (SetActive true)); sell "b" 1].
Example C25_case :
  history w_start hist_admin /\
  run_out w_start hist_admin = [true; true; false; false; false; false; true; false; true; true] /\
  active (w_st (run w_start (take 3 hist_admin))) = false /\ s_fee (w_st (run w_start hist_admin)) = Some (10 ^ 16).
Proof.
  split. { apply Forall_forall. intros x Hx. apply elem_of_list_In in Hx. revert x Hx. apply forallb_forall. vm_compute. reflexivity. }
  vm_compute. auto.
Qed.
(** C28: governance offers the adminship to "x"; then the admin is removed and replaced by "y"; "x" still takes over. *)
Definition hist_offer : list (env * call) :=
  [(tenv, c_auth gov (TransferAdmin "x")); (tenv, CSudo SudoRemoveAdmin); (tenv, CSudo (SudoTransferAdmin "y")); (tenv, c_auth "x" ClaimAdmin)].
Example C28_case :
  history w_start hist_offer /\ run_out w_start hist_offer = [true; true; true; true] /\
  s_admin (w_st (run w_start (take 3 hist_offer))) = Some "y" /\ s_admin (w_st (run w_start hist_offer)) = Some "x".
Proof.
  split. { apply Forall_forall. intros x Hx. apply elem_of_list_In in Hx. revert x Hx. apply forallb_forall. vm_compute. reflexivity. }
  vm_compute. auto.
Qed.
(** C27/C28: the same, with renouncing by the admin itself. *)
Definition hist_renounce : list (env * call) :=
  [(tenv, c_auth gov (TransferAdmin "x")); (tenv, c_auth gov RenounceAdminship); (tenv, c_auth "x" ClaimAdmin)].
Example C28_case_renounce :
  history w_start hist_renounce /\ run_out w_start hist_renounce = [true; true; true] /\
  s_admin (w_st (run w_start (take 2 hist_renounce))) = None /\ s_admin (w_st (run w_start hist_renounce)) = Some "x".
Proof.
  split. { apply Forall_forall. intros x Hx. apply elem_of_list_In in Hx. revert x Hx. apply forallb_forall. vm_compute. reflexivity. }
  vm_compute. auto.
Qed.
(** C38: both outcomes occur. *)
Example C38_case :
  is_Some (init_world tenv "contract" "quote" "base" [mkCoin "uosmo" 3]) /\
  init_world tenv "contract" "base" "base" [] = None /\
  init_world (mkEnv 7 (fun _ => true) (fun d => if bool_decide (d = "base") then Some 0 else Some 1) (fun _ => true)) "contract" "quote" "base" [] = None.
Proof.
  split; [|split].
  - apply C38_instantiate. repeat split; try discriminate; try (exists 1; split; [reflexivity|discriminate]).
  - vm_compute. reflexivity.
  - vm_compute. reflexivity.
Qed.
