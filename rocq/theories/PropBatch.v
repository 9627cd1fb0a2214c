(** * Property C13: a batch of claims is the sequence of its claims. *)
From Verif Require Import Base Dec Types State TickMath Sumtree Tick Order Auth Contract World SpecMath TickMathProofs
  TreeDefs Exec SumtreeProofs SumtreeRebalance SumtreeInsert PrefixSum SumtreeRoot SumtreeFail Ghost Inv StepPlace StepCancel StepClaim
  SwapPlan StepSwap Trans Spec Reach Refine RefineStep Reserve Solvency Books SpecProps PropBase Tests PropOrders PropClaims.

(** ** Hits and misses, decided by the ideal book *)
Lemma claim1_result sender s G Q t id s' G' a ms o' :
  inv s G -> refines s G Q -> claim1 sender s G t id s' G' (a, ms, o') ->
  exists en o, en ∈ Q /\ en_tick en = t /\ en_id en = id /\ 0 < en_filled en /\
    s_orders s !! (t, id) = Some o /\ o' = claimed_order o (en_filled en) /\ a = owner_part s en /\ ms = claim_pays s sender en /\
    s_orders s' = (if en_open en =? 0 then delete (t, id) (s_orders s) else <[(t, id) := o']> (s_orders s)).
Proof.
  intros Hi Hr Hc. destruct (claim_entry _ _ _ _ _ _ _ _ _ _ _ Hi Hr Hc) as (en & o & Hen & D1 & D2 & Hf & Hop & Eo & Hd & Ea & Em & Eq & Eid & Es).
  exists en, o. do 5 (split; [assumption|]). split; [|auto].
  inversion Hc as [ob fee rcp o1 n c tr' c' Eob Efee Ercp Eo1 Hl Het f raw Hf1 Hi1 Hi2 Hctr X1 X2 X3]; subst.
  rewrite Eo in Eo1. injection Eo1 as <-. f_equal. unfold claimed_order, order_set_fill in Eq. cbn in Eq.
  destruct Hd as (_ & _ & _ & _ & _ & _ & _ & Hd). lia.
Qed.
Lemma miss1_zero s G Q t id s' G' en :
  inv s G -> refines s G Q -> miss1 s G t id s' G' -> en ∈ Q -> en_tick en = t -> en_id en = id -> en_filled en = 0.
Proof.
  intros Hi Hr Hm Hen <- <-. pose proof (rf_entry _ _ _ Hr _ Hen) as [_ K1 K2 _ _ _ _ _ _].
  destruct Hm as [En|o n c tr' c' Eo Hl He Hf _ _].
  - destruct (en_live en) eqn:El; [|unfold en_live in El; apply Z.ltb_ge in El; lia].
    destruct (live_order _ _ _ Hi Hr en Hen El) as (o & n & c & Eo & _). congruence.
  - destruct (entry_of _ _ _ Hr _ _ _ _ _ Eo Hl) as (en' & Hen' & Hd & _ & Ef). destruct Hd as (_ & D2 & _).
    assert (en' = en) as -> by (eapply ids_same; eauto). lia.
Qed.

(** Claiming something not filled changes nothing in the ideal book. *)
Lemma ideal_claim_zero t id Q : (forall en, en ∈ Q -> en_tick en = t -> en_id en = id -> en_filled en = 0) -> ideal_claim t id Q = Q.
Proof.
  unfold ideal_claim. induction Q as [|en Q IH]; intros H; cbn [map]; [reflexivity|]. f_equal; [|apply IH; intros; apply H; [constructor|..]; assumption].
  destruct (en_is t id en) eqn:E; [|reflexivity]. apply en_is_true in E as [E1 E2].
  specialize (H en ltac:(constructor) E1 E2). unfold en_set. rewrite H, Z.add_0_r. destruct en; cbn in *; congruence.
Qed.

(** ** The two executions side by side *)
Record twin (s s' : storage) (G G' : ghost) (Q : ideal) : Prop := {
  tw_inv : inv s G;
  tw_inv' : inv s' G';
  tw_ref : refines s G Q;
  tw_ref' : refines s' G' Q;
  tw_orders : s_orders s = s_orders s';
  tw_book : s_orderbook s = s_orderbook s';
  tw_admin : same_admin s s';
  tw_liq : s_dirliq s = s_dirliq s';
  tw_next : s_order_id s = s_order_id s'
}.
Lemma same_admin_sym s s' : same_admin s s' -> same_admin s' s.
Proof. intros []. split; congruence. Qed.
Lemma pays_same s s' sender en : s_orderbook s = s_orderbook s' -> same_admin s s' -> claim_pays s sender en = claim_pays s' sender en.
Proof.
  intros Hb [A1 A2 A3 A4 A5 A6 A7]. unfold claim_pays, owner_part, claim_fee, proceeds_denom, deposit_denom. rewrite Hb.
  rewrite <- ?A1, <- ?A2, <- ?A3, <- ?A4, <- ?A5, <- ?A6, <- ?A7. reflexivity.
Qed.
Lemma sends_app e self l1 l2 : forall b b2, sends e self b (l1 ++ l2) = Some b2 -> exists b1, sends e self b l1 = Some b1 /\ sends e self b1 l2 = Some b2.
Proof.
  induction l1 as [|m l1 IH]; intros b b2 E; [exists b; split; [reflexivity|exact E]|]. cbn [app] in E.
  apply sends_cons in E as (b0 & E0 & E). destruct (IH _ _ E) as (b1 & E1 & E2). exists b1. split; [|assumption].
  cbn [sends]. rewrite E0. assumption.
Qed.
Definition claim_resp (sender : string) (ob : orderbook) (a : Z) (ms : list submsg) (o : limit_order) : response :=
  mkResp [("method", AStr "claimLimit")]
    [generate_claimed_order_event sender o a (get_expected_denom ob (o_dir o)) (get_opposite_denom ob (o_dir o))] ms None.
Lemma claim_call_ok e sender t id s G s1 G1 a ms o ob :
  active s = true -> claim_order sender t id s = (s1, Ok (a, ms, o)) -> claim1 sender s G t id s1 G1 (a, ms, o) -> s_orderbook s = Some ob ->
  call_run e (c_claim sender t id) s = (s1, Ok (claim_resp sender ob a ms o)).
Proof.
  intros Ha E Hc Eob. cbn [c_claim call_run]. unfold execute. rewrite (bind_ok _ _ _ _ _ (ensure_active _ Ha)).
  unfold claim_limit. cbn [i_funds i_sender]. rewrite (bind_lift _ tt) by reflexivity. rewrite (bind_ok _ _ _ _ _ E).
  apply claim1_frame in Hc as (_ & Eb & _). rewrite (bind_readr _ ob) by (unfold load_orderbook; rewrite Eb, Eob; reflexivity). reflexivity.
Qed.
Lemma claim_call_err e sender t id s s1 er :
  active s = true -> claim_order sender t id s = (s1, Err er) -> exists s2, call_run e (c_claim sender t id) s = (s2, Err er).
Proof.
  intros Ha E. cbn [c_claim call_run]. unfold execute. rewrite (bind_ok _ _ _ _ _ (ensure_active _ Ha)).
  unfold claim_limit. cbn [i_funds i_sender]. rewrite (bind_lift _ tt) by reflexivity. unfold mbindM at 1. rewrite E. eauto.
Qed.

Lemma batch_twin e ob sender s G l s2 G2 ms es :
  claims ob sender s G l s2 G2 ms es -> forall ws Gs Q b2,
  twin s (w_st ws) G Gs Q -> s_orderbook s = Some ob -> active s = true ->
  sends e (w_self ws) (w_bal ws) ms = Some b2 ->
  (forall t, nctr (w_st ws) t + 2 * Z.of_nat (length l) <= U64_MAX) ->
  let hs := single_claims e sender l in
  exists Gs', twin s2 (w_st (run ws hs)) G2 Gs' (ideal_run ws Q hs) /\ w_bal (run ws hs) = b2 /\
    collect r_msgs ws hs = ms /\ collect r_events ws hs = es /\
    ideal_run ws Q hs = foldl (fun Q ev => ideal_claim (ce_tick ev) (ce_id ev) Q) Q es /\
    ideal_run ws Q hs = foldl (fun Q p => ideal_claim p.1 p.2 Q) Q l.
Proof.
  induction 1 as [s G|s G t id l s1 G1 s2 G2 ms es Hi Hm Hi1 Hc IH|s G t id l s1 G1 a bank o s2 G2 ms es Hi Hm Hi1 Hc IH]; intros ws Gs Q b2 Ht Eob Ha Hs Hctr hs.
  - exists Gs. injection Hs as <-. split; [exact Ht|]. auto 10.
  - assert (Hz : forall en, en ∈ Q -> en_tick en = t -> en_id en = id -> en_filled en = 0).
    { intros en. eapply miss1_zero; [exact Hi|apply Ht|exact Hm]. }
    assert (Est : step e ws (c_claim sender t id) = (ws, Failed)).
    { destruct (claim_step sender (w_st ws) Gs t id (tw_inv' _ _ _ _ _ Ht)) as [(s' & G' & [[a' ms'] o'] & E & Hc' & _)|[(s' & G' & er & E & _)|(HU & _)]].
      - exfalso. destruct (claim1_result _ _ _ _ _ _ _ _ _ _ _ (tw_inv' _ _ _ _ _ Ht) (tw_ref' _ _ _ _ _ Ht) Hc') as (en & _ & Hen & D1 & D2 & Hf & _).
        specialize (Hz _ Hen D1 D2). lia.
      - assert (Ha' : active (w_st ws) = true) by (unfold active in *; rewrite (sa_active _ _ (tw_admin _ _ _ _ _ Ht)); assumption).
        destruct (claim_call_err e sender t id _ _ _ Ha' E) as (s3 & E3). unfold step. rewrite E3. reflexivity.
      - specialize (Hctr t). cbn [length] in Hctr. lia. }
    cbn [single_claims map run ideal_run collect fst snd] in *. unfold hs. cbn [single_claims map run ideal_run collect fst snd]. rewrite Est. cbn [fst snd app].
    assert (EQ : ideal_step e ws (c_claim sender t id) Q = Q) by (unfold ideal_step; rewrite Est; reflexivity). rewrite EQ.
    destruct (miss1_frame _ _ _ _ _ _ Hm) as (F1 & F2 & F3 & F4 & F5 & _).
    destruct (IH ws Gs Q b2) as (Gs' & T1 & T2 & T3 & T4 & T5 & T6).
    + destruct Ht as [K1 K2 K3 K4 K5 K6 K7 K8 K9]. split; try assumption; try congruence.
      * eapply ref_miss1; [exact K3|exact Hm].
      * eapply same_admin_trans; [apply same_admin_sym; exact F1|assumption].
    + congruence.
    + unfold active in *. rewrite (sa_active _ _ F1). assumption.
    + assumption.
    + intros t'. specialize (Hctr t'). cbn [length] in Hctr. lia.
    + fold (single_claims e sender l). exists Gs'. do 5 (split; [assumption|]). cbn [foldl fst snd]. rewrite (ideal_claim_zero t id Q Hz). assumption.
  - destruct (claim1_result _ _ _ _ _ _ _ _ _ _ _ Hi (tw_ref _ _ _ _ _ Ht) Hm) as (en & o0 & Hen & D1 & D2 & Hf & Eo & -> & -> & -> & Eord).
    assert (Ha' : active (w_st ws) = true) by (unfold active in *; rewrite (sa_active _ _ (tw_admin _ _ _ _ _ Ht)); assumption).
    apply sends_app in Hs as (b1 & Hs1 & Hs2).
    destruct (claim_step sender (w_st ws) Gs t id (tw_inv' _ _ _ _ _ Ht)) as [(s' & G' & [[a' ms'] o'] & E & Hc' & Hi')|[(s' & G' & er & E & Hm' & _)|(HU & _)]].
    2:{ exfalso. pose proof (miss1_zero _ _ _ _ _ _ _ en (tw_inv' _ _ _ _ _ Ht) (tw_ref' _ _ _ _ _ Ht) Hm' Hen D1 D2). lia. }
    2:{ specialize (Hctr t). cbn [length] in Hctr. lia. }
    destruct (claim1_result _ _ _ _ _ _ _ _ _ _ _ (tw_inv' _ _ _ _ _ Ht) (tw_ref' _ _ _ _ _ Ht) Hc') as (en' & o1 & Hen' & D1' & D2' & Hf' & Eo' & -> & -> & -> & Eord').
    assert (en' = en) as -> by (eapply ids_same; [apply Ht|eassumption|eassumption|congruence]).
    assert (o1 = o0) as -> by (rewrite <- (tw_orders _ _ _ _ _ Ht) in Eo'; congruence).
    assert (Eob' : s_orderbook (w_st ws) = Some ob) by (rewrite <- (tw_book _ _ _ _ _ Ht); assumption).
    rewrite (pays_same _ _ sender en (tw_book _ _ _ _ _ Ht) (tw_admin _ _ _ _ _ Ht)) in Hs1.
    assert (Eow : owner_part s en = owner_part (w_st ws) en).
    { unfold owner_part, claim_fee. rewrite (sa_fee _ _ (tw_admin _ _ _ _ _ Ht)). reflexivity. }
    pose proof (claim_call_ok e sender t id _ _ _ _ _ _ _ _ Ha' E Hc' Eob') as Ecall.
    assert (Est : step e ws (c_claim sender t id) = (mkWorld (w_self ws) s' b1, Done (claim_resp sender ob (owner_part (w_st ws) en) (claim_pays (w_st ws) sender en) (claimed_order o0 (en_filled en))))).
    { apply step_ok; [exact Ecall|exact Hs1]. }
    unfold hs. cbn [single_claims map run ideal_run collect fst snd]. fold (single_claims e sender l). rewrite Est. cbn [fst snd].
    assert (EQ : ideal_step e ws (c_claim sender t id) Q = ideal_claim t id Q) by (unfold ideal_step; rewrite Est; reflexivity). rewrite EQ.
    destruct (claim1_frame _ _ _ _ _ _ _ _ Hm) as (F1 & F2 & F3 & F4 & _). destruct (claim1_frame _ _ _ _ _ _ _ _ Hc') as (H1 & H2 & H3 & H4 & H5).
    destruct (IH (mkWorld (w_self ws) s' b1) G' (ideal_claim t id Q) b2) as (Gs' & T1 & T2 & T3 & T4 & T5 & T6); cbn [w_st w_self w_bal].
    + pose proof (ref_claim1 _ _ _ _ _ _ _ _ _ Hi (tw_ref _ _ _ _ _ Ht) Hm) as R1.
      pose proof (ref_claim1 _ _ _ _ _ _ _ _ _ (tw_inv' _ _ _ _ _ Ht) (tw_ref' _ _ _ _ _ Ht) Hc') as R2.
      destruct Ht as [K1 K2 K3 K4 K5 K6 K7 K8 K9]. split; try assumption; try congruence.
      * rewrite Eord, Eord', K5. reflexivity.
      * eapply same_admin_trans; [apply same_admin_sym; exact F1|]. eapply same_admin_trans; [exact K7|exact H1].
    + congruence.
    + unfold active in *. rewrite (sa_active _ _ F1). assumption.
    + assumption.
    + intros t'. specialize (Hctr t'). specialize (H5 t'). cbn [length] in Hctr. destruct (decide _); lia.
    + exists Gs'. split; [assumption|]. split; [assumption|]. rewrite T3, T4. split.
      { cbn [claim_resp r_msgs]. rewrite (pays_same _ _ sender en (tw_book _ _ _ _ _ Ht) (tw_admin _ _ _ _ _ Ht)). reflexivity. }
      split. { cbn [claim_resp r_events app]. rewrite Eow. reflexivity. }
      destruct (claim1_event _ _ _ _ _ _ _ _ _ _ Hi Hm) as [V1 V2]. cbn [foldl fst snd]. cbn [generate_claimed_order_event ce_tick ce_id]. rewrite V1, V2. auto.
Qed.

(** C13: a successful batch does exactly what its entries, sent as separate claims, do: same
    transfers and events in the same order, same orders, balances, liquidity and administration,
    same ideal book; entries that cannot be claimed change nothing. *)
Theorem C13_batch_is_claims :
  forall e w0 h sender l w' r, start w0 -> history w0 h -> short h ->
  let w := run w0 h in let Q := ideal_run w0 [] h in
  call_ok (w_self w) (c_batch sender l) = true -> step e w (c_batch sender l) = (w', Done r) ->
  let hs := single_claims e sender l in let w'' := run w hs in
  Z.of_nat (length l) <= 100 /\
  r_msgs r = collect r_msgs w hs /\ r_events r = collect r_events w hs /\
  s_orders (w_st w') = s_orders (w_st w'') /\ w_bal w' = w_bal w'' /\
  (forall t d, tick_liquidity (w_st w') t d = tick_liquidity (w_st w'') t d) /\
  (forall d, pool_liquidity (w_st w') d = pool_liquidity (w_st w'') d) /\
  s_orderbook (w_st w') = s_orderbook (w_st w'') /\ s_order_id (w_st w') = s_order_id (w_st w'') /\
  admin_data (w_st w') = admin_data (w_st w'') /\
  (* the ideal book: all entries of the list are settled, in any case *)
  ideal_step e w (c_batch sender l) Q = ideal_run w Q hs /\
  ideal_step e w (c_batch sender l) Q = foldl (fun Q p => ideal_claim p.1 p.2 Q) Q l.
Proof.
  intros e w0 h sender l w' r Hs Hh Hsh w Q Hok E hs w''. destruct (short_ready w0 h Hs Hh Hsh) as (G & [Hre Hg Hn Hto Hl Hct]). fold w in Hre, Hg, Hn, Hct. fold Q in Hg.
  pose proof (gd_inv _ _ _ Hg) as Hi. destruct (step_done _ _ _ _ _ _ Hi Hok E) as (G' & Ht & Hi' & Eself & Hsend).
  destruct (trans_batch _ _ _ _ _ _ _ _ Ht) as (ob & ms & es & Ha & A1 & A2 & A3 & A4 & ->). change MAX_BATCH_CLAIM with 100 in A3.
  split; [assumption|]. cbn [r_msgs] in Hsend.
  destruct (batch_twin e ob sender (w_st w) G l (w_st w') G' ms es A4 w G Q (w_bal w')) as (Gs & Htw & T2 & T3 & T4 & T5 & T6).
  - pose proof (gd_ref _ _ _ Hg). split; try assumption; try reflexivity. apply same_admin_refl.
  - assumption.
  - apply active_ne. assumption.
  - assumption.
  - intros t. specialize (Hct t). unfold U64_MAX. lia.
  - fold hs in Htw, T2, T3, T4, T5, T6. fold w'' in Htw, T2. destruct Htw as [K1 K2 K3 K4 K5 K6 K7 K8 K9].
    split; [cbn [r_msgs]; congruence|]. split; [cbn [r_events]; congruence|]. split; [assumption|]. split; [congruence|].
    split. { intros t d. rewrite (liquidity_open _ _ _ K1 K3), (liquidity_open _ _ _ K2 K4). reflexivity. }
    split. { intros d. unfold pool_liquidity. rewrite K8. reflexivity. }
    split; [assumption|]. split; [assumption|]. split; [destruct K7; unfold admin_data; congruence|].
    assert (EQ : ideal_step e w (c_batch sender l) Q = ideal_run w Q hs).
    { rewrite T5. unfold ideal_step. rewrite E. reflexivity. }
    split; [exact EQ|]. rewrite EQ. exact T6.
Qed.
Print Assumptions C13_batch_is_claims.

(** The transfers of a batch. *)
Lemma claims_pos e ob sender s G l s' G' ms es : claims ob sender s G l s' G' ms es -> forall Q, refines s G Q ->
  e_bank_ok e sender = true -> (forall en, en ∈ Q -> e_bank_ok e (en_owner en) = true) -> e_bank_ok e (unwrap_or (s_recipient s) EmptyString) = true ->
  Forall (fun m => 0 < c_amount (sm_coin m) /\ e_bank_ok e (sm_to m) = true) ms.
Proof.
  induction 1 as [s G|s G t id l s1 G1 s2 G2 ms es Hi Hm Hi1 Hc IH|s G t id l s1 G1 a bank o s2 G2 ms es Hi Hm Hi1 Hc IH]; intros Q Hr B1 B2 B3; [constructor| |].
  - apply (IH Q); try assumption; [exact (ref_miss1 _ _ _ _ _ _ _ Hr Hm)|]. apply miss1_frame in Hm as (F & _). rewrite (sa_recipient _ _ F). assumption.
  - apply Forall_app_2.
    + destruct (claim1_result _ _ _ _ _ _ _ _ _ _ _ Hi Hr Hm) as (en & o0 & Hen & _ & _ & _ & _ & _ & _ & -> & _). eapply claim_pays_pos; eauto.
    + apply (IH (ideal_claim t id Q)); try assumption; [exact (ref_claim1 _ _ _ _ _ _ _ _ _ Hi Hr Hm)| |].
      * intros en Hen. apply upd_elem in Hen as (e0 & He0 & [[_ ->]|[_ ->]]); cbn; auto.
      * apply claim1_frame in Hm as (F & _). rewrite (sa_recipient _ _ F). assumption.
Qed.
(** C13: which batches are accepted. *)
Theorem C13_batch_accepted :
  forall e w0 h sender l, start w0 -> history w0 h -> short h ->
  let w := run w0 h in let c := c_batch sender l in
  call_ok (w_self w) c = true -> active (w_st w) = true ->
  e_bank_ok e sender = true -> e_bank_ok e (unwrap_or (s_recipient (w_st w)) EmptyString) = true ->
  (forall en, en ∈ ideal_run w0 [] h -> e_bank_ok e (en_owner en) = true) ->
  (succeeds e w c <-> Z.of_nat (length l) <= 100) /\ (100 < Z.of_nat (length l) -> step e w c = (w, Failed)).
Proof.
  intros e w0 h sender l Hs Hh Hsh w c Hok Ha B1 B2 B3. set (Q := ideal_run w0 [] h) in *.
  assert (Hlen : forall w' r, step e w c = (w', Done r) -> Z.of_nat (length l) <= 100).
  { intros w' r E. apply (C13_batch_is_claims e w0 h sender l w' r Hs Hh Hsh Hok E). }
  split; [split|].
  - intros (w' & r & E). eauto.
  - intros Hl. destruct (short_ready w0 h Hs Hh Hsh) as (G & [Hre Hg Hn Hto Hln Hct]). fold w in Hre, Hg, Hn, Hct. fold Q in Hg.
    pose proof (gd_inv _ _ _ Hg) as Hi. destruct (i_book _ _ Hi) as (ob & Eob & _).
    destruct (batch_loop ob sender l (w_st w) G [] [] Hi) as [(s' & G' & ms & es & E & Hc & Hi')|((t & HU) & _)].
    2:{ specialize (Hct t). unfold U64_MAX in HU. lia. }
    cbn [app] in E.
    assert (Ht : trans e (w_st w) G c (mkResp [("method", AStr "batchClaimLimit"); ("sender", AStr sender)] es ms None) s' G').
    { apply (T_batch e (w_st w) G (mkInfo sender []) l ob); try assumption; [apply active_ne; assumption|reflexivity]. }
    destruct (trans_sends e w G _ _ _ _ Hre (gd_sol _ _ _ Hg) Hi Hok Ht Hi') as (b' & Hb).
    { cbn [r_msgs]. eapply claims_pos; eauto. apply Hg. }
    eexists _, _. apply step_ok; [|exact Hb]. unfold c. cbn [c_batch call_run]. unfold execute. rewrite (bind_ok _ _ _ _ _ (ensure_active _ Ha)).
    unfold batch_claim_limits. cbn [i_funds i_sender]. rewrite (bind_lift _ tt) by reflexivity.
    rewrite bind_ensure by (apply Z.leb_le; exact Hl). rewrite (bind_readr _ ob) by (unfold load_orderbook; rewrite Eob; reflexivity).
    rewrite (bind_ok _ _ _ _ _ E). reflexivity.
  - intros Hl. destruct (step e w c) as [w' [r|]] eqn:E; [specialize (Hlen _ _ eq_refl); lia|]. rewrite (step_failed _ _ _ _ E). reflexivity.
Qed.
Print Assumptions C13_batch_accepted.

(** Five entries: two claimable, one unfilled, one unknown, one duplicate. *)
Definition batch_five : call := c_batch "anyone" [(0, 0); (0, 2); (7, 9); (0, 0); (0, 1)].
Example C13_case :
  let w := run w_start hist_three in
  call_ok (w_self w) batch_five = true /\ done tenv w batch_five = true /\
  map ce_id (r_events (resp_of tenv w batch_five)) = [0; 1] /\
  map (fun en => (en_open en, en_filled en, en_settled en)) (ideal_step tenv w batch_five Q_three)
   = map (fun en => (en_open en, 0, en_settled en + en_filled en)) Q_three /\
  map en_filled Q_three <> [0; 0; 0].
Proof. split; [vm_compute; reflexivity|]. split; [vm_compute; reflexivity|]. split; [vm_compute; reflexivity|]. split; [vm_compute; reflexivity|vm_compute; discriminate]. Qed.
Example C13_too_many : done tenv (run w_start hist_three) (c_batch "anyone" (repeat (0, 0) 101)) = false /\
  done tenv (run w_start hist_three) (c_batch "anyone" (repeat (0, 0) 100)) = true.
Proof. split; vm_compute; reflexivity. Qed.
