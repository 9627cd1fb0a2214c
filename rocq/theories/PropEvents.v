(** * Property C42: announcements are complete and exact. *)
From Verif Require Import Base Dec Types State TickMath Sumtree Tick Order Auth Contract World SpecMath TickMathProofs
  TreeDefs Exec SumtreeProofs SumtreeRebalance SumtreeInsert PrefixSum SumtreeRoot SumtreeFail Ghost Inv StepPlace StepCancel StepClaim
  SwapPlan StepSwap Trans Spec Reach Refine RefineStep Reserve Solvency Books SpecProps PropBase Tests PropOrders PropClaims PropSwap SpecEvents.

Lemma heard_silent K r : r_events r = [] -> (forall v, attr_get (r_attrs r) "order_id" <> Some v) -> heard K r = K.
Proof.
  intros E H. unfold heard. rewrite E. cbn [foldl]. destruct (attr_get (r_attrs r) "order_id") as [v|] eqn:Ev; [destruct (H v); reflexivity|].
  destruct (attr_get (r_attrs r) "method") as [[]|]; try reflexivity. destruct (attr_get (r_attrs r) "tick_id") as [[]|]; reflexivity.
Qed.
Lemma auth_silent e i m s s' r K : auth_dispatch e i m s = (s', Ok r) -> heard K r = K.
Proof.
  intros H. apply heard_silent; [apply (auth_trans _ _ _ _ _ _ H)|]. revert H. destruct m; cbn [auth_dispatch];
    unfold dispatch_transfer_admin, dispatch_cancel_admin_transfer, dispatch_claim_admin, dispatch_reject_admin_transfer,
      dispatch_renounce_adminship, dispatch_offer_moderator, dispatch_claim_moderator, dispatch_reject_moderator_offer,
      dispatch_set_active, dispatch_set_maker_fee, dispatch_set_maker_fee_recipient, ensure_is_admin, ensure_is_admin_or_moderator,
      offer_admin, remove_admin_transfer, update_admin, remove_admin, offer_moderator, remove_moderator_offer, update_moderator, set_active, set_maker_fee;
    intros H.
  all: repeat match type of H with
       | mbindM _ _ _ = _ => first [rewrite bind_read in H | rewrite bind_mod in H | rewrite bind_assoc in H |
            (let x := fresh "x" in let s1 := fresh "s1" in let H1 := fresh "Hm" in
             apply bind_inv in H as (x & s1 & H1 & H);
             first [ apply mensure_inv in H1 as [-> H1] | apply mlift_inv in H1 as [-> H1] | apply mret_inv in H1 as [-> ->] ])]
       | mret _ _ = _ => apply mret_inv in H as [-> ->]
       end.
  all: cbn; discriminate.
Qed.
Lemma sudo_silent e m s s' r K : swap_args (CSudo m) = None -> sudo e m s = (s', Ok r) -> heard K r = K.
Proof.
  intros Hm H. unfold sudo in H. apply bind_inv in H as (u & s1 & H1 & H). apply active_inv in H1 as [-> _].
  destruct m as [? ? ? ? ?|? ? ? ? ? ?|? ? ? ? ?|a| |b]; try discriminate Hm.
  - unfold mlift in H. discriminate.
  - unfold update_admin in H. rewrite bind_assoc in H. apply bind_inv in H as (u1 & s1 & H1 & H). apply mlift_inv in H1 as [-> H1].
    rewrite bind_mod in H. apply mret_inv in H as [-> ->]. apply heard_silent; [reflexivity|cbn; discriminate].
  - unfold remove_admin in H. rewrite bind_mod in H. apply mret_inv in H as [-> ->]. apply heard_silent; [reflexivity|cbn; discriminate].
  - unfold set_active in H. rewrite bind_mod in H. apply mret_inv in H as [-> ->]. apply heard_silent; [reflexivity|cbn; discriminate].
Qed.

Lemma claim1_heard sender s G t id s' G' a ms o dn1 dn2 :
  inv s G -> claim1 sender s G t id s' G' (a, ms, o) -> heard_claim (stored s) (generate_claimed_order_event sender o a dn1 dn2) = stored s'.
Proof.
  intros Hi Hc. inversion Hc as [ob fee rcp o0 n c tr' c' Eob Efee Ercp Eo Hl Het f raw Hf Hi1 Hi2 Hctr X1 X2 X3]; subst.
  pose proof (i_order _ _ Hi _ _ Eo) as Ho. pose proof (oo_tick _ _ _ _ Ho) as E1. pose proof (oo_id _ _ _ _ Ho) as E2. cbn in E1, E2.
  unfold heard_claim, stored, claim_st. cbn. fold f. rewrite E1, E2. destruct (o_quantity o0 - f =? 0); cbn.
  - rewrite fmap_delete. reflexivity.
  - rewrite fmap_insert. reflexivity.
Qed.
Lemma claims_heard ob sender s G l s' G' ms es : claims ob sender s G l s' G' ms es -> foldl heard_claim (stored s) es = stored s'.
Proof.
  induction 1 as [s G|s G t id l s1 G1 s2 G2 ms es Hi Hm Hi1 Hc IH|s G t id l s1 G1 a bank o s2 G2 ms es Hi Hm Hi1 Hc IH]; cbn [foldl]; [reflexivity| |].
  - apply miss1_frame in Hm as (_ & _ & _ & _ & E & _). unfold stored in *. rewrite <- E. exact IH.
  - rewrite (claim1_heard _ _ _ _ _ _ _ _ _ _ _ _ Hi Hm). exact IH.
Qed.
Lemma trans_heard e s G c r s' G' : inv s G -> trans e s G c r s' G' -> heard (stored s) r = stored s'.
Proof.
  intros Hi H. destruct H as [i t0 d0 q b ob Hq Hp Ha|i t0 id ob o n cc m' tr' c' Ha A1 A2 A3 A4 A5 A6 A7 A8|i t0 id ob s' G' a ms o Ha A1 A2 A3
    |i l ob s' G' ms es Ha A1 A2 A3 A4|i m r s' A1 A2 A3 A4|cl sender tin outd mn fee target d0 ob l fs rest pr Ha A1 A2 A3 A4 A5 A6 A7
    |m r s' Ha A1 A2 A3 A4 A5 A6 A7|cl A].
  - unfold heard, stored. cbn -[fmap]. rewrite fmap_insert. reflexivity.
  - unfold heard, stored. cbn -[fmap]. pose proof (oo_id _ _ _ _ (i_order _ _ Hi _ _ A2)) as E2. cbn in E2. rewrite E2, fmap_delete. reflexivity.
  - unfold heard. cbn [r_events r_attrs attr_get foldl]. cbn -[stored heard_claim generate_claimed_order_event]. eapply claim1_heard; eauto.
  - unfold heard. cbn -[stored heard_claim foldl]. eapply claims_heard; eauto.
  - rewrite (auth_silent _ _ _ _ _ _ _ A1). unfold stored. rewrite (sb_orders _ _ A2). reflexivity.
  - unfold heard, stored, swap_resp. cbn -[fmap]. reflexivity.
  - rewrite (sudo_silent _ _ _ _ _ _ A2 A1). unfold stored. rewrite (sb_orders _ _ A3). reflexivity.
  - reflexivity.
Qed.

(** C42: an indexer that starts empty and listens to the responses of any history knows exactly the
    stored orders - which exist, who owns them, on which side, how much of them is left and how
    much was placed - whatever calls were made and however they interleaved. *)
Theorem C42_indexer :
  forall w0 h, start w0 -> history w0 h ->
  foldl heard ∅ (responses w0 h) = stored (w_st (run w0 h)).
Proof.
  intros w0 h Hs Hh. destruct (start_inv _ Hs) as (Hi0 & (q & b & Es & _) & _).
  assert (E0 : stored (w_st w0) = ∅) by (rewrite Es; unfold stored; cbn; apply fmap_empty). rewrite <- E0.
  assert (Hre : reachable w0) by (apply (start_reachable w0 []); [assumption|constructor]). clear Hs Hi0 Es E0.
  revert w0 Hre Hh. induction h as [|[e c] h IH]; intros w Hre Hh; cbn [run]; [reflexivity|].
  inversion Hh as [|x l Hok Hh']; subst. cbn [snd] in Hok. unfold responses. cbn [collect]. rewrite foldl_app.
  fold (responses (fst (step e w c)) h). rewrite <- IH; [|apply step_reach; assumption|unfold history; rewrite step_self; assumption].
  f_equal. destruct (step e w c) as [w' [r|]] eqn:E; cbn [fst snd foldl].
  - destruct (reachable_inv _ Hre) as (G & Hi). destruct (step_done _ _ _ _ _ _ Hi Hok E) as (G' & Ht & _). eapply trans_heard; eauto.
  - rewrite (step_failed _ _ _ _ E). reflexivity.
Qed.
Print Assumptions C42_indexer.

(** C42, field by field: the response of a placement describes the order that is now stored. *)
Theorem C42_place_announces :
  forall e w i t d q b w' r,
  reachable w -> call_ok (w_self w) (CExec i (PlaceLimit t d q b)) = true ->
  step e w (CExec i (PlaceLimit t d q b)) = (w', Done r) ->
  exists o, order_of (w_st w') t (o_id o) = Some o /\ o_tick o = t /\ order_of (w_st w) t (o_id o) = None /\
  r = mkResp
    [("method", AStr "placeLimit"); ("owner", AStr (o_owner o)); ("tick_id", AInt (o_tick o)); ("order_id", AInt (o_id o));
     ("order_direction", ADir (o_dir o)); ("quantity", AInt (o_quantity o));
     ("order_denom", AStr (deposit_denom (w_st w) (o_dir o))); ("output_denom", AStr (proceeds_denom (w_st w) (o_dir o)))] [] [] None.
Proof.
  intros e w i t d q b w' r Hre Hok E. destruct (reachable_inv _ Hre) as (G & Hi).
  destruct (step_done _ _ _ _ _ _ Hi Hok E) as (G' & Ht & Hi' & Eself & Hsend).
  pose proof (C03_place_effect _ _ _ _ _ _ _ _ _ Hre Hok E) as (_ & _ & _ & _ & _ & Hnew & _).
  destruct (trans_place _ _ _ _ _ _ _ _ _ _ _ Ht) as (ob & Hq & Hp & Ha & -> & X4 & ->). cbn in Hnew. rewrite X4.
  exists (placed_order e i (G t d) t d (next_id (w_st w)) q b). unfold order_of. cbn.
  split; [apply lookup_insert|]. split; [reflexivity|]. split; [apply Hnew|].
  pose proof (pp_book _ _ _ _ _ _ _ _ Hp) as Eob. unfold proceeds_denom. rewrite !(den_eq _ _ _ Eob), <- opp_denom. reflexivity.
Qed.
Print Assumptions C42_place_announces.

(** The response of a cancel describes the order that was there: its quantity is what is refunded. *)
Theorem C42_cancel_announces :
  forall e w i t id w' r,
  reachable w -> call_ok (w_self w) (CExec i (CancelLimit t id)) = true ->
  step e w (CExec i (CancelLimit t id)) = (w', Done r) ->
  exists o, order_of (w_st w) t id = Some o /\ o_tick o = t /\ o_id o = id /\ order_of (w_st w') t id = None /\
  r = mkResp
    [("method", AStr "cancelLimit"); ("owner", AStr (o_owner o)); ("tick_id", AInt t); ("order_id", AInt id);
     ("quantity", AInt (o_quantity o)); ("order_direction", ADir (o_dir o)); ("initial_quantity", AInt (o_placed_quantity o));
     ("order_denom", AStr (deposit_denom (w_st w) (o_dir o))); ("output_denom", AStr (proceeds_denom (w_st w) (o_dir o)))]
    [] [mkSend REPLY_ID_REFUND (o_owner o) (mkCoin (deposit_denom (w_st w) (o_dir o)) (o_quantity o))] None.
Proof.
  intros e w i t id w' r Hre Hok E. destruct (reachable_inv _ Hre) as (G & Hi).
  destruct (step_done _ _ _ _ _ _ Hi Hok E) as (G' & Ht & Hi' & Eself & Hsend).
  destruct (trans_cancel _ _ _ _ _ _ _ _ _ Ht) as (ob & o & n & cc & m' & tr' & c' & _ & A1 & A2 & A3 & A4 & A5 & A6 & A7 & -> & X & _).
  pose proof (i_order _ _ Hi _ _ A2) as Ho. pose proof (oo_tick _ _ _ _ Ho) as E1. pose proof (oo_id _ _ _ _ Ho) as E2. cbn in E1, E2.
  exists o. unfold order_of. rewrite X. cbn. rewrite E2. split; [assumption|]. split; [assumption|]. split; [reflexivity|]. split; [apply lookup_delete|].
  unfold cancel_resp, proceeds_denom. rewrite !(den_eq _ _ _ A1), <- opp_denom, A4. reflexivity.
Qed.
Print Assumptions C42_cancel_announces.

(** The event of a claim: who claimed, what the owner was sent, what is left; it says "fully
    claimed" exactly when the order is gone. *)
Theorem C42_claim_announces :
  forall e w0 h i t id w' r, start w0 -> history w0 h ->
  let w := run w0 h in
  call_ok (w_self w) (CExec i (ClaimLimit t id)) = true -> step e w (CExec i (ClaimLimit t id)) = (w', Done r) ->
  exists en, en ∈ ideal_run w0 [] h /\ en_tick en = t /\ en_id en = id /\ 0 < en_filled en /\
  r = mkResp [("method", AStr "claimLimit")]
    [mkClaimEvent (i_sender i) t id (en_open en) (en_owner en) (en_dir en) (owner_part (w_st w) en) (en_placed en) (en_open en =? 0)
       (deposit_denom (w_st w) (en_dir en)) (proceeds_denom (w_st w) (en_dir en))]
    (claim_pays (w_st w) (i_sender i) en) None /\
  (en_open en = 0 <-> order_of (w_st w') t id = None).
Proof.
  intros e w0 h i t id w' r Hs Hh w Hok E. destruct (run_good w0 h Hs Hh) as (G & [Hi Hr Hsol]). fold w in Hi, Hr, Hsol.
  destruct (step_done _ _ _ _ _ _ Hi Hok E) as (G' & Ht & Hi' & Eself & Hsend).
  destruct (trans_claim _ _ _ _ _ _ _ _ _ Ht) as (ob & a & ms & o' & Ha & A1 & A2 & A3 & ->).
  destruct (claim_entry _ _ _ _ _ _ _ _ _ _ _ Hi Hr A3) as (en & o & Hen & D1 & D2 & Hf & Hop & Eo & Hd & -> & -> & Eq & Eid & Es).
  exists en. do 4 (split; [assumption|]).
  assert (Hid : o_tick o' = t /\ o_id o' = id /\ o_dir o' = en_dir en /\ o_owner o' = en_owner en /\ o_placed_quantity o' = en_placed en).
  { unfold identity in Eid. injection Eid as -> -> -> -> _ -> _. destruct Hd as (K1 & K2 & K3 & K4 & _ & _ & K5 & _). repeat split; congruence. }
  destruct Hid as (I1 & I2 & I3 & I4 & I5).
  split. { unfold generate_claimed_order_event, proceeds_denom. rewrite I1, I2, I3, I4, I5, Eq, !(den_eq _ _ _ A1), <- opp_denom. reflexivity. }
  unfold order_of. rewrite Es. destruct (Z.eqb_spec (en_open en) 0) as [E0|E0]; [rewrite lookup_delete|rewrite lookup_insert]; split; congruence.
Qed.
Print Assumptions C42_claim_announces.

(** A swap announces and returns what it sends. *)
Theorem C42_swap_announces :
  forall e w sender tin out mn fee target w' r,
  reachable w -> call_ok (w_self w) (swap_call sender tin out mn fee target) = true ->
  step e w (swap_call sender tin out mn fee target) = (w', Done r) ->
  exists x rest, r = mkResp
    [("method", AStr "swapExactAmountIn"); ("sender", AStr sender); ("token_in", ACoin tin); ("token_out_denom", AStr out);
     ("token_out_min_amount", AInt mn); ("output_quantity", AInt x)] []
    (mkSend REPLY_ID_SUDO_SWAP_EXACT_IN sender (mkCoin out x) :: pay REPLY_ID_REFUND sender (c_denom tin) rest) (Some x).
Proof.
  intros e w sender tin out mn fee target w' r Hre Hok E.
  destruct (swap_done _ _ _ _ _ _ _ _ _ _ Hre Hok E) as (m & G & l & fs & rest & pr & H). exists (sum_out fs), rest. apply (sw_resp _ _ _ _ _ _ _ _ _ _ _ _ _ _ _ _ H).
Qed.
Print Assumptions C42_swap_announces.

(** The table of a concrete history: three orders, a swap that fills one and a half of them, a
    partial claim, a cancel. *)
Definition hist_events : list (env * call) :=
  [place "a" 0 Bid 10 None; place "b" 0 Bid 10 None; place "c" 5 Ask 7 None; sell "s" 15; claim "z" 0 0; claim "z" 0 1; cancel "c" 5 2; place "d" 5 Ask 9 None].
Example C42_case :
  history w_start hist_events /\ forallb id (run_out w_start hist_events) = true /\
  map_to_list (foldl heard ∅ (responses w_start hist_events)) = [((5, 3), mkKnown "d" Ask 9 9); ((0, 1), mkKnown "b" Bid 5 10)].
Proof. split; [hist|]. split; vm_compute; reflexivity. Qed.
