(** * Trans: every successful call is one of a few transitions, and all keep the invariant. *)
From Verif Require Import Base Dec Types State TickMath Sumtree Tick Order Auth Contract World SpecMath TickMathProofs
  TreeDefs Exec SumtreeProofs SumtreeRebalance SumtreeInsert PrefixSum SumtreeRoot SumtreeFail Ghost Inv StepPlace StepCancel StepClaim SwapPlan StepSwap.

(** The trading part of the storage is untouched. *)
Record same_book (s s' : storage) : Prop := {
  sb_id : s_order_id s' = s_order_id s;
  sb_book : s_orderbook s' = s_orderbook s;
  sb_ticks : s_ticks s' = s_ticks s;
  sb_liq : s_dirliq s' = s_dirliq s;
  sb_orders : s_orders s' = s_orders s;
  sb_nodes : s_nodes s' = s_nodes s;
  sb_ctr : s_nodectr s' = s_nodectr s;
  sb_tree : s_tree s' = s_tree s
}.
Lemma same_book_refl s : same_book s s.
Proof. split; reflexivity. Qed.

Ltac minv H :=
  repeat (first
    [ rewrite bind_read in H
    | rewrite bind_mod in H
    | let x := fresh "x" in let s1 := fresh "s1" in let H1 := fresh "Hm" in
      apply bind_inv in H as (x & s1 & H1 & H);
      first [ apply mensure_inv in H1 as [-> H1]
            | apply mlift_inv in H1 as [-> H1]
            | apply mreadr_inv in H1 as [-> H1]
            | apply mret_inv in H1 as [-> H1]
            | idtac ]
    | apply mret_inv in H as [-> ->] ]).

(** ** Administration *)
Lemma auth_trans e i m s s' r :
  auth_dispatch e i m s = (s', Ok r) -> same_book s s' /\ r_msgs r = [] /\ r_events r = [] /\
  (s_fee s' = s_fee s \/ exists f, m = SetMakerFee f /\ s_fee s' = Some f /\ f <= MAX_MAKER_FEE_PERCENTAGE) /\
  (s_recipient s' = s_recipient s \/ exists a, s_recipient s' = Some a).
Proof.
  destruct m; cbn [auth_dispatch];
    unfold dispatch_transfer_admin, dispatch_cancel_admin_transfer, dispatch_claim_admin, dispatch_reject_admin_transfer,
      dispatch_renounce_adminship, dispatch_offer_moderator, dispatch_claim_moderator, dispatch_reject_moderator_offer,
      dispatch_set_active, dispatch_set_maker_fee, dispatch_set_maker_fee_recipient, ensure_is_admin, ensure_is_admin_or_moderator,
      offer_admin, remove_admin_transfer, update_admin, remove_admin, offer_moderator, remove_moderator_offer, update_moderator, set_active, set_maker_fee;
    intros H.
  all: repeat match type of H with
       | mbindM _ _ _ = _ => first [rewrite bind_read in H | rewrite bind_mod in H | rewrite bind_assoc in H |
            (let x := fresh "x" in let s1 := fresh "s1" in let H1 := fresh "Hm" in
             apply bind_inv in H as (x & s1 & H1 & H);
             first [ apply mensure_inv in H1 as [-> H1] | apply mlift_inv in H1 as [-> H1] | apply mret_inv in H1 as [-> ->] ])]
       | mret _ _ = _ => apply mret_inv in H as [-> ->]
       end.
  all: split; [split; reflexivity|]; split; [reflexivity|]; split; [reflexivity|]; split; eauto.
  right. eexists. split; [reflexivity|]. split; [reflexivity|]. apply Z.leb_le. assumption.
Qed.

Lemma same_book_inv s s' G :
  inv s G -> same_book s s' ->
  (exists f, s_fee s' = Some f /\ 0 <= f <= MAX_MAKER_FEE_PERCENTAGE) -> (exists r, s_recipient s' = Some r) -> inv s' G.
Proof.
  intros [K1 K2 K3 K4 K5 K6 K7 K8 K9 K10 K11 K12 K13 K14 K15] [E1 E2 E3 E4 E5 E6 E7 E8] Hf Hr.
  assert (Ec : forall t, nctr s' t = nctr s t) by (intros; unfold nctr; rewrite E7; reflexivity).
  assert (En : next_id s' = next_id s) by (unfold next_id; rewrite E1; reflexivity).
  split; rewrite ?E1, ?E2, ?E3, ?E5, ?E6, ?E8, ?En; auto.
  - intros t. rewrite Ec. auto.
  - intros t. rewrite Ec. auto.
  - intros k o E. destruct (K6 _ _ E) as [A1 A2 A3 A4 A5 A6 A7]. split; try assumption. rewrite En. assumption.
  - intros d. unfold get_directional_liquidity. rewrite E4. apply K10.
  - destruct K11 as (ob & E & [B1 B2 B3 B4 B5]). exists ob. split; [assumption|]. split; try assumption; rewrite E3; assumption.
  - intros t E. rewrite E7. apply K14, E.
  - intros d. unfold get_directional_liquidity. rewrite E4. apply K15.
Qed.

(** ** Batches of claims *)
Inductive claim1 (sender : string) (s : storage) (G : ghost) (t id : Z) : storage -> ghost -> (Z * list submsg * limit_order) -> Prop :=
| Claim1 ob fee rcp o n c tr' c' :
    s_orderbook s = Some ob -> s_fee s = Some fee -> s_recipient s = Some rcp ->
    s_orders s !! (t, id) = Some o ->
    (id, (n, c, o_quantity o)) ∈ g_lives (G t (o_dir o)) -> o_etas o = (n + c) * DEC ->
    let f := fifo (g_F (G t (o_dir o))) n (o_quantity o) in
    let raw := gross (o_dir o) f (tick_price t) in
    0 < f ->
    inv (sync_st s G t tr' c') (gsync G t) ->
    inv (claim_st (sync_st s G t tr' c') t id o f) (gclaim G t (o_dir o) id f) ->
    (forall t', nctr s t' <= unwrap_or (c' !! t') 0 <= nctr s t' + (if decide (t' = t) then 2 else 0)) ->
    claim1 sender s G t id (claim_st (sync_st s G t tr' c') t id o f) (gclaim G t (o_dir o) id f)
      (claim_payout fee raw (o_bounty o),
       claim_msgs (o_owner o) sender rcp (get_opposite_denom ob (o_dir o)) fee raw (o_bounty o),
       claimed_order o f).

(** A claim that fails: nothing happens except, possibly, a synchronisation. *)
Inductive miss1 (s : storage) (G : ghost) (t id : Z) : storage -> ghost -> Prop :=
| Miss_none : s_orders s !! (t, id) = None -> miss1 s G t id s G
| Miss_zero o n c tr' c' :
    s_orders s !! (t, id) = Some o ->
    (id, (n, c, o_quantity o)) ∈ g_lives (G t (o_dir o)) -> o_etas o = (n + c) * DEC ->
    fifo (g_F (G t (o_dir o))) n (o_quantity o) = 0 ->
    inv (sync_st s G t tr' c') (gsync G t) ->
    (forall t', nctr s t' <= unwrap_or (c' !! t') 0 <= nctr s t' + (if decide (t' = t) then 2 else 0)) ->
    miss1 s G t id (sync_st s G t tr' c') (gsync G t).

Lemma claim_step sender s G t id :
  inv s G ->
  (exists s' G' x, claim_order sender t id s = (s', Ok x) /\ claim1 sender s G t id s' G' x /\ inv s' G') \/
  (exists s' G' er, claim_order sender t id s = (s', Err er) /\ miss1 s G t id s' G' /\ inv s' G') \/
  (U64_MAX < nctr s t + 2 /\ exists s', claim_order sender t id s = (s', Panic)).
Proof.
  intros Hi. destruct (i_book _ _ Hi) as (ob & Eob & _). destruct (i_fee _ _ Hi) as (fee & Efee & _). destruct (i_rcp _ _ Hi) as (rcp & Ercp).
  destruct (claim_cases s G ob fee rcp sender t id Hi Eob Efee Ercp) as [(Eo & er & E)|(o & n & c & Eo & Hl & He & H)].
  { right; left. exists s, G, er. split; [assumption|]. split; [constructor; assumption|assumption]. }
  destruct H as [H|(tr' & c' & Hi1 & Hc & [(Hf & E)|(Hf & E & Hi2)])].
  - auto.
  - right; left. eexists _, _, _. split; [exact E|]. split; [|exact Hi1]. eapply Miss_zero; eauto.
  - left. eexists _, _, _. split; [exact E|]. split; [|exact Hi2]. econstructor; eauto.
Qed.

Inductive claims (ob : orderbook) (sender : string) : storage -> ghost -> list (Z * Z) -> storage -> ghost -> list submsg -> list claim_event -> Prop :=
| Claims_nil s G : claims ob sender s G [] s G [] []
| Claims_miss s G t id l s1 G1 s2 G2 ms es :
    inv s G -> miss1 s G t id s1 G1 -> inv s1 G1 -> claims ob sender s1 G1 l s2 G2 ms es -> claims ob sender s G ((t, id) :: l) s2 G2 ms es
| Claims_hit s G t id l s1 G1 a bank o s2 G2 ms es :
    inv s G -> claim1 sender s G t id s1 G1 (a, bank, o) -> inv s1 G1 -> claims ob sender s1 G1 l s2 G2 ms es ->
    claims ob sender s G ((t, id) :: l) s2 G2 (bank ++ ms)
      (generate_claimed_order_event sender o a (get_expected_denom ob (o_dir o)) (get_opposite_denom ob (o_dir o)) :: es).

Lemma claim1_frame sender s G t id s' G' x :
  claim1 sender s G t id s' G' x -> same_admin s s' /\ s_orderbook s' = s_orderbook s /\ s_order_id s' = s_order_id s /\ s_dirliq s' = s_dirliq s /\
  (forall t', nctr s t' <= nctr s' t' <= nctr s t' + (if decide (t' = t) then 2 else 0)).
Proof. intros []. split; [split; reflexivity|]. split; [reflexivity|]. split; [reflexivity|]. split; [reflexivity|]. assumption. Qed.
Lemma miss1_frame s G t id s' G' :
  miss1 s G t id s' G' -> same_admin s s' /\ s_orderbook s' = s_orderbook s /\ s_order_id s' = s_order_id s /\ s_dirliq s' = s_dirliq s /\
  s_orders s' = s_orders s /\
  (forall t', nctr s t' <= nctr s' t' <= nctr s t' + (if decide (t' = t) then 2 else 0)).
Proof.
  intros [].
  - split; [split; reflexivity|]. do 4 (split; [reflexivity|]). intros t'. destruct (decide _); lia.
  - split; [split; reflexivity|]. do 4 (split; [reflexivity|]). assumption.
Qed.
Lemma claims_frame ob sender s G l s' G' ms es :
  claims ob sender s G l s' G' ms es -> same_admin s s' /\ s_orderbook s' = s_orderbook s /\ s_order_id s' = s_order_id s /\ s_dirliq s' = s_dirliq s /\
  (forall t', nctr s t' <= nctr s' t' <= nctr s t' + 2 * Z.of_nat (length l)).
Proof.
  induction 1 as [s G|s G t id l s1 G1 s2 G2 ms es Hi Hm Hi1 Hc IH|s G t id l s1 G1 a bank o s2 G2 ms es Hi Hm Hi1 Hc IH].
  - split; [apply same_admin_refl|]. do 3 (split; [reflexivity|]). intros t'. cbn. lia.
  - apply miss1_frame in Hm as (A1 & A2 & A3 & A4 & _ & A5). destruct IH as (B1 & B2 & B3 & B4 & B5).
    split; [eapply same_admin_trans; eauto|]. do 3 (split; [congruence|]). intros t'. specialize (A5 t'). specialize (B5 t').
    cbn [length]. destruct (decide _); lia.
  - apply claim1_frame in Hm as (A1 & A2 & A3 & A4 & A5). destruct IH as (B1 & B2 & B3 & B4 & B5).
    split; [eapply same_admin_trans; eauto|]. do 3 (split; [congruence|]). intros t'. specialize (A5 t'). specialize (B5 t').
    cbn [length]. destruct (decide _); lia.
Qed.
Lemma claims_inv ob sender s G l s' G' ms es : inv s G -> claims ob sender s G l s' G' ms es -> inv s' G'.
Proof. intros Hi. induction 1; auto. Qed.

Lemma batch_loop ob sender l : forall s G ms es,
  inv s G ->
  (exists s' G' ms' es', batch_claim_loop ob sender l ms es s = (s', Ok (ms ++ ms', es ++ es')) /\ claims ob sender s G l s' G' ms' es' /\ inv s' G') \/
  ((exists t, U64_MAX < nctr s t + 2 * Z.of_nat (length l)) /\ exists s', batch_claim_loop ob sender l ms es s = (s', Panic)).
Proof.
  induction l as [|[t id] l IH]; intros s G ms es Hi.
  { left. exists s, G, [], []. cbn. rewrite !app_nil_r. split; [reflexivity|]. split; [constructor|assumption]. }
  cbn [batch_claim_loop length]. destruct (claim_step sender s G t id Hi) as [(s1 & G1 & [[a bank] o] & E & Hc & Hi1)|[(s1 & G1 & er & E & Hm & Hi1)|(HU & s1 & E)]].
  - rewrite E. destruct (IH s1 G1 (ms ++ bank) (es ++ [generate_claimed_order_event sender o a (get_expected_denom ob (o_dir o)) (get_opposite_denom ob (o_dir o))]) Hi1)
      as [(s2 & G2 & ms' & es' & E2 & Hcs & Hi2)|((t' & HU) & s2 & E2)].
    + left. exists s2, G2, (bank ++ ms'), (generate_claimed_order_event sender o a (get_expected_denom ob (o_dir o)) (get_opposite_denom ob (o_dir o)) :: es').
      rewrite E2. rewrite <- !app_assoc. split; [reflexivity|]. split; [eapply Claims_hit; eauto|assumption].
    + right. split; [|eauto]. exists t'. apply claim1_frame in Hc as (_ & _ & _ & _ & A). specialize (A t'). destruct (decide _); lia.
  - rewrite E. destruct (IH s1 G1 ms es Hi1) as [(s2 & G2 & ms' & es' & E2 & Hcs & Hi2)|((t' & HU) & s2 & E2)].
    + left. exists s2, G2, ms', es'. rewrite E2. split; [reflexivity|]. split; [eapply Claims_miss; eauto|assumption].
    + right. split; [|eauto]. exists t'. apply miss1_frame in Hm as (_ & _ & _ & _ & _ & A). specialize (A t'). destruct (decide _); lia.
  - right. rewrite E. split; [|eauto]. exists t. lia.
Qed.

(** ** All calls *)
Definition swap_args (c : call) : option (string * coin * string * Z * Z * option Z) :=
  match c with
  | CSudo (SwapExactAmountIn sender tin out mn fee) => Some (sender, tin, out, mn, fee, None)
  | CSudo (SwapToTick sender tin out mn fee t) => Some (sender, tin, out, mn, fee, Some t)
  | _ => None
  end.
Definition swap_bound (d : dir) (target : option Z) : Z :=
  unwrap_or target (match d with Bid => MAX_TICK | Ask => MIN_TICK end).
Definition swap_resp (sender : string) (tin : coin) (outd : string) (mn output rest : Z) (denom : string) : response :=
  mkResp
    [("method", AStr "swapExactAmountIn"); ("sender", AStr sender); ("token_in", ACoin tin);
     ("token_out_denom", AStr outd); ("token_out_min_amount", AInt mn);
     ("output_quantity", AInt output)] []
    (mkSend REPLY_ID_SUDO_SWAP_EXACT_IN sender (mkCoin denom output)
              :: (if rest =? 0 then [] else [mkSend REPLY_ID_REFUND sender (mkCoin (c_denom tin) rest)])) (Some output).

Inductive trans (e : env) (s : storage) (G : ghost) : call -> response -> storage -> ghost -> Prop :=
| T_place i t d q b ob :
    q <= U128_MAX -> place_pre s G ob i t d q b -> s_active s <> Some false ->
    trans e s G (CExec i (PlaceLimit t d q b)) (place_resp ob i t d (next_id s) q)
      (place_st s G ob e i t d q b) (gset G t d (g_place (G t d) (next_id s) q))
| T_cancel i t id ob o n c m' tr' c' :
    s_active s <> Some false ->
    s_orderbook s = Some ob -> s_orders s !! (t, id) = Some o -> i_funds i = [] -> i_sender i = o_owner o ->
    (id, (n, c, o_quantity o)) ∈ g_lives (G t (o_dir o)) -> o_etas o = (n + c) * DEC ->
    g_F (G t (o_dir o)) <= n ->
    (forall t', nctr s t' <= unwrap_or (c' !! t') 0 <= nctr s t' + (if decide (t' = t) then 5 else 0)) ->
    trans e s G (CExec i (CancelLimit t id)) (cancel_resp ob i t id o) (cancel_st s G t o m' tr' c') (gcancel G t (o_dir o) id)
| T_claim i t id ob s' G' a ms o :
    s_active s <> Some false -> s_orderbook s = Some ob -> i_funds i = [] -> claim1 (i_sender i) s G t id s' G' (a, ms, o) ->
    trans e s G (CExec i (ClaimLimit t id))
      (mkResp [("method", AStr "claimLimit")]
              [generate_claimed_order_event (i_sender i) o a (get_expected_denom ob (o_dir o)) (get_opposite_denom ob (o_dir o))] ms None) s' G'
| T_batch i l ob s' G' ms es :
    s_active s <> Some false -> s_orderbook s = Some ob -> i_funds i = [] -> Z.of_nat (length l) <= MAX_BATCH_CLAIM ->
    claims ob (i_sender i) s G l s' G' ms es ->
    trans e s G (CExec i (BatchClaim l))
      (mkResp [("method", AStr "batchClaimLimit"); ("sender", AStr (i_sender i))] es ms None) s' G'
| T_auth i m r s' :
    auth_dispatch e i m s = (s', Ok r) -> same_book s s' -> r_msgs r = [] -> r_events r = [] ->
    trans e s G (CExec i (AuthMsg m)) r s' G
| T_swap cl sender tin outd mn fee target d ob l fs rest pr :
    s_active s <> Some false ->
    swap_args cl = Some (sender, tin, outd, mn, fee, target) ->
    s_orderbook s = Some ob -> fee = 0 -> e_addr_valid e sender = true ->
    direction_from_pair ob (c_denom tin) outd = Ok d ->
    swap_pre s G ob d (swap_bound d target) (c_amount tin) l fs rest pr ->
    mn <= sum_out fs ->
    trans e s G cl (swap_resp sender tin outd mn (sum_out fs) rest outd)
      (swap_st s G ob (opposite d) fs) (gfills G (opposite d) fs)
| T_sudo m r s' :
    s_active s <> Some false ->
    sudo e m s = (s', Ok r) -> swap_args (CSudo m) = None -> same_book s s' -> s_fee s' = s_fee s -> s_recipient s' = s_recipient s ->
    r_msgs r = [] -> r_events r = [] ->
    trans e s G (CSudo m) r s' G
| T_none cl : (cl = CMigrate \/ exists c, cl = CDonate c) -> trans e s G cl resp_default s G.

Lemma active_inv s s' u : ensure_is_active s = (s', Ok u) -> s' = s /\ s_active s <> Some false.
Proof.
  unfold ensure_is_active. rewrite bind_read. intros H. apply mensure_inv in H as [-> H]. split; [reflexivity|].
  destruct (s_active s) as [[]|]; cbn in H; congruence.
Qed.

Lemma direction_denom ob a b d : ob_quote ob <> ob_base ob ->
  direction_from_pair ob a b = Ok d -> a = get_expected_denom ob d /\ b = get_opposite_denom ob d.
Proof.
  intros Hne. unfold direction_from_pair.
  destruct (bool_decide_reflect (ob_base ob = a /\ ob_quote ob = b)) as [[<- <-]|_]; [intros [= <-]; auto|].
  destruct (bool_decide_reflect (ob_quote ob = a /\ ob_base ob = b)) as [[<- <-]|_]; [intros [= <-]; auto|discriminate].
Qed.
Lemma direction_ok ob d : ob_quote ob <> ob_base ob ->
  direction_from_pair ob (get_expected_denom ob d) (get_opposite_denom ob d) = Ok d.
Proof.
  intros Hne. unfold direction_from_pair. destruct d; cbn [get_expected_denom get_opposite_denom].
  - rewrite bool_decide_false by (intros [? _]; congruence). rewrite bool_decide_true by auto. reflexivity.
  - rewrite bool_decide_true by auto. reflexivity.
Qed.

Lemma dispatch_swap_inv e sender tin outd mn fee target s G s' r :
  inv s G -> coin_typed tin = true ->
  dispatch_swap_exact_amount_in e sender tin outd mn fee target s = (s', Ok r) ->
  exists d ob l fs rest pr, s_orderbook s = Some ob /\ fee = 0 /\ e_addr_valid e sender = true /\
    direction_from_pair ob (c_denom tin) outd = Ok d /\
    swap_pre s G ob d (swap_bound d target) (c_amount tin) l fs rest pr /\
    mn <= sum_out fs /\ r = swap_resp sender tin outd mn (sum_out fs) rest outd /\
    s' = swap_st s G ob (opposite d) fs /\ inv s' (gfills G (opposite d) fs).
Proof.
  intros Hi Htin H. unfold coin_typed, u128 in Htin. apply andb_prop in Htin as [T1 T2]. apply Z.leb_le in T1, T2.
  unfold dispatch_swap_exact_amount_in in H.
  apply bind_inv in H as (u1 & s1 & H1 & H). apply mlift_inv in H1 as [-> H1]. apply rensure_inv in H1. apply Z.eqb_eq in H1.
  apply bind_inv in H as (u2 & s1 & H2 & H). apply mensure_inv in H2 as [-> H2].
  apply bind_inv in H as (ob & s1 & H3 & H). apply mreadr_inv in H3 as [-> H3]. apply ok_or_inv in H3.
  apply bind_inv in H as (d & s1 & H4 & H). apply mlift_inv in H4 as [-> H4].
  apply bind_inv in H as (u3 & s1 & H5 & H). apply mlift_inv in H5 as [-> H5]. apply rensure_inv in H5.
  apply bind_inv in H as ([[out dn] rest] & s1 & H6 & H).
  destruct (swap_run_inv _ _ _ _ _ _ _ _ _ _ Hi H3 (conj T1 T2) H6) as (l & fs & pr & Hp & -> & -> & -> & Hi').
  apply bind_inv in H as (u4 & s1 & H7 & H). apply mlift_inv in H7 as [-> H7].
  unfold validate_output_amount in H7. apply rbind_inv in H7 as (u5 & _ & H7). apply rbind_inv in H7 as (u6 & H7 & _).
  apply rensure_inv, Z.leb_le in H7. cbn [c_amount] in H7.
  apply mret_inv in H as [-> ->].
  destruct (i_book _ _ Hi) as (ob' & Eob & [B1 _ _ _ _]). rewrite H3 in Eob. injection Eob as <-.
  destruct (direction_denom _ _ _ _ B1 H4) as [_ D2].
  exists d, ob, l, fs, rest, pr. rewrite <- D2. repeat (split; [assumption || reflexivity|]). exact Hi'.
Qed.

Lemma cancel_inv_run i t id s G s' r :
  inv s G -> cancel_limit i t id s = (s', Ok r) ->
  exists ob o n c m' tr' c', s_orderbook s = Some ob /\ s_orders s !! (t, id) = Some o /\ i_funds i = [] /\ i_sender i = o_owner o /\
    (id, (n, c, o_quantity o)) ∈ g_lives (G t (o_dir o)) /\ o_etas o = (n + c) * DEC /\ g_F (G t (o_dir o)) <= n /\
    r = cancel_resp ob i t id o /\ s' = cancel_st s G t o m' tr' c' /\
    inv s' (gcancel G t (o_dir o) id) /\
    (forall t', nctr s t' <= unwrap_or (c' !! t') 0 <= nctr s t' + (if decide (t' = t) then 5 else 0)).
Proof.
  intros Hi H. destruct (i_book _ _ Hi) as (ob & Eob & _).
  assert (H' := H). unfold cancel_limit in H'.
  apply bind_inv in H' as (u1 & s1 & H1 & H'). apply mlift_inv in H1 as [-> H1]. apply nonpayable_inv in H1.
  apply bind_inv in H' as (o & s1 & H2 & H'). apply mreadr_inv in H2 as [-> H2]. apply ok_or_inv in H2.
  apply bind_inv in H' as (u2 & s1 & H3 & _). apply mensure_inv in H3 as [-> H3]. apply bool_decide_eq_true in H3.
  pose proof (i_order _ _ Hi _ _ H2) as Ho. destruct (oo_live _ _ _ _ Ho) as (n & c & Hl & He). cbn [fst snd] in Hl.
  destruct (cancel_cases s G ob i t id o n c Hi Eob H2 H1 H3 Hl He) as [(HF & m' & tr' & c' & E & Hi' & Hc)|[(_ & s2 & E)|(_ & E)]].
  - rewrite E in H. injection H as <- <-. exists ob, o, n, c, m', tr', c'. repeat (split; [assumption || reflexivity|]). assumption.
  - congruence.
  - exfalso. eapply E. exact H.
Qed.

Lemma call_trans e cl s G s' r self :
  inv s G -> call_ok self cl = true -> call_run e cl s = (s', Ok r) ->
  exists G', trans e s G cl r s' G' /\ inv s' G'.
Proof.
  intros Hi Hok H. unfold call_ok in Hok. apply andb_prop in Hok as [_ Hok]. destruct cl as [i m|m| |c]; cbn [call_run] in H.
  - apply andb_prop in Hok as [_ Hok]. unfold execute in H. apply bind_inv in H as (u & s1 & H1 & H).
    destruct m as [t d q b|t id|t id|l|m].
    1-4: apply active_inv in H1 as [-> Ha].
    + cbn [exec_typed] in Hok. apply andb_prop in Hok as [Hok _]. apply andb_prop in Hok as [_ Hq]. unfold u128 in Hq.
      apply andb_prop in Hq as [Q1 Q2]. apply Z.leb_le in Q1, Q2.
      destruct (place_pre_inv _ _ _ _ _ _ _ _ _ _ Hi (conj Q1 Q2) H) as (ob & Hp).
      pose proof (place_run s G ob e i t d q b Hi Q2 Hp) as E. rewrite E in H. injection H as <- <-.
      eexists. split; [constructor; assumption|]. apply place_inv; assumption.
    + destruct (cancel_inv_run _ _ _ _ _ _ _ Hi H) as (ob & o & n & c & m' & tr' & c' & A1 & A2 & A3 & A4 & A5 & A6 & A7 & -> & -> & Hi' & Hc).
      eexists. split; [eapply T_cancel; eauto|assumption].
    + unfold claim_limit in H. apply bind_inv in H as (u1 & s1 & H1 & H). apply mlift_inv in H1 as [-> H1]. apply nonpayable_inv in H1.
      apply bind_inv in H as ([[a ms] o] & s1 & H2 & H). apply bind_inv in H as (ob & s2 & H3 & H). apply mreadr_inv in H3 as [-> H3]. apply ok_or_inv in H3.
      apply mret_inv in H as [-> ->].
      destruct (claim_step (i_sender i) s G t id Hi) as [(s3 & G1 & x & E & Hc & Hi1)|[(s3 & G1 & er & E & _)|(_ & s3 & E)]]; rewrite E in H2; try discriminate.
      injection H2 as -> ->. exists G1. split; [|assumption]. eapply T_claim; eauto.
      apply claim1_frame in Hc as (_ & Eb & _). congruence.
    + unfold batch_claim_limits in H. apply bind_inv in H as (u1 & s1 & H1 & H). apply mlift_inv in H1 as [-> H1]. apply nonpayable_inv in H1.
      apply bind_inv in H as (u2 & s1 & H2 & H). apply mensure_inv in H2 as [-> H2]. apply Z.leb_le in H2.
      apply bind_inv in H as (ob & s1 & H3 & H). apply mreadr_inv in H3 as [-> H3]. apply ok_or_inv in H3.
      apply bind_inv in H as ([ms es] & s1 & H4 & H). apply mret_inv in H as [-> ->].
      destruct (batch_loop ob (i_sender i) l s G [] [] Hi) as [(s2 & G2 & ms' & es' & E & Hc & Hi')|(_ & s2 & E)]; rewrite E in H4; [|discriminate].
      injection H4 as -> <- <-. exists G2. cbn [fst snd app]. split; [|assumption]. eapply T_batch; eauto.
    + apply mret_inv in H1 as [-> _]. destruct (auth_trans _ _ _ _ _ _ H) as (A1 & A2 & A3 & A4 & A5).
      exists G. split; [constructor; assumption|]. eapply same_book_inv; eauto.
      * destruct (i_fee _ _ Hi) as (f & E & Hf). destruct A4 as [A4|(f' & -> & A4 & Hf')]; [rewrite A4; eauto|].
        exists f'. split; [assumption|]. cbn [exec_typed] in Hok. unfold u256 in Hok. apply andb_prop in Hok as [Q1 _]. apply Z.leb_le in Q1. lia.
      * destruct (i_rcp _ _ Hi) as (rr & E). destruct A5 as [A5|(a & A5)]; rewrite A5; eauto.
  - assert (H0 := H). unfold sudo in H. apply bind_inv in H as (u & s1 & H1 & H). apply active_inv in H1 as [-> Ha].
    destruct m as [sender tin outd mn fee|sender tin outd mn fee tgt|sender ind mx tout fee|a| |b].
    + cbn [sudo_typed] in Hok. apply andb_prop in Hok as [Hok _]. apply andb_prop in Hok as [Hok _].
      destruct (dispatch_swap_inv _ _ _ _ _ _ _ _ _ _ _ Hi Hok H) as (d & ob & l & fs & rest & pr & A1 & A2 & A3 & A4 & A5 & A6 & -> & -> & Hi').
      eexists. split; [eapply T_swap; eauto; reflexivity|assumption].
    + cbn [sudo_typed] in Hok. do 3 apply andb_prop in Hok as [Hok _].
      destruct (dispatch_swap_inv _ _ _ _ _ _ _ _ _ _ _ Hi Hok H) as (d & ob & l & fs & rest & pr & A1 & A2 & A3 & A4 & A5 & A6 & -> & -> & Hi').
      eexists. split; [eapply T_swap; eauto; reflexivity|assumption].
    + unfold mlift in H. discriminate.
    + unfold update_admin in H. rewrite bind_assoc in H. apply bind_inv in H as (u1 & s1 & H1 & H). apply mlift_inv in H1 as [-> H1].
      rewrite bind_mod in H. apply mret_inv in H as [-> ->]. assert (Hsb : same_book s (set_admin (Some a) s)) by (split; reflexivity).
      exists G. split; [eapply T_sudo; eauto; reflexivity|]. eapply same_book_inv; eauto; apply Hi.
    + unfold remove_admin in H. rewrite bind_mod in H. apply mret_inv in H as [-> ->].
      assert (Hsb : same_book s (set_admin None s)) by (split; reflexivity).
      exists G. split; [eapply T_sudo; eauto; reflexivity|]. eapply same_book_inv; eauto; apply Hi.
    + unfold set_active in H. rewrite bind_mod in H. apply mret_inv in H as [-> ->].
      assert (Hsb : same_book s (set_active_item b s)) by (split; reflexivity).
      exists G. split; [eapply T_sudo; eauto; reflexivity|]. eapply same_book_inv; eauto; apply Hi.
  - unfold migrate in H. apply mret_inv in H as [-> ->]. exists G. split; [constructor; auto|assumption].
  - apply mret_inv in H as [-> ->]. exists G. split; [constructor; eauto|assumption].
Qed.
