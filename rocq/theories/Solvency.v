(** * Solvency: the bank balance always covers what the makers are owed. *)
From Verif Require Import Base Dec Types State TickMath Sumtree Tick Order Auth Contract World SpecMath TickMathProofs
  TreeDefs Exec SumtreeProofs SumtreeRebalance SumtreeInsert PrefixSum SumtreeRoot SumtreeFail Ghost Inv StepPlace StepCancel StepClaim
  SwapPlan StepSwap Trans Spec Reach Refine RefineStep Reserve.

(** ** Sums over the ticks that exist *)
Definition ksum {A} (f : Z -> Z) (m : gmap Z A) : Z := msum (fun k (_ : unit) => f k) ((fun _ => tt) <$> m).
Lemma ksum_empty {A} f : ksum (A := A) f ∅ = 0.
Proof. unfold ksum. rewrite fmap_empty. apply msum_empty. Qed.
Lemma ksum_ext {A} f g (m : gmap Z A) : (forall k, is_Some (m !! k) -> f k = g k) -> ksum f m = ksum g m.
Proof.
  intros H. unfold ksum. apply msum_ext. intros k v E. rewrite lookup_fmap in E. destruct (m !! k) eqn:E'; [|discriminate].
  apply H. eauto.
Qed.
Lemma ksum_le {A} f g (m : gmap Z A) : (forall k, is_Some (m !! k) -> f k <= g k) -> ksum f m <= ksum g m.
Proof.
  intros H. unfold ksum. apply msum_le. intros k v E. rewrite lookup_fmap in E. destruct (m !! k) eqn:E'; [|discriminate].
  apply H. eauto.
Qed.
Lemma ksum_add {A} f g (m : gmap Z A) : ksum (fun k => f k + g k) m = ksum f m + ksum g m.
Proof. unfold ksum. apply (msum_add (fun k (_ : unit) => f k) (fun k _ => g k)). Qed.
Lemma ksum_dom {A} f (m m' : gmap Z A) : (forall k, m !! k = None <-> m' !! k = None) -> ksum f m = ksum f m'.
Proof.
  intros H. unfold ksum. f_equal. apply map_eq. intros k. rewrite !lookup_fmap. specialize (H k).
  destruct (m !! k), (m' !! k); cbn; try reflexivity; destruct H as [H1 H2]; [discriminate (H2 eq_refl)|discriminate (H1 eq_refl)].
Qed.
Lemma ksum_set {A} f f' (m : gmap Z A) t v :
  (m !! t = None -> f t = 0) -> (forall k, k <> t -> f' k = f k) -> ksum f' (<[t := v]> m) = ksum f m - f t + f' t.
Proof.
  intros H0 He. unfold ksum. rewrite fmap_insert.
  destruct (m !! t) as [v0|] eqn:E.
  - rewrite (msum_insert _ _ t tt tt) by (rewrite lookup_fmap, E; reflexivity).
    rewrite (msum_delete (fun k (_ : unit) => f' k) _ t tt) by (rewrite lookup_fmap, E; reflexivity).
    rewrite (msum_delete (fun k (_ : unit) => f k) _ t tt) by (rewrite lookup_fmap, E; reflexivity).
    enough (msum (fun k (_ : unit) => f' k) (delete t ((fun _ => tt) <$> m)) = msum (fun k (_ : unit) => f k) (delete t ((fun _ => tt) <$> m))) by lia.
    apply msum_ext. intros k u Ek. apply He. intros ->. rewrite lookup_delete in Ek. discriminate.
  - rewrite msum_insert_new by (rewrite lookup_fmap, E; reflexivity). rewrite H0 by reflexivity.
    enough (msum (fun k (_ : unit) => f' k) ((fun _ => tt) <$> m) = msum (fun k (_ : unit) => f k) ((fun _ => tt) <$> m)) by lia.
    apply msum_ext. intros k u Ek. apply He. intros ->. rewrite lookup_fmap, E in Ek. discriminate.
Qed.
Lemma ksum_nonneg {A} f (m : gmap Z A) : (forall k, is_Some (m !! k) -> 0 <= f k) -> 0 <= ksum f m.
Proof.
  intros H. unfold ksum. apply msum_nonneg. intros k v E. rewrite lookup_fmap in E. destruct (m !! k) eqn:E'; [|discriminate]. apply H. eauto.
Qed.

(** ** Charges of a plan, by tick *)
Fixpoint charged (fs : list (Z * Z * Z)) (t : Z) : Z :=
  match fs with [] => 0 | f :: fs => (if f_tick f =? t then f_in f else 0) + charged fs t end.
Lemma ksum_one {A} (m : gmap Z A) t v : is_Some (m !! t) -> ksum (fun k => if t =? k then v else 0) m = v.
Proof.
  intros [x E]. rewrite <- (insert_id m t x E) at 1. rewrite (ksum_set (fun _ => 0)); [|reflexivity|].
  - rewrite Z.eqb_refl. assert (ksum (fun _ => 0) m = 0); [|lia].
    clear. induction m as [|k v m Hk IH] using map_ind; [apply ksum_empty|]. rewrite (ksum_set (fun _ => 0)); [lia|reflexivity|reflexivity].
  - intros k Hk. destruct (Z.eqb_spec t k); [congruence|reflexivity].
Qed.
Lemma ksum_zero {A} (m : gmap Z A) : ksum (fun _ => 0) m = 0.
Proof. induction m as [|k v m Hk IH] using map_ind; [apply ksum_empty|]. rewrite (ksum_set (fun _ => 0)); [lia|reflexivity|reflexivity]. Qed.
Lemma ksum_charged {A} (m : gmap Z A) fs : (forall f, f ∈ fs -> is_Some (m !! f_tick f)) -> ksum (charged fs) m = sum_in fs.
Proof.
  induction fs as [|f fs IH]; intros H; cbn [charged sum_in].
  - apply ksum_zero.
  - rewrite (ksum_add (fun k => if f_tick f =? k then f_in f else 0)). rewrite ksum_one by (apply H; constructor).
    rewrite <- IH by (intros; apply H; constructor; assumption). reflexivity.
Qed.
Lemma ksum_taken {A} (m : gmap Z A) fs : (forall f, f ∈ fs -> is_Some (m !! f_tick f)) -> ksum (taken fs) m = sum_out fs.
Proof.
  induction fs as [|f fs IH]; intros H; cbn [taken sum_out].
  - apply ksum_zero.
  - rewrite (ksum_add (fun k => if f_tick f =? k then f_out f else 0)). rewrite ksum_one by (apply H; constructor).
    rewrite <- IH by (intros; apply H; constructor; assumption). reflexivity.
Qed.

(** Every fill either empties its tick or is charged the exact ceiling. *)
Lemma plan_exact d open l : forall q p0 fs r pr,
  (forall t, t ∈ l -> valid_tick t) -> (forall t, 0 <= open t) -> 0 <= q ->
  plan d open l q p0 = Some (fs, r, pr) ->
  Forall (fun f => f_out f < open (f_tick f) -> f_in f = cgross (opposite d) (f_out f) (tick_price (f_tick f))) fs.
Proof.
  induction l as [|t l IH]; intros q p0 fs r pr Hv Ho Hq; cbn [plan]; [intros [= <- <- <-]; constructor|].
  assert (Hvl : forall t', t' ∈ l -> valid_tick t') by (intros; apply Hv; constructor; assumption).
  assert (Hvt : valid_tick t) by (apply Hv; constructor). pose proof (tick_price_pos t Hvt) as Hp.
  destruct (Z.eqb_spec (open t) 0) as [E0|Hne]; [eauto|].
  destruct (Z.eqb_spec (gross d q (tick_price t)) 0) as [Ew|Hw]; [intros [= <- <- <-]; constructor|].
  set (x := Z.min _ _). pose proof (gross_nonneg d q _ Hq Hp) as Hg. specialize (Ho t) as Hot.
  destruct (Z.eqb_spec (cost d x (tick_price t)) 0) as [|Hc]; [discriminate|].
  destruct (plan d open l _ _) as [[[fs0 r0] pr0]|] eqn:E; [|discriminate]. intros [= <- <- <-].
  pose proof (cost_le d q (tick_price t) x ltac:(unfold x; lia) Hp) as Hcq.
  constructor; [|eapply IH; [exact Hvl|exact Ho| |exact E]; lia].
  cbn [f_out f_in f_tick fst snd]. intros Hlt. assert (Ex : x = gross d q (tick_price t)) by (unfold x in *; lia).
  rewrite Ex. apply cost_exact; [assumption|]. apply tick_gap. assumption.
Qed.
Lemma charged_notin fs t : t ∉ map f_tick fs -> charged fs t = 0.
Proof.
  induction fs as [|f fs IH]; cbn; [reflexivity|]. intros H. rewrite IH; [|intros E; apply H; constructor; exact E].
  destruct (Z.eqb_spec (f_tick f) t) as [<-|]; [exfalso; apply H; constructor|reflexivity].
Qed.
Lemma fill_at fs t : NoDup (map f_tick fs) ->
  (taken fs t = 0 /\ charged fs t = 0) \/ exists f, f ∈ fs /\ f_tick f = t /\ taken fs t = f_out f /\ charged fs t = f_in f.
Proof.
  intros Hn. destruct (decide (t ∈ map f_tick fs)) as [Hin|Hni]; [|left; rewrite taken_notin, charged_notin by assumption; auto].
  right. induction fs as [|f fs IH]; cbn in *; [inversion Hin|]. apply NoDup_cons in Hn as [Hf Hn].
  destruct (Z.eqb_spec (f_tick f) t) as [<-|Hne].
  - exists f. split; [constructor|]. rewrite taken_notin, charged_notin by assumption. rewrite !Z.add_0_r. auto.
  - apply elem_of_cons in Hin as [?|Hin]; [congruence|]. destruct (IH Hn Hin) as (f' & H1 & H2 & H3 & H4). exists f'. split; [constructor; assumption|].
    rewrite !Z.add_0_l. auto.
Qed.

(** ** What the contract must hold in the denomination of direction [d] *)
Definition epochs : Type := Z -> dir -> Z.
Definition rq (G : ghost) (B : epochs) (d : dir) (t : Z) : Z :=
  g_open (G t d) + reserve (opposite d) (tick_price t) (B t (opposite d)) (G t (opposite d)).
Definition req (s : storage) (G : ghost) (B : epochs) (d : dir) : Z := ksum (rq G B d) (s_ticks s).
Definition epochs_ok (G : ghost) (B : epochs) : Prop := forall t d, epoch_ok (G t d) (B t d).
(** Epochs of sides that do not exist are zero. *)
Definition epochs0 (s : storage) (B : epochs) : Prop := forall t d, s_ticks s !! t = None -> B t d = 0.

Fixpoint coins_in (denom : string) (l : list coin) : Z :=
  match l with [] => 0 | c :: l => (if bool_decide (c_denom c = denom) then c_amount c else 0) + coins_in denom l end.
Fixpoint msgs_in (denom : string) (l : list submsg) : Z :=
  match l with [] => 0 | m :: l => (if bool_decide (c_denom (sm_coin m) = denom) then c_amount (sm_coin m) else 0) + msgs_in denom l end.
Lemma msgs_app denom l1 l2 : msgs_in denom (l1 ++ l2) = msgs_in denom l1 + msgs_in denom l2.
Proof. induction l1; cbn; lia. Qed.

Lemma opp_opp d : opposite (opposite d) = d.
Proof. destruct d; reflexivity. Qed.
Lemma opp_ne d : opposite d <> d.
Proof. destruct d; discriminate. Qed.
Lemma opp_denom ob d : get_opposite_denom ob d = get_expected_denom ob (opposite d).
Proof. destruct d; reflexivity. Qed.
Lemma denom_inj ob d d' : ob_quote ob <> ob_base ob -> get_expected_denom ob d = get_expected_denom ob d' -> d = d'.
Proof. destruct d, d'; cbn; congruence. Qed.
Lemma denom_dec ob d d' : ob_quote ob <> ob_base ob ->
  bool_decide (get_expected_denom ob d = get_expected_denom ob d') = bool_decide (d = d').
Proof.
  intros H. destruct (bool_decide_reflect (d = d')) as [->|Hn]; [apply bool_decide_true; reflexivity|].
  apply bool_decide_false. intros E. apply Hn. eapply denom_inj; eauto.
Qed.
Lemma rq0 G B d t : (forall d', G t d' = side0) -> (forall d', B t d' = 0) -> valid_tick t -> rq G B d t = 0.
Proof.
  intros HG HB Ht. unfold rq. rewrite !HG, HB. rewrite reserve0 by (apply tick_price_pos; assumption). reflexivity.
Qed.

Lemma dir_cases (d d' : dir) : d' = d \/ d' = opposite d.
Proof. destruct d, d'; auto. Qed.

(** A change confined to one tick. *)
Lemma req_set s s' G G' B d t v :
  inv s G -> epochs0 s B -> valid_tick t -> s_ticks s' = <[t := v]> (s_ticks s) -> (forall t' d', t' <> t -> G' t' d' = G t' d') ->
  req s' G' B d = req s G B d - rq G B d t + rq G' B d t.
Proof.
  intros Hi HB Ht Es HG. unfold req. rewrite Es. apply ksum_set.
  - intros E. apply rq0; [|auto|assumption]. intros d'. apply (i_none _ _ Hi). assumption.
  - intros k Hk. unfold rq. rewrite !HG by assumption. reflexivity.
Qed.

Lemma epochs0_set s s' B t v : epochs0 s B -> s_ticks s' = <[t := v]> (s_ticks s) -> epochs0 s' B.
Proof.
  intros H E t' d E'. rewrite E in E'. destruct (decide (t' = t)) as [->|]; [rewrite lookup_insert in E'; discriminate|].
  rewrite lookup_insert_ne in E' by congruence. auto.
Qed.

Lemma rq_sync G B d t t' : rq (gsync G t) B d t' = rq G B d t'.
Proof.
  unfold rq. rewrite gsync_open. destruct (decide (t' = t)) as [->|Hn]; [rewrite gsync_eq, reserve_sync|rewrite gsync_ne by assumption]; reflexivity.
Qed.
Lemma epochs_sync G B t : epochs_ok G B -> epochs_ok (gsync G t) B.
Proof.
  intros H t' d. destruct (decide (t' = t)) as [->|Hn]; [rewrite gsync_eq; apply epoch_sync; auto|rewrite gsync_ne by assumption; auto].
Qed.

(** ** Place *)
Lemma req_place s G ob e i t d q b B :
  inv s G -> place_pre s G ob i t d q b -> epochs_ok G B -> epochs0 s B ->
  let s' := place_st s G ob e i t d q b in let G' := gset G t d (g_place (G t d) (next_id s) q) in
  epochs_ok G' B /\ epochs0 s' B /\ forall d', req s' G' B d' = req s G B d' + coins_in (get_expected_denom ob d') (i_funds i).
Proof.
  intros Hi Hp HB HB0 s' G'. pose proof (pp_tick _ _ _ _ _ _ _ _ Hp) as Ht. pose proof (pp_qty _ _ _ _ _ _ _ _ Hp) as Hq.
  assert (Hob : ob_quote ob <> ob_base ob).
  { destruct (i_book _ _ Hi) as (ob' & E & [Hne _ _ _ _]). rewrite (pp_book _ _ _ _ _ _ _ _ Hp) in E. injection E as <-. assumption. }
  pose proof (fun B p H => reserve_place d p B (G t d) (next_id s) q (i_side _ _ Hi t d) H) as Hr.
  split; [|split].
  - intros t' d'. unfold G'. destruct (decide (t' = t /\ d' = d)) as [[-> ->]|Hn].
    + rewrite gset_eq. apply (Hr _ 1); [apply HB|lia|assumption].
    + rewrite gset_ne by (destruct (decide (t' = t)); [right; intros ->; tauto|left; assumption]). apply HB.
  - eapply (epochs0_set s); [exact HB0|reflexivity].
  - intros d'. erewrite (req_set s s' G G' B d' t); [|exact Hi|exact HB0|exact Ht|reflexivity|].
    2:{ intros t' d0 Hn. unfold G'. apply gset_ne. auto. }
    rewrite (pp_funds _ _ _ _ _ _ _ _ Hp). cbn [coins_in c_denom c_amount]. rewrite denom_dec by assumption.
    enough (rq G' B d' t = rq G B d' t + (if bool_decide (d = d') then q else 0)) by lia.
    unfold rq, G'. destruct (dir_cases d d') as [->| ->].
    + rewrite bool_decide_true by reflexivity. rewrite gset_eq, gset_ne by (right; apply opp_ne).
      unfold g_open, g_place. cbn [g_items g_F]. rewrite nfs_app. cbn. lia.
    + rewrite opp_opp, bool_decide_false by (intros E; exact (opp_ne d (eq_sym E))).
      rewrite gset_eq, gset_ne by (right; apply opp_ne). rewrite (proj2 (Hr _ (tick_price t) (HB t d) (tick_price_pos t Ht) Hq)). lia.
Qed.

(** ** Cancel *)
Lemma req_cancel s G ob i t id o n c m' tr' c' B :
  inv s G -> s_orderbook s = Some ob -> s_orders s !! (t, id) = Some o ->
  (id, (n, c, o_quantity o)) ∈ g_lives (G t (o_dir o)) -> g_F (G t (o_dir o)) <= n -> epochs_ok G B -> epochs0 s B ->
  let s' := cancel_st s G t o m' tr' c' in let G' := gcancel G t (o_dir o) id in
  epochs_ok G' B /\ epochs0 s' B /\
  forall d', req s' G' B d' = req s G B d' - msgs_in (get_expected_denom ob d') (r_msgs (cancel_resp ob i t id o)).
Proof.
  intros Hi Eob Eo Hl HF HB HB0 s' G'. pose proof (order_tick _ _ _ _ _ Hi Eo) as Ets.
  destruct (i_some _ _ Hi _ _ Ets) as [Ht _].
  assert (Hob : ob_quote ob <> ob_base ob).
  { destruct (i_book _ _ Hi) as (ob' & E & [Hne _ _ _ _]). rewrite Eob in E. injection E as <-. assumption. }
  set (d := o_dir o) in *. set (g := g_sync (G t d)).
  assert (Hg : side_ok g) by (apply (proj1 (sync_ok _ (i_side _ _ Hi t d)))).
  assert (Hlg : (id, (n, c, o_quantity o)) ∈ g_lives g) by (unfold g; rewrite <- (gsync_eq G t d), gsync_lives; exact Hl).
  assert (EF : g_F g = g_F (G t d)) by (unfold g; rewrite <- (gsync_eq G t d), gsync_F; reflexivity).
  assert (HFg : g_F g <= n) by (rewrite EF; exact HF).
  pose proof (fun p Bx H => reserve_cancel d p Bx g id n c (o_quantity o) Hg H Hlg HFg) as Hr.
  assert (Hop : g_open (g_cancel g id) = g_open g - o_quantity o).
  { destruct (cancel_parts _ _ _ _ _ Hg Hlg) as (l1 & l2 & El & _ & _ & Eg).
    unfold g_open. change (g_F (g_cancel g id)) with (g_F g). rewrite Eg, El, !nfs_app. cbn. lia. }
  split; [|split].
  - intros t' d'. unfold G', gcancel. destruct (decide (t' = t /\ d' = d)) as [[-> ->]|Hn].
    + rewrite gset_eq. apply (Hr 1). apply epoch_sync. apply HB.
    + rewrite gset_ne by (destruct (decide (t' = t)); [right; intros ->; tauto|left; assumption]). apply epochs_sync. assumption.
  - eapply (epochs0_set s); [exact HB0|reflexivity].
  - intros d'. erewrite (req_set s s' G G' B d' t); [|exact Hi|exact HB0|exact Ht|reflexivity|].
    2:{ intros t' d0 Hn. unfold G', gcancel. rewrite gset_ne by auto. apply gsync_ne. assumption. }
    cbn [cancel_resp r_msgs msgs_in sm_coin c_denom c_amount]. rewrite denom_dec by assumption. fold d.
    rewrite <- (rq_sync G B d' t t).
    enough (rq G' B d' t = rq (gsync G t) B d' t - (if bool_decide (d = d') then o_quantity o else 0)) by lia.
    unfold rq, G', gcancel. destruct (dir_cases d d') as [->| ->].
    + rewrite bool_decide_true by reflexivity. rewrite gset_eq, gset_ne by (right; apply opp_ne).
      rewrite (gsync_eq G t d). fold g. rewrite Hop. lia.
    + rewrite opp_opp, bool_decide_false by (intros E; exact (opp_ne d (eq_sym E))).
      rewrite gset_eq, gset_ne by (right; apply opp_ne). rewrite !(gsync_eq G t). fold g.
      rewrite (proj2 (Hr (tick_price t) (B t d) (epoch_sync _ _ (HB t d)))). lia.
Qed.

(** ** Claims *)
Lemma send_nonzero_in denom id to dn a : 0 <= a -> msgs_in denom (send_nonzero id to dn a) = if bool_decide (dn = denom) then a else 0.
Proof.
  intros H. unfold send_nonzero. destruct (Z.eqb_spec a 0) as [->|]; cbn; [destruct (bool_decide _); reflexivity|lia].
Qed.
Lemma claim_msgs_in denom owner sender rcp dn fee raw b :
  0 <= raw -> 0 <= fee <= MAX_MAKER_FEE_PERCENTAGE -> bounty_ok b = true ->
  msgs_in denom (claim_msgs owner sender rcp dn fee raw b) = if bool_decide (dn = denom) then raw else 0.
Proof.
  intros Hr Hf Hb. pose proof DEC_pos as HD.
  assert (Hx : 0 <= bounty_rate b <= dec_percent 1 \/ True) by auto. clear Hx.
  assert (Hbr : 0 <= bounty_rate b /\ bounty_rate b + fee <= DEC).
  { unfold MAX_MAKER_FEE_PERCENTAGE in Hf. unfold dec_percent in Hf. destruct b as [x|]; cbn [bounty_rate].
    - pose proof (bounty_u _ Hb x eq_refl) as Hx. unfold dec_percent in Hx. rewrite DEC_val in *. lia.
    - rewrite DEC_val in *. lia. }
  destruct (share_bounds (bounty_rate b) raw Hr ltac:(lia)) as [S1 S2].
  destruct (share_bounds fee raw Hr ltac:(lia)) as [S3 S4].
  unfold claim_msgs, claim_payout. rewrite !msgs_app, !send_nonzero_in by nia. destruct (bool_decide _); lia.
Qed.

Lemma claim_tick sender s G t id s' G' x : claim1 sender s G t id s' G' x -> exists v, s_ticks s' = <[t := v]> (s_ticks s).
Proof. intros []. eexists. reflexivity. Qed.

Lemma req_claim sender s G t id s' G' a ms o ob B :
  inv s G -> s_orderbook s = Some ob -> claim1 sender s G t id s' G' (a, ms, o) -> epochs_ok G B -> epochs0 s B ->
  epochs_ok G' B /\ epochs0 s' B /\
  forall d', req s' G' B d' <= req s G B d' - msgs_in (get_expected_denom ob d') ms.
Proof.
  intros Hi Eob Hc HB HB0. inversion Hc as [ob' fee rcp o0 n c tr' c' Eob' Ef Er Eo Hl He f raw Hf Hi1 Hi2 Hctr Es EG Ex]. subst s' G'.
  rewrite Eob in Eob'. injection Eob' as <-. subst ms.
  pose proof (order_tick _ _ _ _ _ Hi Eo) as Ets. destruct (i_some _ _ Hi _ _ Ets) as [Ht _].
  assert (Hob : ob_quote ob <> ob_base ob).
  { destruct (i_book _ _ Hi) as (ob' & E & [Hne _ _ _ _]). rewrite Eob in E. injection E as <-. assumption. }
  pose proof (i_order _ _ Hi _ _ Eo) as Hoo.
  destruct (i_fee _ _ Hi) as (fee' & Ef' & Hfee). rewrite Ef in Ef'. injection Ef' as <-.
  set (d := o_dir o0) in *. set (g := g_sync (G t d)). pose proof (tick_price_pos t Ht) as Hp.
  assert (Hg : side_ok g) by (apply (proj1 (sync_ok _ (i_side _ _ Hi t d)))).
  assert (Hlg : (id, (n, c, o_quantity o0)) ∈ g_lives g) by (unfold g; rewrite <- (gsync_eq G t d), gsync_lives; exact Hl).
  assert (EF : g_F g = g_F (G t d)) by (unfold g; rewrite <- (gsync_eq G t d), gsync_F; reflexivity).
  assert (Hfq : 0 < fifo (g_F g) n (o_quantity o0)) by (rewrite EF; assumption).
  pose proof (fun p Bx H Hp => reserve_claim d p Bx g id n c (o_quantity o0) Hg H Hlg Hp Hfq) as Hr. cbn zeta in Hr.
  rewrite EF in Hr. change (fifo (g_F (G t d)) n (o_quantity o0)) with f in Hr.
  assert (Hop : g_open (g_claim g id f) = g_open g).
  { destruct (claim_parts _ _ _ _ _ f Hg Hlg) as (l1 & l2 & El & _ & _ & Eg). destruct (claim_mid id (o_quantity o0) f) as [N _].
    unfold g_open. change (g_F (g_claim g id f)) with (g_F g). rewrite Eg, El, !nfs_app, N. cbn. lia. }
  split; [|split].
  - intros t' d'. unfold gclaim. destruct (decide (t' = t /\ d' = d)) as [[-> ->]|Hn].
    + rewrite gset_eq. apply (Hr 1); [|lia]. apply epoch_sync. apply HB.
    + rewrite gset_ne by (destruct (decide (t' = t)); [right; intros ->; tauto|left; assumption]). apply epochs_sync. assumption.
  - eapply (epochs0_set s); [exact HB0|reflexivity].
  - intros d'. erewrite (req_set s _ G (gclaim G t d id f) B d' t); [|exact Hi|exact HB0|exact Ht|reflexivity|].
    2:{ intros t' d0 Hn. unfold gclaim. rewrite gset_ne by auto. apply gsync_ne. assumption. }
    rewrite claim_msgs_in; [|apply gross_nonneg; [lia|assumption]|assumption|apply (oo_bounty _ _ _ _ Hoo)].
    rewrite opp_denom, denom_dec by assumption. rewrite <- (rq_sync G B d' t t).
    enough (rq (gclaim G t d id f) B d' t <= rq (gsync G t) B d' t - (if bool_decide (opposite d = d') then raw else 0)) by lia.
    unfold rq, gclaim. destruct (dir_cases d d') as [->| ->].
    + rewrite bool_decide_false by (apply opp_ne). rewrite gset_eq, gset_ne by (right; apply opp_ne).
      rewrite (gsync_eq G t d). fold g. rewrite Hop. lia.
    + rewrite opp_opp, bool_decide_true by reflexivity.
      rewrite gset_eq, gset_ne by (right; apply opp_ne). rewrite !(gsync_eq G t). fold g.
      pose proof (proj2 (Hr (tick_price t) (B t d) (epoch_sync _ _ (HB t d)) Hp)) as Hx. unfold raw. fold d in Hx |- *. lia.
Qed.

Lemma req_miss s G t id s' G' B :
  inv s G -> miss1 s G t id s' G' -> epochs_ok G B -> epochs0 s B ->
  epochs_ok G' B /\ epochs0 s' B /\ forall d', req s' G' B d' = req s G B d'.
Proof.
  intros Hi Hm HB HB0. destruct Hm as [E|o n c tr' c' Eo Hl He Hf Hi' Hc]; [auto|].
  pose proof (order_tick _ _ _ _ _ Hi Eo) as Ets. destruct (i_some _ _ Hi _ _ Ets) as [Ht _].
  split; [apply epochs_sync; assumption|]. split; [eapply (epochs0_set s); [exact HB0|reflexivity]|].
  intros d'. erewrite (req_set s _ G (gsync G t) B d' t); [|exact Hi|exact HB0|exact Ht|reflexivity|].
  - rewrite rq_sync. lia.
  - intros t' d0 Hn. apply gsync_ne. assumption.
Qed.

Lemma req_claims ob sender s G l s' G' ms es B :
  claims ob sender s G l s' G' ms es -> s_orderbook s = Some ob -> epochs_ok G B -> epochs0 s B ->
  epochs_ok G' B /\ epochs0 s' B /\ forall d', req s' G' B d' <= req s G B d' - msgs_in (get_expected_denom ob d') ms.
Proof.
  induction 1 as [s G|s G t id l s1 G1 s2 G2 ms es Hi Hm Hi1 Hc IH|s G t id l s1 G1 a bank o s2 G2 ms es Hi Hm Hi1 Hc IH]; intros Eob HB HB0.
  - split; [assumption|]. split; [assumption|]. intros d'. cbn. lia.
  - destruct (req_miss _ _ _ _ _ _ B Hi Hm HB HB0) as (H1 & H2 & H3). apply miss1_frame in Hm as (_ & E & _).
    destruct (IH ltac:(congruence) H1 H2) as (H4 & H5 & H6). split; [assumption|]. split; [assumption|]. intros d'. rewrite <- H3. apply H6.
  - destruct (req_claim _ _ _ _ _ _ _ _ _ _ ob B Hi Eob Hm HB HB0) as (H1 & H2 & H3). apply claim1_frame in Hm as (_ & E & _).
    destruct (IH ltac:(congruence) H1 H2) as (H4 & H5 & H6). split; [assumption|]. split; [assumption|]. intros d'. rewrite msgs_app.
    specialize (H3 d'). specialize (H6 d'). lia.
Qed.

(** ** Swaps *)
Definition bfills (G : ghost) (B : epochs) (od : dir) (fs : list (Z * Z * Z)) : epochs :=
  fun t d => if decide (d = od) then fill_epoch (B t d) (G t d) (taken fs t) else B t d.

Lemma req_swap s G ob d bound q l fs r pr B :
  inv s G -> 0 <= q -> s_orderbook s = Some ob -> swap_pre s G ob d bound q l fs r pr -> epochs_ok G B -> epochs0 s B ->
  let s' := swap_st s G ob (opposite d) fs in let G' := gfills G (opposite d) fs in let B' := bfills G B (opposite d) fs in
  epochs_ok G' B' /\ epochs0 s' B' /\
  req s' G' B' d <= req s G B d + sum_in fs /\ req s' G' B' (opposite d) = req s G B (opposite d) - sum_out fs.
Proof.
  intros Hi Hq Eob Hp HB HB0 s' G' B'. pose proof Hp as [S1 S2 S3 S4 S5]. set (od := opposite d) in *.
  destruct (plan_good_inv _ _ _ _ _ _ _ _ _ _ Hi Hq S3 S4) as [Hg _].
  destruct (plan_ctx _ _ _ _ _ _ Hi S3) as (O1 & O2 & O3 & O4).
  pose proof (pg_fills _ _ _ _ _ _ _ _ Hg) as Hfills. pose proof (pg_ticks _ _ _ _ _ _ _ _ Hg) as Hsub.
  assert (Hnd : NoDup (map f_tick fs)) by (eapply sublist_nodup; [exact Hsub|eapply ordered_nodup; eauto]).
  assert (Hl : forall f, f ∈ fs -> f_tick f ∈ l) by (intros f Hf; eapply sublist_in; [exact Hsub|apply elem_of_list_fmap; eauto]).
  assert (Hval : forall t, t ∈ l -> valid_tick t).
  { intros t Ht. apply O2 in Ht as [E _]. apply (i_some _ _ Hi _ _ E). }
  pose proof (plan_exact _ _ _ _ _ _ _ _ Hval O3 Hq S4) as Hex.
  assert (Htick : forall f, f ∈ fs -> is_Some (s_ticks s !! f_tick f)) by (intros f Hf; apply Hl, O2 in Hf as [E _]; eauto).
  pose proof (taken_bounds _ _ _ _ _ _ _ _ _ _ Hi Hq Hp) as Htb. fold od in Htb.
  assert (Hdom : forall k, s_ticks s' !! k = None <-> s_ticks s !! k = None).
  { intros k. unfold s', swap_st. cbn [set_orderbook set_dirliq set_ticks s_ticks]. rewrite swap_ticks_lookup by assumption.
    destruct (decide _) as [Hin|]; [|reflexivity]. apply elem_of_list_fmap in Hin as (f & -> & Hf). destruct (Htick f Hf) as [v E]. rewrite E. split; discriminate. }
  assert (Hside : forall t, valid_tick t -> epoch_ok (G' t od) (B' t od) /\
     reserve od (tick_price t) (B' t od) (G' t od) <= reserve od (tick_price t) (B t od) (G t od) + charged fs t).
  { intros t Ht. unfold G', B', gfills, bfills. rewrite !decide_True by reflexivity. pose proof (tick_price_pos t Ht) as Hpp.
    apply reserve_fill; [apply (i_side _ _ Hi)|apply HB|assumption|apply Htb| | |].
    - destruct (fill_at fs t Hnd) as [[_ ->]|(f & Hf & _ & _ & ->)]; [lia|]. rewrite Forall_forall in Hfills.
      destruct (Hfills _ Hf) as (_ & _ & ?). lia.
    - destruct (fill_at fs t Hnd) as [[-> ->]|(f & Hf & <- & -> & ->)]; [rewrite gross0 by assumption; lia|]. rewrite Forall_forall in Hfills.
      destruct (Hfills _ Hf) as (Hf1 & -> & _). apply cost_ge_gross; [lia|assumption].
    - intros Hlt. destruct (fill_at fs t Hnd) as [[E1 E2]|(f & Hf & <- & E1 & ->)]; [lia|]. rewrite E1 in *. rewrite Forall_forall in Hex.
      specialize (Hex _ Hf). cbn beta in Hex. rewrite Hex; [unfold od; lia|]. unfold opens. fold od. lia. }
  split; [|split; [|split]].
  - intros t d'. destruct (dir_cases d d') as [->| ->].
    + unfold G', B', gfills, bfills. rewrite !decide_False by (intros E; exact (opp_ne d (eq_sym E))). apply HB.
    + destruct (s_ticks s !! t) as [ts|] eqn:E.
      * apply Hside. apply (i_some _ _ Hi _ _ E).
      * fold od. unfold G', B', gfills, bfills. rewrite !decide_True by reflexivity.
        assert (E0 : taken fs t = 0).
        { apply taken_notin. intros Hin. apply elem_of_list_fmap in Hin as (f & -> & Hf). destruct (Htick f Hf) as [v Ev]. congruence. }
        rewrite E0, fill0. unfold fill_epoch. cbn. apply HB.
  - intros t d' E. apply Hdom in E. unfold B', bfills. destruct (decide (d' = od)); [|auto].
    assert (E0 : taken fs t = 0).
    { apply taken_notin. intros Hin. apply elem_of_list_fmap in Hin as (f & -> & Hf). destruct (Htick f Hf) as [v Ev]. congruence. }
    rewrite E0. unfold fill_epoch. cbn. auto.
  - unfold req. rewrite (ksum_dom (rq G' B' d) _ (s_ticks s) Hdom). rewrite <- (ksum_charged (s_ticks s) fs Htick), <- ksum_add.
    apply ksum_le. intros t [ts E]. destruct (i_some _ _ Hi _ _ E) as [Ht _]. unfold rq. fold od.
    specialize (Hside t Ht) as [_ Hs]. assert (G' t d = G t d) as -> by (apply gfills_ne; intros E'; exact (opp_ne d (eq_sym E'))). lia.
  - unfold req. rewrite (ksum_dom (rq G' B' od) _ (s_ticks s) Hdom). rewrite <- (ksum_taken (s_ticks s) fs Htick).
    enough (ksum (rq G B od) (s_ticks s) = ksum (rq G' B' od) (s_ticks s) + ksum (taken fs) (s_ticks s)) by lia.
    rewrite <- ksum_add. apply ksum_ext. intros t _. unfold rq, od. rewrite opp_opp. fold od.
    assert (G' t d = G t d) as -> by (apply gfills_ne; intros E'; exact (opp_ne d (eq_sym E'))).
    assert (B' t d = B t d) as -> by (unfold B', bfills; rewrite decide_False; [reflexivity|intros E'; exact (opp_ne d (eq_sym E'))]).
    unfold G'. rewrite gfills_eq. unfold g_open, g_fill. cbn [g_items g_F]. lia.
Qed.

(** ** The bank *)
Lemma credits_get l : forall b denom, bal_get (credits b l) denom = bal_get b denom + coins_in denom l.
Proof.
  induction l as [|c l IH]; intros b denom; cbn [credits foldl coins_in]; [lia|]. fold (credits (credit b c) l). rewrite IH.
  enough (bal_get (credit b c) denom = bal_get b denom + (if bool_decide (c_denom c = denom) then c_amount c else 0)) by lia.
  unfold credit, bal_get. destruct (bool_decide_reflect (c_denom c = denom)) as [<-|Hn].
  - rewrite lookup_insert. reflexivity.
  - rewrite lookup_insert_ne by assumption. lia.
Qed.
Lemma coins_nonneg denom l : forallb coin_typed l = true -> 0 <= coins_in denom l.
Proof.
  induction l as [|c l IH]; cbn; [lia|]. intros H. apply andb_prop in H as [H1 H2]. unfold coin_typed, u128 in H1.
  apply andb_prop in H1 as [H1 _]. apply Z.leb_le in H1. specialize (IH H2). destruct (bool_decide _); lia.
Qed.
Lemma send1_get e self b m b' denom : send1 e self b m = Some b' ->
  0 < c_amount (sm_coin m) <= bal_get b (c_denom (sm_coin m)) /\
  bal_get b' denom = bal_get b denom - (if bool_decide (c_denom (sm_coin m) = denom) && negb (bool_decide (sm_to m = self)) then c_amount (sm_coin m) else 0).
Proof.
  unfold send1. destruct ((0 <? _) && _ && _) eqn:E; [|discriminate]. apply andb_prop in E as [E _]. apply andb_prop in E as [E1 E2].
  apply Z.ltb_lt in E1. apply Z.leb_le in E2. intros [= <-]. split; [lia|].
  destruct (bool_decide (sm_to m = self)); cbn [negb]; [rewrite andb_false_r; lia|]. rewrite andb_true_r.
  unfold bal_get. destruct (bool_decide_reflect (c_denom (sm_coin m) = denom)) as [<-|Hn].
  - rewrite lookup_insert. reflexivity.
  - rewrite lookup_insert_ne by assumption. lia.
Qed.
Lemma sends_cons e self b m l b' : sends e self b (m :: l) = Some b' -> exists b1, send1 e self b m = Some b1 /\ sends e self b1 l = Some b'.
Proof. cbn [sends]. destruct (send1 _ _ _ _) as [b1|]; [eauto|]. cbn. discriminate. Qed.
Lemma sends_get e self l : forall b b' denom, sends e self b l = Some b' ->
  bal_get b denom - msgs_in denom l <= bal_get b' denom <= bal_get b denom.
Proof.
  induction l as [|m l IH]; intros b b' denom H; [injection H as <-; cbn; lia|].
  apply sends_cons in H as (b1 & H1 & H). apply (send1_get _ _ _ _ _ denom) in H1 as [H1 H2]. specialize (IH _ _ denom H). cbn [msgs_in].
  destruct (bool_decide _); cbn [andb] in *; [destruct (negb _)|]; lia.
Qed.
(** Without transfers to itself the contract pays exactly the sum. *)
Lemma sends_exact e self l : Forall (fun m => sm_to m <> self) l -> forall b b' denom, sends e self b l = Some b' ->
  bal_get b' denom = bal_get b denom - msgs_in denom l.
Proof.
  induction 1 as [|m l Hm Hl IH]; intros b b' denom H; [injection H as <-; cbn; lia|].
  apply sends_cons in H as (b1 & H1 & H). apply (send1_get _ _ _ _ _ denom) in H1 as [H1 H2]. specialize (IH _ _ denom H). cbn [msgs_in].
  rewrite (bool_decide_false (sm_to m = self)) in H2 by assumption. cbn [negb] in H2. rewrite andb_true_r in H2. lia.
Qed.
(** Transfers succeed when the recipients are fine and the balance covers them. *)
Lemma sends_ok e self l : forall b,
  Forall (fun m => 0 < c_amount (sm_coin m) /\ e_bank_ok e (sm_to m) = true) l ->
  (forall denom, msgs_in denom l <= bal_get b denom) -> exists b', sends e self b l = Some b'.
Proof.
  induction l as [|m l IH]; intros b Hl Hb; [cbn; eauto|]. apply Forall_cons in Hl as [[Hm1 Hm2] Hl].
  assert (Hnn : forall denom, 0 <= msgs_in denom l).
  { clear -Hl. induction Hl as [|m l [H _] Hl IH]; intros denom; cbn; [lia|]. specialize (IH denom). destruct (bool_decide _); lia. }
  assert (Hle : c_amount (sm_coin m) <= bal_get b (c_denom (sm_coin m))).
  { specialize (Hb (c_denom (sm_coin m))). cbn [msgs_in] in Hb. rewrite bool_decide_true in Hb by reflexivity. specialize (Hnn (c_denom (sm_coin m))). lia. }
  assert (H1 : exists b1, send1 e self b m = Some b1).
  { unfold send1. rewrite Hm2. destruct (Z.ltb_spec 0 (c_amount (sm_coin m))); [|lia]. destruct (Z.leb_spec (c_amount (sm_coin m)) (bal_get b (c_denom (sm_coin m)))); [|lia]. cbn. eauto. }
  destruct H1 as (b1 & H1). cbn [sends]. rewrite H1. apply IH; [assumption|]. intros denom.
  pose proof (proj2 (send1_get _ _ _ _ _ denom H1)) as Eg. rewrite Eg. specialize (Hb denom). cbn [msgs_in] in Hb. specialize (Hnn denom).
  destruct (bool_decide _); cbn [andb]; [destruct (negb _)|]; lia.
Qed.

(** ** One transaction *)
Notation den := deposit_denom.
Lemma den_eq s ob d : s_orderbook s = Some ob -> den s d = get_expected_denom ob d.
Proof. intros E. unfold deposit_denom. rewrite E. reflexivity. Qed.
Lemma set_next_denom ob d d' t : get_expected_denom (set_next_tick ob d' t) d = get_expected_denom ob d.
Proof. destruct d, d'; reflexivity. Qed.

Lemma trans_den e s G c r s' G' d : trans e s G c r s' G' -> den s' d = den s d.
Proof.
  intros H. destruct H as [i t0 d0 q b ob Hq Hp Ha|i t0 id ob o n cc m' tr' c' Ha A1 A2 A3 A4 A5 A6 A7 A8|i t0 id ob s' G' a ms o Ha A1 A2 A3
    |i l ob s' G' ms es Ha A1 A2 A3 A4|i m r s' A1 A2 A3 A4|cl sender tin outd mn fee target d0 ob l fs rest pr Ha A1 A2 A3 A4 A5 A6 A7
    |m r s' Ha A1 A2 A3 A4 A5 A6 A7|cl A]; unfold deposit_denom.
  - rewrite (pp_book _ _ _ _ _ _ _ _ Hp). cbn. unfold place_update_book. destruct d0; destruct (_ <? _) || idtac; destruct d; reflexivity.
  - cbn. reflexivity.
  - apply claim1_frame in A3 as (_ & -> & _). reflexivity.
  - apply claims_frame in A4 as (_ & -> & _). reflexivity.
  - rewrite (sb_book _ _ A2). reflexivity.
  - rewrite A2. cbn. destruct (book_after_denoms ob (opposite d0) fs) as [E1 E2]. unfold get_expected_denom. rewrite E1, E2. reflexivity.
  - rewrite (sb_book _ _ A3). reflexivity.
  - reflexivity.
Qed.

Lemma req_same s s' G B d : s_ticks s' = s_ticks s -> req s' G B d = req s G B d.
Proof. intros E. unfold req. rewrite E. reflexivity. Qed.

Lemma call_funds_typed self c : call_ok self c = true -> forallb coin_typed (call_funds c) = true.
Proof.
  unfold call_ok. intros H. apply andb_prop in H as [_ H]. destruct c as [i m|m| |c]; cbn [call_funds].
  - apply andb_prop in H as [H _]. assumption.
  - destruct m as [? ? ? ? ?|? ? ? ? ? ?|? ? ? ? ?|?| |?]; cbn [sudo_typed call_funds forallb] in *; try reflexivity; rewrite andb_true_r; [apply andb_prop in H as [H _]; apply andb_prop in H as [H _]|do 3 apply andb_prop in H as [H _]]; exact H.
  - reflexivity.
  - cbn. rewrite H. reflexivity.
Qed.
Lemma swap_funds cl sender tin outd mn fee target : swap_args cl = Some (sender, tin, outd, mn, fee, target) -> call_funds cl = [tin].
Proof. destruct cl as [|m| |]; try discriminate. destruct m; try discriminate; cbn; intros [= <- <- <- <- <- <-]; reflexivity. Qed.

Lemma trans_req e s G c r s' G' self B :
  inv s G -> call_ok self c = true -> trans e s G c r s' G' -> epochs_ok G B -> epochs0 s B ->
  exists B', epochs_ok G' B' /\ epochs0 s' B' /\
    forall d, req s' G' B' d <= req s G B d + coins_in (den s d) (call_funds c) - msgs_in (den s d) (r_msgs r).
Proof.
  intros Hi Hok H HB HB0. pose proof (call_funds_typed _ _ Hok) as Hty.
  assert (Hin : forall denom, 0 <= coins_in denom (call_funds c)) by (intros; apply coins_nonneg; assumption).
  destruct H as [i t0 d0 q b ob Hq Hp Ha|i t0 id ob o n cc m' tr' c' Ha A1 A2 A3 A4 A5 A6 A7 A8|i t0 id ob s' G' a ms o Ha A1 A2 A3
    |i l ob s' G' ms es Ha A1 A2 A3 A4|i m r s' A1 A2 A3 A4|cl sender tin outd mn fee target d0 ob l fs rest pr Ha A1 A2 A3 A4 A5 A6 A7
    |m r s' Ha A1 A2 A3 A4 A5 A6 A7|cl A].
  - destruct (req_place s G ob e i t0 d0 q b B Hi Hp HB HB0) as (H1 & H2 & H3). exists B. split; [assumption|]. split; [assumption|].
    intros d. rewrite H3. rewrite (den_eq _ _ d (pp_book _ _ _ _ _ _ _ _ Hp)). cbn. lia.
  - destruct (req_cancel s G ob i t0 id o n cc m' tr' c' B Hi A1 A2 A5 A7 HB HB0) as (H1 & H2 & H3). exists B. split; [assumption|]. split; [assumption|].
    intros d. rewrite H3. rewrite (den_eq _ _ d A1). specialize (Hin (get_expected_denom ob d)). lia.
  - destruct (req_claim _ _ _ _ _ _ _ _ _ _ ob B Hi A1 A3 HB HB0) as (H1 & H2 & H3). exists B. split; [assumption|]. split; [assumption|].
    intros d. specialize (H3 d). rewrite (den_eq _ _ d A1). specialize (Hin (get_expected_denom ob d)). cbn [r_msgs]. lia.
  - destruct (req_claims _ _ _ _ _ _ _ _ _ B A4 A1 HB HB0) as (H1 & H2 & H3). exists B. split; [assumption|]. split; [assumption|].
    intros d. specialize (H3 d). rewrite (den_eq _ _ d A1). specialize (Hin (get_expected_denom ob d)). cbn [r_msgs]. lia.
  - exists B. split; [assumption|]. split; [intros t d E; rewrite (sb_ticks _ _ A2) in E; auto|]. intros d.
    rewrite (req_same _ _ _ _ _ (sb_ticks _ _ A2)), A3. cbn [msgs_in]. specialize (Hin (den s d)). lia.
  - rewrite (swap_funds _ _ _ _ _ _ _ A1) in *. assert (Hqq : 0 <= c_amount tin).
    { specialize (Hin (c_denom tin)). cbn in Hin. rewrite bool_decide_true in Hin by reflexivity. lia. }
    destruct (req_swap s G ob d0 _ _ l fs rest pr B Hi Hqq A2 A6 HB HB0) as (H1 & H2 & H3 & H4).
    assert (Hob : ob_quote ob <> ob_base ob).
    { destruct (i_book _ _ Hi) as (ob' & E & [Hne _ _ _ _]). rewrite A2 in E. injection E as <-. assumption. }
    destruct (direction_denom _ _ _ _ Hob A5) as [D1 D2].
    destruct (plan_good_inv _ _ _ _ _ _ _ _ _ _ Hi Hqq (sp_ticks _ _ _ _ _ _ _ _ _ _ A6) (sp_plan _ _ _ _ _ _ _ _ _ _ A6)) as [Hg _].
    pose proof (pg_dust _ _ _ _ _ _ _ _ Hg) as Hdust. pose proof (pg_rest _ _ _ _ _ _ _ _ Hg) as Hrest.
    exists (bfills G B (opposite d0) fs). split; [assumption|]. split; [assumption|].
    assert (Em : forall denom, msgs_in denom (r_msgs (swap_resp sender tin outd mn (sum_out fs) rest outd)) =
       (if bool_decide (outd = denom) then sum_out fs else 0) + (if bool_decide (c_denom tin = denom) then rest else 0)).
    { intros denom. cbn [swap_resp r_msgs msgs_in sm_coin c_denom c_amount]. destruct (Z.eqb_spec rest 0) as [->|]; cbn [msgs_in sm_coin c_denom c_amount]; [destruct (bool_decide (c_denom tin = denom))|]; lia. }
    intros d. rewrite Em. rewrite (den_eq _ _ d A2). cbn [coins_in]. rewrite D1, D2, opp_denom, !denom_dec by assumption.
    destruct (dir_cases d0 d) as [->| ->].
    + rewrite bool_decide_true by reflexivity. rewrite bool_decide_false by apply opp_ne. lia.
    + rewrite (bool_decide_true (opposite d0 = opposite d0)) by reflexivity. rewrite bool_decide_false by (intros E; exact (opp_ne d0 (eq_sym E))). lia.
  - exists B. split; [assumption|]. split; [intros t d E; rewrite (sb_ticks _ _ A3) in E; auto|]. intros d.
    rewrite (req_same _ _ _ _ _ (sb_ticks _ _ A3)), A6. cbn [msgs_in]. specialize (Hin (den s d)). lia.
  - exists B. split; [assumption|]. split; [assumption|]. intros d. cbn. specialize (Hin (den s d)). lia.
Qed.

(** ** Every history *)
Definition solvent (w : world) (G : ghost) : Prop :=
  exists B, epochs_ok G B /\ epochs0 (w_st w) B /\ forall d, req (w_st w) G B d <= bal_get (w_bal w) (den (w_st w) d).
Lemma solvent_step e w G c w' G' o :
  inv (w_st w) G -> call_ok (w_self w) c = true -> solvent w G -> stepped e w G c w' G' o -> solvent w' G'.
Proof.
  intros Hi Hok (B & HB & HB0 & Hs) Hst. destruct Hst as [_|r s' b' G' _ Ht Hi' Hb]; [exists B; auto|].
  destruct (trans_req _ _ _ _ _ _ _ _ B Hi Hok Ht HB HB0) as (B' & H1 & H2 & H3). exists B'. cbn [w_st w_bal]. split; [assumption|]. split; [assumption|].
  intros d. rewrite (trans_den _ _ _ _ _ _ _ d Ht). specialize (H3 d). specialize (Hs d).
  apply (sends_get _ _ _ _ _ (den (w_st w) d)) in Hb. rewrite credits_get in Hb. lia.
Qed.
Lemma solvent_start w : start w -> solvent w G0.
Proof.
  intros Hs. pose proof (start_inv _ Hs) as (Hi & (q & b & E & Hne) & Hb). exists (fun _ _ => 0). split; [intros t d; apply epoch0|].
  split; [intros t d _; reflexivity|]. intros d. unfold req. rewrite E. cbn [st_init s_ticks]. rewrite ksum_empty. apply Hb.
Qed.
