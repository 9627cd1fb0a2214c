(** * RefineStep: every call keeps contract and ideal book in step. *)
From Verif Require Import Base Dec Types State TickMath Sumtree Tick Order Auth Contract World SpecMath TickMathProofs
  TreeDefs Exec SumtreeProofs SumtreeRebalance SumtreeInsert PrefixSum SumtreeRoot SumtreeFail Ghost Inv StepPlace StepCancel StepClaim SwapPlan StepSwap Trans Spec Reach Refine.

Lemma tick_liquidity_open s G t d : inv s G -> tick_liquidity s t d = g_open (G t d).
Proof.
  intros Hi. unfold tick_liquidity. destruct (s_ticks s !! t) as [ts|] eqn:E.
  - rewrite (inv_tick_some _ _ _ _ Hi E), get_ts_of. cbn [tv_of tv_tal]. apply Z.div_mul. discriminate.
  - rewrite (i_none _ _ Hi t d E). reflexivity.
Qed.

Lemma entry_ok_next s s' e : next_id s <= next_id s' -> entry_ok s e -> entry_ok s' e.
Proof. intros H [A1 A2 A3 A4 A5 A6 A7 A8 A9]. split; try assumption. lia. Qed.

(** Updating one entry. *)
Lemma upd_ids t id (phi : entry -> entry) Q : (forall e, en_id (phi e) = en_id e) ->
  map en_id (map (fun e => if en_is t id e then phi e else e) Q) = map en_id Q.
Proof. intros H. rewrite map_map. apply map_ext. intros e. destruct (en_is t id e); auto. Qed.
Lemma upd_elem t id (phi : entry -> entry) Q e :
  e ∈ map (fun e => if en_is t id e then phi e else e) Q <->
  (exists e0, e0 ∈ Q /\ ((en_is t id e0 = true /\ e = phi e0) \/ (en_is t id e0 = false /\ e = e0))).
Proof.
  rewrite elem_of_list_fmap. split; intros (e0 & H1 & H2); exists e0.
  - split; [assumption|]. destruct (en_is t id e0); auto.
  - split; [|assumption || tauto]. destruct H2 as [[-> ->]|[-> ->]]; reflexivity.
Qed.
Lemma en_is_true t id e : en_is t id e = true <-> en_tick e = t /\ en_id e = id.
Proof. unfold en_is. rewrite andb_true_iff, !Z.eqb_eq. reflexivity. Qed.
Lemma en_is_false t id e : en_is t id e = false <-> ~ (en_tick e = t /\ en_id e = id).
Proof. rewrite <- en_is_true. destruct (en_is t id e); split; congruence. Qed.

Lemma live_same s G Q t id x d : inv s G -> refines s G Q -> (id, x) ∈ g_lives (G t d) ->
  forall d', d' <> d -> forall y, y ∈ proj t d' Q -> y.1.1 <> id.
Proof.
  intros Hi Hr Hl d' Hd [[id' a] b] Hy E. cbn in E. subst id'. rewrite (rf_view _ _ _ Hr) in Hy. apply qview_elem in Hy as (n & c & q & Hy & _).
  apply Hd. eapply dir_unique; eauto.
Qed.

Lemma ref_upd s s' G G' Q t id o n c phi psi :
  inv s G -> refines s G Q ->
  s_orders s !! (t, id) = Some o -> (id, (n, c, o_quantity o)) ∈ g_lives (G t (o_dir o)) ->
  (forall e, en_tick (phi e) = en_tick e /\ en_dir (phi e) = en_dir e /\ en_id (phi e) = en_id e /\
             en_owner (phi e) = en_owner e /\ en_bounty (phi e) = en_bounty e /\ en_time (phi e) = en_time e /\ en_placed (phi e) = en_placed e) ->
  (forall e, entry_ok s e -> entry_ok s' (phi e)) ->
  (forall e, e ∈ Q -> en_is t id e = true ->
     live_view (en_id e) (en_open (phi e)) (en_filled (phi e)) =
     if en_live e then map (fun y => (en_id e, y.1, y.2)) (psi (en_open e) (en_filled e)) else []) ->
  next_id s' = next_id s ->
  (forall t' d', qview (G' t' d') = if decide (t' = t /\ d' = o_dir o) then upd_view id psi (qview (G t' d')) else qview (G t' d')) ->
  (forall k o', s_orders s' !! k = Some o' -> exists o0, s_orders s !! k = Some o0 /\
      o_dir o' = o_dir o0 /\ o_owner o' = o_owner o0 /\ o_bounty o' = o_bounty o0 /\ o_placed_at o' = o_placed_at o0 /\ o_placed_quantity o' = o_placed_quantity o0) ->
  refines s' G' (map (fun e => if en_is t id e then phi e else e) Q).
Proof.
  intros Hi Hr Eo Hl Hphi Hok Hpsi En Hv Ho. split.
  - intros t' d'. rewrite (proj_upd t id phi psi); [|intros e _; destruct (Hphi e) as (?&?&?&_); auto|assumption].
    rewrite Hv. destruct (decide (t' = t /\ d' = o_dir o)) as [[-> ->]|Hne].
    + rewrite Z.eqb_refl, (rf_view _ _ _ Hr). reflexivity.
    + destruct (Z.eqb_spec t' t) as [->|]; [|apply (rf_view _ _ _ Hr)].
      rewrite upd_view_notin; [apply (rf_view _ _ _ Hr)|]. eapply live_same; eauto. 
  - rewrite upd_ids; [apply (rf_ids _ _ _ Hr)|]. intros e. apply Hphi.
  - intros e (e0 & He0 & [[_ ->]|[_ ->]])%upd_elem; [apply Hok; apply (rf_entry _ _ _ Hr); assumption|].
    eapply entry_ok_next; [|apply (rf_entry _ _ _ Hr); assumption]. lia.
  - intros t' id' o' Eo'. destruct (Ho _ _ Eo') as (o0 & E0 & B1 & B2 & B3 & B4 & B5).
    destruct (rf_data _ _ _ Hr _ _ _ E0) as (e & He & C1 & C2 & C3 & C4 & C5 & C6 & C7).
    exists (if en_is t id e then phi e else e). split.
    + apply upd_elem. exists e. split; [assumption|]. destruct (en_is t id e); auto.
    + destruct (Hphi e) as (D1 & D2 & D3 & D4 & D5 & D6 & D7). unfold same_data. destruct (en_is t id e); repeat split; congruence.
Qed.

(** ** Place *)
Lemma ref_place e s G Q ob i t d q b :
  inv s G -> refines s G Q -> q <= U128_MAX -> place_pre s G ob i t d q b ->
  refines (place_st s G ob e i t d q b) (gset G t d (g_place (G t d) (next_id s) q))
          (ideal_place t d (next_id s) (i_sender i) b (e_time e) q Q).
Proof.
  intros Hi Hr Hq Hp. destruct Hp as [P1 P2 P3 P4 P5 P6 P7 P8].
  assert (En : next_id (place_st s G ob e i t d q b) = next_id s + 1) by reflexivity. unfold ideal_place. split.
  - intros t' d'. rewrite proj_app, (rf_view _ _ _ Hr). unfold proj. cbn [flat_map]. unfold proj1e, at_side, en_live.
    cbn [en_tick en_dir en_open en_filled en_id]. destruct (decide (t' = t /\ d' = d)) as [[-> ->]|Hne].
    + rewrite gset_eq, qview_place by apply (i_side _ _ Hi). rewrite bool_decide_true by auto.
      destruct (Z.ltb_spec 0 (q + 0)); [reflexivity|lia].
    + rewrite bool_decide_false by (intros [-> ->]; auto). cbn. rewrite app_nil_r.
      unfold gset. rewrite decide_False by assumption. reflexivity.
  - rewrite map_app. cbn [map en_id]. apply sorted_app. split; [apply (rf_ids _ _ _ Hr)|].
    split; [repeat constructor|]. intros x y Hx Hy. apply elem_of_list_singleton in Hy as ->.
    apply elem_of_list_fmap in Hx as (e0 & -> & He0). apply (rf_entry _ _ _ Hr e0 He0).
  - intros e0 He0. apply elem_of_app in He0 as [He0|He0].
    + eapply entry_ok_next; [|apply (rf_entry _ _ _ Hr); assumption]. lia.
    + apply elem_of_list_singleton in He0 as ->. pose proof (i_next _ _ Hi). split; cbn; try lia; try assumption.
  - intros t' id' o' Eo'. unfold place_st in Eo'. cbn in Eo'. destruct (decide ((t', id') = (t, next_id s))) as [[= -> ->]|Hne].
    + rewrite lookup_insert in Eo'. injection Eo' as <-. eexists. split; [apply elem_of_app; right; constructor|].
      unfold same_data, placed_order, new_order. cbn. auto 10.
    + rewrite lookup_insert_ne in Eo' by congruence. destruct (rf_data _ _ _ Hr _ _ _ Eo') as (e0 & He0 & Hd).
      exists e0. split; [apply elem_of_app; auto|assumption].
Qed.

(** ** Cancel *)
Lemma ref_cancel s G Q t id o n c m' tr' c' :
  inv s G -> refines s G Q -> s_orders s !! (t, id) = Some o ->
  (id, (n, c, o_quantity o)) ∈ g_lives (G t (o_dir o)) -> g_F (G t (o_dir o)) <= n ->
  refines (cancel_st s G t o m' tr' c') (gcancel G t (o_dir o) id) (ideal_cancel t id Q).
Proof.
  intros Hi Hr Eo Hl HF. pose proof (i_order _ _ Hi _ _ Eo) as Ho. pose proof (oo_id _ _ _ _ Ho) as Eid. cbn in Eid.
  unfold ideal_cancel. eapply ref_upd with (psi := fun _ _ => []); eauto.
  - intros e. cbn. auto 10.
  - intros e [A1 A2 A3 A4 A5 A6 A7 A8 A9]. split; cbn; try assumption; try lia.
  - intros e He His. apply en_is_true in His as [E1 E2]. unfold live_view. cbn [en_set en_open en_filled map].
    destruct (entry_of _ _ _ Hr _ _ _ _ _ Eo Hl) as (e' & He' & (D1 & D2 & _) & _ & Ef).
    assert (e' = e) as -> by (eapply (ids_inj Q); [apply (rf_ids _ _ _ Hr)|assumption|assumption|congruence]).
    rewrite Ef. assert (fifo (g_F (G t (o_dir o))) n (o_quantity o) = 0) as -> by (unfold fifo; lia). destruct (en_live e); reflexivity.
  - intros t' d'. unfold gcancel. destruct (decide (t' = t /\ d' = o_dir o)) as [[-> ->]|Hne].
    + rewrite gset_eq. rewrite (qview_cancel (g_sync (G t (o_dir o))) id n c (o_quantity o)).
      * rewrite qview_sync. reflexivity.
      * apply sync_ok. apply (i_side _ _ Hi).
      * unfold g_lives. rewrite sync_items. assumption.
      * rewrite sync_F. assumption.
    + unfold gset at 1. rewrite decide_False by assumption. apply qview_gsync.
  - intros k o' Eo'. unfold cancel_st in Eo'. cbn in Eo'. rewrite Eid in Eo'. apply lookup_delete_Some in Eo' as [_ Eo']. eauto 10.
Qed.

(** ** Claim *)
Lemma ref_sync s G Q t tr' c' : refines s G Q -> refines (sync_st s G t tr' c') (gsync G t) Q.
Proof.
  intros [R1 R2 R3 R4]. split; try assumption.
  - intros t' d'. rewrite qview_gsync. apply R1.
  - intros e He. eapply entry_ok_next; [|auto]. unfold next_id. cbn. lia.
Qed.
Lemma ref_claim1 sender s G Q t id s' G' x :
  inv s G -> refines s G Q -> claim1 sender s G t id s' G' x -> refines s' G' (ideal_claim t id Q).
Proof.
  intros Hi Hr Hc. destruct Hc as [ob fee rcp o n c tr' c' Eob Efee Ercp Eo Hl Het f raw Hf Hi1 Hi2 Hctr].
  pose proof (i_order _ _ Hi _ _ Eo) as Ho. unfold ideal_claim.
  eapply (ref_upd s) with (psi := fun o _ => if o =? 0 then [] else [(o, 0)]); eauto.
  - intros e. cbn. auto 10.
  - intros e [A1 A2 A3 A4 A5 A6 A7 A8 A9]. split; cbn; try assumption; try lia.
  - intros e He His. unfold live_view, en_live. cbn [en_set en_open en_filled].
    pose proof (eo_open _ _ (rf_entry _ _ _ Hr e He)). pose proof (eo_filled _ _ (rf_entry _ _ _ Hr e He)).
    destruct (Z.eqb_spec (en_open e) 0), (Z.ltb_spec 0 (en_open e + 0)), (Z.ltb_spec 0 (en_open e + en_filled e)); try lia; reflexivity.
  - intros t' d'. unfold gclaim. destruct (decide (t' = t /\ d' = o_dir o)) as [[-> ->]|Hne].
    + rewrite gset_eq. unfold f. rewrite <- (sync_F (G t (o_dir o))). rewrite (qview_claim _ id n c (o_quantity o)).
      * rewrite qview_sync. reflexivity.
      * apply sync_ok. apply (i_side _ _ Hi).
      * unfold g_lives. rewrite sync_items. assumption.
      * rewrite sync_F. assumption.
    + unfold gset at 1. rewrite decide_False by assumption. apply qview_gsync.
  - intros k o' Eo'. unfold claim_st in Eo'. cbn in Eo'. destruct (_ =? 0) in Eo'.
    + apply lookup_delete_Some in Eo' as [_ Eo']. eauto 10.
    + destruct (decide (k = (t, id))) as [->|Hne].
      * rewrite lookup_insert in Eo'. injection Eo' as <-. exists o. cbn. auto 10.
      * rewrite lookup_insert_ne in Eo' by congruence. eauto 10.
Qed.
Lemma ref_miss1 s G Q t id s' G' : refines s G Q -> miss1 s G t id s' G' -> refines s' G' Q.
Proof. intros Hr []; [assumption|]. apply ref_sync. assumption. Qed.
Lemma claim1_event sender s G t id s' G' a bank o : inv s G -> claim1 sender s G t id s' G' (a, bank, o) -> o_tick o = t /\ o_id o = id.
Proof.
  intros Hi Hc. inversion Hc; subst. pose proof (i_order _ _ Hi _ _ H5) as Ho. cbn. split; [apply (oo_tick _ _ _ _ Ho)|apply (oo_id _ _ _ _ Ho)].
Qed.
Lemma ref_claims ob sender s G l s' G' ms es :
  claims ob sender s G l s' G' ms es -> forall Q, refines s G Q ->
  refines s' G' (foldl (fun Q ev => ideal_claim (ce_tick ev) (ce_id ev) Q) Q es).
Proof.
  induction 1 as [s G|s G t id l s1 G1 s2 G2 ms es Hi Hm Hi1 Hc IH|s G t id l s1 G1 a bank o s2 G2 ms es Hi Hm Hi1 Hc IH]; intros Q Hr.
  - assumption.
  - apply IH. eapply ref_miss1; eauto.
  - cbn [foldl]. destruct (claim1_event _ _ _ _ _ _ _ _ _ _ Hi Hm) as [E1 E2]. cbn [generate_claimed_order_event ce_tick ce_id].
    rewrite E1, E2. apply IH. exact (ref_claim1 _ _ _ _ _ _ _ _ _ Hi Hr Hm).
Qed.

(** ** Swap *)
Lemma fill_entries s' s : next_id s' = next_id s -> forall Q x, (forall e, e ∈ Q -> entry_ok s e) -> (forall t d, 0 <= x t d) ->
  map en_id (ideal_fill x Q) = map en_id Q /\
  (forall e, e ∈ ideal_fill x Q -> entry_ok s' e) /\
  (forall e, e ∈ Q -> exists a, en_set e (en_open e - a) (en_filled e + a) (en_settled e) (en_refunded e) ∈ ideal_fill x Q).
Proof.
  intros En. induction Q as [|e Q IH]; intros x HQ Hx; cbn [ideal_fill map].
  { split; [reflexivity|]. split; intros e H; inversion H. }
  set (a := Z.min (x (en_tick e) (en_dir e)) (en_open e)). pose proof (HQ e ltac:(constructor)) as He.
  pose proof (Hx (en_tick e) (en_dir e)). pose proof (eo_open _ _ He).
  destruct (IH (fun t d => if bool_decide (t = en_tick e /\ d = en_dir e) then x t d - a else x t d)) as (I1 & I2 & I3).
  { intros e' He'. apply HQ. constructor. assumption. }
  { intros t d. case_bool_decide as Hd; [|apply Hx]. destruct Hd as [-> ->]. unfold a. lia. }
  split; [cbn [en_set en_id]; f_equal; exact I1|]. split.
  - intros e' He'. apply elem_of_cons in He' as [->|He']; [|auto]. destruct He as [A1 A2 A3 A4 A5 A6 A7 A8 A9].
    split; cbn; try assumption; try lia.
  - intros e' He'. apply elem_of_cons in He' as [->|He']; [exists a; constructor|]. destruct (I3 _ He') as (a' & Ha').
    exists a'. constructor. assumption.
Qed.

Lemma ref_fills s s' G Q od fs x :
  inv s G -> refines s G Q -> next_id s' = next_id s -> s_orders s' = s_orders s ->
  (forall t, 0 <= taken fs t) -> (forall t d, x t d = if decide (d = od) then taken fs t else 0) ->
  refines s' (gfills G od fs) (ideal_fill x Q).
Proof.
  intros Hi Hr En Eo Ht Ex. assert (Hx : forall t d, 0 <= x t d) by (intros t d; rewrite Ex; destruct (decide _); [apply Ht|lia]).
  destruct (fill_entries s' s En Q x (rf_entry _ _ _ Hr) Hx) as (I1 & I2 & I3). split.
  - intros t d. rewrite proj_fill; [|intros e He; split; apply (rf_entry _ _ _ Hr e He)|assumption]. rewrite (rf_view _ _ _ Hr).
    unfold gfills. rewrite Ex. destruct (decide (d = od)).
    + symmetry. apply qview_fill; [apply (i_side _ _ Hi)|apply Ht].
    + rewrite <- (qview_fill (G t d) 0); [rewrite fill0; reflexivity|apply (i_side _ _ Hi)|lia].
  - rewrite I1. apply (rf_ids _ _ _ Hr).
  - assumption.
  - intros t id o E. rewrite Eo in E. destruct (rf_data _ _ _ Hr _ _ _ E) as (e & He & Hd). destruct (I3 _ He) as (a & Ha).
    eexists. split; [exact Ha|]. exact Hd.
Qed.
Lemma taken_bounds s G ob d bound q l fs r pr :
  inv s G -> 0 <= q -> swap_pre s G ob d bound q l fs r pr -> forall t, 0 <= taken fs t <= opens G (opposite d) t.
Proof.
  intros Hi Hq [S1 S2 S3 S4 S5] t. destruct (plan_good_inv _ _ _ _ _ _ _ _ _ _ Hi Hq S3 S4) as [Hg _].
  destruct (plan_ctx _ _ _ _ _ _ Hi S3) as (O1 & _ & O3 & _).
  eapply taken_in_range; [apply (pg_fills _ _ _ _ _ _ _ _ Hg)| |apply O3].
  eapply sublist_nodup; [apply (pg_ticks _ _ _ _ _ _ _ _ Hg)|]. eapply ordered_nodup; eauto.
Qed.

Lemma ref_same_book s s' G Q : refines s G Q -> same_book s s' -> refines s' G Q.
Proof.
  intros [R1 R2 R3 R4] Hb. split; try assumption.
  - intros e He. eapply entry_ok_next; [|auto]. unfold next_id. rewrite (sb_id _ _ Hb). lia.
  - intros t id o E. rewrite (sb_orders _ _ Hb) in E. auto.
Qed.

Lemma ref_step e w G Q c w' G' o :
  inv (w_st w) G -> call_ok (w_self w) c = true -> refines (w_st w) G Q -> stepped e w G c w' G' o ->
  refines (w_st w') G' (ideal_step e w c Q).
Proof.
  intros Hi Hok Hr Hst. unfold ideal_step. rewrite (stepped_step _ _ _ _ _ _ _ Hst).
  destruct Hst as [_|r s' b' G' _ Ht Hi' _]; [assumption|]. cbn [w_st].
  destruct Ht as [i t0 d q b ob Hq Hp Ha|i t0 id ob o n cc m' tr' c' Ha A1 A2 A3 A4 A5 A6 A7 A8|i t0 id ob s' G' a ms o Ha A1 A2 A3
    |i l ob s' G' ms es Ha A1 A2 A3 A4|i m r s' A1 A2 A3 A4|cl sender tin outd mn fee target d ob l fs rest pr Ha A1 A2 A3 A4 A5 A6 A7
    |m r s' Ha A1 A2 A3 A4 A5 A6 A7|cl A].
  - change (attr_int (r_attrs (place_resp ob i t0 d (next_id (w_st w)) q)) "order_id") with (next_id (w_st w)).
    apply ref_place; assumption.
  - exact (ref_cancel _ _ _ _ _ _ _ _ _ _ _ Hi Hr A2 A5 A7).
  - exact (ref_claim1 _ _ _ _ _ _ _ _ _ Hi Hr A3).
  - cbn [r_events]. eapply ref_claims; eauto.
  - eapply ref_same_book; eauto.
  - assert (Hq : 0 <= c_amount tin).
    { unfold call_ok in Hok. apply andb_prop in Hok as [_ Hok].
      destruct cl as [|m| |]; try discriminate. destruct m; try discriminate; cbn in A1; injection A1 as <- <- <- <- <- <-; cbn in Hok;
        unfold coin_typed, u128 in Hok; repeat (apply andb_prop in Hok as [Hok ?]); apply Z.leb_le; assumption. }
    assert (Ht : forall t, 0 <= taken fs t) by (intros t; apply (taken_bounds _ _ _ _ _ _ _ _ _ _ Hi Hq A6)).
    assert (Hfin : refines (swap_st (w_st w) G ob (opposite d) fs) (gfills G (opposite d) fs)
      (ideal_fill (fun t d0 => tick_liquidity (w_st w) t d0 - tick_liquidity (swap_st (w_st w) G ob (opposite d) fs) t d0) Q)).
    { eapply ref_fills; eauto; try reflexivity. intros t d0.
      rewrite (tick_liquidity_open _ _ _ _ Hi), (tick_liquidity_open _ _ _ _ Hi'). unfold gfills.
      destruct (decide (d0 = opposite d)); unfold g_open, g_fill; cbn [g_items g_F]; lia. }
    destruct cl as [|m| |]; try discriminate. destruct m; try discriminate; exact Hfin.
  - assert (Hfin : refines s' G Q) by (eapply ref_same_book; eauto). destruct m; try discriminate; exact Hfin.
  - destruct A as [->|(c0 & ->)]; assumption.
Qed.

Lemma refines0 s : s_orders s = ∅ -> refines s G0 [].
Proof.
  intros E. split.
  - intros t d. reflexivity.
  - constructor.
  - intros e H. inversion H.
  - intros t id o H. rewrite E, lookup_empty in H. discriminate.
Qed.

(** Every history: the contract refines the ideal book. *)
Theorem run_refines w0 h : start w0 -> history w0 h ->
  exists G, inv (w_st (run w0 h)) G /\ refines (w_st (run w0 h)) G (ideal_run w0 [] h).
Proof.
  intros Hs Hh. apply (run_ind (fun w G Q => refines (w_st w) G Q)); try assumption.
  - apply start_inv in Hs as (_ & (q & b & -> & _) & _). apply refines0. reflexivity.
  - intros e w G Q c w' G' o Hi Hok Hr Hst. eapply ref_step; eauto.
Qed.
