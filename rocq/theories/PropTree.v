(** * PropTree: the cancellation trees, the prefix sum, synchronisation and the recorded totals (C21-C24). *)
From Verif Require Import Base Dec Types State TickMath Sumtree Tick Order Auth Contract Query World SpecMath TickMathProofs
  TreeDefs Exec SumtreeProofs SumtreeRebalance SumtreeInsert PrefixSum SumtreeRoot SumtreeFail Ghost Inv StepPlace StepCancel StepClaim
  SwapPlan StepSwap Trans Spec Reach Refine RefineStep Reserve Solvency Books SpecProps SpecTree PropBase PropOrders PropClaims PropHistory PropSwap Tests.

(** ** Specification and proof-side notions agree *)
Lemma greedy_real F A L : greedy F A L = real F A L.
Proof. revert A. induction L as [|[e v] L IH]; intros A; cbn; [reflexivity|]. rewrite IH. reflexivity. Qed.
Lemma ranges_total_lsum L : ranges_total L = lsum L.
Proof. induction L as [|p L IH]; cbn; [reflexivity|]. fold (ranges_total L). rewrite IH. reflexivity. Qed.
Lemma ascending_segs L : ascending L <-> segs_ok L.
Proof. reflexivity. Qed.
Lemma ranges_total_app L1 L2 : ranges_total (L1 ++ L2) = ranges_total L1 + ranges_total L2.
Proof. rewrite !ranges_total_lsum. apply lsum_app. Qed.
Lemma ranges_start_app L1 L2 : L1 <> [] -> ranges_start (L1 ++ L2) = ranges_start L1.
Proof. destruct L1; [congruence|reflexivity]. Qed.
Lemma ranges_end_app L1 L2 : L2 <> [] -> ranges_end (L1 ++ L2) = ranges_end L2.
Proof. unfold ranges_end. intros H. destruct L2 as [|p L2]; [congruence|]. rewrite last_app. destruct (last (p :: L2)) eqn:E; [reflexivity|]. apply last_None in E. discriminate. Qed.
Lemma tmin_start t : ranges_start (leaves t) = tmin t.
Proof. induction t as [k e v|k l IHl r IHr]; cbn [leaves tmin]; [reflexivity|]. rewrite ranges_start_app by apply leaves_nonempty. exact IHl. Qed.
Lemma tmax_end t : ranges_end (leaves t) = tmax t.
Proof.
  induction t as [k e v|k l IHl r IHr]; cbn [leaves tmax]; [unfold ranges_end; cbn; lia|].
  rewrite ranges_end_app by apply leaves_nonempty. exact IHr.
Qed.
Lemma fib_eq n : fibonacci n = fib n.
Proof. induction n as [n IH] using (well_founded_induction Nat.lt_wf_0). destruct n as [|[|n]]; [reflexivity|reflexivity|]. rewrite fib_SS. rewrite <- (IH n), <- (IH (S n)) by lia. reflexivity. Qed.

Lemma node_of_spec t d p k l r :
  node_of t d p (TNode k l r) = mkNode k t d (Some (tkey l)) (Some (tkey r)) p
   (NInternal (ranges_total (leaves l ++ leaves r)) (ranges_start (leaves l ++ leaves r)) (ranges_end (leaves l ++ leaves r)) (Z.max (theight l) (theight r) + 1)).
Proof.
  change (leaves l ++ leaves r) with (leaves (TNode k l r)). rewrite ranges_total_lsum, <- tsum_lsum, tmin_start, tmax_end. reflexivity.
Qed.
Lemma repr_subtree s t d p tr : repr t d (s_nodes s) p tr -> avl tr -> subtree s t d p (tkey tr) (leaves tr) (theight tr).
Proof.
  revert p. induction tr as [k e v|k l IHl r IHr]; intros p; cbn [repr avl].
  - intros [H _] _. apply st_leaf. exact H.
  - intros (H & Hl & Hr) (Al & Ar & Hb). rewrite node_of_spec in H. cbn [tkey leaves theight].
    eapply st_inner; [exact H|apply IHl; assumption|apply IHr; assumption|lia].
Qed.
Lemma subtree_repr s t d p k L h : subtree s t d p k L h ->
  exists tr, repr t d (s_nodes s) p tr /\ tkey tr = k /\ leaves tr = L /\ theight tr = h /\ avl tr.
Proof.
  induction 1 as [p k e v H|p k kl kr L1 L2 h1 h2 H _ (l & R1 & <- & <- & <- & A1) _ (r & R2 & <- & <- & <- & A2) Hb].
  - exists (TLeaf k e v). cbn. auto.
  - exists (TNode k l r). rewrite <- node_of_spec in H. cbn [repr tkey leaves theight avl]. auto 10.
Qed.

(** ** C21: the stored trees *)
Lemma rep_holds s t d L K : tree_rep t d (s_nodes s) (s_tree s) L K ->
  exists h, holds_tree s t d L h /\ h <= Z.of_nat (size (s_nodes s)) /\
    ((2 <= length L)%nat -> fibonacci (S (Z.to_nat h)) <= Z.of_nat (length L) /\ 2 ^ (h / 2) <= Z.of_nat (length L)).
Proof.
  intros H. destruct H as [H|k kl e v H1 H2 H3 H4|k l r H1 H2 H3 H4].
  - exists 0. split; [apply ht_none; exact H|]. split; [lia|]. cbn. lia.
  - exists 2. split; [|split].
    + eapply ht_one; [exact H1|rewrite H3; do 3 f_equal; lia|]. apply st_leaf. exact H4.
    + pose proof (keys_size t (s_nodes s) [k; kl]) as Hs. cbn in Hs. rewrite <- Nat2Z.inj_le with (n := 2%nat). apply Hs.
      * constructor; [|repeat constructor; intros K; inversion K]. intros K. apply elem_of_list_singleton in K. congruence.
      * intros q Hq. rewrite !elem_of_cons, elem_of_nil in Hq. destruct Hq as [->|[->|[]]]; eauto.
    + cbn. lia.
  - exists (theight (TNode k l r)).
    assert (Hlen : (2 <= length (leaves (TNode k l r)))%nat).
    { cbn [leaves]. rewrite app_length. pose proof (leaves_nonempty l). pose proof (leaves_nonempty r). destruct (leaves l), (leaves r); cbn; try congruence; lia. }
    split; [|split].
    + eapply ht_full; [exact H1|exact Hlen|]. apply repr_subtree with (tr := TNode k l r); assumption.
    + pose proof (fuel_ok s t d (s_nodes s) (s_tree s) (s_nodectr s) _ _ H2 H3) as Hf. rewrite <- upd_id in Hf. unfold tree_fuel in Hf. lia.
    + intros _. rewrite fib_eq. split; [apply avl_fib; assumption|apply avl_height; assumption].
Qed.
Lemma height_log h n : 0 <= h -> 0 < n -> 2 ^ (h / 2) <= n -> h <= 2 * Z.log2 n + 1.
Proof.
  intros Hh Hn H. apply Z.log2_le_mono in H. rewrite Z.log2_pow2 in H by (apply Z.div_pos; lia).
  pose proof (Z.div_mod h 2 ltac:(lia)). pose proof (Z.mod_pos_bound h 2 ltac:(lia)). lia.
Qed.

(** ** The recorded totals follow the ideal book *)
Lemma sum_at_app f Q Q' t d : sum_at f (Q ++ Q') t d = sum_at f Q t d + sum_at f Q' t d.
Proof. unfold sum_at, ideal_sum. rewrite foldr_app. induction Q as [|a Q IH]; cbn [foldr]; [reflexivity|]. rewrite IH. lia. Qed.
Lemma sum_at_same f Q t d (phi : entry -> entry) :
  (forall e, en_tick (phi e) = en_tick e /\ en_dir (phi e) = en_dir e /\ f (phi e) = f e) -> sum_at f (map phi Q) t d = sum_at f Q t d.
Proof.
  intros H. unfold sum_at. induction Q as [|a Q IH]; cbn; [reflexivity|]. unfold ideal_sum in IH. rewrite IH. destruct (H a) as (-> & -> & ->). reflexivity.
Qed.
Lemma sum_at_fill f Q x t d :
  (forall e a, f (en_set e (en_open e - a) (en_filled e + a) (en_settled e) (en_refunded e)) = f e) -> sum_at f (ideal_fill x Q) t d = sum_at f Q t d.
Proof.
  intros H. unfold sum_at. revert x. induction Q as [|a Q IH]; intros x; cbn; [reflexivity|]. unfold ideal_sum in IH. rewrite IH, H. reflexivity.
Qed.
Lemma sum_at_claim f Q t id t' d' :
  (forall e, f (en_set e (en_open e) 0 (en_settled e + en_filled e) (en_refunded e)) = f e) -> sum_at f (ideal_claim t id Q) t' d' = sum_at f Q t' d'.
Proof. intros H. apply sum_at_same. intros e. destruct (en_is t id e); auto. Qed.
Lemma sum_at_claims f es t' d' :
  (forall e, f (en_set e (en_open e) 0 (en_settled e + en_filled e) (en_refunded e)) = f e) ->
  forall Q, sum_at f (foldl (fun Q ev => ideal_claim (ce_tick ev) (ce_id ev) Q) Q es) t' d' = sum_at f Q t' d'.
Proof. intros H. induction es as [|ev es IH]; intros Q; cbn [foldl]; [reflexivity|]. rewrite IH. apply sum_at_claim. assumption. Qed.
Lemma sum_at_cancel Q t id en t' d' :
  StronglySorted Z.lt (map en_id Q) -> en ∈ Q -> en_is t id en = true ->
  sum_at en_refunded (ideal_cancel t id Q) t' d' = sum_at en_refunded Q t' d' + if bool_decide (en_tick en = t' /\ en_dir en = d') then en_open en else 0.
Proof.
  intros Hs Hin His. unfold sum_at, ideal_cancel. induction Q as [|a Q IH]; [inversion Hin|]. cbn [map ideal_sum foldr]. unfold ideal_sum in IH.
  cbn [map] in Hs. apply StronglySorted_inv in Hs as [Hs Ha]. rewrite Forall_forall in Ha. pose proof (proj1 (en_is_true _ _ _) His) as [E1 E2].
  apply elem_of_cons in Hin as [->|Hin].
  - rewrite His. cbn [en_set en_tick en_dir en_refunded].
    assert (E : map (fun e => if en_is t id e then en_set e 0 (en_filled e) (en_settled e) (en_refunded e + en_open e) else e) Q = Q).
    { rewrite <- (map_id Q) at 2. apply map_ext_in. intros x Hx. apply elem_of_list_In in Hx. destruct (en_is t id x) eqn:Ex; [|reflexivity].
      apply en_is_true in Ex as [_ Ex]. specialize (Ha (en_id x) ltac:(apply elem_of_list_fmap; eauto)). lia. }
    rewrite E. destruct (bool_decide _); lia.
  - rewrite (IH Hs Hin). assert (en_is t id a = false) as ->; [|lia]. apply en_is_false. intros [_ Ex].
    specialize (Ha (en_id en) ltac:(apply elem_of_list_fmap; eauto)). lia.
Qed.

Lemma claim1_cans sender s G t id s' G' x t' d' : inv s G -> claim1 sender s G t id s' G' x -> g_cans (G' t' d') = g_cans (G t' d').
Proof.
  intros Hi []. unfold gclaim. apply (gset_at (fun g => g_cans g = g_cans (G t' d'))); [|intros; apply gsync_cans].
  intros -> ->. rewrite <- (gsync_cans G t), <- (gsync_eq G t).
  destruct (claim_sums (gsync G t t (o_dir o)) id n c (o_quantity o) f) as (_ & _ & ->); [apply gsync_side, Hi|rewrite gsync_lives; assumption|reflexivity].
Qed.
Lemma miss1_cans s G t id s' G' t' d' : miss1 s G t id s' G' -> g_cans (G' t' d') = g_cans (G t' d').
Proof. intros []; [reflexivity|apply gsync_cans]. Qed.
Lemma claims_cans ob sender s G l s' G' ms es t' d' : claims ob sender s G l s' G' ms es -> g_cans (G' t' d') = g_cans (G t' d').
Proof.
  induction 1 as [s G|s G t id l s1 G1 s2 G2 ms es Hi Hm Hi1 Hc IH|s G t id l s1 G1 a bank o s2 G2 ms es Hi Hm Hi1 Hc IH]; [reflexivity| |]; rewrite IH.
  - eapply miss1_cans; eauto.
  - eapply claim1_cans; eauto.
Qed.
Lemma cns_cans g : cns (g_items g) = lsum (g_cans g).
Proof. unfold g_cans. rewrite lsum_cans. reflexivity. Qed.

Record track (G : ghost) (Q : ideal) (C : Z -> dir -> list (Z * Z)) : Prop := {
  tk_cans : forall t d, canl G t d ≡ₚ C t d;
  tk_placed : forall t d, tot (G t d) = sum_at en_placed Q t d;
  tk_refunded : forall t d, cns (g_items (G t d)) = sum_at en_refunded Q t d
}.
Lemma step_track e w G Q c w' G' o C :
  good w G Q -> call_ok (w_self w) c = true -> stepped e w G c w' G' o -> track G Q C ->
  track G' (ideal_step e w c Q) (fun t d => C t d ++ cancelled w [(e, c)] t d).
Proof.
  intros Hg Hok Hst [K1 K2 K3]. pose proof (gd_inv _ _ _ Hg) as Hi. pose proof (gd_ref _ _ _ Hg) as Hr.
  assert (Hsame : forall Q', (forall t d, g_cans (G' t d) = g_cans (G t d) /\ tot (G' t d) = tot (G t d) /\ cancelled w [(e, c)] t d = [] /\
      sum_at en_placed Q' t d = sum_at en_placed Q t d /\ sum_at en_refunded Q' t d = sum_at en_refunded Q t d) ->
      track G' Q' (fun t d => C t d ++ cancelled w [(e, c)] t d)).
  { intros Q' H. split; intros t d; destruct (H t d) as (A1 & A2 & A3 & A4 & A5).
    - rewrite A3, app_nil_r. unfold canl. rewrite A1. apply K1.
    - rewrite A2, A4. apply K2.
    - rewrite cns_cans, A1, <- cns_cans, A5. apply K3. }
  unfold ideal_step. pose proof (stepped_step _ _ _ _ _ _ _ Hst) as Es. rewrite Es.
  destruct Hst as [_|r s' b' G' _ Ht Hi' _].
  { apply Hsame. intros t d. repeat split; try reflexivity. destruct c as [i []| | |]; cbn [cancelled]; rewrite ?Es; reflexivity. }
  destruct Ht as [i t0 d0 q b ob Hq Hp Ha|i t0 id ob o n cc m' tr' c' Ha A1 A2 A3 A4 A5 A6 A7 A8|i t0 id ob s' G' a ms o Ha A1 A2 A3
    |i l ob s' G' ms es Ha A1 A2 A3 A4|i m r s' A1 A2 A3 A4|cl sender tin outd mn fee target d0 ob l fs rest pr Ha A1 A2 A3 A4 A5 A6 A7
    |m r s' Ha A1 A2 A3 A4 A5 A6 A7|cl A].
  - assert (E0 : forall t d, sum_at en_placed (ideal_place t0 d0 (attr_int (r_attrs (place_resp ob i t0 d0 (next_id (w_st w)) q)) "order_id") (i_sender i) b (e_time e) q Q) t d =
       sum_at en_placed Q t d + if bool_decide (t0 = t /\ d0 = d) then q else 0).
    { intros t d. unfold ideal_place. rewrite sum_at_app. unfold sum_at at 2. cbn. lia. }
    assert (E1 : forall t d, sum_at en_refunded (ideal_place t0 d0 (attr_int (r_attrs (place_resp ob i t0 d0 (next_id (w_st w)) q)) "order_id") (i_sender i) b (e_time e) q Q) t d =
       sum_at en_refunded Q t d).
    { intros t d. unfold ideal_place. rewrite sum_at_app. unfold sum_at at 2. cbn. destruct (bool_decide _); lia. }
    assert (E2 : forall t d, cancelled w [(e, CExec i (PlaceLimit t0 d0 q b))] t d = []) by reflexivity.
    split; intros t d.
    + rewrite E2, app_nil_r, <- K1. apply (gset_at (fun g => scale (g_cans g) ≡ₚ canl G t d)); [|intros; reflexivity].
      intros -> ->. unfold canl, g_cans, g_place. cbn [g_items]. rewrite cans_app. cbn. rewrite app_nil_r. reflexivity.
    + rewrite E0. apply (gset_at (fun g => tot g = sum_at en_placed Q t d + if bool_decide (t0 = t /\ d0 = d) then q else 0)).
      * intros -> ->. rewrite bool_decide_true by auto. rewrite <- K2. unfold tot, g_place. cbn [g_items]. rewrite nfs_app, cns_app. cbn. lia.
      * intros Hne. rewrite bool_decide_false by (intros [E9 E10]; destruct Hne; congruence). rewrite Z.add_0_r. apply K2.
    + rewrite E1. apply (gset_at (fun g => cns (g_items g) = sum_at en_refunded Q t d)); [|intros; apply K3].
      intros -> ->. cbn [g_place g_items]. rewrite cns_app. cbn. rewrite Z.add_0_r. apply K3.
  - destruct (entry_of _ _ _ Hr _ _ _ _ _ A2 A5) as (en & Hen & (D1 & D2 & D3 & _) & Eop & _).
    assert (fifo (g_F (G t0 (o_dir o))) n (o_quantity o) = 0) as Hf0 by (unfold fifo; lia). rewrite Hf0, Z.sub_0_r in Eop.
    assert (E2 : forall t d, cancelled w [(e, CExec i (CancelLimit t0 id))] t d = if bool_decide (t0 = t /\ o_dir o = d) then [(o_etas o, o_quantity o * ATOM)] else []).
    { intros t d. cbn [cancelled]. rewrite Es. cbn [snd]. unfold order_of. rewrite A2. rewrite app_nil_r. reflexivity. }
    assert (Hl' : (id, (n, cc, o_quantity o)) ∈ g_lives (gsync G t0 t0 (o_dir o))) by (rewrite gsync_lives; exact A5).
    pose proof (gsync_side G t0 t0 (o_dir o) (i_side _ _ Hi _ _)) as Hso.
    split; intros t d.
    + rewrite E2, <- K1. unfold gcancel. apply (gset_at (fun g => scale (g_cans g) ≡ₚ canl G t d ++ if bool_decide (t0 = t /\ o_dir o = d) then [(o_etas o, o_quantity o * ATOM)] else [])).
      * intros -> ->. rewrite bool_decide_true by auto. destruct (cancel_cans _ _ _ _ _ Hso Hl') as (A & B & F1 & F2).
        rewrite <- (gsync_eq G t0), F2. rewrite <- gsync_canl with (t := t0). unfold canl. rewrite F1. rewrite !scale_app. cbn [scale map fst snd]. fold (scale B).
        rewrite A6. change DEC with ATOM. rewrite <- app_assoc. apply Permutation_app_head. rewrite Permutation_app_comm. reflexivity.
      * intros Hne. rewrite bool_decide_false by (intros [E9 E10]; destruct Hne; congruence). rewrite app_nil_r. change (canl (gsync G t0) t d ≡ₚ canl G t d). rewrite gsync_canl. reflexivity.
    + replace (sum_at en_placed (ideal_cancel t0 id Q) t d) with (sum_at en_placed Q t d) by (symmetry; apply sum_at_same; intros x; destruct (en_is t0 id x); auto).
      unfold gcancel. apply (gset_at (fun g => tot g = sum_at en_placed Q t d)); [|intros; rewrite tot_sync; apply K2].
      intros -> ->. rewrite <- K2, <- (tot_sync G t0), <- (gsync_eq G t0). unfold tot.
      destruct (cancel_open _ _ _ _ _ Hso Hl') as (_ & ->). reflexivity.
    + rewrite (sum_at_cancel Q t0 id en) by (try apply (rf_ids _ _ _ Hr); try assumption; apply en_is_true; auto). rewrite D1, D3, Eop.
      unfold gcancel. apply (gset_at (fun g => cns (g_items g) = sum_at en_refunded Q t d + if bool_decide (t0 = t /\ o_dir o = d) then o_quantity o else 0)).
      * intros -> ->. rewrite bool_decide_true by auto. rewrite <- K3, <- (gsync_items G t0). rewrite <- (gsync_eq G t0).
        destruct (cancel_parts _ _ _ _ _ Hso Hl') as (l1 & l2 & -> & _ & _ & ->). rewrite !cns_app. cbn. lia.
      * intros Hne. rewrite bool_decide_false by (intros [E9 E10]; destruct Hne; congruence). rewrite gsync_items, Z.add_0_r. apply K3.
  - apply Hsame. intros t d. rewrite (claim1_cans _ _ _ _ _ _ _ _ t d Hi A3), (claim1_tot _ _ _ _ _ _ _ _ t d Hi A3). repeat split; try reflexivity; apply sum_at_claim; reflexivity.
  - apply Hsame. intros t d. rewrite (claims_cans _ _ _ _ _ _ _ _ _ t d A4), (claims_tot _ _ _ _ _ _ _ _ _ t d A4). cbn [r_events]. repeat split; try reflexivity; apply sum_at_claims; reflexivity.
  - apply Hsame. intros t d. repeat split; reflexivity.
  - destruct cl as [|m| |]; try discriminate. destruct m; try discriminate; apply Hsame; intros t d; unfold g_cans, tot; rewrite gfills_items; (split; [reflexivity|]; split; [reflexivity|]; split; [reflexivity|]); split; apply sum_at_fill; reflexivity.
  - destruct m; try discriminate; apply Hsame; intros t d; repeat split; reflexivity.
  - destruct A as [->|(c0 & ->)]; apply Hsame; intros t d; repeat split; reflexivity.
Qed.
Lemma cancelled_app w h1 h2 t d : cancelled w (h1 ++ h2) t d = cancelled w h1 t d ++ cancelled (run w h1) h2 t d.
Proof. revert w. induction h1 as [|[e c] h1 IH]; intros w; cbn [cancelled app run]; [reflexivity|]. rewrite IH, app_assoc. reflexivity. Qed.

(** Every history of calls. *)
Lemma run_track w0 h : start w0 -> history w0 h -> exists G, good (run w0 h) G (ideal_run w0 [] h) /\ track G (ideal_run w0 [] h) (cancelled w0 h) /\ small h (run w0 h) G (ideal_run w0 [] h).
Proof.
  intros Hs Hh. 
  assert (Hg : forall h, history w0 h -> exists G, good (run w0 h) G (ideal_run w0 [] h) /\ track G (ideal_run w0 [] h) (cancelled w0 h) /\
     next_id (w_st (run w0 h)) <= Z.of_nat (length h) /\ (forall t d, tot (G t d) <= U128_MAX * Z.of_nat (length h))).
  { clear h Hh. induction h as [|[e c] h IH] using rev_ind; intros Hh.
    - exists G0. destruct (start_inv _ Hs) as (Hi0 & (q & b & Es & _) & _). split; [|split; [|split]].
      + split; [assumption| |apply solvent_start; assumption]. apply refines0. cbn [run]. rewrite Es. reflexivity.
      + split; reflexivity.
      + cbn [run]. rewrite Es. cbn. lia.
      + intros t d. vm_compute. discriminate.
    - pose proof Hh as Hh'. apply history_app in Hh' as [Hh1 Hh2]. destruct (IH Hh1) as (G & Hg & Ht & Hn & Hm).
      apply Forall_cons in Hh2 as [Hok _]. cbn [snd] in Hok.
      destruct (step_good e (run w0 h) G (ideal_run w0 [] h) c Hg Hok) as (G' & Hg' & Hst). exists G'.
      rewrite run_last, ideal_run_last. split; [exact Hg'|]. split; [|].
      + destruct (step_track _ _ _ _ _ _ _ _ _ Hg Hok Hst Ht) as [T1 T2 T3]. split; [|assumption|assumption]. intros t d. rewrite cancelled_app. apply T1.
      + rewrite app_length. cbn [length]. rewrite Nat2Z.inj_add. clear -Hst Hn Hm Hg. destruct Hst as [_|r s' b' G' _ Htr _ _].
        * split; [lia|]. intros t d. specialize (Hm t d). unfold U128_MAX in *. lia.
        * split.
          -- pose proof (trans_tot _ _ _ _ _ _ _ 0 Bid (gd_inv _ _ _ Hg) Htr). cbn [w_st]. lia.
          -- intros t d. specialize (Hm t d). pose proof (trans_tot _ _ _ _ _ _ _ t d (gd_inv _ _ _ Hg) Htr) as [A B]. unfold U128_MAX in *. nia. }
  destruct (Hg h Hh) as (G & K1 & K2 & K3 & K4). exists G. split; [assumption|]. split; [assumption|]. split; try assumption.
  - pose proof (ideal_run_length w0 [] h) as Hl. cbn in Hl. lia.
  - intros t. apply run_ctr; assumption.
Qed.

(** C21: in every reachable state the tree of every tick and direction holds exactly the ranges of the
    orders cancelled there so far, in ascending order without overlap; all cached numbers and links are
    right and siblings differ by at most one level; hence the height is logarithmic. *)
Theorem C21_tree :
  forall w0 h, start w0 -> history w0 h -> let s := w_st (run w0 h) in
  forall t d, exists L height,
    L ≡ₚ cancelled w0 h t d /\ ascending L /\ holds_tree s t d L height /\
    height <= Z.of_nat (size (s_nodes s)) /\
    ((2 <= length L)%nat ->
      fibonacci (S (Z.to_nat height)) <= Z.of_nat (length L) /\ height <= 2 * Z.log2 (Z.of_nat (length L)) + 1).
Proof.
  intros w0 h Hs Hh s t d. destruct (run_track w0 h Hs Hh) as (G & Hg & Ht & _). pose proof (gd_inv _ _ _ Hg) as Hi.
  destruct (so_rep _ _ _ _ _ (i_store _ _ Hi t) d) as [K HK]. destruct (rep_holds s t d _ _ HK) as (height & H1 & H2 & H3).
  exists (canl G t d), height. split; [apply (tk_cans _ _ _ Ht)|]. split; [apply canl_segs, Hi|]. split; [exact H1|]. split; [exact H2|].
  intros Hlen. destruct (H3 Hlen) as [A B]. split; [exact A|].
  destruct (Z.le_gt_cases 0 height); [apply height_log; lia|]. pose proof (Z.log2_nonneg (Z.of_nat (length (canl G t d)))). lia.
Qed.
Print Assumptions C21_tree.
(** Live orders and cancelled ranges never overlap. *)
Theorem C21_ranges_disjoint :
  forall w0 h, start w0 -> history w0 h ->
  forall t id o p, order_of (w_st (run w0 h)) t id = Some o -> p ∈ cancelled w0 h t (o_dir o) ->
  o_etas o + o_quantity o * ATOM <= p.1 \/ p.1 + p.2 <= o_etas o.
Proof.
  intros w0 h Hs Hh t id o p Eo Hp. destruct (run_track w0 h Hs Hh) as (G & Hg & Ht & _). pose proof (gd_inv _ _ _ Hg) as Hi.
  rewrite <- (tk_cans _ _ _ Ht) in Hp. apply scale_in in Hp as ([a b] & Hp & ->). cbn [fst snd].
  destruct (oo_live _ _ _ _ (i_order _ _ Hi _ _ Eo)) as (n & c & Hl & ->). cbn [fst snd] in Hl. change ATOM with DEC. pose proof DEC_pos.
  pose proof (all_at_impl _ _ _ _ _ (item_ok_pos _ _ _) (so_items _ (i_side _ _ Hi t (o_dir o)))) as Hpos.
  unfold g_lives in Hl. apply lives_split in Hl as (l1 & l2 & El & -> & ->). unfold g_cans in Hp. rewrite El in Hp, Hpos. rewrite cans_app in Hp.
  apply all_at_app in Hpos as [P1 [P2 P3]]. cbn [cans qn qc] in *. apply elem_of_app in Hp as [Hp|Hp].
  - apply (cans_bounds _ _ _ P1) in Hp. cbn [fst snd] in Hp. right. nia.
  - rewrite Z.add_0_r in P3. apply (cans_bounds _ _ _ P3) in Hp. cbn [fst snd] in Hp. left. nia.
Qed.
(** A history with six cancels: the ranges, and the tree of height 4 that holds them. *)
Example C21_case :
  start w_start /\ history w_start hist_cancelled /\
  cancelled w_start hist_cancelled 0 Bid = map (fun x => (D x, D 2)) [2; 4; 8; 10; 14; 16] /\
  fibonacci 5 = 5 /\ (exists n, s_nodes (w_st w_cancelled) !! (0, 5) = Some n /\ get_weight n = 4).
Proof.
  split; [exact start_ok|]. split; [hist|]. split; [vm_compute; reflexivity|]. split; [reflexivity|]. eexists. split; vm_compute; reflexivity.
Qed.

(** ** C22: the prefix sum *)
Lemma okprev_ge F prev A L : prev <= A -> Forall (fun p : Z * Z => 0 <= p.1 /\ 0 < p.2) L -> okprev F prev A L.
Proof.
  revert A. induction L as [|[e v] L IH]; intros A HA HF; cbn; [auto|]. inversion HF as [|? ? Hp HF']; subst. cbn in Hp. split; [lia|]. apply IH; [lia|assumption].
Qed.
Lemma okprev_prefix F A L1 L2 : Forall (fun p : Z * Z => 0 <= p.1 /\ 0 < p.2) (L1 ++ L2) ->
  real F A L1 = A + lsum L1 -> okprev F (A + lsum L1) A (L1 ++ L2).
Proof.
  revert A. induction L1 as [|[e v] L1 IH]; intros A HF HR; cbn [app] in *.
  - cbn [lsum]. apply okprev_ge; [lia|assumption].
  - inversion HF as [|? ? Hp HF']; subst. cbn [fst snd lsum real] in *. pose proof HF' as HF0. apply Forall_app in HF0 as [HF1 _]. pose proof (lsum_nonneg _ HF1).
    destruct (Z.leb_spec e (F + A)) as [He|He]; [|lia]. cbn [okprev]. split; [lia|]. rewrite Z.add_assoc. apply IH; [assumption|lia].
Qed.
Lemma subtree_height s t d p k L h : subtree s t d p k L h -> 1 <= h.
Proof. induction 1; lia. Qed.
Lemma walk_tree s t d L h root F L1 L2 n :
  holds_tree s t d L h -> ascending L -> get_root_node s t d = Ok root ->
  0 <= F -> F + ranges_total L <= U256_MAX -> ranges_end L <= U256_MAX ->
  L = L1 ++ L2 -> greedy F 0 L1 = ranges_total L1 -> h <= Z.of_nat n ->
  prefix_sum_walk n s root (get_value root) (F + ranges_total L1) (ranges_total L1) = Ok (greedy F 0 L).
Proof.
  intros HT Hok Er HF Hsum Hend EL Hpre Hn. rewrite !ranges_total_lsum in *. rewrite !greedy_real in *.
  assert (Hokp : okprev F (lsum L1) 0 L).
  { rewrite EL. replace (lsum L1) with (0 + lsum L1) at 1 by lia. apply okprev_prefix; [rewrite <- EL; apply Hok|lia]. }
  assert (Hprev : 0 <= lsum L1 <= lsum L).
  { destruct Hok as [_ Hf]. rewrite EL in *. apply Forall_app in Hf as [F1 F2]. rewrite lsum_app. pose proof (lsum_nonneg _ F1). pose proof (lsum_nonneg _ F2). lia. }
  set (prev := lsum L1) in *. unfold get_root_node in Er.
  destruct HT as [H|k kl e v H1 H2 H3|k L h H1 H2 H3].
  - destruct (s_tree s !! (t, d)) as [k|]; cbn in Er; [|discriminate]. rewrite (H k eq_refl) in Er. discriminate.
  - rewrite H1 in Er. cbn [ok_or rbind] in Er. rewrite H2 in Er. cbn in Er. injection Er as <-.
    inversion H3 as [? ? ? ? H4|]; subst; cycle 1.
    { match goal with A : subtree _ _ _ _ _ _ ?x, B : subtree _ _ _ _ _ _ ?y |- _ => apply subtree_height in A, B end. lia. }
    destruct (segs_ok_pos _ (e, v) Hok ltac:(constructor)) as [He Hv]. cbn in He, Hv. cbn in Hend, Hsum, Hprev.
    destruct n as [|n]; [lia|]. destruct n as [|n]; [lia|]. destruct Hokp as [Hx _].
    cbn [prefix_sum_walk get_min_range get_max_range n_type get_value is_internal negb rbind].
    unfold get_left, get_right. cbn [n_left n_right n_tick load_child]. rewrite H4.
    cbn [rbind get_min_range get_max_range n_type get_value option_map unwrap_or is_internal negb real].
    destruct (Z.ltb_spec (F + prev) e) as [Hlt|Hge].
    { destruct (Z.leb_spec e (F + 0)) as [Hle2|]; [|reflexivity]. lia. }
    assert (Hreal : e <= F + 0).
    { destruct (Z.lt_ge_cases 0 prev) as [Hp|Hp]; [specialize (Hx Hp); lia|lia]. }
    destruct (Z.leb_spec e (F + 0)); [|lia]. cbn [Z.add].
    destruct (Z.leb_spec (e + v) (F + prev)); [reflexivity|].
    rewrite checked_add_ok by lia. cbn [rbind].
    destruct (Z.ltb_spec (F + prev) (v + e)); [|lia].
    rewrite checked_sub_ok by lia. cbn [rbind].
    destruct (Z.leb_spec (v + e) (F + prev)); f_equal; lia.
  - rewrite H1 in Er. cbn [ok_or rbind] in Er. destruct (subtree_repr _ _ _ _ _ _ _ H3) as (tr & R1 & <- & <- & <- & R5).
    rewrite (repr_lookup _ _ _ _ _ R1) in Er. cbn in Er. injection Er as <-. rewrite node_of_value. rewrite tmax_end in Hend.
    destruct (Z.le_gt_cases (tmin tr) (F + prev)) as [Hmin|Hmin].
    + pose proof (walk_spec t d s F prev tr n None 0) as W. replace (Z.max 0 prev) with prev in W by lia. replace (0 + tsum tr) with (tsum tr) in W by lia.
      apply W; try assumption; try lia. rewrite tsum_lsum. lia.
    + destruct n as [|n]; [pose proof (theight_pos tr); lia|]. cbn [prefix_sum_walk]. rewrite node_of_min.
      destruct (Z.ltb_spec (F + prev) (tmin tr)); [|lia].
      f_equal. symmetry. apply real_zero; [exact Hok|]. intros q Hq. pose proof (tmin_le _ _ Hok Hq). lia.
Qed.
(** C22: whatever tree is stored, whatever amount [F] is filled and whichever cancels [L1] are already
    realised: the prefix sum at fill position F + (realised) is the greedy realisation of all ranges -
    computed with as many recursive calls as the tree has levels. *)
Theorem C22_prefix_sum :
  forall s t d L height root F L1 L2,
  holds_tree s t d L height -> ascending L -> get_root_node s t d = Ok root ->
  0 <= F -> F + ranges_total L <= U256_MAX -> ranges_end L <= U256_MAX ->
  L = L1 ++ L2 -> greedy F 0 L1 = ranges_total L1 ->
  (forall n, height <= Z.of_nat n ->
     prefix_sum_walk n s root (get_value root) (F + ranges_total L1) (ranges_total L1) = Ok (greedy F 0 L)) /\
  (height <= Z.of_nat (size (s_nodes s)) ->
     get_prefix_sum s root (F + ranges_total L1) (ranges_total L1) = Ok (greedy F 0 L)).
Proof.
  intros s t d L height root F L1 L2 H1 H2 H3 H4 H5 H6 H7 H8.
  assert (Hw : forall n, height <= Z.of_nat n -> prefix_sum_walk n s root (get_value root) (F + ranges_total L1) (ranges_total L1) = Ok (greedy F 0 L))
    by (intros n Hn; eapply walk_tree; eauto).
  split; [exact Hw|]. intros Hs. unfold get_prefix_sum. apply Hw. unfold tree_fuel. lia.
Qed.
Print Assumptions C22_prefix_sum.
(** A tree with no range at all: a new root is made and the prefix sum is 0. *)
Theorem C22_no_tree :
  forall s t d s' root target, holds_tree s t d [] 0 -> 0 <= target ->
  get_or_init_root_node t d s = (s', Ok root) -> get_prefix_sum s' root target 0 = Ok 0.
Proof.
  intros s t d s' root target HT Ht. inversion HT as [Hn| |k L h K1 K2 K3]; subst; [|cbn in K2; lia].
  unfold get_or_init_root_node. rewrite bind_read.
  assert (E : exists er, get_root_node s t d = Err er).
  { unfold get_root_node. destruct (s_tree s !! (t, d)) as [k|]; cbn; [|eauto]. rewrite (Hn k eq_refl). cbn. eauto. }
  destruct E as (er & ->). unfold mbindM. destruct (generate_node_id t s) as [s1 [k| | |]]; try discriminate. cbn. intros [= <- <-].
  unfold get_prefix_sum, tree_fuel. cbn [prefix_sum_walk get_min_range get_max_range new_node ntype_default n_type get_value].
  destruct (target <? U256_MAX); [reflexivity|]. cbn [rbind]. destruct (Z.leb_spec 0 target); [reflexivity|lia].
Qed.
(** The hypotheses are met: the tree with six ranges, nine units filled, the first two cancels realised. *)
Example C22_case :
  let s := w_st w_cancelled in let L := map (fun x => (D x, D 2)) [2; 4; 8; 10; 14; 16] in
  holds_tree s 0 Bid L 4 /\ ascending L /\ (exists root, get_root_node s 0 Bid = Ok root) /\
  greedy (D 5) 0 (take 2 L) = ranges_total (take 2 L) /\ greedy (D 5) 0 L = D 8 /\
  4 <= Z.of_nat (size (s_nodes s)).
Proof.
  cbv zeta. set (s := w_st w_cancelled). set (L := map _ _).
  assert (HL : ascending L).
  { split; [|repeat constructor; vm_compute; congruence]. repeat constructor; vm_compute; congruence. }
  split; [|split; [exact HL|]; split; [eexists; vm_compute; reflexivity|]; split; [vm_compute; reflexivity|]; split; [vm_compute; reflexivity|vm_compute; congruence]].
  change L with (([(D 2, D 2)] ++ [(D 4, D 2)]) ++ (([(D 8, D 2)] ++ [(D 10, D 2)]) ++ ([(D 14, D 2)] ++ [(D 16, D 2)]))).
  eapply (ht_full _ _ _ 5); [vm_compute; reflexivity|cbn; lia|].
  change 4 with (Z.max (Z.max 1 1 + 1) (Z.max (Z.max 1 1 + 1) (Z.max 1 1 + 1) + 1) + 1).
  eapply (st_inner _ _ _ None 5 1 9); [vm_compute; reflexivity| | |lia].
  - eapply (st_inner _ _ _ _ 1 2 3); [vm_compute; reflexivity|apply st_leaf; vm_compute; reflexivity|apply st_leaf; vm_compute; reflexivity|lia].
  - eapply (st_inner _ _ _ _ 9 7 11); [vm_compute; reflexivity| | |lia].
    + eapply (st_inner _ _ _ _ 7 4 6); [vm_compute; reflexivity|apply st_leaf; vm_compute; reflexivity|apply st_leaf; vm_compute; reflexivity|lia].
    + eapply (st_inner _ _ _ _ 11 8 10); [vm_compute; reflexivity|apply st_leaf; vm_compute; reflexivity|apply st_leaf; vm_compute; reflexivity|lia].
Qed.

(** ** C23: recorded totals *)
Lemma side_tv s G t d : inv s G -> side_values s t d = tv_of (G t d).
Proof.
  intros Hi. unfold side_values. destruct (s_ticks s !! t) as [ts|] eqn:E.
  - rewrite (inv_tick_some _ _ _ _ Hi E), get_ts_of. reflexivity.
  - rewrite (i_none _ _ Hi t d E). reflexivity.
Qed.
Lemma sum_at_add f g Q t d : sum_at (fun e => f e + g e) Q t d = sum_at f Q t d + sum_at g Q t d.
Proof. unfold sum_at. rewrite <- ideal_sum_add. apply ideal_sum_ext. intros e _. destruct (bool_decide _); lia. Qed.
Lemma sum_at_ext f g Q t d : (forall e, e ∈ Q -> f e = g e) -> sum_at f Q t d = sum_at g Q t d.
Proof. intros H. apply ideal_sum_ext. intros e He. rewrite (H e He). reflexivity. Qed.
Lemma canl_total G t d : ranges_total (canl G t d) = cns (g_items (G t d)) * ATOM.
Proof. rewrite ranges_total_lsum. unfold canl. rewrite scale_lsum, <- cns_cans. reflexivity. Qed.
Lemma ranges_total_perm L L' : L ≡ₚ L' -> ranges_total L = ranges_total L'.
Proof. induction 1; cbn in *; try unfold ranges_total in *; lia. Qed.

(** C23: at every tick and direction, after any history: the recorded liquidity, placed total and fill
    position are ATOM times the open, placed, and (filled + settled, plus realised cancels) amounts of the
    ideal book; everything is a non-negative whole number and the fill position is within the placed total. *)
Theorem C23_totals :
  forall w0 h, start w0 -> history w0 h -> let s := w_st (run w0 h) in let Q := ideal_run w0 [] h in
  forall t d, let v := side_values s t d in
  tv_tal v = ATOM * open_at Q t d /\
  tv_ctt v = ATOM * sum_at en_placed Q t d /\
  tv_etas v - tv_crc v = ATOM * sum_at (fun e => en_filled e + en_settled e) Q t d /\
  ranges_total (cancelled w0 h t d) = ATOM * sum_at en_refunded Q t d /\
  tv_tal v = tv_ctt v - ranges_total (cancelled w0 h t d) - (tv_etas v - tv_crc v) /\
  (exists realised, tv_crc v = ATOM * realised /\ 0 <= realised <= sum_at en_refunded Q t d) /\
  0 <= tv_tal v /\ 0 <= tv_last v <= tv_etas v /\ tv_etas v <= tv_ctt v.
Proof.
  intros w0 h Hs Hh s Q t d v. destruct (run_track w0 h Hs Hh) as (G & Hg & [T1 T2 T3] & _). pose proof (gd_inv _ _ _ Hg) as Hi. pose proof (gd_ref _ _ _ Hg) as Hr.
  assert (Ev : v = tv_of (G t d)) by (apply side_tv; assumption). rewrite Ev. cbn [tv_of tv_tal tv_ctt tv_etas tv_crc tv_last]. change DEC with ATOM.
  destruct (C08_fifo_state w0 h Hs Hh) as (_ & _ & _ & _ & Hliq). specialize (Hliq t d). rewrite (tick_liquidity_open _ _ _ _ Hi) in Hliq.
  specialize (T1 t d). specialize (T2 t d). specialize (T3 t d). fold Q in Hliq, T2, T3.
  pose proof (i_side _ _ Hi t d) as Hso. pose proof (so_F _ Hso). pose proof (so_crc _ Hso). pose proof (so_last _ Hso).
  assert (Esum : sum_at en_placed Q t d = open_at Q t d + sum_at (fun e => en_filled e + en_settled e) Q t d + sum_at en_refunded Q t d).
  { change (open_at Q t d) with (sum_at en_open Q t d). rewrite <- !sum_at_add. apply sum_at_ext. intros e He.
    pose proof (eo_sum _ _ (rf_entry _ _ _ Hr e He)). lia. }
  rewrite <- (ranges_total_perm _ _ T1), canl_total. unfold tot in T2. unfold g_open in *. assert (0 < ATOM) by reflexivity.
  split; [rewrite Hliq; lia|]. split; [rewrite T2; lia|]. split; [nia|]. split; [rewrite T3; lia|]. split; [lia|].
  split; [exists (g_crc (G t d)); lia|]. nia.
Qed.
Print Assumptions C23_totals.

(** ** Synchronisation *)
Lemma sync_values_of G t d : side_ok (G t d) -> sync_values (tv_of (G t d)) (canl G t d) = tv_of (g_sync (G t d)).
Proof.
  intros Hso. unfold sync_values, g_sync. cbn [tv_of tv_tal tv_ctt tv_etas tv_crc tv_last]. rewrite eqb_scale.
  destruct (g_last (G t d) =? g_F (G t d) + g_crc (G t d)); [reflexivity|].
  assert (EF : (g_F (G t d) + g_crc (G t d)) * DEC - g_crc (G t d) * DEC = g_F (G t d) * DEC) by lia. rewrite EF.
  assert (ER : greedy (g_F (G t d) * DEC) 0 (canl G t d) = realc (g_F (G t d)) 0 0 (g_items (G t d)) * DEC).
  { rewrite greedy_real. unfold canl. rewrite <- (Z.mul_0_l DEC) at 1. rewrite scale_real. unfold g_cans. rewrite real_realc. reflexivity. }
  rewrite ER. unfold tv_of, g_open. cbn [g_items g_F g_crc g_last]. f_equal; lia.
Qed.
(** C23: in any reachable state, synchronising an existing tick does not fail: neither guard
    (InvalidPrefixSum, InvalidTickSync) nor any other error is reachable; the only way to abort is
    running out of 2^64 tree node ids.  The result is the one described by [sync_values], and the fill
    position still does not pass the placed total. *)
Theorem C23_sync :
  forall w0 h, start w0 -> history w0 h -> let s := w_st (run w0 h) in
  forall t ts, s_ticks s !! t = Some ts ->
  exists L s' r,
    (forall d, L d ≡ₚ cancelled w0 h t d /\ ascending (L d)) /\
    sync_now t s = (s', r) /\ (r = Ok tt \/ (r = Panic /\ ~ short h)) /\
    (r = Ok tt ->
      s_ticks s' = <[t := mkTS (sync_values (get_values ts Ask) (L Ask)) (sync_values (get_values ts Bid) (L Bid))]> (s_ticks s) /\
      s_orders s' = s_orders s /\ s_nodes s' = s_nodes s /\
      forall d, tv_etas (side_values s' t d) <= tv_ctt (side_values s' t d)).
Proof.
  intros w0 h Hs Hh s t ts Ets. destruct (run_track w0 h Hs Hh) as (G & Hg & [T1 T2 T3] & Hsm). pose proof (gd_inv _ _ _ Hg) as Hi. fold s in Hi.
  assert (HL : forall d, canl G t d ≡ₚ cancelled w0 h t d /\ ascending (canl G t d)) by (intros d; split; [apply T1|apply canl_segs, Hi]).
  exists (canl G t). pose proof (inv_tick_some _ _ _ _ Hi Ets) as ->. unfold sync_now. rewrite !(side_tv s G) by assumption.
  destruct (sync_spec s G t Hi ltac:(congruence)) as [(tr' & c' & E & Hi' & _)|(Hu & s' & E)].
  - exists (sync_st s G t tr' c'), (Ok tt). split; [exact HL|]. split; [exact E|]. split; [auto|]. intros _.
    split; [|split; [reflexivity|split; [reflexivity|]]].
    + unfold sync_st. cbn [set_ticks s_ticks]. f_equal. rewrite !get_ts_of, !sync_values_of by apply Hi. unfold ts_of. rewrite !gsync_eq. reflexivity.
    + intros d. rewrite (side_tv _ _ _ _ Hi'). cbn [tv_of tv_etas tv_ctt]. pose proof (i_side _ _ Hi' t d) as Hso. pose proof (so_F _ Hso). pose proof (so_crc _ Hso). pose proof DEC_pos. nia.
  - exists s', Panic. split; [exact HL|]. split; [exact E|]. split; [|discriminate]. right. split; [reflexivity|]. intros Hsh. unfold short in Hsh.
    pose proof (sm_ctr _ _ _ _ Hsm t) as Hc. fold s in Hc. rewrite U64_val in Hu. lia.
Qed.
Print Assumptions C23_sync.

(** ** C24: unrealised cancels *)
Lemma unrealized_spec s G t d : inv s G ->
  unrealized_dir s t (tv_of (G t d)) d = Ok (greedy (g_F (G t d) * DEC) 0 (canl G t d) - g_crc (G t d) * DEC) /\
  0 <= greedy (g_F (G t d) * DEC) 0 (canl G t d) - g_crc (G t d) * DEC.
Proof.
  intros Hi. pose proof (i_side _ _ Hi t d) as Hside. pose proof DEC_pos.
  pose proof (so_F _ Hside). pose proof (so_crc _ Hside). pose proof (so_max _ Hside).
  assert (ER : greedy (g_F (G t d) * DEC) 0 (canl G t d) = realc (g_F (G t d)) 0 0 (g_items (G t d)) * DEC).
  { rewrite greedy_real. unfold canl. rewrite <- (Z.mul_0_l DEC) at 1. rewrite scale_real. unfold g_cans. rewrite real_realc. reflexivity. }
  pose proof (realc_ge _ _ _ _ _ _ (so_items _ Hside) ltac:(lia)) as Hge.
  assert (HL : lsum (canl G t d) = cns (g_items (G t d)) * DEC) by (rewrite <- ranges_total_lsum; apply canl_total).
  assert (Hpos : 0 <= greedy (g_F (G t d) * DEC) 0 (canl G t d) - g_crc (G t d) * DEC) by (rewrite ER; nia).
  split; [|exact Hpos]. unfold unrealized_dir.
  destruct (get_root_node s t d) as [root|er| |] eqn:Er.
  - destruct (root_prefix t d s (s_nodes s) (s_tree s) (s_nodectr s) (nctr s t) (canl G t) (g_F (G t d) * DEC) (g_crc (G t d) * DEC))
      as (root' & tr0 & c0 & ctr0 & E1 & E2 & _); try reflexivity; try solve [apply Hi].
    { apply canl_segs. exact Hside. }
    { intros HL0. exfalso. destruct (so_rep _ _ _ _ _ (i_store _ _ Hi t) d) as [K HK]. rewrite HL0 in HK. unfold get_root_node in Er. inversion HK as [Hn|k kl e v K1 K2 K3 K4 EL|k l r K1 K2 K3 K4 EL].
      - destruct (s_tree s !! (t, d)) as [k|]; cbn in Er; [|discriminate]. rewrite (Hn k eq_refl) in Er. discriminate.
      - apply (leaves_nonempty (TNode k l r)). exact EL. }
    { nia. } { rewrite HL. nia. }
    { apply (scale_okprev _ _ 0). apply (okprev_cans _ _ _ _ _ (g_last (G t d))). apply (so_items _ Hside). }
    { rewrite HL. nia. }
    { intros q Hq. eapply canl_ends; eauto. }
    rewrite <- upd_id in E1. unfold get_or_init_root_node in E1. rewrite bind_read, Er in E1. cbv [mret] in E1. injection E1 as E1 ->. rewrite <- E1 in E2.
    cbn [tv_of tv_etas tv_crc]. rewrite Z.mul_add_distr_r, E2. cbn [rbind]. rewrite <- greedy_real. unfold saturating_sub. f_equal. lia.
  - cbn. f_equal. enough (canl G t d = []) as E0.
    { rewrite E0 in *. cbn [lsum greedy] in *. nia. }
    destruct (so_rep _ _ _ _ _ (i_store _ _ Hi t) d) as [K HK]. unfold get_root_node in Er.
    inversion HK as [Hn|k kl e v K1 K2 K3 K4 EL|k l r K1 K2 K3 K4 EL]; [reflexivity| |]; rewrite K1 in Er; cbn [ok_or rbind] in Er.
    + rewrite K3 in Er. discriminate.
    + pose proof (repr_lookup _ _ _ _ _ K2) as E2. cbn [tkey] in E2. rewrite E2 in Er. discriminate.
  - unfold get_root_node in Er. destruct (s_tree s !! (t, d)) as [k|]; cbn in Er; [|discriminate]. destruct (s_nodes s !! (t, k)); discriminate.
  - unfold get_root_node in Er. destruct (s_tree s !! (t, d)) as [k|]; cbn in Er; [|discriminate]. destruct (s_nodes s !! (t, k)); discriminate.
Qed.

(** C24: for an existing tick the query answers, with non-negative amounts [u]; the next synchronisation
    advances fill position and realised cancels by exactly that amount, unless it is skipped because the
    fill position did not move since the last one (then by nothing, see [C24_skip_harmless]). *)
Theorem C24_predicts_sync :
  forall w0 h, start w0 -> history w0 h -> short h -> let s := w_st (run w0 h) in
  forall t ts, s_ticks s !! t = Some ts ->
  exists u s', get_unrealized_cancels s t ts = Ok (u Ask, u Bid) /\ sync_now t s = (s', Ok tt) /\
  forall d, 0 <= u d /\
    let v := side_values s t d in let v' := side_values s' t d in
    if tv_last v =? tv_etas v then v' = v
    else v' = mkTV (tv_tal v) (tv_ctt v) (tv_etas v + u d) (tv_crc v + u d) (tv_etas v).
Proof.
  intros w0 h Hs Hh Hsh s t ts Ets. destruct (short_ready w0 h Hs Hh Hsh) as (G & Hrd). pose proof (gd_inv _ _ _ (rd_good _ _ _ Hrd)) as Hi. fold s in Hi.
  pose proof (inv_tick_some _ _ _ _ Hi Ets) as ->. unfold sync_now. rewrite !(side_tv s G) by assumption.
  destruct (sync_spec s G t Hi ltac:(congruence)) as [(tr' & c' & E & Hi' & _)|(Hu & s' & E)].
  2:{ pose proof (rd_ctr _ _ _ Hrd t) as Hc. fold s in Hc. rewrite U64_val in Hu. lia. }
  exists (fun d => greedy (g_F (G t d) * DEC) 0 (canl G t d) - g_crc (G t d) * DEC), (sync_st s G t tr' c').
  split; [|split; [exact E|]].
  - unfold get_unrealized_cancels. rewrite !get_ts_of. rewrite (proj1 (unrealized_spec s G t Ask Hi)), (proj1 (unrealized_spec s G t Bid Hi)). reflexivity.
  - intros d. split; [apply (unrealized_spec s G t d Hi)|]. cbv zeta. rewrite (side_tv s G) by assumption. rewrite (side_tv _ _ _ _ Hi'), gsync_eq, <- sync_values_of by apply Hi.
    unfold sync_values. destruct (_ =? _); [reflexivity|]. cbn [tv_of tv_tal tv_ctt tv_etas tv_crc tv_last].
    assert (EF : (g_F (G t d) + g_crc (G t d)) * DEC - g_crc (G t d) * DEC = g_F (G t d) * DEC) by lia. rewrite EF. f_equal; lia.
Qed.
Print Assumptions C24_predicts_sync.
(** Synchronising again changes nothing that matters: liquidity, placed total, fill position and realised
    cancels stay. *)
Theorem C24_idempotent :
  forall w0 h, start w0 -> history w0 h -> short h -> let s := w_st (run w0 h) in
  forall t ts, s_ticks s !! t = Some ts ->
  exists s1 s2, sync_now t s = (s1, Ok tt) /\ sync_now t s1 = (s2, Ok tt) /\ s_orders s2 = s_orders s /\
  forall d, let v1 := side_values s1 t d in let v2 := side_values s2 t d in
    tv_tal v2 = tv_tal v1 /\ tv_ctt v2 = tv_ctt v1 /\ tv_etas v2 = tv_etas v1 /\ tv_crc v2 = tv_crc v1.
Proof.
  intros w0 h Hs Hh Hsh s t ts Ets. destruct (short_ready w0 h Hs Hh Hsh) as (G & Hrd). pose proof (gd_inv _ _ _ (rd_good _ _ _ Hrd)) as Hi. fold s in Hi.
  pose proof (rd_ctr _ _ _ Hrd t) as Hc. fold s in Hc.
  assert (Hn : s_ticks s !! t <> None) by congruence.
  destruct (sync_spec s G t Hi Hn) as [(tr1 & c1 & E1 & Hi1 & Hc1 & _)|(Hu & s' & E)]; [|rewrite U64_val in Hu; lia].
  set (s1 := sync_st s G t tr1 c1) in *. specialize (Hc1 t). rewrite decide_True in Hc1 by reflexivity.
  assert (Hn1 : s_ticks s1 !! t <> None) by (unfold s1, sync_st; cbn [set_ticks s_ticks]; rewrite lookup_insert; discriminate).
  destruct (sync_spec s1 (gsync G t) t Hi1 Hn1) as [(tr2 & c2 & E2 & Hi2 & _)|(Hu & s' & E)].
  2:{ assert (nctr s1 t = unwrap_or (c1 !! t) 0) as E0 by reflexivity. rewrite U64_val in Hu. lia. }
  exists s1, (sync_st s1 (gsync G t) t tr2 c2). unfold sync_now. rewrite !(side_tv s G) by assumption. rewrite !(side_tv s1 (gsync G t)) by assumption.
  split; [exact E1|]. split; [exact E2|]. split; [reflexivity|]. intros d. cbv zeta. rewrite (side_tv s1 (gsync G t)) by assumption. rewrite (side_tv _ _ _ _ Hi2), gsync_eq.
  assert (Hcrc : g_crc (g_sync (gsync G t t d)) = g_crc (gsync G t t d)).
  { unfold g_sync at 1. destruct (Z.eqb_spec (g_last (gsync G t t d)) (g_F (gsync G t t d) + g_crc (gsync G t t d))) as [|Hne]; [reflexivity|]. cbn [g_crc].
    rewrite gsync_eq in *. unfold g_sync in *. destruct (Z.eqb_spec (g_last (G t d)) (g_F (G t d) + g_crc (G t d))); [contradiction|]. reflexivity. }
  cbn [tv_of tv_tal tv_ctt tv_etas tv_crc]. unfold g_open. rewrite sync_items, sync_F, Hcrc. auto.
Qed.
(** Skipping is harmless: when the fill position did not move since the last synchronisation, counting
    the unrealised cancels would not change the filled part of any order of that tick. *)
Theorem C24_skip_harmless :
  forall w0 h, start w0 -> history w0 h -> let s := w_st (run w0 h) in
  forall t ts ua ub id o, s_ticks s !! t = Some ts -> get_unrealized_cancels s t ts = Ok (ua, ub) ->
  order_of s t id = Some o -> let v := get_values ts (o_dir o) in
  tv_last v = tv_etas v ->
  filled_at (tv_etas v + match o_dir o with Ask => ua | Bid => ub end) o = filled_at (tv_etas v) o.
Proof.
  intros w0 h Hs Hh s t ts ua ub id o Ets Eu Eo v Hv. destruct (run_good w0 h Hs Hh) as (G & Hg). pose proof (gd_inv _ _ _ Hg) as Hi. fold s in Hi.
  pose proof (inv_tick_some _ _ _ _ Hi Ets) as ->. unfold v in *. rewrite get_ts_of in *. clear v.
  unfold get_unrealized_cancels in Eu. rewrite !get_ts_of in Eu.
  destruct (unrealized_spec s G t Ask Hi) as [EA _]. destruct (unrealized_spec s G t Bid Hi) as [EB _]. rewrite EA, EB in Eu. cbn [rbind] in Eu. injection Eu as <- <-.
  replace (match o_dir o with Ask => _ | Bid => _ end) with (greedy (g_F (G t (o_dir o)) * DEC) 0 (canl G t (o_dir o)) - g_crc (G t (o_dir o)) * DEC) by (destruct (o_dir o); reflexivity).
  destruct (oo_live _ _ _ _ (i_order _ _ Hi _ _ Eo)) as (n & c & Hl & Het). cbn [fst snd] in Hl. set (g := G t (o_dir o)) in *.
  pose proof (i_side _ _ Hi t (o_dir o)) as Hso. fold g in Hso. cbn [tv_of tv_last tv_etas] in *. pose proof DEC_pos.
  assert (Elast : g_last g = g_F g + g_crc g) by (clear -Hv H; nia).
  assert (ER : greedy (g_F g * DEC) 0 (canl G t (o_dir o)) = realc (g_F g) 0 0 (g_items g) * DEC).
  { rewrite greedy_real. unfold canl. rewrite <- (Z.mul_0_l DEC) at 1. rewrite scale_real. unfold g_cans. rewrite real_realc. reflexivity. }
  assert (Hsy : synced g).
  { pose proof (sync_ok g Hso) as [_ K]. unfold g_sync in K. rewrite Elast, Z.eqb_refl in K. exact K. }
  set (R := realc (g_F g) 0 0 (g_items g)) in *.
  assert (HP : side_ok (mkSide (g_items g) (g_F g) R (g_F g + g_crc g)) /\ synced (mkSide (g_items g) (g_F g) R (g_F g + g_crc g))).
  { pose proof Hso as [H1 H2 H3 H4 H5 H6]. pose proof (all_at_impl _ _ _ _ _ (item_ok_pos _ _ _) H1) as Hpos.
    pose proof (realc_bounds (g_F g) 0 0 _ Hpos) as Hb. pose proof (realc_ge _ _ _ _ _ _ H1 ltac:(lia)) as Hge. fold R in Hb, Hge.
    destruct (realc_ok _ _ _ _ _ (g_F g + g_crc g) _ _ H1 eq_refl) as [A B]. fold R in A, B. split; [|exact B]. split; cbn [g_items g_F g_crc g_last]; try lia; assumption. }
  destruct HP as [HP1 HP2]. destruct (fill_position _ _ _ _ _ Hso Hsy Hl) as (F1 & _). destruct (fill_position _ _ _ _ _ HP1 HP2 Hl) as (F2 & _). cbn [g_F g_crc] in F2.
  unfold filled_at. rewrite ER, Het. change ATOM with DEC.
  assert (M : forall x, Z.max 0 (Z.min (x * DEC - (n + c) * DEC) (o_quantity o * DEC)) = Z.max 0 (Z.min (x - (n + c)) (o_quantity o)) * DEC) by (clear -H; intros x; rewrite <- Z.mul_sub_distr_r; nia).
  replace ((g_F g + g_crc g) * DEC + (R * DEC - g_crc g * DEC)) with ((g_F g + R) * DEC) by lia. rewrite !M, F1, F2. reflexivity.
Qed.
Print Assumptions C24_skip_harmless.
(** Concrete case: ten units sold into the tick with six cancelled ranges. *)
Definition hist_mixed : list (env * call) := hist_cancelled ++ [sell "b" 5].
Example C23_case :
  let s := w_st (run w_start hist_mixed) in let Q := ideal_run w_start [] hist_mixed in
  history w_start hist_mixed /\ short hist_mixed /\ (exists ts, s_ticks s !! 0 = Some ts) /\
  side_values s 0 Bid = mkTV (D 3) (D 20) (D 5) 0 0 /\
  (open_at Q 0 Bid, sum_at en_placed Q 0 Bid, sum_at (fun e => en_filled e + en_settled e) Q 0 Bid, sum_at en_refunded Q 0 Bid) = (3, 20, 5, 12) /\
  match s_ticks s !! 0 with Some ts => get_unrealized_cancels s 0 ts = Ok (0, D 8) | None => False end /\
  side_values (fst (sync_now 0 s)) 0 Bid = mkTV (D 3) (D 20) (D 13) (D 8) (D 5).
Proof.
  split; [hist|]. split; [vm_compute; discriminate|]. split; [eexists; vm_compute; reflexivity|]. split; [vm_compute; reflexivity|].
  split; [vm_compute; reflexivity|]. split; vm_compute; reflexivity.
Qed.
(** The unqualified claim "the query predicts the next synchronisation" is false: here the query
    announces 50 but the synchronisation is skipped. *)
Definition hist_skip : list (env * call) := [place "a" 0 Bid 50 None; place "b" 0 Bid 20 None; cancel "a" 0 0].
Example C24_naive_refuted :
  let s := w_st (run w_start hist_skip) in
  history w_start hist_skip /\
  match s_ticks s !! 0 with Some ts => get_unrealized_cancels s 0 ts = Ok (0, D 50) /\ tv_last (get_values ts Bid) = tv_etas (get_values ts Bid) | None => False end /\
  side_values (fst (sync_now 0 s)) 0 Bid = side_values s 0 Bid /\
  (exists o, order_of s 0 1 = Some o /\ o_dir o = Bid).
Proof.
  split; [hist|]. split; [vm_compute; split; reflexivity|]. split; [vm_compute; reflexivity|]. eexists. split; vm_compute; reflexivity.
Qed.
