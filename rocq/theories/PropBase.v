(** * PropBase: facts about histories shared by the property files. *)
From Verif Require Import Base Dec Types State TickMath Sumtree Tick Order Auth Contract World SpecMath TickMathProofs
  TreeDefs Exec SumtreeProofs SumtreeRebalance SumtreeInsert PrefixSum SumtreeRoot SumtreeFail Ghost Inv StepPlace StepCancel StepClaim
  SwapPlan StepSwap Trans Spec Reach Refine RefineStep Reserve Solvency Books.

(** ** Concatenating histories *)
Lemma run_app w h1 h2 : run w (h1 ++ h2) = run (run w h1) h2.
Proof. revert w. induction h1 as [|[e c] h1 IH]; intros w; cbn [run app]; auto. Qed.
Lemma ideal_run_app w Q h1 h2 : ideal_run w Q (h1 ++ h2) = ideal_run (run w h1) (ideal_run w Q h1) h2.
Proof. revert w Q. induction h1 as [|[e c] h1 IH]; intros w Q; cbn [run ideal_run app]; auto. Qed.
Lemma step_self e w c : w_self (fst (step e w c)) = w_self w.
Proof.
  unfold step. destruct (call_run e c (w_st w)) as [s' [r| | |]]; try reflexivity. destruct (sends _ _ _ _); reflexivity.
Qed.
Lemma run_self w h : w_self (run w h) = w_self w.
Proof. revert w. induction h as [|[e c] h IH]; intros w; cbn [run]; [reflexivity|]. rewrite IH. apply step_self. Qed.
Lemma history_app w h1 h2 : history w (h1 ++ h2) <-> history w h1 /\ history (run w h1) h2.
Proof. unfold history. rewrite Forall_app, run_self. reflexivity. Qed.
Lemma run_last w h e c : run w (h ++ [(e, c)]) = fst (step e (run w h) c).
Proof. rewrite run_app. reflexivity. Qed.
Lemma ideal_run_last w Q h e c : ideal_run w Q (h ++ [(e, c)]) = ideal_step e (run w h) c (ideal_run w Q h).
Proof. rewrite ideal_run_app. reflexivity. Qed.
Lemma step_failed e w c w' : step e w c = (w', Failed) -> w' = w.
Proof.
  unfold step. destruct (call_run e c (w_st w)) as [s' [r| | |]]; try congruence. destruct (sends _ _ _ _); congruence.
Qed.
Lemma step_reach e w c : reachable w -> call_ok (w_self w) c = true -> reachable (fst (step e w c)).
Proof.
  intros (w0 & h & Hs & Hh & <-)%reachable_start Hok. rewrite <- run_last. apply start_reachable; [assumption|].
  apply history_app. split; [assumption|]. apply Forall_cons. split; [assumption|constructor].
Qed.
Lemma reach_good w : reachable w -> exists w0 h G, start w0 /\ history w0 h /\ run w0 h = w /\ good w G (ideal_run w0 [] h).
Proof.
  intros (w0 & h & Hs & Hh & <-)%reachable_start. destruct (run_good w0 h Hs Hh) as (G & Hg). eauto 10.
Qed.
Lemma run_reach w h : reachable w -> history w h -> reachable (run w h).
Proof.
  revert w. induction h as [|[e c] h IH]; intros w Hr Hh; cbn [run]; [assumption|]. apply Forall_cons in Hh as [Hc Hh].
  apply IH; [apply step_reach; assumption|]. unfold history. rewrite step_self. assumption.
Qed.
Lemma step_good e w G Q c : good w G Q -> call_ok (w_self w) c = true -> exists G', good (fst (step e w c)) G' (ideal_step e w c Q) /\
  stepped e w G c (fst (step e w c)) G' (snd (step e w c)).
Proof.
  intros [Hi Hr Hsol] Hok. destruct (step_stepped e w G c Hi Hok) as (G' & Hst). exists G'. split; [|assumption]. split.
  - eapply stepped_inv; eauto.
  - eapply ref_step; eauto.
  - eapply solvent_step; eauto.
Qed.
(** A completed transaction: transition, invariant and bank transfers. *)
Lemma step_done e w G c w' r :
  inv (w_st w) G -> call_ok (w_self w) c = true -> step e w c = (w', Done r) ->
  exists G', trans e (w_st w) G c r (w_st w') G' /\ inv (w_st w') G' /\ w_self w' = w_self w /\
    sends e (w_self w) (credits (w_bal w) (call_funds c)) (r_msgs r) = Some (w_bal w').
Proof.
  intros Hi Hok E. destruct (step_stepped e w G c Hi Hok) as (G' & Hst). rewrite E in Hst. cbn [fst snd] in Hst.
  inversion Hst; subst. exists G'. auto.
Qed.
Lemma step_ok e w c s' r b' :
  call_run e c (w_st w) = (s', Ok r) -> sends e (w_self w) (credits (w_bal w) (call_funds c)) (r_msgs r) = Some b' ->
  step e w c = (mkWorld (w_self w) s' b', Done r).
Proof. intros E1 E2. unfold step. rewrite E1, E2. reflexivity. Qed.

(** ** Bounds *)
Definition tot (g : side) : Z := nfs (g_items g) + cns (g_items g).
Lemma tot_sync G t t' d : tot (gsync G t t' d) = tot (G t' d).
Proof. unfold tot. rewrite gsync_items. reflexivity. Qed.
Lemma gset_at (P : side -> Prop) G t d g t' d' :
  (t' = t -> d' = d -> P g) -> (t' <> t \/ d' <> d -> P (G t' d')) -> P (gset G t d g t' d').
Proof. intros H1 H2. unfold gset. destruct (decide _) as [[-> ->]|Hn]; [auto|]. apply H2.
  destruct (decide (t' = t)); [right|left]; tauto. Qed.
Lemma claim1_tot sender s G t id s' G' x t' d' : inv s G -> claim1 sender s G t id s' G' x -> tot (G' t' d') = tot (G t' d').
Proof.
  intros Hi []. unfold gclaim. apply (gset_at (fun g => tot g = tot (G t' d'))); [|intros; apply tot_sync].
  intros -> ->. rewrite <- (tot_sync G t), <- (gsync_eq G t). unfold tot.
  destruct (claim_sums (gsync G t t (o_dir o)) id n c (o_quantity o) f) as (-> & -> & _); [apply gsync_side, Hi|rewrite gsync_lives; assumption|reflexivity].
Qed.
Lemma miss1_tot s G t id s' G' t' d' : miss1 s G t id s' G' -> tot (G' t' d') = tot (G t' d').
Proof. intros []; [reflexivity|apply tot_sync]. Qed.
Lemma claims_tot ob sender s G l s' G' ms es t' d' : claims ob sender s G l s' G' ms es -> tot (G' t' d') = tot (G t' d').
Proof.
  induction 1 as [s G|s G t id l s1 G1 s2 G2 ms es Hi Hm Hi1 Hc IH|s G t id l s1 G1 a bank o s2 G2 ms es Hi Hm Hi1 Hc IH]; [reflexivity| |]; rewrite IH.
  - eapply miss1_tot; eauto.
  - eapply claim1_tot; eauto.
Qed.
Lemma gfills_items G od fs t d : g_items (gfills G od fs t d) = g_items (G t d).
Proof. unfold gfills. destruct (decide _); reflexivity. Qed.

(** Every value placed at a tick is bounded by the number of orders. *)
Lemma trans_tot e s G c r s' G' t d : inv s G -> trans e s G c r s' G' ->
  next_id s <= next_id s' <= next_id s + 1 /\
  tot (G' t d) <= tot (G t d) + U128_MAX * (next_id s' - next_id s).
Proof.
  intros Hi H. destruct H as [i t0 d0 q b ob Hq Hp Ha|i t0 id ob o n cc m' tr' c' Ha A1 A2 A3 A4 A5 A6 A7 A8|i t0 id ob s' G' a ms o Ha A1 A2 A3
    |i l ob s' G' ms es Ha A1 A2 A3 A4|i m r s' A1 A2 A3 A4|cl sender tin outd mn fee target d0 ob l fs rest pr Ha A1 A2 A3 A4 A5 A6 A7
    |m r s' Ha A1 A2 A3 A4 A5 A6 A7|cl A].
  - assert (E : next_id (place_st s G ob e i t0 d0 q b) = next_id s + 1) by reflexivity. rewrite E. split; [lia|].
    apply (gset_at (fun g => tot g <= tot (G t d) + U128_MAX * (next_id s + 1 - next_id s))); [|unfold U128_MAX; lia].
    intros -> ->. unfold tot, g_place. cbn [g_items]. rewrite nfs_app, cns_app. cbn. lia.
  - assert (E : next_id (cancel_st s G t0 o m' tr' c') = next_id s) by reflexivity. rewrite E. split; [lia|].
    unfold gcancel. apply (gset_at (fun g => tot g <= tot (G t d) + U128_MAX * (next_id s - next_id s))); [|intros; rewrite tot_sync; lia].
    intros -> ->. rewrite <- (tot_sync G t0), <- (gsync_eq G t0). unfold tot.
    destruct (cancel_open (gsync G t0 t0 (o_dir o)) id n cc (o_quantity o)) as (_ & ->); [apply gsync_side, Hi|rewrite gsync_lives; assumption|lia].
  - pose proof (claim1_tot _ _ _ _ _ _ _ _ t d Hi A3) as ->. apply claim1_frame in A3 as (_ & _ & E & _). unfold next_id. rewrite E. lia.
  - pose proof (claims_tot _ _ _ _ _ _ _ _ _ t d A4) as ->. apply claims_frame in A4 as (_ & _ & E & _). unfold next_id. rewrite E. lia.
  - unfold next_id. rewrite (sb_id _ _ A2). lia.
  - assert (E : next_id (swap_st s G ob (opposite d0) fs) = next_id s) by reflexivity. rewrite E. unfold tot. rewrite gfills_items. lia.
  - unfold next_id. rewrite (sb_id _ _ A3). lia.
  - lia.
Qed.

(** Each call places at most one order. *)
Lemma ideal_step_length e w c Q : (length (ideal_step e w c Q) <= length Q + 1)%nat.
Proof.
  unfold ideal_step. destruct (step e w c) as [w' [r|]]; [|lia].
  assert (Hf : forall Q x, length (ideal_fill x Q) = length Q) by (clear; induction Q; intros; cbn; auto).
  assert (Hc : forall l Q, length (foldl (fun Q ev => ideal_claim (ce_tick ev) (ce_id ev) Q) Q l) = length Q).
  { clear. induction l as [|a l IH]; intros Q; cbn [foldl]; [reflexivity|]. rewrite IH. unfold ideal_claim. apply map_length. }
  destruct c as [i [| | | |]|[]| |]; rewrite ?Hf, ?Hc; unfold ideal_place, ideal_cancel, ideal_claim; rewrite ?app_length, ?map_length; cbn; lia.
Qed.
Lemma ideal_run_length w Q h : (length (ideal_run w Q h) <= length Q + length h)%nat.
Proof.
  revert w Q. induction h as [|[e c] h IH]; intros w Q; cbn [ideal_run length]; [lia|].
  pose proof (IH (fst (step e w c)) (ideal_step e w c Q)). pose proof (ideal_step_length e w c Q). lia.
Qed.

Record small (h : list (env * call)) (w : world) (G : ghost) (Q : ideal) : Prop := {
  sm_next : next_id (w_st w) <= Z.of_nat (length h);
  sm_len : Z.of_nat (length Q) <= Z.of_nat (length h);
  sm_tot : forall t d, tot (G t d) <= U128_MAX * Z.of_nat (length h);
  sm_ctr : forall t, nctr (w_st w) t <= 200 * Z.of_nat (length h)
}.
Theorem run_small w0 h : start w0 -> history w0 h -> exists G, good (run w0 h) G (ideal_run w0 [] h) /\ small h (run w0 h) G (ideal_run w0 [] h).
Proof.
  intros Hs Hh. destruct (start_inv _ Hs) as (Hi0 & (q & b & Es & _) & _).
  assert (H0 : exists G, good w0 G (ideal_run w0 [] [])) by (apply (run_good w0 []); [assumption|constructor]).
  assert (Hg : forall h' w G Q n, good w G Q -> history w h' -> next_id (w_st w) <= n -> (forall t d, tot (G t d) <= U128_MAX * n) ->
     exists G', good (run w h') G' (ideal_run w Q h') /\ next_id (w_st (run w h')) <= n + Z.of_nat (length h') /\
      (forall t d, tot (G' t d) <= U128_MAX * (n + Z.of_nat (length h')))).
  { clear. induction h' as [|[e c] h IH]; intros w G Q n Hg Hh Hn Ht; cbn [run ideal_run length].
    - exists G. rewrite Z.add_0_r. auto.
    - apply Forall_cons in Hh as [Hc Hh]. cbn [snd] in Hc. destruct (step_good e w G Q c Hg Hc) as (G' & Hg' & Hst).
      destruct (IH (fst (step e w c)) G' (ideal_step e w c Q) (n + 1)) as (G2 & K1 & K2 & K3).
      + assumption.
      + unfold history. rewrite step_self. assumption.
      + destruct Hst as [_|r s' b' G' _ Htr _ _]; [lia|]. pose proof (trans_tot _ _ _ _ _ _ _ 0 Bid (gd_inv _ _ _ Hg) Htr). cbn [w_st]. lia.
      + intros t d. specialize (Ht t d). destruct Hst as [_|r s' b' G' _ Htr _ _]; [unfold U128_MAX in *; lia|].
        pose proof (trans_tot _ _ _ _ _ _ _ t d (gd_inv _ _ _ Hg) Htr) as [A B]. unfold U128_MAX in *. nia.
      + exists G2. split; [assumption|]. rewrite Nat2Z.inj_succ. replace (n + Z.succ (Z.of_nat (length h))) with (n + 1 + Z.of_nat (length h)) by lia. auto. }
  destruct (Hg h w0 G0 [] 0) as (G & K1 & K2 & K3).
  - split; [assumption| |apply solvent_start; assumption]. apply refines0. rewrite Es. reflexivity.
  - assumption.
  - rewrite Es. cbn. lia.
  - intros t d. rewrite Z.mul_0_r. vm_compute. discriminate.
  - exists G. split; [assumption|]. split.
    + lia.
    + pose proof (ideal_run_length w0 [] h). cbn in H. lia.
    + intros t d. specialize (K3 t d). rewrite Z.add_0_l in K3. assumption.
    + intros t. apply run_ctr; assumption.
Qed.

(** Open interest is bounded by the number of orders. *)
Lemma ideal_sum_le f Q m : (forall e, e ∈ Q -> f e <= m) -> ideal_sum f Q <= m * Z.of_nat (length Q).
Proof.
  induction Q as [|e Q IH]; intros H; cbn [ideal_sum foldr length]; [lia|]. fold (ideal_sum f Q).
  specialize (IH ltac:(intros; apply H; constructor; assumption)). specialize (H e ltac:(constructor)). lia.
Qed.
Lemma open_dir_bound s G Q d : refines s G Q -> open_dir Q d <= U128_MAX * Z.of_nat (length Q).
Proof.
  intros Hr. unfold open_dir. apply ideal_sum_le. intros e He. pose proof (rf_entry _ _ _ Hr _ He) as [_ K1 K2 K3 K4 K5 K6 _ _].
  destruct (bool_decide _); [lia|]. unfold U128_MAX. lia.
Qed.

(** ** Balances and transfers *)
Lemma step_nonneg e w c : (forall denom, 0 <= bal_get (w_bal w) denom) -> call_ok (w_self w) c = true ->
  forall denom, 0 <= bal_get (w_bal (fst (step e w c))) denom.
Proof.
  intros Hb Hok denom. unfold step. destruct (call_run e c (w_st w)) as [s' [r| | |]]; try apply Hb.
  destruct (sends _ _ _ _) as [b'|] eqn:E; [|apply Hb]. cbn [fst w_bal].
  assert (Hc : 0 <= bal_get (credits (w_bal w) (call_funds c)) denom).
  { rewrite credits_get. pose proof (coins_nonneg denom _ (call_funds_typed _ _ Hok)). specialize (Hb denom). lia. }
  revert Hc E. generalize (credits (w_bal w) (call_funds c)). generalize (r_msgs r). clear. intros l.
  induction l as [|m l IH]; intros b Hc E; [injection E as <-; assumption|].
  apply sends_cons in E as (b1 & H1 & E). eapply IH; [|exact E]. apply (send1_get _ _ _ _ _ denom) in H1 as [A B]. rewrite B.
  destruct (bool_decide_reflect (c_denom (sm_coin m) = denom)) as [<-|]; cbn [andb]; [destruct (negb _)|]; lia.
Qed.
Lemma reach_nonneg w : reachable w -> forall denom, 0 <= bal_get (w_bal w) denom.
Proof.
  intros (w0 & h & Hs & Hh & <-)%reachable_start. destruct (start_inv _ Hs) as (_ & _ & H0). clear Hs.
  revert w0 Hh H0. induction h as [|[e c] h IH]; intros w Hh H0; cbn [run]; [assumption|]. apply Forall_cons in Hh as [Hc Hh].
  apply IH; [unfold history; rewrite step_self; assumption|]. intros denom. apply step_nonneg; assumption.
Qed.
Lemma req_nonneg s G B d : inv s G -> epochs_ok G B -> 0 <= req s G B d.
Proof.
  intros Hi HB. unfold req. apply ksum_nonneg. intros t [ts E]. destruct (i_some _ _ Hi _ _ E) as [Ht _]. unfold rq.
  pose proof (g_open_nonneg _ (i_side _ _ Hi t d)).
  pose proof (reserve_covers (opposite d) (tick_price t) (B t (opposite d)) (G t (opposite d)) (i_side _ _ Hi _ _) (HB _ _) (tick_price_pos t Ht)) as Hc.
  enough (0 <= sumL (fun n q => gross (opposite d) (fifo (g_F (G t (opposite d))) n q) (tick_price t)) (g_lives (G t (opposite d)))) by lia.
  clear -Ht. pose proof (tick_price_pos t Ht) as Hp. induction (g_lives (G t (opposite d))) as [|[id [[n c] q]] L IH]; cbn; [lia|].
  enough (0 <= gross (opposite d) (fifo (g_F (G t (opposite d))) n q) (tick_price t)) by lia.
  assert (0 <= fifo (g_F (G t (opposite d))) n q) by (unfold fifo; lia). unfold gross, ask_gross, bid_gross, floor_div.
  destruct (opposite d); apply Z.div_pos; unfold ATOM; nia.
Qed.
Definition paid_in (s : storage) (l : list submsg) : Prop := Forall (fun m => exists d, c_denom (sm_coin m) = den s d) l.
Lemma paid_other s l denom : paid_in s l -> (forall d, denom <> den s d) -> msgs_in denom l = 0.
Proof.
  intros H Hn. induction H as [|m l (d & E) Hl IH]; cbn; [reflexivity|]. rewrite bool_decide_false; [lia|]. intros <-. apply (Hn d). assumption.
Qed.
Lemma send_nonzero_paid s id to d a : paid_in s (send_nonzero id to (den s d) a).
Proof. unfold send_nonzero. destruct (a =? 0); constructor; [cbn; eauto|constructor]. Qed.
Lemma claim1_paid sender s G t id s' G' a ms o : claim1 sender s G t id s' G' (a, ms, o) -> paid_in s ms.
Proof.
  intros H. inversion H; subst. rewrite opp_denom, <- (den_eq s ob) by assumption. unfold claim_msgs, paid_in.
  repeat apply Forall_app_2; apply send_nonzero_paid.
Qed.
Lemma claims_paid ob sender s G l s' G' ms es : claims ob sender s G l s' G' ms es -> paid_in s ms.
Proof.
  induction 1 as [s G|s G t id l s1 G1 s2 G2 ms es Hi Hm Hi1 Hc IH|s G t id l s1 G1 a bank o s2 G2 ms es Hi Hm Hi1 Hc IH]; [constructor| |].
  - apply miss1_frame in Hm as (_ & E & _). unfold paid_in, deposit_denom in *. rewrite E in IH. assumption.
  - apply Forall_app_2; [eapply claim1_paid; eauto|]. apply claim1_frame in Hm as (_ & E & _). unfold paid_in, deposit_denom in *. rewrite E in IH. assumption.
Qed.
Lemma trans_paid e s G c r s' G' : inv s G -> trans e s G c r s' G' -> paid_in s (r_msgs r).
Proof.
  intros Hi H. destruct H as [i t0 d0 q b ob Hq Hp Ha|i t0 id ob o n cc m' tr' c' Ha A1 A2 A3 A4 A5 A6 A7 A8|i t0 id ob s' G' a ms o Ha A1 A2 A3
    |i l ob s' G' ms es Ha A1 A2 A3 A4|i m r s' A1 A2 A3 A4|cl sender tin outd mn fee target d0 ob l fs rest pr Ha A1 A2 A3 A4 A5 A6 A7
    |m r s' Ha A1 A2 A3 A4 A5 A6 A7|cl A].
  - constructor.
  - constructor; [|constructor]. exists (o_dir o). rewrite (den_eq _ _ _ A1). reflexivity.
  - eapply claim1_paid; eauto.
  - eapply claims_paid; eauto.
  - rewrite A3. constructor.
  - assert (Hob : ob_quote ob <> ob_base ob).
    { destruct (i_book _ _ Hi) as (ob' & E & [Hne _ _ _ _]). rewrite A2 in E. injection E as <-. assumption. }
    destruct (direction_denom _ _ _ _ Hob A5) as [D1 D2]. cbn [swap_resp r_msgs]. constructor.
    + exists (opposite d0). rewrite (den_eq _ _ _ A2), <- opp_denom. cbn. congruence.
    + destruct (rest =? 0); constructor; [|constructor]. exists d0. rewrite (den_eq _ _ _ A2). cbn. congruence.
  - rewrite A6. constructor.
  - constructor.
Qed.

(** A call whose code succeeds is not stopped by its transfers, as long as each is positive
    and the recipients are not blocked. *)
Lemma trans_sends e w G c r s' G' :
  reachable w -> solvent w G -> inv (w_st w) G -> call_ok (w_self w) c = true -> trans e (w_st w) G c r s' G' -> inv s' G' ->
  Forall (fun m => 0 < c_amount (sm_coin m) /\ e_bank_ok e (sm_to m) = true) (r_msgs r) ->
  exists b', sends e (w_self w) (credits (w_bal w) (call_funds c)) (r_msgs r) = Some b'.
Proof.
  intros Hre (B & HB & HB0 & Hs) Hi Hok Ht Hi' Hm. apply sends_ok; [assumption|]. intros denom. rewrite credits_get.
  pose proof (reach_nonneg _ Hre denom) as Hnn. pose proof (coins_nonneg denom _ (call_funds_typed _ _ Hok)) as Hc.
  destruct (trans_req _ _ _ _ _ _ _ _ B Hi Hok Ht HB HB0) as (B' & H1 & H2 & H3).
  assert (Hcov : forall d, msgs_in (den (w_st w) d) (r_msgs r) <= bal_get (w_bal w) (den (w_st w) d) + coins_in (den (w_st w) d) (call_funds c)).
  { intros d. specialize (H3 d). specialize (Hs d). pose proof (req_nonneg _ _ _ d Hi' H1). lia. }
  destruct (decide (denom = den (w_st w) Bid)) as [->|N1]; [apply Hcov|].
  destruct (decide (denom = den (w_st w) Ask)) as [->|N2]; [apply Hcov|].
  rewrite (paid_other (w_st w)); [lia|eapply trans_paid; eauto|]. intros []; assumption.
Qed.

(** ** Activity *)
Lemma active_ne s : active s = true <-> s_active s <> Some false.
Proof. unfold active. destruct (s_active s) as [[]|]; cbn; split; congruence. Qed.
Lemma ensure_active s : active s = true -> ensure_is_active s = (s, Ok tt).
Proof. unfold active, ensure_is_active. rewrite bind_read. intros ->. reflexivity. Qed.

(** The world of a history of realistic length. *)
Record ready (w : world) (G : ghost) (Q : ideal) : Prop := {
  rd_reach : reachable w;
  rd_good : good w G Q;
  rd_next : next_id (w_st w) <= 2 ^ 56;
  rd_tot : forall t d, tot (G t d) <= U128_MAX * 2 ^ 56;
  rd_len : Z.of_nat (length Q) <= 2 ^ 56;
  rd_ctr : forall t, nctr (w_st w) t <= 200 * 2 ^ 56
}.
Lemma short_ready w0 h : start w0 -> history w0 h -> short h -> exists G, ready (run w0 h) G (ideal_run w0 [] h).
Proof.
  intros Hs Hh Hsh. destruct (run_small w0 h Hs Hh) as (G & Hg & [B1 B2 B3 B4]). exists G. unfold short in Hsh.
  split; [apply start_reachable; assumption|assumption|lia| |lia|].
  - intros t d. specialize (B3 t d). unfold U128_MAX in *. lia.
  - intros t. specialize (B4 t). lia.
Qed.

(** ** The transition of each kind of call *)
Ltac tinv := intros H; inversion H; subst; try discriminate; try match goal with A : _ = CMigrate \/ _ |- _ => destruct A as [A|[? A]]; discriminate A end.
Lemma trans_place e s G i t d q b r s' G' : trans e s G (CExec i (PlaceLimit t d q b)) r s' G' ->
  exists ob, q <= U128_MAX /\ place_pre s G ob i t d q b /\ s_active s <> Some false /\
    r = place_resp ob i t d (next_id s) q /\ s' = place_st s G ob e i t d q b /\ G' = gset G t d (g_place (G t d) (next_id s) q).
Proof. tinv. eauto 10. Qed.
Lemma trans_cancel e s G i t id r s' G' : trans e s G (CExec i (CancelLimit t id)) r s' G' ->
  exists ob o n c m' tr' c', s_active s <> Some false /\
    s_orderbook s = Some ob /\ s_orders s !! (t, id) = Some o /\ i_funds i = [] /\ i_sender i = o_owner o /\
    (id, (n, c, o_quantity o)) ∈ g_lives (G t (o_dir o)) /\ o_etas o = (n + c) * DEC /\
    g_F (G t (o_dir o)) <= n /\ r = cancel_resp ob i t id o /\ s' = cancel_st s G t o m' tr' c' /\ G' = gcancel G t (o_dir o) id.
Proof. tinv. eauto 20. Qed.
Lemma trans_claim e s G i t id r s' G' : trans e s G (CExec i (ClaimLimit t id)) r s' G' ->
  exists ob a ms o, s_active s <> Some false /\ s_orderbook s = Some ob /\ i_funds i = [] /\ claim1 (i_sender i) s G t id s' G' (a, ms, o) /\
    r = mkResp [("method", AStr "claimLimit")]
              [generate_claimed_order_event (i_sender i) o a (get_expected_denom ob (o_dir o)) (get_opposite_denom ob (o_dir o))] ms None.
Proof. tinv. eauto 20. Qed.
Lemma trans_batch e s G i l r s' G' : trans e s G (CExec i (BatchClaim l)) r s' G' ->
  exists ob ms es, s_active s <> Some false /\ s_orderbook s = Some ob /\ i_funds i = [] /\ Z.of_nat (length l) <= MAX_BATCH_CLAIM /\
    claims ob (i_sender i) s G l s' G' ms es /\
    r = mkResp [("method", AStr "batchClaimLimit"); ("sender", AStr (i_sender i))] es ms None.
Proof. tinv. eauto 20. Qed.
Lemma trans_auth e s G i m r s' G' : trans e s G (CExec i (AuthMsg m)) r s' G' ->
  auth_dispatch e i m s = (s', Ok r) /\ same_book s s' /\ r_msgs r = [] /\ r_events r = [] /\ G' = G.
Proof. tinv. eauto 20. Qed.
Lemma trans_swap e s G cl sender tin outd mn fee target r s' G' :
  swap_args cl = Some (sender, tin, outd, mn, fee, target) -> trans e s G cl r s' G' ->
  exists d ob l fs rest pr, s_active s <> Some false /\ s_orderbook s = Some ob /\ fee = 0 /\ e_addr_valid e sender = true /\
    direction_from_pair ob (c_denom tin) outd = Ok d /\
    swap_pre s G ob d (swap_bound d target) (c_amount tin) l fs rest pr /\ mn <= sum_out fs /\
    r = swap_resp sender tin outd mn (sum_out fs) rest outd /\ s' = swap_st s G ob (opposite d) fs /\ G' = gfills G (opposite d) fs.
Proof.
  intros E H. destruct H as [i t0 d0 q b ob Hq Hp Ha|i t0 id ob o n cc m' tr' c' Ha A1 A2 A3 A4 A5 A6 A7 A8|i t0 id ob s' G' a ms o Ha A1 A2 A3
    |i l ob s' G' ms es Ha A1 A2 A3 A4|i m r s' A1 A2 A3 A4|cl sender' tin' outd' mn' fee' target' d0 ob l fs rest pr Ha A1 A2 A3 A4 A5 A6 A7
    |m r s' Ha A1 A2 A3 A4 A5 A6 A7|cl A]; try discriminate.
  - rewrite E in A1. injection A1 as <- <- <- <- <- <-. exists d0, ob, l, fs, rest, pr. auto 20.
  - congruence.
  - destruct A as [->|[c ->]]; discriminate.
Qed.
