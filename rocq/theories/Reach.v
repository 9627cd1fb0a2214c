(** * Reach: the invariant holds in every reachable world. *)
From Verif Require Import Base Dec Types State TickMath Sumtree Tick Order Auth Contract World SpecMath TickMathProofs
  TreeDefs Exec SumtreeProofs SumtreeRebalance SumtreeInsert PrefixSum SumtreeRoot SumtreeFail Ghost Inv StepPlace StepCancel StepClaim SwapPlan StepSwap Trans Spec.

(** Instantiation: exact effect. *)
Definition st_init (quote base : string) : storage :=
  mkSt None (Some (mkBook quote base 0 MIN_TICK MAX_TICK)) ∅ ∅ ∅ ∅ ∅ ∅ None (Some 0) (Some DEFAULT_MAKER_FEE_RECIPIENT)
       (Some OSMOSIS_GOV_ADDR) None (Some CIRCUIT_BREAKER_SUBDAO_ADDR) None.

Lemma instantiate_inv e quote base s r :
  instantiate e quote base st_empty = (s, Ok r) ->
  s = st_init quote base /\ quote <> base /\ denom_ok e quote = true /\ denom_ok e base = true /\
  e_addr_valid e OSMOSIS_GOV_ADDR = true /\ e_addr_valid e CIRCUIT_BREAKER_SUBDAO_ADDR = true /\
  e_addr_valid e DEFAULT_MAKER_FEE_RECIPIENT = true.
Proof.
  unfold instantiate, create_orderbook, set_maker_fee, set_maker_fee_recipient, addr_validate. intros H.
  apply bind_inv in H as (u1 & s1 & H1 & H). apply mlift_inv in H1 as [-> H1]. apply rensure_inv in H1.
  rewrite bind_mod in H.
  apply bind_inv in H as (u2 & s1 & H2 & H). apply mlift_inv in H2 as [-> H2]. apply rensure_inv in H2.
  rewrite bind_mod in H. rewrite !bind_assoc in H.
  apply bind_inv in H as (u3 & s1 & H3 & H). apply mensure_inv in H3 as [-> H3]. rewrite bind_assoc in H.
  apply bind_inv in H as (u4 & s1 & H4 & H). apply mensure_inv in H4 as [-> H4]. rewrite bind_assoc in H.
  apply bind_inv in H as (u5 & s1 & H5 & H). apply mensure_inv in H5 as [-> H5]. rewrite bind_assoc in H.
  rewrite bind_mod in H. rewrite bind_assoc in H.
  apply bind_inv in H as (u6 & s1 & H6 & H).
  apply bind_inv in H6 as (u7 & s2 & H7 & H6). apply mensure_inv in H7 as [-> H7]. rewrite bind_mod in H6.
  apply mret_inv in H6 as [-> ->].
  apply bind_inv in H as (u8 & s1 & H8 & H).
  apply bind_inv in H8 as (u9 & s2 & H9 & H8). apply mensure_inv in H9 as [-> H9]. apply mmod_inv in H8. subst s1.
  apply mret_inv in H as [-> ->].
  apply negb_true_iff, bool_decide_eq_false in H3. split; [reflexivity|]. auto 10.
Qed.

Lemma canl0 t d : canl G0 t d = [].
Proof. reflexivity. Qed.

Lemma init_inv quote base : quote <> base -> inv (st_init quote base) G0.
Proof.
  intros Hne. split; cbn [st_init s_ticks s_nodes s_tree s_orders s_orderbook s_fee s_recipient].
  - intros t ts H. rewrite lookup_empty in H. discriminate.
  - reflexivity.
  - intros. apply side_ok0.
  - intros t. unfold nctr, st_init. cbn. rewrite lookup_empty. cbn. split.
    + intros d. exists []. constructor. intros id H. rewrite lookup_empty in H. discriminate.
    + intros q n H. rewrite lookup_empty in H. discriminate.
    + intros d id H. rewrite lookup_empty in H. discriminate.
    + lia.
    + intros q n H. rewrite lookup_empty in H. discriminate.
  - intros t. unfold nctr, st_init. cbn. rewrite lookup_empty. cbn. vm_compute. discriminate.
  - intros k o H. rewrite lookup_empty in H. discriminate.
  - intros t d id n c q H. cbn in H. inversion H.
  - intros t t' id o o' H. rewrite lookup_empty in H. discriminate.
  - unfold next_id. cbn. vm_compute. split; discriminate.
  - intros d. unfold get_directional_liquidity. cbn. rewrite lookup_empty, msum_empty. reflexivity.
  - eexists. split; [reflexivity|]. split; cbn; [assumption| | | |].
    + unfold valid_tick, MIN_TICK. lia.
    + unfold valid_tick, MAX_TICK. lia.
    + intros t ts H. rewrite lookup_empty in H. discriminate.
    + intros t ts H. rewrite lookup_empty in H. discriminate.
  - exists 0. split; [reflexivity|]. vm_compute. split; discriminate.
  - eauto.
  - intros t _. cbn. rewrite lookup_empty. split; [reflexivity|]. intros d. apply lookup_empty.
  - intros d. unfold get_directional_liquidity. cbn. rewrite lookup_empty. cbn. vm_compute. discriminate.
Qed.

(** One transaction. *)
Inductive stepped (e : env) (w : world) (G : ghost) (c : call) : world -> ghost -> outcome -> Prop :=
| S_failed : step e w c = (w, Failed) -> stepped e w G c w G Failed
| S_done r s' b' G' :
    step e w c = (mkWorld (w_self w) s' b', Done r) ->
    trans e (w_st w) G c r s' G' -> inv s' G' ->
    sends e (w_self w) (credits (w_bal w) (call_funds c)) (r_msgs r) = Some b' ->
    stepped e w G c (mkWorld (w_self w) s' b') G' (Done r).

Lemma step_stepped e w G c :
  inv (w_st w) G -> call_ok (w_self w) c = true -> exists G', stepped e w G c (fst (step e w c)) G' (snd (step e w c)).
Proof.
  intros Hi Hok. destruct (step e w c) as [w' o] eqn:Es. cbn [fst snd]. assert (Es' := Es). unfold step in Es.
  destruct (call_run e c (w_st w)) as [s' [r|er| |]] eqn:Ec.
  - destruct (sends _ _ _ _) as [b'|] eqn:Eb; injection Es as <- <-; [|exists G; constructor; assumption].
    destruct (call_trans _ _ _ _ _ _ _ Hi Hok Ec) as (G' & Ht & Hi'). exists G'. eapply S_done; eauto.
  - injection Es as <- <-. exists G; constructor; assumption.
  - injection Es as <- <-. exists G; constructor; assumption.
  - injection Es as <- <-. exists G; constructor; assumption.
Qed.

Lemma stepped_self e w G c w' G' o : stepped e w G c w' G' o -> w_self w' = w_self w.
Proof. intros []; reflexivity. Qed.
Lemma stepped_inv e w G c w' G' o : inv (w_st w) G -> stepped e w G c w' G' o -> inv (w_st w') G'.
Proof. intros Hi []; assumption. Qed.
Lemma stepped_step e w G c w' G' o : stepped e w G c w' G' o -> step e w c = (w', o).
Proof. intros []; assumption. Qed.

Lemma start_inv w : start w -> inv (w_st w) G0 /\ (exists q b, w_st w = st_init q b /\ q <> b) /\
  (forall denom, 0 <= bal_get (w_bal w) denom).
Proof.
  intros (e & self & quote & base & funds & H & Hf). unfold init_world in H.
  destruct (instantiate e quote base st_empty) as [s [r|er| |]] eqn:E; try discriminate. injection H as <-.
  apply instantiate_inv in E as (-> & Hne & _). cbn [w_st w_bal]. split; [apply init_inv; assumption|]. split; [eauto|].
  assert (Hb : forall (b : gmap string Z) l, (forall denom, 0 <= bal_get b denom) -> forallb coin_typed l = true ->
    forall denom, 0 <= bal_get (credits b l) denom).
  { clear. intros b l. revert b. induction l as [|c l IH]; intros b Hb Hl denom; cbn [credits foldl]; [apply Hb|].
    cbn in Hl. apply andb_prop in Hl as [Hc Hl]. unfold coin_typed, u128 in Hc. apply andb_prop in Hc as [Hc _]. apply Z.leb_le in Hc.
    apply IH; [|assumption]. intros dn. unfold credit, bal_get. destruct (decide (dn = c_denom c)) as [->|Hn].
    - rewrite lookup_insert. cbn. specialize (Hb (c_denom c)). unfold bal_get in Hb. lia.
    - rewrite lookup_insert_ne by congruence. apply Hb. }
  apply Hb; [|assumption]. intros denom. unfold bal_get. rewrite lookup_empty. cbn. lia.
Qed.

(** Induction over histories. *)
Lemma run_ind (P : world -> ghost -> ideal -> Prop) w0 h :
  start w0 -> history w0 h -> P w0 G0 [] ->
  (forall e w G Q c w' G' o, inv (w_st w) G -> call_ok (w_self w) c = true -> P w G Q ->
     stepped e w G c w' G' o -> P w' G' (ideal_step e w c Q)) ->
  exists G, inv (w_st (run w0 h)) G /\ P (run w0 h) G (ideal_run w0 [] h).
Proof.
  intros Hs Hh H0 Hstep. apply start_inv in Hs as [Hi _].
  assert (Hg : forall h w G Q, inv (w_st w) G -> history w h -> P w G Q ->
    exists G', inv (w_st (run w h)) G' /\ P (run w h) G' (ideal_run w Q h)).
  { clear Hh H0 Hi w0 h. induction h as [|[e c] h IH]; intros w G Q Hi Hh HP; cbn [run ideal_run]; [eauto|].
    apply Forall_cons in Hh as [Hc Hh]. cbn [snd] in Hc.
    destruct (step_stepped e w G c Hi Hc) as (G' & Hst). pose proof (stepped_self _ _ _ _ _ _ _ Hst) as Eself.
    eapply (IH _ G').
    - eapply stepped_inv; eauto.
    - unfold history in *. rewrite Eself. assumption.
    - eapply Hstep; eauto. }
  eapply Hg; eauto.
Qed.

Lemma reachable_start w : reachable w -> exists w0 h, start w0 /\ history w0 h /\ run w0 h = w.
Proof.
  intros (e & self & quote & base & funds & w0 & h & H1 & H2 & H3 & H4). exists w0, h.
  split; [exists e, self, quote, base, funds; auto|]. split; [|assumption].
  unfold history. assert (w_self w0 = self) as ->; [|assumption].
  unfold init_world in H1. destruct (instantiate _ _ _ _) as [s [r| | |]]; try discriminate. injection H1 as <-. reflexivity.
Qed.
Lemma start_reachable w0 h : start w0 -> history w0 h -> reachable (run w0 h).
Proof.
  intros (e & self & quote & base & funds & H & Hf) Hh. exists e, self, quote, base, funds, w0, h.
  split; [assumption|]. split; [assumption|]. split; [|reflexivity].
  unfold history in Hh. assert (w_self w0 = self) as <-; [|assumption].
  unfold init_world in H. destruct (instantiate _ _ _ _) as [s [r| | |]]; try discriminate. injection H as <-. reflexivity.
Qed.

Lemma reachable_inv w : reachable w -> exists G, inv (w_st w) G.
Proof.
  intros (w0 & h & Hs & Hh & <-)%reachable_start.
  destruct (run_ind (fun _ _ _ => True) w0 h Hs Hh I ltac:(auto)) as (G & Hi & _). eauto.
Qed.

(** Node ids: at most 200 per call. *)
Lemma trans_ctr e s G c r s' G' t : trans e s G c r s' G' -> nctr s t <= nctr s' t <= nctr s t + 200.
Proof.
  intros H. destruct H as [i t0 d q b ob Hq Hp Ha|i t0 id ob o n cc m' tr' c' Ha A1 A2 A3 A4 A5 A6 A7 A8|i t0 id ob s' G' a ms o Ha A1 A2 A3
    |i l ob s' G' ms es Ha A1 A2 A3 A4|i m r s' A1 A2 A3 A4|cl sender tin outd mn fee target d ob l fs rest pr Ha A1 A2 A3 A4 A5 A6 A7
    |m r s' Ha A1 A2 A3 A4 A5 A6 A7|cl A].
  - unfold place_st, nctr. cbn. lia.
  - specialize (A8 t). unfold cancel_st. unfold nctr at 2 3. cbn. destruct (decide _); lia.
  - apply claim1_frame in A3 as (_ & _ & _ & _ & A). specialize (A t). destruct (decide _); lia.
  - apply claims_frame in A4 as (_ & _ & _ & _ & A). specialize (A t). unfold MAX_BATCH_CLAIM in A3. lia.
  - unfold nctr. rewrite (sb_ctr _ _ A2). lia.
  - unfold nctr, swap_st. cbn. lia.
  - unfold nctr. rewrite (sb_ctr _ _ A3). lia.
  - lia.
Qed.

Lemma run_ctr w0 h t : start w0 -> history w0 h -> nctr (w_st (run w0 h)) t <= 200 * Z.of_nat (length h).
Proof.
  intros Hs Hh. assert (Hi := start_inv _ Hs). destruct Hi as (Hi & (q & b & Es & _) & _).
  assert (E0 : nctr (w_st w0) t = 0) by (rewrite Es; unfold nctr; cbn; rewrite lookup_empty; reflexivity).
  assert (Hg : forall h w G, inv (w_st w) G -> history w h -> nctr (w_st (run w h)) t <= nctr (w_st w) t + 200 * Z.of_nat (length h)).
  { clear. induction h as [|[e c] h IH]; intros w G Hi Hh; cbn [run length]; [lia|].
    apply Forall_cons in Hh as [Hc Hh]. cbn [snd] in Hc.
    destruct (step_stepped e w G c Hi Hc) as (G' & Hst). pose proof (stepped_self _ _ _ _ _ _ _ Hst) as Eself.
    specialize (IH (fst (step e w c)) G'). assert (nctr (w_st (fst (step e w c))) t <= nctr (w_st w) t + 200).
    { destruct Hst as [_|r s' b' G' _ Ht _ _]; [lia|]. apply (trans_ctr _ _ _ _ _ _ _ t) in Ht. cbn [w_st]. lia. }
    assert (Hh' : history (fst (step e w c)) h) by (unfold history in *; rewrite Eself; assumption).
    specialize (IH (stepped_inv _ _ _ _ _ _ _ Hi Hst) Hh'). lia. }
  specialize (Hg h w0 G0 Hi Hh). lia.
Qed.
