(** * Property C49: what an order earns over its whole life. *)
From Verif Require Import Base Dec Types State TickMath Sumtree Tick Order Auth Contract Query World SpecMath TickMathProofs
  TreeDefs Exec SumtreeProofs SumtreeRebalance SumtreeInsert PrefixSum SumtreeRoot SumtreeFail Ghost Inv StepPlace StepCancel StepClaim
  SwapPlan StepSwap Trans Spec Reach Refine RefineStep Reserve Solvency Books SpecProps PropBase Tests PropOrders PropClaims PropBooks SpecLife.

Definition mine (t id : Z) (l : list claim_event) : list claim_event := List.filter (fun ev => (ce_tick ev =? t) && (ce_id ev =? id)) l.
Lemma mine_app t id l1 l2 : mine t id (l1 ++ l2) = mine t id l1 ++ mine t id l2.
Proof. apply List.filter_app. Qed.
Lemma earned_app l1 l2 : earned (l1 ++ l2) = earned l1 + earned l2.
Proof. induction l1 as [|x l1 IH]; cbn; [reflexivity|]. fold (earned (l1 ++ l2)) (earned l1). lia. Qed.
Definition lkey (en : entry) : Z * Z * dir * Z := (en_tick en, en_id en, en_dir en, en_settled en).
Definition fair_key (evs : list claim_event) (k : Z * Z * dir * Z) : Prop :=
  let '(t, id, d, se) := k in let l := mine t id evs in fair d t se (Z.of_nat (length l)) (earned l).
Record life (Q : ideal) (evs : list claim_event) : Prop := {
  lf_fair : forall k, k ∈ map lkey Q -> fair_key evs k;
  lf_known : forall ev, ev ∈ evs -> exists k, k ∈ map lkey Q /\ ce_tick ev = k.1.1.1 /\ ce_id ev = k.1.1.2
}.
Lemma life_key Q Q' evs : map lkey Q' = map lkey Q -> life Q evs -> life Q' evs.
Proof. intros E [H1 H2]. split; rewrite E; assumption. Qed.
Lemma cancel_key t id Q : map lkey (ideal_cancel t id Q) = map lkey Q.
Proof. unfold ideal_cancel. rewrite map_map. apply map_ext. intros en. destruct (en_is t id en); reflexivity. Qed.
Lemma fill_key Q : forall x, map lkey (ideal_fill x Q) = map lkey Q.
Proof. induction Q as [|en Q IH]; intros x; [reflexivity|]. cbn [ideal_fill map]. rewrite IH. reflexivity. Qed.
Lemma mine_none t id evs : (forall ev, ev ∈ evs -> ce_id ev <> id) -> mine t id evs = [].
Proof.
  induction evs as [|ev evs IH]; intros H; [reflexivity|]. cbn. pose proof (H ev ltac:(constructor)) as Hn.
  rewrite (proj2 (Z.eqb_neq _ _) Hn), andb_false_r. apply IH. intros x Hx. apply H. constructor. assumption.
Qed.
Lemma life_place Q t d id owner b time q evs : (forall en, en ∈ Q -> en_id en <> id) -> life Q evs -> life (ideal_place t d id owner b time q Q) evs.
Proof.
  intros Hn [H1 H2]. unfold ideal_place. split; rewrite map_app; cbn [map].
  - intros k Hk. apply elem_of_app in Hk as [Hk|Hk]; [auto|]. apply elem_of_list_singleton in Hk as ->. unfold fair_key, lkey. cbn.
    rewrite mine_none. { cbn. unfold fair. split; [lia|]. lia. }
    intros ev Hev E. destruct (H2 _ Hev) as (k & Hk & K1 & K2). apply elem_of_list_fmap in Hk as (en & -> & Hen). apply (Hn en Hen). cbn in K2. congruence.
  - intros ev Hev. destruct (H2 _ Hev) as (k & Hk & K). exists k. split; [|assumption]. apply elem_of_app. auto.
Qed.
Lemma rate_den_pos d t : valid_tick t -> 0 < rate_den d t.
Proof. intros H. unfold rate_den, ATOM. destruct d; [apply tick_price_pos; assumption|lia]. Qed.
Lemma proceeds_rate d t f : valid_tick t -> proceeds d t f * rate_den d t <= f * rate_num d t < (proceeds d t f + 1) * rate_den d t.
Proof.
  intros H. pose proof (rate_den_pos d t H) as Hp. assert (E : proceeds d t f = f * rate_num d t / rate_den d t) by (destruct d; reflexivity). rewrite E.
  pose proof (Z.div_mod (f * rate_num d t) (rate_den d t) ltac:(lia)). pose proof (Z.mod_pos_bound (f * rate_num d t) (rate_den d t) Hp). nia.
Qed.
Lemma life_claim sender s G Q t id s' G' a ms o' ev evs :
  inv s G -> refines s G Q -> claim1 sender s G t id s' G' (a, ms, o') -> ce_tick ev = t -> ce_id ev = id -> ce_amount_claimed ev = a ->
  life Q evs -> life (ideal_claim t id Q) (evs ++ [ev]).
Proof.
  intros Hi Hr Hc E1 E2 E3 [H1 H2]. destruct (claim_entry _ _ _ _ _ _ _ _ _ _ _ Hi Hr Hc) as (en & o & Hen & D1 & D2 & Hf & _ & _ & _ & Ea & _).
  pose proof (split_bounds _ _ _ _ Hi Hr Hen) as (B1 & B2 & B3 & B4 & B5 & B6 & B7). pose proof (eo_tick _ _ (rf_entry _ _ _ Hr _ Hen)) as Hv.
  pose proof (proceeds_rate (en_dir en) (en_tick en) (en_filled en) Hv) as Hp. fold (claim_gross en) in Hp. pose proof (rate_den_pos (en_dir en) _ Hv) as Hpos.
  split.
  - intros k Hk. unfold ideal_claim in Hk. rewrite map_map in Hk. apply elem_of_list_fmap in Hk as (x & -> & Hx).
    assert (Hin : lkey x ∈ map lkey Q) by (apply elem_of_list_fmap; eauto). specialize (H1 _ Hin).
    unfold fair_key, lkey in *. destruct (en_is t id x) eqn:Eis; cbn [en_set en_tick en_id en_dir en_settled].
    + apply andb_true_iff in Eis as [K1 K2]. apply Z.eqb_eq in K1, K2. assert (x = en) as -> by (eapply ids_same; [exact Hr|assumption|assumption|congruence]).
      rewrite mine_app. cbn [mine List.filter]. rewrite E1, E2, <- K1, <- K2, !Z.eqb_refl. cbn [andb]. rewrite earned_app, app_length. cbn [length earned foldr].
      rewrite E3, Ea. unfold fair in *. rewrite Nat2Z.inj_add. change (Z.of_nat 1) with 1.
      set (rd := rate_den (en_dir en) (en_tick en)) in *. set (rn := rate_num (en_dir en) (en_tick en)) in *.
      assert (owner_part s en <= claim_gross en) by lia. destruct H1 as [I1 I2]. split; nia.
    + rewrite mine_app. cbn [mine List.filter]. rewrite E1, E2. replace ((t =? en_tick x) && (id =? en_id x)) with false; [rewrite app_nil_r; exact H1|].
      rewrite (Z.eqb_sym t), (Z.eqb_sym id). symmetry. exact Eis.
  - assert (Hkeep : forall x, x ∈ Q -> exists k, k ∈ map lkey (ideal_claim t id Q) /\ en_tick x = k.1.1.1 /\ en_id x = k.1.1.2).
    { intros x Hx. unfold ideal_claim. rewrite map_map. eexists. split; [apply elem_of_list_fmap; exists x; split; [reflexivity|assumption]|].
      destruct (en_is t id x); cbn; auto. }
    intros e He. apply elem_of_app in He as [He|He].
    + destruct (H2 _ He) as (k & Hk & K1 & K2). apply elem_of_list_fmap in Hk as (x & -> & Hx). cbn in K1, K2.
      destruct (Hkeep _ Hx) as (k & Hk & L1 & L2). exists k. split; [assumption|]. split; congruence.
    + apply elem_of_list_singleton in He as ->. destruct (Hkeep _ Hen) as (k & Hk & L1 & L2). exists k. split; [assumption|]. split; congruence.
Qed.
Lemma life_claims ob sender s G l s' G' ms es : claims ob sender s G l s' G' ms es -> forall Q evs, refines s G Q -> life Q evs ->
  life (foldl (fun Q ev => ideal_claim (ce_tick ev) (ce_id ev) Q) Q es) (evs ++ es).
Proof.
  induction 1 as [s G|s G t id l s1 G1 s2 G2 ms es Hi Hm Hi1 Hc IH|s G t id l s1 G1 a bank o s2 G2 ms es Hi Hm Hi1 Hc IH]; intros Q evs Hr Hl.
  - rewrite app_nil_r. assumption.
  - apply IH; [eapply ref_miss1; eauto|assumption].
  - cbn [foldl]. destruct (claim1_event _ _ _ _ _ _ _ _ _ _ Hi Hm) as [E1 E2]. rewrite cons_middle, app_assoc.
    assert (E1' : ce_tick (generate_claimed_order_event sender o a (get_expected_denom ob (o_dir o)) (get_opposite_denom ob (o_dir o))) = t) by exact E1.
    assert (E2' : ce_id (generate_claimed_order_event sender o a (get_expected_denom ob (o_dir o)) (get_opposite_denom ob (o_dir o))) = id) by exact E2.
    rewrite E1', E2'. apply IH; [exact (ref_claim1 _ _ _ _ _ _ _ _ _ Hi Hr Hm)|]. eapply (life_claim _ _ _ _ _ _ _ _ _ _ _ _ _ Hi Hr Hm); [exact E1'|exact E2'|reflexivity|exact Hl].
Qed.
Lemma life_step e w G Q c evs : reachable w -> good w G Q -> call_ok (w_self w) c = true -> life Q evs ->
  life (ideal_step e w c Q) (evs ++ match snd (step e w c) with Done r => r_events r | Failed => [] end).
Proof.
  intros Hre Hg Hok Hl. unfold ideal_step. destruct (step e w c) as [w' [r|]] eqn:E; cbn [snd]; [|rewrite app_nil_r; assumption].
  destruct (step_done _ _ _ _ _ _ (gd_inv _ _ _ Hg) Hok E) as (G' & Ht & Hi' & _). pose proof (gd_ref _ _ _ Hg) as Hr. pose proof (gd_inv _ _ _ Hg) as Hi.
  assert (Hswap : forall sender tin out mn fee target, swap_args c = Some (sender, tin, out, mn, fee, target) -> r_events r = []).
  { intros sender tin out mn fee target Ea. destruct (trans_swap _ _ _ _ _ _ _ _ _ _ _ _ _ Ea Ht) as (d & ob & l & fs & rest & pr & _ & _ & _ & _ & _ & _ & _ & -> & _). reflexivity. }
  destruct c as [i [t d q b|t id|t id|l|m]|m| |c].
  - destruct (trans_place _ _ _ _ _ _ _ _ _ _ _ Ht) as (ob & _ & _ & _ & -> & _ & _). cbn [r_events place_resp]. rewrite app_nil_r.
    match goal with |- context [attr_int ?a ?b] => change (attr_int a b) with (next_id (w_st w)) end. apply life_place; [|assumption].
    intros en Hen. pose proof (eo_id _ _ (rf_entry _ _ _ Hr _ Hen)). lia.
  - destruct (trans_cancel _ _ _ _ _ _ _ _ _ Ht) as (ob & o & n & cc & m' & tr' & c' & _ & _ & _ & _ & _ & _ & _ & _ & -> & _).
    cbn [r_events cancel_resp]. rewrite app_nil_r. eapply life_key; [apply cancel_key|assumption].
  - destruct (trans_claim _ _ _ _ _ _ _ _ _ Ht) as (ob & a & ms & o' & _ & _ & _ & A3 & ->). cbn [r_events].
    destruct (claim1_event _ _ _ _ _ _ _ _ _ _ Hi A3) as [E1 E2]. eapply (life_claim _ _ _ _ _ _ _ _ _ _ _ _ _ Hi Hr A3); [exact E1|exact E2|reflexivity|exact Hl].
  - destruct (trans_batch _ _ _ _ _ _ _ _ Ht) as (ob & ms & es & _ & _ & _ & _ & A & ->). cbn [r_events]. eapply life_claims; eauto.
  - destruct (trans_auth _ _ _ _ _ _ _ _ Ht) as (_ & _ & _ & -> & _). rewrite app_nil_r. assumption.
  - destruct m as [s0 tin out mn fee|s0 tin out mn fee tg|? ? ? ? ?|a| |b].
    1,2: rewrite (Hswap _ _ _ _ _ _ eq_refl), app_nil_r; (eapply life_key; [apply fill_key|assumption]).
    all: inversion Ht as [| | | | | |m0 r0 s0 Ha A1 A2 A3 A4 A5 A6 A7|cl A]; subst; try discriminate.
    all: match goal with K : r_events _ = [] |- _ => rewrite K, app_nil_r; assumption | K : _ \/ _ |- _ => destruct K as [K|[? K]]; discriminate end.
  - inversion Ht; subst; try discriminate; cbn; rewrite app_nil_r; assumption.
  - inversion Ht; subst; try discriminate; cbn; rewrite app_nil_r; assumption.
Qed.

(** C49: whatever the history, the claims announced for an order add up to what its filled and
    claimed quantity is worth at its price, up to the fees and one unit per claim. *)
Theorem C49_lifetime :
  forall w0 h en, start w0 -> history w0 h -> en ∈ ideal_run w0 [] h ->
  let l := claims_of (en_tick en) (en_id en) w0 h in
  fair (en_dir en) (en_tick en) (en_settled en) (Z.of_nat (length l)) (earned l).
Proof.
  intros w0 h en Hs Hh Hen.
  enough (K : life (ideal_run w0 [] h) (collect r_events w0 h)).
  { apply (lf_fair _ _ K (lkey en)). apply elem_of_list_fmap. eauto. }
  clear en Hen. induction h as [|[e c] h IH] using rev_ind; [split; [intros k Hk; inversion Hk|intros ev Hev; inversion Hev]|].
  apply history_app in Hh as [Hh Hc]. inversion Hc as [|x l Hok _]; subst. cbn [snd] in Hok. destruct (run_good w0 h Hs Hh) as (G & Hg).
  rewrite ideal_run_last, collect_app. cbn [collect]. rewrite app_nil_r. eapply life_step; eauto. apply start_reachable; assumption.
Qed.
Print Assumptions C49_lifetime.

(** In particular an order that was filled and claimed completely (it is gone, and nothing was
    refunded) earned its owner the full placed quantity's worth within these limits. *)
Theorem C49_complete :
  forall w0 h en, start w0 -> history w0 h -> en ∈ ideal_run w0 [] h ->
  order_of (w_st (run w0 h)) (en_tick en) (en_id en) = None -> en_refunded en = 0 ->
  let l := claims_of (en_tick en) (en_id en) w0 h in
  fair (en_dir en) (en_tick en) (en_placed en) (Z.of_nat (length l)) (earned l).
Proof.
  intros w0 h en Hs Hh Hen Ho Hz l. pose proof (C49_lifetime w0 h en Hs Hh Hen) as K. destruct (run_good w0 h Hs Hh) as (G & Hg).
  pose proof (rf_entry _ _ _ (gd_ref _ _ _ Hg) _ Hen) as [_ K1 K2 K3 _ _ K7 _ _].
  destruct (C08_fifo_state w0 h Hs Hh) as (_ & _ & Hl & _). destruct (en_live en) eqn:El.
  - destruct (Hl en Hen El) as (o & Eo & _). unfold order_of in Ho. congruence.
  - unfold en_live in El. apply Z.ltb_ge in El. replace (en_placed en) with (en_settled en) by lia. exact K.
Qed.
Print Assumptions C49_complete.

(** An ask of 10 at price 1.1 with a bounty, filled by three swaps and claimed three times: three
    times 3 * 1.1 = 3.3 is rounded down, and 1.1 at last. *)
Definition life_hist := [place "a" 100000 Ask 10 (Some (10 ^ 16)); buy "t" 4; claim "z" 100000 0; buy "t" 4; claim "z" 100000 0; buy "t" 4; claim "a" 100000 0; buy "t" 2; claim "a" 100000 0].
Example C49_case :
  let l := claims_of 100000 0 w_start life_hist in
  history w_start life_hist /\ map ce_amount_claimed l = [3; 3; 3; 1] /\ map ce_fully_claimed l = [false; false; false; true] /\ (order_of (w_st (run w_start life_hist)) 100000 0 = None) /\ (map (fun en => (en_settled en, en_refunded en)) (ideal_run w_start [] life_hist) = [(10, 0)]).
Proof. cbv zeta. split; [hist|]. vm_compute. repeat split; reflexivity. Qed.
