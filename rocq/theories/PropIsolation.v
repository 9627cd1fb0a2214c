(** * Properties C35, C36: claims do not interfere; ticks and directions are isolated. *)
From Verif Require Import Base Dec Types State TickMath Sumtree Tick Order Auth Contract World SpecMath TickMathProofs
  TreeDefs Exec SumtreeProofs SumtreeRebalance SumtreeInsert PrefixSum SumtreeRoot SumtreeFail Ghost Inv StepPlace StepCancel StepClaim
  SwapPlan StepSwap Trans Spec Reach Refine RefineStep Reserve Solvency Books SpecProps PropBase Tests PropOrders PropClaims PropSwap PropBatch.

(** ** C35: claims and other orders *)
Theorem C35_claim_isolated :
  forall e w0 h i t id w' r, start w0 -> history w0 h ->
  let w := run w0 h in let Q := ideal_run w0 [] h in let c := CExec i (ClaimLimit t id) in let Q' := ideal_step e w c Q in
  call_ok (w_self w) c = true -> step e w c = (w', Done r) ->
  (forall t' id', (t', id') <> (t, id) -> order_of (w_st w') t' id' = order_of (w_st w) t' id') /\
  (forall en, (en_tick en, en_id en) <> (t, id) -> (en ∈ Q' <-> en ∈ Q)) /\
  (forall t' d', tick_liquidity (w_st w') t' d' = tick_liquidity (w_st w) t' d') /\
  (forall d', pool_liquidity (w_st w') d' = pool_liquidity (w_st w) d').
Proof.
  intros e w0 h i t id w' r Hs Hh w Q c Q' Hok E.
  destruct (C08_claim_settles_fifo e w0 h i t id w' r Hs Hh Hok E) as (_ & _ & en & o & Hen & D1 & D2 & Hf & Eo & _ & Hord & _ & _ & Hl & Hp & _).
  split. { intros t' id' Hn. unfold order_of. destruct (en_open en =? 0).
    - rewrite Hord. apply lookup_delete_ne. congruence.
    - destruct Hord as (o' & -> & _). apply lookup_insert_ne. congruence. }
  split; [|auto]. intros en' Hn. unfold Q', ideal_step. rewrite E. unfold c, ideal_claim. rewrite upd_elem. split.
  - intros (e0 & H0 & [[K1 ->]|[_ ->]]); [|assumption]. apply en_is_true in K1 as [K1 K2]. cbn in Hn. congruence.
  - intros H. exists en'. split; [assumption|]. right. split; [|reflexivity]. apply en_is_false. intros [K1 K2]. congruence.
Qed.
Print Assumptions C35_claim_isolated.

(** ** C35: who claims does not matter *)
Lemma claim_sender x y t id s s1 a ms o : claim_order x t id s = (s1, Ok (a, ms, o)) -> exists ms', claim_order y t id s = (s1, Ok (a, ms', o)).
Proof.
  intros H. unfold claim_order in *. cbv zeta in *.
  repeat match type of H with
  | mbindM _ _ _ = _ => let v := fresh "v" in let s2 := fresh "s" in let H1 := fresh "H" in
      apply bind_inv in H as (v & s2 & H1 & H); rewrite (bind_ok _ _ _ _ _ H1); clear H1
  end.
  apply mret_inv in H as [-> H]. injection H as -> -> ->. eexists. reflexivity.
Qed.
(** Transfers that differ only in recipients other than the contract. *)
Lemma sends_alike e self l1 l2 : Forall2 (fun m1 m2 => sm_coin m1 = sm_coin m2 /\ (sm_to m1 = self <-> sm_to m2 = self) /\
    (e_bank_ok e (sm_to m1) = true -> e_bank_ok e (sm_to m2) = true)) l1 l2 ->
  forall b b', sends e self b l1 = Some b' -> sends e self b l2 = Some b'.
Proof.
  induction 1 as [|m1 m2 l1 l2 (E1 & E2 & E3) Hl IH]; intros b b' H; [assumption|]. apply sends_cons in H as (b1 & H1 & H).
  cbn [sends]. assert (send1 e self b m2 = Some b1) as ->; [|auto]. unfold send1 in *. rewrite <- E1.
  destruct ((0 <? c_amount (sm_coin m1)) && (c_amount (sm_coin m1) <=? bal_get b (c_denom (sm_coin m1)))) eqn:Ea; cbn [andb] in *; [|discriminate].
  destruct (e_bank_ok e (sm_to m1)) eqn:Eb; [|discriminate]. rewrite (E3 eq_refl). injection H1 as <-.
  destruct (bool_decide_reflect (sm_to m1 = self)) as [K|K].
  - rewrite bool_decide_true by tauto. reflexivity.
  - rewrite bool_decide_false by tauto. reflexivity.
Qed.
Lemma alike_refl e self l : Forall2 (fun m1 m2 => sm_coin m1 = sm_coin m2 /\ (sm_to m1 = self <-> sm_to m2 = self) /\
    (e_bank_ok e (sm_to m1) = true -> e_bank_ok e (sm_to m2) = true)) l l.
Proof. induction l; constructor; [|assumption]. split; [reflexivity|]. split; auto. Qed.
(** If one account can claim an order, any other account the bank does not block can, in the same
    state, with the same resulting state and balances and the same transfers, except that the
    bounty goes to the claimer. *)
Theorem C35_any_sender :
  forall e w0 h x y t id w1 r1, start w0 -> history w0 h ->
  let w := run w0 h in
  call_ok (w_self w) (c_claim x t id) = true -> call_ok (w_self w) (c_claim y t id) = true -> e_bank_ok e y = true ->
  step e w (c_claim x t id) = (w1, Done r1) ->
  exists r2, step e w (c_claim y t id) = (w1, Done r2) /\
    map sm_coin (r_msgs r2) = map sm_coin (r_msgs r1) /\
    List.filter not_bounty (r_msgs r2) = List.filter not_bounty (r_msgs r1) /\
    (forall m, m ∈ r_msgs r2 -> not_bounty m = false -> sm_to m = y).
Proof.
  intros e w0 h x y t id w1 r1 Hs Hh w Hx Hy By E. destruct (run_good w0 h Hs Hh) as (G & [Hi Hr _]). fold w in Hi, Hr.
  destruct (step_done _ _ _ _ _ _ Hi Hx E) as (G1 & Ht & Hi1 & Eself & Hsend).
  destruct (trans_claim _ _ _ _ _ _ _ _ _ Ht) as (ob & a & ms & o & Ha & A1 & A2 & A3 & Er). cbn [i_sender] in *.
  assert (Hact : active (w_st w) = true) by (apply active_ne; assumption).
  destruct (claim_step x (w_st w) G t id Hi) as [(s' & G' & [[a' ms'] o'] & Ec & Hc & _)|[(s' & G' & er & Ec & Hm & _)|(_ & s' & Ec)]].
  2:{ exfalso. destruct (claim_call_err e x t id _ _ _ Hact Ec) as (s3 & E3). unfold step in E. rewrite E3 in E. discriminate. }
  2:{ exfalso. unfold step in E. cbn [c_claim call_run] in E. unfold execute in E. rewrite (bind_ok _ _ _ _ _ (ensure_active _ Hact)) in E.
      unfold claim_limit in E. cbn [i_funds i_sender] in E. rewrite (bind_lift _ tt) in E by reflexivity. unfold mbindM at 1 in E. rewrite Ec in E. discriminate. }
  pose proof (claim_call_ok e x t id _ _ _ _ _ _ _ _ Hact Ec Hc A1) as Ecall.
  assert (Est : w_st w1 = s' /\ r1 = claim_resp x ob a' ms' o').
  { unfold step in E. rewrite Ecall in E. destruct (sends _ _ _ _); [|discriminate]. injection E as <- <-. auto. }
  destruct Est as [Es1 ->]. rewrite <- Es1 in Ec, Hc, Ecall. clear Es1 s'. cbn [claim_resp r_msgs] in *.
  destruct (claim_sender x y _ _ _ _ _ _ _ Ec) as (ms2 & Ec2).
  destruct (claim_step y (w_st w) G t id Hi) as [(s2 & G2 & [[a2 ms2'] o2] & Ec2' & Hc2 & _)|[(s2 & G2 & er & Ec2' & _)|(_ & s2 & Ec2')]];
    [|congruence|congruence]. rewrite Ec2 in Ec2'. injection Ec2' as <- <- <- <-.
  destruct (claim1_result _ _ _ _ _ _ _ _ _ _ _ Hi Hr Hc) as (en & o0 & Hen & D1 & D2 & Hf & Eo & _ & _ & -> & _).
  destruct (claim1_result _ _ _ _ _ _ _ _ _ _ _ Hi Hr Hc2) as (en2 & o02 & Hen2 & D12 & D22 & Hf2 & Eo2 & _ & _ & -> & _).
  assert (en2 = en) as -> by (eapply ids_same; eauto; congruence).
  pose proof (claim_call_ok e y t id _ _ _ _ _ _ _ _ Hact Ec2 Hc2 A1) as Ecall2.
  assert (Nx : x <> w_self w) by (unfold call_ok in Hx; cbn in Hx; apply andb_prop in Hx as [Hx _]; apply negb_true_iff, bool_decide_eq_false in Hx; assumption).
  assert (Ny : y <> w_self w) by (unfold call_ok in Hy; cbn in Hy; apply andb_prop in Hy as [Hy _]; apply negb_true_iff, bool_decide_eq_false in Hy; assumption).
  exists (claim_resp y ob a' (claim_pays (w_st w) y en) o'). split.
  { destruct w1 as [self1 s1 b1]. cbn [w_st w_self w_bal] in *. subst self1. apply step_ok; [exact Ecall2|].
    cbn [claim_resp r_msgs c_claim call_funds i_funds] in *. revert Hsend. apply sends_alike. unfold claim_pays.
    apply Forall2_app; [apply alike_refl|]. apply Forall2_app; [|apply alike_refl]. unfold pay. destruct (_ =? 0); constructor; [|constructor].
    cbn. split; [reflexivity|]. split; [split; congruence|auto]. }
  cbn [claim_resp r_msgs]. unfold claim_pays, pay, not_bounty, REPLY_ID_CLAIM, REPLY_ID_CLAIM_BOUNTY, REPLY_ID_MAKER_FEE.
  destruct (owner_part (w_st w) en =? 0), (claim_bounty en =? 0), (claim_fee (w_st w) en =? 0); cbn; (split; [reflexivity|]); (split; [reflexivity|]);
    intros m Hm; repeat (apply elem_of_cons in Hm as [->|Hm]; [cbn; intros; try discriminate; try reflexivity|]); try (inversion Hm).
Qed.
Print Assumptions C35_any_sender.

(** ** C35: the order of two claims does not matter *)
(** What a list of transfers takes out of the contract. *)
Fixpoint net (self denom : string) (l : list submsg) : Z :=
  match l with
  | [] => 0
  | m :: l => (if bool_decide (c_denom (sm_coin m) = denom) && negb (bool_decide (sm_to m = self)) then c_amount (sm_coin m) else 0) + net self denom l
  end.
Lemma sends_net e self denom l : forall b b', sends e self b l = Some b' -> bal_get b' denom = bal_get b denom - net self denom l.
Proof.
  induction l as [|m l IH]; intros b b' H; [injection H as <-; cbn; lia|]. apply sends_cons in H as (b1 & H1 & H). apply IH in H.
  apply (send1_get _ _ _ _ _ denom) in H1 as [_ H1]. cbn [net]. lia.
Qed.
Definition settle (m : gmap (Z * Z) limit_order) (en : entry) : gmap (Z * Z) limit_order :=
  match m !! (en_tick en, en_id en) with
  | Some o => if en_open en =? 0 then delete (en_tick en, en_id en) m else <[(en_tick en, en_id en) := claimed_order o (en_filled en)]> m
  | None => m
  end.
Lemma settle_comm m en en' : (en_tick en, en_id en) <> (en_tick en', en_id en') -> settle (settle m en) en' = settle (settle m en') en.
Proof.
  intros Hn. unfold settle.
  destruct (m !! (en_tick en, en_id en)) as [o|] eqn:E1; destruct (m !! (en_tick en', en_id en')) as [o'|] eqn:E2;
    destruct (en_open en =? 0), (en_open en' =? 0); 
    repeat first [rewrite E1 | rewrite E2 | rewrite lookup_delete_ne by congruence | rewrite lookup_insert_ne by congruence]; try reflexivity.
  - apply delete_commute.
  - symmetry. apply delete_insert_ne. congruence.
  - apply delete_insert_ne. congruence.
  - apply insert_commute. congruence.
Qed.
(** One claim under ideal conditions, completely determined by the ideal book. *)
Lemma claim_outcome e w G Q x t id :
  ready w G Q -> call_ok (w_self w) (c_claim x t id) = true -> active (w_st w) = true -> banks_ok e w Q x ->
  let w' := fst (step e w (c_claim x t id)) in
  same_admin (w_st w) (w_st w') /\ s_orderbook (w_st w') = s_orderbook (w_st w) /\ s_dirliq (w_st w') = s_dirliq (w_st w) /\
  ideal_step e w (c_claim x t id) Q = ideal_claim t id Q /\
  ((exists en o ob, en ∈ Q /\ en_tick en = t /\ en_id en = id /\ 0 < en_filled en /\ s_orders (w_st w) !! (t, id) = Some o /\ s_orderbook (w_st w) = Some ob /\
      snd (step e w (c_claim x t id)) = Done (claim_resp x ob (owner_part (w_st w) en) (claim_pays (w_st w) x en) (claimed_order o (en_filled en))) /\
      s_orders (w_st w') = settle (s_orders (w_st w)) en /\
      (forall denom, bal_get (w_bal w') denom = bal_get (w_bal w) denom - net (w_self w) denom (claim_pays (w_st w) x en))) \/
   ((forall en, en ∈ Q -> en_tick en = t -> en_id en = id -> en_filled en = 0) /\ step e w (c_claim x t id) = (w, Failed))).
Proof.
  intros Hrd Hok Ha (B1 & B2 & B3) w'. pose proof Hrd as [Hre Hg Hn Hto Hl Hct]. pose proof (gd_inv _ _ _ Hg) as Hi. pose proof (gd_ref _ _ _ Hg) as Hr.
  destruct (claim_step x (w_st w) G t id Hi) as [(s' & G' & [[a ms] o'] & E & Hc & Hi')|[(s' & G' & er & E & Hm & Hi')|(HU & _)]].
  3:{ specialize (Hct t). unfold U64_MAX in HU. lia. }
  - destruct (claim1_result _ _ _ _ _ _ _ _ _ _ _ Hi Hr Hc) as (en & o & Hen & D1 & D2 & Hf & Eo & -> & -> & -> & Eord).
    destruct (i_book _ _ Hi) as (ob & Eob & _). pose proof (claim_call_ok e x t id _ _ _ _ _ _ _ _ Ha E Hc Eob) as Ecall.
    rewrite <- D1, <- D2 in Hok. destruct (claim_accepted e w G Q x en Hrd Hok Ha B1 (B3 _ Hen) B2 Hen Hf) as (w1 & r1 & Est). rewrite D1, D2 in Est.
    assert (Est' := Est). unfold step in Est'. rewrite Ecall in Est'. destruct (sends e (w_self w) _ _) as [b'|] eqn:Hsd; [|discriminate]. injection Est' as Ew1 Er1.
    cbn [c_claim call_funds i_funds credits foldl claim_resp r_msgs] in Hsd. subst w'. rewrite Est. cbn [fst snd]. subst w1 r1. cbn [w_st w_bal].
    destruct (claim1_frame _ _ _ _ _ _ _ _ Hc) as (F1 & F2 & _ & F4 & _). do 3 (split; [assumption|]).
    split. { unfold ideal_step. rewrite Est. reflexivity. }
    left. exists en, o, ob. do 6 (split; [assumption|]). split; [reflexivity|]. split.
    { rewrite Eord. unfold settle. rewrite D1, D2, Eo. reflexivity. }
    intros denom. eapply sends_net; eauto.
  - assert (Hz : forall en, en ∈ Q -> en_tick en = t -> en_id en = id -> en_filled en = 0) by (intros en; eapply miss1_zero; [exact Hi|exact Hr|exact Hm]).
    destruct (claim_call_err e x t id _ _ _ Ha E) as (s3 & E3).
    assert (Est : step e w (c_claim x t id) = (w, Failed)) by (unfold step; rewrite E3; reflexivity).
    subst w'. rewrite Est. cbn [fst]. split; [apply same_admin_refl|]. split; [reflexivity|]. split; [reflexivity|].
    split. { unfold ideal_step. rewrite Est. symmetry. apply ideal_claim_zero. assumption. } right. auto.
Qed.
Lemma ideal_claim_comm t id t' id' Q : ideal_claim t id (ideal_claim t' id' Q) = ideal_claim t' id' (ideal_claim t id Q).
Proof.
  unfold ideal_claim. rewrite !map_map. apply map_ext. intros en.
  destruct (en_is t id en) eqn:E1, (en_is t' id' en) eqn:E2;
    repeat match goal with |- context [en_is ?a ?b (en_set ?x ?p ?q ?u ?v)] => change (en_is a b (en_set x p q u v)) with (en_is a b x) end;
    rewrite ?E1, ?E2; reflexivity.
Qed.
Lemma ideal_claim_other t id Q en : (en_tick en, en_id en) <> (t, id) -> (en ∈ ideal_claim t id Q <-> en ∈ Q).
Proof.
  intros Hn. unfold ideal_claim. rewrite upd_elem. split.
  - intros (e0 & H0 & [[K1 ->]|[_ ->]]); [|assumption]. apply en_is_true in K1 as [K1 K2]. cbn in Hn. congruence.
  - intros H. exists en. split; [assumption|]. right. split; [|reflexivity]. apply en_is_false. intros [K1 K2]. congruence.
Qed.
Lemma claim_banks e w G Q x y t id : ready w G Q -> call_ok (w_self w) (c_claim y t id) = true -> active (w_st w) = true ->
  same_admin (w_st w) (w_st (fst (step e w (c_claim y t id)))) -> forall e', banks_ok e' w Q x -> banks_ok e' (fst (step e w (c_claim y t id))) (ideal_claim t id Q) x.
Proof.
  intros _ _ _ Hsa e' (B1 & B2 & B3). split; [assumption|]. split; [rewrite (sa_recipient _ _ Hsa); assumption|].
  intros en Hen. apply upd_elem in Hen as (e0 & He0 & [[_ ->]|[_ ->]]); cbn; auto.
Qed.
Theorem C35_claims_commute :
  forall e1 e2 w0 h x1 t1 id1 x2 t2 id2, start w0 -> history w0 h ->
  let c1 := c_claim x1 t1 id1 in let c2 := c_claim x2 t2 id2 in
  short (h ++ [(e1, c1); (e2, c2)]) ->
  let w := run w0 h in let Q := ideal_run w0 [] h in
  call_ok (w_self w) c1 = true -> call_ok (w_self w) c2 = true -> active (w_st w) = true ->
  banks_ok e1 w Q x1 -> banks_ok e2 w Q x2 -> (t1, id1) <> (t2, id2) ->
  let w12 := run w [(e1, c1); (e2, c2)] in let w21 := run w [(e2, c2); (e1, c1)] in
  (* each claim has the same outcome - response, transfers, events - first or second *)
  snd (step e1 w c1) = snd (step e1 (run w [(e2, c2)]) c1) /\
  snd (step e2 w c2) = snd (step e2 (run w [(e1, c1)]) c2) /\
  (* and the final orders, liquidity, balances and ideal book agree *)
  s_orders (w_st w12) = s_orders (w_st w21) /\
  (forall t d, tick_liquidity (w_st w12) t d = tick_liquidity (w_st w21) t d) /\
  (forall d, pool_liquidity (w_st w12) d = pool_liquidity (w_st w21) d) /\
  (forall denom, balance w12 denom = balance w21 denom) /\
  ideal_run w Q [(e1, c1); (e2, c2)] = ideal_run w Q [(e2, c2); (e1, c1)].
Proof.
  assert (Half : forall e1 e2 w0 h x1 t1 id1 x2 t2 id2, start w0 -> history w0 h ->
    let c1 := c_claim x1 t1 id1 in let c2 := c_claim x2 t2 id2 in short (h ++ [(e1, c1); (e2, c2)]) ->
    let w := run w0 h in let Q := ideal_run w0 [] h in
    call_ok (w_self w) c1 = true -> call_ok (w_self w) c2 = true -> active (w_st w) = true ->
    banks_ok e1 w Q x1 -> banks_ok e2 w Q x2 -> (t1, id1) <> (t2, id2) ->
    snd (step e2 w c2) = snd (step e2 (run w [(e1, c1)]) c2) /\
    (exists o1 o2 : option entry,
      (forall en, o1 = Some en -> en ∈ Q /\ en_tick en = t1 /\ en_id en = id1 /\ 0 < en_filled en) /\ (forall en, o2 = Some en -> en ∈ Q /\ en_tick en = t2 /\ en_id en = id2 /\ 0 < en_filled en) /\
      (o1 = None <-> forall en, en ∈ Q -> en_tick en = t1 -> en_id en = id1 -> en_filled en = 0) /\
      (o2 = None <-> forall en, en ∈ Q -> en_tick en = t2 -> en_id en = id2 -> en_filled en = 0) /\
      let st m o := match o with Some en => settle m en | None => m end in
      s_orders (w_st (run w [(e1, c1); (e2, c2)])) = st (st (s_orders (w_st w)) o1) o2 /\
      (forall denom, bal_get (w_bal (run w [(e1, c1); (e2, c2)])) denom = bal_get (w_bal w) denom
        - match o1 with Some en => net (w_self w) denom (claim_pays (w_st w) x1 en) | None => 0 end
        - match o2 with Some en => net (w_self w) denom (claim_pays (w_st w) x2 en) | None => 0 end)) /\
    s_dirliq (w_st (run w [(e1, c1); (e2, c2)])) = s_dirliq (w_st w) /\
    ideal_run w Q [(e1, c1); (e2, c2)] = ideal_claim t2 id2 (ideal_claim t1 id1 Q)).
  { intros e1 e2 w0 h x1 t1 id1 x2 t2 id2 Hs Hh c1 c2 Hsh w Q Hok1 Hok2 Ha B1 B2 Hne.
    assert (Hsh0 : short h) by (unfold short in *; rewrite app_length in Hsh; cbn in Hsh; lia).
    assert (Hsh1 : short (h ++ [(e1, c1)])) by (unfold short in *; rewrite app_length in *; cbn in *; lia).
    assert (Hh1 : history w0 (h ++ [(e1, c1)])) by (apply history_app; split; [assumption|]; apply Forall_cons; split; [exact Hok1|constructor]).
    destruct (short_ready w0 h Hs Hh Hsh0) as (G & Hrd). fold w Q in Hrd.
    destruct (short_ready w0 _ Hs Hh1 Hsh1) as (G1 & Hrd1). rewrite run_last, ideal_run_last in Hrd1. fold w Q in Hrd1.
    destruct (claim_outcome e1 w G Q x1 t1 id1 Hrd Hok1 Ha B1) as (S1 & S2 & S3 & S4 & S5). fold c1 in S1, S2, S3, S4, S5. rewrite S4 in Hrd1.
    destruct (claim_outcome e2 w G Q x2 t2 id2 Hrd Hok2 Ha B2) as (U1 & U2 & U3 & U4 & U5). fold c2 in U1, U2, U3, U4, U5.
    pose proof (claim_banks e1 w G Q x2 x1 t1 id1 Hrd Hok1 Ha S1 e2 B2) as B2'. fold c1 in B2'.
    set (w1 := fst (step e1 w c1)) in *.
    assert (Hok2' : call_ok (w_self w1) c2 = true) by (unfold w1; rewrite step_self; assumption).
    assert (Ha1 : active (w_st w1) = true) by (unfold active in *; rewrite (sa_active _ _ S1); assumption).
    destruct (claim_outcome e2 w1 G1 (ideal_claim t1 id1 Q) x2 t2 id2 Hrd1 Hok2' Ha1 B2') as (V1 & V2 & V3 & V4 & V5). fold c2 in V1, V2, V3, V4, V5.
    change (run w [(e1, c1)]) with w1. change (run w [(e1, c1); (e2, c2)]) with (fst (step e2 w1 c2)).
    change (ideal_run w Q [(e1, c1); (e2, c2)]) with (ideal_step e2 w1 c2 (ideal_step e1 w c1 Q)). rewrite S4, V4.
    assert (Hq : forall en, en_tick en = t2 -> en_id en = id2 -> (en ∈ ideal_claim t1 id1 Q <-> en ∈ Q)) by (intros en K1 K2; apply ideal_claim_other; congruence).
    assert (Hse : w_self w1 = w_self w) by apply step_self.
    assert (Hp : forall en, claim_pays (w_st w1) x2 en = claim_pays (w_st w) x2 en) by (intros; symmetry; apply pays_same; [congruence|assumption]).
    (* the outcome of the second claim *)
    assert (Hboth : (exists en o ob, en ∈ Q /\ en_tick en = t2 /\ en_id en = id2 /\ 0 < en_filled en /\
        snd (step e2 w c2) = Done (claim_resp x2 ob (owner_part (w_st w) en) (claim_pays (w_st w) x2 en) (claimed_order o (en_filled en))) /\
        snd (step e2 w1 c2) = snd (step e2 w c2) /\
        s_orders (w_st (fst (step e2 w1 c2))) = settle (s_orders (w_st w1)) en /\
        (forall denom, bal_get (w_bal (fst (step e2 w1 c2))) denom = bal_get (w_bal w1) denom - net (w_self w) denom (claim_pays (w_st w) x2 en))) \/
       ((forall en, en ∈ Q -> en_tick en = t2 -> en_id en = id2 -> en_filled en = 0) /\ step e2 w1 c2 = (w1, Failed) /\ step e2 w c2 = (w, Failed))).
    { destruct U5 as [(en & o & ob & K1 & K2 & K3 & K4 & K5 & K6 & K7 & K8 & K9)|(Kz & Kf)].
      - left. destruct V5 as [(en' & o' & ob' & L1 & L2 & L3 & L4 & L5 & L6 & L7 & L8 & L9)|(Lz & _)].
        2:{ exfalso. specialize (Lz en (proj2 (Hq _ K2 K3) K1) K2 K3). lia. }
        rewrite (Hq _ L2 L3) in L1. assert (en' = en) as -> by (eapply ids_same; [apply (gd_ref _ _ _ (rd_good _ _ _ Hrd))|assumption|assumption|congruence]).
        rewrite S2, K6 in L6. injection L6 as <-.
        assert (o' = o) as ->.
        { enough (s_orders (w_st w1) !! (t2, id2) = s_orders (w_st w) !! (t2, id2)) by congruence.
          destruct S5 as [(e0 & o0 & ob0 & M1 & M2 & M3 & _ & M5 & _ & _ & M8 & _)|(_ & M)].
          - rewrite M8. unfold settle. rewrite M2, M3, M5. destruct (_ =? 0); [apply lookup_delete_ne|apply lookup_insert_ne]; congruence.
          - unfold w1. rewrite M. reflexivity. }
        exists en, o, ob. do 5 (split; [assumption|]). rewrite L7, K7, Hp. split.
        { unfold owner_part, claim_fee. rewrite (sa_fee _ _ S1). reflexivity. }
        split; [assumption|]. intros denom. rewrite L9, Hse, Hp. reflexivity.
      - right. split; [assumption|]. split; [|assumption]. destruct V5 as [(en' & o' & ob' & L1 & L2 & L3 & L4 & _)|(_ & Lf)]; [|assumption].
        exfalso. rewrite (Hq _ L2 L3) in L1. specialize (Kz _ L1 L2 L3). lia. }
    split. { destruct Hboth as [(en & o & ob & _ & _ & _ & _ & _ & -> & _)|(_ & -> & ->)]; reflexivity. }
    split; [|split; [congruence|reflexivity]].
    assert (Hfirst : exists o1, (forall en, o1 = Some en -> en ∈ Q /\ en_tick en = t1 /\ en_id en = id1 /\ 0 < en_filled en) /\
       (o1 = None <-> forall en, en ∈ Q -> en_tick en = t1 -> en_id en = id1 -> en_filled en = 0) /\
       s_orders (w_st w1) = match o1 with Some en => settle (s_orders (w_st w)) en | None => s_orders (w_st w) end /\
       (forall denom, bal_get (w_bal w1) denom = bal_get (w_bal w) denom - match o1 with Some en => net (w_self w) denom (claim_pays (w_st w) x1 en) | None => 0 end)).
    { destruct S5 as [(en & o & ob & K1 & K2 & K3 & K4 & K5 & K6 & K7 & K8 & K9)|(Kz & Kf)].
      - exists (Some en). split; [intros ? [= <-]; auto|]. split; [split; [discriminate|]; intros K; specialize (K _ K1 K2 K3); lia|]. auto.
      - exists None. split; [discriminate|]. split; [split; auto|]. unfold w1. rewrite Kf. split; [reflexivity|]. intros denom. cbn [fst]. lia. }
    destruct Hfirst as (o1 & F1 & F2 & F3 & F4).
    destruct Hboth as [(en & o & ob & K1 & K2 & K3 & K4 & _ & _ & K7 & K8)|(Kz & Kf & _)].
    - exists o1, (Some en). split; [assumption|]. split; [intros ? [= <-]; auto|]. split; [assumption|].
      split; [split; [discriminate|]; intros K; specialize (K _ K1 K2 K3); lia|]. cbn zeta. rewrite K7, F3. split; [reflexivity|]. intros denom. rewrite K8, F4. lia.
    - exists o1, None. split; [assumption|]. split; [discriminate|]. split; [assumption|]. split; [split; auto|]. cbn zeta. rewrite Kf. cbn [fst].
      split; [assumption|]. intros denom. rewrite F4. lia. }
  intros e1 e2 w0 h x1 t1 id1 x2 t2 id2 Hs Hh c1 c2 Hsh w Q Hok1 Hok2 Ha B1 B2 Hne w12 w21.
  assert (Hsh' : short (h ++ [(e2, c2); (e1, c1)])) by (unfold short in *; rewrite app_length in *; cbn in *; lia).
  destruct (Half e1 e2 w0 h x1 t1 id1 x2 t2 id2 Hs Hh Hsh Hok1 Hok2 Ha B1 B2 Hne) as (X1 & (o1 & o2 & Y1 & Y2 & Y3 & Y4 & Y5 & Y6) & X3 & X4).
  destruct (Half e2 e1 w0 h x2 t2 id2 x1 t1 id1 Hs Hh Hsh' Hok2 Hok1 Ha B2 B1 (fun K => Hne (eq_sym K))) as (X1' & (p2 & p1 & Z2 & Z1 & Z4 & Z3 & Z5 & Z6) & X3' & X4').
  fold w Q c1 c2 in X1, X1', X3, X3', X4, X4', Y1, Y2, Y3, Y4, Y5, Y6, Z1, Z2, Z3, Z4, Z5, Z6. fold w12 in Y5, Y6, X3. fold w21 in Z5, Z6, X3'.
  destruct (run_good w0 h Hs Hh) as (G & Hg). fold w Q in Hg. pose proof (gd_ref _ _ _ Hg) as Hr.
  assert (Huniq : forall t id (a b : option entry), (forall en, a = Some en -> en ∈ Q /\ en_tick en = t /\ en_id en = id /\ 0 < en_filled en) ->
     (forall en, b = Some en -> en ∈ Q /\ en_tick en = t /\ en_id en = id /\ 0 < en_filled en) ->
     (a = None <-> forall en, en ∈ Q -> en_tick en = t -> en_id en = id -> en_filled en = 0) ->
     (b = None <-> forall en, en ∈ Q -> en_tick en = t -> en_id en = id -> en_filled en = 0) -> a = b).
  { intros t id a b P1 P2 P3 P4. destruct a as [x|], b as [y|]; [| | |reflexivity].
    - destruct (P1 x eq_refl) as (R1 & R2 & R3 & _). destruct (P2 y eq_refl) as (R1' & R2' & R3' & _). f_equal. eapply ids_same; [exact Hr|assumption|assumption|congruence].
    - destruct (P1 x eq_refl) as (R1 & R2 & R3 & R4). pose proof (proj1 P4 eq_refl x R1 R2 R3). lia.
    - destruct (P2 y eq_refl) as (R1 & R2 & R3 & R4). pose proof (proj1 P3 eq_refl y R1 R2 R3). lia. }
  pose proof (Huniq t1 id1 p1 o1 Z1 Y1 Z3 Y3) as ->. pose proof (Huniq t2 id2 p2 o2 Z2 Y2 Z4 Y4) as ->.
  split; [exact X1'|]. split; [exact X1|]. cbn zeta in Y5, Z5.
  split. { rewrite Y5, Z5. destruct o1 as [a|], o2 as [b|]; try reflexivity.
    destruct (Y1 a eq_refl) as (_ & R1 & R2 & _). destruct (Y2 b eq_refl) as (_ & R3 & R4 & _). apply settle_comm. congruence. }
  assert (EQ : ideal_run w Q [(e1, c1); (e2, c2)] = ideal_run w Q [(e2, c2); (e1, c1)]) by (rewrite X4, X4'; apply ideal_claim_comm).
  assert (H12 : forall x y, call_ok (w_self w) (snd x) = true -> call_ok (w_self w) (snd y) = true -> exists G', good (run w [x; y]) G' (ideal_run w Q [x; y])).
  { intros x y Kx Ky. unfold w, Q. rewrite <- run_app, <- ideal_run_app. apply run_good; [assumption|]. apply history_app. split; [assumption|].
    apply Forall_cons. split; [exact Kx|]. apply Forall_cons. split; [exact Ky|constructor]. }
  destruct (H12 (e1, c1) (e2, c2) Hok1 Hok2) as (Ga & Hga). destruct (H12 (e2, c2) (e1, c1) Hok2 Hok1) as (Gb & Hgb). rewrite <- EQ in Hgb.
  split. { intros t d. unfold w12, w21. rewrite (liquidity_open _ _ _ (gd_inv _ _ _ Hga) (gd_ref _ _ _ Hga)), (liquidity_open _ _ _ (gd_inv _ _ _ Hgb) (gd_ref _ _ _ Hgb)). reflexivity. }
  split. { intros d. unfold pool_liquidity. rewrite X3, X3'. reflexivity. }
  split; [|exact EQ]. intros denom. unfold balance. change (bal_get (w_bal w12) denom = bal_get (w_bal w21) denom). rewrite Y6, Z6. lia.
Qed.
Print Assumptions C35_claims_commute.

Example C35_case :
  let w := run w_start hist_three in
  call_ok (w_self w) (c_claim "p" 0 0) = true /\ call_ok (w_self w) (c_claim "q" 0 1) = true /\
  active (w_st w) = true /\ banks_ok tenv w Q_three "p" /\ banks_ok tenv w Q_three "q" /\
  done tenv w (c_claim "p" 0 1) = true /\ done tenv w (c_claim "q" 0 0) = true /\
  (exists en, en ∈ Q_three /\ (en_tick en, en_id en) <> (0, 0)).
Proof.
  split; [vm_compute; reflexivity|]. split; [vm_compute; reflexivity|]. split; [vm_compute; reflexivity|].
  split; [split; [|split]; intros; reflexivity|]. split; [split; [|split]; intros; reflexivity|]. split; [vm_compute; reflexivity|].
  split; [vm_compute; reflexivity|]. exists (mkEntry 0 Bid 1 "b" (Some (10 ^ 16)) (e_time tenv) 20 10 10 0 0).
  split; [apply elem_of_list_In; vm_compute; auto|]. intros K. discriminate K.
Qed.

(** ** C36 *)
Lemma oa_tv g : side_ok g -> tv_tal (tv_of (g_sync g)) = tv_tal (tv_of g) /\ tv_ctt (tv_of (g_sync g)) = tv_ctt (tv_of g) /\
  tv_etas (tv_of (g_sync g)) - tv_crc (tv_of (g_sync g)) = tv_etas (tv_of g) - tv_crc (tv_of g).
Proof.
  intros _. unfold tv_of. cbn [tv_tal tv_ctt tv_etas tv_crc]. unfold g_open. rewrite sync_items, sync_F. split; [reflexivity|]. split; [reflexivity|]. lia.
Qed.
Lemma dir_ne_opp d d' : d' <> d -> d' = opposite d.
Proof. destruct d, d'; intros K; try reflexivity; destruct (K eq_refl). Qed.
(** The ghost changed at one side, after a synchronisation of its tick. *)
Lemma only_sides s s' G G' t d g : inv s G -> inv s' G' -> G' = gset (gsync G t) t d g ->
  (forall t' d', (t', d') <> (t, d) -> tick_liquidity s' t' d' = tick_liquidity s t' d') /\
  (forall t' d', t' <> t -> side_values s' t' d' = side_values s t' d') /\
  (let v := side_values s t (opposite d) in let v' := side_values s' t (opposite d) in
    tv_tal v' = tv_tal v /\ tv_ctt v' = tv_ctt v /\ tv_etas v' - tv_crc v' = tv_etas v - tv_crc v).
Proof.
  intros Hi Hi' ->. split; [|split].
  - intros t' d' Hn. rewrite (tick_liquidity_open _ _ _ _ Hi'), (tick_liquidity_open _ _ _ _ Hi).
    rewrite gset_ne; [apply gsync_open|]. destruct (decide (t' = t)); [right|left]; congruence.
  - intros t' d' Hn. rewrite (side_ghost _ _ _ _ Hi'), (side_ghost _ _ _ _ Hi). rewrite gset_ne by auto. rewrite gsync_ne by assumption. reflexivity.
  - cbn zeta. rewrite (side_ghost _ _ _ _ Hi'), (side_ghost _ _ _ _ Hi). rewrite gset_ne by (right; exact (opp_ne d)). rewrite gsync_eq. apply oa_tv. apply Hi.
Qed.
(** Placing, cancelling and claiming act on one tick and direction only. *)
Theorem C36_place_local :
  forall e w0 h i t d q b w' r, start w0 -> history w0 h ->
  let w := run w0 h in let Q := ideal_run w0 [] h in let c := CExec i (PlaceLimit t d q b) in
  call_ok (w_self w) c = true -> step e w c = (w', Done r) -> only_at t d (w_st w) (w_st w') Q (ideal_step e w c Q).
Proof.
  intros e w0 h i t d q b w' r Hs Hh w Q c Hok E. assert (Hre : reachable w) by (apply start_reachable; assumption).
  destruct (C03_place_effect e w i t d q b w' r Hre Hok E) as (_ & _ & _ & _ & _ & Hnew & (o & Eo & O1 & O2 & O3 & _) & _ & _ & Hsv & Hpl & _).
  assert (Hsv' : forall t' d', (t', d') <> (t, d) -> side_values (w_st w') t' d' = side_values (w_st w) t' d') by (intros t' d' Hn; apply Hsv; intros [-> ->]; congruence).
  split.
  - intros t' d' Hn. specialize (Hsv' _ _ Hn). unfold side_values in Hsv'. unfold tick_liquidity.
    destruct (s_ticks (w_st w') !! t'), (s_ticks (w_st w) !! t'); rewrite ?Hsv'; try reflexivity. rewrite <- Hsv'. reflexivity.
  - intros t' d' Hn. apply Hsv'. congruence.
  - rewrite Hsv' by (intros [= K]; exact (opp_ne d K)). auto.
  - intros t' id' o' Hn. unfold order_of. rewrite Eo. rewrite lookup_insert_Some. split; [intros [[[= <- <-] ->]|[_ K]]; [congruence|assumption]|].
    intros K. right. split; [|assumption]. intros [= <- <-]. rewrite Hnew in K. discriminate.
  - intros en Hn. unfold ideal_step. rewrite E. unfold c, ideal_place. rewrite elem_of_app, elem_of_list_singleton. split; [|auto].
    intros [K| ->]; [assumption|]. cbn in Hn. congruence.
  - assumption.
Qed.
Print Assumptions C36_place_local.
Theorem C36_cancel_local :
  forall e w0 h i t id w' r, start w0 -> history w0 h ->
  let w := run w0 h in let Q := ideal_run w0 [] h in let c := CExec i (CancelLimit t id) in
  call_ok (w_self w) c = true -> step e w c = (w', Done r) ->
  exists o, order_of (w_st w) t id = Some o /\ only_at t (o_dir o) (w_st w) (w_st w') Q (ideal_step e w c Q).
Proof.
  intros e w0 h i t id w' r Hs Hh w Q c Hok E. destruct (run_good w0 h Hs Hh) as (G & [Hi Hr _]). fold w in Hi, Hr. fold Q in Hr.
  destruct (step_done _ _ _ _ _ _ Hi Hok E) as (G' & Ht & Hi' & Eself & Hsend).
  destruct (trans_cancel _ _ _ _ _ _ _ _ _ Ht) as (ob & o & n & cc & m' & tr' & c' & Ha & A1 & A2 & A3 & A4 & A5 & A6 & A7 & -> & Es & EG).
  exists o. split; [assumption|]. pose proof (i_order _ _ Hi _ _ A2) as Ho. pose proof (oo_tick _ _ _ _ Ho) as Hot. pose proof (oo_id _ _ _ _ Ho) as Hoi. cbn in Hot, Hoi.
  destruct (only_sides _ _ _ _ t (o_dir o) _ Hi Hi' EG) as (K1 & K2 & K3). split; try assumption.
  - intros t' id' o' Hn. unfold order_of. rewrite Es. cbn [cancel_st set_dirliq set_ticks set_orders s_orders]. rewrite lookup_delete_Some. split; [tauto|].
    intros K. split; [|assumption]. rewrite Hoi. intros [= <- <-]. rewrite A2 in K. injection K as <-. congruence.
  - intros en Hn. unfold ideal_step. rewrite E. unfold c, ideal_cancel. rewrite upd_elem.
    destruct (entry_of _ _ _ Hr _ _ _ _ _ A2 A5) as (en0 & Hen0 & (D1 & D2 & D3 & _) & _).
    assert (Hx : forall e0, e0 ∈ Q -> en_is t id e0 = true -> (en_tick e0, en_dir e0) = (t, o_dir o)).
    { intros e0 He0 K. apply en_is_true in K as [L1 L2]. assert (e0 = en0) as -> by (eapply ids_same; [exact Hr|assumption|assumption|congruence]). congruence. }
    split.
    + intros (e0 & He0 & [[L ->]|[_ ->]]); [|assumption]. exfalso. apply Hn. rewrite <- (Hx _ He0 L). reflexivity.
    + intros K. exists en. split; [assumption|]. right. split; [|reflexivity]. destruct (en_is t id en) eqn:L; [|reflexivity]. exfalso. auto.
  - rewrite Es. unfold pool_liquidity. cbn [cancel_st set_dirliq set_ticks set_orders s_dirliq]. rewrite lookup_insert_ne by (intros K; exact (opp_ne _ (eq_sym K))). reflexivity.
Qed.
Print Assumptions C36_cancel_local.
Theorem C36_claim_local :
  forall e w0 h i t id w' r, start w0 -> history w0 h ->
  let w := run w0 h in let Q := ideal_run w0 [] h in let c := CExec i (ClaimLimit t id) in
  call_ok (w_self w) c = true -> step e w c = (w', Done r) ->
  exists o, order_of (w_st w) t id = Some o /\ only_at t (o_dir o) (w_st w) (w_st w') Q (ideal_step e w c Q).
Proof.
  intros e w0 h i t id w' r Hs Hh w Q c Hok E. destruct (run_good w0 h Hs Hh) as (G & [Hi Hr _]). fold w in Hi, Hr. fold Q in Hr.
  destruct (C35_claim_isolated e w0 h i t id w' r Hs Hh Hok E) as (I1 & I2 & I3 & I4).
  destruct (step_done _ _ _ _ _ _ Hi Hok E) as (G' & Ht & Hi' & Eself & Hsend).
  destruct (trans_claim _ _ _ _ _ _ _ _ _ Ht) as (ob & a & ms & o' & Ha & A1 & A2 & A3 & ->).
  inversion A3 as [ob1 fee rcp o n cc tr' c' Eob Efee Ercp Eo Hl Het f raw Hf Hi1 Hi2 Hctr X1 X2 X3]; subst ms a o'.
  exists o. split; [assumption|]. pose proof (i_order _ _ Hi _ _ Eo) as Ho. pose proof (oo_tick _ _ _ _ Ho) as Hot. pose proof (oo_id _ _ _ _ Ho) as Hoi. cbn in Hot, Hoi.
  destruct (only_sides _ _ _ _ t (o_dir o) _ Hi Hi' (eq_sym X2)) as (K1 & K2 & K3). rewrite ?X1. split; try assumption.
  - intros t' id' o' Hn. destruct (decide ((t', id') = (t, id))) as [[= -> ->]|Hk]; [|rewrite (I1 _ _ Hk); reflexivity].
    unfold order_of. rewrite Eo. fold w in X1. split; [|intros [= <-]; congruence].
    rewrite <- X1. unfold claim_st. cbn [set_orders s_orders]. destruct (_ =? 0); [rewrite lookup_delete; discriminate|]. rewrite lookup_insert. intros [= <-]. cbn in Hn. congruence.
  - intros en Hn. unfold ideal_step. rewrite E. unfold c, ideal_claim. rewrite upd_elem.
    destruct (entry_of _ _ _ Hr _ _ _ _ _ Eo Hl) as (en0 & Hen0 & (D1 & D2 & D3 & _) & _).
    assert (Hx : forall e0, e0 ∈ Q -> en_is t id e0 = true -> (en_tick e0, en_dir e0) = (t, o_dir o)).
    { intros e0 He0 K. apply en_is_true in K as [L1 L2]. assert (e0 = en0) as -> by (eapply ids_same; [exact Hr|assumption|assumption|congruence]). congruence. }
    split.
    + intros (e0 & He0 & [[L ->]|[_ ->]]); [|assumption]. exfalso. apply Hn. rewrite <- (Hx _ He0 L). reflexivity.
    + intros K. exists en. split; [assumption|]. right. split; [|reflexivity]. destruct (en_is t id en) eqn:L; [|reflexivity]. exfalso. auto.
  - apply I4.
Qed.
Print Assumptions C36_claim_local.

(** A swap changes no order record, nothing on its own side of the book, and on the maker side only
    the ticks it fills. *)
Lemma fill_keep Q : forall x, (forall e, e ∈ Q -> 0 <= en_open e) -> forall en, x (en_tick en) (en_dir en) = 0 -> (en ∈ ideal_fill x Q <-> en ∈ Q).
Proof.
  induction Q as [|e Q IH]; intros x Hq en Hx; cbn [ideal_fill]; [reflexivity|]. rewrite !elem_of_cons.
  set (a := Z.min (x (en_tick e) (en_dir e)) (en_open e)).
  assert (Hs : (en_tick en = en_tick e /\ en_dir en = en_dir e) -> a = 0).
  { intros [K1 K2]. unfold a. rewrite <- K1, <- K2, Hx. specialize (Hq e ltac:(constructor)). lia. }
  rewrite IH; [|intros; apply Hq; constructor; assumption|].
  2:{ destruct (bool_decide_reflect (en_tick en = en_tick e /\ en_dir en = en_dir e)) as [K|K]; [rewrite (Hs K), Hx|]; lia. }
  assert (Hid : a = 0 -> en_set e (en_open e - a) (en_filled e + a) (en_settled e) (en_refunded e) = e).
  { intros ->. unfold en_set. rewrite Z.sub_0_r, Z.add_0_r. destruct e; reflexivity. }
  split; (intros [->|K]; [left|right; assumption]).
  - apply Hid, Hs. auto.
  - symmetry. apply Hid, Hs. auto.
Qed.
Theorem C36_swap_local :
  forall e w0 h sender tin out mn fee target w' r, start w0 -> history w0 h ->
  let w := run w0 h in let Q := ideal_run w0 [] h in let c := swap_call sender tin out mn fee target in
  call_ok (w_self w) c = true -> step e w c = (w', Done r) ->
  exists m, out = deposit_denom (w_st w) m /\
  s_orders (w_st w') = s_orders (w_st w) /\
  (forall t, side_values (w_st w') t (opposite m) = side_values (w_st w) t (opposite m)) /\
  (forall t, tick_liquidity (w_st w') t m = tick_liquidity (w_st w) t m -> side_values (w_st w') t m = side_values (w_st w) t m) /\
  (forall en, en_dir en <> m \/ tick_liquidity (w_st w') (en_tick en) m = tick_liquidity (w_st w) (en_tick en) m -> (en ∈ ideal_step e w c Q <-> en ∈ Q)).
Proof.
  intros e w0 h sender tin out mn fee target w' r Hs Hh w Q c Hok E. assert (Hre : reachable w) by (apply start_reachable; assumption).
  destruct (run_good w0 h Hs Hh) as (G & [Hi Hr _]). fold w in Hi, Hr. fold Q in Hr.
  destruct (C18_swap_fills e w sender tin out mn fee target w' r Hre Hok E) as (m & fills & Eout & Hf & _).
  exists m. split; [assumption|]. split.
  { destruct (step_done _ _ _ _ _ _ Hi Hok E) as (G' & Ht & _). assert (Ea : swap_args c = Some (sender, tin, out, mn, fee, target)) by (unfold c, swap_call; destruct target; reflexivity).
    destruct (trans_swap _ _ _ _ _ _ _ _ _ _ _ _ _ Ea Ht) as (d & ob & l & fs & rest & pr & _ & _ & _ & _ & _ & _ & _ & _ & -> & _). reflexivity. }
  split; [apply (sf_other _ _ _ _ Hf)|]. split.
  { intros t Hl. apply (sf_rest _ _ _ _ Hf). intros K. apply elem_of_list_fmap in K as (f & -> & K). pose proof (sf_liq _ _ _ _ Hf f K). pose proof (sf_out _ _ _ _ Hf f K). lia. }
  intros en Hn.
  assert (EQ : ideal_step e w c Q = ideal_fill (fun t d => tick_liquidity (w_st w) t d - tick_liquidity (w_st w') t d) Q).
  { unfold ideal_step. rewrite E. unfold c, swap_call. destruct target; reflexivity. }
  rewrite EQ. apply fill_keep.
  - intros e0 He0. apply (rf_entry _ _ _ Hr e0 He0).
  - destruct (decide (en_dir en = m)) as [K|K]; [destruct Hn as [Hn|Hn]; [destruct (Hn K)|rewrite K; lia]|].
    rewrite (dir_ne_opp _ _ K). pose proof (sf_other _ _ _ _ Hf (en_tick en)) as Ho. unfold side_values in Ho. unfold tick_liquidity.
    destruct (s_ticks (w_st w') !! en_tick en), (s_ticks (w_st w) !! en_tick en); rewrite ?Ho; try lia; try reflexivity; rewrite <- Ho; reflexivity.
Qed.
Print Assumptions C36_swap_local.

Example C36_case :
  let w := run w_start hist_three in
  map (fun c => call_ok (w_self w) c && done tenv w c)
    [c_place "z" [mkCoin "base" 9] 4 Ask 9 None; c_cancel "c" 0 2; c_claim "z" 0 0; swap_call "z" (mkCoin "base" 7) "quote" 0 0 None] = [true; true; true; true].
Proof. vm_compute. reflexivity. Qed.
