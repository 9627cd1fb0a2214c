(** * Properties C47 (transfers are all or nothing) and C48 (donations are ignored). *)
From Verif Require Import Base Dec Types State TickMath Sumtree Tick Order Auth Contract Query World SpecMath TickMathProofs
  TreeDefs Exec SumtreeProofs SumtreeRebalance SumtreeInsert PrefixSum SumtreeRoot SumtreeFail Ghost Inv StepPlace StepCancel StepClaim
  SwapPlan StepSwap Trans Spec Reach Refine RefineStep Reserve Solvency Books SpecProps PropBase Tests PropOrders PropIsolation PropBooks SpecBank.

Lemma leaving_net self l denom : leaving self l denom = net self denom l.
Proof.
  induction l as [|m l IH]; [reflexivity|]. cbn [leaving foldr net]. fold (leaving self l denom). rewrite IH. f_equal.
  destruct (bool_decide_reflect (c_denom (sm_coin m) = denom)), (bool_decide_reflect (sm_to m = self)); cbn [andb negb];
    [rewrite bool_decide_false by tauto|rewrite bool_decide_true by tauto|rewrite bool_decide_false by tauto|rewrite bool_decide_false by tauto]; reflexivity.
Qed.
Lemma received_coins l denom : received l denom = coins_in denom l.
Proof. induction l as [|c l IH]; [reflexivity|]. cbn [received foldr coins_in]. fold (received l denom). rewrite IH. reflexivity. Qed.
Lemma sends_transferable e self l : forall b b', sends e self b l = Some b' -> forall m, m ∈ l -> transferable e m.
Proof.
  induction l as [|m l IH]; intros b b' H x Hx; [inversion Hx|]. apply sends_cons in H as (b1 & H1 & H).
  apply elem_of_cons in Hx as [->|Hx]; [|eauto]. unfold send1 in H1. unfold transferable.
  destruct (0 <? c_amount (sm_coin m)) eqn:Ea; cbn [andb] in H1; [|discriminate]. apply Z.ltb_lt in Ea.
  destruct (_ <=? _); cbn [andb] in H1; [|discriminate]. destruct (e_bank_ok e (sm_to m)); [auto|discriminate].
Qed.

(** A successful transaction carried out every transfer it announced, in full, and nothing else
    moved the contract's balances. *)
Theorem C47_paid_in_full :
  forall e w c w' r, step e w c = (w', Done r) ->
  (forall m, m ∈ r_msgs r -> transferable e m) /\
  forall denom, balance w' denom = balance w denom + received (call_funds c) denom - leaving (w_self w) (r_msgs r) denom.
Proof.
  intros e w c w' r H. unfold step in H. destruct (call_run e c (w_st w)) as [s' [r0| | |]]; try discriminate.
  destruct (sends e (w_self w) (credits (w_bal w) (call_funds c)) (r_msgs r0)) as [b'|] eqn:E; [|discriminate]. injection H as <- <-.
  split; [eapply sends_transferable; eassumption|]. intros denom. unfold balance. cbn [w_bal]. fold (bal_get b' denom). fold (bal_get (w_bal w) denom).
  rewrite (sends_net _ _ denom _ _ _ E), credits_get, leaving_net, received_coins. reflexivity.
Qed.
Print Assumptions C47_paid_in_full.

(** If the code accepts a call, then either every transfer can be made and the transaction
    goes through, or one of them cannot and the transaction has no effect at all: no storage
    change, no transfer, and the attached funds stay with the sender. *)
Theorem C47_all_or_nothing :
  forall e w c s' r, reachable w -> call_ok (w_self w) c = true -> call_run e c (w_st w) = (s', Ok r) ->
  ((forall m, m ∈ r_msgs r -> transferable e m) -> exists w', step e w c = (w', Done r) /\ w_st w' = s') /\
  ((exists m, m ∈ r_msgs r /\ ~ transferable e m) -> step e w c = (w, Failed)).
Proof.
  intros e w c s' r Hre Hok E. split.
  - intros Hm. destruct (C20_transfers_covered e w c s' r Hre Hok E Hm) as (w' & r' & H). exists w'. unfold step in *. rewrite E in *.
    destruct (sends _ _ _ _); [|discriminate]. injection H as <- <-. split; reflexivity.
  - intros (m & Hm & Hn). unfold step. rewrite E. destruct (sends _ _ _ _) as [b'|] eqn:Es; [|reflexivity].
    destruct Hn. eapply sends_transferable; eassumption.
Qed.
Print Assumptions C47_all_or_nothing.
(** [reply], which the chain calls for every failed transfer, always refuses, so a failed
    transfer is never swallowed. *)
Theorem C47_reply_refuses : forall s id text, reply id (Some text) s = (s, Err (EReplyError id text)).
Proof. reflexivity. Qed.
Print Assumptions C47_reply_refuses.

(** A batch over two filled orders: it pays both owners; if one of them is blocked nothing
    happens, although the claim of the other alone goes through. *)
Definition bank_hist := [place "a" 0 Ask 10 None; place "b" 0 Ask 10 None; buy "t" 20].
Definition w_bank := run w_start bank_hist.
Definition blocked : env := mkEnv 7 (fun _ => true) (fun _ => Some 1) (fun a => negb (bool_decide (a = "b"))).
Definition c_both := c_batch "x" [(0, 0); (0, 1)].
Example C47_case :
  (run_out w_bank [(tenv, c_both)], run_out w_bank [(blocked, c_both)], run_out w_bank [(blocked, c_claim "x" 0 0)],
   map (fun m => (sm_to m, c_amount (sm_coin m))) (r_msgs (resp_of tenv w_bank c_both)),
   map (fun e => balance (fst (step e w_bank c_both)) "quote") [tenv; blocked])
  = ([true], [false], [true], [("a", 10); ("b", 10)], [0; 20]).
Proof. vm_compute. reflexivity. Qed.

(** *** Donations *)
Theorem C48_balance_blind :
  forall e w1 w2 c, reachable w1 -> reachable w2 -> w_self w1 = w_self w2 -> w_st w1 = w_st w2 ->
  call_ok (w_self w1) c = true ->
  snd (step e w1 c) = snd (step e w2 c) /\ w_st (fst (step e w1 c)) = w_st (fst (step e w2 c)).
Proof.
  intros e w1 w2 c H1 H2 Es Est Hok. pose proof Hok as Hok2. rewrite Es in Hok2.
  destruct (call_run e c (w_st w1)) as [s' o] eqn:E. pose proof E as E2. rewrite Est in E2.
  assert (K : o <> (match o with Ok r => Ok r | _ => o end) \/ (exists r, o = Ok r) \/ (forall r, o <> Ok r)) by (destruct o; eauto; right; right; congruence).
  destruct K as [K|[(r & ->)|K]]; [destruct o; congruence| |].
  - destruct (C47_all_or_nothing e w1 c s' r H1 Hok E) as [A1 A2]. destruct (C47_all_or_nothing e w2 c s' r H2 Hok2 E2) as [B1 B2].
    assert (Hd : (forall m, m ∈ r_msgs r -> transferable e m) \/ exists m, m ∈ r_msgs r /\ ~ transferable e m).
    { clear. induction (r_msgs r) as [|m l IH]; [left; intros m Hm; inversion Hm|].
      assert (Hm : transferable e m \/ ~ transferable e m).
      { unfold transferable. destruct (Z.lt_ge_cases 0 (c_amount (sm_coin m))); [|right; lia].
        destruct (e_bank_ok e (sm_to m)); [left; auto|right; intros [_ ?]; discriminate]. }
      destruct Hm as [Hm|Hm]; [|right; exists m; split; [constructor|assumption]].
      destruct IH as [IH|(x & Hx & Hn)]; [left; intros x Hx; apply elem_of_cons in Hx as [->|Hx]; auto|].
      right. exists x. split; [constructor; assumption|assumption]. }
    destruct Hd as [Hd|Hd].
    + destruct (A1 Hd) as (w1' & -> & <-). destruct (B1 Hd) as (w2' & -> & E3). cbn. auto.
    + rewrite (A2 Hd), (B2 Hd). cbn. auto.
  - assert (F : forall w, call_run e c (w_st w) = (s', o) -> step e w c = (w, Failed)).
    { intros w Ew. unfold step. rewrite Ew. destruct o; try reflexivity. edestruct K; reflexivity. }
    rewrite (F w1 E), (F w2 E2). cbn. auto.
Qed.
Print Assumptions C48_balance_blind.

Lemma blind_balance e w1 w2 c denom : reachable w1 -> reachable w2 -> w_self w1 = w_self w2 -> w_st w1 = w_st w2 -> call_ok (w_self w1) c = true ->
  balance (fst (step e w1 c)) denom - balance w1 denom = balance (fst (step e w2 c)) denom - balance w2 denom.
Proof.
  intros H1 H2 Es Est Hok. destruct (C48_balance_blind e w1 w2 c H1 H2 Es Est Hok) as [Eo _].
  destruct (step e w1 c) as [w1' [r1|]] eqn:E1, (step e w2 c) as [w2' [r2|]] eqn:E2; cbn [fst snd] in *; try discriminate.
  - injection Eo as <-. rewrite (proj2 (C47_paid_in_full _ _ _ _ _ E1)), (proj2 (C47_paid_in_full _ _ _ _ _ E2)), Es. lia.
  - rewrite (step_failed _ _ _ _ E1), (step_failed _ _ _ _ E2). lia.
Qed.
Lemma donate_step e w c : step e w (CDonate c) = (mkWorld (w_self w) (w_st w) (credits (w_bal w) [c]), Done resp_default).
Proof. reflexivity. Qed.

(** Coins sent to the contract without calling it change nothing but its balance, now and for
    ever: the same history without these transfers has the same outcomes (hence the same
    payments), the same storage at the end, and a balance lower by exactly what was sent. *)
Theorem C48_donations_ignored :
  forall w h, reachable w -> history w h ->
  outcomes w h = outcomes w (without_donations h) /\
  w_st (run w h) = w_st (run w (without_donations h)) /\
  forall denom, balance (run w h) denom = balance (run w (without_donations h)) denom + donated h denom.
Proof.
  enough (K : forall h w1 w2, reachable w1 -> reachable w2 -> w_self w1 = w_self w2 -> w_st w1 = w_st w2 -> history w1 h ->
    outcomes w1 h = outcomes w2 (without_donations h) /\
    w_st (run w1 h) = w_st (run w2 (without_donations h)) /\
    forall denom, balance (run w1 h) denom - balance w1 denom = balance (run w2 (without_donations h)) denom - balance w2 denom + donated h denom).
  { intros w h Hre Hh. destruct (K h w w Hre Hre eq_refl eq_refl Hh) as (K1 & K2 & K3). split; [assumption|]. split; [assumption|]. intros denom. specialize (K3 denom). lia. }
  induction h as [|[e c] h IH]; intros w1 w2 H1 H2 Es Est Hh; [cbn; split; [reflexivity|]; split; [assumption|]; intros; lia|].
  inversion Hh as [|x l Hok Hh']; subst. cbn [snd] in Hok. pose proof (step_reach e w1 c H1 Hok) as H1'.
  assert (Hh1 : history (fst (step e w1 c)) h) by (unfold history; rewrite step_self; exact Hh').
  destruct (is_donation c) eqn:Ed.
  - destruct c as [| | |c]; try discriminate. cbn [without_donations List.filter is_donation negb snd outcomes run app donated foldr]. fold (donated h).
    fold (without_donations h). destruct (IH (fst (step e w1 (CDonate c))) w2 H1' H2) as (K1 & K2 & K3); [rewrite step_self; assumption|rewrite donate_step; assumption|assumption|].
    split; [assumption|]. split; [assumption|]. intros denom. specialize (K3 denom). unfold donated in K3.
    assert (Hb : balance (fst (step e w1 (CDonate c))) denom = balance w1 denom + if bool_decide (c_denom c = denom) then c_amount c else 0).
    { destruct (C47_paid_in_full e w1 (CDonate c) _ _ (donate_step e w1 c)) as [_ ->]. cbn. lia. }
    lia.
  - assert (Hok2 : call_ok (w_self w2) c = true) by (rewrite <- Es; assumption).
    destruct (C48_balance_blind e w1 w2 c H1 H2 Es Est Hok) as [B1 B2].
    destruct (IH (fst (step e w1 c)) (fst (step e w2 c)) H1' (step_reach e w2 c H2 Hok2)) as (K1 & K2 & K3); [rewrite !step_self; assumption|assumption|assumption|].
    unfold without_donations in *. cbn [List.filter snd]. rewrite Ed. cbn [negb outcomes run]. rewrite Ed. cbn [app]. rewrite B1, K1.
    split; [reflexivity|]. split; [assumption|]. intros denom. specialize (K3 denom). pose proof (blind_balance e w1 w2 c denom H1 H2 Es Est Hok).
    unfold donated in *. cbn [foldr snd]. assert (Ez : match c with CDonate c0 => if bool_decide (c_denom c0 = denom) then c_amount c0 else 0 | _ => 0 end = 0) by (destruct c; [reflexivity..|discriminate]).
    rewrite Ez. lia.
Qed.
Print Assumptions C48_donations_ignored.
Definition donate (denom : string) (amt : Z) : env * call := (tenv, CDonate (mkCoin denom amt)).
Definition gift_hist := [donate "quote" 5; place "a" 0 Ask 10 None; donate "base" 100; place "b" 0 Ask 10 None; cancel "z" 0 1; donate "other" 1; buy "t" 20; claim "a" 0 0].
Example C48_case :
  (donated gift_hist "base", length (without_donations gift_hist), run_out w_start (without_donations gift_hist),
   map (balance (run w_start gift_hist)) ["quote"; "base"; "other"], map (balance (run w_start (without_donations gift_hist))) ["quote"; "base"; "other"])
  = (100, 5%nat, [true; true; false; true; true], [15; 100; 1], [10; 0; 0]).
Proof. vm_compute. reflexivity. Qed.
Example C48_hyp : reachable w_start /\ history w_start gift_hist.
Proof. split; [|hist]. apply (start_reachable w_start []); [apply start_ok|constructor]. Qed.
