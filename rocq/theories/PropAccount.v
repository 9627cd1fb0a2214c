(** * Property C59: all that the contract holds is owed, given or rounding. *)
From Coq Require Import QArith Lqa.
From Verif Require Import Base Dec Types State TickMath Sumtree Tick Order Auth Contract Query World SpecMath TickMathProofs
  TreeDefs Exec SumtreeProofs Ghost Inv StepPlace StepCancel StepClaim SwapPlan StepSwap Trans Spec Reach Refine RefineStep Reserve Solvency Books SpecProps PropBase Tests PropOrders PropClaims PropBatch PropSwap PropQuote PropAdmin
  SpecAdmin SpecBank PropBank SpecMachine MachineBase MachineSwap PropMachine SpecTrace PropTrace PropCurve SpecFree PropFree SpecAccount.
Local Open Scope Z_scope.

(** ** Rationals *)
Lemma rat_plus a b : (rat (a + b) == rat a + rat b)%Q.
Proof. unfold rat. rewrite inject_Z_plus. reflexivity. Qed.
Lemma rat_minus a b : (rat (a - b) == rat a - rat b)%Q.
Proof. unfold rat, Z.sub. rewrite inject_Z_plus, inject_Z_opp. reflexivity. Qed.
Lemma rat_mult a b : (rat (a * b) == rat a * rat b)%Q.
Proof. unfold rat. rewrite inject_Z_mult. reflexivity. Qed.
Lemma rat_le a b : a <= b -> (rat a <= rat b)%Q.
Proof. unfold rat. rewrite <- Zle_Qle. auto. Qed.
Lemma rat_lt a b : a < b -> (rat a < rat b)%Q.
Proof. unfold rat. rewrite <- Zlt_Qlt. auto. Qed.
Lemma rat_pos a : 0 < a -> (0 < rat a)%Q.
Proof. apply (rat_lt 0). Qed.
Lemma rat_ATOM : (0 < rat ATOM)%Q.
Proof. apply rat_pos. reflexivity. Qed.
(** [x = a / b] *)
Lemma div_le a b x : (0 < b)%Q -> (x * b <= a)%Q -> (x <= a / b)%Q.
Proof. intros Hb H. apply Qle_shift_div_l; assumption. Qed.
Lemma div_ge a b x : (0 < b)%Q -> (a <= x * b)%Q -> (a / b <= x)%Q.
Proof. intros Hb H. apply Qle_shift_div_r; assumption. Qed.
Lemma div_lt a b x : (0 < b)%Q -> (x * b < a)%Q -> (x < a / b)%Q.
Proof. intros Hb H. apply Qlt_shift_div_l; assumption. Qed.
Lemma div_gt a b x : (0 < b)%Q -> (a < x * b)%Q -> (a / b < x)%Q.
Proof. intros Hb H. apply Qlt_shift_div_r; assumption. Qed.

Lemma worth_zero d t : valid_tick t -> (worth_exact d t 0 == 0)%Q.
Proof. intros Ht. pose proof (rat_pos _ (tick_price_pos t Ht)) as Hp. pose proof rat_ATOM as HA. unfold worth_exact. destruct d; change (rat 0) with 0%Q; field; intros E; rewrite E in *; lra. Qed.
Lemma worth_plus d t a b : valid_tick t -> (worth_exact d t (a + b)%Z == worth_exact d t a + worth_exact d t b)%Q.
Proof. intros Ht. pose proof (rat_pos _ (tick_price_pos t Ht)) as Hp. pose proof rat_ATOM as HA. unfold worth_exact. destruct d; rewrite rat_plus; field; intros E; rewrite E in *; lra. Qed.
(** A claim pays the worth rounded down. *)
Lemma worth_floor d t x : valid_tick t -> (rat (proceeds d t x) <= worth_exact d t x /\ worth_exact d t x < rat (proceeds d t x) + 1)%Q.
Proof.
  intros Ht. pose proof (tick_price_pos t Ht) as Hp. pose proof (rat_pos _ Hp) as Hp'. pose proof rat_ATOM as HA. unfold worth_exact, proceeds, ask_gross, bid_gross. destruct d.
  - pose proof (floor_spec (x * ATOM) (tick_price t) Hp) as Hf. set (y := floor_div _ _) in *. change 1%Q with (rat 1). rewrite <- rat_plus. split; [apply div_le|apply div_gt]; try assumption; rewrite <- !rat_mult; [apply rat_le|apply rat_lt]; lia.
  - pose proof (floor_spec (x * tick_price t) ATOM ltac:(reflexivity)) as Hf. set (y := floor_div _ _) in *. change 1%Q with (rat 1). rewrite <- rat_plus. split; [apply div_le|apply div_gt]; try assumption; rewrite <- !rat_mult; [apply rat_le|apply rat_lt]; lia.
Qed.
(** A swap is charged the worth rounded up, up to 10^-18. *)
Lemma worth_charge m t x c : valid_tick t -> 0 <= x -> c <= charge m x (tick_price t) ->
  (m = Ask -> c = charge m x (tick_price t)) -> (m = Bid -> x * ATOM * ATOM - tick_price t < c * tick_price t * ATOM) ->
  (worth_exact m t x - 1 / rat ATOM < rat c /\ rat c < worth_exact m t x + 1)%Q.
Proof.
  intros Ht Hx Hc Ha Hb. pose proof (tick_price_pos t Ht) as Hp. pose proof (rat_pos _ Hp) as Hp'. pose proof rat_ATOM as HA. unfold worth_exact, charge in *. destruct m.
  - specialize (Hb eq_refl). pose proof (ceil_spec (x * ATOM) (tick_price t) Hp) as Hf. set (y := ceil_div _ _) in *. split.
    + assert (E : (rat x * rat ATOM / rat (tick_price t) - 1 / rat ATOM == (rat (x * ATOM * ATOM) - rat (tick_price t)) / (rat (tick_price t) * rat ATOM))%Q).
      { rewrite !rat_mult. field. split; intros E; rewrite E in *; lra. }
      rewrite E. apply div_gt; [rewrite <- rat_mult; apply rat_pos; unfold ATOM; lia|]. rewrite <- rat_minus, <- !rat_mult. apply rat_lt. lia.
    + assert (K : (rat c - 1 < rat x * rat ATOM / rat (tick_price t))%Q); [|lra]. apply div_lt; [assumption|]. change 1%Q with (rat 1). rewrite <- rat_minus, <- !rat_mult. apply rat_lt. nia.
  - specialize (Ha eq_refl). pose proof (ceil_spec (x * tick_price t) ATOM ltac:(reflexivity)) as Hf. set (y := ceil_div _ _) in *. split.
    + assert (K : (rat x * rat (tick_price t) / rat ATOM <= rat c)%Q).
      { apply div_ge; [assumption|]. rewrite <- !rat_mult. apply rat_le. lia. }
      assert (0 < 1 / rat ATOM)%Q by reflexivity. lra.
    + assert (K : (rat c - 1 < rat x * rat (tick_price t) / rat ATOM)%Q); [|lra]. apply div_lt; [assumption|]. change 1%Q with (rat 1). rewrite <- rat_minus, <- !rat_mult. apply rat_lt. unfold ATOM in *. nia.
Qed.

(** ** The owed amount of the machine *)
Definition part (d : dir) (o : resting) : rational := if bool_decide (re_dir o = d) then rat (re_open o) else worth_exact (re_dir o) (re_tick o) (re_filled o).
Definition owed_by (l : list resting) (d : dir) : rational := foldr (fun o acc => part d o + acc)%Q 0%Q l.
Lemma owed_app l1 l2 d : (owed_by (l1 ++ l2) d == owed_by l1 d + owed_by l2 d)%Q.
Proof.
  induction l1 as [|o l1 IH]; [change (owed_by l2 d == 0 + owed_by l2 d)%Q; lra|].
  change (part d o + owed_by (l1 ++ l2) d == (part d o + owed_by l1 d) + owed_by l2 d)%Q. rewrite IH. lra.
Qed.
Lemma owed_lives B d : (forall en, en ∈ B -> 0 <= en_open en /\ 0 <= en_filled en /\ valid_tick (en_tick en)) -> (owed_exact B d == owed_by (lives_of B) d)%Q.
Proof.
  induction B as [|en B IH]; intros H; [reflexivity|]. rewrite lives_of_cons, owed_app. rewrite <- IH by (intros; apply H; constructor; assumption). cbn [owed_exact foldr]. fold (owed_exact B d).
  destruct (H en ltac:(constructor)) as (H1 & H2 & H3). destruct (en_live en) eqn:E; unfold en_live in E.
  - change (owed_by [strip en] d) with ((if bool_decide (en_dir en = d) then rat (en_open en) else worth_exact (en_dir en) (en_tick en) (en_filled en)) + 0)%Q. lra.
  - apply Z.ltb_ge in E. assert (en_open en = 0) as -> by lia. assert (en_filled en = 0) as -> by lia. change (owed_by [] d) with 0%Q. destruct (bool_decide _); [change (rat 0) with 0%Q; lra|]. rewrite worth_zero by assumption. lra.
Qed.
Lemma change_owed t id f l o d : StronglySorted Z.lt (map re_id l) -> find_order t id l = Some o ->
  (owed_by (change t id f l) d == owed_by l d - part d o + match f o with Some o' => part d o' | None => 0 end)%Q.
Proof.
  intros Hs Hf. unfold find_order in Hf. induction l as [|a l IH]; [discriminate|]. cbn [map] in Hs. apply StronglySorted_inv in Hs as [Hs Hlt]. cbn [List.find] in Hf.
  cbn [change flat_map]. fold (change t id f l). rewrite owed_app. change (owed_by (a :: l) d) with (part d a + owed_by l d)%Q. destruct (is_order t id a) eqn:E.
  - injection Hf as ->. assert (Eq : change t id f l = l).
    { unfold is_order in E. apply andb_prop in E as [_ E]. apply Z.eqb_eq in E. rewrite Forall_forall in Hlt. clear -Hlt E. unfold change. induction l as [|b l IH]; [reflexivity|]. cbn [flat_map].
      assert (is_order t id b = false) as ->. { specialize (Hlt (re_id b) ltac:(constructor)). unfold is_order. apply andb_false_intro2, Z.eqb_neq. lia. }
      rewrite IH; [reflexivity|]. intros x Hx. apply Hlt. constructor. exact Hx. }
    rewrite Eq. destruct (f o) as [o'|]; [change (owed_by [o'] d) with (part d o' + 0)%Q|change (owed_by [] d) with 0%Q]; lra.
  - rewrite (IH Hs Hf). change (owed_by [a] d) with (part d a + 0)%Q. lra.
Qed.
Lemma change_sorted t id f l : (forall o o', f o = Some o' -> re_id o' = re_id o) -> StronglySorted Z.lt (map re_id l) -> StronglySorted Z.lt (map re_id (change t id f l)).
Proof.
  intros Hf. assert (K : forall l x, In x (map re_id (change t id f l)) -> In x (map re_id l)).
  { clear l. intros l x Hx. apply in_map_iff in Hx as (o & <- & Ho). unfold change in Ho. apply in_flat_map in Ho as (a & Ha & Ho). destruct (is_order t id a).
    - destruct (f a) as [a'|] eqn:E; [|contradiction]. destruct Ho as [<-|[]]. rewrite (Hf _ _ E). apply in_map. exact Ha.
    - destruct Ho as [<-|[]]. apply in_map. exact Ha. }
  induction l as [|a l IH]; intros Hs; [constructor|]. cbn [map] in Hs. apply StronglySorted_inv in Hs as [Hs Hlt]. specialize (IH Hs).
  assert (Hl : Forall (Z.lt (re_id a)) (map re_id (change t id f l))).
  { rewrite Forall_forall in *. intros x Hx. apply Hlt. apply elem_of_list_In, K, elem_of_list_In, Hx. }
  cbn [change flat_map]. fold (change t id f l). destruct (is_order t id a); [destruct (f a) as [a'|] eqn:E|]; cbn [app map]; [|exact IH|constructor; assumption]. rewrite (Hf _ _ E). constructor; assumption.
Qed.

(** ** Transfers *)
Lemma leaving_split self l denom : leaving self l denom = msgs_in denom l - to_itself self l denom.
Proof.
  induction l as [|m l IH]; [reflexivity|]. cbn [leaving to_itself msgs_in foldr]. fold (leaving self l denom) (to_itself self l denom). rewrite IH.
  destruct (bool_decide_reflect (c_denom (sm_coin m) = denom)); [|rewrite !bool_decide_false by tauto; lia].
  destruct (decide (sm_to m = self)); [rewrite (bool_decide_false (_ /\ sm_to m <> self)), (bool_decide_true (_ /\ sm_to m = self)) by tauto|rewrite (bool_decide_true (_ /\ sm_to m <> self)), (bool_decide_false (_ /\ sm_to m = self)) by tauto]; lia.
Qed.
Lemma itself_app self l1 l2 denom : to_itself self (l1 ++ l2) denom = to_itself self l1 denom + to_itself self l2 denom.
Proof. induction l1 as [|m l1 IH]; [reflexivity|]. cbn [app to_itself foldr]. fold (to_itself self (l1 ++ l2) denom) (to_itself self l1 denom). lia. Qed.
Lemma payment_in denom id to dn a : msgs_in denom (payment id to dn a) = if bool_decide (dn = denom) then a else 0.
Proof. unfold payment. destruct (Z.eqb_spec a 0) as [->|]; cbn [msgs_in sm_coin c_denom c_amount]; destruct (bool_decide _); lia. Qed.
Lemma payments_in m sender o denom : msgs_in denom (payments m sender o) = if bool_decide (payout_of m (re_dir o) = denom) then earned o else 0.
Proof. unfold payments. rewrite !msgs_app, !payment_in. unfold owner_gets. destruct (bool_decide _); lia. Qed.
Definition own (self : string) (ms : list submsg) (denom : string) : rational := rat (to_itself self ms denom).

(** ** Claims *)
Definition sound (m : machine) : Prop :=
  ma_quote m <> ma_base m /\ StronglySorted Z.lt (map re_id (ma_orders m)) /\ forall o, o ∈ ma_orders m -> valid_tick (re_tick o).
Definition paid_to (d : dir) (l : list claim_event) : Z := Z.of_nat (length (List.filter (fun ev => bool_decide (ce_dir ev = opposite d)) l)).
(** What claims leave behind, when [ms] are their transfers. *)
Definition claims_leave (m m' : machine) (ms : list submsg) (evs : list claim_event) (d : dir) : Prop :=
  let x := (owed_by (ma_orders m) d - owed_by (ma_orders m') d - rat (msgs_in (deposit_of m d) ms))%Q in
  (0 <= x)%Q /\ (if paid_to d evs =? 0 then x == 0 else x < rat (paid_to d evs))%Q.
Lemma deposit_dec m d d' : ma_quote m <> ma_base m -> bool_decide (deposit_of m d = deposit_of m d') = bool_decide (d = d').
Proof. intros Hn. destruct d, d'; cbn; [rewrite !bool_decide_true|rewrite !bool_decide_false|rewrite !bool_decide_false|rewrite !bool_decide_true]; congruence. Qed.
Lemma claim_leaves m sender t id m' ms ev d : sound m -> claim_one sender t id m = Some (m', ms, ev) -> sound m' /\ deposit_of m' d = deposit_of m d /\ claims_leave m m' ms [ev] d.
Proof.
  intros (Hn & Hs & Hv) E. unfold claim_one in E. destruct (find_order t id (ma_orders m)) as [o|] eqn:Ef; [|discriminate]. destruct (0 <? re_filled o); [|discriminate]. injection E as <- <- <-.
  set (f := fun o => if re_open o =? 0 then None else Some (set_parts o (re_open o) 0)).
  assert (Hfn : forall o o', f o = Some o' -> re_id o' = re_id o /\ re_tick o' = re_tick o) by (intros x y; unfold f; destruct (re_open x =? 0); [discriminate|]; intros [= <-]; auto).
  split; [|split; [destruct d; reflexivity|]].
  - split; [exact Hn|]. split; [apply change_sorted; [intros; apply Hfn; assumption|exact Hs]|]. cbn [with_orders ma_orders]. intros x Hx. unfold change in Hx. apply elem_of_list_In, in_flat_map in Hx as (a & Ha & Hx).
    apply elem_of_list_In in Ha. destruct (is_order t id a); [fold (f a) in Hx; destruct (f a) as [a'|] eqn:Ea; [|contradiction]; destruct Hx as [<-|[]]; rewrite (proj2 (Hfn _ _ Ea)); apply Hv, Ha|destruct Hx as [<-|[]]; apply Hv, Ha].
  - pose proof Ef as Ho. apply find_some in Ho as [Ho _]. apply elem_of_list_In in Ho. specialize (Hv o Ho).
    unfold claims_leave. cbv zeta. cbn [with_orders ma_orders]. pose proof (change_owed t id f _ o d Hs Ef) as Hco. fold f. set (oc := owed_by (change t id f (ma_orders m)) d) in *. rewrite payments_in.
    change (payout_of m (re_dir o)) with (deposit_of m (opposite (re_dir o))). rewrite deposit_dec by exact Hn. unfold paid_to. cbn [List.filter announcement ce_dir].
    assert (Hpart : (part d o - match f o with Some o' => part d o' | None => 0 end == if bool_decide (re_dir o = d) then 0 else worth_exact (re_dir o) (re_tick o) (re_filled o))%Q).
    { unfold f, part. destruct (Z.eqb_spec (re_open o) 0) as [E0|E0].
      - destruct (bool_decide (re_dir o = d)); [rewrite E0; change (rat 0) with 0%Q|]; lra.
      - cbn [set_parts re_dir re_open re_tick re_filled]. destruct (bool_decide (re_dir o = d)); [|rewrite worth_zero by exact Hv]; lra. }
    change (earned o) with (proceeds (re_dir o) (re_tick o) (re_filled o)). pose proof (worth_floor (re_dir o) (re_tick o) (re_filled o) Hv) as [W1 W2].
    assert (Hb : bool_decide (opposite (re_dir o) = d) = negb (bool_decide (re_dir o = d)) /\ bool_decide (re_dir o = opposite d) = negb (bool_decide (re_dir o = d))).
    { destruct (re_dir o), d; cbn; split; (rewrite !bool_decide_true by reflexivity; reflexivity) || (rewrite !bool_decide_false by discriminate; reflexivity) || (rewrite bool_decide_true by reflexivity; rewrite bool_decide_false by discriminate; reflexivity) || (rewrite bool_decide_false by discriminate; rewrite bool_decide_true by reflexivity; reflexivity). }
    destruct Hb as [-> ->]. set (pc := match f o with Some o' => part d o' | None => 0%Q end) in *. clearbody pc oc. revert Hpart. destruct (bool_decide (re_dir o = d)); intros Hpart; cbn [negb length Z.of_nat]; change (rat 0) with 0%Q.
    + change (Z.of_nat 0 =? 0) with true. cbv iota. split; lra.
    + change (Z.of_nat 1 =? 0) with false. cbv iota. change (rat (Z.of_nat 1)) with 1%Q. split; lra.
Qed.
Lemma paid_to_nonneg d l : 0 <= paid_to d l.
Proof. unfold paid_to. lia. Qed.
Lemma claims_leave_app m m1 m2 ms1 ms2 es1 es2 d : deposit_of m1 d = deposit_of m d ->
  claims_leave m m1 ms1 es1 d -> claims_leave m1 m2 ms2 es2 d -> claims_leave m m2 (ms1 ++ ms2) (es1 ++ es2) d.
Proof.
  unfold claims_leave. cbv zeta. intros Ed [H1 H2] [H3 H4]. rewrite Ed in *. rewrite msgs_app. pose proof (rat_plus (msgs_in (deposit_of m d) ms1) (msgs_in (deposit_of m d) ms2)) as Em.
  assert (E : paid_to d (es1 ++ es2) = paid_to d es1 + paid_to d es2) by (unfold paid_to; rewrite List.filter_app, app_length; lia). rewrite E.
  pose proof (paid_to_nonneg d es1). pose proof (paid_to_nonneg d es2).
  destruct (Z.eqb_spec (paid_to d es1) 0) as [E1|E1], (Z.eqb_spec (paid_to d es2) 0) as [E2|E2]; destruct (Z.eqb_spec (paid_to d es1 + paid_to d es2) 0) as [E3|E3]; try lia;
    pose proof (rat_plus (paid_to d es1) (paid_to d es2)) as Ep; rewrite ?E1, ?E2 in *; change (rat 0) with 0%Q in *; split; lra.
Qed.
Lemma claim_all_leaves sender l d : forall m, sound m ->
  let '(m', ms, evs) := claim_all sender l m in sound m' /\ deposit_of m' d = deposit_of m d /\ claims_leave m m' ms evs d.
Proof.
  induction l as [|[t id] l IH]; intros m Hm; cbn [claim_all].
  - split; [exact Hm|]. split; [reflexivity|]. unfold claims_leave. cbv zeta. cbn [msgs_in]. change (rat 0) with 0%Q. change (paid_to d [] =? 0) with true. cbv iota. split; lra.
  - destruct (claim_one sender t id m) as [[[m1 ms1] ev]|] eqn:E; [|apply IH; exact Hm]. destruct (claim_leaves m sender t id m1 ms1 ev d Hm E) as (Hm1 & Ed & Hl). specialize (IH m1 Hm1).
    destruct (claim_all sender l m1) as [[m2 ms2] evs]. destruct IH as (I1 & I2 & I3). split; [exact I1|]. split; [congruence|]. apply (claims_leave_app m m1 m2 ms1 ms2 [ev] evs); assumption.
Qed.

(** ** Swaps *)
Fixpoint fill_sum (phi : Z -> Z -> rational) (m : dir) (x : Z -> dir -> Z) (B : ideal) : rational :=
  match B with
  | [] => 0%Q
  | en :: B =>
      let a := Z.min (x (en_tick en) (en_dir en)) (en_open en) in
      ((if bool_decide (en_dir en = m) then phi (en_tick en) a else 0) + fill_sum phi m (fun t d => if bool_decide (t = en_tick en /\ d = en_dir en) then (x t d - a)%Z else x t d) B)%Q
  end.
Definition linear (phi : Z -> Z -> rational) : Prop := forall (t a b : Z), valid_tick t -> (phi t (a + b)%Z == phi t a + phi t b)%Q.
Lemma linear0 phi t : linear phi -> valid_tick t -> (phi t 0%Z == 0)%Q.
Proof. intros H Ht. pose proof (H t 0 0 Ht) as K. change (0 + 0) with 0 in K. lra. Qed.
Lemma fill_owed m B : forall x, (forall en, en ∈ B -> 0 <= en_open en /\ valid_tick (en_tick en)) -> (forall t, x t (opposite m) = 0) ->
  (owed_exact (ideal_fill x B) (opposite m) == owed_exact B (opposite m) + fill_sum (worth_exact m) m x B)%Q /\
  (owed_exact (ideal_fill x B) m == owed_exact B m - fill_sum (fun _ a => rat a) m x B)%Q.
Proof.
  induction B as [|en B IH]; intros x H H0; [split; cbn; lra|]. cbn [ideal_fill fill_sum]. set (a := Z.min (x (en_tick en) (en_dir en)) (en_open en)). destruct (H en ltac:(constructor)) as [Ho Hv].
  set (x' := fun t d => if bool_decide (t = en_tick en /\ d = en_dir en) then x t d - a else x t d).
  assert (Ha : en_dir en = opposite m -> a = 0) by (intros E; unfold a; rewrite E, H0; lia).
  destruct (IH x') as [I1 I2]; [intros; apply H; constructor; assumption| |].
  { intros t. unfold x'. destruct (bool_decide_reflect (t = en_tick en /\ opposite m = en_dir en)) as [[E1 E2]|]; [|apply H0]. rewrite H0, Ha by congruence. reflexivity. }
  cbn [owed_exact foldr]. fold (owed_exact (ideal_fill x' B) (opposite m)) (owed_exact B (opposite m)) (owed_exact (ideal_fill x' B) m) (owed_exact B m). cbn [en_set en_dir en_open en_tick en_filled].
  pose proof (opp_ne m) as Hne. destruct (dir_cases m (en_dir en)) as [E|E].
  - rewrite E. rewrite (bool_decide_true (m = m)), (bool_decide_false (m = opposite m)) by congruence. pose proof (worth_plus m (en_tick en) (en_filled en) a Hv). pose proof (rat_minus (en_open en) a). split; lra.
  - rewrite E, (Ha E), Z.sub_0_r, Z.add_0_r. rewrite (bool_decide_true (opposite m = opposite m)), (bool_decide_false (opposite m = m)) by congruence. split; lra.
Qed.
Definition over (phi : Z -> Z -> rational) (f : Z -> Z) (L : list Z) : rational := foldr (fun t acc => phi t (f t) + acc)%Q 0%Q L.
Lemma over_cons phi f t L : over phi f (t :: L) = (phi t (f t) + over phi f L)%Q.
Proof. reflexivity. Qed.
Lemma over_ext phi f g L : (forall t, t ∈ L -> f t = g t) -> over phi f L = over phi g L.
Proof. induction L as [|t L IH]; intros H; [reflexivity|]. rewrite !over_cons, (H t ltac:(constructor)), IH; [reflexivity|]. intros; apply H; constructor; assumption. Qed.
Lemma over_add phi f g t a L : linear phi -> valid_tick t -> NoDup L -> t ∈ L -> (forall u, u ∈ L -> f u = g u + if u =? t then a else 0) ->
  (over phi f L == over phi g L + phi t a)%Q.
Proof.
  intros Hl Ht. induction L as [|u L IH]; intros Hn Hin H; [inversion Hin|]. apply NoDup_cons in Hn as [Hu Hn]. rewrite !over_cons. pose proof (H u ltac:(constructor)) as Eu.
  destruct (Z.eqb_spec u t) as [->|Hne].
  - rewrite (over_ext phi f g L), Eu, (Hl t _ _ Ht); [lra|]. intros v Hv. rewrite (H v ltac:(constructor; exact Hv)). destruct (Z.eqb_spec v t) as [->|]; [contradiction|lia].
  - apply elem_of_cons in Hin as [->|Hin]; [contradiction|]. rewrite Eu, Z.add_0_r, (IH Hn Hin); [lra|]. intros v Hv. apply H. constructor. exact Hv.
Qed.
Lemma fill_over phi m L B : linear phi -> NoDup L -> forall x, (forall en, en ∈ B -> 0 <= en_open en /\ valid_tick (en_tick en)) -> (forall t, 0 <= x t m) -> (forall t, x t m <> 0 -> t ∈ L) -> (forall t, t ∈ L -> valid_tick t) ->
  (fill_sum phi m x B == over phi (fun t => Z.min (x t m) (open_at B t m)) L)%Q.
Proof.
  intros Hl HL. induction B as [|en B IH]; intros x H Hx HxL HvL.
  - cbn [fill_sum]. rewrite (over_ext phi _ (fun _ => 0)) by (intros t _; unfold open_at; cbn; specialize (Hx t); lia). clear -Hl HvL. induction L as [|t L IH]; [reflexivity|]. rewrite over_cons, (linear0 phi t Hl) by (apply HvL; constructor).
    rewrite <- IH; [lra|]. intros; apply HvL; constructor; assumption.
  - destruct (H en ltac:(constructor)) as [Ho Hv]. assert (Hop : forall t, 0 <= open_at B t m).
    { intros t. assert (K : forall e, e ∈ B -> 0 <= en_open e) by (intros e He; apply H; constructor; exact He). clear -K. unfold open_at. induction B as [|e B IH]; [reflexivity|]. cbn [ideal_sum foldr].
      specialize (IH ltac:(intros; apply K; constructor; assumption)). unfold ideal_sum in IH. pose proof (K e ltac:(constructor)). destruct (bool_decide _); lia. }
    assert (HB : forall e, e ∈ B -> 0 <= en_open e /\ valid_tick (en_tick e)) by (intros; apply H; constructor; assumption).
    cbn [fill_sum]. set (a := Z.min (x (en_tick en) (en_dir en)) (en_open en)). set (x' := fun t d => if bool_decide (t = en_tick en /\ d = en_dir en) then x t d - a else x t d).
    assert (Eo : forall t, open_at (en :: B) t m = (if bool_decide (en_tick en = t /\ en_dir en = m) then en_open en else 0) + open_at B t m) by reflexivity.
    destruct (bool_decide_reflect (en_dir en = m)) as [E|E].
    + assert (Ha : a = Z.min (x (en_tick en) m) (en_open en)) by (unfold a; rewrite E; reflexivity). pose proof (Hx (en_tick en)) as Hxe.
      assert (Ex : forall t, x' t m = if t =? en_tick en then x t m - a else x t m).
      { intros t. unfold x'. destruct (Z.eqb_spec t (en_tick en)) as [->|]; [rewrite bool_decide_true by auto|rewrite bool_decide_false by tauto]; reflexivity. }
      rewrite (IH x'); [|exact HB| | |exact HvL].
      2: { intros t. rewrite Ex. specialize (Hx t). destruct (Z.eqb_spec t (en_tick en)) as [Et|]; [rewrite Et in *; lia|lia]. }
      2: { intros t. rewrite Ex. intros Hn. apply HxL. destruct (Z.eqb_spec t (en_tick en)) as [Et|]; [rewrite Et in *; lia|lia]. }
      destruct (Z.eq_dec (x (en_tick en) m) 0) as [E0|E0].
      * assert (Ha0 : a = 0) by lia. rewrite Ha0, (linear0 phi _ Hl Hv), (over_ext phi (fun t => Z.min (x' t m) (open_at B t m)) (fun t => Z.min (x t m) (open_at (en :: B) t m))); [lra|].
        intros t _. cbv beta. rewrite Ex, Eo. specialize (Hop t). destruct (Z.eqb_spec t (en_tick en)) as [->|Hne]; [rewrite E0, bool_decide_true by auto; lia|rewrite bool_decide_false by (intros [? _]; auto); lia].
      * rewrite (over_add phi (fun t => Z.min (x t m) (open_at (en :: B) t m)) (fun t => Z.min (x' t m) (open_at B t m)) (en_tick en) a); [lra|exact Hl|exact Hv|exact HL|apply HxL; exact E0|].
        intros t _. rewrite Ex, Eo. specialize (Hop t). destruct (Z.eqb_spec t (en_tick en)) as [->|Hne]; [rewrite bool_decide_true by auto; lia|rewrite bool_decide_false by (intros [? _]; auto); lia].
    + rewrite (IH x'); [|exact HB| | |exact HvL].
      * rewrite (over_ext phi (fun t => Z.min (x' t m) (open_at B t m)) (fun t => Z.min (x t m) (open_at (en :: B) t m))); [lra|]. intros t _. cbv beta. rewrite Eo. unfold x'. rewrite !bool_decide_false by (intros [_ K]; congruence). lia.
      * intros t. unfold x'. rewrite bool_decide_false by (intros [_ K]; congruence). apply Hx.
      * intros t. unfold x'. rewrite bool_decide_false by (intros [_ K]; congruence). apply HxL.
Qed.
Lemma linear_worth m : linear (worth_exact m).
Proof. intros t a b Ht. apply worth_plus. exact Ht. Qed.
Lemma linear_rat : linear (fun _ a => rat a).
Proof. intros t a b _. apply rat_plus. Qed.
Lemma over_fills phi (f : Z -> Z) fills : (forall g, g ∈ fills -> f (fl_tick g) = fl_out g) ->
  over phi f (map fl_tick fills) = foldr (fun g acc => phi (fl_tick g) (fl_out g) + acc)%Q 0%Q fills.
Proof. induction fills as [|g l IH]; intros H; [reflexivity|]. cbn [map]. rewrite over_cons, (H g ltac:(constructor)), IH by (intros; apply H; constructor; assumption). reflexivity. Qed.
Lemma fills_out_rat fills : (foldr (fun g acc => rat (fl_out g) + acc)%Q 0%Q fills == rat (fills_out fills))%Q.
Proof. induction fills as [|g l IH]; [reflexivity|]. cbn [foldr]. change (fills_out (g :: l)) with (fl_out g + fills_out l). pose proof (rat_plus (fl_out g) (fills_out l)). lra. Qed.
Lemma fills_in_rat s s' m fills l : swap_fills s s' m fills -> (forall f, f ∈ l -> f ∈ fills) ->
  let n := rat (Z.of_nat (length l)) in let x := (rat (fills_in l) - foldr (fun g acc => worth_exact m (fl_tick g) (fl_out g) + acc)%Q 0%Q l)%Q in
  (- (n / rat ATOM) <= x /\ x <= n /\ (l <> [] -> - (n / rat ATOM) < x /\ x < n))%Q.
Proof.
  intros [_ F2 F3 _ _ F6 F7 F8 _ _]. induction l as [|g l IH]; intros Hl.
  - cbv zeta. cbn [foldr length]. change (rat (fills_in [])) with 0%Q. change (rat (Z.of_nat 0)) with 0%Q. assert (0 / rat ATOM == 0)%Q as E by reflexivity. split; [lra|]. split; [lra|congruence].
  - specialize (IH ltac:(intros; apply Hl; constructor; assumption)). cbv zeta in *. cbn [foldr]. change (fills_in (g :: l)) with (fl_in g + fills_in l). pose proof (Hl g ltac:(constructor)) as Hg.
    destruct (worth_charge m (fl_tick g) (fl_out g) (fl_in g) (F2 g Hg) ltac:(pose proof (F3 g Hg); lia) ltac:(apply F6, Hg)) as [W1 W2].
    { intros ->. apply F7; [exact Hg|left; reflexivity]. }
    { intros ->. apply F8; [exact Hg|reflexivity]. }
    pose proof (rat_plus (fl_in g) (fills_in l)) as E1. replace (Z.of_nat (length (g :: l))) with (1 + Z.of_nat (length l)) by (cbn [length]; lia).
    pose proof (rat_plus 1 (Z.of_nat (length l))) as E2. change (rat 1) with 1%Q in E2.
    assert (E3 : (rat (1 + Z.of_nat (length l)) / rat ATOM == 1 / rat ATOM + rat (Z.of_nat (length l)) / rat ATOM)%Q) by (rewrite E2; field; discriminate).
    destruct IH as (I1 & I2 & _). split; [lra|]. split; [lra|]. intros _. split; lra.
Qed.

Definition moved (e : env) (w : world) (Q : ideal) (c : call) (d : dir) : rational :=
  (surplus (fst (step e w c)) (ideal_step e w c Q) d - surplus w Q d)%Q.
Lemma swap_accounts e w0 h sender tin out mn fee target w' r d : start w0 -> history w0 h ->
  let w := run w0 h in let Q := ideal_run w0 [] h in let c := swap_call sender tin out mn fee target in
  call_ok (w_self w) c = true -> step e w c = (w', Done r) ->
  swap_leaves_behind (w_st w) (w_st w') out d (moved e w Q c d).
Proof.
  intros Hs Hh w Q c Hok E. pose proof (start_reachable w0 h Hs Hh) as Hre. fold w in Hre.
  assert (Hst : surplus w' (ideal_step e w c Q) d = surplus (fst (step e w c)) (ideal_step e w c Q) d) by (rewrite E; reflexivity).
  unfold moved. rewrite <- Hst. clear Hst.
  destruct (C14_swap_result _ _ _ _ _ _ _ _ _ _ Hre Hok E) as (m & amount & refund & charged & dust & _ & _ & Din & Dout & Hne & _ & Hpos & Hms & _ & _ & Hch & Hrf & Hdu & Hsum & _ & _ & _ & B1 & B2 & _ & _ & Hden & _).
  destruct (C40_leftover _ _ _ _ _ _ _ _ _ _ Hre Hok E) as (m2 & fills & refund2 & kept & Dout2 & Hf & Hms2 & Hsum2 & Hk & _ & _ & _ & Hkept & _).
  assert (m = m2) as <- by (apply (deposit_inj w); [assumption|congruence]).
  rewrite Hms in Hms2. injection Hms2 as Eam Epay. apply pay_inj in Epay. subst amount refund2.
  destruct (run_good w0 h Hs Hh) as (G & Hg). fold w Q in Hg. pose proof (gd_inv _ _ _ Hg) as Hi. pose proof (gd_ref _ _ _ Hg) as Hr.
  assert (HB : forall en, en ∈ Q -> 0 <= en_open en /\ valid_tick (en_tick en)) by (intros en Hen; pose proof (rf_entry _ _ _ Hr _ Hen) as [? ? ? ? ? ? ? ? ?]; auto).
  assert (Hliq : forall t d, tick_liquidity (w_st w) t d = open_at Q t d) by (intros; eapply liquidity_open; eassumption).
  set (x := fun t d => tick_liquidity (w_st w) t d - tick_liquidity (w_st w') t d).
  assert (EQ : ideal_step e w c Q = ideal_fill x Q). { unfold ideal_step. rewrite E. unfold c, swap_call. destruct target; reflexivity. }
  assert (Hother : forall t, x t (opposite m) = 0) by (intros t; unfold x; rewrite !liq_side, (sf_other _ _ _ _ Hf); lia).
  assert (Hx0 : forall t, 0 <= x t m) by (intros t; unfold x; pose proof (fills_less _ _ _ _ t m Hf); lia).
  assert (Hin : forall t, x t m <> 0 -> t ∈ map fl_tick fills).
  { intros t Hn. destruct (decide (t ∈ map fl_tick fills)) as [|Hno]; [assumption|]. exfalso. apply Hn. unfold x. rewrite !liq_side, (sf_rest _ _ _ _ Hf) by assumption. lia. }
  assert (HvL : forall t, t ∈ map fl_tick fills -> valid_tick t) by (intros t Ht; apply elem_of_list_fmap in Ht as (f & -> & Hff); apply (sf_valid _ _ _ _ Hf); exact Hff).
  assert (Hmin : forall f, f ∈ fills -> Z.min (x (fl_tick f) m) (open_at Q (fl_tick f) m) = fl_out f).
  { intros f Hff. unfold x. rewrite <- Hliq, (sf_liq _ _ _ _ Hf f Hff). pose proof (sf_out _ _ _ _ Hf f Hff). lia. }
  destruct (fill_owed m Q x HB Hother) as [O1 O2].
  rewrite (fill_over (worth_exact m) m _ Q (linear_worth m) (sf_once _ _ _ _ Hf) x HB Hx0 Hin HvL), over_fills in O1 by exact Hmin.
  rewrite (fill_over (fun _ a => rat a) m _ Q linear_rat (sf_once _ _ _ _ Hf) x HB Hx0 Hin HvL), over_fills, fills_out_rat in O2 by exact Hmin.
  assert (Edep : forall d, deposit_denom (w_st w') d = deposit_denom (w_st w) d) by (unfold denoms_of in Hden; injection Hden as D1 D2; intros []; assumption).
  unfold surplus. rewrite EQ, Edep. exists m. split; [exact Dout|]. split.
  - intros ->. rewrite <- Dout, B1. pose proof (rat_minus (balance w out) (fills_out fills)). lra.
  - intros ->. exists (map fl_tick fills), kept. rewrite map_length. split; [apply (sf_once _ _ _ _ Hf)|]. split; [|split; [exact Hk|split; [|split]]].
    + intros t. split; [|intros Hlt; apply Hin; unfold x; lia]. intros Ht. apply elem_of_list_fmap in Ht as (f & -> & Hff). rewrite (sf_liq _ _ _ _ Hf f Hff). pose proof (sf_out _ _ _ _ Hf f Hff). lia.
    + intros Hp. apply Hkept, Hp.
    + intros t Ht. destruct (Z.eq_dec kept 0) as [->|]; [destruct m; reflexivity|]. apply Hkept; [lia|exact Ht].
    + change (deposit_denom (w_st w) (opposite m)) with (proceeds_denom (w_st w) m). rewrite <- Din, B2. replace (balance w (c_denom tin) + charged + dust) with (balance w (c_denom tin) + (fills_in fills + kept)) by lia.
      pose proof (rat_plus (balance w (c_denom tin)) (fills_in fills + kept)) as E1. pose proof (rat_plus (fills_in fills) kept) as E2.
      assert (Hnil : fills <> []) by (intros ->; cbn in Hpos; lia).
      destruct (fills_in_rat _ _ _ _ fills Hf ltac:(auto)) as (_ & _ & F). specialize (F Hnil). cbv zeta in F. split; lra.
Qed.

(** ** One transaction *)
Lemma good_sound w G Q : good w G Q -> sound (abs (w_st w) Q) /\ forall d, (owed_exact Q d == owed_by (ma_orders (abs (w_st w) Q)) d)%Q.
Proof.
  intros Hg. pose proof (shows_abs _ _ _ Hg) as Hsh. pose proof (gd_ref _ _ _ Hg) as Hr. pose proof (gd_inv _ _ _ Hg) as Hi.
  destruct (i_book _ _ Hi) as (ob & Eob & Hb). pose proof (bo_denoms _ _ Hb). split; [split; [|split; [exact (sh_ids _ _ Hsh)|]]|].
  - cbn [abs ma_quote ma_base]. rewrite !(den_eq _ _ _ Eob). cbn. congruence.
  - intros o Ho. apply lives_in in Ho as (en & Hen & _ & ->). apply (eo_tick _ _ (rf_entry _ _ _ Hr _ Hen)).
  - intros d. apply owed_lives. intros en Hen. pose proof (rf_entry _ _ _ Hr _ Hen) as [? ? ? ? ? ? ? ? ?]. auto.
Qed.
Lemma moved_machine e w0 h c w' r d : start w0 -> history w0 h -> let w := run w0 h in let Q := ideal_run w0 [] h in
  call_ok (w_self w) c = true -> step e w c = (w', Done r) ->
  let m := abs (w_st w) Q in exists m', m_run e c m = Some (m', r) /\ sound m /\ deposit_of m d = deposit_denom (w_st w) d /\
  (moved e w Q c d == rat (received (call_funds c) (deposit_of m d)) - rat (msgs_in (deposit_of m d) (r_msgs r)) + rat (to_itself (w_self w) (r_msgs r) (deposit_of m d))
    + owed_by (ma_orders m) d - owed_by (ma_orders m') d)%Q.
Proof.
  intros Hs Hh w Q Hok E m. destruct (run_good w0 h Hs Hh) as (G & Hg). fold w Q in Hg. destruct (step_good e w G Q c Hg Hok) as (G' & Hg' & _).
  pose proof (machine_done _ _ _ _ _ _ _ Hg Hok E) as Em. exists (abs (w_st w') (ideal_step e w c Q)). split; [exact Em|]. destruct (good_sound _ _ _ Hg) as [Hso Ho]. destruct (good_sound _ _ _ Hg') as [_ Ho'].
  split; [exact Hso|]. split; [apply abs_deposit|]. unfold m. rewrite abs_deposit. unfold moved, surplus.
  pose proof (denoms_step e w c (start_reachable w0 h Hs Hh) Hok) as Hden. rewrite E in *. cbn [fst] in *.
  assert (Edep : forall d, deposit_denom (w_st w') d = deposit_denom (w_st w) d) by (unfold denoms_of in Hden; injection Hden as D1 D2; intros []; assumption). rewrite Edep.
  destruct (C47_paid_in_full _ _ _ _ _ E) as [_ HB]. rewrite HB, leaving_split. specialize (Ho d). specialize (Ho' d). rewrite Ho, Ho'. set (den := deposit_denom (w_st w) d).
  pose proof (rat_minus (balance w den + received (call_funds c) den) (msgs_in den (r_msgs r) - to_itself (w_self w) (r_msgs r) den)) as E1.
  pose proof (rat_plus (balance w den) (received (call_funds c) den)) as E2. pose proof (rat_minus (msgs_in den (r_msgs r)) (to_itself (w_self w) (r_msgs r) den)) as E3. lra.
Qed.
Lemma part_worth d o : valid_tick (re_tick o) -> re_filled o = 0 -> (part d o == if bool_decide (re_dir o = d) then rat (re_open o) else 0)%Q.
Proof. intros Hv E. unfold part. rewrite E. destruct (bool_decide _); [reflexivity|]. apply worth_zero. exact Hv. Qed.
Lemma no_funds_received i den : no_funds i = true -> received (i_funds i) den = 0.
Proof. unfold no_funds. destruct (i_funds i); [reflexivity|discriminate]. Qed.
Lemma settings_leave m f a m' r : m_reply m f a = Some (m', r) -> ma_orders m' = ma_orders m /\ r_msgs r = [].
Proof. intros [= <- <-]. split; reflexivity. Qed.

Theorem C59_step :
  forall e w0 h c w' r d, start w0 -> history w0 h ->
  let w := run w0 h in let B := ideal_run w0 [] h in let B' := ideal_run w0 [] (h ++ [(e, c)]) in
  call_ok (w_self w) c = true -> step e w c = (w', Done r) ->
  exists x, leaves_behind (w_self w) (w_st w) (w_st w') c r d x /\ (surplus w' B' d == surplus w B d + x)%Q.
Proof.
  intros e w0 h c w' r d Hs Hh w B B' Hok E. exists (moved e w B c d).
  assert (Eq : (surplus w' B' d == surplus w B d + moved e w B c d)%Q).
  { unfold moved, B'. rewrite ideal_run_last. fold w B. rewrite E. cbn [fst]. lra. }
  split; [|exact Eq]. clear Eq B'.
  destruct (moved_machine e w0 h c w' r d Hs Hh Hok E) as (m' & Em & Hso & Ed & Eq). fold w B in Em, Hso, Ed, Eq. set (m := abs (w_st w) B) in *. set (x := moved e w B c d) in *. clearbody m.
  destruct c as [i msg|msg| |g].
  - destruct msg as [t dd q b|t id|t id|l|a]; cbn [leaves_behind m_run call_funds] in *.
    + unfold m_place in Em. match type of Em with (if ?c then _ else _) = _ => destruct c eqn:Ec; [|discriminate] end. injection Em as <- <-. cbn [ma_orders r_msgs msgs_in to_itself foldr] in Eq.
      apply andb_prop in Ec as [Ec Ef]. apply andb_prop in Ec as [Ec _]. apply andb_prop in Ec as [Ec _]. apply andb_prop in Ec as [_ Et]. destruct (i_funds i) as [|f [|? ?]]; try discriminate. apply andb_prop in Ef as [Ef1 Ef2]. apply bool_decide_eq_true in Ef1. apply Z.eqb_eq in Ef2.
      rewrite owed_app in Eq. match type of Eq with context [owed_by [?o] d] => change (owed_by [o] d) with (part d o + 0)%Q in Eq; rewrite (part_worth d o) in Eq end; [|unfold tick_ok in Et; apply andb_prop in Et as [E1 E2]; apply Z.leb_le in E1, E2; unfold valid_tick; cbn; lia|reflexivity].
      cbn [received foldr re_dir re_open] in Eq. rewrite Ef1, Ef2, (deposit_dec m dd d) in Eq by apply Hso. revert Eq. destruct (bool_decide (dd = d)); rewrite ?Z.add_0_r; intros Eq; change (rat 0) with 0%Q in Eq; lra.
    + unfold m_cancel in Em. destruct (find_order t id (ma_orders m)) as [o|] eqn:Ef; [|discriminate]. match type of Em with (if ?c then _ else _) = _ => destruct c eqn:Ec; [|discriminate] end. injection Em as <- <-.
      apply andb_prop in Ec as [Ec E0]. apply andb_prop in Ec as [Ec _]. apply andb_prop in Ec as [_ En]. apply Z.eqb_eq in E0.
      cbn [with_orders ma_orders r_msgs msgs_in to_itself foldr sm_coin sm_to c_denom c_amount] in Eq. rewrite (no_funds_received _ _ En), (deposit_dec m (re_dir o) d) in Eq by apply Hso.
      assert (Hne : i_sender i <> w_self w). { unfold call_ok, payer_ok in Hok. apply andb_prop in Hok as [Hok _]. apply negb_true_iff, bool_decide_eq_false in Hok. exact Hok. }
      rewrite (bool_decide_false (_ /\ i_sender i = w_self w)) in Eq by tauto. destruct Hso as (Hn & Hsrt & Hv). rewrite (change_owed t id _ _ o d Hsrt Ef) in Eq.
      pose proof Ef as Ho. apply find_some in Ho as [Ho _]. apply elem_of_list_In in Ho. rewrite (part_worth d o (Hv o Ho) E0) in Eq. revert Eq. destruct (bool_decide (re_dir o = d)); rewrite ?Z.add_0_r; change (rat 0) with 0%Q; intros; lra.
    + unfold m_claim in Em. match type of Em with (if ?c then _ else _) = _ => destruct c eqn:Ec; [|discriminate] end. apply andb_prop in Ec as [_ En].
      destruct (claim_one (i_sender i) t id m) as [[[m1 ms] ev]|] eqn:E1; [|discriminate]. injection Em as <- <-. destruct (claim_leaves m _ _ _ _ _ _ d Hso E1) as (_ & _ & Hl1 & Hl2). cbn [r_msgs r_events] in *.
      rewrite (no_funds_received _ _ En) in Eq. change (rat 0) with 0%Q in Eq. cbv zeta. unfold claims_paid. cbn [r_events]. fold (paid_to d [ev]). rewrite <- Ed. split; [lra|]. revert Hl2. destruct (paid_to d [ev] =? 0); intros; lra.
    + unfold m_batch in Em. match type of Em with (if ?c then _ else _) = _ => destruct c eqn:Ec; [|discriminate] end. apply andb_prop in Ec as [Ec _]. apply andb_prop in Ec as [_ En].
      pose proof (claim_all_leaves (i_sender i) l d m Hso) as Hl. destruct (claim_all (i_sender i) l m) as [[m1 ms] evs]. injection Em as <- <-. destruct Hl as (_ & _ & Hl1 & Hl2). cbn [r_msgs r_events] in *.
      rewrite (no_funds_received _ _ En) in Eq. change (rat 0) with 0%Q in Eq. cbv zeta. unfold claims_paid. cbn [r_events]. fold (paid_to d evs). rewrite <- Ed. split; [lra|]. revert Hl2. destruct (paid_to d evs =? 0); intros; lra.
    + assert (K : ma_orders m' = ma_orders m /\ r_msgs r = []).
      { unfold m_auth in Em. destruct (ma_set m). destruct a; match type of Em with (if ?c then _ else _) = _ => destruct c; [|discriminate] end; eapply settings_leave; exact Em. }
      destruct K as [K1 K2]. rewrite K1, K2 in Eq. cbn [msgs_in to_itself foldr] in Eq. change (rat 0) with 0%Q in Eq. rewrite <- Ed. lra.
  - assert (Hset : call_funds (CSudo msg) = [] -> ma_orders m' = ma_orders m /\ r_msgs r = [] -> (x == rat (received (call_funds (CSudo msg)) (deposit_denom (w_st w) d)))%Q).
    { intros K0 [K1 K2]. rewrite K0, K1, K2 in *. cbn [msgs_in to_itself received foldr] in *. change (rat 0) with 0%Q in *. lra. }
    destruct msg as [sender tin out mn fee|sender tin out mn fee target|sender tin mx out fee|a| |b]; cbn [m_run leaves_behind] in *.
    + exact (swap_accounts e w0 h sender tin out mn fee None w' r d Hs Hh Hok E).
    + exact (swap_accounts e w0 h sender tin out mn fee (Some target) w' r d Hs Hh Hok E).
    + unfold m_sudo in Em. destruct (ma_set m). discriminate.
    + apply Hset; [reflexivity|]. unfold m_sudo in Em. destruct (ma_set m). match type of Em with (if ?c then _ else _) = _ => destruct c; [|discriminate] end. eapply settings_leave; exact Em.
    + apply Hset; [reflexivity|]. unfold m_sudo in Em. destruct (ma_set m). match type of Em with (if ?c then _ else _) = _ => destruct c; [|discriminate] end. eapply settings_leave; exact Em.
    + apply Hset; [reflexivity|]. unfold m_sudo in Em. destruct (ma_set m). match type of Em with (if ?c then _ else _) = _ => destruct c; [|discriminate] end. eapply settings_leave; exact Em.
  - cbn [m_run leaves_behind] in *. injection Em as <- <-. cbn [r_msgs resp_default msgs_in to_itself foldr] in Eq. change (rat 0) with 0%Q in Eq. rewrite <- Ed. lra.
  - cbn [m_run leaves_behind] in *. injection Em as <- <-. cbn [r_msgs resp_default msgs_in to_itself foldr] in Eq. change (rat 0) with 0%Q in Eq. rewrite <- Ed. lra.
Qed.
(** C59: along every history, what the contract holds in each of its two tokens is, to the last unit, what the book owes (unfilled
    deposits and exact worth of unclaimed fills), what it held at its creation, and the changes of [leaves_behind], one for each
    transaction: nothing for placing and cancelling, less than one unit for each claim, less than one unit for each tick a swap used and
    an amount that buys nothing, and gifts. *)
Lemma accounts_from w0 d h2 : forall h1, start w0 -> history w0 (h1 ++ h2) ->
  exists xs, changes d (run w0 h1) h2 xs /\ (surplus (run w0 (h1 ++ h2)) (ideal_run w0 [] (h1 ++ h2)) d == surplus (run w0 h1) (ideal_run w0 [] h1) d + rat_sum xs)%Q.
Proof.
  induction h2 as [|[e c] h2 IH]; intros h1 Hs Hh.
  - exists []. split; [exact I|]. rewrite app_nil_r. change (rat_sum []) with 0%Q. lra.
  - assert (Ea : h1 ++ (e, c) :: h2 = (h1 ++ [(e, c)]) ++ h2) by (rewrite <- app_assoc; reflexivity).
    pose proof Hh as Hh0. rewrite Ea in Hh. destruct (IH (h1 ++ [(e, c)]) Hs Hh) as (xs & Hc & Eq). rewrite Ea. rewrite run_last in Hc.
    apply history_app in Hh0 as [Hh1 Hh2]. apply Forall_cons in Hh2 as [Hok _]. cbn [snd] in Hok.
    destruct (step e (run w0 h1) c) as [w' [r|]] eqn:E.
    + destruct (C59_step e w0 h1 c w' r d Hs Hh1 Hok E) as (x & Hx & Ex). exists (x :: xs). cbn [changes]. rewrite E. split; [split; [exact Hx|exact Hc]|].
      rewrite Eq, run_last, E. cbn [fst]. change (rat_sum (x :: xs)) with (x + rat_sum xs)%Q. lra.
    + exists (0%Q :: xs). cbn [changes]. rewrite E. split; [split; [reflexivity|exact Hc]|]. rewrite Eq, run_last, E, ideal_run_last. cbn [fst]. pose proof (step_failed _ _ _ _ E) as Ew. unfold ideal_step. rewrite E, Ew.
      change (rat_sum (0%Q :: xs)) with (0 + rat_sum xs)%Q. lra.
Qed.
Theorem C59_accounts :
  forall w0 h d, start w0 -> history w0 h ->
  let token := deposit_denom (w_st w0) d in
  exists xs, changes d w0 h xs /\
    (rat (balance (run w0 h) token) == rat (balance w0 token) + owed_exact (ideal_run w0 [] h) d + rat_sum xs)%Q.
Proof.
  intros w0 h d Hs Hh token. destruct (accounts_from w0 d h [] Hs Hh) as (xs & Hc & Eq). exists xs. split; [exact Hc|]. cbn [app run ideal_run] in Eq.
  unfold surplus in Eq. pose proof (start_reachable w0 [] Hs ltac:(constructor)) as Hre; cbn [run] in Hre. pose proof (C29_denoms_fixed _ _ Hre Hh) as Hden.
  assert (Edep : deposit_denom (w_st (run w0 h)) d = token) by (unfold denoms_of in Hden; injection Hden as D1 D2; destruct d; assumption). rewrite Edep in Eq. fold token in Eq. change (owed_exact [] d) with 0%Q in Eq. lra.
Qed.
Print Assumptions C59_accounts.
Print Assumptions C59_step.
(** A case: 10 units of base at price 1.1; 2 units of quote buy one of them, which leaves 0.9 units of quote beyond the 1.1 owed; the claim
    pays 1 and leaves another 0.1. *)
Definition hist_account : list (env * call) := [place "a" 100000 Ask 10 None; buy "x" 2; claim "a" 100000 0; cancel "a" 100000 0].
Example C59_case :
  start w_start /\ history w_start hist_account /\ run_out w_start hist_account = [true; true; true; true] /\
  map (fun n => let h := firstn n hist_account in
    (Qred (surplus (run w_start h) (ideal_run w_start [] h) Bid), Qred (owed_exact (ideal_run w_start [] h) Bid), Qred (owed_exact (ideal_run w_start [] h) Ask))) [1; 2; 3; 4]%nat =
  [(0, 0, 10); (9 # 10, 11 # 10, 9); (1, 0, 9); (1, 0, 0)]%Q.
Proof. split; [apply start_ok|]. split; [hist|]. split; vm_compute; reflexivity. Qed.
