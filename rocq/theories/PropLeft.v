(** * Property C79: the liquidity shown is what the orders still offer. *)
From Verif Require Import Base Dec Types State TickMath Sumtree Tick Order Auth Contract Query World SpecMath TickMathProofs
  TreeDefs Exec SumtreeProofs SumtreeRebalance SumtreeInsert PrefixSum SumtreeRoot SumtreeFail Ghost Inv StepPlace StepCancel StepClaim
  SwapPlan StepSwap Trans Spec Reach Refine RefineStep Reserve Solvency Books SpecProps SpecTree SpecQuery PropBase PropOrders PropClaims PropHistory PropSwap
  PropTree PropQuery PropBooks SpecClean PropClean SpecLeft Tests.

Definition en_key (e : entry) : Z * Z := (en_tick e, en_id e).
Lemma sum_keys_perm f l l' : l ≡ₚ l' -> sum_keys f l = sum_keys f l'.
Proof. induction 1 as [|x l l' _ IH|x y l|l1 l2 l3 _ I1 _ I2]; [reflexivity|unfold sum_keys in *; cbn [foldr]; lia|unfold sum_keys; cbn [foldr]; lia|congruence]. Qed.
(** Orders selected by a property of the entries. *)
Lemma offered_sum w0 h (P : entry -> Prop) `{forall e, Decision (P e)} l : start w0 -> history w0 h -> short h ->
  let s := w_st (run w0 h) in let Q := ideal_run w0 [] h in
  NoDup l -> (forall k, k ∈ l <-> exists en, en ∈ Q /\ en_live en = true /\ P en /\ k = en_key en) ->
  (forall k, k ∈ l -> 0 <= still_offered s k) /\
  sum_keys (still_offered s) l = ideal_sum (fun e => if bool_decide (P e) then en_open e else 0) Q.
Proof.
  intros Hs Hh Hsh s Q Hn Hl. destruct (C08_fifo_state w0 h Hs Hh) as (Hid & Hord & Hent & Hnn & _). fold s in Hord, Hent. fold Q in Hid, Hord, Hent, Hnn.
  assert (Hu : forall a b, a ∈ Q -> b ∈ Q -> en_id a = en_id b -> a = b).
  { clear -Hid. induction Q as [|x Q IH]; intros a b Ha Hb E; [inversion Ha|]. cbn [map] in Hid. apply NoDup_cons in Hid as [Hx Hid].
    apply elem_of_cons in Ha as [->|Ha]; apply elem_of_cons in Hb as [->|Hb]; auto; exfalso; apply Hx.
    - rewrite E. apply elem_of_list_fmap. eauto.
    - rewrite <- E. apply elem_of_list_fmap. eauto. }
  assert (Hoff : forall en, en ∈ Q -> en_live en = true -> still_offered s (en_key en) = en_open en).
  { intros en Hen Hlv. destruct (Hent en Hen Hlv) as (o & Eo & D). unfold still_offered, en_key. rewrite Eo.
    destruct (C76_claimable w0 h Hs Hh Hsh _ _ _ Eo) as (en' & Hen' & _ & Ei & _ & Ec & _). fold s in Ec. fold Q in Hen'.
    rewrite Ec. rewrite (Hu _ _ Hen' Hen Ei). unfold describes in D. lia. }
  split. { intros k Hk. apply Hl in Hk as (en & Hen & Hlv & _ & ->). rewrite Hoff by assumption. apply Hnn, Hen. }
  assert (Hp : l ≡ₚ map en_key (filter (fun e => en_live e = true /\ P e) (Q : list entry))).
  { apply NoDup_Permutation; [exact Hn| |].
    - assert (Hsub : NoDup (map en_id (filter (fun e => en_live e = true /\ P e) (Q : list entry)))).
      { clear -Hid. induction Q as [|x Q IH]; [constructor|]. cbn [map] in Hid. apply NoDup_cons in Hid as [Hx Hid]. rewrite filter_cons. case_decide; [|auto].
        cbn [map]. apply NoDup_cons. split; [|auto]. intros K. apply Hx. apply elem_of_list_fmap in K as (y & -> & Hy). apply elem_of_list_filter in Hy as [_ Hy]. apply elem_of_list_fmap. eauto. }
      revert Hsub. generalize (filter (fun e => en_live e = true /\ P e) (Q : list entry)). clear. intros L. induction L as [|x L IH]; [constructor|]. cbn [map]. rewrite !NoDup_cons. intros [Hx Hn].
      split; [|auto]. intros K. apply Hx. apply elem_of_list_fmap in K as (y & E & Hy). injection E as _ E. rewrite E. apply elem_of_list_fmap. eauto.
    - intros k. rewrite Hl, elem_of_list_fmap. split.
      + intros (en & H1 & H2 & H3 & ->). exists en. split; [reflexivity|]. apply elem_of_list_filter. auto.
      + intros (en & -> & He). apply elem_of_list_filter in He as [[H1 H2] H3]. eauto 6. }
  rewrite (sum_keys_perm _ _ _ Hp). clear Hp Hl Hn Hid Hu Hord Hent. revert Hnn Hoff. generalize Q. clear -s. intros Q. induction Q as [|x Q IH]; intros Hnn Hoff; [reflexivity|].
  specialize (IH ltac:(intros; apply Hnn; constructor; assumption) ltac:(intros; apply Hoff; [constructor; assumption|assumption])).
  destruct (Hnn x ltac:(constructor)) as [N1 N2]. specialize (Hoff x ltac:(constructor)).
  rewrite filter_cons. cbn [ideal_sum foldr]. fold (ideal_sum (fun e => if bool_decide (P e) then en_open e else 0) Q).
  destruct (decide (en_live x = true /\ P x)) as [[Hlv Hpx]|Hno].
  - match goal with |- sum_keys _ (map _ (_ :: ?L)) = ?R => change (still_offered s (en_key x) + sum_keys (still_offered s) (map en_key L) = R) end.
    etransitivity; [apply Z.add_cancel_l, IH|]. rewrite Hoff by assumption. rewrite bool_decide_true by assumption. reflexivity.
  - etransitivity; [apply IH|]. destruct (bool_decide_reflect (P x)) as [Hpx|]; [|lia]. assert (en_live x <> true) as Hl by tauto. unfold en_live in Hl.
    destruct (Z.ltb_spec 0 (en_open x + en_filled x)); [congruence|lia].
Qed.

(** The pool liquidity of a side and the liquidity of a tick are exactly what their orders still offer: what remains of each order
    less what can already be claimed of it, both as the queries show it. *)
Theorem C79_liquidity_of_orders :
  forall w0 h, start w0 -> history w0 h -> short h -> let w := run w0 h in let s := w_st w in
  (forall denom, balance w denom <= U128_MAX) ->
  forall asks bids, lists_side s Ask asks -> lists_side s Bid bids ->
  (forall k, k ∈ asks \/ k ∈ bids -> 0 <= still_offered s k) /\
  total_pool_liquidity s = Ok [mkCoin (deposit_denom s Ask) (sum_keys (still_offered s) asks); mkCoin (deposit_denom s Bid) (sum_keys (still_offered s) bids)] /\
  (forall t side l, lists_tick s t side l -> tick_liquidity s t side = sum_keys (still_offered s) l).
Proof.
  intros w0 h Hs Hh Hsh w s Hb asks bids [Na La] [Nb Lb].
  destruct (C08_fifo_state w0 h Hs Hh) as (Hid & Hord & Hent & Hnn & Hliq). fold w in Hord, Hent, Hliq. fold s in Hord, Hent, Hliq.
  set (Q := ideal_run w0 [] h) in *.
  assert (Hside : forall side k, (exists o, s_orders s !! k = Some o /\ o_dir o = side) <-> exists en, en ∈ Q /\ en_live en = true /\ en_dir en = side /\ k = en_key en).
  { intros side [t id]. split.
    - intros (o & Eo & Ed). destruct (Hord _ _ _ Eo) as (en & Hen & E1 & E2 & Hl & D). exists en. unfold describes in D. unfold en_key. rewrite E1, E2. repeat split; try assumption. destruct D as (_ & _ & D & _). congruence.
    - intros (en & Hen & Hl & Ed & E). injection E as -> ->. destruct (Hent en Hen Hl) as (o & Eo & D). exists o. split; [exact Eo|]. destruct D as (_ & _ & D & _). congruence. }
  destruct (offered_sum w0 h (fun e => en_dir e = Ask) asks Hs Hh Hsh Na) as [A1 A2]. { intros k. rewrite La. apply Hside. }
  destruct (offered_sum w0 h (fun e => en_dir e = Bid) bids Hs Hh Hsh Nb) as [B1 B2]. { intros k. rewrite Lb. apply Hside. }
  split; [intros k [Hk|Hk]; auto|]. split.
  - destruct (C19_pool_liquidity w0 h Hs Hh Hb) as (E & _). change (total_pool_liquidity s = Ok [mkCoin (deposit_denom s Ask) (open_dir Q Ask); mkCoin (deposit_denom s Bid) (open_dir Q Bid)]) in E.
    rewrite E. assert (X1 : open_dir Q Ask = sum_keys (still_offered s) asks) by (symmetry; exact A2). assert (X2 : open_dir Q Bid = sum_keys (still_offered s) bids) by (symmetry; exact B2). rewrite X1, X2. reflexivity.
  - intros t side l [Nl Ll]. rewrite Hliq. destruct (offered_sum w0 h (fun e => en_tick e = t /\ en_dir e = side) l Hs Hh Hsh Nl) as [_ C2].
    { intros [t' id]. rewrite Ll. split.
      - intros (o & Eo & Ed & Et). destruct (Hord _ _ _ Eo) as (en & Hen & E1 & E2 & Hl & D). exists en. unfold en_key. rewrite E1, E2. destruct D as (D1 & _ & D3 & _). repeat split; try assumption; congruence.
      - intros (en & Hen & Hl & [Et Ed] & E). injection E as -> ->. destruct (Hent en Hen Hl) as (o & Eo & D). exists o. destruct D as (D1 & _ & D3 & _). repeat split; [exact Eo|congruence|congruence]. }
    symmetry. exact C2.
Qed.
(** So at most as many orders of a side are not completely filled as the pool shows units of liquidity for it, and when none of the
    orders of the side can be claimed completely, no more orders than that are left (the last check of run_fuzz_linear,
    src/tests/e2e/cases/test_fuzz.rs: at most one order of each direction is left once the liquidity is at most 1 and all was claimed). *)
Theorem C79_few_left :
  forall w0 h, start w0 -> history w0 h -> short h -> let w := run w0 h in let s := w_st w in
  (forall denom, balance w denom <= U128_MAX) ->
  forall asks bids a b, lists_side s Ask asks -> lists_side s Bid bids ->
  total_pool_liquidity s = Ok [mkCoin (deposit_denom s Ask) a; mkCoin (deposit_denom s Bid) b] ->
  let unfilled l := List.filter (fun k => negb (still_offered s k =? 0)) l in
  Z.of_nat (length (unfilled asks)) <= a /\ Z.of_nat (length (unfilled bids)) <= b /\
  ((forall k o, s_orders s !! k = Some o -> claimable s o <> Some (o_quantity o)) -> Z.of_nat (length asks) <= a /\ Z.of_nat (length bids) <= b).
Proof.
  intros w0 h Hs Hh Hsh w s Hb asks bids a b Ha Hbd E unfilled.
  destruct (C79_liquidity_of_orders w0 h Hs Hh Hsh Hb asks bids Ha Hbd) as (Hn & E' & _). fold w in Hn, E'. fold s in Hn, E'.
  rewrite E' in E. injection E as <- <-.
  assert (K : forall l, (forall k, k ∈ l -> 0 <= still_offered s k) -> Z.of_nat (length (unfilled l)) <= sum_keys (still_offered s) l).
  { intros l. induction l as [|k l IH]; intros H; [cbn; lia|]. specialize (IH ltac:(intros; apply H; constructor; assumption)). pose proof (H k ltac:(constructor)) as H0.
    change (Z.of_nat (length (if negb (still_offered s k =? 0) then k :: unfilled l else unfilled l)) <= still_offered s k + sum_keys (still_offered s) l). destruct (Z.eqb_spec (still_offered s k) 0); cbn [negb length]; [lia|rewrite Nat2Z.inj_succ; lia]. }
  split; [apply K; auto|]. split; [apply K; auto|]. intros Hno.
  assert (F : forall side l, lists_side s side l -> unfilled l = l).
  { intros side l [_ Hl]. unfold unfilled. assert (Hne : forall k, k ∈ l -> still_offered s k <> 0).
    { intros [t id] Hk. apply Hl in Hk as (o & Eo & _). unfold still_offered. rewrite Eo.
      destruct (C76_claimable w0 h Hs Hh Hsh _ _ _ Eo) as (en & _ & _ & _ & _ & Ec & Hr). change (w_st (run w0 h)) with s in Ec. rewrite Ec. specialize (Hno _ _ Eo). rewrite Ec in Hno.
      intros K0. apply Hno. f_equal. lia. }
    clear Hl. induction l as [|k l IH]; [reflexivity|]. cbn [List.filter]. destruct (Z.eqb_spec (still_offered s k) 0) as [E0|_]; [exfalso; apply (Hne k); [constructor|exact E0]|].
    cbn [negb]. rewrite IH; [reflexivity|]. intros k' Hk'. apply Hne. constructor. exact Hk'. }
  rewrite <- (F Ask asks Ha) at 1. rewrite <- (F Bid bids Hbd) at 1. split; apply K; auto.
Qed.

(** Such lists exist for every state. *)
Definition side_keys (s : storage) (side : dir) : list (Z * Z) :=
  map fst (filter (fun kv : (Z * Z) * limit_order => o_dir kv.2 = side) (map_to_list (s_orders s))).
Lemma side_keys_list s side : lists_side s side (side_keys s side).
Proof.
  unfold lists_side, side_keys. split.
  - pose proof (NoDup_fst_map_to_list (s_orders s)) as H. revert H. generalize (map_to_list (s_orders s)). intros l. induction l as [|x l IH]; intros H; [constructor|].
    cbn [fmap list_fmap] in H. apply NoDup_cons in H as [Hx H]. rewrite filter_cons. case_decide; [|auto]. cbn [map]. apply NoDup_cons. split; [|auto].
    intros K. apply Hx. apply elem_of_list_fmap in K as (y & E & Hy). apply elem_of_list_filter in Hy as [_ Hy]. rewrite E. apply elem_of_list_fmap. eauto.
  - intros k. rewrite elem_of_list_fmap. split.
    + intros ([k' o] & -> & H). apply elem_of_list_filter in H as [H1 H2]. apply elem_of_map_to_list in H2. eauto.
    + intros (o & E & D). exists (k, o). split; [reflexivity|]. apply elem_of_list_filter. split; [exact D|]. apply elem_of_map_to_list. exact E.
Qed.
(** A case: the five orders of [hist_sides], and the same after claims of everything and swaps that leave one unit on each side. *)
Definition hist_rests : list (env * call) := hist_sides ++ [claim "z" 0 0; claim "z" 0 1; claim "z" 100000 3; cancel "f" (-100000) 5; buy "y" 22; sell "y" 9; claim "z" 0 1; claim "z" 0 0; claim "z" 100000 3; claim "z" 200000 4].
Example C79_case :
  let s := w_st (run w_start hist_sides) in let s' := w_st (run w_start hist_rests) in
  history w_start hist_rests /\ short hist_rests /\
  (forallb (fun d => balance (run w_start hist_sides) d <=? U128_MAX) ["base"; "quote"] && forallb (fun d => balance (run w_start hist_rests) d <=? U128_MAX) ["base"; "quote"]) = true /\
  map (fun k => (k, still_offered s k)) (side_keys s Ask) = [((200000, 4), 5); ((100000, 3), 15)] /\
  map (fun k => (k, still_offered s k)) (side_keys s Bid) = [((0, 0), 0); ((0, 1), 10); ((-100000, 5), 9)] /\
  total_pool_liquidity s = Ok [mkCoin "base" 20; mkCoin "quote" 19] /\
  map (fun k => (k, still_offered s' k)) (side_keys s' Ask) = [((200000, 4), 1)] /\ map (fun k => (k, still_offered s' k)) (side_keys s' Bid) = [((0, 1), 1)] /\
  total_pool_liquidity s' = Ok [mkCoin "base" 1; mkCoin "quote" 1] /\
  map (fun k => option_map (fun o => (o_quantity o, claimable s' o)) (s_orders s' !! k)) [(200000, 4); (0, 1)] = [Some (1, Some 0); Some (1, Some 0)].
Proof. cbv zeta. split; [hist|]. split; [vm_compute; discriminate|]. do 7 (split; [vm_compute; reflexivity|]). vm_compute. reflexivity. Qed.
