(** * PropQuery: queries (C30-C33, C41). *)
From Verif Require Import Base Dec Types State TickMath Sumtree Tick Order Auth Contract Query World Tests SpecMath TickMathProofs
  TreeDefs Exec SumtreeProofs SumtreeRebalance SumtreeInsert PrefixSum SumtreeRoot SumtreeFail Ghost Inv StepPlace StepCancel StepClaim SwapPlan StepSwap Trans
  Spec Reach Refine RefineStep Reserve Solvency Books SpecProps PropBase PropOrders PropSwap SpecTree PropTree PropBooks SpecQuery.

(** ** Lists *)
Lemma takeZ_first {A} n (l : list A) : takeZ n l = first n l.
Proof.
  unfold first. revert n. induction l as [|x l IH]; intros n; cbn [takeZ]; [rewrite firstn_nil; reflexivity|].
  destruct (Z.leb_spec n 0); [replace (Z.to_nat n) with O by lia; reflexivity|].
  replace (Z.to_nat n) with (S (Z.to_nat (n - 1))) by lia. cbn [firstn]. rewrite IH. reflexivity.
Qed.
Global Instance key_le_total : Total key_le.
Proof. intros [a b] [c d]. unfold key_le. cbn. lia. Qed.
Global Instance key_le_trans : Transitive key_le.
Proof. intros [a b] [c d] [x y]. unfold key_le. cbn. lia. Qed.

Lemma sok_elem s p k : k ∈ sorted_order_keys s p <-> exists o, s_orders s !! k = Some o /\ p k o = true.
Proof.
  unfold sorted_order_keys. rewrite (merge_sort_Permutation key_le). rewrite elem_of_list_fmap. split.
  - intros ((k' & o) & -> & H). apply elem_of_list_filter in H as [Hp H]. apply elem_of_map_to_list in H. exists o. split; [assumption|].
    apply Is_true_eq_true. exact Hp.
  - intros (o & Ho & Hp). exists (k, o). split; [reflexivity|]. apply elem_of_list_filter. split; [apply Is_true_eq_left; exact Hp|].
    apply elem_of_map_to_list. exact Ho.
Qed.
Lemma fst_filter_nodup {K V} (P : K * V -> Prop) `{forall x, Decision (P x)} (l : list (K * V)) : NoDup (map fst l) -> NoDup (map fst (filter P l)).
Proof.
  induction l as [|x l IH]; [auto|]. cbn [map]. intros Hn. apply NoDup_cons in Hn as [H1 H2]. rewrite filter_cons. destruct (decide (P x)); [|auto].
  cbn [map]. apply NoDup_cons. split; [|auto]. intros Hin. apply H1. apply elem_of_list_fmap in Hin as (y & -> & Hy).
  apply elem_of_list_filter in Hy as [_ Hy]. apply elem_of_list_fmap. eauto.
Qed.
Lemma sok_nodup s p : NoDup (sorted_order_keys s p).
Proof. unfold sorted_order_keys. rewrite (merge_sort_Permutation key_le). apply fst_filter_nodup. apply NoDup_fst_map_to_list. Qed.
Lemma sok_sorted s p : StronglySorted key_le (sorted_order_keys s p).
Proof. unfold sorted_order_keys. apply (StronglySorted_merge_sort key_le). Qed.

Lemma orders_at_elem s l o : o ∈ orders_at s l <-> exists k, k ∈ l /\ s_orders s !! k = Some o.
Proof. unfold orders_at. apply elem_of_list_omap. Qed.
Lemma orders_at_sorted s l : (forall k o, s_orders s !! k = Some o -> o_tick o = k.1 /\ o_id o = k.2) ->
  StronglySorted key_le l -> NoDup l -> StronglySorted key_before (orders_at s l).
Proof.
  intros Hk. induction l as [|k l IH]; intros Hs Hn; [constructor|]. apply StronglySorted_inv in Hs as [Hs Hl]. apply NoDup_cons in Hn as [Hn1 Hn].
  unfold orders_at. cbn [omap list_omap]. destruct (s_orders s !! k) as [o|] eqn:Eo; [|apply IH; assumption].
  constructor; [apply IH; assumption|]. apply Forall_forall. intros o' Ho'. apply orders_at_elem in Ho' as (k' & Hk' & Eo').
  rewrite Forall_forall in Hl. specialize (Hl k' Hk'). destruct (Hk _ _ Eo) as [A1 A2]. destruct (Hk _ _ Eo') as [B1 B2].
  unfold key_before, key_le in *. rewrite A1, A2, B1, B2. destruct k as [a b], k' as [a' b']. cbn in *.
  assert (~ (a = a' /\ b = b')) by (intros [-> ->]; contradiction). lia.
Qed.
Lemma orders_at_length s l : (forall k, k ∈ l -> is_Some (s_orders s !! k)) -> length (orders_at s l) = length l.
Proof.
  induction l as [|k l IH]; intros H; [reflexivity|]. unfold orders_at. cbn [omap list_omap].
  destruct (H k ltac:(constructor)) as [o ->]. cbn [length]. f_equal. apply IH. intros k' Hk'. apply H. right. exact Hk'.
Qed.

Lemma lists_sok s (P : limit_order -> Prop) p :
  (forall k o, s_orders s !! k = Some o -> o_tick o = k.1 /\ o_id o = k.2) ->
  (forall k o, s_orders s !! k = Some o -> (p k o = true <-> P o)) ->
  lists s P (orders_at s (sorted_order_keys s p)) /\ length (orders_at s (sorted_order_keys s p)) = length (sorted_order_keys s p).
Proof.
  intros Hk Hp. split; [split|].
  - apply orders_at_sorted; [assumption|apply sok_sorted|apply sok_nodup].
  - intros o. rewrite orders_at_elem. unfold order_of. split.
    + intros (k & Hin & Eo). destruct (Hk _ _ Eo) as [-> ->]. rewrite <- surjective_pairing. split; [assumption|].
      apply sok_elem in Hin as (o' & Eo' & Hpk). rewrite Eo in Eo'. injection Eo' as <-. apply (Hp _ _ Eo). assumption.
    + intros [Eo HP]. exists (o_tick o, o_id o). split; [|assumption]. apply sok_elem. exists o. split; [assumption|]. apply (Hp _ _ Eo). assumption.
  - apply orders_at_length. intros k Hin. apply sok_elem in Hin as (o & Eo & _). eauto.
Qed.
Lemma order_keys w : reachable w -> forall k o, s_orders (w_st w) !! k = Some o -> o_tick o = k.1 /\ o_id o = k.2.
Proof.
  intros Hre k o Eo. destruct (reachable_inv _ Hre) as (G & Hi). pose proof (i_order _ _ Hi _ _ Eo) as Ho. split; [apply (oo_tick _ _ _ _ Ho)|apply (oo_id _ _ _ _ Ho)].
Qed.
Lemma key_leb_spec a b : key_leb a b = true <-> a.1 < b.1 \/ (a.1 = b.1 /\ a.2 <= b.2).
Proof. unfold key_leb. rewrite orb_true_iff, andb_true_iff, Z.ltb_lt, Z.eqb_eq, Z.leb_le. tauto. Qed.
Lemma key_bounds_spec lo hi k o : o_tick o = k.1 -> o_id o = k.2 -> key_in_bounds lo hi k = true <-> from_key lo o /\ to_key hi o.
Proof.
  intros E1 E2. unfold key_in_bounds, from_key, to_key. rewrite E1, E2, andb_true_iff.
  destruct lo as [[a b]|], hi as [[c d]|]; rewrite ?key_leb_spec; cbn [fst snd]; intuition.
Qed.

(** The list is determined. *)
Lemma key_before_irrefl o : ~ key_before o o.
Proof. unfold key_before. lia. Qed.
Lemma sorted_unique (l1 l2 : list limit_order) : StronglySorted key_before l1 -> StronglySorted key_before l2 -> (forall o, o ∈ l1 <-> o ∈ l2) -> l1 = l2.
Proof.
  revert l2. induction l1 as [|a l1 IH]; intros [|b l2] H1 H2 He.
  - reflexivity.
  - exfalso. assert (H : b ∈ @nil limit_order) by (apply He; constructor). inversion H.
  - exfalso. assert (H : a ∈ @nil limit_order) by (apply He; constructor). inversion H.
  - apply StronglySorted_inv in H1 as [H1 F1]. apply StronglySorted_inv in H2 as [H2 F2]. rewrite Forall_forall in F1, F2.
    assert (a = b) as ->.
    { assert (Ha : a ∈ b :: l2) by (apply He; constructor). assert (Hb : b ∈ a :: l1) by (apply He; constructor).
      apply elem_of_cons in Ha as [|Ha]; [assumption|]. apply elem_of_cons in Hb as [|Hb]; [congruence|].
      specialize (F1 _ Hb). specialize (F2 _ Ha). unfold key_before in *. lia. }
    f_equal. apply IH; [assumption..|]. intros o. split; intros Ho.
    + assert (Hx : o ∈ b :: l2) by (apply He; right; assumption). apply elem_of_cons in Hx as [->|]; [|assumption].
      exfalso. apply (key_before_irrefl b), F1, Ho.
    + assert (Hx : o ∈ b :: l1) by (apply He; right; assumption). apply elem_of_cons in Hx as [->|]; [|assumption].
      exfalso. apply (key_before_irrefl b), F2, Ho.
Qed.
Lemma lists_unique s P l1 l2 : lists s P l1 -> lists s P l2 -> l1 = l2.
Proof. intros [A1 A2] [B1 B2]. apply sorted_unique; [assumption..|]. intros o. rewrite A2, B2. tauto. Qed.

(** ** C30 *)
Lemma by_owner w owner lo hi limit : reachable w ->
  exists own sel, lists (w_st w) (fun o => o_owner o = owner) own /\
    lists (w_st w) (fun o => o_owner o = owner /\ from_key lo o /\ to_key hi o) sel /\
    query (w_st w) (QOrdersByOwner owner lo hi limit) = Ok (AOrders (Z.of_nat (length own)) (first (page_length limit) sel)).
Proof.
  intros Hre. pose proof (order_keys w Hre) as Hk. set (s := w_st w) in *.
  destruct (lists_sok s (fun o => o_owner o = owner) (filter_key (FAll owner)) Hk) as [L1 N1].
  { intros k o _. cbn [filter_key]. apply bool_decide_eq_true. }
  destruct (lists_sok s (fun o => o_owner o = owner /\ from_key lo o /\ to_key hi o) (fun k o => filter_key (FAll owner) k o && key_in_bounds lo hi k) Hk) as [L2 N2].
  { intros k o Eo. cbn [filter_key]. rewrite andb_true_iff, bool_decide_eq_true. destruct (Hk _ _ Eo) as [E1 E2]. rewrite (key_bounds_spec lo hi k o E1 E2). tauto. }
  do 2 eexists. split; [exact L1|]. split; [exact L2|]. cbn [query orders_by_owner rmap rbind fst snd]. rewrite N1.
  unfold get_orders_by_owner. rewrite takeZ_first. do 2 f_equal. destruct limit; reflexivity.
Qed.
(** C30: the answer is the first page of the list of the owner's live orders within the (inclusive)
    bounds, sorted by tick and id; the count is the number of all live orders of the owner. *)
Theorem C30_page :
  forall w owner lo hi limit, reachable w ->
  exists own sel, lists (w_st w) (fun o => o_owner o = owner) own /\
    lists (w_st w) (fun o => o_owner o = owner /\ from_key lo o /\ to_key hi o) sel /\
    query (w_st w) (QOrdersByOwner owner lo hi limit) = Ok (AOrders (Z.of_nat (length own)) (first (page_length limit) sel)).
Proof. exact by_owner. Qed.
(** A limit that is a multiple of 2^32 gives an empty page, however many orders there are. *)
Theorem C30_truncated :
  forall w owner lo hi k, reachable w -> exists n,
  query (w_st w) (QOrdersByOwner owner lo hi (Some (k * 2 ^ 32))) = Ok (AOrders n []).
Proof.
  intros w owner lo hi k Hre. destruct (by_owner w owner lo hi (Some (k * 2 ^ 32)) Hre) as (own & sel & _ & _ & E).
  rewrite E. cbn [page_length]. rewrite Z_mod_mult. eexists. reflexivity.
Qed.

(** Reading page by page. *)
Lemma sorted_app_before (l1 l2 : list limit_order) : StronglySorted key_before (l1 ++ l2) -> forall a b, a ∈ l1 -> b ∈ l2 -> key_before a b.
Proof.
  induction l1 as [|x l1 IH]; intros H a b Ha Hb; [inversion Ha|]. cbn in H. apply StronglySorted_inv in H as [H F]. rewrite Forall_forall in F.
  apply elem_of_cons in Ha as [->|Ha]; [|auto]. apply F. apply elem_of_app. auto.
Qed.
Lemma sorted_app_r (l1 l2 : list limit_order) : StronglySorted key_before (l1 ++ l2) -> StronglySorted key_before l2.
Proof. induction l1 as [|x l1 IH]; [auto|]. cbn. intros H. apply StronglySorted_inv in H as [H _]. auto. Qed.
Lemma last_elem {A} (l : list A) x : last l = Some x -> exists l0, l = l0 ++ [x].
Proof. intros H. apply last_Some. exact H. Qed.
Lemma to_none o : to_key None o.
Proof. exact I. Qed.

Lemma pages_spec w owner n : reachable w -> 0 < n < 2 ^ 32 ->
  forall k start sel, lists (w_st w) (fun o => o_owner o = owner /\ from_key start o /\ to_key None o) sel ->
  Z.of_nat (length sel) <= Z.of_nat k * n -> pages k (w_st w) owner start n = sel.
Proof.
  intros Hre Hn. induction k as [|k IH]; intros start sel Hsel Hlen.
  - destruct sel; [reflexivity|]. cbn [length] in Hlen. lia.
  - cbn [pages]. destruct (by_owner w owner start None (Some n) Hre) as (own & sel' & _ & Hsel' & ->).
    rewrite (lists_unique _ _ _ _ Hsel' Hsel). clear Hsel' sel'. cbn [page_length]. rewrite (Z.mod_small n) by lia.
    unfold first.
    set (l1 := firstn (Z.to_nat n) sel). set (l2 := skipn (Z.to_nat n) sel).
    assert (El : sel = l1 ++ l2) by (symmetry; apply firstn_skipn).
    transitivity (l1 ++ l2); [|symmetry; exact El].
    destruct (last l1) as [o|] eqn:Elast.
    + f_equal. apply IH.
      * destruct Hsel as [S1 S2]. split; [rewrite El in S1; apply sorted_app_r in S1; assumption|].
        assert (Ho : o ∈ l1) by (apply last_elem in Elast as (l0 & ->); apply elem_of_app; right; constructor).
        intros x. split.
        -- intros Hx. assert (Hx' : x ∈ sel) by (rewrite El; apply elem_of_app; auto). apply S2 in Hx' as (X1 & X2 & X3 & X4).
           split; [assumption|]. split; [assumption|]. split; [|assumption]. cbn.
           rewrite El in S1. pose proof (sorted_app_before _ _ S1 _ _ Ho Hx) as Hb. unfold key_before in Hb. lia.
        -- intros (X1 & X2 & X3 & X4). assert (Hos : o ∈ sel) by (rewrite El; apply elem_of_app; auto).
           assert (Hx : x ∈ sel).
           { apply S2. split; [assumption|]. split; [assumption|]. split; [|assumption].
             apply S2 in Hos as (_ & _ & O3 & _). unfold from_key in *. destruct start as [[a b]|]; [|exact I]. lia. }
           rewrite El in Hx. apply elem_of_app in Hx as [Hx|]; [|assumption]. exfalso.
           apply last_elem in Elast as (l0 & El0). rewrite El0 in Hx. apply elem_of_app in Hx as [Hx|Hx].
           ++ rewrite El, El0 in S1. rewrite <- app_assoc in S1. pose proof (sorted_app_before _ _ S1 x o Hx ltac:(apply elem_of_app; left; constructor)) as Hb.
              unfold key_before in Hb. cbn in X3. lia.
           ++ apply elem_of_list_singleton in Hx as ->. cbn in X3. lia.
      * assert (L : length sel = (length l1 + length l2)%nat) by (rewrite El at 1; apply app_length).
        assert (L1 : length l1 = Nat.min (Z.to_nat n) (length sel)) by apply firstn_length. lia.
    + apply last_None in Elast. rewrite Elast. cbn [app]. symmetry. destruct sel as [|x sel']; [unfold l2; apply skipn_nil|].
      exfalso. assert (L1 : length l1 = Nat.min (Z.to_nat n) (length (x :: sel'))) by apply firstn_length. rewrite Elast in L1. cbn [length] in L1. lia.
Qed.
(** C30: enough requests of n orders each, every one starting right after the last order received,
    deliver exactly the owner's live orders, each once. *)
Theorem C30_paging :
  forall w owner n k own, reachable w -> 0 < n < 2 ^ 32 ->
  lists (w_st w) (fun o => o_owner o = owner) own -> Z.of_nat (length own) <= Z.of_nat k * n ->
  pages k (w_st w) owner None n = own.
Proof.
  intros w owner n k own Hre Hn [L1 L2] Hlen. apply pages_spec; [assumption..| |assumption]. split; [assumption|].
  intros o. rewrite L2. cbn [from_key to_key]. tauto.
Qed.
(** The same listing for one tick, as used by the contract's internal filter. *)
Theorem C30_by_tick_filter :
  forall w owner t lo hi limit, reachable w ->
  exists sel, lists (w_st w) (fun o => (o_owner o = owner /\ o_tick o = t) /\ from_key lo o /\ to_key hi o) sel /\
    get_orders_by_owner (w_st w) (FByTick t owner) lo hi limit = first (page_length limit) sel.
Proof.
  intros w owner t lo hi limit Hre. pose proof (order_keys w Hre) as Hk. set (s := w_st w) in *.
  destruct (lists_sok s (fun o => (o_owner o = owner /\ o_tick o = t) /\ from_key lo o /\ to_key hi o) (fun k o => filter_key (FByTick t owner) k o && key_in_bounds lo hi k) Hk) as [L2 N2].
  { intros k o Eo. cbn [filter_key]. rewrite !andb_true_iff, bool_decide_eq_true, Z.eqb_eq. destruct (Hk _ _ Eo) as [E1 E2]. rewrite (key_bounds_spec lo hi k o E1 E2). tauto. }
  eexists. split; [exact L2|]. unfold get_orders_by_owner. rewrite takeZ_first. destruct limit; reflexivity.
Qed.

(** ** C31 *)
Theorem C31_orders_by_tick :
  forall w t lo hi limit, reachable w ->
  exists sel, lists (w_st w) (fun o => o_tick o = t /\ from lo (o_id o) /\ upto hi (o_id o)) sel /\
    (Z.of_nat (length sel) < 2 ^ 32 ->
     query (w_st w) (QOrdersByTick t lo hi limit) =
     Ok (AOrders (Z.of_nat (length sel)) (match limit with None => sel | Some n => first (n mod 2 ^ 32) sel end))).
Proof.
  intros w t lo hi limit Hre. pose proof (order_keys w Hre) as Hk. set (s := w_st w) in *.
  destruct (lists_sok s (fun o => o_tick o = t /\ from lo (o_id o) /\ upto hi (o_id o)) (fun k _ => (k.1 =? t) && in_bounds lo hi k.2) Hk) as [L N].
  { intros k o Eo. destruct (Hk _ _ Eo) as [E1 E2]. rewrite andb_true_iff, Z.eqb_eq, E1, E2. unfold in_bounds, from, upto. rewrite andb_true_iff.
    destruct lo, hi; rewrite ?Z.leb_le; intuition. }
  eexists. split; [exact L|]. intros Hlt. cbn [query orders_by_tick rmap rbind fst snd]. rewrite N. rewrite takeZ_first. do 2 f_equal.
  destruct limit as [n|]; [reflexivity|]. cbn [unwrap_or]. rewrite N in Hlt. unfold as_usize. rewrite Z.mod_small by lia. unfold first. rewrite Nat2Z.id, <- N. apply firstn_all.
Qed.

(** ** C32 *)
Lemma tick_list (m : gmap Z tick_state) l : StronglySorted Z.lt l ->
  StronglySorted (fun a b : Z * tick_state => a.1 < b.1) (omap (fun t => option_map (pair t) (m !! t)) l).
Proof.
  induction 1 as [|t l Hl IH Ht]; [constructor|]. cbn [omap list_omap]. destruct (m !! t) as [ts|]; cbn [option_map]; [|assumption].
  constructor; [assumption|]. apply Forall_forall. intros [t' ts'] Hin. apply elem_of_list_omap in Hin as (x & Hx & E).
  destruct (m !! x); [|discriminate]. injection E as <- <-. cbn. exact (proj1 (Forall_forall _ _) Ht x Hx).
Qed.
(** C32: AllTicks gives the stored ticks within inclusive bounds, ascending, cut off at the limit. *)
Theorem C32_all_ticks :
  forall s lo hi limit,
  exists sel, StronglySorted (fun a b : Z * tick_state => a.1 < b.1) sel /\
    (forall t ts, (t, ts) ∈ sel <-> s_ticks s !! t = Some ts /\ from lo t /\ upto hi t) /\
    query s (QAllTicks lo hi limit) = Ok (ATicks (match limit with None => sel | Some n => first n sel end)).
Proof.
  intros s lo hi limit. exists (omap (fun t => option_map (pair t) (s_ticks s !! t)) (sorted_keys (s_ticks s) lo hi)).
  split; [apply tick_list, sorted_keys_sorted|]. split.
  - intros t ts. rewrite elem_of_list_omap. split.
    + intros (x & Hx & E). destruct (s_ticks s !! x) as [ts'|] eqn:Ex; [|discriminate]. injection E as -> ->.
      apply sorted_keys_elem in Hx as [_ Hb]. split; [assumption|]. unfold in_bounds in Hb. apply andb_prop in Hb as [B1 B2].
      unfold from, upto. destruct lo, hi; rewrite ?Z.leb_le in *; auto.
    + intros (E & B1 & B2). exists t. split; [|rewrite E; reflexivity]. apply sorted_keys_elem. split; [eauto|]. unfold in_bounds, from, upto in *.
      apply andb_true_intro. destruct lo, hi; rewrite ?Z.leb_le; auto.
  - cbn [query all_ticks rmap rbind]. destruct limit; [rewrite takeZ_first|]; reflexivity.
Qed.
(** TicksById answers iff all requested ticks exist, with their states in the order of the request. *)
Theorem C32_ticks_by_id :
  forall s ids,
  ((exists l, query s (QTicksById ids) = Ok (ATicks l)) <-> forall t, t ∈ ids -> is_Some (s_ticks s !! t)) /\
  (forall l, query s (QTicksById ids) = Ok (ATicks l) ->
     map fst l = ids /\ forall t ts, (t, ts) ∈ l -> s_ticks s !! t = Some ts) /\
  (forall l1 t l2, ids = l1 ++ t :: l2 -> (forall u, u ∈ l1 -> is_Some (s_ticks s !! u)) -> s_ticks s !! t = None -> query s (QTicksById ids) = Err (EInvalidTickId t)).
Proof.
  intros s ids. cbn [query].
  assert (K : (exists l, ticks_by_id s ids = Ok l /\ map fst l = ids /\ (forall t ts, (t, ts) ∈ l -> s_ticks s !! t = Some ts) /\
                (forall t, t ∈ ids -> is_Some (s_ticks s !! t))) \/
              (exists l1 t l2, ids = l1 ++ t :: l2 /\ (forall u, u ∈ l1 -> is_Some (s_ticks s !! u)) /\ s_ticks s !! t = None /\ ticks_by_id s ids = Err (EInvalidTickId t))).
  { induction ids as [|t ids IH]; cbn [ticks_by_id].
    - left. exists []. split; [reflexivity|]. split; [reflexivity|]. split; intros; match goal with H : _ ∈ [] |- _ => inversion H end.
    - destruct (s_ticks s !! t) as [ts|] eqn:Et; cbn [ok_or rbind].
      + destruct IH as [(l & E & E1 & E2 & E3)|(l1 & x & l2 & -> & Hx & Ex & E)].
        * left. exists ((t, ts) :: l). rewrite E. cbn [rbind map fst]. split; [reflexivity|]. split; [congruence|]. split.
          -- intros t' ts' Hin. apply elem_of_cons in Hin as [[= -> ->]|Hin]; auto.
          -- intros t' Hin. apply elem_of_cons in Hin as [->|Hin]; [rewrite Et; eauto|auto].
        * right. rewrite E. exists (t :: l1), x, l2. split; [reflexivity|]. split; [|split; [assumption|reflexivity]].
          intros u Hu. apply elem_of_cons in Hu as [->|Hu]; [rewrite Et; eauto|auto].
      + right. exists [], t, ids. split; [reflexivity|]. split; [intros u Hu; inversion Hu|]. split; [assumption|reflexivity]. }
  destruct K as [(l & E & E1 & E2 & E3)|(l1 & x & l2 & Ei & Hx & Ex & E)]; rewrite E; cbn [rmap rbind].
  - split; [split; [auto|eauto]|]. split.
    + intros l' [= <-]. auto.
    + intros l1 t l2 -> _ En. destruct (E3 t ltac:(set_solver)) as [? Es]. congruence.
  - split; [split; [intros [? ?]; discriminate|intros H; destruct (H x ltac:(subst ids; set_solver)); congruence]|]. split; [discriminate|].
    intros l1' t l2' Ei' Hx' Et. assert (t = x) as ->; [|reflexivity].
    destruct (decide (t = x)) as [|Hne]; [assumption|exfalso]. subst ids. clear E. revert l1' Ei' Hx'. induction l1 as [|a l1 IH]; intros [|b l1'] Ei' Hx'.
    + cbn in Ei'. congruence.
    + cbn in Ei'. injection Ei' as <- _. destruct (Hx' x ltac:(constructor)). congruence.
    + cbn in Ei'. injection Ei' as -> _. destruct (Hx t ltac:(constructor)). congruence.
    + cbn in Ei'. injection Ei' as -> Ei'. eapply IH; [intros; apply Hx; constructor; eassumption|exact Ei'|intros; apply Hx'; constructor; assumption].
    
Qed.

(** Ticks are never forgotten: a tick is known exactly if an order was ever placed at it. *)
Lemma foldl_claim_ticks l Q t : (exists en, en ∈ foldl (fun Q ev => ideal_claim (ce_tick ev) (ce_id ev) Q) Q l /\ en_tick en = t) <-> (exists en, en ∈ Q /\ en_tick en = t).
Proof.
  revert Q. induction l as [|ev l IH]; intros Q; [reflexivity|]. cbn [foldl]. rewrite IH. unfold ideal_claim. split.
  - intros (en & Hin & E). apply elem_of_list_fmap in Hin as (en0 & -> & Hin). exists en0. split; [assumption|]. destruct (en_is _ _ en0); assumption.
  - intros (en & Hin & E). eexists. split; [apply elem_of_list_fmap; exists en; split; [reflexivity|assumption]|]. destruct (en_is _ _ en); assumption.
Qed.
Lemma ideal_fill_ticks x Q t : (exists en, en ∈ ideal_fill x Q /\ en_tick en = t) <-> (exists en, en ∈ Q /\ en_tick en = t).
Proof.
  revert x. induction Q as [|e Q IH]; intros x; cbn [ideal_fill]; [reflexivity|]. split.
  - intros (en & Hin & E). apply elem_of_cons in Hin as [->|Hin].
    + exists e. split; [constructor|exact E].
    + destruct (proj1 (IH _) (ex_intro _ en (conj Hin E))) as (en' & H1 & H2). exists en'. split; [right; assumption|assumption].
  - intros (en & Hin & E). apply elem_of_cons in Hin as [->|Hin].
    + eexists. split; [constructor|exact E].
    + destruct (proj2 (IH (fun t d => if bool_decide (t = en_tick e /\ d = en_dir e) then x t d - Z.min (x (en_tick e) (en_dir e)) (en_open e) else x t d)) (ex_intro _ en (conj Hin E))) as (en' & H1 & H2).
      exists en'. split; [right; assumption|assumption].
Qed.
Lemma ideal_map_ticks (f : entry -> entry) Q t : (forall e, en_tick (f e) = en_tick e) -> (exists en, en ∈ map f Q /\ en_tick en = t) <-> (exists en, en ∈ Q /\ en_tick en = t).
Proof.
  intros Hf. split.
  - intros (en & Hin & E). apply elem_of_list_fmap in Hin as (en0 & -> & Hin). rewrite Hf in E. eauto.
  - intros (en & Hin & E). exists (f en). split; [apply elem_of_list_fmap; eauto|]. rewrite Hf. assumption.
Qed.
Definition known (s : storage) (t : Z) : Prop := is_Some (s_ticks s !! t).
Lemma live_known s G t d id x : inv s G -> (id, x) ∈ g_lives (G t d) -> known s t.
Proof.
  intros Hi Hl. unfold known. destruct (s_ticks s !! t) eqn:E; [eauto|]. rewrite (i_none _ _ Hi _ d E) in Hl. inversion Hl.
Qed.
Lemma known_insert (m : gmap Z tick_state) t0 ts t : is_Some (m !! t0) -> is_Some (<[t0 := ts]> m !! t) <-> is_Some (m !! t).
Proof.
  intros H. destruct (decide (t = t0)) as [->|Hn]; [rewrite lookup_insert; split; [auto|eauto]|]. rewrite lookup_insert_ne by congruence. reflexivity.
Qed.
Lemma claim1_known sender s G t0 id s' G' x t : inv s G -> claim1 sender s G t0 id s' G' x -> known s' t <-> known s t.
Proof.
  intros Hi H. destruct H as [ob fee rcp o n c tr' c' A1 A2 A3 A4 A5 A6 f raw A7 A8 A9 A10].
  pose proof (live_known _ _ _ _ _ _ Hi A5) as Hk. unfold known. unfold claim_st, sync_st.
  assert (E : s_ticks (claim_st (sync_st s G t0 tr' c') t0 id o f) = <[t0 := ts_of (gsync G t0) t0]> (s_ticks s)) by (unfold claim_st; destruct (_ =? _); reflexivity).
  unfold claim_st, sync_st in E. rewrite E. apply known_insert. exact Hk.
Qed.
Lemma miss1_known s G t0 id s' G' t : inv s G -> miss1 s G t0 id s' G' -> known s' t <-> known s t.
Proof.
  intros Hi [|o n c tr' c' A1 A2 A3 A4 A5 A6]; [reflexivity|]. unfold known, sync_st. cbn. apply known_insert. exact (live_known _ _ _ _ _ _ Hi A2).
Qed.
Lemma claims_known ob sender s G l s' G' ms es t : claims ob sender s G l s' G' ms es -> known s' t <-> known s t.
Proof.
  induction 1 as [s G|s G t0 id l s1 G1 s2 G2 ms es Hi Hm Hi1 Hc IH|s G t0 id l s1 G1 a bank o s2 G2 ms es Hi Hm Hi1 Hc IH]; [reflexivity| |].
  - rewrite IH. eapply miss1_known; eauto.
  - rewrite IH. eapply claim1_known; eauto.
Qed.
Lemma trans_known self e s G c r s' G' t : inv s G -> call_ok self c = true -> trans e s G c r s' G' ->
  known s' t <-> known s t \/ exists i d q b, c = CExec i (PlaceLimit t d q b).
Proof.
  intros Hi Hok H.
  assert (Hno : (known s' t <-> known s t) -> ~ (exists i d q b, c = CExec i (PlaceLimit t d q b)) -> known s' t <-> known s t \/ exists i d q b, c = CExec i (PlaceLimit t d q b)) by tauto.
  destruct H as [i t0 d0 q b ob Hq Hp Ha|i t0 id ob o n cc m' tr' c' Ha A1 A2 A3 A4 A5 A6 A7 A8|i t0 id ob s' G' a ms o Ha A1 A2 A3
    |i l ob s' G' ms es Ha A1 A2 A3 A4|i m r s' A1 A2 A3 A4|cl sender tin outd mn fee target d0 ob l fs rest pr Ha A1 A2 A3 A4 A5 A6 A7
    |m r s' Ha A1 A2 A3 A4 A5 A6 A7|cl A].
  - clear Hno. unfold known, place_st. cbn [set_dirliq set_ticks s_ticks]. destruct (decide (t = t0)) as [->|Hn].
    + rewrite lookup_insert. split; [intros _; right; eauto 10|eauto].
    + rewrite lookup_insert_ne by congruence. split; [auto|]. intros [|(i' & d & q' & b' & E)]; [assumption|]. exfalso. congruence.
  - apply Hno; [|intros (? & ? & ? & ? & [=])]. unfold known, cancel_st. cbn [set_dirliq set_ticks s_ticks]. apply known_insert. exact (live_known _ _ _ _ _ _ Hi A5).
  - apply Hno; [|intros (? & ? & ? & ? & [=])]. eapply claim1_known; eauto.
  - apply Hno; [|intros (? & ? & ? & ? & [=])]. eapply claims_known; eauto.
  - apply Hno; [|intros (? & ? & ? & ? & [=])]. unfold known. rewrite (sb_ticks _ _ A2). reflexivity.
  - apply Hno; [|intros (? & ? & ? & ? & ->); discriminate]. unfold known, swap_st. cbn [set_orderbook set_dirliq set_ticks s_ticks].
    assert (Hq : 0 <= c_amount tin <= U128_MAX).
    { apply call_funds_typed in Hok. assert (Hc : coin_typed tin = true).
      { destruct cl as [|m| |]; try discriminate. destruct m; try discriminate; injection A1 as <- <- <- <- <- <-; cbn in Hok; apply andb_prop in Hok as [Hok _]; exact Hok. }
      unfold coin_typed, u128 in Hc. apply andb_prop in Hc as [T1 T2]. apply Z.leb_le in T1, T2. auto. }
    destruct A6 as [S1 S2 S3 S4 S5].
    destruct (plan_good_inv _ _ _ _ _ _ _ _ _ _ Hi (proj1 Hq) S3 S4) as [Hg _].
    destruct (plan_ctx _ _ _ _ _ _ Hi S3) as (O1 & O2 & O3 & O4). pose proof (pg_ticks _ _ _ _ _ _ _ _ Hg) as Hsub.
    assert (Hnd : NoDup (map f_tick fs)) by (eapply sublist_nodup; [exact Hsub|eapply ordered_nodup; eauto]).
    rewrite swap_ticks_lookup by assumption. destruct (decide _) as [Hin|]; [|reflexivity].
    assert (Hl : t ∈ l) by (eapply sublist_in; [exact Hsub|exact Hin]). apply O2 in Hl as [E _]. rewrite E. split; eauto.
  - apply Hno; [|intros (? & ? & ? & ? & [=])]. unfold known. rewrite (sb_ticks _ _ A3). reflexivity.
  - apply Hno; [reflexivity|]. intros (? & ? & ? & ? & E). destruct A as [->|[? ->]]; discriminate.
Qed.

(** C32: a tick is reported exactly if an order was ever placed there (also when nothing is left of it). *)
Theorem C32_known_ticks :
  forall w0 h, start w0 -> history w0 h ->
  forall t, is_Some (s_ticks (w_st (run w0 h)) !! t) <-> exists en, en ∈ ideal_run w0 [] h /\ en_tick en = t.
Proof.
  intros w0 h Hs Hh.
  destruct (run_ind (fun w _ Q => forall t, known (w_st w) t <-> exists en, en ∈ Q /\ en_tick en = t) w0 h Hs Hh) as (G & _ & H).
  - intros t. destruct (start_inv _ Hs) as (_ & (q & b & -> & _) & _). unfold known. cbn. rewrite lookup_empty. split; [intros [? ?]; discriminate|].
    intros (en & Hin & _). inversion Hin.
  - intros e w G Q c w' G' o Hi Hok HP Hst t.
    pose proof (stepped_step _ _ _ _ _ _ _ Hst) as E. unfold ideal_step. rewrite E.
    destruct Hst as [Hf|r s' b' G' Hd Ht Hi' Hb]; [apply HP|]. cbn [w_st].
    rewrite (trans_known _ _ _ _ _ _ _ _ t Hi Hok Ht), HP.
    destruct c as [i [t0 d q b|t0 id|t0 id|l|m]|[sender tin outd mn fee|sender tin outd mn fee tgt|sender ind mx tout fee|a| |b]| |].
    + unfold ideal_place. split.
      * intros [(en & Hin & Et)|(i' & d' & q' & b0 & [= <- <- <- <- <-])].
        -- exists en. split; [apply elem_of_app; auto|assumption].
        -- eexists. split; [apply elem_of_app; right; constructor|reflexivity].
      * intros (en & Hin & Et). apply elem_of_app in Hin as [Hin|Hin]; [left; eauto|]. right. apply elem_of_list_singleton in Hin as ->. cbn in Et. subst. eauto 10.
    + unfold ideal_cancel. rewrite ideal_map_ticks by (intros; destruct (en_is _ _ _); reflexivity). split; [intros [|(? & ? & ? & ? & [=])]; assumption|auto].
    + unfold ideal_claim. rewrite ideal_map_ticks by (intros; destruct (en_is _ _ _); reflexivity). split; [intros [|(? & ? & ? & ? & [=])]; assumption|auto].
    + rewrite foldl_claim_ticks. split; [intros [|(? & ? & ? & ? & [=])]; assumption|auto].
    + split; [intros [|(? & ? & ? & ? & [=])]; assumption|auto].
    + rewrite ideal_fill_ticks. split; [intros [|(? & ? & ? & ? & [=])]; assumption|auto].
    + rewrite ideal_fill_ticks. split; [intros [|(? & ? & ? & ? & [=])]; assumption|auto].
    + split; [intros [|(? & ? & ? & ? & [=])]; assumption|auto].
    + split; [intros [|(? & ? & ? & ? & [=])]; assumption|auto].
    + split; [intros [|(? & ? & ? & ? & [=])]; assumption|auto].
    + split; [intros [|(? & ? & ? & ? & [=])]; assumption|auto].
    + split; [intros [|(? & ? & ? & ? & [=])]; assumption|auto].
    + split; [intros [|(? & ? & ? & ? & [=])]; assumption|auto].
  - exact H.
Qed.

(** ** C33: spot price *)
Lemma liq_valid w t m : reachable w -> 0 < tick_liquidity (w_st w) t m -> valid_tick t.
Proof.
  intros Hre Hl. destruct (reachable_inv _ Hre) as (G & Hi). unfold tick_liquidity in Hl. destruct (s_ticks (w_st w) !! t) as [ts|] eqn:Et; [|lia].
  apply (i_some _ _ Hi _ _ Et).
Qed.
Lemma price_mono a b : valid_tick a -> valid_tick b -> a <= b -> tick_price a <= tick_price b.
Proof. intros Ha Hb H. destruct (decide (a = b)) as [->|]; [lia|]. pose proof (proj2 (proj2 C01_lemma) a b Ha Hb ltac:(lia)). lia. Qed.
(** C33: for the book's pair (either way round) the query answers with the price at the best-price
    pointer, and no tick with liquidity offers a better one; for all other pairs it errs. *)
Theorem C33_spot_price :
  forall w, reachable w ->
  let s := w_st w in let quote := deposit_denom s Bid in let base := deposit_denom s Ask in
  let inverse p := floor_div (ATOM * ATOM) p in
  query s (QSpotPrice quote base) = Ok (APrice (tick_price (next_tick s Bid))) /\
  query s (QSpotPrice base quote) = Ok (APrice (inverse (tick_price (next_tick s Ask)))) /\
  (forall t, 0 < tick_liquidity s t Bid -> tick_price t <= tick_price (next_tick s Bid)) /\
  (forall t, 0 < tick_liquidity s t Ask -> tick_price (next_tick s Ask) <= tick_price t /\
     inverse (tick_price t) <= inverse (tick_price (next_tick s Ask))) /\
  (forall q b, ~ (q = quote /\ b = base) -> ~ (q = base /\ b = quote) -> exists er, query s (QSpotPrice q b) = Err er).
Proof.
  intros w Hre s quote base inverse. destruct (reachable_inv _ Hre) as (G & Hi). fold s in Hi.
  destruct (i_book _ _ Hi) as (ob & Eob & Hbk). pose proof Hbk as [B1 B2 B3 _ _].
  assert (Eq : quote = ob_quote ob) by (unfold quote, deposit_denom; rewrite Eob; reflexivity).
  assert (Eb : base = ob_base ob) by (unfold base, deposit_denom; rewrite Eob; reflexivity).
  assert (Nb : next_tick s Bid = ob_next_bid ob) by (unfold next_tick; rewrite Eob; reflexivity).
  assert (Na : next_tick s Ask = ob_next_ask ob) by (unfold next_tick; rewrite Eob; reflexivity).
  destruct C01_lemma as (P1 & _ & _). destruct (P1 _ B2) as [Pb Rb]. destruct (P1 _ B3) as [Pa Ra].
  unfold min_spot_price, max_spot_price in Rb, Ra.
  assert (HU : U128_MAX = 340282366920938463463374607431768211455) by reflexivity.
  assert (Eload : load_orderbook s = Ok ob) by (unfold load_orderbook; rewrite Eob; reflexivity).
  rewrite Nb, Na. split; [|split; [|split; [|split]]].
  - cbn [query]. unfold spot_price. rewrite Eq, Eb. rewrite bool_decide_false by assumption. cbn [negb rensure rbind]. rewrite Eload. cbn [rbind].
    pose proof (direction_ok ob Ask B1) as Ed. cbn [get_expected_denom get_opposite_denom] in Ed. rewrite Ed. cbn [rbind]. rewrite Pb. cbn [rbind].
    destruct (Z.leb_spec (tick_price (ob_next_bid ob)) U128_MAX) as [|Hgt]; [reflexivity|]. exfalso. rewrite HU in Hgt. unfold DEC in *. lia.
  - cbn [query]. unfold spot_price. rewrite Eq, Eb. rewrite bool_decide_false by congruence. cbn [negb rensure rbind]. rewrite Eload. cbn [rbind].
    pose proof (direction_ok ob Bid B1) as Ed. cbn [get_expected_denom get_opposite_denom] in Ed. rewrite Ed. cbn [rbind]. rewrite Pa. cbn [rbind].
    unfold dec_inv. destruct (Z.eqb_spec (tick_price (ob_next_ask ob)) 0); [lia|]. cbn [rbind].
    change (DEC * DEC) with (ATOM * ATOM).
    assert (Hle : ATOM * ATOM / tick_price (ob_next_ask ob) <= ATOM * ATOM).
    { apply Z.div_le_upper_bound; [lia|]. unfold ATOM. nia. }
    destruct (Z.leb_spec (ATOM * ATOM / tick_price (ob_next_ask ob)) U128_MAX) as [|Hgt]; [reflexivity|]. exfalso. rewrite HU in Hgt. unfold ATOM, DEC in *. lia.
  - intros t Ht. apply price_mono; [eapply liq_valid; eauto|assumption|].
    pose proof (C15_pointer w Bid t Hre Ht) as Hp. unfold better_tick in Hp. fold s in Hp. rewrite Nb in Hp. lia.
  - intros t Ht. assert (Hle : tick_price (ob_next_ask ob) <= tick_price t).
    { apply price_mono; [assumption|eapply liq_valid; eauto|].
      pose proof (C15_pointer w Ask t Hre Ht) as Hp. unfold better_tick in Hp. fold s in Hp. rewrite Na in Hp. lia. }
    split; [assumption|]. unfold inverse, floor_div. apply Z.div_le_compat_l; [unfold ATOM; lia|lia].
  - intros q b H1 H2. cbn [query]. unfold spot_price. destruct (bool_decide_reflect (q = b)) as [|Hne]; cbn [negb rensure rbind]; [eexists; reflexivity|].
    rewrite Eload. cbn [rbind]. unfold direction_from_pair.
    rewrite bool_decide_false by (intros [E1 E2]; apply H1; split; congruence).
    rewrite bool_decide_false by (intros [E1 E2]; apply H2; split; congruence). eexists. reflexivity.
Qed.
(** The documented stronger claim ("the best available price with liquidity") fails: a cancel never
    moves the reported price, whatever it takes away. *)
Theorem C33_cancel_blind :
  forall e w i t id, reachable w -> call_ok (w_self w) (CExec i (CancelLimit t id)) = true ->
  forall q b, query (w_st (fst (step e w (CExec i (CancelLimit t id))))) (QSpotPrice q b) = query (w_st w) (QSpotPrice q b).
Proof.
  intros e w i t id Hre Hok q b. destruct (step e w (CExec i (CancelLimit t id))) as [w' [r|]] eqn:E; cbn [fst]; [|rewrite (step_failed _ _ _ _ E); reflexivity].
  destruct (reachable_inv _ Hre) as (G & Hi). destruct (step_done _ _ _ _ _ _ Hi Hok E) as (G' & Ht & _ & _ & _).
  destruct (trans_cancel _ _ _ _ _ _ _ _ _ Ht) as (ob & o & n & c & m' & tr' & c' & _ & _ & _ & _ & _ & _ & _ & _ & _ & -> & _). reflexivity.
Qed.
(** ... so the price of an empty tick is reported although another tick has liquidity. *)
Definition hist_spot : list (env * call) := [place "a" 0 Bid 5 None; place "a" 1000000 Bid 7 None; cancel "a" 1000000 1].
Theorem C33_refuted :
  let s := w_st (run w_start hist_spot) in
  history w_start hist_spot /\
  query s (QSpotPrice "quote" "base") = Ok (APrice (2 * ATOM)) /\ tick_price 1000000 = 2 * ATOM /\
  tick_liquidity s 1000000 Bid = 0 /\ tick_liquidity s 0 Bid = 5.
Proof.
  split. { apply Forall_forall. intros x Hx. apply elem_of_list_In in Hx. revert x Hx. apply forallb_forall. vm_compute. reflexivity. }
  vm_compute. auto.
Qed.

(** C24, as seen by a client: GetUnrealizedCancels answers in request order, (ask, bid) for each tick, and what it
    says of a tick is what the next synchronisation of that tick adds to the fill position and the realised cancels. *)
Theorem C24_query :
  forall w0 h ids, start w0 -> history w0 h -> short h -> let s := w_st (run w0 h) in
  (forall t, t ∈ ids -> is_Some (s_ticks s !! t)) ->
  exists answer, query s (QGetUnrealizedCancels ids) = Ok (AUnrealized answer) /\ map fst answer = ids /\
    forall t ask bid, (t, (ask, bid)) ∈ answer -> exists s', sync_now t s = (s', Ok tt) /\
      forall d, let u := match d with Ask => ask | Bid => bid end in 0 <= u /\
        let v := side_values s t d in let v' := side_values s' t d in
        if tv_last v =? tv_etas v then v' = v
        else v' = mkTV (tv_tal v) (tv_ctt v) (tv_etas v + u) (tv_crc v + u) (tv_etas v).
Proof.
  intros w0 h ids Hs Hh Hsh s Hin. cbn [query].
  enough (exists l, ticks_unrealized_cancels_by_id s ids = Ok l /\ map fst l = ids /\
    forall t ask bid, (t, (ask, bid)) ∈ l -> exists ts, s_ticks s !! t = Some ts /\ get_unrealized_cancels s t ts = Ok (ask, bid)) as (l & -> & E1 & E2).
  { exists l. split; [reflexivity|]. split; [exact E1|]. intros t ask bid K. destruct (E2 _ _ _ K) as (ts & Et & Eu).
    destruct (C24_predicts_sync w0 h Hs Hh Hsh t ts Et) as (u & s' & H1 & H2 & H3). fold s in H1, H2, H3. rewrite Eu in H1. injection H1 as -> ->.
    exists s'. split; [exact H2|]. intros d. specialize (H3 d). destruct d; exact H3. }
  induction ids as [|t ids IH]; cbn [ticks_unrealized_cancels_by_id].
  - exists []. split; [reflexivity|]. split; [reflexivity|]. intros t a b K. inversion K.
  - destruct (Hin t ltac:(constructor)) as [ts Et]. rewrite Et. cbn [ok_or rbind].
    destruct (C24_predicts_sync w0 h Hs Hh Hsh t ts Et) as (u & _ & Eu & _). fold s in Eu. rewrite Eu. cbn [rbind].
    destruct IH as (l & -> & E1 & E2); [intros; apply Hin; constructor; assumption|]. cbn [rbind]. exists ((t, (u Ask, u Bid)) :: l).
    split; [reflexivity|]. split; [cbn [map fst]; rewrite E1; reflexivity|]. intros t' a b K. apply elem_of_cons in K as [[= -> -> ->]|K]; eauto.
Qed.
Print Assumptions C24_query.

(** ** C41: queries are always answered *)
Lemma unrealized_by_id s G ids : inv s G ->
  (exists l, ticks_unrealized_cancels_by_id s ids = Ok l) <-> (forall t, t ∈ ids -> is_Some (s_ticks s !! t)).
Proof.
  intros Hi. induction ids as [|t ids IH]; cbn [ticks_unrealized_cancels_by_id].
  - split; [intros _ t Ht; inversion Ht|eauto].
  - destruct (s_ticks s !! t) as [ts|] eqn:Et; cbn [ok_or rbind].
    + pose proof (inv_tick_some _ _ _ _ Hi Et) as ->. unfold get_unrealized_cancels. rewrite !get_ts_of.
      rewrite (proj1 (unrealized_spec s G t Ask Hi)), (proj1 (unrealized_spec s G t Bid Hi)). cbn [rbind]. split.
      * intros (l & E) x Hx. apply elem_of_cons in Hx as [->|Hx]; [eauto|]. apply IH; [|assumption].
        destruct (ticks_unrealized_cancels_by_id s ids); [eauto|discriminate..].
      * intros H. destruct (proj2 IH) as (l & ->); [intros; apply H; right; assumption|]. cbn [rbind]. eauto.
    + split; [intros (l & E); discriminate|]. intros H. destruct (H t ltac:(constructor)). congruence.
Qed.
(** C41: in every reachable state each query whose answer exists is answered (inactive books included):
    prices for the pair, tick states and unrealised cancels for ticks that were ever used, everything
    else unconditionally; the pool totals exactly as long as both fit in 128 bits. *)
Theorem C41_answers :
  forall w0 h, start w0 -> history w0 h -> let w := run w0 h in let s := w_st w in let Q := ideal_run w0 [] h in
  let answered m := exists a, query s m = Ok a in
  let used t := exists en, en ∈ Q /\ en_tick en = t in
  let pair q b := (q = deposit_denom s Bid /\ b = deposit_denom s Ask) \/ (q = deposit_denom s Ask /\ b = deposit_denom s Bid) in
  (forall q b, answered (QSpotPrice q b) <-> pair q b) /\
  (forall ids, answered (QTicksById ids) <-> forall t, t ∈ ids -> used t) /\
  (forall ids, answered (QGetUnrealizedCancels ids) <-> forall t, t ∈ ids -> used t) /\
  (answered QGetTotalPoolLiquidity <-> open_dir Q Bid <= U128_MAX /\ open_dir Q Ask <= U128_MAX) /\
  answered QIsActive /\ answered QGetSwapFee /\ answered QOrderbookState /\ answered QDenoms /\ answered QGetMakerFee /\
  (forall lo hi n, answered (QAllTicks lo hi n)) /\ (forall a lo hi n, answered (QOrdersByOwner a lo hi n)) /\
  (forall t lo hi n, answered (QOrdersByTick t lo hi n)) /\ (forall q, answered (QAuth q)).
Proof.
  intros w0 h Hs Hh w s Q answered used pair. destruct (run_good w0 h Hs Hh) as (G & Hg). fold w in Hg. fold Q in Hg.
  pose proof (gd_inv _ _ _ Hg) as Hi. pose proof (gd_ref _ _ _ Hg) as Hr. fold s in Hi, Hr.
  assert (Hre : reachable w) by (apply start_reachable; assumption).
  assert (Hkn : forall t, is_Some (s_ticks s !! t) <-> used t) by (intros t; apply (C32_known_ticks w0 h Hs Hh t)).
  destruct (i_book _ _ Hi) as (ob & Eob & _). assert (Eload : load_orderbook s = Ok ob) by (unfold load_orderbook; rewrite Eob; reflexivity).
  unfold answered. repeat split; try solve [cbn [query]; eauto]; try solve [eexists; reflexivity].
  - intros (a & E). destruct (C33_spot_price w Hre) as (_ & _ & _ & _ & H). fold s in H.
    destruct (decide (q = deposit_denom s Bid /\ b = deposit_denom s Ask)) as [|N1]; [left; assumption|].
    destruct (decide (q = deposit_denom s Ask /\ b = deposit_denom s Bid)) as [|N2]; [right; assumption|].
    destruct (H q b N1 N2) as (er & E'). congruence.
  - intros Hp. destruct (C33_spot_price w Hre) as (H1 & H2 & _). destruct Hp as [[-> ->]|[-> ->]]; eauto.
  - intros (a & E) t Ht. apply Hkn. cbn [query] in E. destruct (C32_ticks_by_id s ids) as ([H _] & _). apply H; [|assumption].
    cbn [query]. destruct (ticks_by_id s ids) as [l|er| |]; try discriminate. eauto.
  - intros H. destruct (C32_ticks_by_id s ids) as ([_ H'] & _). destruct H' as (l & ->); [|eauto]. intros t Ht. apply Hkn, H, Ht.
  - intros (a & E) t Ht. apply Hkn. cbn [query] in E. apply (proj1 (unrealized_by_id s G ids Hi)); [|assumption].
    destruct (ticks_unrealized_cancels_by_id s ids) as [l|er| |]; try discriminate. eauto.
  - intros H. cbn [query]. destruct (proj2 (unrealized_by_id s G ids Hi)) as (l & ->); [|cbn; eauto]. intros t Ht. apply Hkn, H, Ht.
  - destruct H as (a & E). cbn [query] in E. unfold total_pool_liquidity in E. rewrite Eload in E. cbn [rbind] in E.
    rewrite !(total_liquidity _ _ _ Hi Hr), !floor_scale in E. unfold to_u128 in E.
    destruct (Z.leb_spec (open_dir Q Ask) U128_MAX); cbn [rbind] in E; [|discriminate].
    destruct (Z.leb_spec (open_dir Q Bid) U128_MAX); cbn [rbind] in E; [|discriminate]. assumption.
  - destruct H as (a & E). cbn [query] in E. unfold total_pool_liquidity in E. rewrite Eload in E. cbn [rbind] in E.
    rewrite !(total_liquidity _ _ _ Hi Hr), !floor_scale in E. unfold to_u128 in E.
    destruct (Z.leb_spec (open_dir Q Ask) U128_MAX); cbn [rbind] in E; [|discriminate]. assumption.
  - intros [H1 H2]. cbn [query]. unfold total_pool_liquidity. rewrite Eload. cbn [rbind].
    rewrite !(total_liquidity _ _ _ Hi Hr), !floor_scale. unfold to_u128.
    rewrite (proj2 (Z.leb_le _ _) H1), (proj2 (Z.leb_le _ _) H2). cbn. eauto.
  - cbn [query]. unfold orderbook_state. rewrite Eload. cbn. eauto.
  - cbn [query]. unfold denoms. rewrite Eload. cbn. eauto.
Qed.

(** A book with five live orders of two owners at three ticks, one of them half filled, one cancelled. *)
Definition hist_query : list (env * call) :=
  [place "a" 0 Bid 5 None; place "b" 0 Bid 6 None; place "a" 100000 Ask 7 None; place "a" 0 Bid 8 None;
   place "a" (-100000) Bid 9 None; place "b" 1000000 Ask 10 None; cancel "b" 1000000 5; sell "s" 3; cancel "a" 0 3].
Example query_case :
  let s := w_st (run w_start hist_query) in let ids r := match r with Ok (AOrders n l) => Some (n, map (fun o => (o_tick o, o_id o)) l) | _ => None end in
  history w_start hist_query /\ forallb id (run_out w_start hist_query) = true /\
  ids (query s (QOrdersByOwner "a" None None None)) = Some (3, [(-100000, 4); (0, 0); (100000, 2)]) /\
  ids (query s (QOrdersByOwner "a" (Some (0, 0)) None (Some 1))) = Some (3, [(0, 0)]) /\
  map (fun o => (o_tick o, o_id o)) (pages 2 s "a" None 2) = [(-100000, 4); (0, 0); (100000, 2)] /\
  ids (query s (QOrdersByTick 0 None None None)) = Some (2, [(0, 0); (0, 1)]) /\
  ids (query s (QOrdersByTick 0 (Some 1) None (Some 7))) = Some (1, [(0, 1)]) /\
  match query s (QAllTicks (Some (-99999)) None (Some 2)) with Ok (ATicks l) => map fst l | _ => [] end = [0; 100000] /\
  match query s (QTicksById [1000000; 0]) with Ok (ATicks l) => map fst l | _ => [] end = [1000000; 0] /\
  query s (QTicksById [0; 7]) = Err (EInvalidTickId 7) /\
  query s (QGetUnrealizedCancels [0; 1000000]) = Ok (AUnrealized [(0, (0, 0)); (1000000, (10 * ATOM, 0))]) /\
  query s QGetTotalPoolLiquidity = Ok (ALiquidity [mkCoin "base" 7; mkCoin "quote" 17]).
Proof.
  split. { apply Forall_forall. intros x Hx. apply elem_of_list_In in Hx. revert x Hx. apply forallb_forall. vm_compute. reflexivity. }
  vm_compute. repeat split; reflexivity.
Qed.
