(** * PropSize: the contract stores nothing it does not need (C67). *)
From Verif Require Import Base Dec Types State TickMath Sumtree Tick Order Auth Contract Query World SpecMath TickMathProofs
  TreeDefs Exec SumtreeProofs SumtreeRebalance SumtreeInsert PrefixSum SumtreeRoot SumtreeFail Ghost Inv StepPlace StepCancel StepClaim
  SwapPlan StepSwap Trans Spec Reach Refine RefineStep Reserve Solvency Books SpecProps SpecTree SpecSize PropBase PropOrders PropClaims PropHistory PropSwap PropTree PropQuery Tests.

(** ** Counting *)
Lemma linked_step s t root p n k :
  linked s t root p -> s_nodes s !! (t, p) = Some n -> n_left n = Some k \/ n_right n = Some k -> is_Some (s_nodes s !! (t, k)) -> linked s t root k.
Proof. intros. eapply lk_child; eauto. Qed.
Lemma repr_linked s t d root : forall tr p, repr t d (s_nodes s) p tr -> linked s t root (tkey tr) -> forall q, q ∈ keys tr -> linked s t root q.
Proof.
  induction tr as [k e v|k l IHl r IHr]; intros p; cbn [repr keys tkey]; intros H Hl q Hq.
  - apply elem_of_list_singleton in Hq as ->. exact Hl.
  - destruct H as (E & Rl & Rr). apply elem_of_cons in Hq as [->|Hq]; [exact Hl|]. apply elem_of_app in Hq as [Hq|Hq].
    + apply (IHl _ Rl); [|exact Hq]. eapply lk_child; [exact Hl|exact E|left; reflexivity|]. destruct (repr_key_lookup _ _ _ _ _ _ Rl (tkey_in l)) as (n & -> & _). eauto.
    + apply (IHr _ Rr); [|exact Hq]. eapply lk_child; [exact Hl|exact E|right; reflexivity|]. destruct (repr_key_lookup _ _ _ _ _ _ Rr (tkey_in r)) as (n & -> & _). eauto.
Qed.
Lemma rep_linked s t d L K q : tree_rep t d (s_nodes s) (s_tree s) L K -> q ∈ K -> exists root, s_tree s !! (t, d) = Some root /\ linked s t root q.
Proof.
  intros H Hq. destruct H as [_|k kl e v H1 H2 H3 H4|k l r H1 H2 H3 H4]; [inversion Hq| |].
  - exists k. split; [exact H1|]. assert (Hk : linked s t k k) by (apply lk_root; rewrite H3; eauto).
    rewrite !elem_of_cons, elem_of_nil in Hq. destruct Hq as [->|[->|[]]]; [exact Hk|]. eapply lk_child; [exact Hk|exact H3|left; reflexivity|rewrite H4; eauto].
  - exists k. split; [exact H1|]. apply (repr_linked _ _ _ _ _ _ H2); [|exact Hq]. apply lk_root. destruct H2 as [E _]. eexists. exact E.
Qed.
Lemma rep_count t d m tr L K : tree_rep t d m tr L K -> length K = nodes_for (length L).
Proof.
  intros H. destruct H as [_|k kl e v _ _ _ _|k l r _ _ _ _]; [reflexivity|reflexivity|].
  pose proof (keys_leaves (TNode k l r)) as E. assert (H2 : (2 <= length (leaves (TNode k l r)))%nat).
  { cbn [leaves]. rewrite app_length. pose proof (leaves_nonempty l). pose proof (leaves_nonempty r). destruct (leaves l), (leaves r); try congruence. cbn. lia. }
  destruct (length (leaves (TNode k l r))) as [|[|n]]; [lia|lia|]. unfold nodes_for. lia.
Qed.
Lemma nodes_keys s t d L K ctr (Ls : dir -> list (Z * Z)) :
  store_ok t (s_nodes s) (s_tree s) ctr Ls -> L = Ls d -> tree_rep t d (s_nodes s) (s_tree s) L K ->
  dom (nodes_at s t d) = list_to_set (C := gmap.gset (Z * Z)) (map (pair t) K).
Proof.
  intros Hs -> HK. apply set_eq. intros [t' q]. rewrite elem_of_dom, elem_of_list_to_set, elem_of_list_fmap. unfold nodes_at. split.
  - intros [n Hn]. apply map_filter_lookup_Some in Hn as (E & <- & Ed). cbn [fst snd] in *. exists q. split; [reflexivity|].
    destruct (so_only _ _ _ _ _ Hs _ _ E) as (d' & K' & HK' & Hq). destruct (tree_rep_dir _ _ _ _ _ _ _ HK' Hq) as (n' & E' & Ed'). assert (d' = d) as -> by congruence.
    rewrite (tree_rep_unique _ _ _ _ _ _ _ _ HK HK'). exact Hq.
  - intros (q' & [= -> ->] & Hq). destruct (tree_rep_dir _ _ _ _ _ _ _ HK Hq) as (n & E & Ed). exists n. apply map_filter_lookup_Some. cbn. auto.
Qed.

(** Counting by classes. *)
Fixpoint nsum {C} (f : C -> nat) (l : list C) : nat := match l with [] => 0 | c :: l => f c + nsum f l end%nat.
Lemma nsum_le {C} (f g : C -> nat) l : (forall c, c ∈ l -> f c <= g c)%nat -> (nsum f l <= nsum g l)%nat.
Proof. induction l as [|c l IH]; cbn; intros H; [lia|]. pose proof (H c ltac:(left)). specialize (IH ltac:(intros; apply H; right; assumption)). lia. Qed.
Lemma nsum_plus {C} (f g : C -> nat) l : nsum (fun c => f c + g c)%nat l = (nsum f l + nsum g l)%nat.
Proof. induction l as [|c l IH]; cbn; lia. Qed.
Lemma nsum_in {C} (f : C -> nat) l c : c ∈ l -> (f c <= nsum f l)%nat.
Proof. induction 1 as [c l|c c' l _ IH]; cbn; lia. Qed.
Lemma nsum_ext {C} (f g : C -> nat) l : (forall c, f c = g c) -> nsum f l = nsum g l.
Proof. intros H. induction l as [|c l IH]; cbn; congruence. Qed.
Lemma nsum_scale {C} k (f : C -> nat) l : nsum (fun c => k * f c)%nat l = (k * nsum f l)%nat.
Proof. induction l as [|c l IH]; cbn; lia. Qed.
Lemma nsum_zero {C} (f : C -> nat) l : (forall c, f c = 0%nat) -> nsum f l = 0%nat.
Proof. intros H. induction l as [|c l IH]; cbn; [reflexivity|]. rewrite H. exact IH. Qed.
Lemma nsum_one {C} `{EqDecision C} (c0 : C) l : NoDup l -> (nsum (fun c => if decide (c0 = c) then 1 else 0) l <= 1)%nat.
Proof.
  induction 1 as [|c l Hc _ IH]; cbn; [lia|]. destruct (decide (c0 = c)) as [->|]; [|lia].
  assert (E : nsum (fun c1 => if decide (c = c1) then 1%nat else 0%nat) l = 0%nat).
  { clear IH. induction l as [|c1 l IH]; cbn; [reflexivity|]. rewrite not_elem_of_cons in Hc. destruct Hc as [H1 H2]. rewrite decide_False by exact H1. auto. }
  lia.
Qed.
Lemma size_classes {C} `{EqDecision C} (f : Z * Z -> tnode -> C) (m : gmap (Z * Z) tnode) cls :
  (forall i x, m !! i = Some x -> f i x ∈ cls) ->
  (size m <= nsum (fun c => size (filter (fun kn : (Z * Z) * tnode => f kn.1 kn.2 = c) m)) cls)%nat.
Proof.
  revert cls. induction m as [|i x m Hi IH] using map_ind; intros cls Hc; [rewrite map_size_empty; lia|].
  rewrite map_size_insert_None by exact Hi.
  assert (Hm : forall c, size (filter (fun kn : (Z * Z) * tnode => f kn.1 kn.2 = c) (<[i := x]> m)) =
     ((if decide (f i x = c) then 1 else 0) + size (filter (fun kn : (Z * Z) * tnode => f kn.1 kn.2 = c) m))%nat).
  { intros c. destruct (decide (f i x = c)) as [E|E].
    - rewrite map_filter_insert_True by exact E. rewrite map_size_insert_None; [reflexivity|]. apply map_filter_lookup_None. auto.
    - rewrite map_filter_insert_False by exact E. rewrite delete_notin by exact Hi. reflexivity. }
  rewrite (nsum_ext _ _ _ Hm), nsum_plus.
  assert (H1 : (1 <= nsum (fun c => if decide (f i x = c) then 1 else 0) cls)%nat).
  { pose proof (nsum_in (fun c => if decide (f i x = c) then 1 else 0)%nat cls (f i x)) as H. cbv beta in H. destruct (decide (f i x = f i x)) as [_|n]; [|congruence]. apply H, (Hc i). apply lookup_insert. }
  specialize (IH cls). rewrite Nat.le_succ_l. apply Nat.lt_le_trans with (1 + nsum (fun c => size (filter (fun kn : (Z * Z) * tnode => f kn.1 kn.2 = c) m)) cls)%nat.
  - apply Nat.lt_succ_r. apply IH. intros j y Hj. apply (Hc j). rewrite lookup_insert_ne; [exact Hj|congruence].
  - lia.
Qed.
Lemma cancelled_total cls : NoDup cls -> forall h w, (nsum (fun c : Z * dir => length (cancelled w h c.1 c.2)) cls <= cancels w h)%nat.
Proof.
  intros Hnd. induction h as [|[e c] h IH]; intros w.
  - cbn [cancelled cancels]. induction cls as [|c l IH]; cbn; [lia|]. inversion Hnd; subst. auto.
  - cbn [cancels]. specialize (IH (fst (step e w c))).
    set (f := fun cl : Z * dir => length (match c, snd (step e w c) with
      | CExec _ (CancelLimit t' id), Done _ => match order_of (w_st w) t' id with Some o => if bool_decide (t' = cl.1 /\ o_dir o = cl.2) then [(o_etas o, o_quantity o * ATOM)] else [] | None => [] end
      | _, _ => [] end)).
    assert (E : nsum (fun cl : Z * dir => length (cancelled w ((e, c) :: h) cl.1 cl.2)) cls = (nsum f cls + nsum (fun cl : Z * dir => length (cancelled (fst (step e w c)) h cl.1 cl.2)) cls)%nat).
    { rewrite <- nsum_plus. apply nsum_ext. intros cl. cbn [cancelled]. rewrite app_length. f_equal. unfold f. clear. destruct c as [i m| | |]; [destruct m|..]; reflexivity. }
    rewrite E. apply Nat.add_le_mono; [|exact IH]. clear E IH.
    assert (Hz : (forall cl, f cl = 0%nat) -> nsum f cls = 0%nat).
    { intros Hf. clear Hnd. induction cls as [|cl l IHl]; cbn; [reflexivity|]. rewrite Hf, IHl. reflexivity. }
    destruct c as [i m| | |]; [|rewrite Hz by reflexivity; lia|rewrite Hz by reflexivity; lia|rewrite Hz by reflexivity; lia].
    destruct m; try (rewrite Hz by reflexivity; lia). clear Hz. unfold f. clear f. destruct (step e w _) as [w' [r|]] eqn:Er; cbn [snd].
    2: { rewrite nsum_zero by reflexivity. lia. }
    destruct (order_of (w_st w) _ _) as [o|] eqn:Eo.
    + etransitivity; [|apply (nsum_one (tick, o_dir o) cls Hnd)]. apply nsum_le. intros [t d] _. cbn [fst snd].
      destruct (bool_decide_reflect (tick = t /\ o_dir o = d)) as [[-> <-]|Hn]; [rewrite decide_True by reflexivity; cbn; lia|cbn; lia].
    + rewrite nsum_zero by reflexivity. lia.
Qed.

(** ** C67 *)
(** Every stored node hangs under the root of the tree of its tick and direction. *)
Theorem C67_no_orphans :
  forall w0 h, start w0 -> history w0 h -> let s := w_st (run w0 h) in
  forall t k n, s_nodes s !! (t, k) = Some n -> exists root, s_tree s !! (t, n_dir n) = Some root /\ linked s t root k.
Proof.
  intros w0 h Hs Hh s t k n E. destruct (run_track w0 h Hs Hh) as (G & Hg & _ & _). pose proof (gd_inv _ _ _ Hg) as Hi. fold s in Hi.
  destruct (so_only _ _ _ _ _ (i_store _ _ Hi t) _ _ E) as (d & K & HK & Hq). destruct (tree_rep_dir _ _ _ _ _ _ _ HK Hq) as (n' & E' & Ed).
  assert (n' = n) as -> by congruence. rewrite Ed. exact (rep_linked _ _ _ _ _ _ HK Hq).
Qed.
Print Assumptions C67_no_orphans.
(** The tree over n cancelled orders has exactly 2n - 1 nodes (two for a single one). *)
Theorem C67_tree_nodes :
  forall w0 h, start w0 -> history w0 h -> let s := w_st (run w0 h) in
  forall t d, size (nodes_at s t d) = nodes_for (length (cancelled w0 h t d)).
Proof.
  intros w0 h Hs Hh s t d. destruct (run_track w0 h Hs Hh) as (G & Hg & Ht & _). pose proof (gd_inv _ _ _ Hg) as Hi. fold s in Hi.
  destruct (so_rep _ _ _ _ _ (i_store _ _ Hi t) d) as (K & HK).
  rewrite <- size_dom, (nodes_keys _ _ _ _ _ _ _ (i_store _ _ Hi t) eq_refl HK), size_list_to_set.
  - rewrite map_length, (rep_count _ _ _ _ _ _ HK). f_equal. apply Permutation_length, (tk_cans _ _ _ Ht).
  - apply (NoDup_fmap_2 (pair t)). exact (tree_rep_keys _ _ _ _ _ _ HK).
Qed.
Print Assumptions C67_tree_nodes.
(** All trees together: at most two nodes per successful cancel. *)
Theorem C67_total_nodes :
  forall w0 h, start w0 -> history w0 h -> (size (s_nodes (w_st (run w0 h))) <= 2 * cancels w0 h)%nat.
Proof.
  intros w0 h Hs Hh. set (s := w_st (run w0 h)). set (cl := fun (i : Z * Z) (n : tnode) => (i.1, n_dir n)).
  set (cls := remove_dups (map (fun kn : (Z * Z) * tnode => cl kn.1 kn.2) (map_to_list (s_nodes s)))).
  assert (Hnd : NoDup cls) by apply NoDup_remove_dups.
  etransitivity; [apply (size_classes cl (s_nodes s) cls)|].
  { intros i x E. unfold cls. apply elem_of_remove_dups, elem_of_list_fmap. exists (i, x). split; [reflexivity|]. apply elem_of_map_to_list. exact E. }
  etransitivity; [|apply Nat.mul_le_mono_l, (cancelled_total cls Hnd h w0)]. rewrite <- nsum_scale. apply nsum_le. intros [t d] _. cbn [fst snd].
  assert (E : size (filter (fun kn : (Z * Z) * tnode => cl kn.1 kn.2 = (t, d)) (s_nodes s)) = size (nodes_at s t d)).
  { f_equal. unfold nodes_at. apply map_filter_ext. intros [i q] n _. unfold cl. cbn [fst snd]. split; [intros [= -> ->]|intros [-> ->]]; auto. }
  rewrite E. pose proof (C67_tree_nodes w0 h Hs Hh t d) as E2. cbv zeta in E2. fold s in E2. rewrite E2.
  destruct (length (cancelled w0 h t d)) as [|[|n]]; unfold nodes_for; lia.
Qed.
Print Assumptions C67_total_nodes.
(** One stored order per live order of the ideal book, one stored tick per tick ever used. *)
Theorem C67_orders_and_ticks :
  forall w0 h, start w0 -> history w0 h -> let s := w_st (run w0 h) in let Q := ideal_run w0 [] h in
  size (s_orders s) = length (List.filter en_live Q) /\ dom (s_ticks s) = list_to_set (map en_tick Q).
Proof.
  intros w0 h Hs Hh s Q. destruct (C08_fifo_state w0 h Hs Hh) as (Hnd & H1 & H2 & _). fold s in H1, H2. fold Q in Hnd, H1, H2. split.
  - assert (E : dom (s_orders s) = list_to_set (C := gmap.gset (Z * Z)) (map (fun en => (en_tick en, en_id en)) (List.filter en_live Q))).
    { apply set_eq. intros [t id]. rewrite elem_of_dom, elem_of_list_to_set, elem_of_list_fmap. split.
      - intros [o Eo]. destruct (H1 _ _ _ Eo) as (en & Hin & <- & <- & Hl & _). exists en. split; [reflexivity|]. apply elem_of_list_In, filter_In. rewrite <- elem_of_list_In. auto.
      - intros (en & [= -> ->] & Hin). apply elem_of_list_In, filter_In in Hin as [Hin Hl]. rewrite <- elem_of_list_In in Hin. destruct (H2 _ Hin Hl) as (o & -> & _). eauto. }
    rewrite <- size_dom, E, size_list_to_set; [apply map_length|]. clear -Hnd. induction Q as [|en Q IH]; cbn [List.filter]; [constructor|].
    cbn [map] in Hnd. apply NoDup_cons in Hnd as [Hn Hnd]. destruct (en_live en); [|auto]. cbn [map]. apply NoDup_cons. split; [|auto].
    intros Hin. apply elem_of_list_fmap in Hin as (en' & [= _ E] & Hin). apply Hn. apply elem_of_list_In, filter_In in Hin as [Hin _]. apply elem_of_list_fmap. exists en'. rewrite elem_of_list_In. auto.
  - apply set_eq. intros t. rewrite elem_of_dom, elem_of_list_to_set, elem_of_list_fmap. pose proof (C32_known_ticks w0 h Hs Hh t) as K. fold s Q in K. rewrite K. split; intros (en & ? & ?); eauto.
Qed.
Print Assumptions C67_orders_and_ticks.

(** Three bids at tick 0 placed and cancelled: five nodes, no order, one tick. *)
Example C67_case :
  let h := [place "a" 0 Bid 10 None; place "b" 0 Bid 20 None; place "c" 0 Bid 30 None; place "d" 0 Ask 5 None;
            cancel "a" 0 0; cancel "b" 0 1; cancel "c" 0 2; cancel "c" 0 2] in
  let s := w_st (run w_start h) in
  start w_start /\ history w_start h /\
  length (cancelled w_start h 0 Bid) = 3%nat /\ size (nodes_at s 0 Bid) = 5%nat /\ size (nodes_at s 0 Ask) = 0%nat /\ size (s_nodes s) = 5%nat /\ cancels w_start h = 3%nat /\
  size (s_orders s) = 1%nat /\ elements (dom (s_ticks s)) = [0].
Proof.
  cbv zeta. split; [exact start_ok|]. split; [hist|]. split; [vm_compute; reflexivity|]. split; [vm_compute; reflexivity|]. split; [vm_compute; reflexivity|].
  split; [vm_compute; reflexivity|]. split; [vm_compute; reflexivity|]. split; [vm_compute; reflexivity|]. vm_compute. reflexivity.
Qed.
