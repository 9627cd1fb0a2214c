(** * SumtreeRebalance: one rebalancing step restores the AVL property. *)
From Verif Require Import Base Dec Types State Sumtree TreeDefs Exec SumtreeProofs.

Lemma as_i32_id h : 0 <= h < 2 ^ 31 -> as_i32 h = h.
Proof. unfold as_i32. intros H. rewrite Z.mod_small by lia. lia. Qed.

Lemma bf_node tick d s m tr c p k l r nt :
  m !! (tick, tkey l) = Some (node_of tick d (Some k) l) ->
  m !! (tick, tkey r) = Some (node_of tick d (Some k) r) ->
  theight l < 2 ^ 31 -> theight r < 2 ^ 31 ->
  get_balance_factor (upd s m tr c) (mkNode k tick d (Some (tkey l)) (Some (tkey r)) p nt)
  = theight r - theight l.
Proof.
  intros Hl Hr Hhl Hhr. unfold get_balance_factor, get_left, get_right, load_child.
  cbn [n_left n_right n_tick upd set_nodectr set_tree set_nodes s_nodes]. rewrite Hl, Hr.
  cbn [option_map unwrap_or]. rewrite !node_of_weight.
  pose proof (theight_pos l). pose proof (theight_pos r). rewrite !as_i32_id by lia. lia.
Qed.

(** Balance of a stored subtree: right height minus left height (0 for a leaf). *)
Definition tbal (t : tree) : Z :=
  match t with TLeaf _ _ _ => 0 | TNode _ l r => theight r - theight l end.

Lemma bf_tree tick d s m tr c p t :
  repr tick d m p t -> theight t < 2 ^ 31 ->
  get_balance_factor (upd s m tr c) (node_of tick d p t) = tbal t.
Proof.
  destruct t as [k e v|k l r]; intros Hr Hh; [reflexivity|].
  destruct Hr as (_ & Hl & Hr). cbn [theight] in Hh.
  pose proof (theight_pos l). pose proof (theight_pos r).
  apply bf_node; [eapply repr_lookup; eauto|eapply repr_lookup; eauto|lia|lia].
Qed.

Lemma redirect_same np k : redirect np k k = np.
Proof.
  unfold redirect. destruct (opt_is k (n_left np)) eqn:E.
  - apply opt_is_spec in E. destruct np; cbn in *; subst; reflexivity.
  - destruct (opt_is k (n_right np)) eqn:E2; [|reflexivity].
    apply opt_is_spec in E2. destruct np; cbn in *; subst; reflexivity.
Qed.
Lemma put_parent_same tick p k m key : put_parent tick p k k m m !! key = m !! key.
Proof.
  destruct p as [pk|]; cbn; [|reflexivity]. destruct (m !! (tick, pk)) as [np|] eqn:E; [|reflexivity].
  rewrite redirect_same. rewrite insert_id by exact E. reflexivity.
Qed.
Lemma put_parent_ext2 tick p k k' m m1 key :
  (forall pk, p = Some pk -> m1 !! (tick, pk) = m !! (tick, pk)) -> m1 !! key = m !! key ->
  put_parent tick p k k' m1 m1 !! key = put_parent tick p k k' m m !! key.
Proof.
  intros Hp Hk. destruct p as [pk|]; cbn; [|exact Hk]. rewrite (Hp pk eq_refl).
  destruct (m !! (tick, pk)); [|exact Hk].
  destruct (decide (key = (tick, pk))) as [->|Hne]; [rewrite !lookup_insert; reflexivity|].
  rewrite !lookup_insert_ne by congruence. exact Hk.
Qed.
Lemma put_root_same tick d p k tr :
  (p = None -> tr !! (tick, d) = Some k) -> put_root tick d p k tr = tr.
Proof. intros H. destruct p; cbn; [reflexivity|]. apply insert_id. auto. Qed.

Lemma leaves_segs_sub l r k : segs_ok (leaves l ++ leaves r) -> segs_ok (leaves (TNode k l r)).
Proof. intros H; exact H. Qed.

(** Result of a rebalancing step / insertion at a node with subtrees of heights [hl], [hr]. *)
Record rebalanced (tick : Z) (d : dir) (m m' : gmap (Z * Z) tnode) (p : option Z) (k : Z) (l r t' : tree) (n' : tnode)
  : Prop := {
  rb_repr : repr tick d m' p t';
  rb_leaves : leaves t' = (leaves l ++ leaves r)%list;
  rb_keys : keys t' ≡ₚ k :: keys l ++ keys r;
  rb_avl : avl t';
  rb_h1 : theight t' <= Z.max (theight l) (theight r) + 1;
  rb_h2 : Z.max (theight l) (theight r) <= theight t';
  rb_h3 : -1 <= theight r - theight l <= 1 -> theight t' = Z.max (theight l) (theight r) + 1;
  rb_frame : frame tick (keys t') p k (tkey t') m m';
  rb_self : m' !! (tick, n_key n') = Some n';
  rb_tick : n_tick n' = tick
}.

Ltac mem_tauto :=
  cbn [keys];
  repeat match goal with
  | |- context [_ ∈ _ :: _] => rewrite elem_of_cons
  | |- context [_ ∈ app _ _] => rewrite elem_of_app
  end; solve [tauto|auto 10].

Lemma rebalance_spec tick d s m tr c p k l r x1 x2 x3 x4 n :
  n_tick n = tick -> n_key n = k ->
  m !! (tick, k) = Some (mkNode k tick d (Some (tkey l)) (Some (tkey r)) p (NInternal x1 x2 x3 x4)) ->
  node_ok tick d m p k l r -> avl l -> avl r -> -2 <= theight r - theight l <= 2 ->
  (p = None -> tr !! (tick, d) = Some k) ->
  exists m' t' n',
    rebalance n (upd s m tr c) = (upd s m' (put_root tick d p (tkey t') tr) c, Ok n') /\
    rebalanced tick d m m' p k l r t' n'.
Proof.
  intros Hnt Hnk Hself Hok Hal Har Hbal Htr.
  pose proof Hok as [Hl Hr Hnd Hsegs Hmax Hpar Hpf [Hhl Hhr]].
  pose proof (repr_lookup _ _ _ _ _ Hl) as Hl0. pose proof (repr_lookup _ _ _ _ _ Hr) as Hr0.
  pose proof (theight_pos l) as Hpl. pose proof (theight_pos r) as Hpr. pose proof U64_val as HU.
  unfold rebalance.
  erewrite bind_ok.
  2:{ unfold node_sync, mreadr. cbn [upd set_nodectr set_tree set_nodes s_nodes]. rewrite Hnt, Hnk, Hself. reflexivity. }
  rewrite !bind_ensure by reflexivity. rewrite bind_read.
  change (set_nodectr c (set_tree tr (set_nodes m s))) with (upd s m tr c).
  rewrite (bf_node tick d) by assumption.
  destruct (Z.leb_spec (Z.abs (theight r - theight l)) 1) as [Hle|Hgt].
  { (* balanced: only resync *)
    rewrite (sync_spec tick d s m tr c k l r p x1 x2 x3 x4 (Some k) (Some k)); try assumption.
    2:{ cbn [theight]. lia. }
    exists (<[(tick, k) := node_of tick d p (TNode k l r)]> m), (TNode k l r), (node_of tick d p (TNode k l r)).
    cbn [tkey]. rewrite (put_root_same tick d p k tr Htr). split; [reflexivity|].
    apply NoDup_cons in Hnd as [Hk Hnd]. rewrite elem_of_app in Hk.
    constructor; try reflexivity; cbn [theight]; try lia.
    - cbn [repr tkey]. split; [apply lookup_insert|].
      split; (eapply repr_frame; [|eassumption]); intros q Hq; apply lookup_insert_ne; intros [= ->]; tauto.
    - cbn. repeat split; try assumption; lia.
    - intros key Hkey. cbn [tkey]. rewrite put_parent_same. apply lookup_insert_ne.
      intros <-. eapply Hkey; [|reflexivity]. cbn. constructor.
    - cbn. apply lookup_insert. }
  rewrite !bind_read. unfold get_left, get_right. cbn [n_left n_right n_tick load_child].
  cbn [upd set_nodectr set_tree set_nodes s_nodes]. rewrite Hl0, Hr0.
  change (set_nodectr c (set_tree tr (set_nodes m s))) with (upd s m tr c).
  rewrite ?bind_read. cbn [option_map unwrap_or].
  rewrite !bf_tree by assumption.
  destruct (Z.ltb_spec 0 (theight r - theight l)) as [Hright|Hleft].
  - (* right leaning *)
    destruct (Z.ltb_spec (theight r - theight l) 0) as [|_]; [lia|].
    destruct r as [kr e v|kr a b]; [cbn [theight] in *; lia|].
    cbn [tbal]. destruct Har as (Haa & Hab & Hb).
    pose proof (theight_pos a) as Hpa. pose proof (theight_pos b) as Hpb.
    assert (Htop : theight (TNode kr a b) = Z.max (theight a) (theight b) + 1) by reflexivity.
    cbn [andb]. destruct (Z.leb_spec 0 (theight b - theight a)) as [Hrb|Hrb]; cbn [andb].
    + destruct (rotate_left_spec tick d s m tr c p k kr l a b x1 x2 x3 x4 Hok) as (m' & E & Hrep & Hfr).
      exists m', (TNode kr (TNode k l a) b), (node_of tick d (Some kr) (TNode k l a)).
      cbn [tkey] in *. split; [exact E|].
      constructor; try exact Hrep; try exact Hfr; try reflexivity; try (cbn [theight] in *; lia).
      * cbn [leaves]. rewrite <- app_assoc. reflexivity.
      * cbn [keys]. solve_Permutation.
      * cbn [avl theight] in *. repeat split; try assumption; lia.
      * destruct Hrep as (_ & (H & _) & _). exact H.
    + destruct (Z.ltb_spec (theight b - theight a) 0) as [_|]; [|lia].
      destruct a as [ka e v|ka a1 a2]; [cbn [theight] in *; lia|].
      assert (Hokr : node_ok tick d m (Some k) kr (TNode ka a1 a2) b).
      { destruct Hr as (Hrrec & Hra & Hrb').
        apply NoDup_cons in Hnd as [Hk Hnd]. apply NoDup_app in Hnd as (Hndl & Hlr & Hndr).
        constructor; try assumption.
        - apply segs_ok_app in Hsegs as (_ & H & _). exact H.
        - exists (mkNode k tick d (Some (tkey l)) (Some kr) p (NInternal x1 x2 x3 x4)).
          split; [exact Hself|]. repeat split. right. split; [reflexivity|]. cbn. intros [= E].
          apply (Hlr (tkey l) (tkey_in l)). rewrite E. cbn. constructor.
        - intros pk [= <-] Hin. apply Hk. apply elem_of_app. right. exact Hin.
        - cbn [theight] in *. lia. }
      set (R := TNode kr (TNode ka a1 a2) b) in *.
      destruct (rotate_right_spec tick d s m tr c (Some k) kr ka a1 a2 b (tsum R) (tmin R) (tmax R) (theight R) Hokr) as (m1 & E1 & Hrep1 & Hfr1).
      erewrite bind_ok by exact E1. cbn [put_root]. subst R.
      set (r' := TNode ka a1 (TNode kr a2 b)) in *.
      assert (Hkeys' : forall q, q ∈ keys r' -> q ∈ keys (TNode kr (TNode ka a1 a2) b)).
      { intros q. cbn. rewrite !elem_of_cons, !elem_of_app, !elem_of_cons, !elem_of_app. tauto. }
      assert (Hkeys2 : keys r' ≡ₚ keys (TNode kr (TNode ka a1 a2) b)).
      { cbn. solve_Permutation. }
      pose proof Hnd as Hnd0. apply NoDup_cons in Hnd as [Hk Hnd]. apply NoDup_app in Hnd as (Hndl & Hlr & Hndr).
      rewrite elem_of_app in Hk.
      assert (Hlk : tkey l <> kr).
      { intros E. apply (Hlr (tkey l) (tkey_in l)). rewrite E. cbn. constructor. }
      assert (Hself1 : m1 !! (tick, k) = Some (mkNode k tick d (Some (tkey l)) (Some (tkey r')) p (NInternal x1 x2 x3 x4))).
      { rewrite Hfr1.
        - cbn [put_parent]. rewrite Hself. rewrite lookup_insert. unfold redirect. cbn [n_left n_right opt_is].
          destruct (Z.eqb_spec (tkey l) kr); [contradiction|]. cbn [tkey opt_is]. rewrite Z.eqb_refl. reflexivity.
        - intros q Hq [= ->]. apply Hk. right. auto. }
      erewrite bind_ok.
      2:{ unfold node_sync, mreadr. cbn [upd set_nodectr set_tree set_nodes s_nodes n_tick n_key].
          rewrite Hself1. reflexivity. }
      change (set_nodectr c (set_tree tr (set_nodes m1 s))) with (upd s m1 tr c).
      assert (Hne : forall key, key <> (tick, k) -> (forall q, q ∈ keys r' -> key <> (tick, q)) -> m1 !! key = m !! key).
      { intros key Hk1 Hk2. rewrite Hfr1 by exact Hk2. apply put_parent_lookup_ne. intros pk [= <-]. exact Hk1. }
      assert (Hpk : forall pk, p = Some pk -> m1 !! (tick, pk) = m !! (tick, pk)).
      { intros pk E. specialize (Hpf pk E). rewrite elem_of_cons, elem_of_app in Hpf. apply Hne.
        - intros [= ->]. tauto.
        - intros q Hq [= ->]. apply Hpf. right. right. auto. }
      assert (Hok1 : node_ok tick d m1 p k l r').
      { constructor.
        - eapply repr_frame; [|exact Hl]. intros q Hq. apply Hne.
          + intros [= ->]. tauto.
          + intros q' Hq' [= ->]. eapply Hlr; eauto.
        - exact Hrep1.
        - rewrite Hkeys2. exact Hnd0.
        - cbn [leaves] in Hsegs |- *. rewrite <- (app_assoc (leaves a1)) in Hsegs. exact Hsegs.
        - exact Hmax.
        - unfold parent_ok in *. destruct p as [pk|]; [|exact I]. rewrite (Hpk pk eq_refl). exact Hpar.
        - intros pk E Hin. apply (Hpf pk E). rewrite elem_of_cons, elem_of_app in *. naive_solver.
        - unfold r' in *; cbn [theight] in *. lia. }
      destruct (rotate_left_spec tick d s m1 tr c p k ka l a1 (TNode kr a2 b) x1 x2 x3 x4 Hok1) as (m2 & E2 & Hrep2 & Hfr2).
      exists m2, (TNode ka (TNode k l a1) (TNode kr a2 b)), (node_of tick d (Some ka) (TNode k l a1)).
      cbn [tkey] in *. split; [exact E2|].
      destruct Haa as (? & ? & ?). pose proof (theight_pos a1). pose proof (theight_pos a2).
      constructor; try exact Hrep2; try reflexivity; try (cbn [theight] in *; lia).
      * cbn [leaves]. rewrite <- !app_assoc. reflexivity.
      * cbn [keys]. solve_Permutation.
      * cbn [avl theight] in *. repeat split; try assumption; lia.
      * intros key Hkey. rewrite Hfr2 by exact Hkey. apply put_parent_ext2; [exact Hpk|].
        apply Hne; [apply Hkey; mem_tauto|]. intros q Hq. apply Hkey. clear Hkey. revert Hq. try unfold r'; try unfold l'; mem_tauto.
      * destruct Hrep2 as (_ & (H' & _) & _). exact H'.
  - (* left leaning *)
    destruct (Z.ltb_spec (theight r - theight l) 0) as [_|]; [|lia].
    destruct l as [kl e v|kl a b]; [cbn [theight] in *; lia|].
    cbn [tbal]. destruct Hal as (Haa & Hab & Hb).
    pose proof (theight_pos a) as Hpa. pose proof (theight_pos b) as Hpb.
    assert (Htop : theight (TNode kl a b) = Z.max (theight a) (theight b) + 1) by reflexivity.
    cbn [andb]. destruct (Z.leb_spec (theight b - theight a) 0) as [Hrb|Hrb]; cbn [andb].
    + destruct (rotate_right_spec tick d s m tr c p k kl a b r x1 x2 x3 x4 Hok) as (m' & E & Hrep & Hfr).
      exists m', (TNode kl a (TNode k b r)), (node_of tick d (Some kl) (TNode k b r)).
      cbn [tkey] in *. split; [exact E|].
      constructor; try exact Hrep; try exact Hfr; try reflexivity; try (cbn [theight] in *; lia).
      * cbn [leaves]. rewrite <- app_assoc. reflexivity.
      * cbn [keys]. solve_Permutation.
      * cbn [avl theight] in *. repeat split; try assumption; lia.
      * destruct Hrep as (_ & _ & (H & _)). exact H.
    + destruct (Z.ltb_spec 0 (theight b - theight a)) as [_|]; [|lia].
      destruct b as [kb e v|kb b1 b2]; [cbn [theight] in *; lia|].
      assert (Hokl : node_ok tick d m (Some k) kl a (TNode kb b1 b2)).
      { destruct Hl as (Hlrec & Hla & Hlb').
        apply NoDup_cons in Hnd as [Hk Hnd]. apply NoDup_app in Hnd as (Hndl & Hlr & Hndr).
        assert (Hmaxl : tmax b2 <= U256_MAX).
        { pose proof (tmax_tmin _ _ 0 (leaves_segs_sub _ _ 0 Hsegs)) as H1.
          apply segs_ok_app in Hsegs as (_ & H2 & _). pose proof (tmin_lt_tmax _ H2). cbn [tmax] in *. lia. }
        constructor; try assumption.
        - apply segs_ok_app in Hsegs as (H & _ & _). exact H.
        - exists (mkNode k tick d (Some kl) (Some (tkey r)) p (NInternal x1 x2 x3 x4)).
          split; [exact Hself|]. repeat split. left. split; [reflexivity|]. cbn. intros [= E].
          apply (Hlr kl); [cbn; constructor|]. rewrite <- E. apply tkey_in.
        - intros pk [= <-] Hin. apply Hk. apply elem_of_app. left. exact Hin.
        - cbn [theight] in *. lia. }
      set (R := TNode kl a (TNode kb b1 b2)) in *.
      destruct (rotate_left_spec tick d s m tr c (Some k) kl kb a b1 b2 (tsum R) (tmin R) (tmax R) (theight R) Hokl) as (m1 & E1 & Hrep1 & Hfr1).
      erewrite bind_ok by exact E1. cbn [put_root]. subst R.
      set (l' := TNode kb (TNode kl a b1) b2) in *.
      assert (Hkeys' : forall q, q ∈ keys l' -> q ∈ keys (TNode kl a (TNode kb b1 b2))).
      { intros q. cbn. repeat (rewrite elem_of_cons || rewrite elem_of_app). tauto. }
      assert (Hkeys2 : keys l' ≡ₚ keys (TNode kl a (TNode kb b1 b2))).
      { cbn. solve_Permutation. }
      pose proof Hnd as Hnd0. apply NoDup_cons in Hnd as [Hk Hnd]. apply NoDup_app in Hnd as (Hndl & Hlr & Hndr).
      rewrite elem_of_app in Hk.
      assert (Hself1 : m1 !! (tick, k) = Some (mkNode k tick d (Some (tkey l')) (Some (tkey r)) p (NInternal x1 x2 x3 x4))).
      { rewrite Hfr1.
        - cbn [put_parent]. rewrite Hself. rewrite lookup_insert. unfold redirect. cbn [n_left n_right opt_is tkey].
          rewrite Z.eqb_refl. reflexivity.
        - intros q Hq [= ->]. apply Hk. left. auto. }
      erewrite bind_ok.
      2:{ unfold node_sync, mreadr. cbn [upd set_nodectr set_tree set_nodes s_nodes n_tick n_key].
          rewrite Hself1. reflexivity. }
      change (set_nodectr c (set_tree tr (set_nodes m1 s))) with (upd s m1 tr c).
      assert (Hne : forall key, key <> (tick, k) -> (forall q, q ∈ keys l' -> key <> (tick, q)) -> m1 !! key = m !! key).
      { intros key Hk1 Hk2. rewrite Hfr1 by exact Hk2. apply put_parent_lookup_ne. intros pk [= <-]. exact Hk1. }
      assert (Hpk : forall pk, p = Some pk -> m1 !! (tick, pk) = m !! (tick, pk)).
      { intros pk E. specialize (Hpf pk E). rewrite elem_of_cons, elem_of_app in Hpf. apply Hne.
        - intros [= ->]. tauto.
        - intros q Hq [= ->]. apply Hpf. right. left. auto. }
      assert (Hok1 : node_ok tick d m1 p k l' r).
      { constructor.
        - exact Hrep1.
        - eapply repr_frame; [|exact Hr]. intros q Hq. apply Hne.
          + intros [= ->]. tauto.
          + intros q' Hq' [= ->]. eapply Hlr; eauto.
        - rewrite Hkeys2. exact Hnd0.
        - unfold l'. cbn [leaves] in Hsegs |- *. rewrite <- (app_assoc (leaves a)). exact Hsegs.
        - exact Hmax.
        - unfold parent_ok in *. destruct p as [pk|]; [|exact I]. rewrite (Hpk pk eq_refl). exact Hpar.
        - intros pk E Hin. apply (Hpf pk E). rewrite elem_of_cons, elem_of_app in *. naive_solver.
        - unfold l' in *; cbn [theight] in *. lia. }
      destruct (rotate_right_spec tick d s m1 tr c p k kb (TNode kl a b1) b2 r x1 x2 x3 x4 Hok1) as (m2 & E2 & Hrep2 & Hfr2).
      exists m2, (TNode kb (TNode kl a b1) (TNode k b2 r)), (node_of tick d (Some kb) (TNode k b2 r)).
      cbn [tkey] in *. split; [exact E2|].
      destruct Hab as (? & ? & ?). pose proof (theight_pos b1). pose proof (theight_pos b2).
      constructor; try exact Hrep2; try reflexivity; try (cbn [theight] in *; lia).
      * cbn [leaves]. rewrite <- !app_assoc. reflexivity.
      * cbn [keys]. solve_Permutation.
      * cbn [avl theight] in *. repeat split; try assumption; lia.
      * intros key Hkey. rewrite Hfr2 by exact Hkey. apply put_parent_ext2; [exact Hpk|].
        apply Hne; [apply Hkey; mem_tauto|]. intros q Hq. apply Hkey. clear Hkey. revert Hq. try unfold r'; try unfold l'; mem_tauto.
      * destruct Hrep2 as (_ & _ & (H' & _)). exact H'.
Qed.
