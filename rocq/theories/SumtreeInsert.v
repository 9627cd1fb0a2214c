(** * SumtreeInsert: inserting a leaf into a correct AVL sumtree. *)
From Verif Require Import Base Dec Types State Sumtree TreeDefs Exec SumtreeProofs SumtreeRebalance.

(** The new range [(e, v)] overlaps no range of [L]. *)
Definition apart (e v : Z) (L : list (Z * Z)) : Prop :=
  forall q, q ∈ L -> seg_before q (e, v) \/ seg_before (e, v) q.

Record ins_pre (tick : Z) (d : dir) (m : gmap (Z * Z) tnode) (p : option Z) (t : tree) (kn ctr e v : Z) : Prop := {
  ip_repr : repr tick d m p t;
  ip_avl : avl t;
  ip_segs : segs_ok (leaves t);
  ip_e : 0 <= e; ip_v : 0 < v; ip_apart : apart e v (leaves t);
  ip_max : v + e <= U256_MAX /\ tmax t <= U256_MAX;
  ip_nd : NoDup (keys t); ip_kn : kn ∉ keys t; ip_knctr : kn <= ctr;
  ip_ctr : Forall (fun q => q <= ctr) (keys t);
  ip_par : parent_ok tick m p (tkey t);
  ip_pf : forall pk, p = Some pk -> pk ∉ keys t /\ pk <> kn /\ pk <= ctr;
  ip_h : theight t < 2 ^ 31 - 1
}.

Record inserted (tick : Z) (d : dir) (m m' : gmap (Z * Z) tnode) (p : option Z) (t t' : tree) (kn id e v : Z) (n' : tnode) : Prop := {
  in_repr : repr tick d m' p t';
  in_leaves : exists L1 L2, leaves t = (L1 ++ L2)%list /\ leaves t' = (L1 ++ (e, v) :: L2)%list;
  in_segs : segs_ok (leaves t');
  in_max : tmax t' <= U256_MAX;
  in_keys : keys t' ≡ₚ kn :: id :: keys t;
  in_avl : avl t';
  in_h : theight t <= theight t' <= theight t + 1;
  in_frame : frame tick (keys t') p (tkey t) (tkey t') m m';
  in_self : m' !! (tick, n_key n') = Some n';
  in_tick : n_tick n' = tick
}.

Lemma tmin_cons t : exists v L, leaves t = (tmin t, v) :: L.
Proof.
  induction t as [k e v|k l (v & L & E) r _]; cbn; [eauto|]. rewrite E. cbn. eauto.
Qed.

(** Order facts for the joint list after inserting into one side. *)
Lemma segs_insert L1 L2 e v :
  segs_ok (L1 ++ L2) -> 0 <= e -> 0 < v ->
  (forall q, q ∈ L1 -> seg_before q (e, v)) -> (forall q, q ∈ L2 -> seg_before (e, v) q) ->
  segs_ok (L1 ++ (e, v) :: L2).
Proof.
  intros Hok He Hv H1 H2. apply segs_ok_app in Hok as (Ha & Hb & Hab).
  apply segs_ok_app. split; [exact Ha|]. split.
  - change ((e, v) :: L2) with ([(e, v)] ++ L2). apply segs_ok_app.
    split; [apply segs_ok_singleton; assumption|]. split; [exact Hb|].
    intros a b Hx Hy. apply elem_of_list_singleton in Hx as ->. auto.
  - intros a b Hx Hy. apply elem_of_cons in Hy as [->|Hy]; auto.
Qed.

Lemma segs_app_tree l' r :
  segs_ok (leaves l') -> segs_ok (leaves r) -> (forall q, q ∈ leaves l' -> q.1 + q.2 <= tmin r) ->
  segs_ok (leaves l' ++ leaves r).
Proof.
  intros Hl Hr H. apply segs_ok_app. split; [exact Hl|]. split; [exact Hr|].
  intros a b Ha Hb. unfold seg_before. pose proof (tmin_le _ _ Hr Hb). specialize (H _ Ha). lia.
Qed.

(** Replacing the left subtree, then rebalancing. *)
Lemma finish_left tick d s m m1 tr c p k l r l' kn ctr e v x1 x2 x3 x4 n :
  ins_pre tick d m p (TNode k l r) kn ctr e v ->
  n_tick n = tick -> n_key n = k ->
  m1 !! (tick, k) = Some (mkNode k tick d (Some (tkey l')) (Some (tkey r)) p (NInternal x1 x2 x3 x4)) ->
  repr tick d m1 (Some k) l' ->
  (forall key, key <> (tick, k) -> (forall q, q ∈ keys l' -> key <> (tick, q)) -> m1 !! key = m !! key) ->
  (exists L1 L2, leaves l = (L1 ++ L2)%list /\ leaves l' = (L1 ++ (e, v) :: L2)%list) ->
  segs_ok (leaves l') ->
  v + e <= tmin r ->
  keys l' ≡ₚ kn :: (ctr + 1) :: keys l -> avl l' -> theight l <= theight l' <= theight l + 1 ->
  (p = None -> tr !! (tick, d) = Some k) ->
  exists m' t' n',
    rebalance n (upd s m1 tr c) = (upd s m' (put_root tick d p (tkey t') tr) c, Ok n') /\
    inserted tick d m m' p (TNode k l r) t' kn (ctr + 1) e v n'.
Proof.
  intros [Hrep Havl Hsegs He Hv Hap [Hmax1 Hmax2] Hnd Hkn Hknc Hctr Hpar Hpf Hh]
    Hnt Hnk Hself Hl' Hfr (L1 & L2 & EL & EL') Hsl' Hbefore Hkeys Hal' Hhl' Htr.
  destruct Hrep as (Hself0 & Hl & Hr). destruct Havl as (Hal & Har & Hbal).
  cbn [keys tkey] in *. rewrite Forall_cons, Forall_app in Hctr. destruct Hctr as (Hkc & Hlc & Hrc).
  rewrite Forall_forall in Hlc, Hrc.
  apply NoDup_cons in Hnd as [Hk Hnd]. pose proof Hnd as Hnd0. apply NoDup_app in Hnd as (Hndl & Hlr & Hndr).
  rewrite elem_of_app in Hk. rewrite elem_of_cons, elem_of_app in Hkn.
  assert (Hin : forall q, q ∈ keys l' <-> q = kn \/ q = ctr + 1 \/ q ∈ keys l).
  { intros q. rewrite Hkeys. rewrite !elem_of_cons. tauto. }
  assert (Hcl : forall q, q ∈ keys l -> q <= ctr) by auto.
  assert (Hcr : forall q, q ∈ keys r -> q <= ctr) by auto.
  assert (Hkl' : k ∉ keys l') by (rewrite Hin; intros [->|[->|H]]; [tauto|lia|tauto]).
  assert (Hrl' : forall q, q ∈ keys r -> q ∉ keys l').
  { intros q Hq. rewrite Hin. intros [->|[->|H]]; [tauto|specialize (Hcr _ Hq); lia|eapply Hlr; eauto]. }
  assert (Hnd1 : NoDup (k :: keys l' ++ keys r)).
  { apply NoDup_cons. split; [rewrite elem_of_app; tauto|]. apply NoDup_app. split; [|split; [|exact Hndr]].
    - rewrite Hkeys. apply NoDup_cons. split; [rewrite elem_of_cons; intros [->|H]; [lia|tauto]|].
      apply NoDup_cons. split; [intros H; specialize (Hcl _ H); lia|exact Hndl].
    - intros q Hq Hq'. eapply Hrl'; eauto. }
  assert (Hpk : forall pk, p = Some pk -> m1 !! (tick, pk) = m !! (tick, pk)).
  { intros pk E. destruct (Hpf pk E) as (Hpk1 & Hpk2 & Hpk3). rewrite elem_of_cons, elem_of_app in Hpk1.
    apply Hfr; [intros [= ->]; tauto|]. intros q Hq [= ->]. apply Hin in Hq as [->|[->|Hq]]; [tauto|lia|tauto]. }
  pose proof (segs_node _ _ _ Hsegs) as [Hsl Hsr].
  pose proof (tmax_tmin _ _ _ Hsegs) as Hlr_ord.
  assert (Hs1 : segs_ok (leaves l' ++ leaves r)).
  { apply segs_app_tree; [exact Hsl'|exact Hsr|]. intros q Hq. rewrite EL' in Hq.
    rewrite elem_of_app, elem_of_cons in Hq. destruct Hq as [Hq|[->|Hq]].
    - assert (q ∈ leaves l) as Hq' by (rewrite EL, elem_of_app; tauto).
      pose proof (tmax_ge _ _ Hsl Hq'). lia.
    - cbn. lia.
    - assert (q ∈ leaves l) as Hq' by (rewrite EL, elem_of_app; tauto).
      pose proof (tmax_ge _ _ Hsl Hq'). lia. }
  cbn [theight tmax] in *.
  pose proof (theight_pos l). pose proof (theight_pos r).
  assert (Hok : node_ok tick d m1 p k l' r).
  { constructor; try assumption.
    - eapply repr_frame; [|exact Hr]. intros q Hq. apply Hfr.
      + intros [= ->]. tauto.
      + intros q' Hq' [= ->]. eapply Hrl'; eauto.
    - unfold parent_ok in *. destruct p as [pk|]; [|exact I]. rewrite (Hpk pk eq_refl). exact Hpar.
    - intros pk E Hi. destruct (Hpf pk E) as (Hpk1 & Hpk2 & Hpk3). rewrite elem_of_cons, elem_of_app in Hpk1.
      rewrite elem_of_cons, elem_of_app, Hin in Hi. destruct Hi as [->|[[->|[->|Hi]]|Hi]]; try tauto; lia.
    - lia. }
  destruct (rebalance_spec tick d s m1 tr c p k l' r x1 x2 x3 x4 n Hnt Hnk Hself Hok Hal' Har ltac:(lia) Htr)
    as (m' & t' & n' & E & [Rr Rl Rk Ra Rh1 Rh2 Rh3 Rf Rs Rt]).
  exists m', t', n'. split; [exact E|]. constructor; try assumption.
  - exists L1, (L2 ++ leaves r)%list. cbn [leaves]. rewrite EL, Rl, EL'. split; [rewrite <- app_assoc; reflexivity|].
    rewrite <- app_assoc. reflexivity.
  - rewrite Rl. exact Hs1.
  - destruct (tmax_in t') as (q & Hq & <-). rewrite Rl, elem_of_app in Hq.
    destruct Hq as [Hq|Hq].
    + rewrite EL', elem_of_app, elem_of_cons in Hq. destruct Hq as [Hq|[->|Hq]]; [|cbn; lia|].
      all: assert (q ∈ leaves l) as Hq' by (rewrite EL, elem_of_app; tauto);
        pose proof (tmax_ge _ _ Hsl Hq'); pose proof (tmin_lt_tmax _ Hsr); lia.
    + pose proof (tmax_ge _ _ Hsr Hq). lia.
  - rewrite Rk. cbn [keys]. rewrite Hkeys. cbn. solve_Permutation.
  - cbn [theight]. lia.
  - intros key Hkey. rewrite Rf by exact Hkey. cbn [tkey]. apply put_parent_ext2; [exact Hpk|].
    apply Hfr; [apply Hkey; rewrite Rk; constructor|]. intros q Hq. apply Hkey. rewrite Rk.
    rewrite elem_of_cons, elem_of_app. tauto.
Qed.

Lemma finish_right tick d s m m1 tr c p k l r r' kn ctr e v x1 x2 x3 x4 n :
  ins_pre tick d m p (TNode k l r) kn ctr e v ->
  n_tick n = tick -> n_key n = k ->
  m1 !! (tick, k) = Some (mkNode k tick d (Some (tkey l)) (Some (tkey r')) p (NInternal x1 x2 x3 x4)) ->
  repr tick d m1 (Some k) r' ->
  (forall key, key <> (tick, k) -> (forall q, q ∈ keys r' -> key <> (tick, q)) -> m1 !! key = m !! key) ->
  (exists L1 L2, leaves r = (L1 ++ L2)%list /\ leaves r' = (L1 ++ (e, v) :: L2)%list) ->
  segs_ok (leaves r') ->
  tmax l <= e ->
  keys r' ≡ₚ kn :: (ctr + 1) :: keys r -> avl r' -> theight r <= theight r' <= theight r + 1 ->
  (p = None -> tr !! (tick, d) = Some k) ->
  exists m' t' n',
    rebalance n (upd s m1 tr c) = (upd s m' (put_root tick d p (tkey t') tr) c, Ok n') /\
    inserted tick d m m' p (TNode k l r) t' kn (ctr + 1) e v n'.
Proof.
  intros [Hrep Havl Hsegs He Hv Hap [Hmax1 Hmax2] Hnd Hkn Hknc Hctr Hpar Hpf Hh]
    Hnt Hnk Hself Hr' Hfr (L1 & L2 & EL & EL') Hsr' Hafter Hkeys Har' Hhr' Htr.
  destruct Hrep as (Hself0 & Hl & Hr). destruct Havl as (Hal & Har & Hbal).
  cbn [keys tkey] in *. rewrite Forall_cons, Forall_app in Hctr. destruct Hctr as (Hkc & Hlc & Hrc).
  rewrite Forall_forall in Hlc, Hrc.
  apply NoDup_cons in Hnd as [Hk Hnd]. pose proof Hnd as Hnd0. apply NoDup_app in Hnd as (Hndl & Hlr & Hndr).
  rewrite elem_of_app in Hk. rewrite elem_of_cons, elem_of_app in Hkn.
  assert (Hin : forall q, q ∈ keys r' <-> q = kn \/ q = ctr + 1 \/ q ∈ keys r).
  { intros q. rewrite Hkeys. rewrite !elem_of_cons. tauto. }
  assert (Hcl : forall q, q ∈ keys l -> q <= ctr) by auto.
  assert (Hcr : forall q, q ∈ keys r -> q <= ctr) by auto.
  assert (Hkr' : k ∉ keys r') by (rewrite Hin; intros [->|[->|H]]; [tauto|lia|tauto]).
  assert (Hlr' : forall q, q ∈ keys l -> q ∉ keys r').
  { intros q Hq. rewrite Hin. intros [->|[->|H]]; [tauto|specialize (Hcl _ Hq); lia|eapply Hlr; eauto]. }
  assert (Hnd1 : NoDup (k :: keys l ++ keys r')).
  { apply NoDup_cons. split; [rewrite elem_of_app; tauto|]. apply NoDup_app. split; [exact Hndl|split].
    - intros q Hq Hq'. eapply Hlr'; eauto.
    - rewrite Hkeys. apply NoDup_cons. split; [rewrite elem_of_cons; intros [->|H]; [lia|tauto]|].
      apply NoDup_cons. split; [intros H; specialize (Hcr _ H); lia|exact Hndr]. }
  assert (Hpk : forall pk, p = Some pk -> m1 !! (tick, pk) = m !! (tick, pk)).
  { intros pk E. destruct (Hpf pk E) as (Hpk1 & Hpk2 & Hpk3). rewrite elem_of_cons, elem_of_app in Hpk1.
    apply Hfr; [intros [= ->]; tauto|]. intros q Hq [= ->]. apply Hin in Hq as [->|[->|Hq]]; [tauto|lia|tauto]. }
  pose proof (segs_node _ _ _ Hsegs) as [Hsl Hsr].
  pose proof (tmax_tmin _ _ _ Hsegs) as Hlr_ord.
  assert (Hminr : forall q, q ∈ leaves r' -> tmax l <= q.1).
  { intros q Hq. rewrite EL', elem_of_app, elem_of_cons in Hq. destruct Hq as [Hq|[->|Hq]]; [|cbn; lia|].
    all: assert (q ∈ leaves r) as Hq' by (rewrite EL, elem_of_app; tauto);
        pose proof (tmin_le _ _ Hsr Hq'); lia. }
  assert (Hmaxr : tmax r' <= U256_MAX).
  { destruct (tmax_in r') as (q & Hq & <-). rewrite EL', elem_of_app, elem_of_cons in Hq.
    cbn [tmax] in Hmax2. destruct Hq as [Hq|[->|Hq]]; [|cbn; lia|].
    all: assert (q ∈ leaves r) as Hq' by (rewrite EL, elem_of_app; tauto);
        pose proof (tmax_ge _ _ Hsr Hq'); lia. }
  assert (Hs1 : segs_ok (leaves l ++ leaves r')).
  { apply segs_app_tree; [exact Hsl|exact Hsr'|]. intros q Hq.
    destruct (tmin_in r') as [vv Hvv]. apply Hminr in Hvv. cbn in Hvv.
    pose proof (tmax_ge _ _ Hsl Hq). lia. }
  cbn [theight tmax] in *.
  pose proof (theight_pos l). pose proof (theight_pos r).
  assert (Hok : node_ok tick d m1 p k l r').
  { constructor; try assumption.
    - eapply repr_frame; [|exact Hl]. intros q Hq. apply Hfr.
      + intros [= ->]. tauto.
      + intros q' Hq' [= ->]. eapply Hlr'; eauto.
    - unfold parent_ok in *. destruct p as [pk|]; [|exact I]. rewrite (Hpk pk eq_refl). exact Hpar.
    - intros pk E Hi. destruct (Hpf pk E) as (Hpk1 & Hpk2 & Hpk3). rewrite elem_of_cons, elem_of_app in Hpk1.
      rewrite elem_of_cons, elem_of_app, Hin in Hi. destruct Hi as [->|[Hi|[->|[->|Hi]]]]; try tauto; lia.
    - lia. }
  destruct (rebalance_spec tick d s m1 tr c p k l r' x1 x2 x3 x4 n Hnt Hnk Hself Hok Hal Har' ltac:(lia) Htr)
    as (m' & t' & n' & E & [Rr Rl Rk Ra Rh1 Rh2 Rh3 Rf Rs Rt]).
  exists m', t', n'. split; [exact E|]. constructor; try assumption.
  - exists (leaves l ++ L1)%list, L2. cbn [leaves]. rewrite EL, Rl, EL'. split; rewrite <- app_assoc; reflexivity.
  - rewrite Rl. exact Hs1.
  - destruct (tmax_in t') as (q & Hq & <-). rewrite Rl, elem_of_app in Hq.
    destruct Hq as [Hq|Hq].
    + pose proof (tmax_ge _ _ Hsl Hq). pose proof (tmin_lt_tmax _ Hsr). lia.
    + pose proof (tmax_ge _ _ Hsr' Hq). lia.
  - rewrite Rk. cbn [keys]. rewrite Hkeys. cbn. solve_Permutation.
  - cbn [theight]. lia.
  - intros key Hkey. rewrite Rf by exact Hkey. cbn [tkey]. apply put_parent_ext2; [exact Hpk|].
    apply Hfr; [apply Hkey; rewrite Rk; constructor|]. intros q Hq. apply Hkey. rewrite Rk.
    rewrite elem_of_cons, elem_of_app. tauto.
Qed.

(** The in-memory record of a leaf about to be inserted. *)
Definition leaf_node (tick : Z) (d : dir) (kn e v : Z) : tnode := mkNode kn tick d None None None (NLeaf v e).

Lemma node_split_spec tick d s m tr c k kl e1 v1 kn ctr e v :
  unwrap_or (c !! tick) 0 = ctr -> ctr + 1 <= U64_MAX ->
  0 <= e1 -> 0 < v1 -> 0 <= e -> 0 < v -> v1 + e1 <= U256_MAX -> v + e <= U256_MAX ->
  (e1 + v1 <= e \/ e + v <= e1) -> kl <> kn -> kl <= ctr -> kn <= ctr ->
  exists m1 t1 lf nw,
    node_split (node_of tick d (Some k) (TLeaf kl e1 v1)) (leaf_node tick d kn e v) (upd s m tr c) =
      (upd s m1 tr (<[tick := ctr + 1]> c), Ok (lf, nw, ctr + 1)) /\
    repr tick d m1 (Some k) t1 /\ tkey t1 = ctr + 1 /\
    (forall key, (forall q, q ∈ keys t1 -> key <> (tick, q)) -> m1 !! key = m !! key) /\
    (exists L1 L2, leaves (TLeaf kl e1 v1) = (L1 ++ L2)%list /\ leaves t1 = (L1 ++ (e, v) :: L2)%list) /\
    segs_ok (leaves t1) /\ keys t1 ≡ₚ kn :: (ctr + 1) :: [kl] /\ avl t1 /\ theight t1 = 2.
Proof.
  intros Hc Hctr He1 Hv1 He Hv Hm1 Hm2 Hord Hne Hkl Hkn.
  unfold node_split, leaf_node. rewrite bind_ensure by reflexivity.
  erewrite bind_ok.
  2:{ unfold generate_node_id. rewrite bind_read. cbn [upd set_nodectr set_tree set_nodes s_nodectr node_of n_tick].
      rewrite Hc. destruct (Z.leb_spec (ctr + 1) U64_MAX); [|lia].
      change (set_nodectr c (set_tree tr (set_nodes m s))) with (upd s m tr c). reflexivity. }
  cbn [get_value node_of n_type]. erewrite bind_ok by (rewrite checked_add_ok by lia; reflexivity).
  assert (HU : checked_add256 v1 e1 = Ok (v1 + e1)) by (apply checked_add_ok; lia).
  assert (HU2 : checked_add256 v e = Ok (v + e)) by (apply checked_add_ok; lia).
  unfold below_range, above_range. cbn [get_max_range get_min_range n_type]. rewrite HU, HU2. cbn [rbind].
  change (set_nodectr (<[tick:=ctr + 1]> (s_nodectr (upd s m tr c))) (upd s m tr c))
    with (upd s m tr (<[tick := ctr + 1]> c)).
  destruct (Z.leb_spec (v1 + e1) e) as [Hb|Hb].
  - rewrite bind_lift_ok. cbn [rbind fst snd]. rewrite bind_lift_ok.
    cbn [set_weight new_node n_type n_set_type]. rewrite bind_lift_ok.
    cbn [n_set_parent n_set_left n_set_right n_key n_tick n_dir n_left n_right n_parent n_type fst snd].
    do 3 erewrite bind_ok by apply save_upd. cbn [n_key n_tick].
    exists (<[(tick, kn):=mkNode kn tick d None None (Some (ctr + 1)) (NLeaf v e)]>
      (<[(tick, kl):=mkNode kl tick d None None (Some (ctr + 1)) (NLeaf v1 e1)]>
       (<[(tick, ctr + 1):= node_of tick d (Some k) (TNode (ctr + 1) (TLeaf kl e1 v1) (TLeaf kn e v))]> m))).
    exists (TNode (ctr + 1) (TLeaf kl e1 v1) (TLeaf kn e v)).
    eexists _, _. split.
    + rewrite Z.max_l by lia. rewrite Z.min_r by lia. reflexivity.
    + split; [|split; [reflexivity|split]].
      * cbn [repr tkey]. repeat split; lk; try reflexivity.
        rewrite !lookup_insert_ne by (intros [=]; lia). apply lookup_insert.
      * intros key Hkey. rewrite !lookup_insert_ne; [reflexivity| | |]; intros <-; eapply Hkey; try reflexivity; cbn; set_solver.
      * split; [exists [(e1, v1)], []; split; reflexivity|].
        split; [apply segs_join; try (apply segs_ok_singleton; assumption); cbn; lia|].
        split; [cbn; solve_Permutation|]. cbn. split; [repeat split; lia|reflexivity].
  - destruct (Z.leb_spec (v + e) e1) as [Ha|Ha]; [|lia].
    rewrite bind_lift_ok. cbn [rbind fst snd]. rewrite bind_lift_ok.
    cbn [set_weight new_node n_type n_set_type]. rewrite bind_lift_ok.
    cbn [n_set_parent n_set_left n_set_right n_key n_tick n_dir n_left n_right n_parent n_type fst snd].
    do 3 erewrite bind_ok by apply save_upd. cbn [n_key n_tick].
    exists (<[(tick, kn):=mkNode kn tick d None None (Some (ctr + 1)) (NLeaf v e)]>
      (<[(tick, kl):=mkNode kl tick d None None (Some (ctr + 1)) (NLeaf v1 e1)]>
       (<[(tick, ctr + 1):= node_of tick d (Some k) (TNode (ctr + 1) (TLeaf kn e v) (TLeaf kl e1 v1))]> m))).
    exists (TNode (ctr + 1) (TLeaf kn e v) (TLeaf kl e1 v1)).
    eexists _, _. split.
    + rewrite Z.max_r by lia. rewrite Z.min_l by lia.
      replace (v1 + v) with (v + v1) by lia. reflexivity.
    + split; [|split; [reflexivity|split]].
      * cbn [repr tkey]. repeat split; lk; try reflexivity.
        rewrite !lookup_insert_ne by (intros [=]; lia). apply lookup_insert.
      * intros key Hkey. rewrite !lookup_insert_ne; [reflexivity| | |]; intros <-; eapply Hkey; try reflexivity; cbn; set_solver.
      * split; [exists [], [(e1, v1)]; split; reflexivity|].
        split; [apply segs_join; try (apply segs_ok_singleton; assumption); cbn; lia|].
        split; [cbn; solve_Permutation|]. cbn. split; [repeat split; lia|reflexivity].
Qed.

Lemma upd_save_id s m tr c n :
  m !! (n_tick n, n_key n) = Some n -> node_save n (upd s m tr c) = (upd s m tr c, Ok tt).
Proof. intros H. rewrite save_upd. rewrite insert_id by exact H. reflexivity. Qed.

Lemma ins_pre_left tick d m p k l r kn ctr e v :
  ins_pre tick d m p (TNode k l r) kn ctr e v -> ins_pre tick d m (Some k) l kn ctr e v.
Proof.
  intros [Hrep Havl Hsegs He Hv Hap [Hmax1 Hmax2] Hnd Hkn Hknc Hctr Hpar Hpf Hh].
  destruct Hrep as (Hself0 & Hl & Hr). destruct Havl as (Hal & Har & Hbal).
  pose proof (segs_node _ _ _ Hsegs) as [Hsl Hsr]. pose proof (tmax_tmin _ _ _ Hsegs).
  cbn [keys tkey theight tmax] in *. rewrite Forall_cons, Forall_app in Hctr. destruct Hctr as (Hkc & Hlc & Hrc).
  apply NoDup_cons in Hnd as [Hk Hnd]. apply NoDup_app in Hnd as (Hndl & Hlr & Hndr).
  rewrite elem_of_app in Hk. rewrite elem_of_cons, elem_of_app in Hkn.
  pose proof (tmin_lt_tmax _ Hsr). pose proof (theight_pos l). pose proof (theight_pos r).
  constructor; try assumption.
  - intros q Hq. apply Hap. cbn. apply elem_of_app; tauto.
  - lia.
  - tauto.
  - eexists. split; [exact Hself0|]. repeat split. left. split; [reflexivity|].
    cbn. intros [= E]. apply (Hlr (tkey l) (tkey_in l)). rewrite <- E. apply tkey_in.
  - intros pk [= <-]. repeat split; try tauto. intros ->. tauto.
  - lia.
Qed.
Lemma ins_pre_right tick d m p k l r kn ctr e v :
  ins_pre tick d m p (TNode k l r) kn ctr e v -> ins_pre tick d m (Some k) r kn ctr e v.
Proof.
  intros [Hrep Havl Hsegs He Hv Hap [Hmax1 Hmax2] Hnd Hkn Hknc Hctr Hpar Hpf Hh].
  destruct Hrep as (Hself0 & Hl & Hr). destruct Havl as (Hal & Har & Hbal).
  pose proof (segs_node _ _ _ Hsegs) as [Hsl Hsr]. pose proof (tmax_tmin _ _ _ Hsegs).
  cbn [keys tkey theight tmax] in *. rewrite Forall_cons, Forall_app in Hctr. destruct Hctr as (Hkc & Hlc & Hrc).
  apply NoDup_cons in Hnd as [Hk Hnd]. apply NoDup_app in Hnd as (Hndl & Hlr & Hndr).
  rewrite elem_of_app in Hk. rewrite elem_of_cons, elem_of_app in Hkn.
  pose proof (tmin_lt_tmax _ Hsr). pose proof (theight_pos l). pose proof (theight_pos r).
  constructor; try assumption.
  - intros q Hq. apply Hap. cbn. apply elem_of_app; tauto.
  - lia.
  - tauto.
  - eexists. split; [exact Hself0|]. repeat split. right. split; [reflexivity|].
    cbn. intros [= E]. apply (Hlr (tkey l) (tkey_in l)). rewrite E. apply tkey_in.
  - intros pk [= <-]. repeat split; try tauto. intros ->. tauto.
  - lia.
Qed.

(** Stored record of the node after its left/right child pointer was redirected. *)
Lemma redirect_left tick d p k l r k' :
  redirect (node_of tick d p (TNode k l r)) (tkey l) k' =
  mkNode k tick d (Some k') (Some (tkey r)) p
    (NInternal (tsum (TNode k l r)) (tmin (TNode k l r)) (tmax (TNode k l r)) (theight (TNode k l r))).
Proof. unfold redirect. cbn [node_of n_left opt_is]. rewrite Z.eqb_refl. reflexivity. Qed.
Lemma redirect_right tick d p k l r k' :
  tkey l <> tkey r ->
  redirect (node_of tick d p (TNode k l r)) (tkey r) k' =
  mkNode k tick d (Some (tkey l)) (Some k') p
    (NInternal (tsum (TNode k l r)) (tmin (TNode k l r)) (tmax (TNode k l r)) (theight (TNode k l r))).
Proof.
  intros H. unfold redirect. cbn [node_of n_left n_right opt_is].
  destruct (Z.eqb_spec (tkey l) (tkey r)); [contradiction|]. rewrite Z.eqb_refl. reflexivity.
Qed.

Lemma node_insert_spec tick d s kn ctr e v :
  ctr + 1 <= U64_MAX ->
  forall fuel k l r p m tr c,
  theight (TNode k l r) <= Z.of_nat fuel ->
  ins_pre tick d m p (TNode k l r) kn ctr e v ->
  unwrap_or (c !! tick) 0 = ctr ->
  (p = None -> tr !! (tick, d) = Some k) ->
  exists m' t' n' nw,
    node_insert fuel (node_of tick d p (TNode k l r)) (leaf_node tick d kn e v) (upd s m tr c) =
      (upd s m' (put_root tick d p (tkey t') tr) (<[tick := ctr + 1]> c), Ok (n', nw)) /\
    inserted tick d m m' p (TNode k l r) t' kn (ctr + 1) e v n'.
Proof.
  intros HU. induction fuel as [|fuel IH]; intros k l r p m tr c Hf Hpre Hc Htr.
  { pose proof (theight_pos (TNode k l r)). lia. }
  pose proof Hpre as [Hrep Havl Hsegs He Hv Hap [Hmax1 Hmax2] Hnd Hkn Hknc Hctr Hpar Hpf Hh].
  pose proof (ins_pre_left _ _ _ _ _ _ _ _ _ _ _ Hpre) as Hprel.
  pose proof (ins_pre_right _ _ _ _ _ _ _ _ _ _ _ Hpre) as Hprer.
  destruct Hrep as (Hself0 & Hl & Hr). cbn [tkey] in Hself0.
  pose proof (repr_lookup _ _ _ _ _ Hl) as Hl0. pose proof (repr_lookup _ _ _ _ _ Hr) as Hr0.
  pose proof (segs_node _ _ _ Hsegs) as [Hsl Hsr]. pose proof (tmax_tmin _ _ _ Hsegs) as Hlr.
  pose proof (tmin_lt_tmax _ Hsl) as Hll. pose proof (tmin_lt_tmax _ Hsr) as Hrr.
  cbn [theight tmax] in Hf, Hmax2.
  assert (Hklr : k <> tkey l /\ k <> tkey r /\ tkey l <> tkey r /\ k ∉ keys l /\ k ∉ keys r).
  { cbn [keys] in Hnd. apply NoDup_cons in Hnd as [Hk Hnd]. apply NoDup_app in Hnd as (Hndl & Hlr' & Hndr).
    rewrite elem_of_app in Hk. pose proof (tkey_in l). pose proof (tkey_in r).
    repeat split; try tauto; intros E; [apply Hk; left; rewrite E|apply Hk; right; rewrite E|];
      try assumption. apply (Hlr' (tkey l)); [assumption|rewrite E; assumption]. }
  destruct Hklr as (Hkl & Hkr & Hlkr & Hkl2 & Hkr2).
  (* position facts *)
  assert (Pleft : e < tmin r -> v + e <= tmin r).
  { intros Hlt. destruct (tmin_in r) as [vv Hvv]. destruct (Hap (tmin r, vv)) as [Hx|Hx].
    - cbn. apply elem_of_app; tauto.
    - unfold seg_before in Hx. cbn in Hx. pose proof (segs_ok_pos _ _ Hsr Hvv). cbn in *. lia.
    - unfold seg_before in Hx. cbn in Hx. lia. }
  assert (Pright : tmax l <= e -> tmax l <= e) by auto.
  assert (Hmlk : (upd s m tr c).(s_nodes) = m) by reflexivity.
  cbn [node_insert]. rewrite bind_ensure by reflexivity. rewrite bind_ensure by reflexivity.
  rewrite !bind_read. unfold get_left, get_right. cbn [node_of n_left n_right n_tick load_child].
  rewrite Hmlk, Hl0, Hr0. rewrite bind_ensure by reflexivity.
  cbn [map_or_false]. unfold in_or_below_range, in_or_above_range, below_range.
  rewrite !node_of_max by lia. rewrite !node_of_min. cbn [rbind].
  change (get_min_range (leaf_node tick d kn e v)) with e.
  assert (Hmr : get_max_range (leaf_node tick d kn e v) = Ok (v + e)).
  { cbn. rewrite checked_add_ok by lia. reflexivity. }
  rewrite Hmr. cbn [rbind]. rewrite !bind_lift_ok.
  change (mkNode k tick d (Some (tkey l)) (Some (tkey r)) p
    (NInternal (tsum (TNode k l r)) (tmin (TNode k l r)) (tmax (TNode k l r)) (theight (TNode k l r))))
    with (node_of tick d p (TNode k l r)) in *.
  assert (Hint : forall pp t, is_internal (node_of tick d pp t) = match t with TNode _ _ _ => true | _ => false end)
    by (intros pp []; reflexivity).
  rewrite !Hint.
  assert (Hsave : node_save (node_of tick d p (TNode k l r)) (upd s m tr c) = (upd s m tr c, Ok tt))
    by (apply upd_save_id; exact Hself0).
  (* recursive insertion on the left, then finish *)
  assert (RecL : forall kl a b, l = TNode kl a b -> e < tmin r ->
    exists m' t' n' nw,
      (let! _ := node_save (node_of tick d p (TNode k l r)) in
       let! r0 := node_insert fuel (node_of tick d (Some k) l) (leaf_node tick d kn e v) in
       let! self := rebalance (node_of tick d p (TNode k l r)) in
       mret (self, snd r0)) (upd s m tr c)
      = (upd s m' (put_root tick d p (tkey t') tr) (<[tick := ctr + 1]> c), Ok (n', nw)) /\
      inserted tick d m m' p (TNode k l r) t' kn (ctr + 1) e v n').
  { intros kl a b El Hlt. erewrite bind_ok by exact Hsave. rewrite El in Hprel.
    destruct (IH kl a b (Some k) m tr c) as (m1 & l' & n1 & nw & E1 & [I1 I2 I3 I4 I5 I6 I7 I8 I9 I10]); try assumption.
    { rewrite El in Hf. pose proof (theight_pos r). lia. }
    { discriminate. }
    rewrite <- El in *. erewrite bind_ok by exact E1. cbn [snd put_root].
    assert (Hkl' : k ∉ keys l').
    { rewrite I5, !elem_of_cons. intros [->|[->|H]].
      - apply Hkn. cbn. constructor.
      - cbn [keys] in Hctr. apply Forall_cons in Hctr as [Hx _]. lia.
      - tauto. }
    assert (Hself1 : m1 !! (tick, k) = Some (mkNode k tick d (Some (tkey l')) (Some (tkey r)) p
       (NInternal (tsum (TNode k l r)) (tmin (TNode k l r)) (tmax (TNode k l r)) (theight (TNode k l r))))).
    { rewrite I8 by (intros q Hq [= ->]; tauto). cbn [put_parent]. rewrite Hself0, lookup_insert.
      rewrite redirect_left. reflexivity. }
    destruct (finish_left tick d s m m1 tr (<[tick := ctr + 1]> c) p k l r l' kn ctr e v _ _ _ _
                (node_of tick d p (TNode k l r)) Hpre eq_refl eq_refl Hself1 I1) as (m' & t' & n' & E2 & Hins);
      try assumption.
    { intros key Hk1 Hk2. rewrite I8 by exact Hk2. apply put_parent_lookup_ne. intros pk [= <-]. exact Hk1. }
    { auto. }
    exists m', t', n', nw. split; [|exact Hins]. erewrite bind_ok by exact E2. reflexivity. }
  assert (RecR : forall kr a b, r = TNode kr a b -> tmax l <= e ->
    exists m' t' n' nw,
      (let! _ := node_save (node_of tick d p (TNode k l r)) in
       let! r0 := node_insert fuel (node_of tick d (Some k) r) (leaf_node tick d kn e v) in
       let! self := rebalance (node_of tick d p (TNode k l r)) in
       mret (self, snd r0)) (upd s m tr c)
      = (upd s m' (put_root tick d p (tkey t') tr) (<[tick := ctr + 1]> c), Ok (n', nw)) /\
      inserted tick d m m' p (TNode k l r) t' kn (ctr + 1) e v n').
  { intros kr a b Er Hlt. erewrite bind_ok by exact Hsave. rewrite Er in Hprer.
    destruct (IH kr a b (Some k) m tr c) as (m1 & r' & n1 & nw & E1 & [I1 I2 I3 I4 I5 I6 I7 I8 I9 I10]); try assumption.
    { rewrite Er in Hf. pose proof (theight_pos l). lia. }
    { discriminate. }
    rewrite <- Er in *. erewrite bind_ok by exact E1. cbn [snd put_root].
    assert (Hkr' : k ∉ keys r').
    { rewrite I5, !elem_of_cons. intros [->|[->|H]].
      - apply Hkn. cbn. constructor.
      - cbn [keys] in Hctr. apply Forall_cons in Hctr as [Hx _]. lia.
      - tauto. }
    assert (Hself1 : m1 !! (tick, k) = Some (mkNode k tick d (Some (tkey l)) (Some (tkey r')) p
       (NInternal (tsum (TNode k l r)) (tmin (TNode k l r)) (tmax (TNode k l r)) (theight (TNode k l r))))).
    { rewrite I8 by (intros q Hq [= ->]; tauto). cbn [put_parent]. rewrite Hself0, lookup_insert.
      rewrite redirect_right by exact Hlkr. reflexivity. }
    destruct (finish_right tick d s m m1 tr (<[tick := ctr + 1]> c) p k l r r' kn ctr e v _ _ _ _
                (node_of tick d p (TNode k l r)) Hpre eq_refl eq_refl Hself1 I1) as (m' & t' & n' & E2 & Hins);
      try assumption.
    { intros key Hk1 Hk2. rewrite I8 by exact Hk2. apply put_parent_lookup_ne. intros pk [= <-]. exact Hk1. }
    exists m', t', n', nw. split; [|exact Hins]. erewrite bind_ok by exact E2. reflexivity. }
  destruct l as [kl el vl|kl la lb].
  - (* left leaf *)
    destruct r as [kr er vr|kr ra rb].
    + cbn [andb negb tmin tmax leaves] in *.
      destruct (Z.leb_spec er e) as [Hge|Hlt]; cbn [negb andb].
      * (* Case 5 *)
        destruct (Z.ltb_spec e (vl + el)) as [|Hge2]; [lia|]. cbn [negb andb].
        destruct (node_split_spec tick d s m tr c k kr er vr kn ctr e v) as
          (m1 & r' & lf & nw & E1 & Hrep1 & Hk1 & Hfr1 & HL & Hsg & Hks & Ha & Hht); try assumption; try lia.
        all: try (pose proof (segs_ok_pos _ (er, vr) Hsr ltac:(constructor)) as Hpos; cbn in Hpos; lia).
        { destruct (Hap (er, vr)) as [Hx|Hx]; [set_solver|unfold seg_before in Hx; cbn in Hx; lia..]. }
        { intros ->. apply Hkn. cbn. set_solver. }
        { rewrite Forall_forall in Hctr. apply Hctr. cbn. set_solver. }
        erewrite bind_ok by exact E1. cbn [snd fst].
        erewrite bind_ok by apply save_upd. cbn [node_of n_set_right n_tick n_key n_left n_right n_parent n_dir n_type].
        assert (HkC : k <= ctr) by (cbn [keys] in Hctr; apply Forall_cons in Hctr as [Hx _]; exact Hx).
        assert (Hkr' : k ∉ keys r').
        { rewrite Hks, !elem_of_cons, elem_of_nil. intros [->|[->|[->|[]]]]; try lia.
          - apply Hkn. cbn. constructor.
          - cbn in Hkr. congruence. }
        match goal with |- context [mbindM (rebalance ?n) _ (upd s ?mm _ _)] =>
          destruct (finish_right tick d s m mm tr (<[tick := ctr + 1]> c) p k (TLeaf kl el vl) (TLeaf kr er vr) r' kn ctr e v
            (tsum (TNode k (TLeaf kl el vl) (TLeaf kr er vr))) (tmin (TNode k (TLeaf kl el vl) (TLeaf kr er vr)))
            (tmax (TNode k (TLeaf kl el vl) (TLeaf kr er vr))) (theight (TNode k (TLeaf kl el vl) (TLeaf kr er vr)))
            n Hpre eq_refl eq_refl) as (m' & t' & n' & E2 & Hins)
        end; try assumption.
        { rewrite lookup_insert. rewrite Hk1. reflexivity. }
        { eapply repr_frame; [|exact Hrep1]. intros q Hq. apply lookup_insert_ne. intros [= ->]. tauto. }
        { intros key Hky Hky2. rewrite lookup_insert_ne by congruence. apply Hfr1. exact Hky2. }
        { cbn [theight]. lia. }
        exists m', t', n', nw. split; [|exact Hins]. erewrite bind_ok by exact E2. reflexivity.
      * (* Case 4 *)
        destruct (node_split_spec tick d s m tr c k kl el vl kn ctr e v) as
          (m1 & l' & lf & nw & E1 & Hrep1 & Hk1 & Hfr1 & HL & Hsg & Hks & Ha & Hht); try assumption; try lia.
        all: try (pose proof (segs_ok_pos _ (el, vl) Hsl ltac:(constructor)) as Hpos; cbn in Hpos; lia).
        { destruct (Hap (el, vl)) as [Hx|Hx]; [set_solver|unfold seg_before in Hx; cbn in Hx; lia..]. }
        { intros ->. apply Hkn. cbn. set_solver. }
        { rewrite Forall_forall in Hctr. apply Hctr. cbn. set_solver. }
        erewrite bind_ok by exact E1. cbn [snd fst].
        erewrite bind_ok by apply save_upd. cbn [node_of n_set_left n_tick n_key n_left n_right n_parent n_dir n_type].
        assert (HkC : k <= ctr) by (cbn [keys] in Hctr; apply Forall_cons in Hctr as [Hx _]; exact Hx).
        assert (Hkr' : k ∉ keys l').
        { rewrite Hks, !elem_of_cons, elem_of_nil. intros [->|[->|[->|[]]]]; try lia.
          - apply Hkn. cbn. constructor.
          - cbn in Hkl. congruence. }
        match goal with |- context [mbindM (rebalance ?n) _ (upd s ?mm _ _)] =>
          destruct (finish_left tick d s m mm tr (<[tick := ctr + 1]> c) p k (TLeaf kl el vl) (TLeaf kr er vr) l' kn ctr e v
            (tsum (TNode k (TLeaf kl el vl) (TLeaf kr er vr))) (tmin (TNode k (TLeaf kl el vl) (TLeaf kr er vr)))
            (tmax (TNode k (TLeaf kl el vl) (TLeaf kr er vr))) (theight (TNode k (TLeaf kl el vl) (TLeaf kr er vr)))
            n Hpre eq_refl eq_refl) as (m' & t' & n' & E2 & Hins)
        end; try assumption.
        { rewrite lookup_insert. rewrite Hk1. reflexivity. }
        { eapply repr_frame; [|exact Hrep1]. intros q Hq. apply lookup_insert_ne. intros [= ->]. tauto. }
        { intros key Hky Hky2. rewrite lookup_insert_ne by congruence. apply Hfr1. exact Hky2. }
        { cbn [tmin]. apply Pleft. lia. }
        { cbn [theight]. lia. }
        exists m', t', n', nw. split; [|exact Hins]. erewrite bind_ok by exact E2. reflexivity.
    + set (R := TNode kr ra rb) in *.
      assert (HRf : match R with TNode _ _ _ => true | _ => false end = true) by reflexivity.
      cbn [andb negb]. destruct (Z.leb_spec (tmin R) e) as [Hge|Hlt]; cbn [negb andb].
      * (* Case 2 *)
        apply (RecR kr ra rb eq_refl). lia.
      * (* Case 4 *)
        cbn [tmin tmax leaves] in Hsl, Hlr, Hll.
        destruct (node_split_spec tick d s m tr c k kl el vl kn ctr e v) as
          (m1 & l' & lf & nw & E1 & Hrep1 & Hk1 & Hfr1 & HL & Hsg & Hks & Ha & Hht); try assumption; try lia.
        all: try (pose proof (segs_ok_pos _ (el, vl) Hsl ltac:(constructor)) as Hpos; cbn in Hpos; lia).
        { destruct (Hap (el, vl)) as [Hx|Hx]; [apply elem_of_app; left; cbn; constructor|unfold seg_before in Hx; cbn in Hx; lia..]. }
        { intros ->. apply Hkn. cbn. set_solver. }
        { rewrite Forall_forall in Hctr. apply Hctr. cbn. set_solver. }
        erewrite bind_ok by exact E1. cbn [snd fst].
        erewrite bind_ok by apply save_upd. cbn [node_of n_set_left n_tick n_key n_left n_right n_parent n_dir n_type].
        assert (HkC : k <= ctr) by (cbn [keys] in Hctr; apply Forall_cons in Hctr as [Hx _]; exact Hx).
        assert (Hkr' : k ∉ keys l').
        { rewrite Hks, !elem_of_cons, elem_of_nil. intros [->|[->|[->|[]]]]; try lia.
          - apply Hkn. cbn. constructor.
          - cbn in Hkl. congruence. }
        match goal with |- context [mbindM (rebalance ?n) _ (upd s ?mm _ _)] =>
          destruct (finish_left tick d s m mm tr (<[tick := ctr + 1]> c) p k (TLeaf kl el vl) R l' kn ctr e v
            (tsum (TNode k (TLeaf kl el vl) R)) (tmin (TNode k (TLeaf kl el vl) R))
            (tmax (TNode k (TLeaf kl el vl) R)) (theight (TNode k (TLeaf kl el vl) R))
            n Hpre eq_refl eq_refl) as (m' & t' & n' & E2 & Hins)
        end; try assumption.
        { rewrite lookup_insert. rewrite Hk1. reflexivity. }
        { eapply repr_frame; [|exact Hrep1]. intros q Hq. apply lookup_insert_ne. intros [= ->]. tauto. }
        { intros key Hky Hky2. rewrite lookup_insert_ne by congruence. apply Hfr1. exact Hky2. }
        { apply Pleft. lia. }
        { cbn [theight]. lia. }
        exists m', t', n', nw. split; [|exact Hins]. erewrite bind_ok by exact E2. reflexivity.
  - set (L := TNode kl la lb) in *.
    assert (HLf : match L with TNode _ _ _ => true | _ => false end = true) by reflexivity.
    cbn [andb negb]. destruct (Z.ltb_spec e (tmax L)) as [Hin|Hout]; cbn [andb negb].
    + (* Case 1 *) apply (RecL kl la lb eq_refl). lia.
    + destruct r as [kr er vr|kr ra rb].
      * (* Case 5 *) cbn [andb negb tmin tmax leaves] in Hsr, Hmax2, Hrr, Hlr |- *.
        destruct (node_split_spec tick d s m tr c k kr er vr kn ctr e v) as
          (m1 & r' & lf & nw & E1 & Hrep1 & Hk1 & Hfr1 & HL & Hsg & Hks & Ha & Hht); try assumption; try lia.
        all: try (pose proof (segs_ok_pos _ (er, vr) Hsr ltac:(constructor)) as Hpos; cbn in Hpos; lia).
        { destruct (Hap (er, vr)) as [Hx|Hx]; [apply elem_of_app; right; cbn; constructor|unfold seg_before in Hx; cbn in Hx; lia..]. }
        { intros ->. apply Hkn. cbn. set_solver. }
        { rewrite Forall_forall in Hctr. apply Hctr. cbn. set_solver. }
        erewrite bind_ok by exact E1. cbn [snd fst].
        erewrite bind_ok by apply save_upd. cbn [node_of n_set_right n_tick n_key n_left n_right n_parent n_dir n_type].
        assert (HkC : k <= ctr) by (cbn [keys] in Hctr; apply Forall_cons in Hctr as [Hx _]; exact Hx).
        assert (Hkr' : k ∉ keys r').
        { rewrite Hks, !elem_of_cons, elem_of_nil. intros [->|[->|[->|[]]]]; try lia.
          - apply Hkn. cbn. constructor.
          - cbn in Hkr. congruence. }
        match goal with |- context [mbindM (rebalance ?n) _ (upd s ?mm _ _)] =>
          destruct (finish_right tick d s m mm tr (<[tick := ctr + 1]> c) p k L (TLeaf kr er vr) r' kn ctr e v
            (tsum (TNode k L (TLeaf kr er vr))) (tmin (TNode k L (TLeaf kr er vr)))
            (tmax (TNode k L (TLeaf kr er vr))) (theight (TNode k L (TLeaf kr er vr)))
            n Hpre eq_refl eq_refl) as (m' & t' & n' & E2 & Hins)
        end; try assumption.
        { rewrite lookup_insert. rewrite Hk1. reflexivity. }
        { eapply repr_frame; [|exact Hrep1]. intros q Hq. apply lookup_insert_ne. intros [= ->]. tauto. }
        { intros key Hky Hky2. rewrite lookup_insert_ne by congruence. apply Hfr1. exact Hky2. }
        { cbn [theight]. lia. }
        exists m', t', n', nw. split; [|exact Hins]. erewrite bind_ok by exact E2. reflexivity.
      * set (R := TNode kr ra rb) in *.
        destruct (Z.leb_spec (tmin R) e) as [Hge|Hlt]; cbn [negb andb].
        -- (* Case 2 *) apply (RecR kr ra rb eq_refl). lia.
        -- (* Case 3 *) apply (RecL kl la lb eq_refl). lia.
Qed.
