(** * SumtreeFail: what happens when the u64 node ids of a tick are exhausted. *)
From Verif Require Import Base Dec Types State Sumtree TreeDefs Exec SumtreeProofs SumtreeRebalance SumtreeInsert PrefixSum SumtreeRoot.

Lemma generate_panic tick s m tr c ctr :
  unwrap_or (c !! tick) 0 = ctr -> U64_MAX < ctr + 1 ->
  generate_node_id tick (upd s m tr c) = (upd s m tr c, Panic).
Proof.
  intros Hc HU. unfold generate_node_id. rewrite bind_read. cbn [upd set_nodectr set_tree set_nodes s_nodectr].
  rewrite Hc. destruct (Z.leb_spec (ctr + 1) U64_MAX); [lia|]. reflexivity.
Qed.

Lemma get_or_init_panic tick d s m tr c ctr L :
  store_ok tick m tr ctr L -> unwrap_or (c !! tick) 0 = ctr -> L d = [] -> U64_MAX < ctr + 1 ->
  get_or_init_root_node tick d (upd s m tr c) = (upd s m tr c, Panic).
Proof.
  intros Hs Hc HL HU. destruct (so_rep _ _ _ _ _ Hs d) as [K HK]. rewrite HL in HK.
  unfold get_or_init_root_node. rewrite bind_read. unfold get_root_node.
  change (s_tree (upd s m tr c)) with tr. change (s_nodes (upd s m tr c)) with m.
  assert (E : exists er, (let? root_id := ok_or (tr !! (tick, d)) EStd in ok_or (m !! (tick, root_id)) EStd) = Err er).
  { inversion HK as [H| |k l r H1 H2 H3 H4 EL EK]; subst.
    - destruct (tr !! (tick, d)) as [id|]; cbn [ok_or rbind]; [|eauto]. rewrite (H id eq_refl). cbn. eauto.
    - exfalso. exact (leaves_nonempty (TNode k l r) EL). }
  destruct E as [er ->].
  assert (E2 := generate_panic tick s m tr c ctr Hc HU). unfold mbindM. rewrite E2. reflexivity.
Qed.

Lemma node_split_panic tick s m tr c ctr self new s' r :
  n_tick self = tick -> unwrap_or (c !! tick) 0 = ctr -> U64_MAX < ctr + 1 ->
  node_split self new (upd s m tr c) <> (s', Ok r).
Proof.
  intros Ht Hc HU H. unfold node_split in H. apply bind_inv in H as (u & s1 & H1 & H).
  apply mensure_inv in H1 as [-> _]. apply bind_inv in H as (id & s2 & H1 & _).
  rewrite Ht, (generate_panic tick s m tr c ctr Hc HU) in H1. discriminate.
Qed.

Lemma node_insert_panic tick d s new ctr :
  U64_MAX < ctr + 1 ->
  forall fuel k l r p m tr c s' res,
  repr tick d m p (TNode k l r) -> unwrap_or (c !! tick) 0 = ctr ->
  node_insert fuel (node_of tick d p (TNode k l r)) new (upd s m tr c) <> (s', Ok res).
Proof.
  intros HU. induction fuel as [|fuel IH]; intros k l r p m tr c s' res Hrep Hc H; [discriminate|].
  destruct Hrep as (Hself & Hl & Hr). cbn [tkey] in Hself.
  pose proof (repr_lookup _ _ _ _ _ Hl) as Hl0. pose proof (repr_lookup _ _ _ _ _ Hr) as Hr0.
  assert (Hsave : node_save (node_of tick d p (TNode k l r)) (upd s m tr c) = (upd s m tr c, Ok tt))
    by (apply upd_save_id; exact Hself).
  cbn [node_insert] in H.
  apply bind_inv in H as (u1 & s1 & H1 & H). apply mensure_inv in H1 as [-> _].
  apply bind_inv in H as (u2 & s1 & H1 & H). apply mensure_inv in H1 as [-> _].
  rewrite !bind_read in H. unfold get_left, get_right in H.
  cbn [node_of n_left n_right n_tick load_child] in H.
  change (s_nodes (upd s m tr c)) with m in H. rewrite Hl0, Hr0 in H.
  apply bind_inv in H as (u3 & s1 & H1 & H). apply mensure_inv in H1 as [-> _].
  apply bind_inv in H as (b1 & s1 & H1 & H). apply mlift_inv in H1 as [-> _].
  apply bind_inv in H as (b2 & s1 & H1 & H). apply mlift_inv in H1 as [-> _].
  apply bind_inv in H as (b3 & s1 & H1 & H). apply mlift_inv in H1 as [-> _].
  change (mkNode k tick d (Some (tkey l)) (Some (tkey r)) p
    (NInternal (tsum (TNode k l r)) (tmin (TNode k l r)) (tmax (TNode k l r)) (theight (TNode k l r))))
    with (node_of tick d p (TNode k l r)) in H.
  assert (Hint : forall pp t, is_internal (node_of tick d pp t) = match t with TNode _ _ _ => true | _ => false end)
    by (intros pp []; reflexivity).
  rewrite !Hint in H.
  assert (RecL : forall B (kk : tnode * tnode -> M storage B) out, forall kl a b, l = TNode kl a b ->
    (let! _ := node_save (node_of tick d p (TNode k l r)) in
     let! r0 := node_insert fuel (node_of tick d (Some k) l) new in kk r0) (upd s m tr c) = (s', Ok out) -> False).
  { intros B kk out kl a b El HH. erewrite bind_ok in HH by exact Hsave.
    apply bind_inv in HH as (x & s1 & HH & _). subst l. eapply IH; eauto. }
  assert (RecR : forall B (kk : tnode * tnode -> M storage B) out, forall kr a b, r = TNode kr a b ->
    (let! _ := node_save (node_of tick d p (TNode k l r)) in
     let! r0 := node_insert fuel (node_of tick d (Some k) r) new in kk r0) (upd s m tr c) = (s', Ok out) -> False).
  { intros B kk out kl a b El HH. erewrite bind_ok in HH by exact Hsave.
    apply bind_inv in HH as (x & s1 & HH & _). subst r. eapply IH; eauto. }
  assert (SplitL : forall B (kk : tnode * tnode * Z -> M storage B) out,
    (let! r0 := node_split (node_of tick d (Some k) l) new in kk r0) (upd s m tr c) = (s', Ok out) -> False).
  { intros B kk out HH. apply bind_inv in HH as (x & s1 & HH & _).
    eapply node_split_panic; [|exact Hc|exact HU|exact HH]. apply node_of_tick. }
  assert (SplitR : forall B (kk : tnode * tnode * Z -> M storage B) out,
    (let! r0 := node_split (node_of tick d (Some k) r) new in kk r0) (upd s m tr c) = (s', Ok out) -> False).
  { intros B kk out HH. apply bind_inv in HH as (x & s1 & HH & _).
    eapply node_split_panic; [|exact Hc|exact HU|exact HH]. apply node_of_tick. }
  destruct l as [kl el vl|kl la lb]; destruct r as [kr er vr|kr ra rb]; cbn [andb negb] in H.
  - destruct (negb b2); cbn [andb negb] in H; [eapply SplitL; exact H|].
    destruct (negb b1); cbn [andb negb] in H; [eapply SplitR; exact H|discriminate].
  - destruct b2; cbn [andb negb] in H; [eapply RecR; [reflexivity|exact H]|]. eapply SplitL; exact H.
  - destruct b1; cbn [andb negb] in H; [eapply RecL; [reflexivity|exact H]|]. eapply SplitR; exact H.
  - destruct b1; cbn [andb negb] in H; [eapply RecL; [reflexivity|exact H]|].
    destruct b2; cbn [andb negb] in H; [eapply RecR; [reflexivity|exact H]|]. eapply RecL; [reflexivity|exact H].
Qed.

(** Inserting a cancelled range from the root, whatever the node counter. *)
Lemma root_insert_cases tick d s m tr c ctr L e v :
  store_ok tick m tr ctr L -> segs_ok (L d) ->
  unwrap_or (c !! tick) 0 = ctr -> ctr <= U64_MAX ->
  0 <= e -> 0 < v -> apart e v (L d) -> e + v <= U256_MAX ->
  (forall q, q ∈ L d -> q.1 + q.2 <= U256_MAX) ->
  (exists root tr0 c0 kn c1 m' tr' c' n' nw,
    get_or_init_root_node tick d (upd s m tr c) = (upd s m tr0 c0, Ok root) /\
    generate_node_id tick (upd s m tr0 c0) = (upd s m tr0 c1, Ok kn) /\
    tree_insert root (new_node tick d kn (NLeaf v e)) (upd s m tr0 c1) = (upd s m' tr' c', Ok (n', nw)) /\
    ins_result tick d m m' tr tr' c c' ctr L e v n') \/
  (U64_MAX < ctr + 2 /\
   ((exists s1, get_or_init_root_node tick d (upd s m tr c) = (s1, Panic)) \/
    exists root s0, get_or_init_root_node tick d (upd s m tr c) = (s0, Ok root) /\
     ((exists s1, generate_node_id tick s0 = (s1, Panic)) \/
      exists kn s1, generate_node_id tick s0 = (s1, Ok kn) /\
        s_ticks s1 = s_ticks s /\
        forall s' r, tree_insert root (new_node tick d kn (NLeaf v e)) s1 <> (s', Ok r)))).
Proof.
  intros Hs Hok Hc HU He Hv Hap Hmax Hends.
  destruct (decide ((L d = [] -> ctr + 2 <= U64_MAX) /\ ctr + 1 <= U64_MAX /\ (2 <= Z.of_nat (length (L d)) -> ctr + 2 <= U64_MAX)))
    as [(H0 & H1 & H2)|Hno].
  { left. eapply root_insert; eauto. }
  right. assert (Hctr2 : U64_MAX < ctr + 2).
  { destruct (Z.lt_ge_cases U64_MAX (ctr + 2)); [assumption|]. exfalso. apply Hno. repeat split; lia. }
  split; [exact Hctr2|].
  destruct (decide (L d = [])) as [HL|HL].
  - destruct (Z.lt_ge_cases U64_MAX (ctr + 1)) as [Hlt|Hge].
    + left. eexists. eapply get_or_init_panic; eauto.
    + right. destruct (get_or_init_store tick d s m tr c ctr L Hs Hc ltac:(auto))
        as (root & tr0 & c0 & ctr0 & E & Hs0 & Hc0 & Hle & Hcase & Htr & Hcc).
      destruct Hcase as [(_ & _ & _ & _ & ->)|(? & _)]; [|congruence].
      eexists _, _. split; [exact E|]. left. eexists. eapply generate_panic; [exact Hc0|lia].
  - right. destruct (get_or_init_store tick d s m tr c ctr L Hs Hc ltac:(intros; congruence))
        as (root & tr0 & c0 & ctr0 & E & Hs0 & Hc0 & Hle & Hcase & Htr & Hcc).
    destruct Hcase as [(? & _)|(_ & Heq & k & Hk & Hkm)]; [congruence|]. rewrite Heq in *. clear Heq ctr0.
    eexists _, _. split; [exact E|].
    destruct (Z.lt_ge_cases U64_MAX (ctr + 1)) as [Hlt|Hge].
    + left. eexists. eapply generate_panic; [exact Hc0|lia].
    + right. eexists _, _. split; [eapply generate_spec; [exact Hc0|exact Hge]|]. split; [reflexivity|].
      intros s' r Hins. destruct (so_rep _ _ _ _ _ Hs0 d) as [K HK]. remember (L d) as Ld eqn:ELd.
      destruct HK as [HK|k1 kl e1 v1 H1 H2 H3 H4|k1 l r0 H1 H2 H3 H4].
      * congruence.
      * exfalso. apply Hno. cbn [length]. split; [congruence|]. split; [exact Hge|]. lia.
      * rewrite H1 in Hk. injection Hk as <-.
        pose proof (repr_lookup _ _ _ _ _ H2) as Hroot. cbn [tkey] in Hroot.
        assert (root = node_of tick d None (TNode k1 l r0)) as -> by congruence.
        unfold tree_insert in Hins.
        eapply (node_insert_panic tick d s _ (ctr + 1)); [lia|exact H2| |exact Hins].
        rewrite lookup_insert. reflexivity.
Qed.
