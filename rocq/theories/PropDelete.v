(** * PropDelete: node deletion (property C64). *)
From Verif Require Import Base Dec Types State Sumtree Tick Order Contract World TreeDefs Exec SumtreeProofs SumtreeRebalance SumtreeInsert SumtreeRoot PrefixSum Ghost Inv
  Spec SpecProps SpecTree Trans Books PropBase PropOrders PropTree Delete SpecDelete Tests.

(** The node above the hole: with the hole as only child, or with a sibling. *)
Inductive frame : Type :=
| FOnlyL (k : Z) | FOnlyR (k : Z)
| FL (k : Z) (r : gtree) | FR (k : Z) (l : gtree).
Definition fkey f := match f with FOnlyL k => k | FOnlyR k => k | FL k _ => k | FR k _ => k end.
Definition plug f g := match f with FOnlyL k => GLeft k g | FOnlyR k => GRight k g | FL k r => GBoth k g r | FR k l => GBoth k l g end.
Definition fsib f := match f with FL _ r => Some r | FR _ l => Some l | _ => None end.
Definition fleft f kc := match f with FOnlyL _ | FL _ _ => Some kc | FOnlyR _ => None | FR _ l => Some (gkey l) end.
Definition fright f kc := match f with FOnlyR _ | FR _ _ => Some kc | FOnlyL _ => None | FL _ r => Some (gkey r) end.
Fixpoint plugs fs g := match fs with [] => g | f :: fs => plugs fs (plug f g) end.
Definition pkey (fs : list frame) : option Z := match fs with [] => None | f :: _ => Some (fkey f) end.

Lemma gkey_plug f g : gkey (plug f g) = fkey f. Proof. destruct f; reflexivity. Qed.

Definition sib_ok m t d f := match fsib f with Some g => stored m t d (Some (fkey f)) g | None => True end.
(** The ancestors are stored with the right links; their numbers may be stale. *)
Fixpoint loose (m : gmap (Z * Z) tnode) t d (fs : list frame) (kc : Z) : Prop :=
  match fs with
  | [] => True
  | f :: fs =>
      (exists a lo hi w, m !! (t, fkey f) = Some (mkNode (fkey f) t d (fleft f kc) (fright f kc) (pkey fs) (NInternal a lo hi w))) /\
      sib_ok m t d f /\ loose m t d fs (fkey f)
  end.
Fixpoint ctx_keys (fs : list frame) : list Z :=
  match fs with
  | [] => []
  | f :: fs => fkey f :: match fsib f with Some g => gkeys g | None => [] end ++ ctx_keys fs
  end.

Lemma gkeys_plugs fs : forall g q, q ∈ gkeys (plugs fs g) <-> q ∈ gkeys g \/ q ∈ ctx_keys fs.
Proof.
  induction fs as [|f fs IH]; intros g q; cbn [plugs ctx_keys]; [rewrite elem_of_nil; tauto|].
  rewrite IH. destruct f; cbn [plug gkeys fkey fsib]; rewrite ?elem_of_cons, ?elem_of_app, ?elem_of_nil; tauto.
Qed.
Lemma gkeys_perm fs : forall g, gkeys (plugs fs g) ≡ₚ gkeys g ++ ctx_keys fs.
Proof.
  induction fs as [|f fs IH]; intros g; cbn [plugs ctx_keys]; [rewrite app_nil_r; reflexivity|].
  rewrite IH. destruct f; cbn [plug gkeys fkey fsib app]; rewrite <- ?Permutation_middle; rewrite <- ?app_assoc; try reflexivity.
  apply Permutation_cons; [reflexivity|]. rewrite !app_assoc. apply Permutation_app; [apply Permutation_app_comm|reflexivity].
Qed.

Record fits (g : gtree) : Prop := {
  ft_leaf : Forall (fun x : Z * (Z * Z) => 0 <= x.2.2 /\ x.2.2 + x.2.1 <= U256_MAX) (gleaves g);
  ft_total : gtotal g <= U256_MAX;
  ft_levels : glevels g <= U64_MAX }.
Lemma total_nonneg g : Forall (fun x : Z * (Z * Z) => 0 <= x.2.2 /\ x.2.2 + x.2.1 <= U256_MAX) (gleaves g) -> 0 <= gtotal g.
Proof.
  induction g as [k st len|k g IH|k g IH|k g1 IH1 g2 IH2]; cbn; intros H; auto.
  - inversion H; subst. cbn in *. lia.
  - apply Forall_app in H as [H1 H2]. specialize (IH1 H1). specialize (IH2 H2). lia.
Qed.
Lemma fits_plug f g : fits (plug f g) -> fits g.
Proof.
  intros [A B C]. destruct f; cbn in *; try (apply Forall_app in A as [A1 A2]; pose proof (total_nonneg _ A1); pose proof (total_nonneg _ A2));
    constructor; auto; lia.
Qed.
Lemma fits_plugs fs : forall g, fits (plugs fs g) -> fits g.
Proof. induction fs as [|f fs IH]; intros g H; [exact H|]. apply (fits_plug f), IH, H. Qed.

Lemma stored_top m t d p g : stored m t d p g -> m !! (t, gkey g) = Some (grecord t d p g).
Proof. destruct g; intros H; apply H. Qed.
Lemma stored_some m t d p g q : stored m t d p g -> q ∈ gkeys g -> is_Some (m !! (t, q)).
Proof.
  revert p. induction g; cbn; intros p H Hq; destruct H as [H1 H2]; apply elem_of_cons in Hq as [->|Hq]; eauto.
  - apply elem_of_nil in Hq as [].
  - apply elem_of_app in Hq as [Hq|Hq]; destruct H2 as [H2 H3]; eauto.
Qed.
Lemma stored_ext m m' t d p g : (forall q, q ∈ gkeys g -> m' !! (t, q) = m !! (t, q)) -> stored m t d p g -> stored m' t d p g.
Proof.
  revert p. induction g; cbn [stored gkeys gkey]; intros p He H; destruct H as [H1 H2]; (split; [rewrite He; [exact H1|left]|]).
  - exact I.
  - eapply IHg; [|exact H2]. intros; apply He; right; assumption.
  - eapply IHg; [|exact H2]. intros; apply He; right; assumption.
  - destruct H2 as [H2 H3]. split; [eapply IHg1; [|exact H2]|eapply IHg2; [|exact H3]];
      intros; apply He; right; apply elem_of_app; [left|right]; assumption.
Qed.
Lemma loose_ext m m' t d fs kc : (forall q, q ∈ ctx_keys fs -> m' !! (t, q) = m !! (t, q)) -> loose m t d fs kc -> loose m' t d fs kc.
Proof.
  revert kc. induction fs as [|f fs IH]; intros kc He H; [exact I|]. cbn [loose ctx_keys] in *. destruct H as ((a & lo & hi & w & H1) & H2 & H3).
  split; [exists a, lo, hi, w; rewrite He; [exact H1|left]|]. split.
  - unfold sib_ok in *. destruct (fsib f) as [g|]; [|exact I]. eapply stored_ext; [|exact H2].
    intros q Hq. apply He. right. apply elem_of_app. left. exact Hq.
  - eapply IH; [|exact H3]. intros q Hq. apply He. right. apply elem_of_app. right. exact Hq.
Qed.

Lemma rec_max t d p g : fits g -> get_max_range (grecord t d p g) = Ok (gend g).
Proof.
  intros H. destruct g; try reflexivity. cbn. destruct H as [A _ _]. inversion A; subst. cbn in *. rewrite checked_add_ok by lia. reflexivity.
Qed.
Lemma rec_min t d p g : get_min_range (grecord t d p g) = gstart g. Proof. destruct g; reflexivity. Qed.
Lemma rec_value t d p g : get_value (grecord t d p g) = gtotal g. Proof. destruct g; reflexivity. Qed.
Lemma rec_weight t d p g : get_weight (grecord t d p g) = glevels g. Proof. destruct g; reflexivity. Qed.
Lemma levels_pos g : 1 <= glevels g. Proof. induction g; cbn; lia. Qed.
Lemma fsib_fits f g : fits (plug f g) -> match fsib f with Some g => fits g | None => True end.
Proof.
  intros [A B C]. destruct f; cbn in *; auto; apply Forall_app in A as [A1 A2]; pose proof (total_nonneg _ A1); pose proof (total_nonneg _ A2);
    constructor; auto; lia.
Qed.

(** Recomputing a node from its children stores its right record. *)
Lemma sync_node s m t d p f g a lo hi w :
  stored m t d (Some (fkey f)) g -> sib_ok m t d f -> fits (plug f g) ->
  sync_range_and_value (mkNode (fkey f) t d (fleft f (gkey g)) (fright f (gkey g)) p (NInternal a lo hi w)) (set_nodes m s) =
  (set_nodes (<[(t, fkey f) := grecord t d p (plug f g)]> m) s, Ok (grecord t d p (plug f g))).
Proof.
  intros Hg Hsib Hf. pose proof (fits_plug _ _ Hf) as Hfg. pose proof (fsib_fits _ _ Hf) as Hfs.
  pose proof (stored_top _ _ _ _ _ Hg) as Eg. unfold sib_ok in Hsib.
  assert (Es : match fsib f with Some g => m !! (t, gkey g) = Some (grecord t d (Some (fkey f)) g) | None => True end)
    by (destruct (fsib f); [eapply stored_top; eauto|exact I]).
  unfold sync_range_and_value. rewrite bind_ensure by reflexivity. rewrite !bind_read.
  pose proof (ft_total _ Hf) as Ht. pose proof (ft_levels _ Hf) as Hl. pose proof (levels_pos g).
  destruct f as [k|k|k sib|k sib]; cbn [fkey fleft fright fsib plug gtotal glevels] in *;
    unfold get_left, get_right, load_child; cbn [n_left n_right n_tick set_nodes s_nodes];
    rewrite ?Es, Eg; cbn [has_child negb n_left n_right]; rewrite ?rec_max by assumption; cbn [rbind];
    rewrite ?rec_min, bind_lift_ok; cbn [fst snd set_min_range n_type]; rewrite bind_lift_ok; cbn [set_max_range n_type n_set_type];
    rewrite bind_lift_ok; cbn [option_map unwrap_or]; rewrite ?rec_value, ?rec_weight;
    (rewrite checked_add_ok by lia); rewrite bind_lift_ok; cbn [set_value n_type n_set_type];
    rewrite bind_lift_ok; rewrite ?(Z.max_l _ 0), ?(Z.max_r 0) by lia; rewrite ?Z.add_0_r, ?Z.add_0_l.
  all: match goal with |- context [if ?x <=? U64_MAX then _ else _] => destruct (Z.leb_spec x U64_MAX); [|cbn [plug glevels] in *; lia] end.
  all: rewrite bind_lift_ok; cbn [set_weight n_type n_set_type]; rewrite bind_lift_ok; reflexivity.
Qed.

Lemma plug_nodup f fs g : NoDup (gkeys (plugs (f :: fs) g)) ->
  NoDup (gkeys (plug f g)) /\ (forall q, q ∈ gkeys g -> q <> fkey f) /\ (forall q, q ∈ ctx_keys fs -> q <> fkey f) /\
  match fsib f with Some h => forall q, q ∈ gkeys h -> q <> fkey f | None => True end.
Proof.
  intros H. cbn [plugs] in H. rewrite gkeys_perm in H. apply NoDup_app in H as (H1 & H2 & H3). split; [exact H1|].
  assert (Hk : fkey f ∈ gkeys (plug f g)) by (destruct f; left). repeat split.
  - intros q Hq ->. destruct f; cbn in H1; apply NoDup_cons in H1 as [H1 _]; apply H1; auto; apply elem_of_app; auto.
  - intros q Hq ->. exact (H2 _ Hk Hq).
  - destruct f; cbn in *; auto; apply NoDup_cons in H1 as [H1 _]; intros q Hq ->; apply H1, elem_of_app; auto.
Qed.
Lemma stored_plug m t d p f g : stored m t d (Some (fkey f)) g -> sib_ok m t d f -> NoDup (gkeys (plug f g)) ->
  stored (<[(t, fkey f) := grecord t d p (plug f g)]> m) t d p (plug f g).
Proof.
  intros Hg Hsib Hnd. destruct (plug_nodup f [] g Hnd) as (_ & H1 & _ & H2).
  assert (Hg' : stored (<[(t, fkey f) := grecord t d p (plug f g)]> m) t d (Some (fkey f)) g).
  { eapply stored_ext; [|exact Hg]. intros q Hq. apply lookup_insert_ne. intros [= E]. exact (H1 q Hq (eq_sym E)). }
  assert (Hs' : sib_ok (<[(t, fkey f) := grecord t d p (plug f g)]> m) t d f).
  { unfold sib_ok in *. destruct (fsib f) as [h|]; [|exact I]. eapply stored_ext; [|exact Hsib]. intros q Hq. apply lookup_insert_ne. intros [= E]. exact (H2 q Hq (eq_sym E)). }
  unfold sib_ok in Hs'. destruct f; cbn [plug stored fkey fsib gkey] in *; (split; [apply lookup_insert|]); auto.
Qed.

Lemma sync_up_spec s t d fs : forall fuel f g m a lo hi w,
  stored m t d (Some (fkey f)) g -> sib_ok m t d f -> loose m t d fs (fkey f) ->
  NoDup (gkeys (plugs (f :: fs) g)) -> fits (plugs (f :: fs) g) -> (length fs < fuel)%nat ->
  exists m', sync_range_and_value_up fuel (mkNode (fkey f) t d (fleft f (gkey g)) (fright f (gkey g)) (pkey fs) (NInternal a lo hi w)) (set_nodes m s)
               = (set_nodes m' s, Ok tt) /\
    stored m' t d None (plugs (f :: fs) g) /\ (forall q, (forall k, k ∈ map fkey (f :: fs) -> q <> (t, k)) -> m' !! q = m !! q).
Proof.
  induction fs as [|f2 fs IH]; intros fuel f g m a lo hi w Hg Hsib Hl Hnd Hf Hn; (destruct fuel as [|fuel]; [lia|]); cbn [sync_range_and_value_up];
    pose proof (plug_nodup _ _ _ Hnd) as (N1 & N2 & N3 & N4).
  - cbn [plugs] in *. unfold mbindM at 1. rewrite sync_node by assumption. cbn [pkey].
    unfold mread, mbindM. unfold get_parent, load_child. replace (n_parent (grecord t d None (plug f g))) with (@None Z) by (destruct f; reflexivity).
    eexists. split; [reflexivity|]. split; [apply stored_plug; assumption|].
    intros q Hq. apply lookup_insert_ne. intros E. apply (Hq (fkey f)); [left|auto].
  - assert (Hf1 : fits (plug f g)) by (apply (fits_plugs (f2 :: fs)); exact Hf).
    unfold mbindM at 1. rewrite sync_node by assumption. cbn [pkey].
    unfold mread at 1. unfold mbindM at 1. unfold get_parent, load_child.
    replace (n_parent (grecord t d (Some (fkey f2)) (plug f g))) with (Some (fkey f2)) by (destruct f; reflexivity).
    replace (n_tick (grecord t d (Some (fkey f2)) (plug f g))) with t by (destruct f; reflexivity).
    cbn [s_nodes set_nodes]. destruct Hl as ((a2 & lo2 & hi2 & w2 & E2) & Hs2 & Hl2).
    set (m1 := <[(t, fkey f) := grecord t d (Some (fkey f2)) (plug f g)]> m).
    assert (Hctx : forall q, q ∈ ctx_keys (f2 :: fs) -> m1 !! (t, q) = m !! (t, q)).
    { intros q Hq. apply lookup_insert_ne. intros [= E]. exact (N3 q Hq (eq_sym E)). }
    rewrite Hctx by left. rewrite E2.
    destruct (IH fuel f2 (plug f g) m1 a2 lo2 hi2 w2) as (m' & A & B & C).
    + apply stored_plug; assumption.
    + unfold sib_ok in *. cbn [ctx_keys] in Hctx. destruct (fsib f2) as [h|]; [|exact I]. eapply stored_ext; [|exact Hs2].
      intros q Hq. apply Hctx. right. apply elem_of_app. left. exact Hq.
    + eapply loose_ext; [|exact Hl2]. intros q Hq. apply Hctx. right. apply elem_of_app. right. exact Hq.
    + exact Hnd.
    + exact Hf.
    + cbn in Hn. lia.
    + rewrite gkey_plug in A. exists m'. split; [exact A|]. split; [exact B|].
      intros q Hq. rewrite C. * apply lookup_insert_ne. intros E. apply (Hq (fkey f)); [left|auto].
      * intros k Hk. apply Hq. right. exact Hk.
Qed.

(** ** Deletion *)
(** What is left of the tree when the hole disappears, and the nodes that go with it. *)
Fixpoint climb (fs : list frame) : option gtree :=
  match fs with
  | [] => None
  | FOnlyL _ :: fs | FOnlyR _ :: fs => climb fs
  | FL k r :: fs => Some (plugs fs (GRight k r))
  | FR k l :: fs => Some (plugs fs (GLeft k l))
  end.
Fixpoint gone (fs : list frame) : list Z :=
  match fs with
  | FOnlyL k :: fs | FOnlyR k :: fs => k :: gone fs
  | _ => []
  end.

Lemma climb_keys fs q : q ∈ ctx_keys fs <-> q ∈ gone fs \/ q ∈ all_keys (climb fs).
Proof.
  induction fs as [|f fs IH]; [cbn; rewrite elem_of_nil; tauto|]. destruct f; cbn [ctx_keys gone climb fkey fsib all_keys app]; rewrite ?elem_of_cons.
  - rewrite IH. tauto.
  - rewrite IH. tauto.
  - rewrite gkeys_plugs. cbn [gkeys]. rewrite elem_of_cons, elem_of_app, elem_of_nil. tauto.
  - rewrite gkeys_plugs. cbn [gkeys]. rewrite elem_of_cons, elem_of_app, elem_of_nil. tauto.
Qed.
Lemma climb_perm fs : ctx_keys fs ≡ₚ gone fs ++ all_keys (climb fs).
Proof.
  induction fs as [|f fs IH]; [reflexivity|]. destruct f; cbn [ctx_keys gone climb fkey fsib all_keys app].
  - rewrite IH. reflexivity.
  - rewrite IH. reflexivity.
  - rewrite gkeys_perm. reflexivity.
  - rewrite gkeys_perm. reflexivity.
Qed.

Lemma gkey_in g : gkey g ∈ gkeys g. Proof. destruct g; left. Qed.
Lemma remove_done (self : tnode) s m : node_remove self (set_nodes m s) = (set_nodes (delete (n_tick self, n_key self) m) s, Ok tt).
Proof. reflexivity. Qed.
Lemma fkeys_ctx fs k : k ∈ map fkey fs -> k ∈ ctx_keys fs.
Proof.
  induction fs as [|f fs IH]; cbn; intros H; [exact H|]. apply elem_of_cons in H as [->|H]; [left|]. right. apply elem_of_app. right. auto.
Qed.

Lemma delete_spec s t d fs : forall fuel m self k,
  n_key self = k -> n_tick self = t -> n_parent self = pkey fs ->
  loose m t d fs k -> NoDup (k :: ctx_keys fs) -> match climb fs with Some g => fits g | None => True end -> (length fs < fuel)%nat ->
  exists m', node_delete fuel self (set_nodes m s) = (set_nodes m' s, Ok tt) /\
    match climb fs with Some g => stored m' t d None g | None => True end /\
    (forall q, q ∈ k :: gone fs -> m' !! (t, q) = None) /\
    (forall q, (forall x, x ∈ k :: ctx_keys fs -> q <> (t, x)) -> m' !! q = m !! q).
Proof.
  assert (Hfin : forall s1 m self k fs0, n_key self = k -> n_tick self = t -> NoDup (k :: ctx_keys fs0) ->
    (match climb fs0 with Some g => stored m t d None g | None => True end) ->
    (forall q, q ∈ gone fs0 -> m !! (t, q) = None) ->
    exists m', node_remove self (set_nodes m s1) = (set_nodes m' s1, Ok tt) /\
      match climb fs0 with Some g => stored m' t d None g | None => True end /\
      (forall q, q ∈ k :: gone fs0 -> m' !! (t, q) = None) /\
      (forall q, q <> (t, k) -> m' !! q = m !! q)).
  { intros s1 m self k fs0 Hk Ht Hnd Hst Hg. eexists. split; [apply remove_done|]. rewrite Hk, Ht. apply NoDup_cons in Hnd as [Hk' _]. split; [|split].
    - pose proof (climb_keys fs0) as Hc. destruct (climb fs0) as [g|]; [|exact I]. eapply stored_ext; [|exact Hst].
      intros q Hq. apply lookup_delete_ne. intros [= ->]. apply Hk', Hc. right. exact Hq.
    - intros q Hq. apply elem_of_cons in Hq as [->|Hq]; [apply lookup_delete|].
      destruct (decide (q = k)) as [->|Hne]; [apply lookup_delete|]. rewrite lookup_delete_ne by congruence. auto.
    - intros q Hq. apply lookup_delete_ne. auto. }
  induction fs as [|f fs IH]; intros fuel m self k Hk Ht Hp Hl Hnd Hf Hn; (destruct fuel as [|fuel]; [lia|]); cbn [node_delete].
  - rewrite bind_read. unfold get_parent, load_child. rewrite Hp. cbn [pkey]. rewrite bind_ret.
    destruct (Hfin s m self k [] Hk Ht Hnd I) as (m' & A & B & C & D); [intros q Hq; apply elem_of_nil in Hq as []|].
    exists m'. repeat split; auto. intros q Hq. apply D, Hq. left.
  - rewrite bind_read. unfold get_parent, load_child. rewrite Hp, Ht. cbn [pkey]. change (s_nodes (set_nodes m s)) with m.
    destruct Hl as ((a & lo & hi & w & E) & Hs & Hl). rewrite E.
    assert (Hnd0 := Hnd). apply NoDup_cons in Hnd as [Hk' Hnd].
    assert (Hsub : forall q, (forall x, x ∈ k :: ctx_keys (f :: fs) -> q <> (t, x)) -> (forall x, x ∈ fkey f :: ctx_keys fs -> q <> (t, x)) /\ q <> (t, k)).
    { intros q Hq. split; [|apply Hq; left]. intros x Hx. apply Hq. right. cbn [ctx_keys]. apply elem_of_cons in Hx as [->|Hx]; [left|]. right. apply elem_of_app. right. exact Hx. }
    destruct f as [kf|kf|kf sib|kf sib]; cbn [fkey fleft fright fsib] in *; cbn [n_left n_right n_set_left n_set_right opt_is n_key]; rewrite ?Hk, ?Z.eqb_refl; cbn [has_child n_left n_right negb n_set_left n_set_right].
    + destruct (IH fuel m (mkNode kf t d None None (pkey fs) (NInternal a lo hi w)) kf eq_refl eq_refl eq_refl Hl) as (m1 & A & B & C & D); auto; [cbn in Hn; lia|].
      unfold n_set_left, n_set_right. cbn [n_key n_tick n_dir n_left n_right n_parent n_type]. unfold mbindM. rewrite A.
      destruct (Hfin s m1 self k (FOnlyL kf :: fs) Hk Ht Hnd0) as (m' & A' & B' & C' & D'); cbn [climb gone]; auto.
      exists m'. repeat split; auto. intros q Hq. apply Hsub in Hq as [H1 H2]. rewrite D' by exact H2. apply D, H1.
    + destruct (IH fuel m (mkNode kf t d None None (pkey fs) (NInternal a lo hi w)) kf eq_refl eq_refl eq_refl Hl) as (m1 & A & B & C & D); auto; [cbn in Hn; lia|].
      unfold n_set_left, n_set_right. cbn [n_key n_tick n_dir n_left n_right n_parent n_type]. unfold mbindM. rewrite A.
      destruct (Hfin s m1 self k (FOnlyR kf :: fs) Hk Ht Hnd0) as (m' & A' & B' & C' & D'); cbn [climb gone]; auto.
      exists m'. repeat split; auto. intros q Hq. apply Hsub in Hq as [H1 H2]. rewrite D' by exact H2. apply D, H1.
    + destruct (sync_up_spec s t d fs fuel (FOnlyR kf) sib m a lo hi w) as (m1 & A & B & C); cbn [fkey]; auto.
      * exact I.
      * cbn [plugs plug]. rewrite gkeys_perm. cbn [gkeys]. exact Hnd.
      * cbn in Hn. lia.
      * cbn [fkey fleft fright] in A. unfold n_set_left, n_set_right. cbn [n_key n_tick n_dir n_left n_right n_parent n_type]. unfold mbindM. rewrite A.
        destruct (Hfin s m1 self k (FL kf sib :: fs) Hk Ht Hnd0) as (m' & A' & B' & C' & D'); cbn [climb gone]; auto.
        { intros q Hq. apply elem_of_nil in Hq as []. }
        exists m'. repeat split; auto. intros q Hq. apply Hsub in Hq as [H1 H2]. rewrite D' by exact H2. apply C.
        intros x Hx. apply H1. cbn [map fkey] in Hx. apply elem_of_cons in Hx as [->|Hx]; [left|right]. apply fkeys_ctx, Hx.
    + assert (Hne : gkey sib <> k).
      { intros E'. apply Hk'. right. apply elem_of_app. left. rewrite <- E'. apply gkey_in. }
      apply Z.eqb_neq in Hne. rewrite Hne. cbn [n_right n_set_right n_left opt_is]. rewrite ?Z.eqb_refl. unfold n_set_right. cbn [has_child n_left n_right negb].
      destruct (sync_up_spec s t d fs fuel (FOnlyL kf) sib m a lo hi w) as (m1 & A & B & C); cbn [fkey]; auto.
      * exact I.
      * cbn [plugs plug]. rewrite gkeys_perm. cbn [gkeys]. exact Hnd.
      * cbn in Hn. lia.
      * cbn [fkey fleft fright] in A. unfold n_set_left, n_set_right. cbn [n_key n_tick n_dir n_left n_right n_parent n_type]. unfold mbindM. rewrite A.
        destruct (Hfin s m1 self k (FR kf sib :: fs) Hk Ht Hnd0) as (m' & A' & B' & C' & D'); cbn [climb gone]; auto.
        { intros q Hq. apply elem_of_nil in Hq as []. }
        exists m'. repeat split; auto. intros q Hq. apply Hsub in Hq as [H1 H2]. rewrite D' by exact H2. apply C.
        intros x Hx. apply H1. cbn [map fkey] in Hx. apply elem_of_cons in Hx as [->|Hx]; [left|right]. apply fkeys_ctx, Hx.
Qed.

(** ** The whole tree as a leaf and its ancestors *)
Lemma split_leaf m t d k st len : forall g fs0,
  stored m t d (pkey fs0) g -> loose m t d fs0 (gkey g) -> (k, (st, len)) ∈ gleaves g ->
  exists fs, plugs fs0 g = plugs fs (GLeaf k st len) /\ loose m t d fs k /\
    m !! (t, k) = Some (mkNode k t d None None (pkey fs) (NLeaf len st)) /\ Z.of_nat (length fs) + 1 <= Z.of_nat (length fs0) + glevels g.
Proof.
  assert (Hup : forall f fs0 c, stored m t d (pkey fs0) (plug f c) -> loose m t d fs0 (gkey (plug f c)) ->
    stored m t d (Some (fkey f)) c /\ loose m t d (f :: fs0) (gkey c)).
  { intros f fs0 c Hs Hl. rewrite gkey_plug in Hl. destruct f; cbn [plug stored gkey fkey] in *; destruct Hs as [H1 H2];
      try destruct H2 as [H2 H3]; (split; [assumption|]); cbn [loose]; unfold sib_ok; cbn [fsib fkey fleft fright];
      (split; [do 4 eexists; exact H1|]); split; auto. }
  intros g. induction g as [k' st' len'|i c IH|i c IH|i l IHl r IHr]; intros fs0 Hs Hl Hin; cbn [gleaves] in Hin.
  - apply elem_of_list_singleton in Hin as [= -> -> ->]. exists fs0. split; [reflexivity|]. split; [exact Hl|]. split; [apply Hs|]. cbn. lia.
  - destruct (Hup (FOnlyL i) fs0 c Hs Hl) as [A B]. destruct (IH (FOnlyL i :: fs0) A B Hin) as (fs & E1 & E2 & E3 & E4).
    exists fs. split; [exact E1|]. split; [exact E2|]. split; [exact E3|]. cbn [length glevels] in *. lia.
  - destruct (Hup (FOnlyR i) fs0 c Hs Hl) as [A B]. destruct (IH (FOnlyR i :: fs0) A B Hin) as (fs & E1 & E2 & E3 & E4).
    exists fs. split; [exact E1|]. split; [exact E2|]. split; [exact E3|]. cbn [length glevels] in *. lia.
  - apply elem_of_app in Hin as [Hin|Hin].
    + destruct (Hup (FL i r) fs0 l Hs Hl) as [A B]. destruct (IHl (FL i r :: fs0) A B Hin) as (fs & E1 & E2 & E3 & E4).
      exists fs. split; [exact E1|]. split; [exact E2|]. split; [exact E3|]. cbn [length glevels] in *. lia.
    + destruct (Hup (FR i l) fs0 r Hs Hl) as [A B]. destruct (IHr (FR i l :: fs0) A B Hin) as (fs & E1 & E2 & E3 & E4).
      exists fs. split; [exact E1|]. split; [exact E2|]. split; [exact E3|]. cbn [length glevels] in *. lia.
Qed.

Lemma gleaves_keys g x : x ∈ gleaves g -> x.1 ∈ gkeys g.
Proof.
  induction g; cbn; intros H.
  - apply elem_of_list_singleton in H as ->. left.
  - right. auto.
  - right. auto.
  - right. apply elem_of_app. apply elem_of_app in H as [H|H]; auto.
Qed.
Lemma prune_none k g : k ∉ gkeys g -> prune k g = Some g.
Proof.
  induction g as [k' st len|i c IH|i c IH|i l IHl r IHr]; cbn; intros H.
  - destruct (Z.eqb_spec k' k) as [->|]; [|reflexivity]. exfalso. apply H. left.
  - rewrite IH; [reflexivity|]. intros Hx. apply H. right. exact Hx.
  - rewrite IH; [reflexivity|]. intros Hx. apply H. right. exact Hx.
  - rewrite IHl, IHr; [reflexivity| |]; intros Hx; apply H; right; apply elem_of_app; auto.
Qed.
Lemma prune_plugs k fs : forall h, k ∉ ctx_keys fs ->
  prune k (plugs fs h) = match prune k h with Some h' => Some (plugs fs h') | None => climb fs end.
Proof.
  induction fs as [|f fs IH]; intros h H; cbn [plugs]; [destruct (prune k h); reflexivity|]. cbn [ctx_keys] in H.
  rewrite IH by (intros Hx; apply H; right; apply elem_of_app; auto).
  assert (Hs : match fsib f with Some g => prune k g = Some g | None => True end).
  { destruct (fsib f) as [g|]; [|exact I]. apply prune_none. intros Hx. apply H. right. apply elem_of_app. auto. }
  destruct f; cbn [plug prune fsib climb] in *; try rewrite Hs; destruct (prune k h); reflexivity.
Qed.
Lemma prune_leaves k g : all_leaves (prune k g) = List.filter (fun x => negb (x.1 =? k)) (gleaves g).
Proof.
  induction g as [k' st len|i c IH|i c IH|i l IHl r IHr]; cbn [prune gleaves].
  - cbn. destruct (k' =? k); reflexivity.
  - rewrite <- IH. destruct (prune k c); reflexivity.
  - rewrite <- IH. destruct (prune k c); reflexivity.
  - rewrite List.filter_app, <- IHl, <- IHr. destruct (prune k l), (prune k r); cbn; rewrite ?app_nil_r; reflexivity.
Qed.
Lemma prune_sizes k g g' : Forall (fun x : Z * (Z * Z) => 0 <= x.2.2 /\ x.2.2 + x.2.1 <= U256_MAX) (gleaves g) ->
  prune k g = Some g' -> gtotal g' <= gtotal g /\ glevels g' <= glevels g /\ gkey g' = gkey g.
Proof.
  revert g'. induction g as [k' st len|i c IH|i c IH|i l IHl r IHr]; intros g' HF H; cbn [prune gleaves] in *.
  - destruct (k' =? k); [discriminate|]. injection H as <-. cbn. lia.
  - destruct (prune k c) as [c'|] eqn:E; [|discriminate]. injection H as <-. specialize (IH c' HF eq_refl). cbn. lia.
  - destruct (prune k c) as [c'|] eqn:E; [|discriminate]. injection H as <-. specialize (IH c' HF eq_refl). cbn. lia.
  - apply Forall_app in HF as [F1 F2]. pose proof (total_nonneg _ F1). pose proof (total_nonneg _ F2).
    pose proof (levels_pos l). pose proof (levels_pos r).
    destruct (prune k l) as [l'|] eqn:E1; [specialize (IHl l' F1 eq_refl)|]; (destruct (prune k r) as [r'|] eqn:E2; [specialize (IHr r' F2 eq_refl)|]);
      try discriminate; injection H as <-; cbn; lia.
Qed.
Lemma prune_fits k g g' : fits g -> prune k g = Some g' -> fits g'.
Proof.
  intros [A B C] H. destruct (prune_sizes k g g' A H) as (S1 & S2 & _). constructor; [|lia|lia].
  pose proof (prune_leaves k g) as Hl. rewrite H in Hl. cbn in Hl. rewrite Hl. apply Forall_forall. intros x Hx.
  rewrite Forall_forall in A. apply A. apply elem_of_list_In. apply elem_of_list_In in Hx. apply filter_In in Hx. apply Hx.
Qed.

Theorem C64_delete :
  forall s t d g k start len n fuel,
  stored (s_nodes s) t d None g -> NoDup (gkeys g) ->
  (k, (start, len)) ∈ gleaves g -> s_nodes s !! (t, k) = Some n ->
  Forall (fun x : Z * (Z * Z) => 0 <= x.2.2 /\ x.2.2 + x.2.1 <= U256_MAX) (gleaves g) ->
  gtotal g <= U256_MAX -> glevels g <= U64_MAX -> glevels g <= Z.of_nat fuel ->
  exists s', node_delete fuel n s = (s', Ok tt) /\ s' = set_nodes (s_nodes s') s /\
    match prune k g with Some g' => stored (s_nodes s') t d None g' /\ gkey g' = gkey g | None => True end /\
    (forall q, q ∈ gkeys g -> q ∉ all_keys (prune k g) -> s_nodes s' !! (t, q) = None) /\
    (forall q, (forall x, x ∈ gkeys g -> q <> (t, x)) -> s_nodes s' !! q = s_nodes s !! q) /\
    all_leaves (prune k g) = List.filter (fun x => negb (x.1 =? k)) (gleaves g).
Proof.
  intros s t d g k start len n fuel Hs Hnd Hin Hn HF Ht Hl Hfu.
  assert (Hft : fits g) by (constructor; assumption).
  destruct (split_leaf (s_nodes s) t d k start len g [] Hs I Hin) as (fs & E1 & E2 & E3 & E4). cbn [plugs length] in E1, E4.
  rewrite E3 in Hn. injection Hn as <-.
  assert (Hnd' : NoDup (k :: ctx_keys fs)) by (rewrite E1, gkeys_perm in Hnd; exact Hnd).
  assert (Hpr : prune k g = climb fs).
  { rewrite E1, prune_plugs by (apply NoDup_cons in Hnd'; apply Hnd'). cbn [prune]. rewrite Z.eqb_refl. reflexivity. }
  destruct (delete_spec s t d fs fuel (s_nodes s) (mkNode k t d None None (pkey fs) (NLeaf len start)) k eq_refl eq_refl eq_refl E2 Hnd') as (m' & A & B & C & D).
  { rewrite <- Hpr. destruct (prune k g) as [g'|] eqn:E; [|exact I]. eapply prune_fits; eauto. }
  { lia. }
  exists (set_nodes m' s). replace (set_nodes (s_nodes s) s) with s in A by (destruct s; reflexivity).
  change (s_nodes (set_nodes m' s)) with m'. split; [exact A|]. split; [reflexivity|]. split; [|split; [|split]].
  - rewrite Hpr. destruct (climb fs) as [g'|] eqn:E; [|exact I]. split; [exact B|]. rewrite <- E in Hpr. rewrite E in Hpr. eapply prune_sizes; eauto.
  - intros q Hq Hq'. apply C. rewrite E1, gkeys_plugs in Hq. rewrite Hpr in Hq'. apply elem_of_cons. destruct Hq as [Hq|Hq].
    + cbn in Hq. apply elem_of_list_singleton in Hq. auto.
    + apply climb_keys in Hq. tauto.
  - intros q Hq. apply D. intros x Hx. apply Hq. rewrite E1, gkeys_plugs. cbn [gkeys]. rewrite elem_of_list_singleton. apply elem_of_cons in Hx. exact Hx.
  - apply prune_leaves.
Qed.
Print Assumptions C64_delete.

(** ** The prefix sum on such trees *)
(** The tree without its one-child nodes, to reuse the facts about full trees. *)
Fixpoint sq (g : gtree) : tree :=
  match g with GLeaf k st len => TLeaf k st len | GLeft _ c | GRight _ c => sq c | GBoth k l r => TNode k (sq l) (sq r) end.
Definition granges (g : gtree) : list (Z * Z) := map snd (gleaves g).
Lemma sq_leaves g : leaves (sq g) = granges g.
Proof. unfold granges. induction g; cbn; auto. rewrite map_app. congruence. Qed.
Lemma sq_total g : tsum (sq g) = gtotal g.
Proof. induction g; cbn; auto. congruence. Qed.
Lemma sq_ends g : segs_ok (granges g) -> tmin (sq g) = gstart g /\ tmax (sq g) = gend g.
Proof.
  rewrite <- sq_leaves. induction g as [k st len|i c IH|i c IH|i l IHl r IHr]; cbn [sq]; intros H; auto.
  - pose proof (tmax_tmin _ _ _ H) as A. destruct (segs_node _ _ _ H) as [H1 H2]. destruct (IHl H1) as [E0 E1]. destruct (IHr H2) as [E3 E2].
    cbn [tmin tmax gstart gend]. pose proof (tmin_lt_tmax _ H1). pose proof (tmin_lt_tmax _ H2). lia.
Qed.
Lemma rec_max' t d p g : gend g <= U256_MAX -> get_max_range (grecord t d p g) = Ok (gend g).
Proof. intros H. destruct g; try reflexivity. cbn in *. rewrite checked_add_ok by lia. reflexivity. Qed.

Lemma walk_g t d s F prev g : forall fuel p A,
  glevels g <= Z.of_nat fuel ->
  stored (s_nodes s) t d p g -> segs_ok (granges g) -> gend g <= U256_MAX ->
  0 <= F -> 0 <= A -> 0 <= prev -> okprev F prev A (granges g) ->
  F + Z.max (A + gtotal g) prev <= U256_MAX ->
  gstart g <= F + Z.max A prev ->
  prefix_sum_walk fuel s (grecord t d p g) (A + gtotal g) (F + Z.max A prev) prev = Ok (real F A (granges g)).
Proof.
  induction g as [k e v|k c IH|k c IH|k l IHl r IHr]; intros fuel p A Hf Hrep Hok Hmax HF HA Hprev Hokp Hsum Hmin;
    (destruct fuel as [|fuel]; [match goal with H : glevels ?x <= _ |- _ => pose proof (levels_pos x) end; lia|]).
  - cbn [prefix_sum_walk]. rewrite rec_min. cbn [granges gleaves map gstart gend gtotal snd] in *. unfold granges in *. cbn [gleaves map snd] in *.
    destruct (Z.ltb_spec (F + Z.max A prev) e); [lia|].
    rewrite rec_max' by exact Hmax. cbn [rbind gend].
    assert (E : real F A [(e, v)] = A + v).
    { cbn. destruct (Z.leb_spec e (F + A)) as [|Hgt]; [reflexivity|].
      destruct Hokp as [H1 _]. destruct (Z.lt_ge_cases A prev) as [Hlt|Hge]; [specialize (H1 Hlt); lia|lia]. }
    rewrite E. destruct (Z.leb_spec (v + e) (F + Z.max A prev)); reflexivity.
  - destruct Hrep as (Hself & Hc). pose proof (stored_top _ _ _ _ _ Hc) as Hc0. change (granges (GLeft k c)) with (granges c) in *.
    cbn [gtotal gstart gend glevels] in *. pose proof (sq_ends _ Hok) as [E1 E2]. pose proof (sq_leaves c) as El. pose proof (sq_total c) as Et.
    assert (Hok' : segs_ok (leaves (sq c))) by (rewrite El; exact Hok). pose proof (tsum_range _ Hok'). pose proof (tmin_lt_tmax _ Hok').
    pose proof (tsum_lsum (sq c)) as Es. rewrite El in Es.
    cbn [prefix_sum_walk]. rewrite rec_min. cbn [gstart].
    destruct (Z.ltb_spec (F + Z.max A prev) (gstart c)); [lia|].
    rewrite rec_max' by (cbn [gend]; lia). cbn [rbind gend].
    destruct (Z.leb_spec (gend c) (F + Z.max A prev)) as [Hall|Hnall].
    { f_equal. symmetry. rewrite (real_all F A prev); [lia|apply Hok|assumption|].
      intros q Hq. rewrite <- El in Hq. pose proof (tmax_ge _ _ Hok' Hq). pose proof (segs_ok_pos _ _ Hok' Hq). lia. }
    cbn [is_internal negb grecord n_type]. unfold get_left, get_right. cbn [n_left n_right n_tick load_child]. rewrite Hc0. cbn [rbind].
    rewrite rec_min. destruct (Z.ltb_spec (F + Z.max A prev) (gstart c)); [lia|].
    rewrite rec_max' by lia. cbn [rbind]. destruct (Z.ltb_spec (F + Z.max A prev) (gend c)); [|lia].
    cbn [option_map unwrap_or]. rewrite checked_sub_ok by lia. cbn [rbind]. rewrite Z.sub_0_r. apply IH; auto; lia.
  - destruct Hrep as (Hself & Hc). pose proof (stored_top _ _ _ _ _ Hc) as Hc0. change (granges (GRight k c)) with (granges c) in *.
    cbn [gtotal gstart gend glevels] in *. pose proof (sq_ends _ Hok) as [E1 E2]. pose proof (sq_leaves c) as El. pose proof (sq_total c) as Et.
    assert (Hok' : segs_ok (leaves (sq c))) by (rewrite El; exact Hok). pose proof (tsum_range _ Hok'). pose proof (tmin_lt_tmax _ Hok').
    pose proof (tsum_lsum (sq c)) as Es. rewrite El in Es.
    cbn [prefix_sum_walk]. rewrite rec_min. cbn [gstart].
    destruct (Z.ltb_spec (F + Z.max A prev) (gstart c)); [lia|].
    rewrite rec_max' by (cbn [gend]; lia). cbn [rbind gend].
    destruct (Z.leb_spec (gend c) (F + Z.max A prev)) as [Hall|Hnall].
    { f_equal. symmetry. rewrite (real_all F A prev); [lia|apply Hok|assumption|].
      intros q Hq. rewrite <- El in Hq. pose proof (tmax_ge _ _ Hok' Hq). pose proof (segs_ok_pos _ _ Hok' Hq). lia. }
    cbn [is_internal negb grecord n_type]. unfold get_left, get_right. cbn [n_left n_right n_tick load_child]. rewrite Hc0. cbn [rbind].
    rewrite rec_min. destruct (Z.ltb_spec (F + Z.max A prev) (gstart c)); [lia|].
    rewrite rec_max' by lia. cbn [rbind]. destruct (Z.leb_spec (F + Z.max A prev) (gend c)); [|lia]. apply IH; auto; lia.
  - destruct Hrep as (Hself & Hl & Hr).
    pose proof (stored_top _ _ _ _ _ Hl) as Hl0. pose proof (stored_top _ _ _ _ _ Hr) as Hr0.
    assert (Hokt : segs_ok (leaves (TNode k (sq l) (sq r)))) by (change (TNode k (sq l) (sq r)) with (sq (GBoth k l r)); rewrite sq_leaves; exact Hok).
    assert (Eg : granges (GBoth k l r) = granges l ++ granges r) by (unfold granges; cbn [gleaves]; apply map_app).
    rewrite Eg in *.
    pose proof (tmax_tmin _ _ _ Hokt) as Hlr. pose proof (segs_node _ _ _ Hokt) as [Hokl' Hokr'].
    assert (Hokl := Hokl'). rewrite sq_leaves in Hokl. assert (Hokr := Hokr'). rewrite sq_leaves in Hokr.
    pose proof (tsum_range _ Hokl'). pose proof (tsum_range _ Hokr').
    pose proof (tmin_lt_tmax _ Hokl'). pose proof (tmin_lt_tmax _ Hokr').
    pose proof (sq_ends _ Hokl) as [El1 El2]. pose proof (sq_ends _ Hokr) as [Er1 Er2]. pose proof (sq_total l) as Etl. pose proof (sq_total r) as Etr.
    pose proof (tsum_lsum (sq l)) as Esl. pose proof (tsum_lsum (sq r)) as Esr. rewrite sq_leaves in Esl, Esr.
    rewrite Etl in Esl. rewrite Etr in Esr.
    apply okprev_app in Hokp as [Hokpl Hokpr]. rewrite <- Esl in Hokpr.
    pose proof (levels_pos l). pose proof (levels_pos r). cbn [gtotal gstart gend glevels] in *.
    assert (Hge_l : forall q, q ∈ granges l -> q.1 + q.2 <= gend l) by (intros q Hq; rewrite <- El2; apply tmax_ge; [exact Hokl'|rewrite sq_leaves; exact Hq]).
    assert (Hge_r : forall q, q ∈ granges r -> q.1 + q.2 <= gend r) by (intros q Hq; rewrite <- Er2; apply tmax_ge; [exact Hokr'|rewrite sq_leaves; exact Hq]).
    assert (Hcons : exists vv L, granges r = (gstart r, vv) :: L).
    { destruct (tmin_cons (sq r)) as (vv & L & EL). rewrite sq_leaves, Er1 in EL. eauto. }
    cbn [prefix_sum_walk]. rewrite rec_min. cbn [gstart].
    destruct (Z.ltb_spec (F + Z.max A prev) (Z.min (gstart l) (gstart r))); [lia|].
    rewrite rec_max' by (cbn [gend]; lia). cbn [rbind gend].
    destruct (Z.leb_spec (Z.max (gend l) (gend r)) (F + Z.max A prev)) as [Hall|Hnall].
    { f_equal. symmetry. rewrite (real_all F A prev).
      - rewrite lsum_app. lia.
      - apply Hok.
      - apply okprev_app. rewrite <- Esl. split; assumption.
      - intros q Hq. pose proof (segs_ok_pos _ _ Hok Hq). apply elem_of_app in Hq as [Hq|Hq]; [apply Hge_l in Hq|apply Hge_r in Hq]; lia. }
    cbn [is_internal negb grecord n_type]. unfold get_left, get_right. cbn [n_left n_right n_tick load_child]. rewrite Hl0, Hr0.
    cbn [get_value n_type gtotal]. rewrite !rec_value, !rec_min.
    rewrite checked_sub_ok by lia. cbn [rbind].
    replace (A + (gtotal l + gtotal r) - (gtotal l + gtotal r)) with A by lia.
    assert (Ene : F + Z.max A prev + saturating_sub (gtotal l) (saturating_sub prev A) = F + Z.max (A + gtotal l) prev) by (unfold saturating_sub; lia).
    rewrite checked_add_ok by (rewrite Ene; lia). cbn [rbind]. rewrite Ene.
    destruct (Z.leb_spec (gstart r) (F + Z.max (A + gtotal l) prev)) as [Hre|Hre]; cbn [rbind].
    { replace (A + (gtotal l + gtotal r)) with (A + gtotal l + gtotal r) by lia.
      rewrite IHr; try assumption; try lia.
      f_equal. symmetry. rewrite real_app.
      - rewrite <- Esl. reflexivity.
      - destruct (Z.le_gt_cases prev (A + gtotal l)) as [Hp|Hp].
        + apply (real_all_before F A (gstart r)); [exact Hokl| |lia].
          intros q Hq. apply Hge_l in Hq. lia.
        + clear - Hokl Hokpl Hp Esl HA. rewrite Esl in Hp. clear Esl. destruct Hokl as [_ HFl].
          revert A HA Hokpl Hp. induction (granges l) as [|[e v] L IH]; intros A HA Hokpl Hp; cbn in *; [lia|].
          destruct Hokpl as [Hx1 Hx2]. inversion HFl as [|? ? Hpos HFl']; subst. cbn in Hpos.
          pose proof (lsum_nonneg _ HFl').
          destruct (Z.leb_spec e (F + A)); [|specialize (Hx1 ltac:(lia)); lia].
          rewrite IH; try assumption; lia.
      - apply Hokl. }
    assert (Hp : prev <= A + gtotal l).
    { destruct Hcons as (vv & L & EL). rewrite EL in Hokpr. cbn in Hokpr. destruct Hokpr as [Hx1 _].
      destruct (Z.lt_ge_cases (A + gtotal l) prev) as [Hlt|]; [specialize (Hx1 Hlt); lia|assumption]. }
    assert (Estop : real F A (granges l ++ granges r) = real F A (granges l)).
    { destruct Hcons as (vv & L & EL). rewrite EL. apply real_app_stop; [apply Hokl|lia]. }
    rewrite Estop.
    destruct (Z.ltb_spec (F + Z.max A prev) (gstart l)); [lia|].
    rewrite rec_max' by lia. cbn [rbind].
    destruct (Z.ltb_spec (F + Z.max A prev) (gend l)) as [Hin|Hout].
    { cbn [option_map unwrap_or]. rewrite rec_value. rewrite checked_sub_ok by lia. cbn [rbind].
      replace (A + (gtotal l + gtotal r) - gtotal r) with (A + gtotal l) by lia.
      rewrite IHl; try assumption; try lia. reflexivity. }
    cbn [rbind]. destruct (Z.ltb_spec (F + Z.max A prev) (gstart r)); [|lia].
    rewrite checked_sub_ok by lia. f_equal. rewrite (real_all F A prev); [lia|apply Hokl|assumption|].
    intros q Hq. pose proof (segs_ok_pos _ _ Hokl Hq). apply Hge_l in Hq. lia.
Qed.
Lemma granges_total g : ranges_total (granges g) = gtotal g.
Proof. rewrite ranges_total_lsum, <- sq_leaves, <- tsum_lsum. apply sq_total. Qed.

(** The prefix sum stays the greedy realisation of the ranges, also in trees with one-child nodes. *)
Theorem C64_prefix_sum :
  forall s t d p g F L1 L2 fuel,
  stored (s_nodes s) t d p g -> ascending (map snd (gleaves g)) -> gend g <= U256_MAX ->
  0 <= F -> F + gtotal g <= U256_MAX -> glevels g <= Z.of_nat fuel ->
  map snd (gleaves g) = L1 ++ L2 -> greedy F 0 L1 = ranges_total L1 ->
  prefix_sum_walk fuel s (grecord t d p g) (gtotal g) (F + ranges_total L1) (ranges_total L1) = Ok (greedy F 0 (map snd (gleaves g))).
Proof.
  intros s t d p g F L1 L2 fuel Hs Ha He HF Hsum Hn EL Hpre. change (map snd (gleaves g)) with (granges g) in *.
  rewrite !greedy_real in *. apply ascending_segs in Ha. rewrite !ranges_total_lsum in *.
  assert (Hokp : okprev F (lsum L1) 0 (granges g)).
  { rewrite EL. replace (lsum L1) with (0 + lsum L1) at 1 by lia. apply okprev_prefix; [rewrite <- EL; apply Ha|lia]. }
  assert (Hprev : 0 <= lsum L1 <= gtotal g).
  { pose proof (granges_total g) as Eg. rewrite ranges_total_lsum in Eg. destruct Ha as [_ Hf]. rewrite EL in Hf, Eg. apply Forall_app in Hf as [F1 F2]. rewrite lsum_app in Eg.
    pose proof (lsum_nonneg _ F1). pose proof (lsum_nonneg _ F2). lia. }
  set (prev := lsum L1) in *.
  destruct (Z.le_gt_cases (gstart g) (F + prev)) as [Hmin|Hmin].
  - pose proof (walk_g t d s F prev g fuel p 0) as W. replace (Z.max 0 prev) with prev in W by lia. replace (0 + gtotal g) with (gtotal g) in W by lia.
    apply W; try assumption; lia.
  - pose proof (levels_pos g). destruct fuel as [|fuel]; [lia|]. cbn [prefix_sum_walk]. rewrite rec_min.
    destruct (Z.ltb_spec (F + prev) (gstart g)); [|lia].
    f_equal. symmetry. apply real_zero; [exact Ha|]. intros q Hq. destruct (sq_ends g Ha) as [E _]. rewrite <- sq_leaves in Ha, Hq. pose proof (tmin_le _ _ Ha Hq). lia.
Qed.
Print Assumptions C64_prefix_sum.

(** ** Reachable books *)
Fixpoint unsq (tr : tree) : gtree := match tr with TLeaf k e v => GLeaf k e v | TNode k l r => GBoth k (unsq l) (unsq r) end.
Lemma unsq_keys tr : gkeys (unsq tr) = keys tr. Proof. induction tr; cbn; congruence. Qed.
Lemma unsq_key tr : gkey (unsq tr) = tkey tr. Proof. destruct tr; reflexivity. Qed.
Lemma unsq_leaves tr : map snd (gleaves (unsq tr)) = leaves tr. Proof. induction tr; cbn; [reflexivity|]. rewrite map_app. congruence. Qed.
Lemma unsq_sq tr : sq (unsq tr) = tr. Proof. induction tr; cbn; congruence. Qed.
Lemma unsq_levels tr : glevels (unsq tr) = theight tr. Proof. induction tr; cbn; congruence. Qed.
Lemma unsq_rec t d p tr : segs_ok (leaves tr) -> grecord t d p (unsq tr) = node_of t d p tr.
Proof.
  intros H. destruct (sq_ends (unsq tr)) as [E1 E2]; [unfold granges; rewrite unsq_leaves; exact H|].
  pose proof (sq_total (unsq tr)) as E3. pose proof (unsq_levels tr) as E4. rewrite unsq_sq in E1, E2, E3.
  destruct tr; cbn [unsq grecord node_of] in *; [reflexivity|]. rewrite !unsq_key. congruence.
Qed.
Lemma unsq_stored m t d p tr : segs_ok (leaves tr) -> repr t d m p tr -> stored m t d p (unsq tr).
Proof.
  revert p. induction tr as [k e v|k l IHl r IHr]; intros p Hok H.
  - destruct H as [H _]. split; [exact H|exact I].
  - destruct H as (H & Hl & Hr). destruct (segs_node _ _ _ Hok) as [Ol Or]. split.
    + pose proof (unsq_rec t d p (TNode k l r) Hok) as E. cbn [unsq] in E. rewrite E. exact H.
    + cbn [unsq]. split; auto.
Qed.
Lemma count_total L : Forall (fun p : Z * Z => 0 <= p.1 /\ 0 < p.2) L -> Z.of_nat (length L) <= lsum L.
Proof. induction 1; cbn [length lsum]; lia. Qed.

Theorem C64_reachable :
  forall w0 h, start w0 -> history w0 h -> let s := w_st (run w0 h) in
  forall t d, cancelled w0 h t d <> [] ->
  exists g, s_tree s !! (t, d) = Some (gkey g) /\ stored (s_nodes s) t d None g /\ NoDup (gkeys g) /\
    map snd (gleaves g) ≡ₚ cancelled w0 h t d /\ ascending (map snd (gleaves g)) /\
    Forall (fun x : Z * (Z * Z) => 0 <= x.2.2 /\ x.2.2 + x.2.1 <= U256_MAX) (gleaves g) /\
    gtotal g <= U256_MAX /\ glevels g <= U64_MAX /\ glevels g <= Z.of_nat (tree_fuel s).
Proof.
  intros w0 h Hs Hh s t d Hne. destruct (run_track w0 h Hs Hh) as (G & Hg & Ht & _). pose proof (gd_inv _ _ _ Hg) as Hi.
  destruct (so_rep _ _ _ _ _ (i_store _ _ Hi t) d) as [K HK]. pose proof (tk_cans _ _ _ Ht t d) as Hc.
  assert (Hok : segs_ok (canl G t d)) by (apply canl_segs, Hi).
  assert (Hends : forall p, p ∈ canl G t d -> p.1 + p.2 <= U256_MAX) by (intros p; apply canl_ends, Hi).
  destruct (rep_holds s t d _ _ HK) as (height & _ & _ & _).
  inversion HK as [H E|k kl e v H1 H2 H3 H4 E|k l r H1 H2 H3 H4 E]; subst.
  - exfalso. apply Hne. rewrite <- E in Hc. apply Permutation_nil. exact Hc.
  - rewrite <- E in *. exists (GLeft k (GLeaf kl e v)). destruct (segs_ok_pos _ (e, v) Hok ltac:(left)) as [P1 P2]. cbn in P1, P2.
    specialize (Hends (e, v) ltac:(left)). cbn in Hends.
    split; [exact H1|]. split; [split; [exact H3|split; [exact H4|exact I]]|]. split; [|split; [exact Hc|split; [exact Hok|split; [|split; [|split]]]]].
    + cbn. constructor; [|constructor; [|constructor]]; intros X; [apply elem_of_list_singleton in X; congruence|apply elem_of_nil in X as []].
    + cbn. constructor; [cbn; lia|constructor].
    + cbn. lia.
    + vm_compute. discriminate.
    + cbn. unfold tree_fuel. lia.
  - change (leaves l ++ leaves r) with (leaves (TNode k l r)) in *. rewrite <- E in *. exists (unsq (TNode k l r)).
    assert (Htot : gtotal (unsq (TNode k l r)) <= U256_MAX).
    { rewrite <- sq_total, unsq_sq. pose proof (tsum_range _ Hok). pose proof (tmin_nonneg _ Hok).
      destruct (tmax_in (TNode k l r)) as (q & Q1 & Q2). specialize (Hends q Q1). lia. }
    split; [exact H1|]. split; [apply unsq_stored; assumption|]. split; [rewrite unsq_keys; exact H3|].
    rewrite unsq_leaves. split; [exact Hc|]. split; [exact Hok|]. split; [|split; [exact Htot|split]].
    + apply Forall_forall. intros [q [e v]] Hq. assert (Hq' : (e, v) ∈ leaves (TNode k l r)) by (rewrite <- unsq_leaves; apply elem_of_list_fmap; exists (q, (e, v)); auto).
      specialize (Hends _ Hq'). pose proof (segs_ok_pos _ _ Hok Hq'). cbn in *. lia.
    + rewrite unsq_levels. pose proof (avl_height _ H4) as Hh2. pose proof (count_total _ (proj2 Hok)) as Hcnt. rewrite <- tsum_lsum in Hcnt.
      rewrite <- sq_total, unsq_sq in Htot. assert (Hp : 2 ^ (theight (TNode k l r) / 2) <= 2 ^ 256) by (rewrite U256_val in *; lia).
      pose proof (theight_pos (TNode k l r)). apply Z.pow_le_mono_r_iff in Hp; [|lia|lia].
      pose proof (Z.div_mod (theight (TNode k l r)) 2 ltac:(lia)). pose proof (Z.mod_pos_bound (theight (TNode k l r)) 2 ltac:(lia)). rewrite U64_val. lia.
    + rewrite unsq_levels. pose proof (fuel_ok s t d (s_nodes s) (s_tree s) (s_nodectr s) _ _ H2 H3) as Hf. rewrite <- upd_id in Hf. lia.
Qed.
Print Assumptions C64_reachable.

(** The hypotheses are met by the tree with six ranges. *)
Definition g_six : gtree :=
  GBoth 5 (GBoth 1 (GLeaf 2 (D 2) (D 2)) (GLeaf 3 (D 4) (D 2)))
          (GBoth 9 (GBoth 7 (GLeaf 4 (D 8) (D 2)) (GLeaf 6 (D 10) (D 2))) (GBoth 11 (GLeaf 8 (D 14) (D 2)) (GLeaf 10 (D 16) (D 2)))).
Definition g_five : gtree :=
  GBoth 5 (GRight 1 (GLeaf 3 (D 4) (D 2)))
          (GBoth 9 (GBoth 7 (GLeaf 4 (D 8) (D 2)) (GLeaf 6 (D 10) (D 2))) (GBoth 11 (GLeaf 8 (D 14) (D 2)) (GLeaf 10 (D 16) (D 2)))).
Definition after_delete (k : Z) (s : storage) : storage :=
  match s_nodes s !! (0, k) with Some n => fst (node_delete (tree_fuel s) n s) | None => s end.
Example C64_case :
  let s := w_st w_cancelled in
  stored (s_nodes s) 0 Bid None g_six /\ NoDup (gkeys g_six) /\ (2, (D 2, D 2)) ∈ gleaves g_six /\
  prune 2 g_six = Some g_five /\ stored (s_nodes (after_delete 2 s)) 0 Bid None g_five /\
  (* with the two first ranges gone, node 1 is gone as well, and the sum is taken over the other four *)
  s_nodes (after_delete 3 (after_delete 2 s)) !! (0, 1) = None /\
  rbind (get_root_node (after_delete 3 (after_delete 2 s)) 0 Bid)
    (fun root => get_prefix_sum (after_delete 3 (after_delete 2 s)) root (D 9) 0) = Ok (D 4).
Proof.
  cbv zeta. split; [|split; [|split; [|split; [|split; [|split]]]]].
  - cbn [stored g_six gkey]. repeat (first [exact I | apply conj]); vm_compute; reflexivity.
  - apply (bool_decide_unpack _). vm_compute. reflexivity.
  - apply elem_of_list_In. vm_compute. tauto.
  - vm_compute. reflexivity.
  - cbn [stored g_five gkey]. repeat (first [exact I | apply conj]); vm_compute; reflexivity.
  - vm_compute. reflexivity.
  - vm_compute. reflexivity.
Qed.
(** Why the contract must not call it as it is: with the two first nodes deleted, the cancellation of the
    first order, accepted before, is refused, because a root with a right child only rejects insertions. *)
Example C64_unused :
  let w := w_cancelled in
  let w' := mkWorld (w_self w) (after_delete 3 (after_delete 2 (w_st w))) (w_bal w) in
  run_out w [cancel "a" 0 0] = [true] /\ run_out w' [cancel "a" 0 0] = [false].
Proof. split; vm_compute; reflexivity. Qed.
