(** * TreeDefs: inductive trees and their representation in the node store (proof side). *)
From Verif Require Import Base Dec Types State Sumtree.

Inductive tree : Type :=
| TLeaf (k e v : Z)
| TNode (k : Z) (l r : tree).

Definition tkey (t : tree) : Z := match t with TLeaf k _ _ => k | TNode k _ _ => k end.
Fixpoint leaves (t : tree) : list (Z * Z) :=
  match t with TLeaf _ e v => [(e, v)] | TNode _ l r => app (leaves l) (leaves r) end.
Fixpoint keys (t : tree) : list Z :=
  match t with TLeaf k _ _ => [k] | TNode k l r => k :: app (keys l) (keys r) end.
Fixpoint tsum (t : tree) : Z :=
  match t with TLeaf _ _ v => v | TNode _ l r => tsum l + tsum r end.
Fixpoint tmin (t : tree) : Z :=
  match t with TLeaf _ e _ => e | TNode _ l _ => tmin l end.
Fixpoint tmax (t : tree) : Z :=
  match t with TLeaf _ e v => v + e | TNode _ _ r => tmax r end.
Fixpoint theight (t : tree) : Z :=
  match t with TLeaf _ _ _ => 1 | TNode _ l r => Z.max (theight l) (theight r) + 1 end.
Fixpoint avl (t : tree) : Prop :=
  match t with
  | TLeaf _ _ _ => True
  | TNode _ l r => avl l /\ avl r /\ -1 <= theight r - theight l <= 1
  end.

Definition seg_before (a b : Z * Z) : Prop := a.1 + a.2 <= b.1.
Definition segs_ok (L : list (Z * Z)) : Prop :=
  StronglySorted seg_before L /\ Forall (fun p => 0 <= p.1 /\ 0 < p.2) L.

Fixpoint lsum (L : list (Z * Z)) : Z := match L with [] => 0 | p :: L => p.2 + lsum L end.

(** The record stored for the root of [t]. *)
Definition node_of (tick : Z) (d : dir) (p : option Z) (t : tree) : tnode :=
  match t with
  | TLeaf k e v => mkNode k tick d None None p (NLeaf v e)
  | TNode k l r => mkNode k tick d (Some (tkey l)) (Some (tkey r)) p
                     (NInternal (tsum t) (tmin t) (tmax t) (theight t))
  end.

Fixpoint repr (tick : Z) (d : dir) (m : gmap (Z * Z) tnode) (p : option Z) (t : tree) : Prop :=
  m !! (tick, tkey t) = Some (node_of tick d p t) /\
  match t with
  | TLeaf _ _ _ => True
  | TNode k l r => repr tick d m (Some k) l /\ repr tick d m (Some k) r
  end.

(** Storage with the three tree-related maps replaced. *)
Definition upd (s : storage) (m : gmap (Z * Z) tnode) (tr : gmap (Z * dir) Z) (c : gmap Z Z) : storage :=
  set_nodectr c (set_tree tr (set_nodes m s)).

Lemma upd_id s : s = upd s (s_nodes s) (s_tree s) (s_nodectr s).
Proof. destruct s; reflexivity. Qed.
Lemma upd_upd s m tr c m' tr' c' : upd (upd s m tr c) m' tr' c' = upd s m' tr' c'.
Proof. reflexivity. Qed.

(** ** Ordered segment lists *)
Lemma segs_ok_nil : segs_ok [].
Proof. split; constructor. Qed.

Lemma segs_ok_app L1 L2 :
  segs_ok (app L1 L2) <->
  segs_ok L1 /\ segs_ok L2 /\ (forall a b, a ∈ L1 -> b ∈ L2 -> seg_before a b).
Proof.
  unfold segs_ok. split.
  - intros [HS HF]. apply Forall_app in HF as [HF1 HF2].
    induction L1 as [|x L1 IH]; cbn in *.
    + repeat split; try assumption; try constructor. intros a b Ha. inversion Ha.
    + apply StronglySorted_inv in HS as [HS Hx]. inversion HF1; subst.
      destruct (IH HS H2) as ([HS1 _] & [HS2 _] & Hab).
      apply Forall_app in Hx as [Hx1 Hx2].
      split; [split; [constructor; assumption|exact HF1]|].
      split; [split; assumption|].
      intros a b Ha Hb. apply elem_of_cons in Ha as [->|Ha]; [|auto].
      rewrite Forall_forall in Hx2. auto.
  - intros ([HS1 HF1] & [HS2 HF2] & Hab). split; [|apply Forall_app; auto].
    induction L1 as [|x L1 IH]; cbn; [assumption|].
    apply StronglySorted_inv in HS1 as [HS1 Hx]. inversion HF1; subst.
    constructor.
    + apply IH; auto. intros a b Ha Hb. apply Hab; [constructor; assumption|assumption].
    + apply Forall_app; split; [assumption|]. apply Forall_forall. intros b Hb.
      apply Hab; [constructor|assumption].
Qed.

Lemma segs_ok_singleton e v : 0 <= e -> 0 < v -> segs_ok [(e, v)].
Proof. intros. split; [repeat constructor|]. constructor; [cbn; lia|constructor]. Qed.

Lemma lsum_app L1 L2 : lsum (app L1 L2) = lsum L1 + lsum L2.
Proof. induction L1 as [|x L1 IH]; cbn; [lia|]. rewrite IH. lia. Qed.
Lemma lsum_cons x L : lsum (x :: L) = x.2 + lsum L.
Proof. reflexivity. Qed.

Lemma segs_ok_pos L p : segs_ok L -> p ∈ L -> 0 <= p.1 /\ 0 < p.2.
Proof. intros [_ HF] Hp. rewrite Forall_forall in HF. auto. Qed.

Lemma lsum_nonneg L : Forall (fun p : Z * Z => 0 <= p.1 /\ 0 < p.2) L -> 0 <= lsum L.
Proof. induction 1; cbn; [lia|]. lia. Qed.

Lemma leaves_nonempty t : leaves t <> [].
Proof. induction t; cbn; [discriminate|]. destruct (leaves t1); [congruence|discriminate]. Qed.

Lemma tsum_lsum t : tsum t = lsum (leaves t).
Proof. induction t; cbn; [lia|]. rewrite lsum_app. lia. Qed.

Lemma theight_pos t : 1 <= theight t.
Proof. induction t; cbn; lia. Qed.

Lemma tmin_in t : exists v, (tmin t, v) ∈ leaves t.
Proof.
  induction t as [k e v|k l [v IH] r _]; cbn.
  - exists v. constructor.
  - exists v. apply elem_of_app. auto.
Qed.
Lemma tmax_in t : exists p, p ∈ leaves t /\ p.1 + p.2 = tmax t.
Proof.
  induction t as [k e v|k l _ r (p & IH & E)]; cbn.
  - exists (e, v). split; [constructor|cbn; lia].
  - exists p. split; [apply elem_of_app; auto|exact E].
Qed.
Lemma tmin_le t p : segs_ok (leaves t) -> p ∈ leaves t -> tmin t <= p.1.
Proof.
  revert p. induction t as [k e v|k l IHl r IHr]; cbn; intros p Hok Hp.
  - apply elem_of_list_singleton in Hp as ->. cbn. lia.
  - apply segs_ok_app in Hok as (Hl & Hr & Hlr). apply elem_of_app in Hp as [Hp|Hp]; [auto|].
    destruct (tmin_in l) as [v Hv]. specialize (Hlr _ _ Hv Hp). unfold seg_before in Hlr. cbn in Hlr.
    destruct (segs_ok_pos _ _ Hl Hv) as [_ Hpos]. cbn in Hpos. lia.
Qed.
Lemma tmax_ge t p : segs_ok (leaves t) -> p ∈ leaves t -> p.1 + p.2 <= tmax t.
Proof.
  revert p. induction t as [k e v|k l IHl r IHr]; cbn; intros p Hok Hp.
  - apply elem_of_list_singleton in Hp as ->. cbn. lia.
  - apply segs_ok_app in Hok as (Hl & Hr & Hlr). apply elem_of_app in Hp as [Hp|Hp]; [|auto].
    destruct (tmax_in r) as (q & Hq & E). specialize (Hlr _ _ Hp Hq). unfold seg_before in Hlr.
    destruct (segs_ok_pos _ _ Hr Hq) as [_ Hpos]. lia.
Qed.
Lemma tmin_lt_tmax t : segs_ok (leaves t) -> tmin t < tmax t.
Proof.
  intros Hok. destruct (tmin_in t) as [v Hv].
  pose proof (tmax_ge _ _ Hok Hv). destruct (segs_ok_pos _ _ Hok Hv). cbn in *. lia.
Qed.
Lemma tmin_nonneg t : segs_ok (leaves t) -> 0 <= tmin t.
Proof.
  intros Hok. destruct (tmin_in t) as [v Hv]. destruct (segs_ok_pos _ _ Hok Hv). cbn in *. lia.
Qed.
Lemma tmax_tmin l r k : segs_ok (leaves (TNode k l r)) -> tmax l <= tmin r.
Proof.
  cbn. intros Hok. apply segs_ok_app in Hok as (Hl & Hr & Hlr).
  destruct (tmin_in r) as [v Hv]. destruct (tmax_in l) as (q & Hq & E).
  specialize (Hlr _ _ Hq Hv). unfold seg_before in Hlr. cbn in Hlr. lia.
Qed.
Lemma segs_node k l r : segs_ok (leaves (TNode k l r)) -> segs_ok (leaves l) /\ segs_ok (leaves r).
Proof. cbn. intros Hok. apply segs_ok_app in Hok as (Hl & Hr & _). auto. Qed.
Lemma tsum_range t : segs_ok (leaves t) -> 0 < tsum t <= tmax t - tmin t.
Proof.
  induction t as [k e v|k l IHl r IHr]; intros Hok.
  - cbn in *. destruct (segs_ok_pos _ (e, v) Hok ltac:(constructor)). cbn in *. lia.
  - pose proof (tmax_tmin l r k Hok). apply segs_node in Hok as [Hl Hr].
    specialize (IHl Hl). specialize (IHr Hr). cbn. lia.
Qed.

(** Building order facts for a node from its parts. *)
Lemma segs_join k l r :
  segs_ok (leaves l) -> segs_ok (leaves r) -> tmax l <= tmin r -> segs_ok (leaves (TNode k l r)).
Proof.
  intros Hl Hr Hlr. cbn. apply segs_ok_app. repeat split; try apply Hl; try apply Hr.
  intros a b Ha Hb. unfold seg_before.
  pose proof (tmax_ge _ _ Hl Ha). pose proof (tmin_le _ _ Hr Hb). lia.
Qed.

(** ** Keys *)
Lemma tkey_in t : tkey t ∈ keys t.
Proof. destruct t; cbn; constructor. Qed.

Lemma repr_lookup tick d m p t : repr tick d m p t -> m !! (tick, tkey t) = Some (node_of tick d p t).
Proof. destruct t; cbn; tauto. Qed.

Lemma repr_frame tick d m m' p t :
  (forall k, k ∈ keys t -> m' !! (tick, k) = m !! (tick, k)) ->
  repr tick d m p t -> repr tick d m' p t.
Proof.
  revert p. induction t as [k e v|k l IHl r IHr]; intros p Hf; cbn -[node_of].
  - intros [H _]. split; [|exact I]. rewrite Hf by (cbn; constructor). exact H.
  - intros (H & Hl & Hr). split; [|split].
    + rewrite Hf by (cbn; constructor). exact H.
    + apply IHl; [|assumption]. intros q Hq. apply Hf. cbn. constructor. apply elem_of_app; auto.
    + apply IHr; [|assumption]. intros q Hq. apply Hf. cbn. constructor. apply elem_of_app; auto.
Qed.

Lemma repr_key_lookup tick d m p t k :
  repr tick d m p t -> k ∈ keys t -> exists n, m !! (tick, k) = Some n /\ n_key n = k /\ n_dir n = d.
Proof.
  revert p. induction t as [k' e v|k' l IHl r IHr]; intros p; cbn -[node_of].
  - intros [H _] Hk. apply elem_of_list_singleton in Hk as ->. eexists; split; [exact H|]. split; reflexivity.
  - intros (H & Hl & Hr) Hk. apply elem_of_cons in Hk as [->|Hk].
    + eexists; split; [exact H|]. split; reflexivity.
    + apply elem_of_app in Hk as [Hk|Hk]; eauto.
Qed.

(** Changing only the parent of the root record. *)
Lemma repr_reparent tick d m p p' t :
  NoDup (keys t) ->
  repr tick d m p t -> repr tick d (<[(tick, tkey t) := node_of tick d p' t]> m) p' t.
Proof.
  destruct t as [k e v|k l r]; cbn -[node_of]; intros Hnd.
  - intros [_ _]. split; [|exact I]. apply lookup_insert.
  - intros (_ & Hl & Hr). apply NoDup_cons in Hnd as [Hk Hnd].
    rewrite elem_of_app in Hk.
    split; [apply lookup_insert|split].
    + eapply repr_frame; [|exact Hl]. intros q Hq. apply lookup_insert_ne. intros [=]. subst. tauto.
    + eapply repr_frame; [|exact Hr]. intros q Hq. apply lookup_insert_ne. intros [=]. subst. tauto.
Qed.

(** Record accessors of [node_of]. *)
Lemma node_of_min tick d p t : get_min_range (node_of tick d p t) = tmin t.
Proof. destruct t; reflexivity. Qed.
Lemma node_of_max tick d p t : tmax t <= U256_MAX -> get_max_range (node_of tick d p t) = Ok (tmax t).
Proof.
  destruct t; cbn; intros H; [|reflexivity]. unfold checked_add256.
  destruct (Z.leb_spec (v + e) U256_MAX); [reflexivity|lia].
Qed.
Lemma node_of_value tick d p t : get_value (node_of tick d p t) = tsum t.
Proof. destruct t; reflexivity. Qed.
Lemma node_of_weight tick d p t : get_weight (node_of tick d p t) = theight t.
Proof. destruct t; reflexivity. Qed.
Lemma node_of_key tick d p t : n_key (node_of tick d p t) = tkey t.
Proof. destruct t; reflexivity. Qed.
Lemma node_of_tick tick d p t : n_tick (node_of tick d p t) = tick.
Proof. destruct t; reflexivity. Qed.
Lemma node_of_dir tick d p t : n_dir (node_of tick d p t) = d.
Proof. destruct t; reflexivity. Qed.
Lemma node_of_parent tick d p t : n_parent (node_of tick d p t) = p.
Proof. destruct t; reflexivity. Qed.
Lemma node_of_set_parent tick d p p' t : n_set_parent (node_of tick d p t) p' = node_of tick d p' t.
Proof. destruct t; reflexivity. Qed.
