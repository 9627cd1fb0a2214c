(** * SumtreeProofs: rotations, rebalancing and insertion keep a correct AVL sumtree. *)
From Verif Require Import Base Dec Types State Sumtree TreeDefs Exec.

Lemma U256_val : U256_MAX = 2 ^ 256 - 1. Proof. reflexivity. Qed.
Lemma U64_val : U64_MAX = 18446744073709551615. Proof. reflexivity. Qed.

Lemma save_upd n s m tr c :
  node_save n (upd s m tr c) = (upd s (<[(n_tick n, n_key n) := n]> m) tr c, Ok tt).
Proof. reflexivity. Qed.

Lemma checked_add_ok a b : a + b <= U256_MAX -> checked_add256 a b = Ok (a + b).
Proof. unfold checked_add256. intros. destruct (Z.leb_spec (a + b) U256_MAX); [reflexivity|lia]. Qed.
Lemma checked_sub_ok a b : b <= a -> checked_sub a b = Ok (a - b).
Proof. unfold checked_sub. intros. destruct (Z.leb_spec b a); [reflexivity|lia]. Qed.

Lemma sync_spec tick d s m tr c k l r p a lo hi w pl pr :
  m !! (tick, tkey l) = Some (node_of tick d pl l) ->
  m !! (tick, tkey r) = Some (node_of tick d pr r) ->
  segs_ok (leaves (TNode k l r)) -> tmax r <= U256_MAX -> theight (TNode k l r) <= U64_MAX ->
  sync_range_and_value (mkNode k tick d (Some (tkey l)) (Some (tkey r)) p (NInternal a lo hi w))
    (upd s m tr c) =
  (upd s (<[(tick, k) := node_of tick d p (TNode k l r)]> m) tr c,
   Ok (node_of tick d p (TNode k l r))).
Proof.
  intros Hl Hr Hok Hmx Hh. unfold sync_range_and_value.
  pose proof (tmax_tmin l r k Hok) as Hlr. pose proof (segs_node _ _ _ Hok) as [Hokl Hokr].
  pose proof (tsum_range _ Hokl). pose proof (tsum_range _ Hokr).
  pose proof (tmin_nonneg _ Hokl). pose proof (tmin_lt_tmax _ Hokl). pose proof (tmin_lt_tmax _ Hokr).
  rewrite bind_ensure by reflexivity. rewrite !bind_read.
  unfold get_left, get_right, load_child. cbn [n_left n_right n_tick upd set_nodectr set_tree set_nodes s_nodes].
  rewrite Hl, Hr. cbn [has_child negb n_left n_right].
  rewrite node_of_max by lia. rewrite node_of_max by lia. cbn [rbind].
  rewrite !node_of_min. rewrite bind_lift_ok. cbn [fst snd].
  rewrite Z.min_l by lia. rewrite Z.max_r by lia.
  cbn [set_min_range n_type]. rewrite bind_lift_ok. cbn [set_max_range n_type n_set_type].
  rewrite bind_lift_ok. cbn [option_map unwrap_or]. rewrite !node_of_value, !node_of_weight.
  rewrite checked_add_ok by lia. rewrite bind_lift_ok. cbn [set_value n_type n_set_type].
  rewrite bind_lift_ok. cbn [theight] in Hh.
  destruct (Z.leb_spec (Z.max (theight l) (theight r) + 1) U64_MAX); [|lia].
  rewrite bind_lift_ok. cbn [set_weight n_type n_set_type]. rewrite bind_lift_ok.
  reflexivity.
Qed.

(** ** Parent links *)
Definition redirect (np : tnode) (k k' : Z) : tnode :=
  if opt_is k (n_left np) then n_set_left np (Some k')
  else if opt_is k (n_right np) then n_set_right np (Some k') else np.

Definition one_side (np : tnode) (k : Z) : Prop :=
  (n_left np = Some k /\ n_right np <> Some k) \/ (n_right np = Some k /\ n_left np <> Some k).

Definition parent_ok (tick : Z) (m : gmap (Z * Z) tnode) (p : option Z) (k : Z) : Prop :=
  match p with
  | None => True
  | Some pk => exists np, m !! (tick, pk) = Some np /\ n_key np = pk /\ n_tick np = tick /\ one_side np k
  end.

(** [m] with the parent's child pointer moved from [k] to [k']; the parent is read in [m0]. *)
Definition put_parent (tick : Z) (p : option Z) (k k' : Z) (m0 m : gmap (Z * Z) tnode) : gmap (Z * Z) tnode :=
  match p with
  | None => m
  | Some pk => match m0 !! (tick, pk) with
               | Some np => <[(tick, pk) := redirect np k k']> m
               | None => m
               end
  end.
Definition put_root (tick : Z) (d : dir) (p : option Z) (k' : Z) (tr : gmap (Z * dir) Z) : gmap (Z * dir) Z :=
  match p with None => <[(tick, d) := k']> tr | Some _ => tr end.

Lemma opt_is_spec k o : opt_is k o = true <-> o = Some k.
Proof. destruct o; cbn; [rewrite Z.eqb_eq|]; split; congruence. Qed.
Lemma opt_is_neq k o : o <> Some k -> opt_is k o = false.
Proof. intros H. destruct (opt_is k o) eqn:E; [|reflexivity]. apply opt_is_spec in E. congruence. Qed.

Lemma put_parent_lookup_ne tick p k k' m0 m key :
  (forall pk, p = Some pk -> key <> (tick, pk)) -> put_parent tick p k k' m0 m !! key = m !! key.
Proof.
  intros H. destruct p as [pk|]; cbn; [|reflexivity].
  destruct (m0 !! (tick, pk)); [|reflexivity]. apply lookup_insert_ne. intros E. eapply H; eauto.
Qed.

(** The two saves of the parent at the end of a rotation. *)
Lemma save_parent tick s m0 m tr0 tr c p k k' n :
  n_tick n = tick -> n_key n = k -> n_parent n = p -> parent_ok tick m0 p k ->
  forall (A : Type) (kk : M storage A),
  (let! _ := (match (match get_parent (upd s m0 tr0 c) n with
                     | Some p => opt_is (n_key n) (n_left p) | None => false end),
                    get_parent (upd s m0 tr0 c) n with
             | true, Some p => node_save (n_set_left p (Some k'))
             | _, _ => mret tt
             end) in
   let! _ := (match (match get_parent (upd s m0 tr0 c) n with
                     | Some p => opt_is (n_key n) (n_right p) | None => false end),
                    get_parent (upd s m0 tr0 c) n with
             | true, Some p => node_save (n_set_right p (Some k'))
             | _, _ => mret tt
             end) in kk) (upd s m tr c)
  = kk (upd s (put_parent tick p k k' m0 m) tr c).
Proof.
  intros Ht Hk Hp Hpar A kk. unfold get_parent, load_child. rewrite Hp, Ht, Hk.
  cbn [upd set_nodectr set_tree set_nodes s_nodes].
  destruct p as [pk|]; [|reflexivity].
  destruct Hpar as (np & Hnp & Hkey & Htick & Hside). unfold put_parent. rewrite Hnp. unfold redirect.
  destruct Hside as [[H1 H2]|[H1 H2]].
  - rewrite (proj2 (opt_is_spec k _) H1). rewrite (opt_is_neq k _ H2).
    erewrite bind_ok by apply save_upd. rewrite bind_ret. cbn. rewrite Hkey, Htick. reflexivity.
  - rewrite (opt_is_neq k _ H2). rewrite (proj2 (opt_is_spec k _) H1). rewrite bind_ret.
    erewrite bind_ok by apply save_upd. cbn. rewrite Hkey, Htick. reflexivity.
Qed.

(** Side conditions on a (possibly stale) node [k] with subtrees [l], [r] under parent [p]. *)
Record node_ok (tick : Z) (d : dir) (m : gmap (Z * Z) tnode) (p : option Z) (k : Z) (l r : tree) : Prop := {
  nok_l : repr tick d m (Some k) l;
  nok_r : repr tick d m (Some k) r;
  nok_nd : NoDup (k :: keys l ++ keys r);
  nok_segs : segs_ok (leaves l ++ leaves r);
  nok_max : tmax r <= U256_MAX;
  nok_par : parent_ok tick m p k;
  nok_pfresh : forall pk, p = Some pk -> pk ∉ k :: keys l ++ keys r;
  nok_h : theight l < 2 ^ 31 /\ theight r < 2 ^ 31
}.

Ltac nd_simpl :=
  repeat match goal with
  | H : NoDup (_ :: _) |- _ => apply NoDup_cons in H as [? H]
  | H : NoDup (_ ++ _) |- _ => apply NoDup_app in H as (? & ? & H)
  | H : _ ∉ _ ++ _ |- _ => rewrite elem_of_app in H
  | H : _ ∉ _ :: _ |- _ => rewrite elem_of_cons in H
  end.

Ltac lk := repeat first
  [ rewrite lookup_insert
  | rewrite lookup_insert_ne by (let E := fresh in intros E; injection E as E; congruence) ].

Ltac neq_solve := let E := fresh in intros E; injection E as E; subst; set_solver.

Lemma rotate_right_exec tick d s m tr c p k kl a b r x1 x2 x3 x4 :
  node_ok tick d m p k (TNode kl a b) r ->
  let self := mkNode k tick d (Some kl) (Some (tkey r)) p (NInternal x1 x2 x3 x4) in
  let N2 := node_of tick d (Some kl) (TNode k b r) in
  let N1 := node_of tick d p (TNode kl a (TNode k b r)) in
  exists S1 S2,
  rotate_right self (upd s m tr c) =
  (upd s (put_parent tick p k kl m
           (<[(tick, kl) := N1]> (<[(tick, k) := N2]> (<[(tick, k) := S2]> (<[(tick, kl) := S1]>
             (<[(tick, tkey b) := node_of tick d (Some k) b]> m))))))
         (put_root tick d p kl tr) c, Ok N2).
Proof.
  intros [Hl Hr Hnd Hsegs Hmax Hpar Hpf [Hhl Hhr]] self N2 N1.
  destruct Hl as (Hlrec & Hla & Hlb). cbn [tkey] in Hlrec.
  pose proof (repr_lookup _ _ _ _ _ Hla) as Hla0.
  pose proof (repr_lookup _ _ _ _ _ Hlb) as Hlb0.
  pose proof (repr_lookup _ _ _ _ _ Hr) as Hr0.
  cbn [leaves] in Hsegs. rewrite <- app_assoc in Hsegs.
  assert (Hs1 : segs_ok (leaves (TNode k b r))).
  { apply segs_ok_app in Hsegs as (_ & H & _). exact H. }
  assert (Hs2 : segs_ok (leaves (TNode kl a (TNode k b r)))) by exact Hsegs.
  cbn [theight] in Hhl. pose proof (theight_pos a). pose proof (theight_pos b). pose proof (theight_pos r).
  pose proof U64_val as HU.
  assert (Hk_kl : kl <> k) by (cbn in Hnd; intros ->; apply NoDup_cons in Hnd as [Hx _]; apply Hx; constructor).
  assert (Hka : tkey a <> k /\ tkey a <> kl /\ tkey a <> tkey b).
  { pose proof (tkey_in a) as Ha. pose proof (tkey_in b) as Hb. cbn in Hnd.
    apply NoDup_cons in Hnd as [Hx Hnd]. apply NoDup_cons in Hnd as [Hy Hnd].
    rewrite <- app_assoc in Hnd. apply NoDup_app in Hnd as (_ & Hab & _).
    repeat split.
    - intros E. apply Hx. rewrite <- E. set_solver.
    - intros E. apply Hy. rewrite <- E. set_solver.
    - intros E. apply (Hab _ Ha). rewrite E. set_solver. }
  assert (Hkb : tkey b <> k /\ tkey b <> kl).
  { pose proof (tkey_in b) as Hb. cbn in Hnd.
    apply NoDup_cons in Hnd as [Hx Hnd]. apply NoDup_cons in Hnd as [Hy Hnd].
    repeat split.
    - intros E. apply Hx. rewrite <- E. set_solver.
    - intros E. apply Hy. rewrite <- E. set_solver. }
  assert (Hkr : tkey r <> k /\ tkey r <> kl /\ tkey r <> tkey b).
  { pose proof (tkey_in r) as Ha. pose proof (tkey_in b) as Hb. cbn in Hnd.
    apply NoDup_cons in Hnd as [Hx Hnd]. apply NoDup_cons in Hnd as [Hy Hnd].
    apply NoDup_app in Hnd as (_ & Hab & _).
    repeat split.
    - intros E. apply Hx. rewrite <- E. set_solver.
    - intros E. apply Hy. rewrite <- E. set_solver.
    - intros E. apply (Hab (tkey b)); [set_solver|]. rewrite <- E. exact Ha. }
  destruct Hka as (? & ? & ?), Hkb as (? & ?), Hkr as (? & ? & ?).
  eexists _, _. unfold rotate_right.
  rewrite bind_read. cbv zeta. rewrite bind_read.
  change (get_left (upd s m tr c) self) with (m !! (tick, kl)). rewrite Hlrec.
  cbn [ok_or]. rewrite bind_lift_ok. cbv zeta.
  rewrite node_of_set_parent. cbn [node_of n_key n_tick n_set_parent n_set_left n_parent n_left n_right self].
  rewrite bind_read.
  match goal with |- context [get_left (upd s m tr c) ?n] =>
    change (get_left (upd s m tr c) n) with (m !! (tick, tkey b)) end.
  rewrite Hlb0. rewrite node_of_set_parent.
  erewrite bind_ok by apply save_upd. rewrite node_of_tick, node_of_key.
  cbn [n_set_right n_key n_tick n_dir n_left n_right n_parent n_type].
  erewrite bind_ok by apply save_upd. erewrite bind_ok by apply save_upd.
  cbn [n_key n_tick n_dir n_left n_right n_parent n_type].
  (* TREE *)
  match goal with |- mbindM ?f _ (upd s ?mm tr c) = _ =>
    assert (Htr : f (upd s mm tr c) = (upd s mm (put_root tick d p kl tr) c, Ok tt))
      by (destruct p; reflexivity)
  end.
  erewrite bind_ok by exact Htr. clear Htr.
  (* sync self *)
  erewrite bind_ok.
  2:{ refine (sync_spec tick d s _ _ c k b r (Some kl) x1 x2 x3 x4 (Some k) (Some k) _ _ Hs1 Hmax _).
      - lk. reflexivity.
      - lk. exact Hr0.
      - cbn [theight]. lia. }
  (* sync left child *)
  erewrite bind_ok.
  2:{ refine (sync_spec tick d s _ _ c kl a (TNode k b r) p _ _ _ _ (Some kl) (Some kl) _ _ Hs2 Hmax _).
      - lk. exact Hla0.
      - apply lookup_insert.
      - cbn [theight]. lia. }
  rewrite node_of_key. cbn [tkey].
  pose proof (save_parent tick s m
    (<[(tick, kl):=node_of tick d p (TNode kl a (TNode k b r))]>
     (<[(tick, k):=node_of tick d (Some kl) (TNode k b r)]>
     (<[(tick, k) := (mkNode k tick d (Some (tkey b)) (Some (tkey r)) (Some kl) (NInternal x1 x2 x3 x4))]>
     (<[(tick, kl) := (mkNode kl tick d (Some (tkey a)) (Some k) p
          (NInternal (tsum (TNode kl a b)) (tmin (TNode kl a b)) (tmax (TNode kl a b)) (theight (TNode kl a b))))]>
     (<[(tick, tkey b) := node_of tick d (Some k) b]> m))))) tr (put_root tick d p kl tr) c p k kl self
     eq_refl eq_refl eq_refl Hpar _ (mret N2)) as HP.
  etransitivity; [exact HP|]. reflexivity.
Qed.

Lemma rotate_left_exec tick d s m tr c p k kr l a b x1 x2 x3 x4 :
  node_ok tick d m p k l (TNode kr a b) ->
  let self := mkNode k tick d (Some (tkey l)) (Some kr) p (NInternal x1 x2 x3 x4) in
  let N2 := node_of tick d (Some kr) (TNode k l a) in
  let N1 := node_of tick d p (TNode kr (TNode k l a) b) in
  exists S1 S2,
  rotate_left self (upd s m tr c) =
  (upd s (put_parent tick p k kr m
           (<[(tick, kr) := N1]> (<[(tick, k) := N2]> (<[(tick, k) := S2]> (<[(tick, kr) := S1]>
             (<[(tick, tkey a) := node_of tick d (Some k) a]> m))))))
         (put_root tick d p kr tr) c, Ok N2).
Proof.
  intros [Hl Hr Hnd Hsegs Hmax Hpar Hpf [Hhl Hhr]] self N2 N1.
  destruct Hr as (Hrrec & Hra & Hrb). cbn [tkey] in Hrrec.
  pose proof (repr_lookup _ _ _ _ _ Hra) as Hra0.
  pose proof (repr_lookup _ _ _ _ _ Hrb) as Hrb0.
  pose proof (repr_lookup _ _ _ _ _ Hl) as Hl0.
  cbn [leaves] in Hsegs. rewrite app_assoc in Hsegs.
  assert (Hs1 : segs_ok (leaves (TNode k l a))).
  { apply segs_ok_app in Hsegs as (H & _ & _). exact H. }
  assert (Hs2 : segs_ok (leaves (TNode kr (TNode k l a) b))) by exact Hsegs.
  assert (Hmaxa : tmax a <= U256_MAX).
  { pose proof (tmax_tmin _ _ _ Hs2). apply segs_node in Hs2 as [_ Hb].
    pose proof (tmin_lt_tmax _ Hb). cbn [tmax] in *. lia. }
  cbn [theight] in Hhr. pose proof (theight_pos a). pose proof (theight_pos b). pose proof (theight_pos l).
  pose proof U64_val as HU.
  pose proof (tkey_in a) as Ha. pose proof (tkey_in b) as Hb. pose proof (tkey_in l) as Hkl.
  assert (Hk_kr : kr <> k).
  { cbn in Hnd. intros ->. apply NoDup_cons in Hnd as [Hx _]. apply Hx. set_solver. }
  assert (Hka : tkey a <> k /\ tkey a <> kr /\ tkey a <> tkey b).
  { cbn in Hnd. apply NoDup_cons in Hnd as [Hx Hnd]. apply NoDup_app in Hnd as (_ & _ & Hnd).
    apply NoDup_cons in Hnd as [Hy Hnd]. apply NoDup_app in Hnd as (_ & Hab & _).
    repeat split.
    - intros E. apply Hx. rewrite <- E. set_solver.
    - intros E. apply Hy. rewrite <- E. set_solver.
    - intros E. apply (Hab _ Ha). rewrite E. set_solver. }
  assert (Hkb : tkey b <> k /\ tkey b <> kr).
  { cbn in Hnd. apply NoDup_cons in Hnd as [Hx Hnd]. apply NoDup_app in Hnd as (_ & _ & Hnd).
    apply NoDup_cons in Hnd as [Hy Hnd].
    split.
    - intros E. apply Hx. rewrite <- E. set_solver.
    - intros E. apply Hy. rewrite <- E. set_solver. }
  assert (Hkll : tkey l <> k /\ tkey l <> kr /\ tkey l <> tkey a).
  { cbn in Hnd. apply NoDup_cons in Hnd as [Hx Hnd]. apply NoDup_app in Hnd as (_ & Hlr & Hnd).
    repeat split.
    - intros E. apply Hx. rewrite <- E. set_solver.
    - intros E. apply (Hlr _ Hkl). rewrite E. constructor.
    - intros E. apply (Hlr _ Hkl). rewrite E. set_solver. }
  destruct Hka as (? & ? & ?), Hkb as (? & ?), Hkll as (? & ? & ?).
  eexists _, _. unfold rotate_left.
  rewrite bind_read. cbv zeta. rewrite bind_read.
  change (get_right (upd s m tr c) self) with (m !! (tick, kr)). rewrite Hrrec.
  cbn [ok_or]. rewrite bind_lift_ok. cbv zeta.
  rewrite node_of_set_parent. cbn [node_of n_key n_tick n_set_parent n_set_right n_parent n_left n_right self].
  rewrite bind_read.
  match goal with |- context [get_right (upd s m tr c) ?n] =>
    change (get_right (upd s m tr c) n) with (m !! (tick, tkey a)) end.
  rewrite Hra0. rewrite node_of_set_parent.
  erewrite bind_ok by apply save_upd. rewrite node_of_tick, node_of_key.
  cbn [n_set_left n_set_parent n_set_right n_key n_tick n_dir n_left n_right n_parent n_type].
  erewrite bind_ok by apply save_upd. erewrite bind_ok by apply save_upd.
  cbn [n_key n_tick n_dir n_left n_right n_parent n_type].
  match goal with |- mbindM ?f _ (upd s ?mm tr c) = _ =>
    assert (Htr : f (upd s mm tr c) = (upd s mm (put_root tick d p kr tr) c, Ok tt))
      by (destruct p; reflexivity)
  end.
  erewrite bind_ok by exact Htr. clear Htr.
  erewrite bind_ok.
  2:{ refine (sync_spec tick d s _ _ c k l a (Some kr) x1 x2 x3 x4 (Some k) (Some k) _ _ Hs1 Hmaxa _).
      - lk. exact Hl0.
      - lk. reflexivity.
      - cbn [theight]. lia. }
  erewrite bind_ok.
  2:{ refine (sync_spec tick d s _ _ c kr (TNode k l a) b p _ _ _ _ (Some kr) (Some kr) _ _ Hs2 Hmax _).
      - apply lookup_insert.
      - lk. exact Hrb0.
      - cbn [theight]. lia. }
  rewrite node_of_key. cbn [tkey].
  pose proof (save_parent tick s m
    (<[(tick, kr):=node_of tick d p (TNode kr (TNode k l a) b)]>
     (<[(tick, k):=node_of tick d (Some kr) (TNode k l a)]>
     (<[(tick, k) := (mkNode k tick d (Some (tkey l)) (Some (tkey a)) (Some kr) (NInternal x1 x2 x3 x4))]>
     (<[(tick, kr) := (mkNode kr tick d (Some k) (Some (tkey b)) p
          (NInternal (tsum (TNode kr a b)) (tmin (TNode kr a b)) (tmax (TNode kr a b)) (theight (TNode kr a b))))]>
     (<[(tick, tkey a) := node_of tick d (Some k) a]> m))))) tr (put_root tick d p kr tr) c p k kr self
     eq_refl eq_refl eq_refl Hpar _ (mret N2)) as HP.
  etransitivity; [exact HP|]. reflexivity.
Qed.

(** Nothing outside the keys [K] of this tick changes, except the parent's pointer [k]->[k']. *)
Definition frame (tick : Z) (K : list Z) (p : option Z) (k k' : Z) (m m' : gmap (Z * Z) tnode) : Prop :=
  forall key, (forall q, q ∈ K -> key <> (tick, q)) -> m' !! key = put_parent tick p k k' m m !! key.

Lemma put_parent_ext tick p k k' m0 m m' key :
  m !! key = m' !! key -> put_parent tick p k k' m0 m !! key = put_parent tick p k k' m0 m' !! key.
Proof.
  intros H. destruct p as [pk|]; cbn; [|exact H]. destruct (m0 !! (tick, pk)); [|exact H].
  destruct (decide (key = (tick, pk))) as [->|Hne]; [rewrite !lookup_insert; reflexivity|].
  rewrite !lookup_insert_ne by congruence. exact H.
Qed.

Lemma rotate_right_spec tick d s m tr c p k kl a b r x1 x2 x3 x4 :
  node_ok tick d m p k (TNode kl a b) r ->
  let t' := TNode kl a (TNode k b r) in
  exists m',
  rotate_right (mkNode k tick d (Some kl) (Some (tkey r)) p (NInternal x1 x2 x3 x4)) (upd s m tr c) =
    (upd s m' (put_root tick d p kl tr) c, Ok (node_of tick d (Some kl) (TNode k b r))) /\
  repr tick d m' p t' /\ frame tick (keys t') p k kl m m'.
Proof.
  intros Hok t'. pose proof (rotate_right_exec tick d s m tr c p k kl a b r x1 x2 x3 x4 Hok) as (S1 & S2 & E).
  eexists. split; [exact E|].
  destruct Hok as [Hl Hr Hnd Hsegs Hmax Hpar Hpf [Hhl Hhr]]. clear E.
  destruct Hl as (Hlrec & Hla & Hlb).
  assert (HK : forall q, q ∈ keys t' -> q ∈ k :: keys (TNode kl a b) ++ keys r) by (cbn; set_solver).
  assert (Hput : forall q m1, q ∈ keys t' -> put_parent tick p k kl m m1 !! (tick, q) = m1 !! (tick, q)).
  { intros q m1 Hq. apply put_parent_lookup_ne. intros pk Hpk [= ->]. eapply Hpf; eauto. }
  cbn [keys] in Hnd. rewrite <- app_comm_cons in Hnd.
  apply NoDup_cons in Hnd as [Hk Hnd]. apply NoDup_cons in Hnd as [Hkl Hnd].
  apply NoDup_app in Hnd as (Hnd & Hlr & Hndr). apply NoDup_app in Hnd as (Hnda & Hab & Hndb).
  pose proof (tkey_in b) as Hb.
  assert (k <> kl) by (intros ->; apply Hk; constructor).
  split; [|].
  - cbn [repr t' tkey]. rewrite !Hput by (cbn; set_solver).
    split; [apply lookup_insert|]. split.
    + eapply repr_frame; [|exact Hla]. intros q Hq. rewrite Hput by (cbn; set_solver).
      rewrite !lookup_insert_ne; [reflexivity| | | | |]; neq_solve.
    + split; [|split].
      * rewrite lookup_insert_ne by (intros [= ->]; congruence). apply lookup_insert.
      * eapply repr_frame; [|exact (repr_reparent _ _ _ _ (Some k) _ Hndb Hlb)].
        intros q Hq. rewrite Hput by (cbn; set_solver).
        do 4 rewrite lookup_insert_ne by neq_solve. reflexivity.
      * eapply repr_frame; [|exact Hr]. intros q Hq. rewrite Hput by (cbn; set_solver).
        rewrite !lookup_insert_ne; [reflexivity| | | | |]; neq_solve.
  - intros key Hkey. apply put_parent_ext.
    rewrite !lookup_insert_ne; [reflexivity| | | | |]; intros <-; eapply Hkey; eauto; cbn; set_solver.
Qed.

Lemma rotate_left_spec tick d s m tr c p k kr l a b x1 x2 x3 x4 :
  node_ok tick d m p k l (TNode kr a b) ->
  let t' := TNode kr (TNode k l a) b in
  exists m',
  rotate_left (mkNode k tick d (Some (tkey l)) (Some kr) p (NInternal x1 x2 x3 x4)) (upd s m tr c) =
    (upd s m' (put_root tick d p kr tr) c, Ok (node_of tick d (Some kr) (TNode k l a))) /\
  repr tick d m' p t' /\ frame tick (keys t') p k kr m m'.
Proof.
  intros Hok t'. pose proof (rotate_left_exec tick d s m tr c p k kr l a b x1 x2 x3 x4 Hok) as (S1 & S2 & E).
  eexists. split; [exact E|].
  destruct Hok as [Hl Hr Hnd Hsegs Hmax Hpar Hpf [Hhl Hhr]]. clear E.
  destruct Hr as (Hrrec & Hra & Hrb).
  assert (HK : forall q, q ∈ keys t' -> q ∈ k :: keys l ++ keys (TNode kr a b)) by (cbn; set_solver).
  assert (Hput : forall q m1, q ∈ keys t' -> put_parent tick p k kr m m1 !! (tick, q) = m1 !! (tick, q)).
  { intros q m1 Hq. apply put_parent_lookup_ne. intros pk Hpk [= ->]. eapply Hpf; eauto. }
  apply NoDup_cons in Hnd as [Hk Hnd]. apply NoDup_app in Hnd as (Hndl & Hlr & Hnd).
  cbn [keys] in Hnd, Hlr, Hk. apply NoDup_cons in Hnd as [Hkr Hnd]. apply NoDup_app in Hnd as (Hnda & Hab & Hndb).
  pose proof (tkey_in a) as Ha.
  assert (k <> kr) by (intros ->; apply Hk; set_solver).
  split; [|].
  - cbn [repr t' tkey]. rewrite !Hput by (cbn; set_solver).
    split; [apply lookup_insert|]. split.
    + split; [|split].
      * rewrite lookup_insert_ne by (intros [= ->]; congruence). apply lookup_insert.
      * eapply repr_frame; [|exact Hl]. intros q Hq. rewrite Hput by (cbn; set_solver).
        rewrite !lookup_insert_ne; [reflexivity| | | | |]; neq_solve.
      * eapply repr_frame; [|exact (repr_reparent _ _ _ _ (Some k) _ Hnda Hra)].
        intros q Hq. rewrite Hput by (cbn; set_solver).
        do 4 rewrite lookup_insert_ne by neq_solve. reflexivity.
    + eapply repr_frame; [|exact Hrb]. intros q Hq. rewrite Hput by (cbn; set_solver).
      rewrite !lookup_insert_ne; [reflexivity| | | | |]; neq_solve.
  - intros key Hkey. apply put_parent_ext.
    rewrite !lookup_insert_ne; [reflexivity| | | | |]; intros <-; eapply Hkey; eauto; cbn; set_solver.
Qed.
