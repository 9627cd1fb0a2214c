(** * Inv: the invariant relating the contract storage to the ghost queues. *)
From Verif Require Import Base Dec Types State TickMath Sumtree Tick Order SpecMath TickMathProofs
  TreeDefs Exec SumtreeProofs SumtreeRebalance SumtreeInsert PrefixSum SumtreeRoot SumtreeFail Ghost.

(** ** Scaling whole units to atomics *)
Definition scale (L : list (Z * Z)) : list (Z * Z) := map (fun p => (p.1 * DEC, p.2 * DEC)) L.

Lemma scale_app L1 L2 : scale (L1 ++ L2) = scale L1 ++ scale L2.
Proof. apply map_app. Qed.
Lemma scale_in L p : p ∈ scale L -> exists q, q ∈ L /\ p = (q.1 * DEC, q.2 * DEC).
Proof. unfold scale. intros H. apply elem_of_list_fmap in H as (q & -> & Hq). eauto. Qed.
Lemma scale_lsum L : lsum (scale L) = lsum L * DEC.
Proof. induction L as [|[e v] L IH]; cbn [scale map lsum fst snd]; [reflexivity|]. fold (scale L). rewrite IH. lia. Qed.
Lemma scale_segs L : segs_ok L -> segs_ok (scale L).
Proof.
  induction L as [|[e v] L IH]; [auto|]. intros H.
  change ((e, v) :: L) with ([(e, v)] ++ L) in H. apply segs_ok_app in H as (H1 & H2 & H3).
  change (scale ((e, v) :: L)) with ([(e * DEC, v * DEC)] ++ scale L).
  pose proof DEC_pos. destruct (segs_ok_pos _ (e, v) H1 ltac:(constructor)) as [He Hv]; cbn [fst snd] in He, Hv.
  apply segs_ok_app. split; [apply segs_ok_singleton; nia|]. split; [auto|].
  intros a b Ha Hb. apply elem_of_list_singleton in Ha as ->. apply scale_in in Hb as (q & Hq & ->).
  specialize (H3 (e, v) q ltac:(constructor) Hq). unfold seg_before in *. cbn in *. nia.
Qed.
Lemma leb_scale a b : (a * DEC <=? b * DEC) = (a <=? b).
Proof. pose proof DEC_pos. destruct (Z.leb_spec (a * DEC) (b * DEC)), (Z.leb_spec a b); try reflexivity; nia. Qed.
Lemma ltb_scale a b : (a * DEC <? b * DEC) = (a <? b).
Proof. pose proof DEC_pos. destruct (Z.ltb_spec (a * DEC) (b * DEC)), (Z.ltb_spec a b); try reflexivity; nia. Qed.
Lemma eqb_scale a b : (a * DEC =? b * DEC) = (a =? b).
Proof. pose proof DEC_pos. destruct (Z.eqb_spec (a * DEC) (b * DEC)), (Z.eqb_spec a b); try reflexivity; nia. Qed.
Lemma eqb_scale0 a : (a * DEC =? 0) = (a =? 0).
Proof. apply (eqb_scale a 0). Qed.
Lemma scale_real F S L : real (F * DEC) (S * DEC) (scale L) = real F S L * DEC.
Proof.
  revert S. induction L as [|[e v] L IH]; intros S; cbn [scale map real fst snd]; [reflexivity|]. fold (scale L).
  rewrite <- Z.mul_add_distr_r, leb_scale. destruct (e <=? F + S); [|reflexivity].
  rewrite <- Z.mul_add_distr_r. apply IH.
Qed.
Lemma scale_okprev F prev A L : okprev F prev A L -> okprev (F * DEC) (prev * DEC) (A * DEC) (scale L).
Proof.
  revert A. induction L as [|[e v] L IH]; intros A; cbn [scale map okprev fst snd]; [auto|]. fold (scale L).
  intros [H1 H2]. split; [|rewrite <- Z.mul_add_distr_r; auto]. pose proof DEC_pos.
  intros Hlt. assert (A < prev) by nia. specialize (H1 ltac:(assumption)). nia.
Qed.
Lemma floor_scale a : to_uint_floor (a * DEC) = a.
Proof. unfold to_uint_floor. apply Z.div_mul. discriminate. Qed.

(** ** Sums over the ticks *)
Definition msum {A} (f : Z -> A -> Z) (m : gmap Z A) : Z := map_fold (fun k v acc => f k v + acc) 0 m.
Lemma msum_empty {A} (f : Z -> A -> Z) : msum f ∅ = 0.
Proof. apply map_fold_empty. Qed.
Lemma msum_insert_new {A} (f : Z -> A -> Z) m k v : m !! k = None -> msum f (<[k := v]> m) = f k v + msum f m.
Proof. intros H. unfold msum. rewrite map_fold_insert_L; [reflexivity|intros; lia|exact H]. Qed.
Lemma msum_delete {A} (f : Z -> A -> Z) m k v : m !! k = Some v -> msum f m = f k v + msum f (delete k m).
Proof.
  intros H. rewrite <- (insert_delete m k v H) at 1. apply msum_insert_new. apply lookup_delete.
Qed.
Lemma msum_insert {A} (f : Z -> A -> Z) m k v v0 :
  m !! k = Some v0 -> msum f (<[k := v]> m) = msum f m - f k v0 + f k v.
Proof.
  intros H. rewrite (msum_delete f m k v0 H). rewrite <- insert_delete_insert.
  rewrite msum_insert_new by apply lookup_delete. lia.
Qed.
Lemma msum_ext {A} (f g : Z -> A -> Z) m :
  (forall k v, m !! k = Some v -> f k v = g k v) -> msum f m = msum g m.
Proof.
  induction m as [|k v m Hk IH] using map_ind; intros H; [rewrite !msum_empty; reflexivity|].
  rewrite !msum_insert_new by assumption. rewrite (H k v) by apply lookup_insert.
  rewrite IH; [reflexivity|]. intros k' v' E. apply H. rewrite lookup_insert_ne; [assumption|congruence].
Qed.
Lemma msum_le {A} (f g : Z -> A -> Z) m :
  (forall k v, m !! k = Some v -> f k v <= g k v) -> msum f m <= msum g m.
Proof.
  induction m as [|k v m Hk IH] using map_ind; intros H; [rewrite !msum_empty; lia|].
  rewrite !msum_insert_new by assumption. specialize (H k v ltac:(apply lookup_insert)) as Hkv.
  assert (msum f m <= msum g m); [|lia]. apply IH. intros k' v' E. apply H. rewrite lookup_insert_ne; [assumption|congruence].
Qed.
Lemma msum_nonneg {A} (f : Z -> A -> Z) m : (forall k v, m !! k = Some v -> 0 <= f k v) -> 0 <= msum f m.
Proof.
  intros H. transitivity (msum (fun (_ : Z) (_ : A) => 0) m); [|apply msum_le; assumption].
  clear H. induction m as [|k v m Hk IH] using map_ind; [rewrite msum_empty; lia|].
  rewrite msum_insert_new by assumption. lia.
Qed.
Lemma msum_elem {A} (f : Z -> A -> Z) m k v :
  (forall k v, m !! k = Some v -> 0 <= f k v) -> m !! k = Some v -> f k v <= msum f m.
Proof.
  intros H E. rewrite (msum_delete f m k v E).
  assert (0 <= msum f (delete k m)); [|lia]. apply msum_nonneg. intros k' v' E'.
  apply lookup_delete_Some in E' as [_ E']. auto.
Qed.
Lemma msum_scale {A} (f : Z -> A -> Z) (c : Z) m : msum (fun k v => f k v * c) m = msum f m * c.
Proof.
  induction m as [|k v m Hk IH] using map_ind; [rewrite !msum_empty; reflexivity|].
  rewrite !msum_insert_new by assumption. rewrite IH. lia.
Qed.
Lemma msum_add {A} (f g : Z -> A -> Z) m : msum (fun k v => f k v + g k v) m = msum f m + msum g m.
Proof.
  induction m as [|k v m Hk IH] using map_ind; [rewrite !msum_empty; reflexivity|].
  rewrite !msum_insert_new by assumption. rewrite IH. lia.
Qed.

(** ** Ghost queues of all ticks *)
Definition ghost : Type := Z -> dir -> side.
Definition G0 : ghost := fun _ _ => side0.
Definition gset (G : ghost) (t : Z) (d : dir) (g : side) : ghost :=
  fun t' d' => if decide (t' = t /\ d' = d) then g else G t' d'.
Lemma gset_eq G t d g : gset G t d g t d = g.
Proof. unfold gset. rewrite decide_True by auto. reflexivity. Qed.
Lemma gset_ne G t d g t' d' : t' <> t \/ d' <> d -> gset G t d g t' d' = G t' d'.
Proof. intros H. unfold gset. rewrite decide_False by tauto. reflexivity. Qed.
Lemma gset_ind (P : side -> Prop) G t d g t' d' :
  P g -> (t' <> t \/ d' <> d -> P (G t' d')) -> P (gset G t d g t' d').
Proof. intros H1 H2. unfold gset. destruct (decide _) as [|Hn]; [exact H1|]. apply H2.
  destruct (decide (t' = t)); [right|left]; tauto. Qed.

(** The tick values of a side. *)
Definition tv_of (g : side) : tick_values :=
  mkTV (g_open g * DEC) ((nfs (g_items g) + cns (g_items g)) * DEC) ((g_F g + g_crc g) * DEC)
       (g_crc g * DEC) (g_last g * DEC).
Lemma tv_of0 : tv_of side0 = tv_default.
Proof. reflexivity. Qed.
Definition ts_of (G : ghost) (t : Z) : tick_state := mkTS (tv_of (G t Ask)) (tv_of (G t Bid)).
Lemma get_ts_of G t d : get_values (ts_of G t) d = tv_of (G t d).
Proof. destruct d; reflexivity. Qed.
Lemma set_ts_of G t d g : set_values (ts_of G t) d (tv_of g) = ts_of (gset G t d g) t.
Proof.
  unfold ts_of. destruct d; cbn [set_values ts_ask ts_bid]; f_equal; rewrite ?gset_eq; try reflexivity;
    rewrite gset_ne by (right; discriminate); reflexivity.
Qed.
Lemma ts_of_ne G t d g t' : t' <> t -> ts_of (gset G t d g) t' = ts_of G t'.
Proof. intros H. unfold ts_of. rewrite !gset_ne by auto. reflexivity. Qed.
Lemma set_get ts d d' v : d' <> d -> get_values (set_values ts d v) d' = get_values ts d'.
Proof. destruct d, d'; try reflexivity; congruence. Qed.
Lemma set_get_eq ts d v : get_values (set_values ts d v) d = v.
Proof. destruct d; reflexivity. Qed.
Lemma set_set_get ts d : set_values ts d (get_values ts d) = ts.
Proof. destruct ts, d; reflexivity. Qed.

Definition nctr (s : storage) (t : Z) : Z := unwrap_or (s_nodectr s !! t) 0.
Definition next_id (s : storage) : Z := unwrap_or (s_order_id s) 0.
Definition canl (G : ghost) (t : Z) (d : dir) : list (Z * Z) := scale (g_cans (G t d)).

(** What holds of one order record [o] stored under [k]. *)
Record order_ok (s : storage) (G : ghost) (k : Z * Z) (o : limit_order) : Prop := {
  oo_tick : o_tick o = k.1;
  oo_id : o_id o = k.2;
  oo_next : 0 <= k.2 < next_id s;
  oo_live : exists n c, (k.2, (n, c, o_quantity o)) ∈ g_lives (G k.1 (o_dir o)) /\ o_etas o = (n + c) * DEC;
  oo_qty : 0 < o_quantity o <= o_placed_quantity o;
  oo_max : o_placed_quantity o <= U128_MAX;
  oo_bounty : bounty_ok (o_bounty o) = true
}.

Definition liq (d : dir) (_ : Z) (ts : tick_state) : Z := tv_tal (get_values ts d).

Record book_ok (s : storage) (ob : orderbook) : Prop := {
  bo_denoms : ob_quote ob <> ob_base ob;
  bo_bid : valid_tick (ob_next_bid ob);
  bo_ask : valid_tick (ob_next_ask ob);
  bo_bids : forall t ts, s_ticks s !! t = Some ts -> 0 < tv_tal (get_values ts Bid) -> t <= ob_next_bid ob;
  bo_asks : forall t ts, s_ticks s !! t = Some ts -> 0 < tv_tal (get_values ts Ask) -> ob_next_ask ob <= t
}.

Record inv (s : storage) (G : ghost) : Prop := {
  i_some : forall t ts, s_ticks s !! t = Some ts -> valid_tick t /\ ts = ts_of G t;
  i_none : forall t d, s_ticks s !! t = None -> G t d = side0;
  i_side : forall t d, side_ok (G t d);
  i_store : forall t, store_ok t (s_nodes s) (s_tree s) (nctr s t) (canl G t);
  i_ctr : forall t, nctr s t <= U64_MAX;
  i_order : forall k o, s_orders s !! k = Some o -> order_ok s G k o;
  i_live : forall t d id n c q, (id, (n, c, q)) ∈ g_lives (G t d) ->
             exists o, s_orders s !! (t, id) = Some o /\ o_dir o = d /\ o_quantity o = q /\ o_etas o = (n + c) * DEC;
  i_ids : forall t t' id o o', s_orders s !! (t, id) = Some o -> s_orders s !! (t', id) = Some o' -> t = t';
  i_next : 0 <= next_id s <= U64_MAX;
  i_liq : forall d, get_directional_liquidity s d = msum (liq d) (s_ticks s);
  i_book : exists ob, s_orderbook s = Some ob /\ book_ok s ob;
  i_fee : exists f, s_fee s = Some f /\ 0 <= f <= MAX_MAKER_FEE_PERCENTAGE;
  i_rcp : exists r, s_recipient s = Some r;
  i_dom : forall t, s_ticks s !! t = None -> s_nodectr s !! t = None /\ forall d, s_tree s !! (t, d) = None;
  i_liqmax : forall d, get_directional_liquidity s d <= U256_MAX
}.

Lemma g_open_nonneg g : side_ok g -> 0 <= g_open g.
Proof. intros H. pose proof (so_F _ H). unfold g_open. lia. Qed.

(** A side's cancelled ranges fit. *)
Lemma canl_segs G t d : side_ok (G t d) -> segs_ok (canl G t d).
Proof.
  intros H. apply scale_segs. apply cans_segs; [lia|lia|].
  eapply all_at_impl; [apply item_ok_pos|apply (so_items _ H)].
Qed.
Lemma canl_ends G t d p : side_ok (G t d) -> p ∈ canl G t d -> p.1 + p.2 <= U256_MAX.
Proof.
  intros H Hp. apply scale_in in Hp as (q & Hq & ->).
  apply cans_bounds in Hq; [|eapply all_at_impl; [apply item_ok_pos|apply (so_items _ H)]].
  pose proof (so_max _ H). pose proof DEC_pos. cbn. nia.
Qed.

(** ** Synchronisation *)
Lemma sync_dir_spec tick d s tr c ctr G :
  side_ok (G tick d) -> store_ok tick (s_nodes s) tr ctr (canl G tick) ->
  unwrap_or (c !! tick) 0 = ctr -> ctr <= U64_MAX ->
  (exists tr' c', sync_tick_dir tick d (tv_of (G tick d)) (tv_etas (tv_of (G tick d))) (upd s (s_nodes s) tr c)
      = (upd s (s_nodes s) tr' c', Ok (tv_of (g_sync (G tick d)))) /\
     store_ok tick (s_nodes s) tr' (unwrap_or (c' !! tick) 0) (canl G tick) /\
     ctr <= unwrap_or (c' !! tick) 0 <= ctr + 1 /\ unwrap_or (c' !! tick) 0 <= U64_MAX /\
     (forall td, td <> (tick, d) -> tr' !! td = tr !! td) /\
     (forall t', t' <> tick -> c' !! t' = c !! t')) \/
  (U64_MAX < ctr + 1 /\ exists s',
     sync_tick_dir tick d (tv_of (G tick d)) (tv_etas (tv_of (G tick d))) (upd s (s_nodes s) tr c) = (s', Panic)).
Proof.
  intros Hside Hstore Hc HU. set (g := G tick d) in *. pose proof DEC_pos as HD.
  pose proof (so_F _ Hside). pose proof (so_crc _ Hside). pose proof (so_last _ Hside). pose proof (so_max _ Hside).
  unfold sync_tick_dir, g_sync. cbn [tv_of tv_last tv_etas]. rewrite eqb_scale.
  destruct (Z.eqb_spec (g_last g) (g_F g + g_crc g)) as [E|Hne].
  { left. exists tr, c. split; [reflexivity|]. subst ctr. split; [exact Hstore|]. repeat split; auto; lia. }
  assert (HL : lsum (canl G tick d) = cns (g_items g) * DEC).
  { unfold canl. rewrite scale_lsum. unfold g_cans. rewrite lsum_cans. reflexivity. }
  destruct (decide (canl G tick d = [] /\ U64_MAX < ctr + 1)) as [[HL0 Hlt]|Hroom].
  { right. split; [exact Hlt|]. eexists. unfold mbindM at 1.
    rewrite (get_or_init_panic tick d s (s_nodes s) tr c ctr (canl G tick) Hstore Hc HL0 Hlt). reflexivity. }
  left.
  destruct (root_prefix tick d s (s_nodes s) tr c ctr (canl G tick) (g_F g * DEC) (g_crc g * DEC))
    as (root & tr0 & c0 & ctr0 & E1 & E2 & Hs0 & Hc0 & Hle & HU0 & Hf1 & Hf2); auto.
  { apply canl_segs. exact Hside. }
  { intros HL0. destruct (Z.le_gt_cases (ctr + 1) U64_MAX); [assumption|]. exfalso. apply Hroom. split; [assumption|lia]. }
  { nia. } { rewrite HL. nia. }
  { apply (scale_okprev _ _ 0). apply (okprev_cans _ _ _ _ _ (g_last g)). apply (so_items _ Hside). }
  { rewrite HL. nia. }
  { intros q Hq. eapply canl_ends; eauto. }
  exists tr0, c0. subst ctr0. split; [|auto 10].
  rewrite (bind_ok _ _ _ _ _ E1). rewrite Z.mul_add_distr_r.
  rewrite (bind_readr (fun s0 => get_prefix_sum s0 root (g_F g * DEC + g_crc g * DEC) (tv_crc (tv_of (G tick d)))) _ _ _ E2).
  assert (ER : real (g_F g * DEC) 0 (canl G tick d) = realc (g_F g) 0 0 (g_items g) * DEC).
  { unfold canl. rewrite <- (Z.mul_0_l DEC) at 1. rewrite scale_real. unfold g_cans. fold g. rewrite real_realc. reflexivity. }
  rewrite ER.
  pose proof (all_at_impl _ _ _ _ _ (item_ok_pos _ _ _) (so_items _ Hside)) as Hpos.
  pose proof (realc_bounds (g_F g) 0 0 _ Hpos) as Hb. fold g in Hb.
  pose proof (realc_ge _ _ _ _ _ _ (so_items _ Hside) ltac:(lia)) as Hge.
  set (R := realc (g_F g) 0 0 (g_items g)) in *.
  unfold checked_sub. cbn [tv_of tv_crc tv_tal tv_ctt tv_etas]. rewrite leb_scale. destruct (Z.leb_spec (g_crc g) R); [|lia].
  rewrite bind_lift_ok. unfold checked_add256.
  destruct (Z.leb_spec ((g_F g * DEC + g_crc g * DEC) + (R * DEC - g_crc g * DEC)) U256_MAX); [|nia].
  rewrite bind_lift_ok. cbn [tv_etas tv_ctt].
  rewrite bind_ensure.
  2:{ apply Z.leb_le. nia. }
  cbv [mret]. do 2 f_equal. unfold tv_of, g_open. cbn [g_items g_F g_crc g_last]. f_equal; lia.
Qed.

Lemma store_frame t m m' tr tr' ctr L :
  store_ok t m tr ctr L -> (forall q, m' !! (t, q) = m !! (t, q)) -> (forall d, tr' !! (t, d) = tr !! (t, d)) ->
  store_ok t m' tr' ctr L.
Proof.
  intros [H1 H2 H3 H4 H5] Hm Ht. split; [| | |exact H4|].
  - intros d. destruct (H1 d) as [K HK]. exists K. eapply tree_rep_frame; [exact HK| | |].
    + intros q _. apply Hm.
    + intros id _ E. rewrite Hm. exact E.
    + apply Ht.
  - intros q n. rewrite Hm. apply H2.
  - intros d id. rewrite Ht. apply H3.
  - intros q n. rewrite Hm. intros E. destruct (H5 q n E) as (d & K & HK & Hq). exists d, K. split; [|exact Hq]. eapply tree_rep_frame; [exact HK| | |].
    + intros q' _. apply Hm.
    + intros id _ E'. rewrite Hm. exact E'.
    + apply Ht.
Qed.

Definition gsync (G : ghost) (t : Z) : ghost :=
  gset (gset G t Bid (g_sync (G t Bid))) t Ask (g_sync (G t Ask)).
Lemma gsync_eq G t d : gsync G t t d = g_sync (G t d).
Proof.
  unfold gsync. destruct d; [|apply gset_eq]. rewrite gset_ne by (right; discriminate). apply gset_eq.
Qed.
Lemma gsync_ne G t t' d : t' <> t -> gsync G t t' d = G t' d.
Proof. intros H. unfold gsync. rewrite !gset_ne by auto. reflexivity. Qed.
Lemma gsync_ind (P : side -> side -> Prop) G t t' d :
  (P (g_sync (G t d)) (G t d)) -> (t' <> t -> P (G t' d) (G t' d)) -> P (gsync G t t' d) (G t' d).
Proof.
  intros H1 H2. destruct (decide (t' = t)) as [->|Hne]; [rewrite gsync_eq; exact H1|].
  rewrite gsync_ne by assumption. auto.
Qed.
Lemma gsync_items G t t' d : g_items (gsync G t t' d) = g_items (G t' d).
Proof. apply (gsync_ind (fun a b => g_items a = g_items b)); [apply sync_items|reflexivity]. Qed.
Lemma gsync_F G t t' d : g_F (gsync G t t' d) = g_F (G t' d).
Proof. apply (gsync_ind (fun a b => g_F a = g_F b)); [apply sync_F|reflexivity]. Qed.
Lemma gsync_lives G t t' d : g_lives (gsync G t t' d) = g_lives (G t' d).
Proof. unfold g_lives. rewrite gsync_items. reflexivity. Qed.
Lemma gsync_cans G t t' d : g_cans (gsync G t t' d) = g_cans (G t' d).
Proof. unfold g_cans. rewrite gsync_items. reflexivity. Qed.
Lemma gsync_open G t t' d : g_open (gsync G t t' d) = g_open (G t' d).
Proof. unfold g_open. rewrite gsync_items, gsync_F. reflexivity. Qed.
Lemma gsync_side G t t' d : side_ok (G t' d) -> side_ok (gsync G t t' d).
Proof. apply (gsync_ind (fun a b => side_ok b -> side_ok a)); [intros; apply sync_ok; assumption|auto]. Qed.
Lemma gsync_canl G t t' d : canl (gsync G t) t' d = canl G t' d.
Proof. unfold canl. rewrite gsync_cans. reflexivity. Qed.

(** Storage after synchronising tick [t]. *)
Definition sync_st (s : storage) (G : ghost) (t : Z) (tr' : gmap (Z * dir) Z) (c' : gmap Z Z) : storage :=
  set_ticks (<[t := ts_of (gsync G t) t]> (s_ticks s)) (upd s (s_nodes s) tr' c').

Lemma inv_tick_some s G t ts : inv s G -> s_ticks s !! t = Some ts -> ts = ts_of G t.
Proof. intros H E. apply (i_some _ _ H) in E. tauto. Qed.

Lemma sync_inv s G t tr' c' :
  inv s G -> s_ticks s !! t <> None ->
  store_ok t (s_nodes s) tr' (unwrap_or (c' !! t) 0) (canl G t) ->
  unwrap_or (c' !! t) 0 <= U64_MAX ->
  (forall t' d, t' <> t -> tr' !! (t', d) = s_tree s !! (t', d)) ->
  (forall t', t' <> t -> c' !! t' = s_nodectr s !! t') ->
  inv (sync_st s G t tr' c') (gsync G t).
Proof.
  intros Hi Ht Hst HU Htr Hc. pose proof Hi as []. unfold sync_st.
  assert (Hts : s_ticks s !! t = Some (ts_of G t)).
  { destruct (s_ticks s !! t) as [ts|] eqn:E; [|congruence]. rewrite (inv_tick_some _ _ _ _ Hi E). reflexivity. }
  split; cbn [set_ticks upd set_nodectr set_tree set_nodes s_ticks s_nodes s_tree s_nodectr s_orders s_order_id
              s_dirliq s_orderbook s_fee s_recipient s_active]; try assumption.
  - intros t' ts E. destruct (decide (t' = t)) as [->|Hne].
    + rewrite lookup_insert in E. injection E as <-. split; [|reflexivity]. apply (i_some0 _ _ Hts).
    + rewrite lookup_insert_ne in E by congruence. destruct (i_some0 _ _ E) as [Hv ->]. split; [exact Hv|].
      unfold ts_of. rewrite !gsync_ne by assumption. reflexivity.
  - intros t' d E. destruct (decide (t' = t)) as [->|Hne]; [rewrite lookup_insert in E; discriminate|].
    rewrite lookup_insert_ne in E by congruence. rewrite gsync_ne by assumption. auto.
  - intros t' d. apply gsync_side. auto.
  - intros t'. unfold nctr. cbn [s_nodectr]. destruct (decide (t' = t)) as [->|Hne].
    + eapply store_ok_ext; [exact Hst|]. intros d. apply gsync_canl.
    + rewrite Hc by assumption. eapply store_frame; [|reflexivity|intros d; apply Htr; assumption].
      eapply store_ok_ext; [apply (i_store0 t')|]. intros d. apply gsync_canl.
  - intros t'. unfold nctr. cbn [s_nodectr]. destruct (decide (t' = t)) as [->|Hne]; [assumption|].
    rewrite Hc by assumption. apply i_ctr0.
  - intros k o E. destruct (i_order0 _ _ E) as [A1 A2 A3 A4 A5 A6 A7]. split; try assumption.
    rewrite gsync_lives. exact A4.
  - intros t' d id n c q. rewrite gsync_lives. apply i_live0.
  - intros d. rewrite (msum_insert _ _ _ _ _ Hts). unfold liq at 2 3. rewrite !get_ts_of. cbn [tv_of tv_tal].
    rewrite gsync_open. transitivity (get_directional_liquidity s d); [reflexivity|]. rewrite i_liq0. lia.
  - destruct i_book0 as (ob & E & [B1 B2 B3 B4 B5]). exists ob. split; [exact E|]. split; try assumption.
    all: cbn [set_ticks s_ticks]; intros t' ts E'; destruct (decide (t' = t)) as [->|Hne];
      [rewrite lookup_insert in E'; injection E' as <-; rewrite get_ts_of; cbn [tv_of tv_tal]; rewrite gsync_open;
       specialize (B4 _ _ Hts); specialize (B5 _ _ Hts); rewrite get_ts_of in B4, B5; assumption
      |rewrite lookup_insert_ne in E' by congruence; eauto].
  - intros t' E. destruct (decide (t' = t)) as [->|Hne]; [rewrite lookup_insert in E; discriminate|]. rewrite lookup_insert_ne in E by congruence.
    destruct (i_dom0 _ E) as [D1 D2]. rewrite Hc by assumption. split; [exact D1|]. intros d. rewrite Htr by assumption. apply D2.
Qed.

Lemma sync_spec s G t :
  inv s G -> s_ticks s !! t <> None ->
  (exists tr' c', sync_tick t (tv_etas (tv_of (G t Bid))) (tv_etas (tv_of (G t Ask))) s
                  = (sync_st s G t tr' c', Ok tt) /\
     inv (sync_st s G t tr' c') (gsync G t) /\ (forall t', nctr s t' <= unwrap_or (c' !! t') 0 <= nctr s t' + (if decide (t' = t) then 2 else 0)) /\
     (forall t' d, t' <> t -> tr' !! (t', d) = s_tree s !! (t', d)) /\ (forall t', t' <> t -> c' !! t' = s_nodectr s !! t')) \/
  (U64_MAX < nctr s t + 2 /\ exists s', sync_tick t (tv_etas (tv_of (G t Bid))) (tv_etas (tv_of (G t Ask))) s = (s', Panic)).
Proof.
  intros Hi Ht.
  assert (Hts : s_ticks s !! t = Some (ts_of G t)).
  { destruct (s_ticks s !! t) as [ts|] eqn:E; [|congruence]. rewrite (inv_tick_some _ _ _ _ Hi E). reflexivity. }
  unfold sync_tick. rewrite (bind_readr _ (ts_of G t)) by (rewrite Hts; reflexivity). rewrite !get_ts_of.
  destruct ((tv_last (tv_of (G t Bid)) =? tv_etas (tv_of (G t Bid))) && (tv_last (tv_of (G t Ask)) =? tv_etas (tv_of (G t Ask)))) eqn:Eb.
  - apply andb_prop in Eb as [Eb Ea]. apply Z.eqb_eq in Ea, Eb.
    left. exists (s_tree s), (s_nodectr s).
    assert (Es : sync_st s G t (s_tree s) (s_nodectr s) = s).
    { unfold sync_st. rewrite <- upd_id. replace (ts_of (gsync G t) t) with (ts_of G t).
      - rewrite insert_id by exact Hts. destruct s; reflexivity.
      - unfold ts_of. rewrite !gsync_eq. unfold g_sync. cbn [tv_of tv_last tv_etas] in Ea, Eb.
        apply Z.mul_reg_r in Ea; [|discriminate]. apply Z.mul_reg_r in Eb; [|discriminate].
        rewrite <- Ea, <- Eb, !Z.eqb_refl. reflexivity. }
    split; [rewrite Es; reflexivity|]. split; [|split; [|auto]].
    + apply sync_inv; auto; [apply (i_store _ _ Hi)|apply (i_ctr _ _ Hi)].
    + intros t'. unfold nctr. destruct (decide (t' = t)); lia.
  - clear Eb. pose proof (i_ctr _ _ Hi t) as HUt.
    destruct (sync_dir_spec t Bid s (s_tree s) (s_nodectr s) (nctr s t) G) as [(tr1 & c1 & E1 & S1 & C1 & U1 & F1 & F1')|(HU & s' & E1)];
      try solve [apply Hi]; try reflexivity; rewrite <- upd_id in E1.
    2:{ right. split; [lia|]. exists s'. unfold mbindM at 1. rewrite E1. reflexivity. }
    rewrite (bind_ok _ _ _ _ _ E1).
    destruct (sync_dir_spec t Ask s tr1 c1 (unwrap_or (c1 !! t) 0) G) as [(tr2 & c2 & E2 & S2 & C2 & U2 & F2 & F2')|(HU & s' & E2)];
      try solve [apply Hi]; try reflexivity; try assumption.
    2:{ right. split; [lia|]. exists s'. unfold mbindM at 1. rewrite E2. reflexivity. }
    rewrite (bind_ok _ _ _ _ _ E2).
    left. exists tr2, c2. split.
    + unfold save_tick, mmod, sync_st. f_equal. f_equal. cbn [upd set_nodectr set_tree set_nodes s_ticks]. f_equal.
      unfold ts_of. rewrite !gsync_eq. reflexivity.
    + assert (Z1 : forall t' d, t' <> t -> tr2 !! (t', d) = s_tree s !! (t', d)) by (intros t' d Hne; rewrite F2, F1 by congruence; reflexivity).
      assert (Z2 : forall t', t' <> t -> c2 !! t' = s_nodectr s !! t') by (intros t' Hne; rewrite F2', F1' by assumption; reflexivity).
      split; [|split; [|auto]].
      * apply sync_inv; auto.
      * intros t'. destruct (decide (t' = t)) as [->|Hne]; [lia|]. rewrite F2', F1' by assumption. unfold nctr. lia.
Qed.
