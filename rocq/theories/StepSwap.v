(** * StepSwap: market orders. *)
From Verif Require Import Base Dec Types State TickMath Sumtree Tick Order SpecMath TickMathProofs
  TreeDefs Exec SumtreeProofs SumtreeRebalance SumtreeInsert PrefixSum SumtreeRoot SumtreeFail Ghost Inv StepPlace StepCancel StepClaim SwapPlan.

(** ** Key lists *)
Lemma sorted_keys_elem {A} (m : gmap Z A) lo hi t :
  t ∈ sorted_keys m lo hi <-> is_Some (m !! t) /\ in_bounds lo hi t = true.
Proof.
  unfold sorted_keys. rewrite (merge_sort_Permutation Z.le). rewrite elem_of_list_filter.
  rewrite elem_of_list_fmap. split.
  - intros [Hb ((k & v) & -> & Hin)]. apply elem_of_map_to_list in Hin. cbn in *. split; [eauto|]. apply Is_true_eq_true. exact Hb.
  - intros [[v Hv] Hb]. split; [apply Is_true_eq_left; exact Hb|]. exists (t, v). split; [reflexivity|]. apply elem_of_map_to_list. exact Hv.
Qed.
Lemma sorted_keys_nodup {A} (m : gmap Z A) lo hi : NoDup (sorted_keys m lo hi).
Proof.
  unfold sorted_keys. rewrite (merge_sort_Permutation Z.le). apply NoDup_filter. apply NoDup_fst_map_to_list.
Qed.
Lemma sorted_lt l : StronglySorted Z.le l -> NoDup l -> StronglySorted Z.lt l.
Proof.
  induction 1 as [|a l Hl IH Ha]; intros Hn; constructor; apply NoDup_cons in Hn as [Hna Hn]; [auto|].
  rewrite Forall_forall in *. intros x Hx. specialize (Ha x Hx). assert (a <> x) by (intros ->; contradiction). lia.
Qed.
Lemma sorted_keys_sorted {A} (m : gmap Z A) lo hi : StronglySorted Z.lt (sorted_keys m lo hi).
Proof.
  apply sorted_lt; [|apply sorted_keys_nodup]. unfold sorted_keys. apply (StronglySorted_merge_sort Z.le).
Qed.
Lemma sorted_rev l : StronglySorted Z.lt l -> StronglySorted (fun a b => b < a) (rev l).
Proof.
  induction 1 as [|a l Hl IH Ha]; cbn; [constructor|].
  rewrite Forall_forall in Ha. assert (Hr : forall x, x ∈ rev l -> a < x) by (intros x Hx; apply Ha; apply elem_of_list_In, in_rev, elem_of_list_In; exact Hx).
  clear Ha Hl. induction (rev l) as [|b k IHk]; cbn; [repeat constructor|].
  apply StronglySorted_inv in IH as [IH Hb]. constructor.
  - apply IHk; [assumption|]. intros x Hx. apply Hr. constructor. assumption.
  - apply Forall_app. split; [assumption|]. repeat constructor. apply Hr. constructor.
Qed.

(** The ticks a market order walks over. *)
Definition swap_range (ob : orderbook) (d : dir) (bound t : Z) : Prop :=
  match d with
  | Bid => ob_next_ask ob <= t <= bound
  | Ask => bound <= t <= ob_next_bid ob
  end.
Lemma market_ticks_spec ob d bound (ticks : gmap Z tick_state) l :
  market_ticks ob d bound ticks = Ok l ->
  ordered d l /\ (forall t, t ∈ l <-> is_Some (ticks !! t) /\ swap_range ob d bound t) /\
  match d with Bid => ob_next_ask ob <= bound | Ask => bound <= ob_next_bid ob end.
Proof.
  unfold market_ticks, swap_range. destruct d; intros H; apply rbind_inv in H as (u & Hb & [= <-]); apply rensure_inv in Hb; apply Z.leb_le in Hb.
  - split; [apply sorted_keys_sorted|]. split; [|exact Hb]. intros t. rewrite sorted_keys_elem. unfold in_bounds.
    rewrite andb_true_iff, !Z.leb_le. tauto.
  - split; [apply sorted_rev, sorted_keys_sorted|]. split; [|exact Hb]. intros t.
    rewrite elem_of_list_In, <- in_rev, <- elem_of_list_In, sorted_keys_elem. unfold in_bounds. rewrite andb_true_iff, !Z.leb_le. tauto.
Qed.

(** ** One tick *)
Definition upd_of (G : ghost) (od : dir) (f : Z * Z * Z) : Z * tick_state :=
  (f_tick f, set_values (ts_of G (f_tick f)) od (tv_of (g_fill (G (f_tick f) od) (f_out f)))).
Definition opens (G : ghost) (od : dir) (t : Z) : Z := g_open (G t od).

Lemma opposite_ne d : opposite d <> d.
Proof. destruct d; discriminate. Qed.

Lemma market_tick_spec d (ticks : gmap Z tick_state) G t m :
  ticks !! t = Some (ts_of G t) -> valid_tick t -> side_ok (G t (opposite d)) -> 0 <= m_qty m <= U128_MAX ->
  let o := opens G (opposite d) t in let p := tick_price t in let w := gross d (m_qty m) p in
  let x := Z.min w o in let c := cost d x p in
  market_tick d ticks t m =
  if o =? 0 then Ok (true, m)
  else if w =? 0 then Ok (false, mkMkt 0 (m_book m) (m_out m) (m_upd m) p)
  else if U128_MAX <? x then Err EConversion
  else if c =? 0 then Err (EInvalidSwap ZeroStepInput)
  else if U256_MAX <? m_out m + x then Err EOverflow
  else Ok (true, mkMkt (m_qty m - c) (set_next_tick (m_book m) (opposite d) t) (m_out m + x)
                       (m_upd m ++ [upd_of G (opposite d) (t, x, c)]) p).
Proof.
  intros Ht Hv Hs Hq o p w x c. pose proof DEC_pos as HD. set (od := opposite d) in *.
  pose proof (g_open_nonneg _ Hs) as Ho. fold (opens G od t) in Ho. fold o in Ho.
  pose proof (so_F _ Hs) as HsF. pose proof (so_crc _ Hs) as HsC. pose proof (so_max _ Hs) as HsM.
  pose proof (tick_price_pos t Hv) as Hp. fold p in Hp.
  unfold market_tick. rewrite Ht. cbn [ok_or rbind]. fold od. rewrite get_ts_of. cbn [tv_of tv_tal tv_ctt tv_etas tv_crc tv_last].
  fold (opens G od t). fold o. rewrite eqb_scale0. destruct (Z.eqb_spec o 0) as [|Hne]; [reflexivity|].
  rewrite tick_to_price_ok by assumption. cbn [rbind]. fold p.
  destruct (gross_spec d (m_qty m) t Hv Hq) as (Ew & Hw0 & Hwm). fold p w in Ew, Hw0, Hwm. rewrite Ew. cbn [rbind].
  destruct (Z.eqb_spec w 0) as [|Hwn]; [reflexivity|].
  rewrite dec_from_ratio_1 by assumption. cbn [rbind]. rewrite ltb_scale.
  assert (Ex : (if w <? o then w * DEC else o * DEC) = x * DEC) by (unfold x; destruct (Z.ltb_spec w o); f_equal; lia).
  rewrite Ex. assert (Hx : 0 < x <= o /\ x <= w) by (unfold x; lia).
  assert (Hon : o <= nfs (g_items (G t od)) - g_F (G t od)) by (unfold o, opens, g_open; lia).
  unfold checked_sub at 1. rewrite leb_scale. destruct (Z.leb_spec x o); [|lia]. cbn [rbind].
  unfold checked_add256 at 1. destruct (Z.leb_spec ((g_F (G t od) + g_crc (G t od)) * DEC + x * DEC) U256_MAX) as [Hle|]; [|nia]. cbn [rbind].
  rewrite floor_scale. unfold to_u128 at 1.
  destruct (Z.leb_spec x U128_MAX) as [Hx128|Hx128]; destruct (Z.ltb_spec U128_MAX x) as [Hx'|Hx']; try lia; [|reflexivity]. cbn [rbind].
  assert (Ec : amount_to_value od x p RUp = Ok c).
  { unfold p. rewrite amount_to_value_spec; [|lia|apply tick_price_range; assumption]. fold p. unfold od, c, cost. destruct d; reflexivity. }
  rewrite Ec. cbn [rbind]. destruct (Z.eqb_spec c 0) as [|Hcn]; [reflexivity|]. cbn [negb rensure rbind].
  pose proof (cost_le d (m_qty m) p x ltac:(fold w; lia) Hp) as Hcq. fold c in Hcq.
  pose proof (cost_nonneg d x p ltac:(lia) Hp) as Hc0. fold c in Hc0.
  unfold to_u128. destruct (Z.leb_spec c U128_MAX); [|lia]. cbn [rbind].
  unfold checked_sub. destruct (Z.leb_spec c (m_qty m)); [|lia]. cbn [rbind].
  unfold checked_add256. destruct (Z.leb_spec (m_out m + x) U256_MAX) as [Ho1|Ho1]; destruct (Z.ltb_spec U256_MAX (m_out m + x)) as [Ho2|Ho2]; try lia; [|reflexivity].
  cbn [rbind]. do 4 f_equal. unfold upd_of. cbn [f_tick f_out fst snd]. do 4 f_equal. unfold tv_of, g_fill, opens, g_open in *. cbn [g_items g_F g_crc g_last].
  f_equal; unfold o, opens, g_open; lia.
Qed.

(** ** The loop *)
Definition book_after (b : orderbook) (od : dir) (fs : list (Z * Z * Z)) : orderbook :=
  foldl (fun b f => set_next_tick b od (f_tick f)) b fs.
Definition mkt_after (G : ghost) (od : dir) (m : mkt) (fs : list (Z * Z * Z)) (r pr : Z) : mkt :=
  mkMkt r (book_after (m_book m) od fs) (m_out m + sum_out fs) (m_upd m ++ map (upd_of G od) fs) pr.

Lemma market_loop_spec d (ticks : gmap Z tick_state) G l : forall m,
  (forall t, t ∈ l -> ticks !! t = Some (ts_of G t) /\ valid_tick t) -> (forall t, side_ok (G t (opposite d))) ->
  0 <= m_qty m <= U128_MAX ->
  match market_loop d ticks l m with
  | Ok m' => exists fs r pr, plan d (opens G (opposite d)) l (m_qty m) (m_price m) = Some (fs, r, pr) /\
                             m' = mkt_after G (opposite d) m fs r pr
  | Err _ => plan d (opens G (opposite d)) l (m_qty m) (m_price m) = None \/
             (exists t, t ∈ l /\ U128_MAX < opens G (opposite d) t) \/
             U256_MAX < m_out m + lsumf (opens G (opposite d)) l
  | _ => False
  end.
Proof.
  induction l as [|t l IH]; intros m Hl Hs Hq.
  { cbn [market_loop plan]. exists [], (m_qty m), (m_price m). split; [reflexivity|].
    unfold mkt_after. cbn [sum_out map book_after foldl]. rewrite Z.add_0_r, app_nil_r. destruct m; reflexivity. }
  destruct (Hl t ltac:(constructor)) as [Ht Hv].
  assert (Hl' : forall t', t' ∈ l -> ticks !! t' = Some (ts_of G t') /\ valid_tick t') by (intros; apply Hl; constructor; assumption).
  pose proof (market_tick_spec d ticks G t m Ht Hv (Hs t) Hq) as E. cbn zeta in E.
  cbn [market_loop plan lsumf]. rewrite E. clear E.
  assert (Ho : forall t', 0 <= opens G (opposite d) t') by (intros; apply g_open_nonneg, Hs).
  assert (Hls : 0 <= lsumf (opens G (opposite d)) l) by (clear -Ho; induction l as [|a l IHl]; cbn; [lia|]; specialize (Ho a); lia).
  set (o := opens G (opposite d) t). specialize (Ho t) as Hot. fold o in Hot.
  destruct (Z.eqb_spec o 0) as [Eo|Hne].
  { cbn [rbind fst snd]. rewrite Eo. specialize (IH m Hl' Hs Hq). destruct (market_loop d ticks l m) as [m'|e| |]; try assumption.
    destruct IH as [?|[(t' & ? & ?)|?]]; [auto|right; left; exists t'; split; [constructor; assumption|assumption]|right; right; lia]. }
  set (p := tick_price t). set (w := gross d (m_qty m) p).
  destruct (Z.eqb_spec w 0) as [Ew|Hwn].
  { cbn [rbind fst snd]. exists [], 0, p. split; [reflexivity|]. unfold mkt_after. cbn [sum_out map book_after foldl].
    rewrite Z.add_0_r, app_nil_r. reflexivity. }
  set (x := Z.min w o). set (c := cost d x p). assert (Hxo : x <= o) by (unfold x; lia).
  destruct (Z.ltb_spec U128_MAX x) as [Hx|Hx].
  { cbn [rbind]. right. left. exists t. split; [constructor|]. fold o. lia. }
  destruct (Z.eqb_spec c 0) as [Ec|Hc]; [cbn [rbind]; left; reflexivity|].
  destruct (Z.ltb_spec U256_MAX (m_out m + x)) as [Hm|Hm]; [cbn [rbind]; right; right; lia|].
  cbn [rbind fst snd]. pose proof (tick_price_pos t Hv) as Hp. fold p in Hp.
  pose proof (gross_nonneg d (m_qty m) p ltac:(lia) Hp) as Hw0. fold w in Hw0.
  assert (Hx0 : 0 < x <= w) by (unfold x; lia).
  pose proof (cost_le d (m_qty m) p x ltac:(fold w; lia) Hp) as Hcq. fold c in Hcq.
  pose proof (cost_nonneg d x p ltac:(lia) Hp) as Hc0. fold c in Hc0.
  set (m1 := mkMkt _ _ _ _ _). specialize (IH m1 Hl' Hs ltac:(cbn; lia)). cbn [m1 m_qty m_price m_out] in IH.
  destruct (market_loop d ticks l m1) as [m'|e| |]; try assumption.
  - destruct IH as (fs & r & pr & -> & ->). exists ((t, x, c) :: fs), r, pr. split; [reflexivity|].
    unfold mkt_after, m1. cbn [m_book m_out m_upd sum_out map book_after foldl f_out f_tick fst snd].
    rewrite <- Z.add_assoc, <- app_assoc. reflexivity.
  - destruct IH as [->|[(t' & ? & ?)|?]]; [auto|right; left; exists t'; split; [constructor; assumption|assumption]|right; right; lia].
Qed.

(** ** Storage and ghost after a market order *)
Definition gfills (G : ghost) (od : dir) (fs : list (Z * Z * Z)) : ghost :=
  fun t d => if decide (d = od) then g_fill (G t d) (taken fs t) else G t d.
Definition swap_ticks (G : ghost) (od : dir) (fs : list (Z * Z * Z)) (ticks : gmap Z tick_state) : gmap Z tick_state :=
  foldl (fun m p => <[p.1 := p.2]> m) ticks (map (upd_of G od) fs).
Definition swap_st (s : storage) (G : ghost) (ob : orderbook) (od : dir) (fs : list (Z * Z * Z)) : storage :=
  set_orderbook (book_after ob od fs)
  (set_dirliq (<[od := get_directional_liquidity s od - sum_out fs * DEC]> (s_dirliq s))
  (set_ticks (swap_ticks G od fs (s_ticks s)) s)).

Lemma fill0 g : g_fill g 0 = g.
Proof. unfold g_fill. rewrite Z.add_0_r. destruct g; reflexivity. Qed.
Lemma gfills_eq G od fs t : gfills G od fs t od = g_fill (G t od) (taken fs t).
Proof. unfold gfills. rewrite decide_True by reflexivity. reflexivity. Qed.
Lemma gfills_ne G od fs t d : d <> od -> gfills G od fs t d = G t d.
Proof. intros H. unfold gfills. rewrite decide_False by assumption. reflexivity. Qed.
Lemma gfills_lives G od fs t d : g_lives (gfills G od fs t d) = g_lives (G t d).
Proof. unfold gfills. destruct (decide _); reflexivity. Qed.
Lemma gfills_items G od fs t d : g_items (gfills G od fs t d) = g_items (G t d).
Proof. unfold gfills. destruct (decide _); reflexivity. Qed.

Lemma upd_of_gfills G od fs f :
  f ∈ fs -> NoDup (map f_tick fs) -> upd_of G od f = (f_tick f, ts_of (gfills G od fs) (f_tick f)).
Proof.
  intros Hin Hn. unfold upd_of. f_equal. assert (Et : taken fs (f_tick f) = f_out f).
  { clear -Hin Hn. induction fs as [|g fs IH]; [inversion Hin|]. cbn [map] in Hn. apply NoDup_cons in Hn as [Hg Hn].
    cbn [taken]. apply elem_of_cons in Hin as [->|Hin].
    - rewrite Z.eqb_refl, taken_notin by assumption. lia.
    - rewrite (IH Hin Hn). destruct (Z.eqb_spec (f_tick g) (f_tick f)) as [E|]; [|lia]. exfalso. apply Hg. rewrite E.
      apply elem_of_list_fmap. eauto. }
  rewrite <- Et. unfold ts_of. destruct od; cbn [set_values]; f_equal; try (rewrite gfills_eq; reflexivity);
    rewrite gfills_ne by discriminate; reflexivity.
Qed.

Lemma swap_ticks_lookup G od fs ticks t :
  NoDup (map f_tick fs) ->
  swap_ticks G od fs ticks !! t =
    if decide (t ∈ map f_tick fs) then Some (ts_of (gfills G od fs) t) else ticks !! t.
Proof.
  intros Hn. unfold swap_ticks.
  assert (H : forall fs', (forall f, f ∈ fs' -> f ∈ fs) -> forall m : gmap Z tick_state,
    foldl (fun m p => <[p.1 := p.2]> m) m (map (upd_of G od) fs') !! t =
    if decide (t ∈ map f_tick fs') then Some (ts_of (gfills G od fs) t) else m !! t).
  { induction fs' as [|f fs' IH]; intros Hsub m; [rewrite decide_False by (intros H; inversion H); reflexivity|].
    cbn [map foldl]. rewrite IH by (intros; apply Hsub; constructor; assumption).
    rewrite (upd_of_gfills G od fs f) by (auto; apply Hsub; constructor). cbn [fst snd].
    destruct (decide (t ∈ map f_tick fs')) as [Hin|Hni].
    - rewrite decide_True by (constructor; assumption). reflexivity.
    - destruct (decide (t = f_tick f)) as [->|Hne].
      + rewrite decide_True by constructor. apply lookup_insert.
      + rewrite lookup_insert_ne by congruence. rewrite decide_False; [reflexivity|].
        intros Hin. apply elem_of_cons in Hin as [?|?]; contradiction. }
  apply H. auto.
Qed.

Lemma swap_ticks_liq G od fs ticks d :
  NoDup (map f_tick fs) -> (forall f, f ∈ fs -> ticks !! f_tick f = Some (ts_of G (f_tick f))) ->
  msum (liq d) (swap_ticks G od fs ticks) = msum (liq d) ticks - (if decide (d = od) then sum_out fs * DEC else 0).
Proof.
  unfold swap_ticks. revert ticks. induction fs as [|f fs IH]; intros ticks Hn Hf; cbn [map foldl sum_out].
  { destruct (decide _); lia. }
  cbn [map] in Hn. apply NoDup_cons in Hn as [Hnf Hn].
  rewrite IH; [|assumption|].
  - cbn [upd_of fst snd]. rewrite (msum_insert _ _ _ _ _ (Hf f ltac:(constructor))). unfold liq at 2 3. rewrite get_ts_of.
    destruct (decide (d = od)) as [->|Hne].
    + rewrite set_get_eq. unfold g_fill. cbn [tv_of tv_tal]. unfold g_open. cbn [g_items g_F]. lia.
    + rewrite set_get, get_ts_of by assumption. lia.
  - intros g Hg. cbn [upd_of fst snd]. rewrite lookup_insert_ne; [apply Hf; constructor; assumption|].
    intros E. apply Hnf. rewrite E. apply elem_of_list_fmap. eauto.
Qed.

Lemma book_after_last b od fs :
  fs <> [] -> exists fs0 f, fs = fs0 ++ [f] /\ book_after b od fs = set_next_tick b od (f_tick f).
Proof.
  intros Hne. destruct (exists_last Hne) as (fs0 & f & ->). exists fs0, f. split; [reflexivity|].
  unfold book_after. rewrite foldl_snoc. clear Hne. revert b. induction fs0 as [|g fs0 IH]; intros b; [reflexivity|].
  cbn [foldl]. rewrite IH. destruct od; reflexivity.
Qed.
Lemma book_after_denoms b od fs : ob_quote (book_after b od fs) = ob_quote b /\ ob_base (book_after b od fs) = ob_base b.
Proof.
  destruct fs as [|f fs]; [auto|]. destruct (book_after_last b od (f :: fs) ltac:(discriminate)) as (? & ? & _ & ->).
  destruct od; auto.
Qed.

Lemma fill_side g x : side_ok g -> 0 <= x <= g_open g -> side_ok (g_fill g x).
Proof. intros H Hx. destruct (decide (x = 0)) as [->|]; [rewrite fill0; assumption|]. apply fill_ok; [assumption|lia]. Qed.

Lemma swap_inv s G ob d bound l q p0 fs r pr :
  inv s G -> s_orderbook s = Some ob -> valid_tick bound -> market_ticks ob d bound (s_ticks s) = Ok l ->
  0 <= q -> plan d (opens G (opposite d)) l q p0 = Some (fs, r, pr) ->
  inv (swap_st s G ob (opposite d) fs) (gfills G (opposite d) fs).
Proof.
  intros Hi Eob Hbd Hl Hq Hplan. pose proof DEC_pos as HD. set (od := opposite d) in *.
  destruct (market_ticks_spec _ _ _ _ _ Hl) as (Hord & Hin & Hb).
  pose proof Hi as [K1 K2 K3 K4 K5 K6 K7 K8 K9 K10 K11 K12 K13 K14 K15].
  assert (Hval : forall t, t ∈ l -> valid_tick t).
  { intros t Ht. apply Hin in Ht as [[ts E] _]. apply (K1 _ _ E). }
  assert (Hop : forall t, 0 <= opens G od t) by (intros; apply g_open_nonneg, K3).
  pose proof (plan_spec _ _ _ _ _ _ _ _ Hord Hval Hop Hq Hplan) as Hpg.
  pose proof (ordered_nodup _ _ Hord) as Hndl.
  pose proof (sublist_nodup _ _ (pg_ticks _ _ _ _ _ _ _ _ Hpg) Hndl) as Hnd.
  assert (Hfl : forall t, t ∈ map f_tick fs -> t ∈ l) by (intros; eapply sublist_in; [apply (pg_ticks _ _ _ _ _ _ _ _ Hpg)|assumption]).
  assert (Hft : forall f, f ∈ fs -> s_ticks s !! f_tick f = Some (ts_of G (f_tick f))).
  { intros f Hf. assert (Hx : f_tick f ∈ l) by (apply Hfl, elem_of_list_fmap; eauto). apply Hin in Hx as [[ts E] _].
    rewrite E. f_equal. apply (K1 _ _ E). }
  assert (Htk : forall t, 0 <= taken fs t <= opens G od t).
  { intros t. eapply taken_in_range; eauto. apply (pg_fills _ _ _ _ _ _ _ _ Hpg). }
  set (G' := gfills G od fs).
  assert (Elk : forall t, swap_ticks G od fs (s_ticks s) !! t = match s_ticks s !! t with Some _ => Some (ts_of G' t) | None => None end).
  { intros t. rewrite swap_ticks_lookup by assumption. destruct (decide (t ∈ map f_tick fs)) as [Hx|Hx].
    - apply Hfl, Hin in Hx as [[ts ->] _]. reflexivity.
    - destruct (s_ticks s !! t) as [ts|] eqn:E; [|reflexivity]. destruct (K1 _ _ E) as [_ ->]. f_equal. unfold ts_of, G', gfills.
      f_equal; destruct (decide _); rewrite ?taken_notin, ?fill0 by assumption; reflexivity. }
  split; unfold swap_st;
    cbn [set_ticks set_dirliq set_orders set_orderbook set_order_id s_ticks s_nodes s_tree s_nodectr s_orders s_order_id
              s_dirliq s_orderbook s_fee s_recipient s_active]; try assumption.
  - intros t ts E. rewrite Elk in E. destruct (s_ticks s !! t) as [ts0|] eqn:E0; [|discriminate]. injection E as <-.
    split; [|reflexivity]. apply (K1 _ _ E0).
  - intros t d' E. rewrite Elk in E. destruct (s_ticks s !! t) as [ts0|] eqn:E0; [discriminate|].
    unfold G', gfills. destruct (decide (d' = od)) as [->|]; [|auto]. rewrite taken_notin, fill0; [auto|].
    intros Hx. apply Hfl, Hin in Hx as [[ts E1] _]. congruence.
  - intros t d'. unfold G', gfills. destruct (decide (d' = od)) as [->|]; [|auto]. apply fill_side; [auto|]. apply Htk.
  - intros t. eapply store_ok_ext; [apply (K4 t)|]. intros d'. unfold canl, g_cans. unfold G'. rewrite gfills_items. reflexivity.
  - intros k o E. destruct (K6 _ _ E) as [A1 A2 A3 A4 A5 A6 A7]. split; try assumption. unfold G'. rewrite gfills_lives. assumption.
  - intros t d' id n c q'. unfold G'. rewrite gfills_lives. apply K7.
  - intros d'. unfold get_directional_liquidity at 1. cbn [set_orderbook set_dirliq s_dirliq]. rewrite swap_ticks_liq by assumption.
    destruct (decide (d' = od)) as [->|Hne].
    + rewrite lookup_insert. cbn [unwrap_or]. rewrite K10. reflexivity.
    + rewrite lookup_insert_ne by congruence. fold (get_directional_liquidity s d'). rewrite K10. lia.
  - destruct K11 as (ob0 & E & [B1 B2 B3 B4 B5]). rewrite Eob in E. injection E as <-.
    exists (book_after ob od fs). split; [reflexivity|]. destruct (book_after_denoms ob od fs) as [D1 D2].
    assert (Hliq : forall t ts d', swap_ticks G od fs (s_ticks s) !! t = Some ts -> 0 < tv_tal (get_values ts d') ->
              s_ticks s !! t = Some (ts_of G t) /\ 0 < g_open (G t d') /\ (d' = od -> taken fs t < opens G od t)).
    { intros t ts d' E Hpos. rewrite Elk in E. destruct (s_ticks s !! t) as [ts0|] eqn:E0; [|discriminate]. injection E as <-.
      split; [f_equal; apply (K1 _ _ E0)|]. rewrite get_ts_of in Hpos. cbn [tv_of tv_tal] in Hpos.
      unfold G', gfills in Hpos. specialize (Htk t). unfold opens in *. destruct (decide (d' = od)) as [->|Hne].
      - unfold g_fill, g_open in Hpos. cbn [g_items g_F] in Hpos. unfold g_open in *. split; [nia|]. intros _. nia.
      - split; [nia|]. intros; contradiction. }
    assert (Hold : forall t d', s_ticks s !! t = Some (ts_of G t) -> 0 < g_open (G t d') ->
              match d' with Bid => t <= ob_next_bid ob | Ask => ob_next_ask ob <= t end).
    { intros t d' E Hpos. specialize (B4 _ _ E). specialize (B5 _ _ E). rewrite get_ts_of in B4, B5. cbn [tv_of tv_tal] in B4, B5.
      destruct d'; [apply B4|apply B5]; nia. }
    destruct (decide (fs = [])) as [->|Hne].
    { cbn [book_after foldl] in *. split; assumption. }
    destruct (book_after_last ob od fs Hne) as (fs0 & f & Efs & ->).
    assert (Hff : f_tick f ∈ map f_tick fs) by (apply elem_of_list_fmap; exists f; split; [reflexivity|]; rewrite Efs; apply elem_of_app; right; constructor).
    assert (Hfv : valid_tick (f_tick f)) by (apply Hval, Hfl, Hff).
    assert (Hfr : swap_range ob d bound (f_tick f)) by (apply Hin, Hfl, Hff).
    assert (Hbad : forall t, s_ticks s !! t = Some (ts_of G t) -> swap_range ob d bound t -> taken fs t < opens G od t -> ~ better d t (f_tick f)).
    { intros t E Hr Hlt Hbt. pose proof (pg_prio _ _ _ _ _ _ _ _ Hpg _ t Hff) as Hp. rewrite Hp in Hlt; [lia| |assumption].
      apply Hin. split; [eauto|assumption]. }
    unfold od in *. destruct d; cbn [opposite set_next_tick] in *.
    + split; cbn [ob_quote ob_base ob_next_bid ob_next_ask]; try assumption; cbn [set_orderbook set_dirliq set_ticks s_ticks]; intros t ts E Hpos.
      * destruct (Hliq _ _ _ E Hpos) as (E1 & Hp & _). apply (Hold t Bid E1 Hp).
      * destruct (Hliq _ _ _ E Hpos) as (E1 & Hp & Hlt). specialize (Hlt eq_refl). pose proof (Hold t Ask E1 Hp) as Ho. cbn in Ho.
        destruct (Z.le_gt_cases (f_tick f) t); [assumption|]. exfalso. apply (Hbad t E1); [|assumption|cbn; assumption]. cbn in *. lia.
    + split; cbn [ob_quote ob_base ob_next_bid ob_next_ask]; try assumption; cbn [set_orderbook set_dirliq set_ticks s_ticks]; intros t ts E Hpos.
      * destruct (Hliq _ _ _ E Hpos) as (E1 & Hp & Hlt). specialize (Hlt eq_refl). pose proof (Hold t Bid E1 Hp) as Ho. cbn in Ho.
        destruct (Z.le_gt_cases t (f_tick f)); [assumption|]. exfalso. apply (Hbad t E1); [|assumption|cbn; assumption]. cbn in *. lia.
      * destruct (Hliq _ _ _ E Hpos) as (E1 & Hp & _). apply (Hold t Ask E1 Hp).  - intros t E. rewrite Elk in E. apply K14. destruct (s_ticks s !! t); [discriminate|reflexivity].
  - intros d'. unfold get_directional_liquidity at 1. cbn [set_orderbook set_dirliq s_dirliq]. destruct (decide (d' = od)) as [->|Hne].
    + rewrite lookup_insert. cbn [unwrap_or]. specialize (K15 od). assert (0 <= sum_out fs); [|nia].
      pose proof (pg_fills _ _ _ _ _ _ _ _ Hpg) as Hall. revert Hall. clear. intros Hall. induction fs as [|f fs IH]; cbn [sum_out]; [lia|].
      inversion Hall as [|x y Hf Hfs]; subst. specialize (IH Hfs). destruct Hf as [Hf _]. lia.
    + rewrite lookup_insert_ne by congruence. apply K15.
Qed.

(** ** Running a market order *)
Definition partial_ok (d : dir) (bound : Z) : bool :=
  match d with Ask => MIN_TICK <? bound | Bid => bound <? MAX_TICK end.
Record swap_pre (s : storage) (G : ghost) (ob : orderbook) (d : dir) (bound q : Z) (l : list Z)
                (fs : list (Z * Z * Z)) (r pr : Z) : Prop := {
  sp_qty : q <> 0;
  sp_bound : valid_tick bound;
  sp_ticks : market_ticks ob d bound (s_ticks s) = Ok l;
  sp_plan : plan d (opens G (opposite d)) l q DEC = Some (fs, r, pr);
  sp_left : gross d r pr = 0 \/ partial_ok d bound = true
}.

Lemma bound_b t : (t <=? MAX_TICK) && (MIN_TICK <=? t) = true <-> valid_tick t.
Proof. rewrite andb_comm. apply valid_tick_b. Qed.
Lemma DEC_price : DEC = tick_price 0.
Proof. reflexivity. Qed.
Lemma valid_0 : valid_tick 0.
Proof. unfold valid_tick. lia. Qed.

Lemma plan_ctx s G ob d bound l :
  inv s G -> market_ticks ob d bound (s_ticks s) = Ok l ->
  ordered d l /\ (forall t, t ∈ l -> s_ticks s !! t = Some (ts_of G t) /\ valid_tick t) /\
  (forall t, 0 <= opens G (opposite d) t) /\ (forall t, t ∈ l <-> is_Some (s_ticks s !! t) /\ swap_range ob d bound t).
Proof.
  intros Hi Hl. destruct (market_ticks_spec _ _ _ _ _ Hl) as (Hord & Hin & _). split; [exact Hord|]. split; [|split; [|exact Hin]].
  - intros t Ht. apply Hin in Ht as [[ts E] _]. destruct (i_some _ _ Hi _ _ E) as [Hv ->]. auto.
  - intros t. apply g_open_nonneg, (i_side _ _ Hi).
Qed.
Lemma plan_good_inv s G ob d bound l q fs r pr :
  inv s G -> 0 <= q -> market_ticks ob d bound (s_ticks s) = Ok l ->
  plan d (opens G (opposite d)) l q DEC = Some (fs, r, pr) -> plan_good d (opens G (opposite d)) l q DEC fs r pr /\
  (exists t, valid_tick t /\ pr = tick_price t).
Proof.
  intros Hi Hq Hl Hp. destruct (plan_ctx _ _ _ _ _ _ Hi Hl) as (H1 & H2 & H3 & _).
  pose proof (plan_spec _ _ _ _ _ _ _ _ H1 (fun t Ht => proj2 (H2 t Ht)) H3 Hq Hp) as Hg. split; [exact Hg|].
  destruct (pg_price _ _ _ _ _ _ _ _ Hg) as [->|(t & Ht & ->)]; [exists 0; split; [apply valid_0|reflexivity]|].
  exists t. split; [apply H2; assumption|reflexivity].
Qed.
Lemma plan_rest_le d open l q p0 fs r pr : plan_good d open l q p0 fs r pr -> 0 <= r <= q.
Proof. intros H. pose proof (pg_rest _ _ _ _ _ _ _ _ H). pose proof (pg_dust _ _ _ _ _ _ _ _ H). pose proof (sum_in_nonneg _ _ _ (pg_fills _ _ _ _ _ _ _ _ H)). lia. Qed.

Lemma internal_inv s G ob q d bound m denom :
  inv s G -> s_orderbook s = Some ob -> 0 <= q <= U128_MAX ->
  run_market_order_internal s q d bound = Ok (m, denom) ->
  exists l fs r pr, swap_pre s G ob d bound q l fs r pr /\ denom = get_opposite_denom ob d /\
    m = mkt_after G (opposite d) (mkMkt q ob 0 [] DEC) fs r pr.
Proof.
  intros Hi Eob Hq H. unfold run_market_order_internal in H.
  apply rbind_inv in H as (u & H1 & H). apply rensure_inv in H1. apply negb_true_iff, Z.eqb_neq in H1.
  unfold load_orderbook in H. rewrite Eob in H. cbn [ok_or rbind] in H.
  apply rbind_inv in H as (u1 & H2 & H). apply rensure_inv in H2. apply bound_b in H2.
  apply rbind_inv in H as (l & Hl & H). apply rbind_inv in H as (m0 & Hm & H).
  destruct (plan_ctx _ _ _ _ _ _ Hi Hl) as (C1 & C2 & C3 & _).
  pose proof (market_loop_spec d (s_ticks s) G l (mkMkt q ob 0 [] DEC) C2 (fun t => i_side _ _ Hi t _) Hq) as HL.
  rewrite Hm in HL. destruct HL as (fs & r & pr & Hp & ->). cbn [m_qty m_price] in Hp.
  apply rbind_inv in H as (rem & Hr & H). apply rbind_inv in H as (u2 & H3 & H). apply rensure_inv in H3.
  injection H as <- <-. exists l, fs, r, pr. split; [|split; reflexivity].
  destruct (plan_good_inv _ _ _ _ _ _ _ _ _ _ Hi (proj1 Hq) Hl Hp) as [Hg (t & Hv & Ep)].
  pose proof (plan_rest_le _ _ _ _ _ _ _ _ Hg). cbn [mkt_after m_qty m_price] in Hr.
  rewrite Ep in Hr. destruct (gross_spec d r t Hv ltac:(lia)) as (E & _). rewrite E in Hr. injection Hr as <-.
  split; try assumption. apply orb_prop in H3 as [H3|H3]; [left; rewrite Ep; apply Z.eqb_eq; exact H3|right; exact H3].
Qed.

Lemma swap_run_inv s G ob q d bound s' out denom rest :
  inv s G -> s_orderbook s = Some ob -> 0 <= q <= U128_MAX ->
  run_market_order q d bound s = (s', Ok (out, denom, rest)) ->
  exists l fs pr, swap_pre s G ob d bound q l fs rest pr /\ denom = get_opposite_denom ob d /\ out = sum_out fs /\
    s' = swap_st s G ob (opposite d) fs /\ inv s' (gfills G (opposite d) fs).
Proof.
  intros Hi Eob Hq H. unfold run_market_order in H.
  apply bind_inv in H as ([m dn] & s1 & H1 & H). apply mreadr_inv in H1 as [-> H1]. cbn [fst snd] in H.
  destruct (internal_inv _ _ _ _ _ _ _ _ Hi Eob Hq H1) as (l & fs & r & pr & Hp & -> & ->).
  unfold save_ticks in H. rewrite bind_mod in H. cbn [mkt_after m_upd m_out m_book m_qty app] in H.
  apply bind_inv in H as (od & s1 & H2 & H). apply mlift_inv in H2 as [-> H2].
  unfold dec_from_ratio, dec_checked_from_ratio in H2. cbn [Z.eqb] in H2. rewrite Z.div_1_r, Z.add_0_l in H2.
  destruct (Z.leb_spec (sum_out fs * DEC) U256_MAX) as [Hle|]; [|discriminate]. injection H2 as <-.
  apply bind_inv in H as (u & s1 & H3 & H). unfold subtract_directional_liquidity in H3. rewrite bind_read in H3.
  apply bind_inv in H3 as (v & s2 & H3 & H4). apply mlift_inv in H3 as [-> H3]. apply mmod_inv in H4. subst s1.
  unfold checked_sub in H3. match type of H3 with (if ?b then _ else _) = _ => destruct b; [|discriminate] end. injection H3 as <-.
  rewrite bind_mod in H. apply mret_inv in H as [-> E]. injection E as -> -> ->.
  exists l, fs, pr. split; [exact Hp|]. split; [reflexivity|]. split; [lia|].
  assert (Es : set_orderbook (book_after ob (opposite d) fs)
    (set_dirliq (<[opposite d:=get_directional_liquidity
       (set_ticks (foldl (λ m p, <[p.1:=p.2]> m) (s_ticks s) (map (upd_of G (opposite d)) fs)) s) (opposite d) - sum_out fs * DEC]>
       (s_dirliq (set_ticks (foldl (λ m p, <[p.1:=p.2]> m) (s_ticks s) (map (upd_of G (opposite d)) fs)) s)))
       (set_ticks (foldl (λ m p, <[p.1:=p.2]> m) (s_ticks s) (map (upd_of G (opposite d)) fs)) s)) = swap_st s G ob (opposite d) fs) by reflexivity.
  split; [exact Es|]. rewrite Es. destruct Hp as [P1 P2 P3 P4 P5]. eapply swap_inv; eauto. lia.
Qed.

(** Total liquidity bounds every tick's and every walk's liquidity. *)
Lemma liq_opens s G d : inv s G -> get_directional_liquidity s d = msum (fun t _ => opens G d t) (s_ticks s) * DEC.
Proof.
  intros Hi. rewrite (i_liq _ _ Hi). rewrite <- msum_scale. apply msum_ext. intros t ts E. unfold liq.
  rewrite (inv_tick_some _ _ _ _ Hi E), get_ts_of. reflexivity.
Qed.
Lemma lsumf_msum {A} (f : Z -> Z) (m : gmap Z A) l :
  (forall t, 0 <= f t) -> NoDup l -> (forall t, t ∈ l -> is_Some (m !! t)) -> lsumf f l <= msum (fun t _ => f t) m.
Proof.
  intros Hf. revert m. induction l as [|t l IH]; intros m Hn Hin; cbn [lsumf].
  - apply msum_nonneg. auto.
  - apply NoDup_cons in Hn as [Ht Hn]. destruct (Hin t ltac:(constructor)) as [v Hv].
    rewrite (msum_delete _ _ _ _ Hv). assert (lsumf f l <= msum (fun t _ => f t) (delete t m)); [|lia].
    apply IH; [assumption|]. intros t' Ht'. rewrite lookup_delete_ne by (intros ->; contradiction). apply Hin. constructor. assumption.
Qed.
Lemma sum_out_le d open fs l :
  Forall (fill_good d open) fs -> sublist (map f_tick fs) l -> (forall t, 0 <= open t) -> sum_out fs <= lsumf open l.
Proof.
  intros Hg Hs Ho. revert fs Hg Hs. induction l as [|t l IH]; intros fs Hg Hs.
  - inversion Hs as [E| |]. destruct fs; [cbn; lia|discriminate].
  - specialize (Ho t) as Hot. cbn [lsumf]. inversion Hs as [|a l1 l2 Hs' E1 E2|a l1 l2 Hs' E1 E2].
    + destruct fs as [|f fs]; [discriminate|]. cbn [map] in E1. injection E1 as E1 E3. subst.
      apply Forall_cons in Hg as [(Hf & _) Hg]. specialize (IH fs Hg Hs'). cbn [sum_out]. lia.
    + subst. specialize (IH fs Hg Hs'). lia.
Qed.

(** The pool's liquidity fits in 128 bits (it is below the balance of the contract). *)
Definition liq_fits (s : storage) : Prop := forall d, get_directional_liquidity s d <= U128_MAX * DEC.

Lemma swap_fits s G ob d bound l :
  inv s G -> liq_fits s -> market_ticks ob d bound (s_ticks s) = Ok l ->
  (forall t, t ∈ l -> opens G (opposite d) t <= U128_MAX) /\ lsumf (opens G (opposite d)) l <= U128_MAX.
Proof.
  intros Hi Hf Hl. destruct (plan_ctx _ _ _ _ _ _ Hi Hl) as (C1 & C2 & C3 & C4). specialize (Hf (opposite d)).
  rewrite (liq_opens _ _ _ Hi) in Hf. pose proof DEC_pos. assert (Hm : msum (fun t _ => opens G (opposite d) t) (s_ticks s) <= U128_MAX) by nia.
  split.
  - intros t Ht. apply C2 in Ht as [E _]. etransitivity; [|exact Hm].
    apply (msum_elem (fun t _ => opens G (opposite d) t) _ _ _ (fun k v _ => C3 k) E).
  - etransitivity; [|exact Hm]. apply lsumf_msum; [assumption|eapply ordered_nodup; eauto|]. intros t Ht. apply C2 in Ht as [E _]. eauto.
Qed.

Lemma internal_ok s G ob q d bound l fs r pr :
  inv s G -> s_orderbook s = Some ob -> 0 <= q <= U128_MAX -> liq_fits s ->
  swap_pre s G ob d bound q l fs r pr ->
  run_market_order_internal s q d bound = Ok (mkt_after G (opposite d) (mkMkt q ob 0 [] DEC) fs r pr, get_opposite_denom ob d).
Proof.
  intros Hi Eob Hq Hfit [P1 P2 P3 P4 P5]. unfold run_market_order_internal.
  destruct (Z.eqb_spec q 0); [contradiction|]. cbn [negb rensure rbind]. unfold load_orderbook. rewrite Eob. cbn [ok_or rbind].
  rewrite (proj2 (bound_b bound) P2). cbn [rensure rbind]. rewrite P3. cbn [rbind].
  destruct (plan_ctx _ _ _ _ _ _ Hi P3) as (C1 & C2 & C3 & _).
  pose proof (market_loop_spec d (s_ticks s) G l (mkMkt q ob 0 [] DEC) C2 (fun t => i_side _ _ Hi t _) Hq) as HL.
  destruct (swap_fits _ _ _ _ _ _ Hi Hfit P3) as [F1 F2]. cbn [m_qty m_price m_out] in HL.
  destruct (market_loop d (s_ticks s) l (mkMkt q ob 0 [] DEC)) as [m'|e| |]; try contradiction.
  - destruct HL as (fs' & r' & pr' & E & ->). rewrite P4 in E. injection E as <- <- <-. cbn [rbind mkt_after m_qty m_price].
    destruct (plan_good_inv _ _ _ _ _ _ _ _ _ _ Hi (proj1 Hq) P3 P4) as [Hg (t & Hv & Ep)].
    pose proof (plan_rest_le _ _ _ _ _ _ _ _ Hg). rewrite Ep. destruct (gross_spec d r t Hv ltac:(lia)) as (E & _). rewrite E. cbn [rbind].
    rewrite Ep in P5. fold (partial_ok d bound).
    assert (Hb : (gross d r (tick_price t) =? 0) || partial_ok d bound = true) by (apply orb_true_iff; rewrite Z.eqb_eq; exact P5).
    rewrite Hb. reflexivity.
  - destruct HL as [E|[(t & Ht & Hlt)|Hlt]]; [congruence|specialize (F1 _ Ht); lia|].
    assert (U128_MAX <= U256_MAX) by (vm_compute; discriminate). lia.
Qed.

Lemma swap_run s G ob q d bound l fs r pr :
  inv s G -> s_orderbook s = Some ob -> 0 <= q <= U128_MAX -> liq_fits s ->
  swap_pre s G ob d bound q l fs r pr ->
  run_market_order q d bound s = (swap_st s G ob (opposite d) fs, Ok (sum_out fs, get_opposite_denom ob d, r)).
Proof.
  intros Hi Eob Hq Hfit Hp. pose proof Hp as [P1 P2 P3 P4 P5]. pose proof DEC_pos as HD. unfold run_market_order.
  rewrite (bind_readr (fun s => run_market_order_internal s q d bound) _ _ _ (internal_ok _ _ _ _ _ _ _ _ _ _ Hi Eob Hq Hfit Hp)). cbn [fst snd mkt_after m_upd m_out m_book m_qty app].
  unfold save_ticks. rewrite bind_mod. rewrite Z.add_0_l.
  destruct (plan_good_inv _ _ _ _ _ _ _ _ _ _ Hi (proj1 Hq) P3 P4) as [Hg _].
  destruct (plan_ctx _ _ _ _ _ _ Hi P3) as (C1 & C2 & C3 & C4).
  pose proof (sum_out_le _ _ _ _ (pg_fills _ _ _ _ _ _ _ _ Hg) (pg_ticks _ _ _ _ _ _ _ _ Hg) C3) as Hso.
  assert (Hlm : lsumf (opens G (opposite d)) l <= msum (fun t _ => opens G (opposite d) t) (s_ticks s)).
  { apply lsumf_msum; [assumption|eapply ordered_nodup; eauto|]. intros t Ht. apply C2 in Ht as [E _]. eauto. }
  assert (Hso0 : 0 <= sum_out fs).
  { pose proof (pg_fills _ _ _ _ _ _ _ _ Hg) as Hff. clear -Hff. induction Hff as [|f fs (H & _) _ IH]; cbn; lia. }
  pose proof (Hfit (opposite d)) as Hf. pose proof (liq_opens _ _ (opposite d) Hi) as Ho.
  assert (U128_MAX * DEC <= U256_MAX) by (vm_compute; discriminate).
  rewrite (bind_lift _ (sum_out fs * DEC)) by (apply dec_from_ratio_1; nia).
  unfold subtract_directional_liquidity. rewrite bind_assoc, bind_read.
  match goal with |- context [get_directional_liquidity ?x (opposite d)] => change (get_directional_liquidity x (opposite d)) with (get_directional_liquidity s (opposite d)) end.
  rewrite bind_assoc. rewrite (bind_lift _ (get_directional_liquidity s (opposite d) - sum_out fs * DEC)).
  2:{ unfold checked_sub. destruct (Z.leb_spec (sum_out fs * DEC) (get_directional_liquidity s (opposite d))); [reflexivity|nia]. }
  rewrite !bind_mod. reflexivity.
Qed.
