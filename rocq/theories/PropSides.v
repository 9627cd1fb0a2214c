(** * Property C75: the two sides of the book are two books. *)
From Verif Require Import Base Dec Types State TickMath Sumtree Tick Order Auth Contract Query World SpecMath TickMathProofs
  TreeDefs Exec SumtreeProofs Ghost Inv Trans Spec Reach Refine RefineStep Reserve Solvency Books SpecProps PropBase Tests PropOrders PropClaims PropAdmin
  SpecAdmin SpecBank PropBank SpecMachine MachineBase MachineSwap PropMachine SpecTrace PropTrace SpecAlike PropAlike SpecCommute PropCommute PropDepth SpecEarly PropEarly SpecHalves PropHalves SpecSides.

(** ** Renumbering *)
Lemma mem_in id l : mem id l = true <-> In id l.
Proof. unfold mem. rewrite existsb_exists. split; [intros (x & Hx & E); apply Z.eqb_eq in E; subst; exact Hx|intros H; exists id; split; [exact H|apply Z.eqb_refl]]. Qed.
Lemma mem_app id l l' : mem id (l ++ l') = mem id l || mem id l'.
Proof. unfold mem. apply existsb_app. Qed.
Definition below (D : list Z) (id : Z) : list Z := List.filter (fun x => x <? id) D.
Lemma few lo hi l : NoDup l -> (forall x, In x l -> lo <= x < hi) -> (length l <= Z.to_nat (hi - lo))%nat.
Proof.
  intros Hn Hl. transitivity (length (map (fun n => lo + Z.of_nat n) (seq 0 (Z.to_nat (hi - lo))))); [|rewrite map_length, seq_length; lia].
  apply NoDup_incl_length; [apply NoDup_ListNoDup; exact Hn|]. intros x Hx. specialize (Hl x Hx). apply in_map_iff. exists (Z.to_nat (x - lo)). split; [lia|]. apply in_seq. lia.
Qed.
Definition between D a b : list Z := List.filter (fun x => (a <=? x) && (x <? b)) D.
Lemma below_split D a b : a <= b -> length (below D b) = (length (below D a) + length (between D a b))%nat.
Proof.
  intros Hab. unfold below, between. induction D as [|x D IH]; [reflexivity|]. cbn [List.filter]. destruct (Z.ltb_spec x b), (Z.ltb_spec x a), (Z.leb_spec a x); try lia; cbn [andb length]; rewrite IH; lia.
Qed.
Lemma gap_few D a b : NoDup D -> (length (between D a b) <= Z.to_nat (b - a))%nat.
Proof.
  intros Hn. apply (few a b); [apply NoDup_ListNoDup, List.NoDup_filter, NoDup_ListNoDup, Hn|]. intros x Hx. apply filter_In in Hx as [_ Hx]. apply andb_prop in Hx as [X1 X2]. apply Z.leb_le in X1. apply Z.ltb_lt in X2. lia.
Qed.
Section Renumber.
Context (D : list Z) (Hnd : NoDup D).
Lemma ren_lt a b : ~ In a D -> a < b -> renumber D a < renumber D b.
Proof.
  intros Ha Hab. unfold renumber. fold (below D a) (below D b). rewrite (below_split D a b) by lia.
  assert (E : between D a b = between D (a + 1) b).
  { apply filter_ext_in. intros x Hx. destruct (Z.leb_spec a x), (Z.leb_spec (a + 1) x); try reflexivity; try lia. assert (x = a) by lia. subst. contradiction. }
  rewrite E. pose proof (gap_few D (a + 1) b Hnd). lia.
Qed.
Lemma ren_inj a b : ~ In a D -> ~ In b D -> (renumber D a =? renumber D b) = (a =? b).
Proof. intros Ha Hb. destruct (Z.eqb_spec a b) as [->|Hn]; [apply Z.eqb_refl|]. apply Z.eqb_neq. destruct (Z_lt_ge_dec a b); [pose proof (ren_lt a b Ha)|pose proof (ren_lt b a Hb)]; lia. Qed.
Lemma ren_low n0 id : (forall x, In x D -> n0 <= x) -> id <= n0 -> renumber D id = id.
Proof.
  intros Hlo Hid. unfold renumber. assert (E : List.filter (fun x => x <? id) D = []).
  { induction D as [|x l IH]; [reflexivity|]. cbn [List.filter]. inversion Hnd. rewrite IH; [|assumption|intros; apply Hlo; right; assumption]. specialize (Hlo x (or_introl eq_refl)). destruct (Z.ltb_spec x id); [lia|reflexivity]. }
  rewrite E. cbn. lia.
Qed.
Lemma ren_high n0 id : (forall x, In x D -> n0 <= x) -> n0 <= id -> n0 <= renumber D id.
Proof.
  intros Hlo Hid. unfold renumber. assert (H : (length (below D id) <= Z.to_nat (id - n0))%nat).
  { apply (few n0 id); [apply NoDup_ListNoDup, List.NoDup_filter, NoDup_ListNoDup, Hnd|]. intros x Hx. apply filter_In in Hx as [Hx H]. apply Z.ltb_lt in H. specialize (Hlo x Hx). lia. }
  unfold below in H. lia.
Qed.
Lemma ren_next_in x : In x D -> renumber D (x + 1) = renumber D x.
Proof.
  intros Hx. unfold renumber. fold (below D x) (below D (x + 1)). rewrite (below_split D x (x + 1)) by lia. pose proof (gap_few D x (x + 1) Hnd) as Hg.
  assert (Hp : (0 < length (between D x (x + 1)))%nat).
  { unfold between. assert (Hi : In x (List.filter (fun y => (x <=? y) && (y <? x + 1)) D)) by (apply filter_In; split; [exact Hx|]; rewrite (proj2 (Z.leb_le _ _)), (proj2 (Z.ltb_lt _ _)) by lia; reflexivity).
    destruct (List.filter _ D); [destruct Hi|cbn; lia]. }
  lia.
Qed.
Lemma ren_next_out x : ~ In x D -> renumber D (x + 1) = renumber D x + 1.
Proof.
  intros Hx. unfold renumber. fold (below D x) (below D (x + 1)). rewrite (below_split D x (x + 1)) by lia.
  assert (E : between D x (x + 1) = []).
  { clear Hnd. unfold between. induction D as [|y l IH]; [reflexivity|]. cbn [List.filter]. destruct (Z.leb_spec x y), (Z.ltb_spec y (x + 1)); cbn [andb]; try (apply IH; intros H'; apply Hx; right; exact H'). exfalso. apply Hx. left. lia. }
  rewrite E. cbn. lia.
Qed.
End Renumber.

(** ** One side of the machine *)
Section Side.
Context (side : dir) (D B : list Z) (n0 : Z).
Context (Hnd : NoDup D) (Hlo : forall x, In x D -> n0 <= x) (HB : forall x, In x D -> In x B).
Let f := renumber D.
Definition renf (r : resting) : resting := mkResting (re_tick r) (re_dir r) (f (re_id r)) (re_owner r) (re_bounty r) (re_time r) (re_placed r) (re_open r) (re_filled r).
Definition kept (l : list resting) : list resting := List.filter (fun o => negb (bool_decide (re_dir o = side))) l.
Record part_of (m m' : machine) : Prop := {
  po_quote : ma_quote m' = ma_quote m; po_base : ma_base m' = ma_base m; po_set : ma_set m' = ma_set m;
  po_next : ma_next m' = f (ma_next m); po_n0 : n0 <= ma_next m;
  po_orders : kept (ma_orders m') = map renf (kept (ma_orders m));
  po_side : forall o, o ∈ ma_orders m -> (re_dir o = side <-> In (re_id o) B);
  po_other : forall o, o ∈ ma_orders m' -> re_dir o = side -> In (re_id o) B /\ re_id o < n0
}.
Lemma kept_find t id l : (forall o, o ∈ l -> re_dir o = side -> re_id o <> id) -> find_order t id (kept l) = find_order t id l.
Proof.
  unfold find_order, kept. induction l as [|o l IH]; intros H; [reflexivity|]. cbn [List.filter List.find]. assert (IH' := IH ltac:(intros x Hx; apply H; constructor; exact Hx)).
  destruct (bool_decide_reflect (re_dir o = side)) as [E|E]; cbn [negb List.find]; rewrite IH'; [|reflexivity].
  unfold is_order. rewrite (proj2 (Z.eqb_neq _ _) (H o ltac:(constructor) E)), andb_false_r. reflexivity.
Qed.
Definition keeps_dir (g : resting -> option resting) : Prop := forall o o', g o = Some o' -> re_id o' = re_id o /\ re_dir o' = re_dir o.
Lemma kept_change t id g l : keeps_dir g -> kept (change t id g l) = change t id g (kept l).
Proof.
  intros Hg. unfold kept, change. induction l as [|o l IH]; [reflexivity|]. cbn [flat_map]. rewrite List.filter_app, IH. cbn [List.filter].
  destruct (is_order t id o) eqn:E.
  - destruct (g o) as [o'|] eqn:Eg.
    + cbn [List.filter]. rewrite (proj2 (Hg _ _ Eg)). destruct (bool_decide _); cbn [negb flat_map]; [reflexivity|rewrite E, Eg; reflexivity].
    + cbn [List.filter app]. destruct (bool_decide _); cbn [negb flat_map]; [reflexivity|rewrite E, Eg; reflexivity].
  - cbn [List.filter]. destruct (bool_decide _); cbn [negb flat_map]; [reflexivity|rewrite E; reflexivity].
Qed.
Lemma change_in t id g l o : keeps_dir g -> o ∈ change t id g l -> exists o0, o0 ∈ l /\ re_id o = re_id o0 /\ re_dir o = re_dir o0.
Proof.
  intros Hg H. apply elem_of_list_In in H. unfold change in H. apply in_flat_map in H as (o0 & H0 & H). exists o0. split; [apply elem_of_list_In; exact H0|].
  destruct (is_order t id o0); [destruct (g o0) eqn:Eg; [|destruct H]; destruct H as [<-|[]]; apply (Hg _ _ Eg)|destruct H as [<-|[]]; auto].
Qed.
Lemma find_renf t id l : (forall o, o ∈ l -> ~ In (re_id o) D) -> ~ In id D -> find_order t (f id) (map renf l) = option_map renf (find_order t id l).
Proof.
  intros Hl Hid. unfold find_order. induction l as [|o l IH]; [reflexivity|]. cbn [map List.find]. unfold is_order at 1 3. cbn [renf re_tick re_id]. unfold f. rewrite ren_inj by (try assumption; apply Hl; constructor).
  destruct ((re_tick o =? t) && (re_id o =? id)); [reflexivity|]. apply IH. intros x Hx. apply Hl. constructor. exact Hx.
Qed.
Lemma change_renf t id g g' l : (forall o, o ∈ l -> ~ In (re_id o) D) -> ~ In id D -> (forall o, g' (renf o) = option_map renf (g o)) ->
  change t (f id) g' (map renf l) = map renf (change t id g l).
Proof.
  intros Hl Hid Hg. unfold change. induction l as [|o l IH]; [reflexivity|]. cbn [map flat_map]. rewrite map_app, IH by (intros x Hx; apply Hl; constructor; exact Hx). f_equal.
  unfold is_order. cbn [renf re_tick re_id]. unfold f at 1. rewrite ren_inj by (try assumption; apply Hl; constructor). destruct ((re_tick o =? t) && (re_id o =? id)); [|reflexivity]. fold (renf o). rewrite Hg. destruct (g o); reflexivity.
Qed.
Section Rel.
Context (m m' : machine) (H : part_of m m').
Lemma part_kept o : o ∈ kept (ma_orders m) -> ~ In (re_id o) D.
Proof.
  intros Ho Hi. apply elem_of_list_In, filter_In in Ho as [Ho Hd]. apply elem_of_list_In in Ho. apply HB in Hi. rewrite <- (po_side _ _ H _ Ho) in Hi. rewrite bool_decide_true in Hd by exact Hi. discriminate.
Qed.
Lemma part_find t id : ~ In id B -> find_order t (f id) (ma_orders m') = option_map renf (find_order t id (ma_orders m)).
Proof.
  intros Hid. rewrite <- (kept_find t id), <- (kept_find t (f id)), (po_orders _ _ H).
  - apply find_renf; [exact part_kept|auto].
  - intros o Ho Hd E. destruct (po_other _ _ H o Ho Hd) as [X1 X2]. destruct (Z_lt_ge_dec id n0) as [Hl|Hg].
    + unfold f in E. rewrite (ren_low D Hnd n0) in E by (assumption || lia). congruence.
    + pose proof (ren_high D Hnd n0 id Hlo ltac:(lia)) as Hh. fold f in Hh. lia.
  - intros o Ho Hd E. apply Hid. rewrite <- E. apply (po_side _ _ H _ Ho). exact Hd.
Qed.
Lemma part_change t id g g' : ~ In id B -> keeps_dir g -> keeps_dir g' -> (forall o, g' (renf o) = option_map renf (g o)) ->
  part_of (with_orders m (change t id g (ma_orders m))) (with_orders m' (change t (f id) g' (ma_orders m'))).
Proof.
  intros Hid Hg Hg' Hc. pose proof part_kept as Hk. destruct H as [A1 A2 A3 A4 A5 A6 A7 A8]. split; cbn [with_orders ma_quote ma_base ma_set ma_next ma_orders]; try assumption.
  - rewrite !kept_change by assumption. rewrite A6. apply change_renf; auto.
  - intros o Ho. apply change_in in Ho as (o0 & Ho & -> & ->); [|exact Hg]. apply A7, Ho.
  - intros o Ho. apply change_in in Ho as (o0 & Ho & -> & ->); [|exact Hg']. apply A8, Ho.
Qed.
Lemma part_deposit d : deposit_of m' d = deposit_of m d.
Proof. destruct d; apply H. Qed.
Lemma part_payout d : payout_of m' d = payout_of m d.
Proof. apply part_deposit. Qed.
End Rel.
Definition renf_resp (r : response) : response := mkResp (map (renumber_attr f) (r_attrs r)) (map (renumber_event f) (r_events r)) (r_msgs r) (r_data r).
Definition part_res (x x' : option (machine * response)) : Prop :=
  match x, x' with
  | Some (m, r), Some (m', r') => part_of m m' /\ r' = renf_resp r
  | None, None => True
  | _, _ => False
  end.
Lemma part_claim_one m m' sender t id : part_of m m' -> ~ In id B ->
  match claim_one sender t id m, claim_one sender t (f id) m' with
  | Some (m1, ms, ev), Some (m1', ms', ev') => part_of m1 m1' /\ ms' = ms /\ ev' = renumber_event f ev
  | None, None => True
  | _, _ => False
  end.
Proof.
  intros H Hid. unfold claim_one. rewrite (part_find _ _ H _ _ Hid). destruct (find_order t id (ma_orders m)) as [o|]; cbn [option_map]; [|exact I].
  cbn [renf re_filled]. destruct (0 <? re_filled o); [|exact I]. fold (renf o). split; [|split].
  - apply part_change; [exact H|exact Hid| | |].
    + intros o1 o2. destruct (re_open o1 =? 0); [discriminate|]. intros [= <-]. auto.
    + intros o1 o2. destruct (re_open o1 =? 0); [discriminate|]. intros [= <-]. auto.
    + intros o'. cbn [renf re_open]. destruct (re_open o' =? 0); reflexivity.
  - unfold payments, owner_gets, fee_part. cbn [renf re_owner re_dir]. fold (renf o). rewrite (part_payout _ _ H), (po_set _ _ H). reflexivity.
  - unfold announcement, owner_gets, fee_part, renumber_event. cbn [renf re_owner re_dir ce_sender ce_tick ce_id ce_quantity_remaining ce_owner ce_dir ce_amount_claimed ce_placed_quantity ce_fully_claimed ce_order_denom ce_output_denom].
    fold (renf o). rewrite (part_payout _ _ H), (part_deposit _ _ H), (po_set _ _ H). reflexivity.
Qed.
Lemma part_claim_all sender l : forall m m', part_of m m' -> (forall x, In x l -> ~ In x.2 B) ->
  let '(m1, ms, evs) := claim_all sender l m in
  let '(m1', ms', evs') := claim_all sender (map (fun x => (fst x, f (snd x))) l) m' in
  part_of m1 m1' /\ ms' = ms /\ evs' = map (renumber_event f) evs.
Proof.
  induction l as [|[t id] l IH]; intros m m' H Hl; cbn [map claim_all fst snd]; [auto|].
  assert (Hl' : forall x, In x l -> ~ In x.2 B) by (intros; apply Hl; right; assumption).
  pose proof (part_claim_one m m' sender t id H (Hl (t, id) (or_introl eq_refl))) as Hc. destruct (claim_one sender t id m) as [[[m1 ms] ev]|], (claim_one sender t (f id) m') as [[[m1' ms'] ev']|]; try contradiction.
  - destruct Hc as (H1 & -> & ->). specialize (IH _ _ H1 Hl'). destruct (claim_all sender l m1) as [[m2 ms2] evs], (claim_all sender _ m1') as [[m2' ms2'] evs'].
    destruct IH as (I1 & -> & ->). auto.
  - apply IH; assumption.
Qed.
Lemma part_reply m m' s a : part_of m m' -> map (renumber_attr f) a = a -> part_res (m_reply m s a) (m_reply m' s a).
Proof. intros [] Ha. split; [split; try assumption; reflexivity|]. unfold renf_resp. cbn. rewrite Ha. reflexivity. Qed.

(** Swaps *)
Lemma kept_open s l t : s <> side -> open_on s (kept l) t = open_on s l t.
Proof.
  intros Hs. unfold open_on, kept. induction l as [|o l IH]; [reflexivity|]. cbn [List.filter foldr]. destruct (bool_decide_reflect (re_dir o = side)) as [E|E]; cbn [negb foldr]; rewrite IH; [|reflexivity].
  rewrite (bool_decide_false (re_dir o = s /\ re_tick o = t)) by (intros [X _]; congruence). lia.
Qed.
Lemma kept_levels s target l : s <> side -> levels s target (kept l) = levels s target l.
Proof.
  intros Hs. unfold levels, kept. induction l as [|o l IH]; [reflexivity|]. cbn [List.filter foldr]. destruct (bool_decide_reflect (re_dir o = side)) as [E|E]; cbn [negb foldr]; rewrite IH; [|reflexivity].
  unfold reachable_level. rewrite (bool_decide_false (re_dir o = s)) by congruence. reflexivity.
Qed.
Lemma kept_fill s l : s <> side -> forall X, kept (fill_side s X l) = fill_side s X (kept l).
Proof.
  intros Hs. unfold kept. induction l as [|o l IH]; intros X; [reflexivity|]. cbn [fill_side List.filter]. destruct (bool_decide_reflect (re_dir o = s)) as [E|E].
  - cbn [List.filter set_parts re_dir]. rewrite (bool_decide_false (re_dir o = side)) by congruence. cbn [negb fill_side]. rewrite (bool_decide_true (re_dir o = s)) by exact E. rewrite IH. reflexivity.
  - cbn [List.filter]. rewrite IH. destruct (bool_decide (re_dir o = side)); cbn [negb fill_side]; [reflexivity|]. rewrite (bool_decide_false _ E). reflexivity.
Qed.
Lemma dropped_fill l : forall X, kept (fill_side side X l) = kept l.
Proof.
  unfold kept. induction l as [|o l IH]; intros X; [reflexivity|]. cbn [fill_side]. destruct (bool_decide_reflect (re_dir o = side)) as [E|E]; cbn [List.filter set_parts re_dir]; rewrite IH.
  - rewrite (bool_decide_true _ E). reflexivity.
  - reflexivity.
Qed.
Lemma fill_in s l o : forall X, o ∈ fill_side s X l -> exists o0, o0 ∈ l /\ re_id o = re_id o0 /\ re_dir o = re_dir o0.
Proof.
  induction l as [|a l IH]; intros X Ho; cbn [fill_side] in Ho; [inversion Ho|]. destruct (bool_decide _); apply elem_of_cons in Ho as [->|Ho];
    [exists a; split; [constructor|auto]|destruct (IH _ Ho) as (o0 & H0 & E); exists o0; split; [constructor; exact H0|exact E]|exists a; split; [constructor|auto]|destruct (IH _ Ho) as (o0 & H0 & E); exists o0; split; [constructor; exact H0|exact E]].
Qed.
Lemma renf_open s l t : open_on s (map renf l) t = open_on s l t.
Proof. unfold open_on. induction l as [|o l IH]; [reflexivity|]. cbn [map foldr]. rewrite IH. reflexivity. Qed.
Lemma renf_levels s target l : levels s target (map renf l) = levels s target l.
Proof. unfold levels. induction l as [|o l IH]; [reflexivity|]. cbn [map foldr]. rewrite IH. reflexivity. Qed.
Lemma renf_fill s l : forall x, fill_side s x (map renf l) = map renf (fill_side s x l).
Proof.
  induction l as [|o l IH]; intros x; [reflexivity|]. cbn [map fill_side renf re_dir re_tick re_open re_filled]. fold (renf o). destruct (bool_decide _); cbn [map]; rewrite IH; reflexivity.
Qed.
Lemma part_open s m m' t : part_of m m' -> s <> side -> open_on s (ma_orders m') t = open_on s (ma_orders m) t.
Proof. intros H Hs. rewrite <- (kept_open s _ t Hs), (po_orders _ _ H), renf_open. apply kept_open, Hs. Qed.
Lemma part_levels s target m m' : part_of m m' -> s <> side -> levels s target (ma_orders m') = levels s target (ma_orders m).
Proof. intros H Hs. rewrite <- (kept_levels s target _ Hs), (po_orders _ _ H), renf_levels. apply kept_levels, Hs. Qed.
Lemma part_fill s X m m' : part_of m m' -> s <> side -> part_of (with_orders m (fill_side s X (ma_orders m))) (with_orders m' (fill_side s X (ma_orders m'))).
Proof.
  intros [A1 A2 A3 A4 A5 A6 A7 A8] Hs. split; cbn [with_orders ma_quote ma_base ma_set ma_next ma_orders]; try assumption.
  - rewrite !kept_fill by assumption. rewrite A6. apply renf_fill.
  - intros o Ho. apply fill_in in Ho as (o0 & Ho & -> & ->). apply A7, Ho.
  - intros o Ho. apply fill_in in Ho as (o0 & Ho & -> & ->). apply A8, Ho.
Qed.
Lemma part_swap e sender tin out mn fee target m m' : part_of m m' -> maker_side m (c_denom tin) out <> Some side ->
  part_res (m_swap e sender tin out mn fee target m) (m_swap e sender tin out mn fee target m').
Proof.
  intros H Hs. unfold m_swap. assert (maker_side m' (c_denom tin) out = maker_side m (c_denom tin) out) as -> by (unfold maker_side; rewrite (po_quote _ _ H), (po_base _ _ H); reflexivity).
  destruct (maker_side m (c_denom tin) out) as [s|]; [|exact I]. assert (Hs' : s <> side) by congruence. rewrite (po_set _ _ H). destruct (_ && _); [|exact I]. rewrite (part_levels _ _ _ _ H Hs').
  rewrite (walk_ext s _ (open_on s (ma_orders m')) (open_on s (ma_orders m))) by (intros; apply part_open; assumption). destruct (walk _ _ _ _ _ _) as [[fl rst]|]; [|exact I]. destruct (mn <=? total_out fl); [|exact I].
  split; [|reflexivity]. apply part_fill; assumption.
Qed.

(** Calls *)
Definition m_about (m : machine) (c : call) : bool :=
  let trades tin tout := bool_decide (c_denom tin = deposit_of m (opposite side) /\ tout = deposit_of m side) in
  match c with
  | CExec _ (PlaceLimit _ d _ _) => bool_decide (d = side)
  | CExec _ (CancelLimit _ id) | CExec _ (ClaimLimit _ id) => mem id B
  | CExec _ (BatchClaim l) => existsb (fun x => mem x.2 B) l
  | CSudo (SwapExactAmountIn _ tin tout _ _) | CSudo (SwapToTick _ tin tout _ _ _) => trades tin tout
  | _ => false
  end.
Lemma not_mem id : mem id B = false -> ~ In id B.
Proof. intros E Hi. apply mem_in in Hi. congruence. Qed.
Lemma trades_side m tin tout : ma_quote m <> ma_base m -> bool_decide (c_denom tin = deposit_of m (opposite side) /\ tout = deposit_of m side) = bool_decide (maker_side m (c_denom tin) tout = Some side).
Proof.
  intros Hq. apply bool_decide_ext. unfold maker_side. destruct side; cbn [opposite deposit_of].
  - destruct (bool_decide_reflect (c_denom tin = ma_quote m /\ tout = ma_base m)) as [[E1 E2]|E]; [split; [intros [X1 X2]; congruence|discriminate]|].
    destruct (bool_decide_reflect (c_denom tin = ma_base m /\ tout = ma_quote m)); split; try discriminate; auto; contradiction.
  - destruct (bool_decide_reflect (c_denom tin = ma_quote m /\ tout = ma_base m)) as [E|E]; [split; auto|]. split; [intros X; contradiction|]. destruct (bool_decide _); discriminate.
Qed.
Definition next_out (e : env) (c : call) (m : machine) : Prop := forall m1 r, m_run e c m = Some (m1, r) -> ma_next m1 <> ma_next m -> ~ In (ma_next m) B.
Definition next_in (e : env) (c : call) (m : machine) : Prop := forall m1 r, m_run e c m = Some (m1, r) -> ma_next m1 <> ma_next m -> In (ma_next m) D.
Lemma kept_run e c m m' : part_of m m' -> ma_quote m <> ma_base m -> m_about m c = false -> next_out e c m -> part_res (m_run e c m) (m_run e (renumber_call f c) m').
Proof.
  intros H Hq Ha Hn. destruct c as [i x|x| |c]; [destruct x as [t d q b|t id|t id|l|a]| | |]; cbn [renumber_call m_about] in Ha |- *; cbn [m_run].
  - unfold next_out in Hn. cbn [m_run] in Hn. unfold m_place in Hn |- *. rewrite (po_set _ _ H), (part_deposit _ _ H), (part_payout _ _ H).
    destruct (_ && _); [|exact I]. specialize (Hn _ _ eq_refl). cbn [ma_next] in Hn. specialize (Hn ltac:(lia)). apply bool_decide_eq_false in Ha. pose proof H as [H1 H2 H3 H4 H5 H6 H7 H8].
    assert (HnD : ~ In (ma_next m) D) by auto. split; [split; cbn [ma_quote ma_base ma_set ma_next ma_orders]; first [assumption|reflexivity|lia|idtac]|].
    + rewrite H4. unfold f. symmetry. apply ren_next_out; assumption.
    + unfold kept in *. rewrite !List.filter_app, map_app, H6. f_equal. cbn [List.filter re_dir]. rewrite (bool_decide_false _ Ha). cbn [negb map]. unfold renf. cbn. rewrite H4. reflexivity.
    + intros o Ho. apply elem_of_app in Ho as [Ho|Ho]; [apply H7, Ho|]. apply elem_of_list_singleton in Ho as ->. cbn. split; [contradiction|intros X; contradiction].
    + intros o Ho. apply elem_of_app in Ho as [Ho|Ho]; [apply H8, Ho|]. apply elem_of_list_singleton in Ho as ->. cbn. contradiction.
    + rewrite H4. reflexivity.
  - apply not_mem in Ha. unfold m_cancel. rewrite (part_find _ _ H _ _ Ha). destruct (find_order t id (ma_orders m)) as [o|]; cbn [option_map]; [|exact I].
    cbn [renf re_owner re_filled re_dir re_open re_placed]. rewrite (po_set _ _ H), (part_deposit _ _ H), (part_payout _ _ H). destruct (_ && _); [|exact I]. split; [|reflexivity].
    apply part_change; [exact H|exact Ha|discriminate|discriminate|reflexivity].
  - apply not_mem in Ha. unfold m_claim. rewrite (po_set _ _ H). destruct (_ && _); [|exact I].
    pose proof (part_claim_one m m' (i_sender i) t id H Ha) as Hcl. destruct (claim_one _ t id m) as [[[m1 ms] ev]|], (claim_one _ t (f id) m') as [[[m1' ms'] ev']|]; try contradiction; [|exact I].
    destruct Hcl as (H1 & -> & ->). split; [exact H1|reflexivity].
  - assert (Hl : forall x, In x l -> ~ In x.2 B).
    { intros x Hx. apply not_mem. destruct (mem x.2 B) eqn:E; [|reflexivity]. assert (existsb (fun x => mem x.2 B) l = true) by (apply existsb_exists; eauto). congruence. }
    unfold m_batch. rewrite (po_set _ _ H), map_length. destruct (_ && _); [|exact I].
    pose proof (part_claim_all (i_sender i) l m m' H Hl) as Hcl. destruct (claim_all _ l m) as [[m1 ms] evs], (claim_all _ _ m') as [[m1' ms'] evs']. destruct Hcl as (H1 & -> & ->).
    split; [exact H1|reflexivity].
  - unfold m_auth. rewrite (po_set _ _ H). destruct (ma_set m). destruct a;
      (match goal with |- part_res (if ?c then _ else _) _ => destruct c; [apply part_reply; [exact H|reflexivity]|exact I] end).
  - unfold m_sudo. rewrite (po_set _ _ H). destruct (ma_set m). destruct x; try exact I;
      try (match goal with |- part_res (if ?c then _ else _) _ => destruct c; [apply part_reply; [exact H|reflexivity]|exact I] end);
      (rewrite trades_side in Ha by exact Hq; apply bool_decide_eq_false in Ha; apply part_swap; assumption).
  - split; [exact H|reflexivity].
  - split; [exact H|reflexivity].
Qed.
Lemma kept_step e c m m' : part_of m m' -> ma_quote m <> ma_base m -> m_about m c = false -> next_out e c m ->
  snd (m_step e m' (renumber_call f c)) = renumber_outcome f (snd (m_step e m c)) /\ part_of (fst (m_step e m c)) (fst (m_step e m' (renumber_call f c))).
Proof.
  intros H Hq Ha Hn. pose proof (kept_run e c m m' H Hq Ha Hn) as Hr. unfold m_step. destruct (m_run e c m) as [[m1 r]|], (m_run e (renumber_call f c) m') as [[m1' r']|]; try contradiction; [|auto].
  destruct Hr as [H1 ->]. cbn [renf_resp r_msgs]. destruct (forallb _ _); auto.
Qed.
Lemma dropped_change t id g m m' : part_of m m' -> In id B -> keeps_dir g -> part_of (with_orders m (change t id g (ma_orders m))) m'.
Proof.
  intros H Hid Hg. assert (Hk : kept (change t id g (ma_orders m)) = kept (ma_orders m)).
  { rewrite kept_change by exact Hg. apply change_none. intros o Ho E. apply filter_In in Ho as [Ho Hd]. apply elem_of_list_In in Ho. rewrite <- E in Hid. apply (po_side _ _ H _ Ho) in Hid. rewrite bool_decide_true in Hd by exact Hid. discriminate. }
  destruct H as [A1 A2 A3 A4 A5 A6 A7 A8]. split; cbn [with_orders ma_quote ma_base ma_set ma_next ma_orders]; try assumption.
  - rewrite Hk. exact A6.
  - intros o Ho. apply change_in in Ho as (o0 & Ho & -> & ->); [|exact Hg]. apply A7, Ho.
Qed.
Lemma dropped_claim_one sender t id m m' m1 ms ev : part_of m m' -> In id B -> claim_one sender t id m = Some (m1, ms, ev) -> part_of m1 m'.
Proof.
  intros H Hid. unfold claim_one. destruct (find_order t id (ma_orders m)) as [o|]; [|discriminate]. destruct (0 <? re_filled o); [|discriminate]. intros [= <- _ _]. apply dropped_change; [exact H|exact Hid|].
  intros o1 o2. destruct (re_open o1 =? 0); [discriminate|]. intros [= <-]. auto.
Qed.
Lemma dropped_claim_all sender l m' : forall m, part_of m m' -> (forall x, In x l -> In x.2 B) -> part_of (claim_all sender l m).1.1 m'.
Proof.
  induction l as [|[t id] l IH]; intros m H Hl; cbn [claim_all]; [exact H|]. assert (Hl' : forall x, In x l -> In x.2 B) by (intros; apply Hl; right; assumption).
  destruct (claim_one sender t id m) as [[[m1 ms] ev]|] eqn:E; [|apply IH; assumption]. pose proof (dropped_claim_one _ _ _ _ _ _ _ _ H (Hl (t, id) (or_introl eq_refl)) E) as H1.
  specialize (IH m1 H1 Hl'). destruct (claim_all sender l m1) as [[m2 ms2] evs]. exact IH.
Qed.
Lemma dropped_swap e sender tin out mn fee target m m' m1 r : part_of m m' -> maker_side m (c_denom tin) out = Some side -> m_swap e sender tin out mn fee target m = Some (m1, r) -> part_of m1 m'.
Proof.
  intros H Hs. unfold m_swap. rewrite Hs. destruct (_ && _); [|discriminate]. destruct (walk _ _ _ _ _ _) as [[fl rst]|]; [|discriminate]. destruct (mn <=? total_out fl); [|discriminate]. intros [= <- _].
  destruct H as [A1 A2 A3 A4 A5 A6 A7 A8]. split; cbn [with_orders ma_quote ma_base ma_set ma_next ma_orders]; try assumption.
  - rewrite dropped_fill. exact A6.
  - intros o Ho. apply fill_in in Ho as (o0 & Ho & -> & ->). apply A7, Ho.
Qed.
Lemma dropped_run e c m m' m1 r : part_of m m' -> ma_quote m <> ma_base m -> m_about m c = true -> pure B c = true -> next_in e c m -> m_run e c m = Some (m1, r) -> part_of m1 m'.
Proof.
  intros H Hq Ha Hp Hn Er. destruct c as [i x|x| |c]; [destruct x as [t d q b|t id|t id|l|a]| | |]; cbn [m_about] in Ha; try discriminate Ha.
  - specialize (Hn _ _ Er). cbn [m_run] in Er. unfold m_place in Er. destruct (_ && _); [|discriminate]. injection Er as <- _. cbn [ma_next] in Hn. specialize (Hn ltac:(lia)). apply bool_decide_eq_true in Ha as ->.
    destruct H as [H1 H2 H3 H4 H5 H6 H7 H8]. split; cbn [ma_quote ma_base ma_set ma_next ma_orders]; first [assumption|lia|idtac].
    + rewrite H4. unfold f. symmetry. apply ren_next_in; assumption.
    + rewrite H6. unfold kept. rewrite List.filter_app. cbn [List.filter re_dir]. rewrite (bool_decide_true (side = side)) by reflexivity. cbn [negb]. rewrite app_nil_r. reflexivity.
    + intros o Ho. apply elem_of_app in Ho as [Ho|Ho]; [apply H7, Ho|]. apply elem_of_list_singleton in Ho as ->. cbn. split; auto.
  - apply mem_in in Ha. cbn [m_run] in Er. unfold m_cancel in Er. destruct (find_order t id (ma_orders m)); [|discriminate]. destruct (_ && _); [|discriminate]. injection Er as <- _. apply dropped_change; [exact H|exact Ha|discriminate].
  - apply mem_in in Ha. cbn [m_run] in Er. unfold m_claim in Er. destruct (_ && _); [|discriminate]. destruct (claim_one _ t id m) as [[[m2 ms] ev]|] eqn:E; [|discriminate]. injection Er as <- _. eapply dropped_claim_one; eauto.
  - assert (Hl : forall x, In x l -> In x.2 B).
    { intros x Hx. cbn [pure] in Hp. apply orb_prop in Hp as [Hp|Hp]; rewrite forallb_forall in Hp; [apply mem_in, Hp, Hx|]. apply existsb_exists in Ha as (y & Hy & Ey). specialize (Hp y Hy). rewrite Ey in Hp. discriminate. }
    cbn [m_run] in Er. unfold m_batch in Er. destruct (_ && _); [|discriminate]. pose proof (dropped_claim_all (i_sender i) l m' m H Hl) as Hc. destruct (claim_all _ l m) as [[m2 ms] evs]. injection Er as <- _. exact Hc.
  - cbn [m_run] in Er. unfold m_sudo in Er. destruct (ma_set m). destruct x; try discriminate Ha; rewrite trades_side in Ha by exact Hq; apply bool_decide_eq_true in Ha; eapply dropped_swap; eauto.
Qed.
Lemma dropped_step e c m m' : part_of m m' -> ma_quote m <> ma_base m -> m_about m c = true -> pure B c = true -> next_in e c m -> part_of (fst (m_step e m c)) m'.
Proof.
  intros H Hq Ha Hp Hn. unfold m_step. destruct (m_run e c m) as [[m1 r]|] eqn:Er; [|exact H]. destruct (forallb _ _); [|exact H]. eapply dropped_run; eauto.
Qed.
End Side.

(** ** Histories *)
Lemma claim_all_frame sender l : forall m, let m1 := (claim_all sender l m).1.1 in ma_quote m1 = ma_quote m /\ ma_base m1 = ma_base m /\ ma_next m1 = ma_next m.
Proof.
  induction l as [|[t id] l IH]; intros m; cbn [claim_all]; [auto|]. destruct (claim_one sender t id m) as [[[m1 ms] ev]|] eqn:E; [|apply IH].
  assert (H1 : ma_quote m1 = ma_quote m /\ ma_base m1 = ma_base m /\ ma_next m1 = ma_next m) by (unfold claim_one in E; destruct (find_order _ _ _); [|discriminate]; destruct (0 <? _); [|discriminate]; injection E as <- _ _; auto).
  specialize (IH m1). destruct (claim_all sender l m1) as [[m2 ms2] evs]. cbn in *. intuition congruence.
Qed.
Definition is_place (c : call) : bool := match c with CExec _ (PlaceLimit _ _ _ _) => true | _ => false end.
Lemma run_frame e c m m1 r : m_run e c m = Some (m1, r) -> ma_quote m1 = ma_quote m /\ ma_base m1 = ma_base m /\ ma_next m1 = ma_next m + (if is_place c then 1 else 0).
Proof.
  assert (Hs : forall sender tin out mn fee target, m_swap e sender tin out mn fee target m = Some (m1, r) -> ma_quote m1 = ma_quote m /\ ma_base m1 = ma_base m /\ ma_next m1 = ma_next m + 0).
  { intros *. unfold m_swap. destruct (maker_side _ _ _); [|discriminate]. destruct (_ && _); [|discriminate]. destruct (walk _ _ _ _ _ _) as [[fl rst]|]; [|discriminate]. destruct (_ <=? _); [|discriminate]. intros [= <- _]. cbn. repeat split; lia. }
  assert (Hr : forall s a, m_reply m s a = Some (m1, r) -> ma_quote m1 = ma_quote m /\ ma_base m1 = ma_base m /\ ma_next m1 = ma_next m + 0).
  { intros s a. unfold m_reply. intros [= <- _]. cbn. repeat split; lia. }
  destruct c as [i x|x| |c]; [destruct x as [t d q b|t id|t id|l|a]| | |]; cbn [m_run is_place].
  - unfold m_place. destruct (_ && _); [|discriminate]. intros [= <- _]. auto.
  - unfold m_cancel. destruct (find_order _ _ _); [|discriminate]. destruct (_ && _); [|discriminate]. intros [= <- _]. cbn. repeat split; lia.
  - unfold m_claim. destruct (_ && _); [|discriminate]. unfold claim_one. destruct (find_order _ _ _); [|discriminate]. destruct (0 <? _); [|discriminate]. intros [= <- _]. cbn. repeat split; lia.
  - unfold m_batch. destruct (_ && _); [|discriminate]. pose proof (claim_all_frame (i_sender i) l m) as F. destruct (claim_all _ l m) as [[m2 ms] evs]. cbn in F. intros [= <- _]. destruct F as (-> & -> & ->). repeat split; lia.
  - unfold m_auth. destruct (ma_set m). destruct a; (match goal with |- (if ?c then _ else _) = _ -> _ => destruct c; [apply Hr|discriminate] end).
  - unfold m_sudo. destruct (ma_set m). destruct x; try discriminate; try apply Hs; (match goal with |- (if ?c then _ else _) = _ -> _ => destruct c; [apply Hr|discriminate] end).
  - intros [= <- _]. repeat split; lia.
  - intros [= <- _]. repeat split; lia.
Qed.
Lemma step_frame e c m : let m1 := fst (m_step e m c) in ma_quote m1 = ma_quote m /\ ma_base m1 = ma_base m /\ ma_next m <= ma_next m1.
Proof.
  unfold m_step. destruct (m_run e c m) as [[m1 r]|] eqn:E; [|cbn; repeat split; lia]. destruct (run_frame _ _ _ _ _ E) as (F1 & F2 & F3). destruct (forallb _ _); cbn [fst]; repeat split; try assumption; destruct (is_place c); lia.
Qed.
Definition new_ids (side : dir) (n : Z) (c : call) (o : outcome) : list Z :=
  match c, o with CExec _ (PlaceLimit _ d _ _), Done _ => if bool_decide (d = side) then [n] else [] | _, _ => [] end.
Fixpoint m_placed (side : dir) (m : machine) (h : list (env * call)) : list Z :=
  match h with [] => [] | (e, c) :: h => new_ids side (ma_next m) c (snd (m_step e m c)) ++ m_placed side (fst (m_step e m c)) h end.
Lemma place_counts e i t d q b m r : snd (m_step e m (CExec i (PlaceLimit t d q b))) = Done r -> ma_next (fst (m_step e m (CExec i (PlaceLimit t d q b)))) = ma_next m + 1.
Proof.
  unfold m_step. destruct (m_run _ _ m) as [[m1 r1]|] eqn:E; [|discriminate]. destruct (run_frame _ _ _ _ _ E) as (_ & _ & F). destruct (forallb _ _); [intros _; exact F|discriminate].
Qed.
Lemma new_ids_spec side n c o x : In x (new_ids side n c o) -> x = n /\ exists i t q b r, c = CExec i (PlaceLimit t side q b) /\ o = Done r.
Proof.
  unfold new_ids. destruct c as [i y| | |]; try (intros []). destruct y as [t d q b| | | |]; try (intros []). destruct o; try (intros []). destruct (bool_decide_reflect (d = side)) as [->|]; [|intros []]. intros [<-|[]]. split; [reflexivity|eauto 10].
Qed.
Lemma placed_ge side h : forall m x, In x (m_placed side m h) -> ma_next m <= x.
Proof.
  induction h as [|[e c] h IH]; intros m x; cbn [m_placed]; [intros []|]. intros [H|H]%in_app_or; [apply new_ids_spec in H as [-> _]; lia|]. apply IH in H. destruct (step_frame e c m) as (_ & _ & F). lia.
Qed.
Lemma placed_nodup side h : forall m, NoDup (m_placed side m h).
Proof.
  induction h as [|[e c] h IH]; intros m; cbn [m_placed]; [constructor|]. apply NoDup_app. split; [|split; [|apply IH]].
  - unfold new_ids. destruct c as [i y| | |]; try constructor. destruct y; try constructor. destruct (snd _); try constructor. destruct (bool_decide _); [apply NoDup_singleton|constructor].
  - intros x H1 H2. apply elem_of_list_In in H1, H2. apply new_ids_spec in H1 as (-> & i & t & q & b & r & -> & E). apply placed_ge in H2. pose proof (place_counts _ _ _ _ _ _ _ _ E). lia.
Qed.
Lemma rest_cons s side B f e c h : rest s side B f ((e, c) :: h) = if about s side B c then rest s side B f h else (e, renumber_call f c) :: rest s side B f h.
Proof. unfold rest. cbn [List.filter snd]. destruct (about s side B c); reflexivity. Qed.
Lemma sides_history side B n0 s h : forall pre m m',
  let D := pre ++ m_placed side m h in let f := renumber D in
  NoDup D -> (forall x, In x D -> n0 <= x) -> (forall x, In x D -> In x B) -> (forall x, In x B -> x < n0 \/ In x D) -> (forall x, In x pre -> x < ma_next m) ->
  part_of side D B n0 m m' -> ma_quote m <> ma_base m -> (forall d, deposit_denom s d = deposit_of m d) -> (forall e c, (e, c) ∈ h -> pure B c = true) ->
  m_outcomes m' (rest s side B f h) = map (renumber_outcome f) (rest_outcomes s side B h (m_outcomes m h)) /\ part_of side D B n0 (m_after m h) (m_after m' (rest s side B f h)).
Proof.
  induction h as [|[e c] h IH]; intros pre m m' D f Hnd Hlo HDB HBD Hpre H Hq Hs Hp; [auto|].
  set (m1 := fst (m_step e m c)). set (nw := new_ids side (ma_next m) c (snd (m_step e m c))).
  assert (ED : D = (pre ++ nw) ++ m_placed side m1 h) by (unfold D; cbn [m_placed]; rewrite app_assoc; reflexivity).
  destruct (step_frame e c m) as (F1 & F2 & F3). fold m1 in F1, F2, F3.
  assert (Hpre' : forall x, In x (pre ++ nw) -> x < ma_next m1).
  { intros x [Hx|Hx]%in_app_or; [specialize (Hpre x Hx); lia|]. apply new_ids_spec in Hx as (-> & i & t & q & b & r & -> & E). pose proof (place_counts _ _ _ _ _ _ _ _ E). unfold m1. lia. }
  assert (Hp' : forall e c, (e, c) ∈ h -> pure B c = true) by (intros e0 c0 H0; apply (Hp e0); constructor; exact H0). pose proof (Hp e c ltac:(constructor)) as Hpc.
  assert (Hq' : ma_quote m1 <> ma_base m1) by congruence. assert (Hs' : forall d, deposit_denom s d = deposit_of m1 d) by (intros d; rewrite Hs; destruct d; cbn; congruence).
  assert (Ea : about s side B c = m_about side B m c) by (unfold about, m_about; rewrite !Hs; reflexivity).
  assert (Hdone : forall mm r, m_run e c m = Some (mm, r) -> ma_next mm <> ma_next m -> exists i t d q b, c = CExec i (PlaceLimit t d q b) /\ snd (m_step e m c) = Done r /\ ma_next m1 = ma_next m + 1).
  { intros mm r Er Hne. destruct (run_frame _ _ _ _ _ Er) as (_ & _ & F). destruct c as [i y| | |]; try (cbn in F; lia). destruct y as [t d q b| | | |]; try (cbn in F; lia).
    assert (Em : m_step e m (CExec i (PlaceLimit t d q b)) = (mm, Done r)).
    { unfold m_step. rewrite Er. cbn [m_run] in Er. unfold m_place in Er. destruct (_ && _); [|discriminate]. injection Er as <- <-. reflexivity. }
    exists i, t, d, q, b. unfold m1. rewrite Em. cbn [is_place fst snd] in *. auto. }
  specialize (IH (pre ++ nw) m1). rewrite <- ED in IH. rewrite rest_cons. cbn [snd m_outcomes rest_outcomes fst m_after]. fold m1. destruct (about s side B c) eqn:Ab; symmetry in Ea; cbn [negb app map].
  - apply IH; try assumption. apply dropped_step; try assumption. intros mm r Er Hne. destruct (Hdone mm r Er Hne) as (i & t & d & q & b & -> & E & _). cbn [m_about] in Ea. apply bool_decide_eq_true in Ea as ->.
    rewrite ED. apply in_or_app. left. apply in_or_app. right. unfold nw. rewrite E. cbn. rewrite bool_decide_true by reflexivity. left. reflexivity.
  - assert (Hno : next_out B e c m).
    { intros mm r Er Hne Hi. destruct (Hdone mm r Er Hne) as (i & t & d & q & b & -> & E & En). cbn [m_about] in Ea. apply bool_decide_eq_false in Ea. destruct (HBD _ Hi) as [Hl|Hd]; [pose proof (po_n0 _ _ _ _ _ _ H); lia|].
      rewrite ED in Hd. apply in_app_or in Hd as [Hd|Hd]; [apply in_app_or in Hd as [Hd|Hd]; [specialize (Hpre _ Hd); lia|unfold nw in Hd; rewrite E in Hd; cbn in Hd; rewrite bool_decide_false in Hd by exact Ea; destruct Hd]|]. apply placed_ge in Hd. lia. }
    destruct (kept_step side D B n0 Hnd Hlo HDB e c m m' H Hq Ea Hno) as [K1 K2]. fold m1 in K2. fold f in K1, K2.
    destruct (IH (fst (m_step e m' (renumber_call f c))) Hnd Hlo HDB HBD Hpre' K2 Hq' Hs' Hp') as [I1 I2]. cbn [m_outcomes m_after fst snd map]. split; [rewrite K1; f_equal; exact I1|exact I2].
Qed.

Lemma placed_machine w0 side h2 : forall h1, start w0 -> history w0 (h1 ++ h2) -> short (h1 ++ h2) ->
  m_placed side (abs (w_st (run w0 h1)) (ideal_run w0 [] h1)) h2 = placed_ids side (run w0 h1) h2.
Proof.
  induction h2 as [|[e c] h2 IH]; intros h1 Hs Hh Hsh; [reflexivity|].
  pose proof Hh as Hh1. apply history_app in Hh1 as [Hh1 Hc]. apply Forall_cons in Hc as [Hok _]. cbn [snd] in Hok.
  pose proof (machine_step e w0 h1 c Hs Hh1 (short_app _ _ Hsh) Hok) as Em. cbv zeta in Em. rewrite cons_middle, app_assoc in Hh, Hsh. specialize (IH (h1 ++ [(e, c)]) Hs Hh Hsh). rewrite run_app, ideal_run_app in IH. cbn [run ideal_run] in IH.
  cbn [m_placed placed_ids]. rewrite Em. cbn [fst snd]. rewrite IH. f_equal. unfold new_ids. destruct c as [i x| | |]; [destruct x| | |]; try reflexivity.
Qed.
Lemma find_self l o : StronglySorted Z.lt (map re_id l) -> o ∈ l -> find_order (re_tick o) (re_id o) l = Some o.
Proof.
  intros Hs Ho. assert (Hi : is_order (re_tick o) (re_id o) o = true) by (unfold is_order; rewrite !Z.eqb_refl; reflexivity).
  destruct (find_order (re_tick o) (re_id o) l) as [o'|] eqn:E; [rewrite (find_unique _ _ _ _ _ Hs E Ho Hi); reflexivity|]. unfold find_order in E. apply elem_of_list_In in Ho. pose proof (find_none _ _ E _ Ho). congruence.
Qed.
Section Start.
Context (side : dir) (s : storage) (m : machine) (Hm : mok m) (Sh : shows s m).
Lemma at_side o : o ∈ ma_orders m -> (re_dir o = side <-> In (re_id o) (ids_at side s)).
Proof.
  intros Ho. assert (Fo : find_order (re_tick o) (re_id o) (ma_orders m) = Some o) by (apply find_self; [apply (mk_ids _ Hm)|exact Ho]).
  unfold ids_at. rewrite in_map_iff. split.
  - intros Hd. destruct (s_orders s !! (re_tick o, re_id o)) as [x|] eqn:Ex; [|rewrite (sh_none _ _ Sh _ _ Ex) in Fo; discriminate]. destruct (sh_order _ _ Sh _ _ _ Ex) as (r & Fr & E). rewrite Fo in Fr. injection Fr as <-.
    exists ((re_tick o, re_id o), x). injection E as _ E2 E3 _ _ _ _ _. split; [exact E2|]. apply filter_In. split; [apply elem_of_list_In, elem_of_map_to_list; exact Ex|]. cbn. rewrite E3. apply bool_decide_true, Hd.
  - intros ([[t id] x] & Ei & Hi). apply filter_In in Hi as [Hi Hd]. apply elem_of_list_In, elem_of_map_to_list in Hi. cbn [snd] in *. apply bool_decide_eq_true in Hd. destruct (sh_order _ _ Sh _ _ _ Hi) as (r & Fr & E).
    apply find_some in Fr as [Hr _]. apply elem_of_list_In in Hr. injection E as _ E2 E3 _ _ _ _ _. assert (r = o) as -> by (eapply ids_unique; [apply (mk_ids _ Hm)|exact Hr|exact Ho|congruence]). congruence.
Qed.
Lemma at_low id : In id (ids_at side s) -> id < ma_next m.
Proof.
  unfold ids_at. rewrite in_map_iff. intros ([[t id'] x] & Ei & Hi). apply filter_In in Hi as [Hi _]. apply elem_of_list_In, elem_of_map_to_list in Hi. cbn [snd] in *. destruct (sh_order _ _ Sh _ _ _ Hi) as (r & Fr & E).
  apply find_some in Fr as [Hr _]. apply elem_of_list_In in Hr. injection E as _ E2 _ _ _ _ _ _. destruct (mk_order _ Hm _ Hr) as (_ & _ & _ & _ & P & _). congruence.
Qed.
Lemma part_start D : NoDup D -> (forall x, In x D -> ma_next m <= x) -> part_of side D (ids_at side s ++ D) (ma_next m) m m.
Proof.
  intros Hnd Hlo. assert (Hid : forall o, o ∈ ma_orders m -> re_id o < ma_next m) by (intros o Ho; apply (mk_order _ Hm _ Ho)). split; try reflexivity.
  - symmetry. eapply ren_low; [exact Hnd|exact Hlo|lia].
  - symmetry. rewrite <- (map_id (kept side (ma_orders m))) at 2. apply map_ext_in. intros o Ho. apply filter_In in Ho as [Ho _]. apply elem_of_list_In in Ho. specialize (Hid o Ho).
    unfold renf. rewrite (ren_low D Hnd (ma_next m)) by (assumption || lia). destruct o. reflexivity.
  - intros o Ho. rewrite (at_side o Ho), in_app_iff. split; [auto|]. intros [X|X]; [exact X|]. specialize (Hlo _ X). specialize (Hid o Ho). lia.
  - intros o Ho Hd. split; [apply in_or_app; left; apply at_side; assumption|apply Hid, Ho].
Qed.
End Start.
Lemma opp_ne side : opposite side <> side.
Proof. destruct side; discriminate. Qed.
Lemma shows_side side D B n0 s s' m m' : NoDup D -> (forall x, In x D -> n0 <= x) -> (forall x, In x D -> In x B) -> mok m -> mok m' -> shows s m -> shows s' m' -> part_of side D B n0 m m' -> same_side (opposite side) (renumber D) s s'.
Proof.
  intros Hnd Hlo HB Hm Hm' Sa Sb H. pose proof Sa as [A1 A2 A3 A4 A5 A6 A7 A8]. pose proof Sb as [B1 B2 B3 B4 B5 B6 B7 B8].
  assert (Ht : forall s m d, (exists ob, s_orderbook s = Some ob /\ ob_quote ob = ma_quote m /\ ob_base ob = ma_base m) -> deposit_denom s d = deposit_of m d).
  { intros x y d (ob & E & E1 & E2). unfold deposit_denom. rewrite E. destruct d; assumption. }
  assert (Hside : forall o, re_dir o = opposite side -> re_dir o <> side) by (intros o E E'; rewrite E in E'; exact (opp_ne _ E')). 
  assert (Look : forall st m t id x r, shows st m -> s_orders st !! (t, id) = Some x -> find_order t id (ma_orders m) = Some r -> visible_data x = (re_tick r, re_dir r, re_owner r, re_open r + re_filled r, re_bounty r, re_placed r, re_time r)).
  { intros st mm t id x r Sh Ex Fr. destruct (sh_order _ _ Sh _ _ _ Ex) as (r' & Fr' & E). rewrite Fr in Fr'. injection Fr' as <-. unfold visible_data. congruence. }
  assert (Dir : forall st m t id x r, shows st m -> s_orders st !! (t, id) = Some x -> find_order t id (ma_orders m) = Some r -> o_dir x = re_dir r).
  { intros st mm t id x r Sh Ex Fr. pose proof (Look _ _ _ _ _ _ Sh Ex Fr) as L. unfold visible_data in L. congruence. }
  split.
  - intros d. rewrite (Ht s m d A1), (Ht s' m' d B1). symmetry. apply (part_deposit _ _ _ _ _ _ H).
  - unfold active. change (unwrap_or (s_active s) true) with (match s_active s with Some b => b | None => true end). change (unwrap_or (s_active s') true) with (match s_active s' with Some b => b | None => true end). rewrite (po_set _ _ _ _ _ _ H) in B2. congruence.
  - rewrite (po_set _ _ _ _ _ _ H) in B2. congruence.
  - unfold next_order_id. rewrite A3, B3. apply (po_next _ _ _ _ _ _ H).
  - intros t id o Eo Hd. destruct (sh_order _ _ Sa _ _ _ Eo) as (r & Fr & _). rewrite (Look _ _ _ _ _ _ Sa Eo Fr). pose proof (Dir _ _ _ _ _ _ Sa Eo Fr) as Hr. rewrite Hd in Hr. symmetry in Hr.
    pose proof Fr as Fi. apply find_some in Fi as [Hin Hi]. apply elem_of_list_In in Hin. unfold is_order in Hi. apply andb_prop in Hi as [I1 I2]. apply Z.eqb_eq in I1, I2.
    assert (Hid : ~ In id B) by (rewrite <- I2; intros X; apply (po_side _ _ _ _ _ _ H _ Hin) in X; exact (Hside _ Hr X)).
    pose proof (part_find side D B n0 Hnd Hlo HB m m' H t id Hid) as P. rewrite Fr in P. cbn [option_map] in P.
    destruct (s_orders s' !! (t, renumber D id)) as [x|] eqn:Ex; [|rewrite (sh_none _ _ Sb _ _ Ex) in P; discriminate]. cbn [option_map]. rewrite (Look _ _ _ _ _ _ Sb Ex P). reflexivity.
  - intros t id' o' Eo Hd. destruct (sh_order _ _ Sb _ _ _ Eo) as (r' & Fr & _). pose proof (Look _ _ _ _ _ _ Sb Eo Fr) as L. pose proof (Dir _ _ _ _ _ _ Sb Eo Fr) as Hr. rewrite Hd in Hr. symmetry in Hr.
    pose proof Fr as Fi. apply find_some in Fi as [Hin Hi]. unfold is_order in Hi. apply andb_prop in Hi as [I1 I2]. apply Z.eqb_eq in I1, I2.
    assert (Hk : In r' (kept side (ma_orders m'))) by (apply filter_In; split; [exact Hin|]; rewrite bool_decide_false by (apply Hside, Hr); reflexivity).
    rewrite (po_orders _ _ _ _ _ _ H) in Hk. apply in_map_iff in Hk as (r & Er & Hk). apply filter_In in Hk as [Hk _]. apply elem_of_list_In in Hk. pose proof (find_self _ _ (mk_ids _ Hm) Hk) as Fr2.
    exists (re_id r). split; [rewrite <- I2, <- Er; reflexivity|]. rewrite L. assert (Et : re_tick r = t) by (rewrite <- I1, <- Er; reflexivity). rewrite Et in Fr2.
    destruct (s_orders s !! (t, re_id r)) as [x|] eqn:Ex; [|rewrite (sh_none _ _ Sa _ _ Ex) in Fr2; discriminate]. cbn [option_map]. rewrite (Look _ _ _ _ _ _ Sa Ex Fr2), <- Er. reflexivity.
  - intros t. specialize (A8 t (opposite side)). specialize (B8 t (opposite side)). rewrite (part_open side D B n0 Hlo HB _ _ _ _ H (opp_ne side)), <- A8 in B8. unfold tick_liquidity, get_values.
    destruct (s_ticks s !! t), (s_ticks s' !! t); rewrite ?B8; try reflexivity. rewrite <- B8. reflexivity.
Qed.
Lemma part_quote side D B n0 m m' tin out : (forall x, In x D -> n0 <= x) -> (forall x, In x D -> In x B) -> part_of side D B n0 m m' -> maker_side m (c_denom tin) out <> Some side -> m_quote tin out m' = m_quote tin out m.
Proof.
  intros Hlo HB H Hs. unfold m_quote. assert (maker_side m' (c_denom tin) out = maker_side m (c_denom tin) out) as -> by (unfold maker_side; rewrite (po_quote _ _ _ _ _ _ H), (po_base _ _ _ _ _ _ H); reflexivity).
  destruct (maker_side m (c_denom tin) out) as [x|]; [|reflexivity]. assert (Hx : x <> side) by congruence. destruct (_ =? 0); [reflexivity|]. rewrite (part_levels side D B n0 _ _ _ _ H Hx).
  rewrite (walk_ext x _ (open_on x (ma_orders m')) (open_on x (ma_orders m))) by (intros; eapply part_open; eassumption). reflexivity.
Qed.

Lemma app_incl (l1 l2 : list Z) : forall x, In x l2 -> In x (l1 ++ l2).
Proof. intros x Hx. apply in_or_app. auto. Qed.
Lemma filter_shorter {A} (p : A -> bool) l : (length (List.filter p l) <= length l)%nat.
Proof. induction l as [|x l IH]; cbn; [lia|]. destruct (p x); cbn; lia. Qed.
(** ** C75 *)
Theorem C75_two_books :
  forall w0 h side mid,
  let w := run w0 h in let s := w_st w in let D := placed_ids side w mid in let ids := ids_at side s ++ D in let f := renumber D in
  let a := run w mid in let z := run w (rest s side ids f mid) in
  start w0 -> history w0 (h ++ mid) -> short (h ++ mid) -> history w0 (h ++ rest s side ids f mid) -> (forall e c, (e, c) ∈ mid -> pure ids c = true) ->
  all_outcomes w (rest s side ids f mid) = map (renumber_outcome f) (rest_outcomes s side ids mid (all_outcomes w mid)) /\
  same_side (opposite side) f (w_st a) (w_st z) /\
  (forall tin out answer, coin_typed tin = true -> c_denom tin = deposit_denom s side -> out = deposit_denom s (opposite side) ->
     (calc_out_amount_given_in (w_st a) tin out 0 = Ok answer <-> calc_out_amount_given_in (w_st z) tin out 0 = Ok answer)).
Proof.
  intros w0 h side mid w s D ids f a z Hs Hh1 Hsh1 Hh2 Hp. set (rs := rest s side ids f mid) in *.
  assert (Hsh2 : short (h ++ rs)) by (unfold short, rs, rest in *; rewrite app_length in *; rewrite map_length; pose proof (filter_shorter (fun ec : env * call => negb (about s side ids (snd ec))) mid); lia).
  pose proof Hh1 as Hh0. apply history_app in Hh0 as [Hh0 _]. destruct (run_good _ _ Hs Hh0) as (G & Hg). pose proof (good_mok _ _ _ Hg) as Hm. pose proof (shows_abs _ _ _ Hg) as S0. fold w s in Hm, S0.
  set (m := abs s (ideal_run w0 [] h)) in *. assert (Hpl : m_placed side m mid = D) by (apply placed_machine; assumption).
  assert (Hnd : NoDup D) by (rewrite <- Hpl; apply placed_nodup). assert (Hlo : forall x, In x D -> ma_next m <= x) by (intros x; rewrite <- Hpl; apply placed_ge).
  pose proof (part_start side s m Hm S0 D Hnd Hlo) as Hpart. fold ids in Hpart.
  assert (Hden : forall d, deposit_denom s d = deposit_of m d) by (intros d; symmetry; apply abs_deposit).
  assert (Hq : ma_quote m <> ma_base m). { destruct (C29_limits w (start_reachable _ _ Hs Hh0)) as (_ & _ & _ & X). rewrite <- !(abs_deposit s (ideal_run w0 [] h)) in X. exact X. }
  pose proof (sides_history side ids (ma_next m) s mid [] m m) as T. cbn [app] in T. rewrite Hpl in T. cbv zeta in T.
  destruct (T Hnd Hlo) as [T1 T2]; [intros x Hx; apply in_or_app; auto|intros x Hx; apply in_app_or in Hx as [Hx|Hx]; [left; eapply at_low; eauto|auto]|intros x []|exact Hpart|exact Hq|exact Hden|exact Hp|]. fold f rs in T1, T2.
  destruct (machine_history w0 mid h Hs Hh1 Hsh1) as [O1 A1]. destruct (machine_history w0 rs h Hs Hh2 Hsh2) as [O2 A2]. fold w s m in O1, A1, O2, A2. rewrite O1, O2 in T1. rewrite A1, A2 in T2.
  split; [exact T1|]. clear T T1.
  destruct (short_ready _ _ Hs Hh1 Hsh1) as (Ga & Ra). destruct (short_ready _ _ Hs Hh2 Hsh2) as (Gz & Rz). pose proof (shows_abs _ _ _ (rd_good _ _ _ Ra)) as Sa. pose proof (shows_abs _ _ _ (rd_good _ _ _ Rz)) as Sz.
  assert (Ea : run w0 (h ++ mid) = a) by apply run_app. assert (Ez : run w0 (h ++ rs) = z) by apply run_app. rewrite Ea in Sa, Ra, T2. rewrite Ez in Sz, Rz, T2.
  pose proof (good_mok _ _ _ (rd_good _ _ _ Ra)) as Ma. pose proof (good_mok _ _ _ (rd_good _ _ _ Rz)) as Mz. set (ma := abs (w_st a) _) in *. set (mz := abs (w_st z) _) in *.
  split; [exact (shows_side side D ids (ma_next m) _ _ _ _ Hnd Hlo (app_incl _ _) Ma Mz Sa Sz T2)|].
  intros tin out answer Hty Ein Eout. assert (Hamt : 0 <= c_amount tin <= U128_MAX). { unfold coin_typed, u128 in Hty. apply andb_prop in Hty as [Y1 Y2]. apply Z.leb_le in Y1, Y2. auto. }
  pose proof (quote_machine _ _ _ tin out Ra Hamt) as Qa. pose proof (quote_machine _ _ _ tin out Rz Hamt) as Qz. fold ma in Qa. fold mz in Qz. rewrite (part_quote _ _ _ _ _ _ tin out Hlo (app_incl _ _) T2) in Qz.
  - destruct (m_quote tin out ma); [rewrite Qa, Qz; reflexivity|]. split; intros X; exfalso; [eapply Qa|eapply Qz]; exact X.
  - assert (Qm : ma_quote ma = ma_quote m /\ ma_base ma = ma_base m).
    { pose proof (C29_denoms_fixed w mid (start_reachable _ _ Hs Hh0)) as Hden'. apply history_app in Hh1 as [_ Hr]. specialize (Hden' Hr). fold a in Hden'. unfold denoms_of in Hden'. injection Hden' as X1 X2. split; assumption. }
    destruct Qm as [Q1 Q2]. rewrite Hden in Ein, Eout. unfold maker_side. rewrite Q1, Q2. destruct side; cbn [opposite deposit_of] in Ein, Eout.
    + rewrite bool_decide_true by auto. discriminate.
    + rewrite bool_decide_false by (intros [X1 X2]; congruence). rewrite bool_decide_true by auto. discriminate.
Qed.
(** Both sides of a book in use; the bids, their claims and cancellations and the sale left out, the orders 3 and 4 have the ids 2 and 3. *)
Definition hist_sides : list (env * call) := [place "a" 0 Bid 50 None; place "b" 100000 Ask 1000 None].
Definition mid_sides : list (env * call) :=
  [place "c" 0 Bid 70 None; place "d" 100000 Ask 300 None; sell "s" 60; buy "y" 1200; claim "z" 0 0; claim "z" 100000 3; cancel "c" 0 2; place "e" 200000 Ask 10 None; cancel "e" 200000 4;
   (tenv, CExec (mkInfo "k" []) (BatchClaim [(100000, 1); (100000, 3)]))].
Definition rest_sides : list (env * call) :=
  [place "d" 100000 Ask 300 None; buy "y" 1200; claim "z" 100000 2; place "e" 200000 Ask 10 None; cancel "e" 200000 3;
   (tenv, CExec (mkInfo "k" []) (BatchClaim [(100000, 1); (100000, 2)]))].
Example C75_case :
  let w := run w_start hist_sides in let s := w_st w in let D := placed_ids Bid w mid_sides in let ids := ids_at Bid s ++ D in let f := renumber D in
  start w_start /\ history w_start (hist_sides ++ mid_sides) /\ history w_start (hist_sides ++ rest_sides) /\ rest s Bid ids f mid_sides = rest_sides /\
  forallb (fun ec => pure ids (snd ec)) mid_sides = true /\ D = [2] /\ ids = [0; 2] /\ map f [0; 1; 3; 4] = [0; 1; 2; 3] /\
  run_out w mid_sides = [true; true; true; true; true; true; false; true; true; true] /\ run_out w rest_sides = [true; true; true; true; true; true] /\
  map (fun o => match o with Done r => total_paid (r_msgs r) | Failed => 0 end) (all_outcomes w mid_sides) = [0; 0; 60; 1091; 50; 99; 0; 0; 10; 1100] /\
  map (fun o => match o with Done r => total_paid (r_msgs r) | Failed => 0 end) (all_outcomes w rest_sides) = [0; 1091; 99; 0; 10; 1100].
Proof.
  cbv zeta. split; [apply start_ok|]. split; [hist|]. split; [hist|]. do 8 (split; [vm_compute; reflexivity|]). vm_compute; reflexivity.
Qed.
