(** * Property C51: a cancelled order leaves no trace. *)
From Verif Require Import Base Dec Types State TickMath Sumtree Tick Order Auth Contract Query World SpecMath TickMathProofs
  TreeDefs Exec SumtreeProofs Ghost Inv Trans Spec Reach Refine RefineStep Reserve Solvency Books SpecProps PropBase Tests PropOrders PropAdmin
  SpecAdmin SpecBank PropBank SpecMachine MachineBase PropMachine SpecTrace.

Definition ren (n : Z) (o : resting) : resting :=
  mkResting (re_tick o) (re_dir o) (later n (re_id o)) (re_owner o) (re_bounty o) (re_time o) (re_placed o) (re_open o) (re_filled o).
Definition others (n : Z) (l : list resting) : list resting := List.filter (fun o => negb (re_id o =? n)) l.
Record twin (n : Z) (m m' : machine) : Prop := {
  tw_quote : ma_quote m' = ma_quote m; tw_base : ma_base m' = ma_base m; tw_set : ma_set m' = ma_set m;
  tw_next : ma_next m' = ma_next m + 1; tw_n : n <= ma_next m;
  tw_orders : others n (ma_orders m') = map (ren n) (ma_orders m)
}.
Lemma later_inj n a b : (later n a =? later n b) = (a =? b).
Proof. unfold later. destruct (Z.eqb_spec a b) as [->|Hn]; [apply Z.eqb_refl|].
  apply Z.eqb_neq. destruct (Z.ltb_spec a n), (Z.ltb_spec b n); lia.
Qed.
Lemma later_ne n a : (later n a =? n) = false.
Proof. unfold later. destruct (Z.ltb_spec a n); apply Z.eqb_neq; lia. Qed.

(** ** Lists *)
Lemma find_others n t id l : find_order t (later n id) (others n l) = find_order t (later n id) l.
Proof.
  unfold find_order, others. induction l as [|o l IH]; [reflexivity|]. cbn [List.filter List.find]. destruct (Z.eqb_spec (re_id o) n) as [E|Hn]; cbn [negb List.find]; rewrite IH.
  - unfold is_order. rewrite E, (Z.eqb_sym n), later_ne, andb_false_r. reflexivity.
  - reflexivity.
Qed.
Lemma find_ren n t id l : find_order t (later n id) (map (ren n) l) = option_map (ren n) (find_order t id l).
Proof.
  unfold find_order. induction l as [|o l IH]; [reflexivity|]. cbn [map List.find]. unfold is_order at 1 3. cbn [ren re_tick re_id]. rewrite later_inj.
  destruct ((re_tick o =? t) && (re_id o =? id)); [reflexivity|exact IH].
Qed.
Lemma change_others n t id f l : (forall o o', f o = Some o' -> re_id o' = re_id o) ->
  others n (change t (later n id) f l) = change t (later n id) f (others n l).
Proof.
  intros Hf. unfold change, others. induction l as [|o l IH]; [reflexivity|]. cbn [flat_map]. rewrite List.filter_app, IH. cbn [List.filter].
  unfold is_order at 1. destruct (Z.eqb_spec (re_id o) n) as [E|Hn]; cbn [negb].
  - rewrite E, (Z.eqb_sym n), later_ne, andb_false_r. cbn [List.filter]. rewrite E, Z.eqb_refl. reflexivity.
  - cbn [flat_map]. f_equal. fold (is_order t (later n id) o). destruct (is_order t (later n id) o).
    + destruct (f o) as [o'|] eqn:Eo; [|reflexivity]. cbn [List.filter]. rewrite (Hf _ _ Eo), (proj2 (Z.eqb_neq _ _) Hn). reflexivity.
    + cbn [List.filter]. rewrite (proj2 (Z.eqb_neq _ _) Hn). reflexivity.
Qed.
Lemma change_ren n t id f f' l : (forall o, f' (ren n o) = option_map (ren n) (f o)) ->
  change t (later n id) f' (map (ren n) l) = map (ren n) (change t id f l).
Proof.
  intros Hf. unfold change. induction l as [|o l IH]; [reflexivity|]. cbn [map flat_map]. rewrite map_app, IH. f_equal. unfold is_order. cbn [ren re_tick re_id]. rewrite later_inj.
  destruct ((re_tick o =? t) && (re_id o =? id)); [|reflexivity]. fold (ren n o). rewrite Hf. destruct (f o); reflexivity.
Qed.
Lemma twin_find n m m' t id : twin n m m' -> find_order t (later n id) (ma_orders m') = option_map (ren n) (find_order t id (ma_orders m)).
Proof. intros H. rewrite <- find_others, (tw_orders _ _ _ H). apply find_ren. Qed.
Lemma twin_change n m m' t id f f' : twin n m m' ->
  (forall o, f' (ren n o) = option_map (ren n) (f o)) -> (forall o o', f' o = Some o' -> re_id o' = re_id o) ->
  twin n (with_orders m (change t id f (ma_orders m))) (with_orders m' (change t (later n id) f' (ma_orders m'))).
Proof.
  intros H Hf Hid. destruct H as [H1 H2 H3 H4 H5 H6]. split; try assumption. cbn [with_orders ma_orders].
  rewrite change_others by exact Hid. rewrite H6. apply change_ren. exact Hf.
Qed.
Lemma twin_deposit n m m' d : twin n m m' -> deposit_of m' d = deposit_of m d.
Proof. intros []. destruct d; assumption. Qed.
Lemma twin_payout n m m' d : twin n m m' -> payout_of m' d = payout_of m d.
Proof. intros H. apply (twin_deposit _ _ _ _ H). Qed.

(** ** Calls that do not trade *)
Definition later_resp (n : Z) (r : response) : response :=
  mkResp (map (later_attr n) (r_attrs r)) (map (later_event n) (r_events r)) (r_msgs r) (r_data r).
Definition twin_res (n : Z) (x x' : option (machine * response)) : Prop :=
  match x, x' with
  | Some (m, r), Some (m', r') => twin n m m' /\ r' = later_resp n r
  | None, None => True
  | _, _ => False
  end.
Lemma twin_claim_one n m m' sender t id : twin n m m' ->
  match claim_one sender t id m, claim_one sender t (later n id) m' with
  | Some (m1, ms, ev), Some (m1', ms', ev') => twin n m1 m1' /\ ms' = ms /\ ev' = later_event n ev
  | None, None => True
  | _, _ => False
  end.
Proof.
  intros H. unfold claim_one. rewrite (twin_find _ _ _ _ _ H). destruct (find_order t id (ma_orders m)) as [o|]; cbn [option_map]; [|exact I].
  cbn [ren re_filled]. destruct (0 <? re_filled o); [|exact I]. fold (ren n o). split; [|split].
  - apply twin_change; [exact H| |].
    + intros o'. cbn [ren re_open]. destruct (re_open o' =? 0); reflexivity.
    + intros o1 o2. destruct (re_open o1 =? 0); [discriminate|]. intros [= <-]. reflexivity.
  - unfold payments, owner_gets, fee_part. cbn [ren re_owner re_dir]. fold (ren n o). rewrite (twin_payout _ _ _ _ H), (tw_set _ _ _ H). reflexivity.
  - unfold announcement, owner_gets, fee_part, later_event. cbn [ren re_owner re_dir ce_sender ce_tick ce_id ce_quantity_remaining ce_owner ce_dir ce_amount_claimed ce_placed_quantity ce_fully_claimed ce_order_denom ce_output_denom].
    fold (ren n o). rewrite (twin_payout _ _ _ _ H), (twin_deposit _ _ _ _ H), (tw_set _ _ _ H). reflexivity.
Qed.
Lemma twin_claim_all n sender l : forall m m', twin n m m' ->
  let '(m1, ms, evs) := claim_all sender l m in
  let '(m1', ms', evs') := claim_all sender (map (fun x => (fst x, later n (snd x))) l) m' in
  twin n m1 m1' /\ ms' = ms /\ evs' = map (later_event n) evs.
Proof.
  induction l as [|[t id] l IH]; intros m m' H; cbn [map claim_all fst snd]; [auto|].
  pose proof (twin_claim_one n m m' sender t id H) as Hc. destruct (claim_one sender t id m) as [[[m1 ms] ev]|], (claim_one sender t (later n id) m') as [[[m1' ms'] ev']|]; try contradiction.
  - destruct Hc as (H1 & -> & ->). specialize (IH _ _ H1). destruct (claim_all sender l m1) as [[m2 ms2] evs], (claim_all sender _ m1') as [[m2' ms2'] evs'].
    destruct IH as (I1 & -> & ->). auto.
  - apply IH. exact H.
Qed.
Lemma twin_reply n m m' s a : twin n m m' -> map (later_attr n) a = a -> twin_res n (m_reply m s a) (m_reply m' s a).
Proof. intros [H1 H2 H3 H4 H5 H6] Ha. split; [split; try assumption; reflexivity|]. unfold later_resp. cbn. rewrite Ha. reflexivity. Qed.
Lemma twin_quiet n e c m m' : twin n m m' -> is_swap c = false -> twin_res n (m_run e c m) (m_run e (later_call n c) m').
Proof.
  intros H Hc. destruct c as [i x|x| |c]; [destruct x as [t d q b|t id|t id|l|a]| | |]; cbn [later_call m_run].
  - unfold m_place. rewrite (tw_set _ _ _ H), (twin_deposit _ _ _ d H), (twin_payout _ _ _ d H).
    destruct (_ && _); [|exact I]. destruct H as [H1 H2 H3 H4 H5 H6]. split; [split; cbn [ma_quote ma_base ma_set ma_next ma_orders]; first [assumption|reflexivity|lia|idtac]|].
    + unfold others in *. rewrite List.filter_app, map_app, H6. f_equal. cbn [List.filter re_id map ren]. rewrite H4.
      assert (E : (ma_next m + 1 =? n) = false) by (apply Z.eqb_neq; lia). rewrite E. cbn [negb]. unfold ren. cbn [re_tick re_dir re_id re_owner re_bounty re_time re_placed re_open re_filled].
      do 2 f_equal. unfold later. destruct (Z.ltb_spec (ma_next m) n); [lia|reflexivity].
    + rewrite H4. unfold later_resp. cbn [r_attrs r_events r_msgs r_data map later_attr]. f_equal.
      assert (E : later n (ma_next m) = ma_next m + 1) by (unfold later; destruct (Z.ltb_spec (ma_next m) n); [lia|reflexivity]). rewrite E. reflexivity.
  - unfold m_cancel. rewrite (twin_find _ _ _ _ _ H). destruct (find_order t id (ma_orders m)) as [o|]; cbn [option_map]; [|exact I].
    cbn [ren re_owner re_filled re_dir re_open re_placed]. rewrite (tw_set _ _ _ H), (twin_deposit _ _ _ _ H), (twin_payout _ _ _ _ H). destruct (_ && _); [|exact I]. split; [|reflexivity].
    apply twin_change; [exact H|reflexivity|discriminate].
  - unfold m_claim. rewrite (tw_set _ _ _ H). destruct (_ && _); [|exact I].
    pose proof (twin_claim_one n m m' (i_sender i) t id H) as Hcl. destruct (claim_one _ t id m) as [[[m1 ms] ev]|], (claim_one _ t (later n id) m') as [[[m1' ms'] ev']|]; try contradiction; [|exact I].
    destruct Hcl as (H1 & -> & ->). split; [exact H1|reflexivity].
  - unfold m_batch. rewrite (tw_set _ _ _ H), map_length. destruct (_ && _); [|exact I].
    pose proof (twin_claim_all n (i_sender i) l m m' H) as Hcl. destruct (claim_all _ l m) as [[m1 ms] evs], (claim_all _ _ m') as [[m1' ms'] evs']. destruct Hcl as (H1 & -> & ->).
    split; [exact H1|reflexivity].
  - unfold m_auth. rewrite (tw_set _ _ _ H). destruct (ma_set m). destruct a;
      (match goal with |- twin_res _ (if ?c then _ else _) _ => destruct c; [apply twin_reply; [exact H|reflexivity]|exact I] end).
  - unfold m_sudo. rewrite (tw_set _ _ _ H). destruct (ma_set m). destruct x; try discriminate Hc; try exact I;
      (match goal with |- twin_res _ (if ?c then _ else _) _ => destruct c; [apply twin_reply; [exact H|reflexivity]|exact I] end).
  - split; [exact H|reflexivity].
  - split; [exact H|reflexivity].
Qed.

(** ** Swaps *)
Lemma open_on_ren n side l t : open_on side (map (ren n) l) t = open_on side l t.
Proof. unfold open_on. induction l as [|o l IH]; [reflexivity|]. cbn [map foldr]. rewrite IH. reflexivity. Qed.
Lemma levels_ren n side target l : levels side target (map (ren n) l) = levels side target l.
Proof. unfold levels. induction l as [|o l IH]; [reflexivity|]. cbn [map foldr]. rewrite IH. reflexivity. Qed.
Lemma fill_ren n side l : forall x, fill_side side x (map (ren n) l) = map (ren n) (fill_side side x l).
Proof.
  induction l as [|o l IH]; intros x; [reflexivity|]. cbn [map fill_side ren re_dir re_tick re_open re_filled]. fold (ren n o).
  destruct (bool_decide _); cbn [map]; rewrite IH; reflexivity.
Qed.
Lemma walk_ext side partial open open' l : (forall t, open t = open' t) -> forall q p, walk side partial open l q p = walk side partial open' l q p.
Proof. intros H. induction l as [|t l IH]; intros q p; [reflexivity|]. cbn [walk]. rewrite H, IH. reflexivity. Qed.
Definition absent (n : Z) (m : machine) : Prop := forall o, o ∈ ma_orders m -> re_id o <> n.
Lemma others_absent n l : (forall o, o ∈ l -> re_id o <> n) -> others n l = l.
Proof.
  induction l as [|o l IH]; intros H; [reflexivity|]. cbn. rewrite (proj2 (Z.eqb_neq _ _) (H o ltac:(constructor))). cbn [negb]. f_equal. apply IH. intros; apply H. constructor. assumption.
Qed.
Lemma twin_all n e c m m' : twin n m m' -> absent n m' -> twin_res n (m_run e c m) (m_run e (later_call n c) m').
Proof.
  intros H Ha. destruct (is_swap c) eqn:Ec; [|apply twin_quiet; assumption].
  assert (Eo : ma_orders m' = map (ren n) (ma_orders m)) by (rewrite <- (tw_orders _ _ _ H); symmetry; apply others_absent; exact Ha).
  assert (Hs : forall sender tin tout mn fee target, twin_res n (m_swap e sender tin tout mn fee target m) (m_swap e sender tin tout mn fee target m')).
  { intros. unfold m_swap, maker_side. rewrite (tw_quote _ _ _ H), (tw_base _ _ _ H). fold (maker_side m (c_denom tin) tout). destruct (maker_side m (c_denom tin) tout) as [side|]; [|exact I].
    rewrite (tw_set _ _ _ H). destruct (_ && _); [|exact I]. rewrite Eo, levels_ren, (walk_ext _ _ _ _ _ (open_on_ren n side (ma_orders m))).
    destruct (walk _ _ _ _ _ _) as [[f rest]|]; [|exact I]. destruct (mn <=? total_out f); [|exact I]. split; [|reflexivity].
    destruct H as [H1 H2 H3 H4 H5 H6]. split; try assumption. cbn [with_orders ma_orders]. rewrite fill_ren. apply others_absent.
    intros o Ho. apply elem_of_list_In, in_map_iff in Ho as (o' & <- & _). cbn. apply Z.eqb_neq, later_ne. }
  destruct c as [|x| |]; try discriminate. destruct x; try discriminate; cbn [later_call m_run m_sudo]; unfold m_sudo; rewrite (tw_set _ _ _ H); destruct (ma_set m); apply Hs.
Qed.
(** No call brings the id back. *)
Lemma change_absent n t id f l : (forall o o', f o = Some o' -> re_id o' = re_id o) -> (forall o, o ∈ l -> re_id o <> n) -> forall o, o ∈ change t id f l -> re_id o <> n.
Proof.
  intros Hf H o Ho. unfold change in Ho. apply elem_of_list_In, in_flat_map in Ho as (o1 & H1 & Ho). apply elem_of_list_In in H1. destruct (is_order t id o1).
  - destruct (f o1) as [o2|] eqn:E; [|contradiction]. destruct Ho as [<-|[]]. rewrite (Hf _ _ E). auto.
  - destruct Ho as [<-|[]]. auto.
Qed.
Lemma claim_absent n sender t id m m1 ms ev : absent n m -> claim_one sender t id m = Some (m1, ms, ev) -> absent n m1 /\ ma_next m1 = ma_next m.
Proof.
  intros H E. unfold claim_one in E. destruct (find_order t id (ma_orders m)) as [o|]; [|discriminate]. destruct (0 <? re_filled o); [|discriminate]. injection E as <- <- <-. split; [|reflexivity].
  intros o1. cbn [with_orders ma_orders]. apply change_absent; [|exact H]. intros o2 o3. destruct (re_open o2 =? 0); [discriminate|]. intros [= <-]. reflexivity.
Qed.
Lemma claims_absent n sender l : forall m, absent n m -> absent n (claim_all sender l m).1.1 /\ ma_next (claim_all sender l m).1.1 = ma_next m.
Proof.
  induction l as [|[t id] l IH]; intros m H; cbn [claim_all]; [auto|]. destruct (claim_one sender t id m) as [[[m1 ms] ev]|] eqn:E; [|apply IH; exact H].
  destruct (claim_absent _ _ _ _ _ _ _ _ H E) as [H1 E1]. specialize (IH m1 H1). destruct (claim_all sender l m1) as [[m2 ms2] evs]. cbn [fst] in *. rewrite <- E1. exact IH.
Qed.
Lemma fill_absent n side l : forall x, (forall o, o ∈ l -> re_id o <> n) -> forall o, o ∈ fill_side side x l -> re_id o <> n.
Proof.
  induction l as [|o1 l IH]; intros x H o Ho; [inversion Ho|]. cbn [fill_side] in Ho. destruct (bool_decide _).
  - apply elem_of_cons in Ho as [->|Ho]; [cbn; apply H; constructor|]. eapply IH; [|exact Ho]. intros; apply H. constructor. assumption.
  - apply elem_of_cons in Ho as [->|Ho]; [apply H; constructor|]. eapply IH; [|exact Ho]. intros; apply H. constructor. assumption.
Qed.
Lemma run_absent n e c m m1 r : absent n m -> n < ma_next m -> m_run e c m = Some (m1, r) -> absent n m1 /\ n < ma_next m1.
Proof.
  intros H Hn E.
  assert (Hs : forall s a, m_reply m s a = Some (m1, r) -> absent n m1 /\ n < ma_next m1) by (intros s a [= <- _]; split; assumption).
  destruct c as [i x|x| |c]; [destruct x as [t d q b|t id|t id|l|a]| | |]; cbn [m_run] in E.
  - unfold m_place in E. destruct (_ && _); [|discriminate]. injection E as <- <-. split; [|cbn; lia]. intros o Ho. cbn [ma_orders] in Ho. apply elem_of_app in Ho as [Ho|Ho]; [apply H, Ho|].
    apply elem_of_list_singleton in Ho as ->. cbn. lia.
  - unfold m_cancel in E. destruct (find_order _ _ _); [|discriminate]. destruct (_ && _); [|discriminate]. injection E as <- <-. split; [|exact Hn].
    intros o. cbn [with_orders ma_orders]. apply change_absent; [discriminate|exact H].
  - unfold m_claim in E. destruct (_ && _); [|discriminate]. destruct (claim_one _ _ _ _) as [[[m2 ms] ev]|] eqn:Ec; [|discriminate]. injection E as <- <-.
    destruct (claim_absent _ _ _ _ _ _ _ _ H Ec) as [H1 E1]. rewrite E1. auto.
  - unfold m_batch in E. destruct (_ && _); [|discriminate]. destruct (claims_absent n (i_sender i) l m H) as [H1 E1]. destruct (claim_all _ _ _) as [[m2 ms] evs]. injection E as <- <-. cbn [fst] in *. rewrite E1. auto.
  - unfold m_auth in E. destruct (ma_set m). destruct a; (match type of E with (if ?c then _ else _) = _ => destruct c; [eapply Hs; exact E|discriminate] end).
  - unfold m_sudo in E. destruct (ma_set m). destruct x; try discriminate; try (match type of E with (if ?c then _ else _) = _ => destruct c; [eapply Hs; exact E|discriminate] end);
      unfold m_swap in E; (destruct (maker_side _ _ _) as [side|]; [|discriminate]); (destruct (_ && _); [|discriminate]); (destruct (walk _ _ _ _ _ _) as [[f rest]|]; [|discriminate]);
      (destruct (_ <=? _); [|discriminate]); injection E as <- <-; (split; [|exact Hn]); intros o; cbn [with_orders ma_orders]; apply fill_absent; exact H.
  - injection E as <- <-. auto.
  - injection E as <- <-. auto.
Qed.

(** ** Histories *)
Lemma twin_step n e c m m' : twin n m m' -> twin_res n (m_run e c m) (m_run e (later_call n c) m') ->
  twin n (fst (m_step e m c)) (fst (m_step e m' (later_call n c))) /\ snd (m_step e m' (later_call n c)) = later_outcome n (snd (m_step e m c)).
Proof.
  intros H Hr. unfold m_step. destruct (m_run e c m) as [[m1 r]|], (m_run e (later_call n c) m') as [[m1' r']|]; cbn [twin_res] in Hr; try contradiction.
  - destruct Hr as [H1 ->]. cbn [later_resp r_msgs]. destruct (forallb _ _); cbn [fst snd]; auto.
  - cbn [fst snd]. auto.
Qed.
Lemma twin_quiet_history n h : forall m m', twin n m m' -> forallb (fun ec => negb (is_swap (snd ec))) h = true ->
  twin n (m_after m h) (m_after m' (later_history n h)) /\ m_outcomes m' (later_history n h) = map (later_outcome n) (m_outcomes m h).
Proof.
  induction h as [|[e c] h IH]; intros m m' H Hq; [auto|]. cbn [forallb snd] in Hq. apply andb_prop in Hq as [Hc Hq]. apply negb_true_iff in Hc.
  destruct (twin_step n e c m m' H (twin_quiet n e c m m' H Hc)) as [H1 E1]. destruct (IH _ _ H1 Hq) as [H2 E2].
  cbn [later_history map m_after m_outcomes fst snd]. fold (later_history n h). rewrite E1, E2. auto.
Qed.
Lemma twin_history n h : forall m m', twin n m m' -> absent n m' -> n < ma_next m' ->
  twin n (m_after m h) (m_after m' (later_history n h)) /\ m_outcomes m' (later_history n h) = map (later_outcome n) (m_outcomes m h).
Proof.
  induction h as [|[e c] h IH]; intros m m' H Ha Hn; [auto|].
  destruct (twin_step n e c m m' H (twin_all n e c m m' H Ha)) as [H1 E1].
  assert (Hs : absent n (fst (m_step e m' (later_call n c))) /\ n < ma_next (fst (m_step e m' (later_call n c)))).
  { unfold m_step. destruct (m_run e (later_call n c) m') as [[m1 r]|] eqn:E; [|auto]. destruct (forallb _ _); [|auto]. eapply run_absent; eauto. }
  destruct Hs as [Ha1 Hn1]. destruct (IH _ _ H1 Ha1 Hn1) as [H2 E2].
  cbn [later_history map m_after m_outcomes fst snd]. fold (later_history n h). rewrite E1, E2. auto.
Qed.
(** The extra order stays as it was placed until it is cancelled. *)
Definition kept (n : Z) (o0 : resting) (m : machine) : Prop := forall o, o ∈ ma_orders m -> re_id o = n -> o = o0.
Lemma change_kept n o0 t id f l : (forall o o', f o = Some o' -> re_id o' = re_id o) -> (forall o, o ∈ l -> re_id o = n -> o = o0) ->
  forall o, o ∈ change t (later n id) f l -> re_id o = n -> o = o0.
Proof.
  intros Hf H o Ho En. unfold change in Ho. apply elem_of_list_In, in_flat_map in Ho as (o1 & H1 & Ho). apply elem_of_list_In in H1. destruct (is_order t (later n id) o1) eqn:Ei.
  - destruct (f o1) as [o2|] eqn:E; [|contradiction]. destruct Ho as [<-|[]]. rewrite (Hf _ _ E) in En. unfold is_order in Ei. rewrite En, (Z.eqb_sym n), later_ne, andb_false_r in Ei. discriminate.
  - destruct Ho as [<-|[]]. auto.
Qed.
Lemma claim_kept n o0 sender t id m m1 ms ev : kept n o0 m -> claim_one sender t (later n id) m = Some (m1, ms, ev) -> kept n o0 m1 /\ ma_next m1 = ma_next m.
Proof.
  intros H E. unfold claim_one in E. destruct (find_order t (later n id) (ma_orders m)) as [o|]; [|discriminate]. destruct (0 <? re_filled o); [|discriminate]. injection E as <- <- <-. split; [|reflexivity].
  intros o1. cbn [with_orders ma_orders]. apply change_kept; [|exact H]. intros o2 o3. destruct (re_open o2 =? 0); [discriminate|]. intros [= <-]. reflexivity.
Qed.
Lemma claims_kept n o0 sender l : forall m, kept n o0 m ->
  kept n o0 (claim_all sender (map (fun x => (fst x, later n (snd x))) l) m).1.1 /\ ma_next (claim_all sender (map (fun x => (fst x, later n (snd x))) l) m).1.1 = ma_next m.
Proof.
  induction l as [|[t id] l IH]; intros m H; cbn [map claim_all fst snd]; [auto|]. destruct (claim_one sender t (later n id) m) as [[[m1 ms] ev]|] eqn:E; [|apply IH; exact H].
  destruct (claim_kept _ _ _ _ _ _ _ _ _ H E) as [H1 E1]. specialize (IH m1 H1). destruct (claim_all sender _ m1) as [[m2 ms2] evs]. cbn [fst] in *. rewrite <- E1. exact IH.
Qed.
Lemma run_kept n o0 e c m m1 r : is_swap c = false -> kept n o0 m -> n < ma_next m -> m_run e (later_call n c) m = Some (m1, r) -> kept n o0 m1 /\ n < ma_next m1.
Proof.
  intros Hc H Hn E.
  assert (Hs : forall s a, m_reply m s a = Some (m1, r) -> kept n o0 m1 /\ n < ma_next m1) by (intros s a [= <- _]; split; assumption).
  destruct c as [i x|x| |c]; [destruct x as [t d q b|t id|t id|l|a]| | |]; cbn [later_call m_run] in E.
  - unfold m_place in E. destruct (_ && _); [|discriminate]. injection E as <- <-. split; [|cbn; lia]. intros o Ho. cbn [ma_orders] in Ho. apply elem_of_app in Ho as [Ho|Ho]; [apply H, Ho|].
    apply elem_of_list_singleton in Ho as ->. cbn. lia.
  - unfold m_cancel in E. destruct (find_order _ _ _); [|discriminate]. destruct (_ && _); [|discriminate]. injection E as <- <-. split; [|exact Hn].
    intros o. cbn [with_orders ma_orders]. apply change_kept; [discriminate|exact H].
  - unfold m_claim in E. destruct (_ && _); [|discriminate]. destruct (claim_one _ _ _ _) as [[[m2 ms] ev]|] eqn:Ec; [|discriminate]. injection E as <- <-.
    destruct (claim_kept _ _ _ _ _ _ _ _ _ H Ec) as [H1 E1]. rewrite E1. auto.
  - unfold m_batch in E. destruct (_ && _); [|discriminate]. destruct (claims_kept n o0 (i_sender i) l m H) as [H1 E1]. destruct (claim_all _ _ _) as [[m2 ms] evs]. injection E as <- <-. cbn [fst] in *. rewrite E1. auto.
  - unfold m_auth in E. destruct (ma_set m). destruct a; (match type of E with (if ?c then _ else _) = _ => destruct c; [eapply Hs; exact E|discriminate] end).
  - unfold m_sudo in E. destruct (ma_set m). destruct x; try discriminate; try (match type of E with (if ?c then _ else _) = _ => destruct c; [eapply Hs; exact E|discriminate] end).
  - injection E as <- <-. auto.
  - injection E as <- <-. auto.
Qed.
Lemma kept_history n o0 h : forall m, forallb (fun ec => negb (is_swap (snd ec))) h = true -> kept n o0 m -> n < ma_next m -> kept n o0 (m_after m (later_history n h)).
Proof.
  induction h as [|[e c] h IH]; intros m Hq H Hn; [exact H|]. cbn [forallb snd] in Hq. apply andb_prop in Hq as [Hc Hq]. apply negb_true_iff in Hc.
  cbn [later_history map m_after fst snd]. fold (later_history n h).
  assert (Hs : kept n o0 (fst (m_step e m (later_call n c))) /\ n < ma_next (fst (m_step e m (later_call n c)))).
  { unfold m_step. destruct (m_run e (later_call n c) m) as [[m1 r]|] eqn:E; [|auto]. destruct (forallb _ (r_msgs r)); [|auto]. exact (run_kept n o0 e c m m1 r Hc H Hn E). }
  apply IH; tauto.
Qed.
Lemma m_outcomes_app h1 h2 : forall m, m_outcomes m (h1 ++ h2) = m_outcomes m h1 ++ m_outcomes (m_after m h1) h2.
Proof. induction h1 as [|[e c] h1 IH]; intros m; [reflexivity|]. cbn [app m_outcomes m_after]. rewrite IH. reflexivity. Qed.
Lemma change_out n t l o : StronglySorted Z.lt (map re_id l) -> find_order t n l = Some o -> change t n (fun _ => None) l = others n l.
Proof.
  intros Hs Hf. apply find_some in Hf as [Hin He]. apply andb_prop in He as [E1 E2]. apply Z.eqb_eq in E1, E2.
  assert (Hu : forall o', In o' l -> re_id o' = n -> o' = o).
  { clear E1. revert Hs Hin. induction l as [|a l IH]; intros Hs Hin o' Ho' En; [contradiction|]. cbn [map] in Hs. apply StronglySorted_inv in Hs as [Hs Hlt]. rewrite Forall_forall in Hlt.
    assert (Hne : forall x, In x l -> re_id a < re_id x) by (intros x Hx; apply Hlt; apply elem_of_list_In, in_map; exact Hx).
    destruct Hin as [->|Hin], Ho' as [->|Ho']; [reflexivity|specialize (Hne _ Ho'); lia|specialize (Hne _ Hin); lia|auto]. }
  clear Hs Hin. unfold change, others. induction l as [|a l IH]; [reflexivity|]. cbn [flat_map List.filter]. rewrite IH by (intros o' Ho'; apply Hu; right; exact Ho').
  unfold is_order. destruct (Z.eqb_spec (re_id a) n) as [E|]; [|rewrite andb_false_r; reflexivity].
  rewrite (Hu a (or_introl eq_refl) E), E1, Z.eqb_refl. reflexivity.
Qed.
Lemma later_funds n c : call_funds (later_call n c) = call_funds c.
Proof. destruct c as [i x|x| |c]; try destruct x; reflexivity. Qed.
(** Balances follow the outcomes. *)
Fixpoint net (self : string) (h : list (env * call)) (os : list outcome) (denom : string) : Z :=
  match h, os with
  | (_, c) :: h, o :: os => (match o with Done r => received (call_funds c) denom - leaving self (r_msgs r) denom | Failed => 0 end) + net self h os denom
  | _, _ => 0
  end.
Lemma balance_net h denom : forall w, balance (run w h) denom = balance w denom + net (w_self w) h (all_outcomes w h) denom.
Proof.
  induction h as [|[e c] h IH]; intros w; cbn [run all_outcomes net]; [lia|]. rewrite IH, step_self. destruct (step e w c) as [w' [r|]] eqn:E; cbn [fst snd].
  - destruct (C47_paid_in_full _ _ _ _ _ E) as [_ B]. rewrite (B denom). lia.
  - rewrite (step_failed _ _ _ _ E). lia.
Qed.
Lemma later_net self n h denom : forall os, net self (later_history n h) (map (later_outcome n) os) denom = net self h os denom.
Proof.
  induction h as [|[e c] h IH]; intros [|o os]; try reflexivity. cbn [later_history map net fst snd]. fold (later_history n h). rewrite IH, later_funds. destruct o; reflexivity.
Qed.

(** ** C51 *)
Theorem C51_no_trace :
  forall w0 h e1 i t d q b w1 r1 mid e2 i2 w3 r3 after,
  let w := run w0 h in let place := CExec i (PlaceLimit t d q b) in let n := attr_int (r_attrs r1) "order_id" in let cancel := CExec i2 (CancelLimit t n) in
  start w0 -> step e1 w place = (w1, Done r1) -> forallb (fun ec => negb (is_swap (snd ec))) mid = true ->
  step e2 (run w1 (later_history n mid)) cancel = (w3, Done r3) ->
  history w0 (h ++ mid ++ after) -> history w0 (h ++ [(e1, place)] ++ later_history n mid ++ [(e2, cancel)] ++ later_history n after) ->
  short (h ++ [(e1, place)] ++ later_history n mid ++ [(e2, cancel)] ++ later_history n after) ->
  all_outcomes w1 (later_history n mid) = map (later_outcome n) (all_outcomes w mid) /\
  all_outcomes w3 (later_history n after) = map (later_outcome n) (all_outcomes (run w mid) after) /\
  forall denom, balance (run w3 (later_history n after)) denom = balance (run w (mid ++ after)) denom.
Proof.
  intros w0 h e1 i t d q b w1 r1 mid e2 i2 w3 r3 after w place n cancel Hs E1 Hmid E3 Hh Hh' Hsh.
  assert (Hn1 : run w0 (h ++ [(e1, place)]) = w1) by (rewrite run_last; fold w; rewrite E1; reflexivity).
  assert (Hn2 : run w0 ((h ++ [(e1, place)]) ++ later_history n mid) = run w1 (later_history n mid)) by (rewrite run_app, Hn1; reflexivity).
  assert (Hn3 : run w0 (((h ++ [(e1, place)]) ++ later_history n mid) ++ [(e2, cancel)]) = w3) by (rewrite run_last, Hn2, E3; reflexivity).
  assert (L1 : short (h ++ mid ++ after)).
  { unfold short, later_history in *. rewrite !app_length, ?map_length in *. cbn [length] in *. lia. }
  set (H1 := h ++ [(e1, place)]) in *. set (H2 := H1 ++ later_history n mid) in *. set (H3 := H2 ++ [(e2, cancel)]) in *.
  assert (EH : h ++ [(e1, place)] ++ later_history n mid ++ [(e2, cancel)] ++ later_history n after = H3 ++ later_history n after).
  { unfold H3, H2, H1. rewrite <- !app_assoc. reflexivity. }
  rewrite EH in Hh', Hsh. pose proof (short_app _ _ Hsh) as Hsh3. pose proof (short_app _ _ Hsh3) as Hsh2. pose proof (short_app _ _ Hsh2) as Hsh1. pose proof (short_app _ _ Hsh1) as Hsh0.
  pose proof Hh' as K. apply history_app in K as [Hh3 _]. pose proof Hh3 as K. apply history_app in K as [Hh2 Hc3]. pose proof Hh2 as K. apply history_app in K as [Hh1 _]. pose proof Hh1 as K. apply history_app in K as [Hh0 Hc1].
  apply Forall_cons in Hc1 as [Hc1 _]. apply Forall_cons in Hc3 as [Hc3 _]. cbn [snd] in Hc1, Hc3.
  set (m := abs (w_st w) (ideal_run w0 [] h)).
  (* the extra order *)
  pose proof (machine_step e1 w0 h place Hs Hh0 Hsh0 Hc1) as S1. cbv zeta in S1. fold w in S1. rewrite E1 in S1. cbn [fst snd] in S1. fold m in S1.
  set (m1 := abs (w_st w1) (ideal_step e1 w place (ideal_run w0 [] h))) in *.
  assert (Em1 : abs (w_st (run w0 H1)) (ideal_run w0 [] H1) = m1) by (rewrite Hn1; unfold H1; rewrite ideal_run_last; reflexivity).
  destruct (run_good w0 h Hs Hh0) as (G & Hg). fold w in Hg. pose proof (gd_ref _ _ _ Hg) as Hr.
  assert (Hlt : forall o, o ∈ ma_orders m -> re_id o < ma_next m).
  { intros o Ho. apply lives_in in Ho as (en & Hen & _ & ->). apply (eo_id _ _ (rf_entry _ _ _ Hr _ Hen)). }
  set (o0 := mkResting t d n (i_sender i) b (e_time e1) q q 0).
  assert (T1 : twin n m m1 /\ n = ma_next m /\ kept n o0 m1 /\ n < ma_next m1 /\ i_funds i = [mkCoin (deposit_of m d) q] /\ r_msgs r1 = []).
  { clearbody m. unfold m_step in S1. cbn [m_run place] in S1. destruct (m_place e1 i t d q b m) as [[m1' r1']|] eqn:Ep; [|discriminate]. destruct (forallb _ (r_msgs r1')); [|discriminate].
    injection S1 as S1a S1b. rewrite <- S1a. rewrite S1b in Ep. clear S1a S1b r1'. unfold m_place in Ep. match type of Ep with (if ?x then _ else _) = _ => destruct x eqn:Ea; [|discriminate] end. injection Ep as <- E. assert (En : n = ma_next m) by (unfold n; rewrite <- E; reflexivity).
    split; [|split; [exact En|]].
    2: { split; [|split; [rewrite En; apply Z.lt_succ_diag_r|split; [|rewrite <- E; reflexivity]]].
      - intros o Ho Eo. cbn [ma_orders] in Ho. apply elem_of_app in Ho as [Ho|Ho]; [specialize (Hlt o Ho); lia|]. apply elem_of_list_singleton in Ho as ->. unfold o0. rewrite En. reflexivity.
      - apply andb_prop in Ea as [_ Ea]. destruct (i_funds i) as [|c [|c' l]]; try discriminate. apply andb_prop in Ea as [Ea1 Ea2]. apply bool_decide_eq_true in Ea1. apply Z.eqb_eq in Ea2.
        destruct c; cbn in *; subst; reflexivity. }
    rewrite En. split; cbn [ma_quote ma_base ma_set ma_next ma_orders]; try reflexivity. unfold others. rewrite List.filter_app. cbn [List.filter re_id]. rewrite Z.eqb_refl. cbn [negb].
    rewrite app_nil_r. fold (others (ma_next m) (ma_orders m)). rewrite others_absent by (intros o Ho; specialize (Hlt o Ho); lia).
    clear -Hlt. induction (ma_orders m) as [|o l IH]; [reflexivity|]. cbn [map]. rewrite <- IH by (intros; apply Hlt; constructor; assumption). f_equal.
    specialize (Hlt o ltac:(constructor)). destruct o. unfold ren, later. cbn in *. apply Z.ltb_lt in Hlt. rewrite Hlt. reflexivity. }
  destruct T1 as (T1 & En & K1 & Kn & Kf & Km).
  (* meanwhile *)
  destruct (twin_quiet_history n mid m m1 T1 Hmid) as [T2 O2].
  destruct (machine_history w0 (later_history n mid) H1 Hs Hh2 Hsh2) as [A1 A2]. rewrite Em1, Hn1 in A1. rewrite Em1 in A2. fold H2 in A2.
  rewrite app_assoc in Hh, L1. pose proof (proj1 (proj1 (history_app _ _ _) Hh)) as Hhm.
  destruct (machine_history w0 mid h Hs Hhm (short_app _ _ L1)) as [B1 B2]. fold w m in B1, B2.
  (* the cancellation *)
  set (m2 := m_after m1 (later_history n mid)) in *.
  pose proof (machine_step e2 w0 H2 cancel Hs Hh2 Hsh2) as S3. cbv zeta in S3. specialize (S3 Hc3). rewrite <- A2, Hn2, E3 in S3. cbn [fst snd] in S3.
  assert (Em3 : abs (w_st (run w0 H3)) (ideal_run w0 [] H3) = fst (m_step e2 m2 cancel)).
  { rewrite S3. cbn [fst]. rewrite Hn3. unfold H3. rewrite ideal_run_last, Hn2. reflexivity. }
  pose proof (kept_history n o0 mid m1 Hmid K1 Kn) as K2. fold m2 in K2.
  assert (T3 : twin n (m_after m mid) (fst (m_step e2 m2 cancel)) /\ absent n (fst (m_step e2 m2 cancel)) /\ n < ma_next (fst (m_step e2 m2 cancel)) /\
    i_funds i2 = [] /\ r_msgs r3 = [mkSend 1 (i_sender i2) (mkCoin (deposit_of m2 d) q)]).
  { unfold m_step in *. cbn [m_run cancel] in *. destruct (m_cancel i2 t n m2) as [[m3' r3']|] eqn:Ec; [|discriminate]. destruct (forallb _ (r_msgs r3')); [|discriminate]. injection S3 as _ Er. cbn [fst] in *.
    unfold m_cancel in Ec. destruct (find_order t n (ma_orders m2)) as [o|] eqn:Ef; [|discriminate]. match type of Ec with (if ?x then _ else _) = _ => destruct x eqn:Ea; [|discriminate] end. injection Ec as <- E.
    pose proof Ef as Eo. apply find_some in Eo as [Eo1 Eo2]. apply andb_prop in Eo2 as [_ Eo2]. apply Z.eqb_eq in Eo2. pose proof (K2 o ltac:(apply elem_of_list_In; exact Eo1) Eo2) as ->.
    destruct (run_good w0 H2 Hs Hh2) as (G2 & Hg2). pose proof (sh_ids _ _ (shows_abs _ _ _ Hg2)) as Hids. rewrite <- A2 in Hids. rewrite (change_out _ _ _ _ Hids Ef).
    destruct T2 as [P1 P2 P3 P4 P5 P6]. assert (Ha : forall o, o ∈ others n (ma_orders m2) -> re_id o <> n).
    { intros o' Ho. apply elem_of_list_In, filter_In in Ho as [_ Ho]. apply negb_true_iff, Z.eqb_neq in Ho. exact Ho. }
    split; [|split; [exact Ha|split; [cbn; lia|split]]]; cycle 1.
    { apply andb_prop in Ea as [Ea _]. apply andb_prop in Ea as [Ea _]. apply andb_prop in Ea as [_ Ea]. unfold no_funds in Ea. destruct (i_funds i2); [reflexivity|discriminate]. }
    { rewrite <- Er, <- E. reflexivity. }
    split; try assumption. cbn [with_orders ma_orders]. rewrite others_absent by exact Ha. exact P6. }
  destruct T3 as (T3 & Ha3 & Hn3' & Kf2 & Km2).
  (* afterwards *)
  destruct (twin_history n after _ _ T3 Ha3 Hn3') as [_ O3].
  destruct (machine_history w0 (later_history n after) H3 Hs Hh' Hsh) as [D1 _]. rewrite Em3, Hn3 in D1.
  destruct (machine_history w0 after (h ++ mid) Hs Hh L1) as [F1 _]. rewrite <- B2, run_app in F1. fold w in F1.
  assert (R1 : all_outcomes w1 (later_history n mid) = map (later_outcome n) (all_outcomes w mid)) by (rewrite <- A1, <- B1; exact O2).
  assert (R2 : all_outcomes w3 (later_history n after) = map (later_outcome n) (all_outcomes (run w mid) after)) by (rewrite <- D1, <- F1; exact O3).
  split; [exact R1|]. split; [exact R2|]. intros denom.
  assert (W1 : w_self w1 = w_self w) by (rewrite <- (step_self e1 w place), E1; reflexivity).
  assert (W3 : w_self w3 = w_self w) by (rewrite <- Hn3, run_self; unfold w; rewrite run_self; reflexivity).
  rewrite run_app, (balance_net (later_history n after)), (balance_net after), R2, later_net, W3, run_self.
  assert (Bm : balance w3 denom = balance (run w mid) denom); [|lia].
  destruct (C47_paid_in_full _ _ _ _ _ E1) as [_ Bp]. destruct (C47_paid_in_full _ _ _ _ _ E3) as [_ Bc]. rewrite (Bc denom), (balance_net (later_history n mid)), (balance_net mid), R1, later_net, W1, (Bp denom).
  cbn [call_funds place cancel]. rewrite Kf, Km, Kf2, Km2. unfold leaving, received. cbn [foldr c_denom c_amount sm_coin sm_to].
  assert (Ed : deposit_of m2 d = deposit_of m d).
  { rewrite A2. unfold m. rewrite !abs_deposit. pose proof (start_reachable w0 [] Hs ltac:(constructor)) as Hre; cbn [run] in Hre. pose proof (C29_denoms_fixed _ _ Hre Hh2) as D2. pose proof (C29_denoms_fixed _ _ Hre Hh0) as D0. fold w in D0.
    rewrite <- D0 in D2. unfold denoms_of in D2. injection D2 as D2 D3. destruct d; assumption. }
  rewrite Ed, run_self, W1. unfold call_ok, payer_ok, cancel in Hc3. apply andb_prop in Hc3 as [Hc3 _]. apply negb_true_iff, bool_decide_eq_false in Hc3.
  destruct (bool_decide_reflect (deposit_of m d = denom)); [rewrite bool_decide_eq_true_2|rewrite bool_decide_eq_false_2]; [lia| |lia|tauto].
  split; [assumption|]. rewrite run_self in Hc3. unfold w. rewrite run_self. exact Hc3.
Qed.
Print Assumptions C51_no_trace.
(** A case: an order is placed behind three half filled ones and withdrawn after two more have been placed and one claimed; then a
    swap, a claim and a cancellation. *)
Definition mid_trace : list (env * call) := [place "p" 0 Bid 300 None; claim "z" 0 1; place "q" (-10) Bid 70 None].
Definition after_trace : list (env * call) := [sell "y" 200; claim "z" 0 3; cancel "q" (-10) 4; cancel "q" (-10) 4].
Example C51_case :
  let w := run w_start hist_three in
  let order := snd (place "x" 0 Bid 500 None) in let w1 := fst (step tenv w order) in let r1 := resp_of tenv w order in
  let n := attr_int (r_attrs r1) "order_id" in let withdraw := snd (cancel "x" 0 n) in
  let w2 := run w1 (later_history n mid_trace) in let w3 := fst (step tenv w2 withdraw) in
  start w_start /\ step tenv w order = (w1, Done r1) /\ forallb (fun ec => negb (is_swap (snd ec))) mid_trace = true /\
  step tenv w2 withdraw = (w3, Done (resp_of tenv w2 withdraw)) /\
  history w_start (hist_three ++ mid_trace ++ after_trace) /\
  history w_start (hist_three ++ [(tenv, order)] ++ later_history 3 mid_trace ++ [(tenv, withdraw)] ++ later_history 3 after_trace) /\ n = 3 /\
  run_out w3 (later_history 3 after_trace) = [true; true; true; false] /\ run_out (run w mid_trace) after_trace = [true; true; true; false].
Proof.
  cbv zeta. split; [apply start_ok|]. split; [apply done_ok; vm_compute; reflexivity|]. split; [reflexivity|].
  split; [apply done_ok; vm_compute; reflexivity|]. split; [hist|].
  assert (E : attr_int (r_attrs (resp_of tenv (run w_start hist_three) (snd (place "x" 0 Bid 500 None)))) "order_id" = 3) by (vm_compute; reflexivity).
  rewrite E. split; [hist|]. split; [reflexivity|]. split; vm_compute; reflexivity.
Qed.
