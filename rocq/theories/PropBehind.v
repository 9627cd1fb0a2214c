(** * Property C58: an order has no influence on those before it in the queue. *)
From Verif Require Import Base Dec Types State TickMath Sumtree Tick Order Auth Contract Query World SpecMath TickMathProofs
  TreeDefs Exec SumtreeProofs Ghost Inv StepPlace StepCancel StepClaim SwapPlan StepSwap Trans Spec Reach Refine RefineStep Reserve Solvency Books SpecProps PropBase Tests PropOrders PropClaims PropBatch PropSwap PropQuote PropAdmin PlanCurve PropCurve
  SpecAdmin SpecBank PropBank SpecMachine MachineBase MachineSwap PropMachine SpecTrace PropTrace PropDepth SpecBehind.

(** ** The relation *)
Section Behind.
Context (n : Z) (d : dir) (T : Z).
Definition front (o : resting) : bool := ahead n d T (re_dir o) (re_tick o) (re_id o).
Definition fronts (l : list resting) : list resting := List.filter front l.
Definition dirs (l : list resting) : Prop := forall o o', o ∈ l -> o' ∈ l -> re_id o = re_id o' -> re_dir o = re_dir o'.
Record shadow (m m' : machine) : Prop := {
  sw_quote : ma_quote m' = ma_quote m; sw_base : ma_base m' = ma_base m; sw_set : ma_set m' = ma_set m;
  sw_next : ma_next m' = ma_next m + 1; sw_n : n <= ma_next m;
  sw_orders : fronts (ma_orders m') = map (ren n) (fronts (ma_orders m));
  sw_dirs : dirs (ma_orders m); sw_dirs' : dirs (ma_orders m')
}.
Lemma later_ltb id : (later n id <? n) = (id <? n).
Proof. unfold later. destruct (Z.ltb_spec id n); [apply Z.ltb_lt; lia|apply Z.ltb_ge; lia]. Qed.
Lemma front_ren o : front (ren n o) = front o.
Proof. unfold front, ahead. cbn [ren re_dir re_tick re_id]. rewrite later_ltb. reflexivity. Qed.
Lemma front_parts o a b : front (set_parts o a b) = front o.
Proof. reflexivity. Qed.

Lemma find_fronts t id l : dirs l -> find_order t id (fronts l) = match find_order t id l with Some o => if front o then Some o else None | None => None end.
Proof.
  unfold find_order, fronts. induction l as [|o l IH]; intros Hd; [reflexivity|]. cbn [List.filter List.find].
  assert (Hd' : dirs l) by (intros x y Hx Hy; apply Hd; constructor; assumption). destruct (is_order t id o) eqn:E.
  - destruct (front o) eqn:Ef; [cbn [List.find]; rewrite E; reflexivity|]. clear IH.
    assert (Hn : forall x, x ∈ l -> is_order t id x = true -> front x = false).
    { intros x Hx Ex. unfold is_order in E, Ex. apply andb_prop in E as [E1 E2]. apply andb_prop in Ex as [X1 X2]. apply Z.eqb_eq in E1, E2, X1, X2.
      unfold front in *. rewrite X1, X2, (Hd x o ltac:(constructor; exact Hx) ltac:(constructor) ltac:(congruence)), <- E1, <- E2. exact Ef. }
    clear -Hn. induction l as [|x l IH]; [reflexivity|]. cbn [List.filter]. destruct (front x) eqn:Ex.
    + cbn [List.find]. destruct (is_order t id x) eqn:Ei; [rewrite (Hn x ltac:(constructor) Ei) in Ex; discriminate|]. apply IH. intros; apply Hn; [constructor|]; assumption.
    + apply IH. intros; apply Hn; [constructor|]; assumption.
  - destruct (front o); [cbn [List.find]; rewrite E|]; apply IH; exact Hd'.
Qed.
Definition same_name (f : resting -> option resting) : Prop := forall o o', f o = Some o' -> re_id o' = re_id o /\ re_tick o' = re_tick o /\ re_dir o' = re_dir o.
Lemma change_fronts t id f l : same_name f -> fronts (change t id f l) = change t id f (fronts l).
Proof.
  intros Hf. unfold change, fronts. induction l as [|o l IH]; [reflexivity|]. cbn [flat_map]. rewrite List.filter_app, IH. cbn [List.filter].
  assert (E : forall o', f o = Some o' -> front o' = front o) by (intros o' Eo; destruct (Hf _ _ Eo) as (E1 & E2 & E3); unfold front; rewrite E1, E2, E3; reflexivity).
  destruct (front o) eqn:Ef.
  - cbn [flat_map]. f_equal. destruct (is_order t id o).
    + destruct (f o) as [o'|]; [|reflexivity]. cbn [List.filter]. rewrite (E o' eq_refl). reflexivity.
    + cbn [List.filter]. rewrite Ef. reflexivity.
  - assert (X : List.filter front (if is_order t id o then match f o with Some o' => [o'] | None => [] end else [o]) = []); [|rewrite X; reflexivity].
    destruct (is_order t id o); [destruct (f o) as [o'|]; [|reflexivity]; cbn [List.filter]; rewrite (E o' eq_refl); reflexivity|]. cbn [List.filter]. rewrite Ef. reflexivity.
Qed.
Lemma change_miss t id f l : find_order t id l = None -> change t id f l = l.
Proof.
  unfold find_order, change. induction l as [|o l IH]; [reflexivity|]. cbn [List.find flat_map]. destruct (is_order t id o); [discriminate|]. intros H. rewrite (IH H). reflexivity.
Qed.
Lemma change_dirs t id f l : same_name f -> dirs l -> dirs (change t id f l).
Proof.
  intros Hf Hd. assert (K : forall o, o ∈ change t id f l -> exists o1, o1 ∈ l /\ re_id o1 = re_id o /\ re_dir o1 = re_dir o).
  { intros o Ho. unfold change in Ho. apply elem_of_list_In, in_flat_map in Ho as (o1 & H1 & Ho). apply elem_of_list_In in H1. destruct (is_order t id o1).
    - destruct (f o1) as [o2|] eqn:E; [|contradiction]. destruct Ho as [<-|[]]. destruct (Hf _ _ E) as (E1 & _ & E3). exists o1. auto.
    - destruct Ho as [<-|[]]. exists o1. auto. }
  intros o o' Ho Ho' E. destruct (K o Ho) as (x & X1 & X2 & X3), (K o' Ho') as (y & Y1 & Y2 & Y3). rewrite <- X3, <- Y3. apply Hd; congruence.
Qed.
(** The order with this name, as far as it is ahead. *)
Lemma shadow_find m m' t id : shadow m m' -> find_order t (later n id) (fronts (ma_orders m')) = option_map (ren n) (find_order t id (fronts (ma_orders m))).
Proof. intros H. rewrite (sw_orders _ _ H). apply find_ren. Qed.
Lemma shadow_deposit m m' x : shadow m m' -> deposit_of m' x = deposit_of m x.
Proof. intros []. destruct x; assumption. Qed.
Lemma shadow_payout m m' x : shadow m m' -> payout_of m' x = payout_of m x.
Proof. intros H. apply (shadow_deposit _ _ _ H). Qed.
Lemma shadow_same m m' l l' : shadow m m' -> fronts l' = map (ren n) (fronts l) -> dirs l -> dirs l' -> shadow (with_orders m l) (with_orders m' l').
Proof. intros [H1 H2 H3 H4 H5 H6 H7 H8] E D D'. split; assumption. Qed.
Lemma change_both m m' t id f f' : shadow m m' -> same_name f -> same_name f' -> (forall o, f' (ren n o) = option_map (ren n) (f o)) ->
  shadow (with_orders m (change t id f (ma_orders m))) (with_orders m' (change t (later n id) f' (ma_orders m'))).
Proof.
  intros H Hf Hf' Hr. apply (shadow_same _ _ _ _ H); [|apply change_dirs; [assumption|apply (sw_dirs _ _ H)]|apply change_dirs; [assumption|apply (sw_dirs' _ _ H)]].
  rewrite !change_fronts, (sw_orders _ _ H) by assumption. apply change_ren. exact Hr.
Qed.
Lemma change_left m m' t id f : shadow m m' -> same_name f -> find_order t id (fronts (ma_orders m)) = None -> shadow (with_orders m (change t id f (ma_orders m))) m'.
Proof.
  intros H Hf Hn. assert (E : m' = with_orders m' (ma_orders m')) by (destruct m'; reflexivity). rewrite E.
  apply (shadow_same _ _ _ _ H); [|apply change_dirs; [assumption|apply (sw_dirs _ _ H)]|apply (sw_dirs' _ _ H)].
  rewrite change_fronts, (change_miss _ _ _ _ Hn) by assumption. apply (sw_orders _ _ H).
Qed.
Lemma change_right m m' t id f : shadow m m' -> same_name f -> find_order t id (fronts (ma_orders m')) = None -> shadow m (with_orders m' (change t id f (ma_orders m'))).
Proof.
  intros H Hf Hn. assert (E : m = with_orders m (ma_orders m)) by (destruct m; reflexivity). rewrite E.
  apply (shadow_same _ _ _ _ H); [|apply (sw_dirs _ _ H)|apply change_dirs; [assumption|apply (sw_dirs' _ _ H)]].
  rewrite change_fronts, (change_miss _ _ _ _ Hn) by assumption. apply (sw_orders _ _ H).
Qed.

(** ** Claims *)
Definition claim_f (o : resting) : option resting := if re_open o =? 0 then None else Some (set_parts o (re_open o) 0).
Lemma claim_f_name : same_name claim_f.
Proof. intros o o'. unfold claim_f. destruct (re_open o =? 0); [discriminate|]. intros [= <-]. auto. Qed.
Lemma claim_f_ren o : claim_f (ren n o) = option_map (ren n) (claim_f o).
Proof. unfold claim_f. cbn [ren re_open]. destruct (re_open o =? 0); reflexivity. Qed.
Definition claimed (x : option (machine * list submsg * claim_event)) (m : machine) : machine := match x with Some (m1, _, _) => m1 | None => m end.
Definition claim_evs (x : option (machine * list submsg * claim_event)) : list claim_event := match x with Some (_, _, ev) => [ev] | None => [] end.
Lemma front_event m sender o : ahead_event n d T (announcement m sender o) = front o.
Proof. reflexivity. Qed.
Lemma shadow_claim_one m m' sender t id : shadow m m' ->
  let x := claim_one sender t id m in let x' := claim_one sender t (later n id) m' in
  shadow (claimed x m) (claimed x' m') /\
  List.filter (ahead_event n d T) (claim_evs x') = map (later_event n) (List.filter (ahead_event n d T) (claim_evs x)) /\
  (forall o, find_order t id (fronts (ma_orders m)) = Some o ->
    match x, x' with
    | Some (_, ms, ev), Some (_, ms', ev') => ms' = ms /\ ev' = later_event n ev
    | None, None => True
    | _, _ => False
    end).
Proof.
  intros H x x'. subst x x'. pose proof (shadow_find m m' t id H) as Hf. rewrite !find_fronts in Hf by (apply (sw_dirs _ _ H) || apply (sw_dirs' _ _ H)).
  unfold claim_one. fold claim_f. rewrite !find_fronts by apply (sw_dirs _ _ H).
  pose proof (find_fronts t id _ (sw_dirs _ _ H)) as K. pose proof (find_fronts t (later n id) _ (sw_dirs' _ _ H)) as K'.
  destruct (find_order t id (ma_orders m)) as [o|] eqn:E.
  - destruct (front o) eqn:Ef; cbn [option_map] in Hf.
    + destruct (find_order t (later n id) (ma_orders m')) as [o'|] eqn:E'; [|discriminate]. destruct (front o') eqn:Ef'; [|discriminate]. injection Hf as ->.
      cbn [ren re_filled]. destruct (0 <? re_filled o); cbn [claimed claim_evs]; [|split; [exact H|split; [reflexivity|intros; exact I]]]. fold (ren n o).
      assert (Ean : announcement m' sender (ren n o) = later_event n (announcement m sender o)).
      { unfold announcement, owner_gets, fee_part, later_event. cbn [ren re_owner re_dir ce_sender ce_tick ce_id ce_quantity_remaining ce_owner ce_dir ce_amount_claimed ce_placed_quantity ce_fully_claimed ce_order_denom ce_output_denom].
        fold (ren n o). rewrite (shadow_payout _ _ _ H), (shadow_deposit _ _ _ H), (sw_set _ _ H). reflexivity. }
      split; [apply (change_both m m' t id claim_f claim_f H claim_f_name claim_f_name claim_f_ren)|]. split.
      * cbn [List.filter]. rewrite !front_event, front_ren, Ef. cbn [map]. rewrite Ean. reflexivity.
      * intros o0 _. split; [|exact Ean]. unfold payments, owner_gets, fee_part. cbn [ren re_owner re_dir]. fold (ren n o). rewrite (shadow_payout _ _ _ H), (sw_set _ _ H). reflexivity.
    + assert (K2 : find_order t (later n id) (fronts (ma_orders m')) = None) by (rewrite K'; destruct (find_order t (later n id) (ma_orders m')) as [o'|]; [destruct (front o'); [discriminate|reflexivity]|reflexivity]).
      split; [|split; [|discriminate]].
      * assert (H1 : shadow (claimed (if 0 <? re_filled o then Some (with_orders m (change t id claim_f (ma_orders m)), payments m sender o, announcement m sender o) else None) m) m').
        { destruct (0 <? re_filled o); [|exact H]. apply change_left; [exact H|apply claim_f_name|exact K]. }
        destruct (find_order t (later n id) (ma_orders m')) as [o'|]; [|exact H1]. destruct (0 <? re_filled o'); [|exact H1]. apply change_right; [exact H1|apply claim_f_name|exact K2].
      * destruct (0 <? re_filled o), (find_order t (later n id) (ma_orders m')) as [o'|]; try destruct (0 <? re_filled o'); cbn [claim_evs List.filter map]; rewrite ?front_event, ?Ef; cbn [map]; try reflexivity;
          (destruct (front o') eqn:Ef'; [discriminate|]); rewrite ?front_event, ?Ef'; reflexivity.
  - cbn [option_map] in Hf. assert (K2 : find_order t (later n id) (fronts (ma_orders m')) = None) by (rewrite K'; exact Hf).
    split; [|split; [|discriminate]].
    + destruct (find_order t (later n id) (ma_orders m')) as [o'|]; [|exact H]. destruct (0 <? re_filled o'); [|exact H]. apply change_right; [exact H|apply claim_f_name|exact K2].
    + destruct (find_order t (later n id) (ma_orders m')) as [o'|]; [|reflexivity]. destruct (0 <? re_filled o'); [|reflexivity]. destruct (front o') eqn:Ef'; [discriminate|].
      cbn [claim_evs List.filter]. rewrite front_event, Ef'. reflexivity.
Qed.
Lemma claim_all_cons sender t id l m : claim_all sender ((t, id) :: l) m =
  match claim_one sender t id m with
  | Some (m1, ms1, ev) => let '(m2, ms2, evs) := claim_all sender l m1 in (m2, ms1 ++ ms2, ev :: evs)
  | None => claim_all sender l m
  end.
Proof. reflexivity. Qed.
Lemma claim_all_step sender t id l m :
  (claim_all sender ((t, id) :: l) m).1.1 = (claim_all sender l (claimed (claim_one sender t id m) m)).1.1 /\
  (claim_all sender ((t, id) :: l) m).2 = claim_evs (claim_one sender t id m) ++ (claim_all sender l (claimed (claim_one sender t id m) m)).2.
Proof.
  rewrite claim_all_cons. destruct (claim_one sender t id m) as [[[m1 ms] ev]|]; cbn [claimed claim_evs]; [|auto]. destruct (claim_all sender l m1) as [[m2 ms2] evs]. auto.
Qed.
Lemma shadow_claim_all sender l : forall m m', shadow m m' ->
  shadow (claim_all sender l m).1.1 (claim_all sender (map (fun x => (fst x, later n (snd x))) l) m').1.1 /\
  List.filter (ahead_event n d T) (claim_all sender (map (fun x => (fst x, later n (snd x))) l) m').2 = map (later_event n) (List.filter (ahead_event n d T) (claim_all sender l m).2).
Proof.
  induction l as [|[t id] l IH]; intros m m' H; [split; [exact H|reflexivity]|]. cbn [map fst snd].
  destruct (shadow_claim_one m m' sender t id H) as (H1 & E1 & _). destruct (IH _ _ H1) as [H2 E2].
  destruct (claim_all_step sender t id l m) as [A1 A2]. destruct (claim_all_step sender t (later n id) (map (fun x => (fst x, later n (snd x))) l) m') as [B1 B2].
  rewrite A1, A2, B1, B2, !List.filter_app, map_app, E1, E2. auto.
Qed.

(** ** Swaps *)
Lemma fill_min side l : forall x x', (forall o, o ∈ l -> 0 <= re_open o) -> (forall t, Z.min (x t) (open_on side l t) = Z.min (x' t) (open_on side l t)) ->
  fill_side side x l = fill_side side x' l.
Proof.
  induction l as [|o l IH]; intros x x' Ho Hx; [reflexivity|]. cbn [fill_side].
  pose proof (Ho o ltac:(constructor)) as H0. assert (Hl : forall o', o' ∈ l -> 0 <= re_open o') by (intros; apply Ho; constructor; assumption).
  destruct (bool_decide_reflect (re_dir o = side)) as [Ed|Ed].
  - pose proof (Hx (re_tick o)) as Ht. cbn [open_on foldr] in Ht. fold (open_on side l (re_tick o)) in Ht. rewrite bool_decide_true in Ht by auto.
    pose proof (open_on_nonneg side l (re_tick o) Hl) as Hn. assert (Em : Z.min (x (re_tick o)) (re_open o) = Z.min (x' (re_tick o)) (re_open o)) by lia. rewrite Em. f_equal.
    apply IH; [exact Hl|]. intros t. specialize (Hx t). cbn [open_on foldr] in Hx. fold (open_on side l t) in Hx. destruct (Z.eqb_spec t (re_tick o)) as [->|Hne].
    + lia.
    + rewrite bool_decide_false in Hx by (intros [_ ?]; congruence). exact Hx.
  - f_equal. apply IH; [exact Hl|]. intros t. specialize (Hx t). cbn [open_on foldr] in Hx. fold (open_on side l t) in Hx. rewrite bool_decide_false in Hx by (intros [? _]; congruence). exact Hx.
Qed.
Lemma fill_ext side l : forall x x', (forall o, o ∈ l -> re_dir o = side -> x (re_tick o) = x' (re_tick o)) -> fill_side side x l = fill_side side x' l.
Proof.
  induction l as [|o l IH]; intros x x' Hx; [reflexivity|]. cbn [fill_side]. destruct (bool_decide_reflect (re_dir o = side)) as [Ed|Ed].
  - rewrite (Hx o ltac:(constructor) Ed). f_equal. apply IH. intros o' Ho' Ed'. destruct (_ =? _); rewrite (Hx o' ltac:(constructor; exact Ho') Ed'); reflexivity.
  - f_equal. apply IH. intros; apply Hx; [constructor|]; assumption.
Qed.
Lemma fill_fronts side l : forall x, StronglySorted Z.lt (map re_id l) -> fronts (fill_side side x l) = fill_side side x (fronts l).
Proof.
  induction l as [|o l IH]; intros x Hs; [reflexivity|]. cbn [map] in Hs. apply StronglySorted_inv in Hs as [Hs Hlt]. rewrite Forall_forall in Hlt.
  cbn [fill_side fronts List.filter]. fold (fronts l). destruct (bool_decide_reflect (re_dir o = side)) as [Ed|Ed].
  - cbn [List.filter]. rewrite front_parts. fold (fronts (fill_side side (fun t => if t =? re_tick o then x t - Z.min (x (re_tick o)) (re_open o) else x t) l)).
    rewrite (IH _ Hs). destruct (front o) eqn:Ef.
    + cbn [fill_side]. rewrite bool_decide_true by exact Ed. reflexivity.
    + apply fill_ext. intros o' Ho' Ed'. apply elem_of_list_In, filter_In in Ho' as [Ho' Ef']. destruct (Z.eqb_spec (re_tick o') (re_tick o)) as [Et|]; [|reflexivity]. exfalso.
      unfold front, ahead in Ef, Ef'. rewrite Ed in Ef. rewrite Ed', Et in Ef'.
      pose proof (Hlt (re_id o') ltac:(apply elem_of_list_In, in_map; exact Ho')) as Hid.
      destruct (negb (bool_decide (side = d))); [discriminate|]. cbn [orb] in Ef, Ef'. destruct (match d with Ask => _ | Bid => _ end); [discriminate|]. cbn [orb] in Ef, Ef'.
      apply andb_prop in Ef' as [E1 E2]. rewrite E1 in Ef. cbn [andb] in Ef. apply Z.ltb_lt in E2. apply Z.ltb_ge in Ef. lia.
  - cbn [List.filter]. fold (fronts (fill_side side x l)). rewrite (IH _ Hs). destruct (front o); [|reflexivity]. cbn [fill_side]. rewrite bool_decide_false by exact Ed. reflexivity.
Qed.
Lemma fill_dirs side l : forall x, dirs l -> dirs (fill_side side x l).
Proof.
  intros x Hd. assert (K : forall l x o, o ∈ fill_side side x l -> exists o1, o1 ∈ l /\ re_id o1 = re_id o /\ re_dir o1 = re_dir o).
  { clear. induction l as [|a l IH]; intros x o Ho; [inversion Ho|]. cbn [fill_side] in Ho. destruct (bool_decide _); apply elem_of_cons in Ho as [->|Ho].
    - exists a. split; [constructor|auto]. - destruct (IH _ _ Ho) as (o1 & H1 & H2). exists o1. split; [constructor; exact H1|exact H2].
    - exists a. split; [constructor|auto]. - destruct (IH _ _ Ho) as (o1 & H1 & H2). exists o1. split; [constructor; exact H1|exact H2]. }
  intros o o' Ho Ho' E. destruct (K _ _ _ Ho) as (a & A1 & A2 & A3), (K _ _ _ Ho') as (b & B1 & B2 & B3). rewrite <- A3, <- B3. apply Hd; congruence.
Qed.

(** The walk up to tick [T]. *)
Lemma output_zero side p : output_for side 0 p = 0.
Proof. unfold output_for, ask_gross, bid_gross, floor_div. destruct side; reflexivity. Qed.
Lemma walk_at side partial open l q last f r : ordered (opposite side) l -> (forall t, t ∈ l -> ~ better_tick side t T) -> (forall t, t ∈ l -> 0 <= open t) ->
  walk side partial open l q last = Some (f, r) -> taken_at f T = if bool_decide (T ∈ l) then Z.min (output_for side q (tick_price T)) (open T) else 0.
Proof.
  intros Hord Hn Ho Hw. destruct (bool_decide_reflect (T ∈ l)) as [HT|HT]; [|apply (walk_taken _ _ _ _ _ _ _ _ Hw T HT)].
  destruct l as [|t l]; [inversion HT|]. destruct (ordered_head _ _ _ Hord) as (Hl & Htl & Hbt).
  assert (t = T) as ->.
  { apply elem_of_cons in HT as [->|HT]; [reflexivity|]. specialize (Hbt T HT). rewrite <- worse_better in Hbt. exfalso. apply (Hn t ltac:(constructor) Hbt). }
  cbn [walk] in Hw. pose proof (Ho T ltac:(constructor)) as Ho'. destruct (Z.eqb_spec (output_for side q (tick_price T)) 0) as [E|].
  { injection Hw as <- _. rewrite E. cbn [taken_at foldr]. lia. }
  destruct (_ && _); [|discriminate]. destruct (walk side partial open l _ _) as [[f' r']|] eqn:E; [|discriminate]. injection Hw as <- _.
  cbn [taken_at foldr fst snd]. fold (taken_at f' T). rewrite Z.eqb_refl, (walk_taken _ _ _ _ _ _ _ _ E T Htl). lia.
Qed.
Lemma walk_ahead side partial open open' E : forall l l' q last last' f r f' r', 0 <= E -> 0 <= q ->
  ordered (opposite side) l -> ordered (opposite side) l' -> (forall t, t ∈ l -> valid_tick t) -> (forall t, t ∈ l' -> valid_tick t) -> (forall t, 0 <= open t) -> (forall t, 0 <= open' t) ->
  (forall t, better_tick side t T -> (t ∈ l <-> t ∈ l') /\ open' t = open t) ->
  (T ∈ l -> E <= open T) -> (T ∈ l' -> E <= open' T) -> E = 0 \/ (T ∈ l <-> T ∈ l') ->
  walk side partial open l q last = Some (f, r) -> walk side partial open' l' q last' = Some (f', r') ->
  (forall t, better_tick side t T -> taken_at f' t = taken_at f t) /\ Z.min (taken_at f T) E = Z.min (taken_at f' T) E.
Proof.
  assert (Tail : forall l l' q last last' f r f' r', 0 <= E -> 0 <= q -> (valid_tick T \/ T ∉ l /\ T ∉ l') ->
    ordered (opposite side) l -> ordered (opposite side) l' -> (forall t, 0 <= open t) -> (forall t, 0 <= open' t) ->
    (forall t, t ∈ l -> ~ better_tick side t T) -> (forall t, t ∈ l' -> ~ better_tick side t T) ->
    (T ∈ l -> E <= open T) -> (T ∈ l' -> E <= open' T) -> E = 0 \/ (T ∈ l <-> T ∈ l') ->
    walk side partial open l q last = Some (f, r) -> walk side partial open' l' q last' = Some (f', r') ->
    (forall t, better_tick side t T -> taken_at f' t = taken_at f t) /\ Z.min (taken_at f T) E = Z.min (taken_at f' T) E).
  { intros l l' q last last' f r f' r' HE Hq HvT O1 O2 P1 P2 N1 N2 E1 E2 E3 W1 W2. split.
    - intros t Ht. rewrite (walk_taken _ _ _ _ _ _ _ _ W1 t), (walk_taken _ _ _ _ _ _ _ _ W2 t); [reflexivity| |]; intros Hin; [apply (N2 t Hin Ht)|apply (N1 t Hin Ht)].
    - rewrite (walk_at _ _ _ _ _ _ _ _ O1 N1 (fun t _ => P1 t) W1), (walk_at _ _ _ _ _ _ _ _ O2 N2 (fun t _ => P2 t) W2). specialize (P1 T). specialize (P2 T).
      assert (Hw : T ∈ l \/ T ∈ l' -> 0 <= output_for side q (tick_price T)).
      { intros Hin. rewrite output_gross. apply gross_nonneg; [exact Hq|]. apply tick_price_pos. destruct HvT as [?|[? ?]]; [assumption|tauto]. }
      repeat case_bool_decide; try (specialize (Hw ltac:(tauto))); try (specialize (E1 ltac:(assumption))); try (specialize (E2 ltac:(assumption))); try lia; destruct E3; try lia; tauto. }
  induction l as [|t l IH]; intros l' q last last' f r f' r' HE Hq O1 O2 V1 V2 P1 P2 Hag E1 E2 E3 W1 W2.
  - assert (N1 : forall t, t ∈ @nil Z -> ~ better_tick side t T) by (intros t Ht; inversion Ht).
    assert (N2 : forall t, t ∈ l' -> ~ better_tick side t T) by (intros t Ht Hb; destruct (Hag t Hb) as [[_ K] _]; specialize (K Ht); inversion K).
    eapply (Tail [] l'); try eassumption. destruct (decide (T ∈ l')) as [Hin|Hin]; [left; apply V2; exact Hin|right; split; [intros K; inversion K|exact Hin]].
  - destruct (ordered_head _ _ _ O1) as (Hl & Htl & Hbt).
    assert (Hdec : better_tick side t T \/ ~ better_tick side t T) by (destruct side; cbn; lia). destruct Hdec as [Hb|Hb].
    + destruct (Hag t Hb) as [Hin Eo]. pose proof (proj1 Hin ltac:(constructor)) as Hin'. destruct l' as [|t' l']; [inversion Hin'|]. destruct (ordered_head _ _ _ O2) as (Hl' & Htl' & Hbt').
      assert (t' = t) as ->.
      { apply elem_of_cons in Hin' as [->|Hin']; [reflexivity|]. specialize (Hbt' t Hin').
        assert (Hn : better_tick side t' T) by (rewrite worse_better in *; destruct side; cbn in *; lia).
        destruct (Hag t' Hn) as [K _]. pose proof (proj2 K ltac:(constructor)) as Hx. apply elem_of_cons in Hx as [->|Hx]; [reflexivity|].
        specialize (Hbt t' Hx). destruct side; cbn in *; lia. }
      assert (HtT : t <> T) by (intros ->; destruct side; cbn in Hb; lia).
      pose proof (tick_price_pos t (V1 t ltac:(constructor))) as Hp. pose proof (gross_nonneg (opposite side) q _ Hq Hp) as Hg. pose proof (P1 t) as Hot.
      cbn [walk] in W1, W2. rewrite Eo in W2. rewrite !(output_gross side q), !input_cost in *.
      destruct (Z.eqb_spec (gross (opposite side) q (tick_price t)) 0) as [E0|Hn0].
      { injection W1 as <- _. injection W2 as <- _. split; [reflexivity|reflexivity]. }
      set (x := Z.min _ (open t)) in *. pose proof (cost_le (opposite side) q (tick_price t) x ltac:(unfold x; lia) Hp) as Hc. set (c := cost _ x _) in *.
      destruct ((x <=? _) && _) eqn:Ec; [|discriminate].
      destruct (walk side partial open l (q - c) (tick_price t)) as [[g s]|] eqn:F1; [|discriminate]. injection W1 as <- <-.
      destruct (walk side partial open' l' (q - c) (tick_price t)) as [[g' s']|] eqn:F2; [|discriminate]. injection W2 as <- <-.
      destruct (IH l' (q - c) (tick_price t) (tick_price t) g s g' s' HE ltac:(lia) Hl Hl') as [I1 I2]; try assumption.
      * intros; apply V1; constructor; assumption. * intros; apply V2; constructor; assumption.
      * intros u Hu. destruct (Hag u Hu) as [K1 K2]. split; [|exact K2]. rewrite !elem_of_cons in K1. split; intros Hx.
        -- destruct (proj1 K1 (or_intror Hx)) as [->|]; [contradiction|assumption].
        -- destruct (proj2 K1 (or_intror Hx)) as [->|]; [contradiction|assumption].
      * intros Hx. apply E1. constructor. exact Hx. * intros Hx. apply E2. constructor. exact Hx.
      * destruct E3 as [E3|E3]; [left; exact E3|right]. rewrite !elem_of_cons in E3. split; intros Hx.
        -- destruct (proj1 E3 (or_intror Hx)); [congruence|assumption].
        -- destruct (proj2 E3 (or_intror Hx)); [congruence|assumption].
      * split.
        -- intros u Hu. cbn [taken_at foldr fst snd]. fold (taken_at g u). fold (taken_at g' u). rewrite (I1 u Hu). reflexivity.
        -- cbn [taken_at foldr fst snd]. fold (taken_at g T). fold (taken_at g' T). rewrite (proj2 (Z.eqb_neq _ _) HtT), !Z.add_0_l. exact I2.
    + assert (N1 : forall u, u ∈ t :: l -> ~ better_tick side u T).
      { intros u Hu Hbu. apply elem_of_cons in Hu as [->|Hu]; [contradiction|]. specialize (Hbt u Hu). destruct side; cbn in *; lia. }
      assert (N2 : forall u, u ∈ l' -> ~ better_tick side u T) by (intros u Hu Hbu; destruct (Hag u Hbu) as [[_ K] _]; apply (N1 u (K Hu) Hbu)).
      eapply (Tail (t :: l) l'); try eassumption.
      destruct (decide (T ∈ l')) as [Hin|Hin]; [left; apply V2; exact Hin|]. destruct (decide (T ∈ t :: l)) as [Hin1|Hin1]; [left; apply V1; exact Hin1|right; split; assumption].
Qed.

(** What is open ahead of tick [T] and there. *)
Lemma open_fronts_le l t : (forall o, o ∈ l -> 0 <= re_open o) -> open_on d (fronts l) t <= open_on d l t.
Proof.
  induction l as [|o l IH]; intros H; [reflexivity|]. specialize (IH ltac:(intros; apply H; constructor; assumption)). pose proof (H o ltac:(constructor)).
  cbn [fronts List.filter]. fold (fronts l). destruct (front o); cbn [open_on foldr]; fold (open_on d (fronts l) t); fold (open_on d l t); destruct (bool_decide _); lia.
Qed.
Lemma open_fronts side l t : (forall o, o ∈ l -> re_dir o = side -> re_tick o = t -> front o = true) -> open_on side (fronts l) t = open_on side l t.
Proof.
  induction l as [|o l IH]; intros H; [reflexivity|]. specialize (IH ltac:(intros; apply H; [constructor|..]; assumption)). specialize (H o ltac:(constructor)).
  cbn [fronts List.filter]. fold (fronts l). destruct (front o) eqn:E; cbn [open_on foldr]; fold (open_on side l t); [fold (open_on side (fronts l) t); rewrite IH; reflexivity|].
  destruct (bool_decide_reflect (re_dir o = side /\ re_tick o = t)) as [[E1 E2]|]; [specialize (H E1 E2); discriminate|exact IH].
Qed.
Lemma open_fronts_none l t : (forall o, o ∈ l -> re_dir o = d -> re_tick o = t -> front o = false) -> open_on d (fronts l) t = 0.
Proof.
  induction l as [|o l IH]; intros H; [reflexivity|]. specialize (IH ltac:(intros; apply H; [constructor|..]; assumption)). specialize (H o ltac:(constructor)).
  cbn [fronts List.filter]. fold (fronts l). destruct (front o) eqn:E; [|exact IH]. cbn [open_on foldr]; fold (open_on d (fronts l) t). rewrite IH.
  destruct (bool_decide_reflect (re_dir o = d /\ re_tick o = t)) as [[E1 E2]|]; [specialize (H E1 E2); discriminate|reflexivity].
Qed.
Lemma front_other side o : side <> d -> re_dir o = side -> front o = true.
Proof. intros Hn E. unfold front, ahead. rewrite E, bool_decide_false by exact Hn. reflexivity. Qed.
Lemma front_better o : better_tick d (re_tick o) T -> front o = true.
Proof. intros H. unfold front, ahead. apply orb_true_intro. left. apply orb_true_intro. right. destruct d; apply Z.ltb_lt; exact H. Qed.
Lemma front_worse o : re_dir o = d -> better_tick d T (re_tick o) -> front o = false.
Proof.
  intros E H. unfold front, ahead. rewrite E, bool_decide_true by reflexivity. cbn [negb orb]. apply orb_false_intro; [destruct d; apply Z.ltb_ge; cbn in H; lia|].
  apply andb_false_intro1. apply Z.eqb_neq. destruct d; cbn in H; lia.
Qed.
Lemma levels_fronts side target l : side <> d -> levels side target (fronts l) = levels side target l.
Proof.
  intros Hn. unfold levels. induction l as [|o l IH]; [reflexivity|]. cbn [fronts List.filter]. fold (fronts l). destruct (front o) eqn:E; cbn [foldr]; [rewrite IH; reflexivity|].
  assert (reachable_level side target o = false) as ->; [|exact IH]. unfold reachable_level. destruct (bool_decide_reflect (re_dir o = side)) as [Ed|]; [|reflexivity]. rewrite (front_other side o Hn Ed) in E. discriminate.
Qed.
Lemma open_pos side l t : 0 < open_on side l t -> exists o, o ∈ l /\ re_dir o = side /\ re_tick o = t /\ 0 < re_open o.
Proof.
  induction l as [|o l IH]; cbn [open_on foldr]; [lia|]. fold (open_on side l t). intros H. destruct (bool_decide_reflect (re_dir o = side /\ re_tick o = t)) as [[E1 E2]|].
  - destruct (Z_lt_le_dec 0 (re_open o)); [exists o; split; [constructor|auto]|]. destruct IH as (o' & H1 & H2); [lia|]. exists o'. split; [constructor; exact H1|exact H2].
  - destruct IH as (o' & H1 & H2); [lia|]. exists o'. split; [constructor; exact H1|exact H2].
Qed.
Lemma ordered_nodup x l : ordered x l -> NoDup l.
Proof. induction l as [|t l IH]; intros H; [constructor|]. destruct (ordered_head _ _ _ H) as (H1 & H2 & _). constructor; auto. Qed.
Definition target_ok (side : dir) (target : option Z) (t : Z) : bool :=
  match target with None => true | Some b => match side with Ask => t <=? b | Bid => b <=? t end end.
Lemma level_iff side target l t : (forall o, o ∈ l -> 0 <= re_open o) -> t ∈ levels side target l <-> 0 < open_on side l t /\ target_ok side target t = true.
Proof.
  intros Hn. rewrite levels_in. split.
  - intros (o & Ho & Hr & <-). unfold reachable_level in Hr. apply andb_prop in Hr as [Hr H3]. apply andb_prop in Hr as [H1 H2]. apply bool_decide_eq_true in H1. apply Z.ltb_lt in H2.
    split; [|exact H3]. clear -Hn Ho H1 H2. revert Hn. induction l as [|a l IH]; intros Hn; [inversion Ho|]. cbn [open_on foldr]. fold (open_on side l (re_tick o)).
    assert (Hl : forall o', o' ∈ l -> 0 <= re_open o') by (intros; apply Hn; constructor; assumption). apply elem_of_cons in Ho as [->|Ho].
    + rewrite bool_decide_true by auto. pose proof (open_on_nonneg side l (re_tick a) Hl). lia.
    + specialize (IH Ho Hl). pose proof (Hn a ltac:(constructor)). destruct (bool_decide _); lia.
  - intros [H1 H2]. destruct (open_pos _ _ _ H1) as (o & Ho & Ed & <- & Hp). exists o. split; [exact Ho|]. split; [|reflexivity]. unfold reachable_level. rewrite bool_decide_true by exact Ed.
    rewrite (proj2 (Z.ltb_lt _ _) Hp). exact H2.
Qed.
Definition sane (m : machine) : Prop := (forall o, o ∈ ma_orders m -> 0 <= re_open o /\ valid_tick (re_tick o) /\ re_id o < ma_next m) /\ StronglySorted Z.lt (map re_id (ma_orders m)).
Lemma shadow_swap e m m' sender tin out mn fee target m1 r m1' r' : shadow m m' -> sane m -> sane m' -> 0 <= c_amount tin ->
  m_swap e sender tin out mn fee target m = Some (m1, r) -> m_swap e sender tin out mn fee target m' = Some (m1', r') ->
  shadow m1 m1' /\ r_events r = [] /\ r_events r' = [].
Proof.
  intros H [S1 S2] [S1' S2'] Hq E E'. unfold m_swap, maker_side in E, E'. rewrite (sw_quote _ _ H), (sw_base _ _ H) in E'. fold (maker_side m (c_denom tin) out) in E, E'.
  destruct (maker_side m (c_denom tin) out) as [side|]; [|discriminate]. rewrite (sw_set _ _ H) in E'. destruct (_ && _); [|discriminate].
  destruct (walk side _ _ _ _ _) as [[f rest]|] eqn:W in E; [|discriminate]. destruct (walk side _ _ _ _ _) as [[f' rest']|] eqn:W' in E'; [|discriminate].
  destruct (mn <=? total_out f); [|discriminate]. destruct (mn <=? total_out f'); [|discriminate]. injection E as <- <-. injection E' as <- <-. split; [|split; reflexivity].
  assert (P : forall o, o ∈ ma_orders m -> 0 <= re_open o) by (intros o Ho; apply (S1 o Ho)). assert (P' : forall o, o ∈ ma_orders m' -> 0 <= re_open o) by (intros o Ho; apply (S1' o Ho)).
  apply (shadow_same _ _ _ _ H); [|apply fill_dirs, (sw_dirs _ _ H)|apply fill_dirs, (sw_dirs' _ _ H)].
  rewrite !fill_fronts, (sw_orders _ _ H), fill_ren by assumption. f_equal.
  destruct (decide (side = d)) as [->|Hsd].
  - assert (Hfr : forall t, open_on d (fronts (ma_orders m')) t = open_on d (fronts (ma_orders m)) t) by (intros t; rewrite (sw_orders _ _ H); apply open_on_ren).
    assert (Pf : forall o, o ∈ fronts (ma_orders m) -> 0 <= re_open o) by (intros o Ho; apply elem_of_list_In, filter_In in Ho as [Ho _]; apply P, elem_of_list_In, Ho).
    assert (Hb : forall t, better_tick d t T -> open_on d (ma_orders m') t = open_on d (ma_orders m) t).
    { intros t Ht. rewrite <- (open_fronts d (ma_orders m')), <- (open_fronts d (ma_orders m)); [apply Hfr| |]; intros o _ _ <-; apply front_better; exact Ht. }
    assert (V : forall o t, t ∈ levels d target (ma_orders o) -> sane o -> valid_tick t).
    { intros o t Ht [So _]. rewrite levels_in in Ht. destruct Ht as (x & Hx & _ & <-). apply (So x Hx). }
    destruct (walk_ahead d (partial_allowed d target) (open_on d (ma_orders m)) (open_on d (ma_orders m')) (open_on d (fronts (ma_orders m)) T)
      (levels d target (ma_orders m)) (levels d target (ma_orders m')) (c_amount tin) ATOM ATOM f rest f' rest') as [R1 R2]; [| | | | | | | | | | | |exact W|exact W'|].
    + apply open_on_nonneg, Pf. + exact Hq. + apply levels_ordered. + apply levels_ordered.
    + intros t Ht. apply (V m t Ht). split; assumption. + intros t Ht. apply (V m' t Ht). split; assumption.
    + intros t. apply open_on_nonneg, P. + intros t. apply open_on_nonneg, P'.
    + intros t Ht. split; [|apply Hb, Ht]. rewrite !level_iff, (Hb t Ht) by assumption. tauto.
    + intros _. apply open_fronts_le, P. + intros _. rewrite <- Hfr. apply open_fronts_le, P'.
    + pose proof (open_on_nonneg d (fronts (ma_orders m)) T Pf) as Hnn. destruct (Z.eq_dec (open_on d (fronts (ma_orders m)) T) 0) as [E0|E0]; [left; exact E0|right].
      rewrite !level_iff by assumption. pose proof (open_fronts_le (ma_orders m) T P). pose proof (open_fronts_le (ma_orders m') T P') as K. rewrite Hfr in K. intuition lia.
    + apply fill_min; [exact Pf|]. intros t.
      assert (Hc : better_tick d t T \/ t = T \/ better_tick d T t) by (clear; destruct d; cbn; lia). destruct Hc as [Hc|[->|Hc]].
      * rewrite (R1 t Hc). reflexivity. * symmetry. exact R2.
      * rewrite open_fronts_none by (intros o _ Ed <-; apply front_worse; assumption).
        assert (Hle : forall l f0 q r0, walk d (partial_allowed d target) (open_on d l) (levels d target l) q ATOM = Some (f0, r0) -> 0 <= q -> (forall o, o ∈ l -> 0 <= re_open o /\ valid_tick (re_tick o)) -> 0 <= taken_at f0 t).
        { intros l f0 q r0 Hw Hq0 Hl. eapply (walk_bounds d); [exact Hq0| | | |exact Hw].
          - intros u Hu. rewrite levels_in in Hu. destruct Hu as (x & Hx & _ & <-). apply (Hl x Hx). - intros u _. apply open_on_nonneg. intros o Ho. apply (Hl o Ho).
          - eapply ordered_nodup, levels_ordered. }
        pose proof (Hle _ _ _ _ W Hq ltac:(intros o Ho; destruct (S1 o Ho) as (? & ? & _); auto)). pose proof (Hle _ _ _ _ W' Hq ltac:(intros o Ho; destruct (S1' o Ho) as (? & ? & _); auto)). lia.
  - assert (EW : walk side (partial_allowed side target) (open_on side (ma_orders m')) (levels side target (ma_orders m')) (c_amount tin) ATOM =
                 walk side (partial_allowed side target) (open_on side (ma_orders m)) (levels side target (ma_orders m)) (c_amount tin) ATOM).
    { rewrite <- (levels_fronts side target (ma_orders m')), <- (levels_fronts side target (ma_orders m)) by assumption. rewrite (sw_orders _ _ H), levels_ren. apply walk_ext.
      intros t. rewrite <- (open_fronts side (ma_orders m')), <- (open_fronts side (ma_orders m)) by (intros o _ Ed _; apply (front_other side); assumption). rewrite (sw_orders _ _ H). apply open_on_ren. }
    rewrite EW, W in W'. injection W' as <- _. reflexivity.
Qed.

(** ** One transaction *)
Definition evs (o : outcome) : list claim_event := match o with Done r => r_events r | Failed => [] end.
Definition ahead_evs (o : outcome) : list claim_event := List.filter (ahead_event n d T) (evs o).
Lemma step_back m m' id t : shadow m m' -> find_order t id (fronts (ma_orders m)) = None -> find_order t (later n id) (fronts (ma_orders m')) = None.
Proof. intros H E. rewrite (shadow_find _ _ _ _ H), E. reflexivity. Qed.
Lemma none_front m t id o : dirs (ma_orders m) -> find_order t id (fronts (ma_orders m)) = None -> find_order t id (ma_orders m) = Some o -> front o = false.
Proof. intros Hd Hn Ho. rewrite (find_fronts t id _ Hd), Ho in Hn. destruct (front o); [discriminate|reflexivity]. Qed.
(** A claim or a cancellation of an order that is not ahead. *)
Definition cancels (i : info) (t id : Z) (c : call) : Prop := c = CExec i (CancelLimit t id) \/ c = CExec i (ClaimLimit t id).
Lemma behind_step e i t id c m : dirs (ma_orders m) -> cancels i t id c -> find_order t id (fronts (ma_orders m)) = None ->
  ahead_evs (snd (m_step e m c)) = [] /\ (fst (m_step e m c) = m \/ exists f, same_name f /\ fst (m_step e m c) = with_orders m (change t id f (ma_orders m))).
Proof.
  intros Hd Hc Hn. unfold m_step. destruct Hc as [-> | ->]; cbn [m_run].
  - unfold m_cancel. destruct (find_order t id (ma_orders m)) as [o|]; [|split; [reflexivity|left; reflexivity]]. destruct (_ && _); [|split; [reflexivity|left; reflexivity]].
    destruct (forallb _ _); [|split; [reflexivity|left; reflexivity]]. split; [reflexivity|]. right. exists (fun _ => None). split; [intros ? ?; discriminate|reflexivity].
  - unfold m_claim, claim_one. destruct (_ && _); [|split; [reflexivity|left; reflexivity]]. destruct (find_order t id (ma_orders m)) as [o|] eqn:E; [|split; [reflexivity|left; reflexivity]].
    destruct (0 <? re_filled o); [|split; [reflexivity|left; reflexivity]]. destruct (forallb _ _); [|split; [reflexivity|left; reflexivity]].
    split; [|right; exists claim_f; split; [apply claim_f_name|reflexivity]]. unfold ahead_evs. cbn [snd evs r_events List.filter]. rewrite front_event, (none_front _ _ _ _ Hd Hn E). reflexivity.
Qed.
Lemma later_cancels i t id c : cancels i t id c -> cancels i t (later n id) (later_call n c).
Proof. intros [-> | ->]; [left|right]; reflexivity. Qed.
Lemma behind_both e i t id c m m' : shadow m m' -> cancels i t id c -> find_order t id (fronts (ma_orders m)) = None ->
  shadow (fst (m_step e m c)) (fst (m_step e m' (later_call n c))) /\ ahead_evs (snd (m_step e m' (later_call n c))) = map (later_event n) (ahead_evs (snd (m_step e m c))).
Proof.
  intros H Hc Hn. pose proof (step_back _ _ _ _ H Hn) as Hn'. destruct (behind_step e i t id c m (sw_dirs _ _ H) Hc Hn) as [E1 F1].
  destruct (behind_step e i t (later n id) (later_call n c) m' (sw_dirs' _ _ H) (later_cancels _ _ _ _ Hc) Hn') as [E2 F2]. rewrite E1, E2. split; [|reflexivity].
  assert (H1 : shadow (fst (m_step e m c)) m') by (destruct F1 as [-> |(f & Hf & ->)]; [exact H|apply change_left; assumption]).
  destruct F2 as [-> |(f & Hf & ->)]; [exact H1|apply change_right; assumption].
Qed.
(** One of an order that is ahead has the same answer. *)
Lemma front_both e i t id c m m' o : shadow m m' -> cancels i t id c -> find_order t id (fronts (ma_orders m)) = Some o ->
  shadow (fst (m_step e m c)) (fst (m_step e m' (later_call n c))) /\ snd (m_step e m' (later_call n c)) = later_outcome n (snd (m_step e m c)).
Proof.
  intros H Hc Ho. unfold m_step. destruct Hc as [-> | ->]; cbn [later_call m_run].
  - pose proof (shadow_find m m' t id H) as Hf. rewrite Ho in Hf. cbn [option_map] in Hf.
    assert (E : find_order t id (ma_orders m) = Some o) by (rewrite (find_fronts t id _ (sw_dirs _ _ H)) in Ho; destruct (find_order t id (ma_orders m)) as [x|]; [destruct (front x); congruence|discriminate]).
    assert (E' : find_order t (later n id) (ma_orders m') = Some (ren n o)) by (rewrite (find_fronts t _ _ (sw_dirs' _ _ H)) in Hf; destruct (find_order t (later n id) (ma_orders m')) as [x|]; [destruct (front x); congruence|discriminate]).
    unfold m_cancel. rewrite E, E'. cbn [ren re_owner re_filled re_dir re_open re_placed]. rewrite (sw_set _ _ H), (shadow_deposit _ _ _ H), (shadow_payout _ _ _ H).
    destruct (_ && _); [|auto]. cbn [r_msgs]. destruct (forallb _ _); cbn [fst snd]; [|auto]. split; [|reflexivity].
    apply (change_both m m' t id (fun _ => None) (fun _ => None) H); try reflexivity; intros ? ?; discriminate.
  - unfold m_claim. rewrite (sw_set _ _ H). destruct (_ && _); [|auto]. destruct (shadow_claim_one m m' (i_sender i) t id H) as (H1 & _ & K). specialize (K o Ho).
    destruct (claim_one _ t id m) as [[[m1 ms] ev]|], (claim_one _ t (later n id) m') as [[[m1' ms'] ev']|]; try contradiction; [|auto].
    destruct K as [-> ->]. cbn [r_msgs]. destruct (forallb _ _); cbn [fst snd]; auto.
Qed.
Lemma later_ahead ev : ahead_event n d T (later_event n ev) = ahead_event n d T ev.
Proof. unfold ahead_event, ahead. cbn [later_event ce_dir ce_tick ce_id]. rewrite later_ltb. reflexivity. Qed.
Lemma later_ahead_evs o : ahead_evs (later_outcome n o) = map (later_event n) (ahead_evs o).
Proof.
  unfold ahead_evs, evs, later_outcome. destruct o as [r|]; [|reflexivity]. cbn [r_events]. induction (r_events r) as [|ev l IH]; [reflexivity|]. cbn [map List.filter]. rewrite later_ahead.
  destruct (ahead_event n d T ev); cbn [map]; rewrite IH; reflexivity.
Qed.
Lemma shadow_set m m' s : shadow m m' -> shadow (with_set m s) (with_set m' s).
Proof. intros [H1 H2 H3 H4 H5 H6 H7 H8]. split; try assumption; reflexivity. Qed.
(** What is left to show of a transaction that does not touch orders. *)
Definition alike (x x' : option (machine * response)) : Prop :=
  match x, x' with
  | Some (m, r), Some (m', r') => shadow m m' /\ r_events r = [] /\ r_events r' = [] /\ r_msgs r = [] /\ r_msgs r' = []
  | None, None => True
  | _, _ => False
  end.
Lemma alike_step e c m m' : shadow m m' -> alike (m_run e c m) (m_run e (later_call n c) m') ->
  shadow (fst (m_step e m c)) (fst (m_step e m' (later_call n c))) /\ ahead_evs (snd (m_step e m' (later_call n c))) = map (later_event n) (ahead_evs (snd (m_step e m c))).
Proof.
  intros H Hr. unfold m_step. destruct (m_run e c m) as [[m1 r]|], (m_run e (later_call n c) m') as [[m1' r']|]; cbn [alike] in Hr; try contradiction; [|auto].
  destruct Hr as (H1 & E1 & E2 & E3 & E4). rewrite E3, E4. cbn [forallb fst snd]. unfold ahead_evs, evs. rewrite E1, E2. auto.
Qed.
Lemma shadow_step self e c m m' : shadow m m' -> sane m -> sane m' -> call_ok self c = true ->
  (joint c = true -> accepted (snd (m_step e m' (later_call n c))) = accepted (snd (m_step e m c))) ->
  shadow (fst (m_step e m c)) (fst (m_step e m' (later_call n c))) /\ ahead_evs (snd (m_step e m' (later_call n c))) = map (later_event n) (ahead_evs (snd (m_step e m c))).
Proof.
  intros H S S' Hok HL.
  assert (Hsw : forall sender tin out mn fee target, m_run e c m = m_swap e sender tin out mn fee target m -> m_run e (later_call n c) m' = m_swap e sender tin out mn fee target m' -> joint c = true -> 0 <= c_amount tin ->
    shadow (fst (m_step e m c)) (fst (m_step e m' (later_call n c))) /\ ahead_evs (snd (m_step e m' (later_call n c))) = map (later_event n) (ahead_evs (snd (m_step e m c)))).
  { intros sender tin out mn fee target R R' Hj Hq. specialize (HL Hj). unfold m_step in *. rewrite R, R' in *.
    destruct (m_swap e sender tin out mn fee target m) as [[m1 r]|] eqn:E, (m_swap e sender tin out mn fee target m') as [[m1' r']|] eqn:E'; [| | |cbn; auto].
    - destruct (shadow_swap _ _ _ _ _ _ _ _ _ _ _ _ _ H S S' Hq E E') as (H1 & E1 & E2).
      destruct (forallb _ (r_msgs r)), (forallb _ (r_msgs r')); cbn [fst snd accepted] in *; try discriminate; unfold ahead_evs, evs; rewrite ?E1, ?E2; auto.
    - destruct (forallb _ (r_msgs r)); cbn [fst snd accepted] in *; [discriminate|auto].
    - destruct (forallb _ (r_msgs r')); cbn [fst snd accepted] in *; [discriminate|auto]. }
  assert (Hcl : forall i t id, cancels i t id c -> shadow (fst (m_step e m c)) (fst (m_step e m' (later_call n c))) /\ ahead_evs (snd (m_step e m' (later_call n c))) = map (later_event n) (ahead_evs (snd (m_step e m c)))).
  { intros i t id Hc. destruct (find_order t id (fronts (ma_orders m))) as [o|] eqn:E; [|eapply behind_both; eassumption].
    destruct (front_both e i t id c m m' o H Hc E) as [H1 E1]. rewrite E1. split; [exact H1|apply later_ahead_evs]. }
  destruct c as [i x|x| |c]; [destruct x as [t d' q b|t id|t id|l|a]| | |].
  - apply alike_step; [exact H|]. cbn [later_call m_run]. unfold m_place. rewrite (sw_set _ _ H), (shadow_deposit _ _ d' H), (shadow_payout _ _ d' H).
    destruct (_ && _); [|exact I]. split; [|auto]. destruct H as [H1 H2 H3 H4 H5 H6 H7 H8]. destruct S as [S1 _], S' as [S1' _].
    split; cbn [ma_quote ma_base ma_set ma_next ma_orders]; first [assumption|reflexivity|lia|idtac].
    + unfold fronts in *. rewrite !List.filter_app, map_app, H6. f_equal. rewrite H4. set (o := mkResting _ _ (ma_next m) _ _ _ _ _ _).
      assert (Eo : mkResting t d' (ma_next m + 1) (i_sender i) b (e_time e) q q 0 = ren n o).
      { unfold ren, o. cbn. f_equal. unfold later. destruct (Z.ltb_spec (ma_next m) n); [lia|reflexivity]. }
      rewrite Eo. cbn [List.filter]. rewrite front_ren. destruct (front o); reflexivity.
    + intros o o' Ho Ho' E. apply elem_of_app in Ho as [Ho|Ho], Ho' as [Ho'|Ho']; try apply elem_of_list_singleton in Ho as ->; try apply elem_of_list_singleton in Ho' as ->; cbn in *; [apply H7; assumption| | |reflexivity].
      * destruct (S1 _ Ho) as (_ & _ & K). lia. * destruct (S1 _ Ho') as (_ & _ & K). lia.
    + intros o o' Ho Ho' E. apply elem_of_app in Ho as [Ho|Ho], Ho' as [Ho'|Ho']; try apply elem_of_list_singleton in Ho as ->; try apply elem_of_list_singleton in Ho' as ->; cbn in *; [apply H8; assumption| | |reflexivity].
      * destruct (S1' _ Ho) as (_ & _ & K). lia. * destruct (S1' _ Ho') as (_ & _ & K). lia.
  - eapply Hcl. left. reflexivity.
  - eapply Hcl. right. reflexivity.
  - specialize (HL eq_refl). unfold m_step in *. cbn [later_call m_run] in *. unfold m_batch in *. rewrite (sw_set _ _ H), map_length in *. destruct (_ && _); [|auto].
    destruct (shadow_claim_all (i_sender i) l m m' H) as [H1 E1]. destruct (claim_all _ l m) as [[m1 ms] es], (claim_all _ _ m') as [[m1' ms'] es']. cbn [fst snd r_msgs] in *.
    destruct (forallb _ ms), (forallb _ ms'); cbn [fst snd accepted] in *; try discriminate; auto.
  - apply alike_step; [exact H|]. cbn [later_call m_run]. unfold m_auth. rewrite (sw_set _ _ H). destruct (ma_set m). destruct a;
      (match goal with |- alike (if ?c then _ else _) _ => destruct c; [|exact I] end); (split; [apply shadow_set; exact H|auto]).
  - assert (Ex : forall sender tin out mn fee, m_sudo e (SwapExactAmountIn sender tin out mn fee) m = m_swap e sender tin out mn fee None m) by (intros; unfold m_sudo; destruct (ma_set m); reflexivity).
    destruct x; try (apply alike_step; [exact H|]; cbn [later_call m_run]; unfold m_sudo; rewrite (sw_set _ _ H); destruct (ma_set m); try exact I;
      (match goal with |- alike (if ?c then _ else _) _ => destruct c; [|exact I] end); (split; [apply shadow_set; exact H|auto])).
    + eapply Hsw; [cbn [m_run]; unfold m_sudo; destruct (ma_set m); reflexivity|cbn [later_call m_run]; unfold m_sudo; destruct (ma_set m'); reflexivity|reflexivity|].
      unfold call_ok in Hok. apply andb_prop in Hok as [_ Hok]. cbn [sudo_typed] in Hok. apply andb_prop in Hok as [Hok _]. apply andb_prop in Hok as [Hok _]. unfold coin_typed, u128 in Hok. lia.
    + eapply Hsw; [cbn [m_run]; unfold m_sudo; destruct (ma_set m); reflexivity|cbn [later_call m_run]; unfold m_sudo; destruct (ma_set m'); reflexivity|reflexivity|].
      unfold call_ok in Hok. apply andb_prop in Hok as [_ Hok]. cbn [sudo_typed] in Hok. apply andb_prop in Hok as [Hok _]. apply andb_prop in Hok as [Hok _]. apply andb_prop in Hok as [Hok _]. unfold coin_typed, u128 in Hok. lia.
  - apply alike_step; [exact H|]. split; [exact H|auto].
  - apply alike_step; [exact H|]. split; [exact H|auto].
Qed.
End Behind.

(** ** Histories *)
Definition machine_of (w0 : world) (h : list (env * call)) : machine := abs (w_st (run w0 h)) (ideal_run w0 [] h).
Lemma sane_of w0 h : start w0 -> history w0 h -> sane (machine_of w0 h).
Proof.
  intros Hs Hh. destruct (run_good w0 h Hs Hh) as (G & Hg). pose proof (shows_abs _ _ _ Hg) as Hsh. split; [|exact (sh_ids _ _ Hsh)].
  intros o Ho. pose proof (proj1 (sh_parts _ _ Hsh o Ho)) as Hp. apply lives_in in Ho as (en & Hen & _ & ->). pose proof (rf_entry _ _ _ (gd_ref _ _ _ Hg) _ Hen) as He.
  split; [exact Hp|]. split; [apply (eo_tick _ _ He)|apply (eo_id _ _ He)].
Qed.
Definition ev_list (n : Z) (d : dir) (T : Z) (w : world) (h : list (env * call)) : list claim_event := List.filter (ahead_event n d T) (collect r_events w h).
Lemma shadow_history n d T w0 mid : start w0 -> forall h h', shadow n d T (machine_of w0 h) (machine_of w0 h') ->
  history w0 (h ++ mid) -> short (h ++ mid) -> history w0 (h' ++ later_history n mid) -> short (h' ++ later_history n mid) ->
  same_luck mid (all_outcomes (run w0 h) mid) (all_outcomes (run w0 h') (later_history n mid)) ->
  shadow n d T (machine_of w0 (h ++ mid)) (machine_of w0 (h' ++ later_history n mid)) /\
  ev_list n d T (run w0 h') (later_history n mid) = map (later_event n) (ev_list n d T (run w0 h) mid).
Proof.
  intros Hs. induction mid as [|[e c] mid IH]; intros h h' H Hh Hsh Hh' Hsh' HL.
  - cbn [later_history map]. rewrite !app_nil_r. split; [exact H|reflexivity].
  - cbn [later_history map fst snd] in *. fold (later_history n mid) in *.
    assert (Ea : h ++ (e, c) :: mid = (h ++ [(e, c)]) ++ mid) by (rewrite <- app_assoc; reflexivity).
    assert (Ea' : h' ++ (e, later_call n c) :: later_history n mid = (h' ++ [(e, later_call n c)]) ++ later_history n mid) by (rewrite <- app_assoc; reflexivity).
    rewrite Ea in *. rewrite Ea' in *. clear Ea Ea'. cbn [all_outcomes same_luck] in HL. destruct HL as [HL1 HL2].
    pose proof (short_app _ _ (short_app _ _ Hsh)) as Hsh0. pose proof (short_app _ _ (short_app _ _ Hsh')) as Hsh0'.
    pose proof (proj1 (proj1 (history_app _ _ _) Hh)) as Hh1. pose proof (proj1 (proj1 (history_app _ _ _) Hh')) as Hh1'.
    pose proof Hh1 as K. apply history_app in K as [Hh0 Hc]. apply Forall_cons in Hc as [Hc _]. pose proof Hh1' as K. apply history_app in K as [Hh0' Hc']. apply Forall_cons in Hc' as [Hc' _]. cbn [snd] in Hc, Hc'.
    assert (Ec : call_ok (w_self (run w0 h)) c = true) by exact Hc. assert (Ec' : call_ok (w_self (run w0 h')) (later_call n c) = true) by exact Hc'.
    pose proof (machine_step e w0 h c Hs Hh0 Hsh0 Ec) as M. pose proof (machine_step e w0 h' (later_call n c) Hs Hh0' Hsh0' Ec') as M'. cbv zeta in M, M'.
    fold (machine_of w0 h) in M. fold (machine_of w0 h') in M'.
    destruct (shadow_step n d T (w_self (run w0 h)) e c _ _ H (sane_of _ _ Hs Hh0) (sane_of _ _ Hs Hh0') Ec) as [H1 E1].
    { rewrite M, M'. exact HL1. }
    rewrite M, M' in H1, E1. cbn [fst snd] in H1, E1.
    destruct (IH (h ++ [(e, c)]) (h' ++ [(e, later_call n c)])) as [H2 E2]; try assumption.
    + unfold machine_of. rewrite !run_last, !ideal_run_last. exact H1.
    + rewrite !run_last. exact HL2.
    + split; [exact H2|]. rewrite !run_last in E2. unfold ev_list in *. cbn [collect]. rewrite !List.filter_app, map_app, E2. f_equal. exact E1.
Qed.

(** ** C58 *)
Theorem C58_behind :
  forall w0 h e i t d q b w1 r mid,
  let w := run w0 h in let place := CExec i (PlaceLimit t d q b) in let n := attr_int (r_attrs r) "order_id" in
  let mid' := later_history n mid in let W := run w mid in let W' := run w1 mid' in
  start w0 -> step e w place = (w1, Done r) ->
  history w0 (h ++ mid) -> history w0 (h ++ [(e, place)] ++ mid') -> short (h ++ [(e, place)] ++ mid') ->
  same_luck mid (all_outcomes w mid) (all_outcomes w1 mid') ->
  List.filter (ahead_event n d t) (collect r_events w1 mid') = map (later_event n) (List.filter (ahead_event n d t) (collect r_events w mid)) /\
  (forall t' id' o, s_orders (w_st W) !! (t', id') = Some o -> ahead n d t (o_dir o) t' id' = true ->
     (exists o', s_orders (w_st W') !! (t', later n id') = Some o' /\
        (o_dir o', o_owner o', o_bounty o', o_placed_at o', o_placed_quantity o', o_quantity o') = (o_dir o, o_owner o, o_bounty o, o_placed_at o, o_placed_quantity o, o_quantity o)) /\
     forall e i, call_ok (w_self w0) (CExec i (ClaimLimit t' id')) = true -> call_ok (w_self w0) (CExec i (ClaimLimit t' (later n id'))) = true ->
       snd (step e W' (CExec i (ClaimLimit t' (later n id')))) = later_outcome n (snd (step e W (CExec i (ClaimLimit t' id')))) /\
       snd (step e W' (CExec i (CancelLimit t' (later n id')))) = later_outcome n (snd (step e W (CExec i (CancelLimit t' id'))))) /\
  (forall t' side, side <> d \/ better_tick d t' t -> tick_liquidity (w_st W') t' side = tick_liquidity (w_st W) t' side).
Proof.
  intros w0 h e i t d q b w1 r mid w place n mid' W W' Hs E1 Hh Hh' Hsh' HL.
  set (H1 := h ++ [(e, place)]) in *. rewrite app_assoc in Hh', Hsh'. fold H1 in Hh', Hsh'.
  assert (Hn1 : run w0 H1 = w1) by (unfold H1; rewrite run_last; fold w; rewrite E1; reflexivity).
  assert (Hsh : short (h ++ mid)) by (unfold short, H1, mid', later_history in *; rewrite !app_length, ?map_length in *; cbn [length] in *; lia).
  pose proof (proj1 (proj1 (history_app _ _ _) Hh)) as Hh0. pose proof (short_app _ _ Hsh) as Hsh0.
  pose proof (proj1 (proj1 (history_app _ _ _) Hh')) as Hh1. assert (Hc : call_ok (w_self w) place = true).
  { pose proof Hh1 as K. apply history_app in K as [_ K]. apply Forall_cons in K as [K _]. exact K. }
  (* the extra order *)
  pose proof (sane_of w0 h Hs Hh0) as S0.
  assert (T1 : shadow n d t (machine_of w0 h) (machine_of w0 H1)).
  { pose proof (machine_step e w0 h place Hs Hh0 Hsh0 Hc) as S1. cbv zeta in S1. fold (machine_of w0 h) w in S1.
    assert (Em : machine_of w0 H1 = abs (w_st (fst (step e w place))) (ideal_step e w place (ideal_run w0 [] h))) by (unfold machine_of, H1; rewrite run_last, ideal_run_last; reflexivity).
    rewrite <- Em, E1 in S1. clear Em. cbn [snd] in S1. set (m := machine_of w0 h) in *. set (m1 := machine_of w0 H1) in *. clearbody m m1.
    unfold m_step in S1. cbn [m_run place] in S1. destruct (m_place e i t d q b m) as [[m1' r1']|] eqn:Ep; [|discriminate]. destruct (forallb _ (r_msgs r1')); [|discriminate].
    injection S1 as -> ->. unfold m_place in Ep. match type of Ep with (if ?x then _ else _) = _ => destruct x eqn:Ea; [|discriminate] end. injection Ep as <- E.
    assert (En : n = ma_next m) by (unfold n; rewrite <- E; reflexivity). destruct S0 as [Hlt Hids]. clear -En Hlt Hids.
    assert (Hd : dirs (ma_orders m)).
    { clear Hlt. induction (ma_orders m) as [|a l IH]; [intros ? ? K; inversion K|]. cbn [map] in Hids. apply StronglySorted_inv in Hids as [Hs Hf]. rewrite Forall_forall in Hf.
      assert (Hne : forall x, x ∈ l -> re_id a < re_id x) by (intros x Hx; apply Hf; apply elem_of_list_In, in_map, elem_of_list_In; exact Hx).
      intros o o' Ho Ho' Eq. apply elem_of_cons in Ho as [->|Ho], Ho' as [->|Ho']; [reflexivity|specialize (Hne _ Ho'); lia|specialize (Hne _ Ho); lia|apply (IH Hs); assumption]. }
    split; cbn [ma_quote ma_base ma_set ma_next ma_orders]; try reflexivity; try assumption; try lia.
    - unfold fronts. rewrite List.filter_app. cbn [List.filter]. assert (front n d t (mkResting t d (ma_next m) (i_sender i) b (e_time e) q q 0) = false) as ->.
      { unfold front, ahead. cbn [re_dir re_tick re_id]. rewrite bool_decide_true, En by reflexivity. destruct d; rewrite !Z.ltb_irrefl, andb_false_r; reflexivity. }
      rewrite app_nil_r. clear Hids Hd. induction (ma_orders m) as [|o l IH]; [reflexivity|]. assert (ren n o = o) as Eo.
      { destruct (Hlt o ltac:(constructor)) as (_ & _ & K). destruct o. unfold ren, later. cbn in *. rewrite En. apply Z.ltb_lt in K. rewrite K. reflexivity. }
      specialize (IH ltac:(intros; apply Hlt; constructor; assumption)). cbn [List.filter]. destruct (front n d t o); [cbn [map]; rewrite Eo, <- IH; reflexivity|exact IH].
    - intros o o' Ho Ho' Eq. apply elem_of_app in Ho as [Ho|Ho], Ho' as [Ho'|Ho']; try apply elem_of_list_singleton in Ho as ->; try apply elem_of_list_singleton in Ho' as ->; cbn in *; [apply Hd; assumption| | |reflexivity].
      + destruct (Hlt _ Ho) as (_ & _ & K). lia. + destruct (Hlt _ Ho') as (_ & _ & K). lia. }
  rewrite <- Hn1 in HL. destruct (shadow_history n d t w0 mid Hs h H1 T1 Hh Hsh Hh' Hsh' HL) as [T2 EV].
  assert (EW : run w0 (h ++ mid) = W) by (rewrite run_app; reflexivity). assert (EW' : run w0 (H1 ++ mid') = W') by (rewrite run_app, Hn1; reflexivity).
  split; [|split].
  - rewrite <- Hn1. exact EV.
  - destruct (run_good w0 _ Hs Hh) as (G & Hg). destruct (run_good w0 _ Hs Hh') as (G' & Hg'). fold mid' in T2.
    assert (A : shows (w_st W) (machine_of w0 (h ++ mid))) by (rewrite <- EW; eapply shows_abs; exact Hg). assert (A' : shows (w_st W') (machine_of w0 (H1 ++ mid'))) by (rewrite <- EW'; eapply shows_abs; exact Hg').
    intros t' id' o Eo Ha. destruct (sh_order _ _ A _ _ _ Eo) as (x & Ex & Ey).
    pose proof (find_fronts n d t t' id' _ (sw_dirs _ _ _ _ _ T2)) as Ff. rewrite Ex in Ff.
    assert (Hx : front n d t x = true).
    { pose proof Ex as K. apply find_some in K as [_ K]. unfold is_order in K. apply andb_prop in K as [K1 K2]. apply Z.eqb_eq in K1, K2. unfold front. rewrite K1, K2.
      assert (re_dir x = o_dir o) as -> by congruence. exact Ha. }
    rewrite Hx in Ff. split.
    + pose proof (shadow_find n d t _ _ t' id' T2) as Fg. rewrite Ff in Fg. cbn [option_map] in Fg. rewrite (find_fronts n d t t' (later n id') _ (sw_dirs' _ _ _ _ _ T2)) in Fg.
      destruct (find_order t' (later n id') (ma_orders (machine_of w0 (H1 ++ mid')))) as [x'|] eqn:Ex'; [|discriminate]. destruct (front n d t x'); [|discriminate]. injection Fg as ->.
      destruct (s_orders (w_st W') !! (t', later n id')) as [o'|] eqn:Eo'; [|rewrite (sh_none _ _ A' _ _ Eo') in Ex'; discriminate].
      destruct (sh_order _ _ A' _ _ _ Eo') as (y & Ex2 & Ey2). rewrite Ex' in Ex2. injection Ex2 as <-. exists o'. split; [reflexivity|]. cbn [ren re_tick re_id re_dir re_owner re_bounty re_time re_placed re_open re_filled] in Ey2. congruence.
    + intros e2 i2 C1 C2.
      assert (K : forall c, cancels i2 t' id' c -> snd (step e2 W' (later_call n c)) = later_outcome n (snd (step e2 W c))).
      { intros c Hcc. assert (X1 : call_ok (w_self (run w0 (h ++ mid))) c = true) by (rewrite run_self; destruct Hcc as [-> | ->]; exact C1).
        assert (X2 : call_ok (w_self (run w0 (H1 ++ mid'))) (later_call n c) = true) by (rewrite run_self; destruct Hcc as [-> | ->]; exact C2).
        pose proof (machine_step e2 w0 (h ++ mid) c Hs Hh Hsh X1) as M. pose proof (machine_step e2 w0 (H1 ++ mid') (later_call n c) Hs Hh' Hsh' X2) as M'. cbv zeta in M, M'.
        fold (machine_of w0 (h ++ mid)) in M. fold (machine_of w0 (H1 ++ mid')) in M'. rewrite EW in M. rewrite EW' in M'.
        destruct (front_both n d t e2 i2 t' id' c _ _ x T2 Hcc Ff) as [_ K]. rewrite M, M' in K. exact K. }
      split; [apply (K (CExec i2 (ClaimLimit t' id'))); right; reflexivity|apply (K (CExec i2 (CancelLimit t' id'))); left; reflexivity].
  - intros t' side Hside. destruct (run_good w0 _ Hs Hh) as (G & Hg). destruct (run_good w0 _ Hs Hh') as (G' & Hg').
    rewrite <- EW, <- EW', <- (open_on_liquidity _ _ _ (gd_inv _ _ _ Hg) (gd_ref _ _ _ Hg)), <- (open_on_liquidity _ _ _ (gd_inv _ _ _ Hg') (gd_ref _ _ _ Hg')).
    change (open_on side (ma_orders (machine_of w0 (H1 ++ mid'))) t' = open_on side (ma_orders (machine_of w0 (h ++ mid))) t').
    assert (F : forall l, open_on side (fronts n d t l) t' = open_on side l t').
    { intros l. apply open_fronts. intros o _ Ed Et. destruct Hside as [Hside|Hside]; [eapply front_other; eassumption|]. apply front_better. rewrite Et. exact Hside. }
    rewrite <- F, <- (F (ma_orders (machine_of w0 (h ++ mid)))). fold mid' in T2. rewrite (sw_orders _ _ _ _ _ T2). apply open_on_ren.
Qed.
Print Assumptions C58_behind.
(** A case: behind three half filled orders another one is placed; then a swap, a better order, a swap that fills it, claims and a
    batch: the three older orders and the one with the better price are settled as without the extra order. *)
Definition mid_behind : list (env * call) :=
  [sell "y" 30; place "p" 10 Bid 300 None; sell "y" 100; claim "z" 0 1; claim "p" 10 3; (tenv, CExec (mkInfo "z" []) (BatchClaim [(0, 2); (0, 0)]))].
Example C58_case :
  let w := run w_start hist_three in
  let order := snd (place "x" 0 Bid 500 None) in let w1 := fst (step tenv w order) in let r := resp_of tenv w order in
  let n := attr_int (r_attrs r) "order_id" in
  start w_start /\ step tenv w order = (w1, Done r) /\ n = 3 /\
  history w_start (hist_three ++ mid_behind) /\ history w_start (hist_three ++ [(tenv, order)] ++ later_history 3 mid_behind) /\
  short (hist_three ++ [(tenv, order)] ++ later_history 3 mid_behind) /\
  same_luck mid_behind (all_outcomes w mid_behind) (all_outcomes w1 (later_history 3 mid_behind)) /\
  run_out w mid_behind = [true; true; true; true; true; true] /\
  length (List.filter (ahead_event 3 Bid 0) (collect r_events w mid_behind)) = 4%nat /\ ahead 3 Bid 0 Bid 0 2 = true /\ ahead 3 Bid 0 Bid 10 3 = true /\ ahead 3 Bid 0 Bid 0 3 = false.
Proof.
  cbv zeta. split; [apply start_ok|]. split; [apply done_ok; vm_compute; reflexivity|].
  split; [vm_compute; reflexivity|]. split; [hist|]. split; [hist|]. split; [vm_compute; discriminate|].
  split; [vm_compute; tauto|]. split; [vm_compute; reflexivity|]. split; [vm_compute; reflexivity|]. split; [reflexivity|split; reflexivity].
Qed.
