(** * Property C74: an order placed in two pieces. *)
From Verif Require Import Base Dec Types State TickMath Sumtree Tick Order Auth Contract Query World SpecMath TickMathProofs
  TreeDefs Exec SumtreeProofs Ghost Inv Trans Spec Reach Refine RefineStep Reserve Solvency Books SpecProps PropBase Tests PropOrders PropClaims PropAdmin
  SpecAdmin SpecBank PropBank SpecMachine MachineBase MachineSwap PropMachine SpecTrace PropTrace SpecAlike PropAlike SpecCommute PropCommute PropDepth SpecEarly PropEarly SpecHalves.

Section Halves.
Context (n q1 q2 : Z) (H1 : 0 < q1) (H2 : 0 < q2).
Definition part1 (r : resting) : resting :=
  mkResting (re_tick r) (re_dir r) n (re_owner r) (re_bounty r) (re_time r) q1 (q1 - Z.min (re_filled r) q1) (Z.min (re_filled r) q1).
Definition part2 (r : resting) : resting :=
  mkResting (re_tick r) (re_dir r) (n + 1) (re_owner r) (re_bounty r) (re_time r) q2 (re_open r - (q1 - Z.min (re_filled r) q1)) (re_filled r - Z.min (re_filled r) q1).
Definition split (r : resting) : list resting := if re_id r =? n then [part1 r; part2 r] else [ren (n + 1) r].
Definition msplit (m : machine) : machine := mkMachine (ma_quote m) (ma_base m) (ma_set m) (ma_next m + 1) (flat_map split (ma_orders m)).
Definition whole (l : list resting) : Prop := forall r, r ∈ l -> re_id r = n -> re_open r + re_filled r = q1 + q2 /\ 0 <= re_open r /\ 0 <= re_filled r.
Lemma later_parts id : id <> n -> (n =? later (n + 1) id) = false /\ (n + 1 =? later (n + 1) id) = false.
Proof. intros H. unfold later. rewrite !Z.eqb_neq. destruct (Z.ltb_spec id (n + 1)); lia. Qed.
Lemma split_find t id l : id <> n -> find_order t (later (n + 1) id) (flat_map split l) = option_map (ren (n + 1)) (find_order t id l).
Proof.
  intros Hn. destruct (later_parts id Hn) as [L1 L2]. unfold find_order. induction l as [|r l IH]; [reflexivity|]. cbn [flat_map]. unfold split at 1. destruct (Z.eqb_spec (re_id r) n) as [E|E].
  - cbn [app List.find]. assert (E1 : is_order t (later (n + 1) id) (part1 r) = false) by (unfold is_order; cbn [part1 re_id]; rewrite L1; apply andb_false_r).
    assert (E2 : is_order t (later (n + 1) id) (part2 r) = false) by (unfold is_order; cbn [part2 re_id]; rewrite L2; apply andb_false_r).
    assert (E3 : is_order t id r = false) by (unfold is_order; rewrite E, (proj2 (Z.eqb_neq n id)) by congruence; apply andb_false_r). rewrite E1, E2, E3. exact IH.
  - cbn [app List.find]. assert (E1 : is_order t (later (n + 1) id) (ren (n + 1) r) = is_order t id r) by (unfold is_order; cbn [ren re_tick re_id]; rewrite later_inj; reflexivity). rewrite E1. destruct (is_order t id r); [reflexivity|exact IH].
Qed.
Lemma split_change t id f f' l : id <> n -> (forall r, f' (ren (n + 1) r) = option_map (ren (n + 1)) (f r)) -> keeps_id f ->
  change t (later (n + 1) id) f' (flat_map split l) = flat_map split (change t id f l).
Proof.
  intros Hn Hf Hk. destruct (later_parts id Hn) as [L1 L2]. induction l as [|r l IH]; [reflexivity|]. cbn [flat_map]. rewrite change_app, IH. change (r :: l) with ([r] ++ l). rewrite (change_app t id f [r] l), flat_map_app. f_equal.
  unfold split at 1. unfold change. destruct (Z.eqb_spec (re_id r) n) as [E|E].
  - cbn [flat_map]. unfold is_order. cbn [part1 part2 re_tick re_id]. rewrite L1, L2, !andb_false_r, E, (proj2 (Z.eqb_neq n id)), andb_false_r by congruence. cbn [app flat_map]. unfold split. rewrite E, Z.eqb_refl. reflexivity.
  - cbn [flat_map]. unfold is_order. cbn [ren re_tick re_id]. rewrite later_inj, !app_nil_r. fold (ren (n + 1) r). destruct ((re_tick r =? t) && (re_id r =? id)) eqn:Eo.
    + rewrite Hf. destruct (f r) as [r'|] eqn:Er; [|reflexivity]. cbn [option_map flat_map app]. unfold split. rewrite (Hk _ _ Er), (proj2 (Z.eqb_neq _ _) E). reflexivity.
    + cbn [flat_map app]. unfold split. rewrite (proj2 (Z.eqb_neq _ _) E). reflexivity.
Qed.
Definition split_res (x x' : option (machine * response)) : Prop := x' = match x with Some (m, r) => Some (msplit m, later_resp (n + 1) r) | None => None end.
Lemma split_claim_one sender t id m : id <> n ->
  claim_one sender t (later (n + 1) id) (msplit m) = match claim_one sender t id m with Some (m1, ms, ev) => Some (msplit m1, ms, later_event (n + 1) ev) | None => None end.
Proof.
  intros Hn. unfold claim_one. cbn [msplit ma_orders]. rewrite (split_find t id _ Hn). destruct (find_order t id (ma_orders m)) as [o|]; cbn [option_map]; [|reflexivity].
  cbn [ren re_filled]. destruct (0 <? re_filled o); [|reflexivity]. do 2 f_equal. unfold msplit, with_orders. cbn [ma_quote ma_base ma_set ma_next ma_orders]. do 2 f_equal. apply split_change; [exact Hn| |].
  - intros r. cbn [ren re_open]. destruct (re_open r =? 0); reflexivity.
  - apply (claim_keeps t id).
Qed.
Lemma split_claim_all sender l : forall m, existsb (fun p => snd p =? n) l = false ->
  claim_all sender (map (fun x => (fst x, later (n + 1) (snd x))) l) (msplit m) = let '(m1, ms, evs) := claim_all sender l m in (msplit m1, ms, map (later_event (n + 1)) evs).
Proof.
  induction l as [|[t id] l IH]; intros m Hn; cbn [map claim_all fst snd]; [reflexivity|]. cbn [existsb snd] in Hn. apply orb_false_iff in Hn as [Hn Hl]. apply Z.eqb_neq in Hn.
  rewrite (split_claim_one sender t id m Hn). destruct (claim_one sender t id m) as [[[m1 ms] ev]|]; [|apply IH, Hl]. rewrite (IH m1 Hl). destruct (claim_all sender l m1) as [[m2 ms2] evs]. reflexivity.
Qed.
Lemma split_reply m s a : map (later_attr (n + 1)) a = a -> split_res (m_reply m s a) (m_reply (msplit m) s a).
Proof. intros Ha. unfold split_res, m_reply, later_resp. cbn [r_attrs r_events r_msgs r_data map]. rewrite Ha. reflexivity. Qed.
(** ** Trades *)
Lemma split_open side l t : open_on side (flat_map split l) t = open_on side l t.
Proof.
  induction l as [|r l IH]; [reflexivity|]. cbn [flat_map]. unfold open_on. rewrite foldr_app. fold (open_on side (flat_map split l) t). rewrite IH. cbn [foldr]. fold (open_on side l t).
  unfold split. destruct (re_id r =? n); cbn [foldr part1 part2 ren re_dir re_tick re_open]; [|reflexivity]. destruct (bool_decide _); lia.
Qed.
Lemma add_twice side t l : add_level side t (add_level side t l) = add_level side t l.
Proof.
  induction l as [|u l IH]; cbn [add_level]; [rewrite Z.eqb_refl; reflexivity|]. destruct (Z.eqb_spec t u) as [->|E]; [cbn [add_level]; rewrite Z.eqb_refl; reflexivity|].
  destruct (better_for_taker side t u) eqn:Eb; cbn [add_level]; [rewrite Z.eqb_refl; reflexivity|]. rewrite (proj2 (Z.eqb_neq _ _) E), Eb, IH. reflexivity.
Qed.
Lemma split_levels side target l : whole l -> levels side target (flat_map split l) = levels side target l.
Proof.
  induction l as [|r l IH]; intros Hw; [reflexivity|]. cbn [flat_map]. unfold levels. rewrite foldr_app. fold (levels side target (flat_map split l)). rewrite IH by (intros x Hx; apply Hw; constructor; exact Hx).
  cbn [foldr]. fold (levels side target l). unfold split. destruct (Z.eqb_spec (re_id r) n) as [E|E]; cbn [foldr]; [|reflexivity].
  destruct (Hw r ltac:(constructor) E) as (W1 & W2 & W3). unfold reachable_level. cbn [part1 part2 re_dir re_tick re_open]. destruct (bool_decide _); cbn [andb]; [|reflexivity].
  destruct (match target with None => true | Some b => _ end); [|rewrite !andb_false_r; reflexivity]. rewrite !andb_true_r.
  destruct (Z.ltb_spec 0 (q1 - Z.min (re_filled r) q1)), (Z.ltb_spec 0 (re_open r - (q1 - Z.min (re_filled r) q1))), (Z.ltb_spec 0 (re_open r)); try lia; try reflexivity. apply add_twice.
Qed.
Lemma fill_ext side l : forall X X', (forall u, X' u = X u) -> fill_side side X' l = fill_side side X l.
Proof.
  induction l as [|o l IH]; intros X X' Ex; [reflexivity|]. cbn [fill_side]. rewrite Ex. destruct (bool_decide _); f_equal; apply IH; intros u; rewrite ?Ex; reflexivity.
Qed.
Lemma split_fill side l : forall X, (forall u, 0 <= X u) -> (forall r, r ∈ l -> 0 <= re_open r) -> whole l -> fill_side side X (flat_map split l) = flat_map split (fill_side side X l).
Proof.
  induction l as [|r l IH]; intros X HX Hop Hw; [reflexivity|]. assert (Hw' : whole l) by (intros x Hx; apply Hw; constructor; exact Hx).
  assert (Hop' : forall x, x ∈ l -> 0 <= re_open x) by (intros; apply Hop; constructor; assumption). pose proof (Hop r ltac:(constructor)) as H0. pose proof (HX (re_tick r)) as HXr.
  cbn [flat_map fill_side]. destruct (bool_decide_reflect (re_dir r = side)) as [Ed|Ed].
  - cbn [flat_map]. set (a := Z.min (X (re_tick r)) (re_open r)). set (X' := fun u => if u =? re_tick r then X u - a else X u).
    assert (HX' : forall u, 0 <= X' u) by (intros u; unfold X'; destruct (Z.eqb_spec u (re_tick r)) as [->|]; [unfold a; lia|apply HX]).
    rewrite <- (IH X' HX' Hop' Hw'). unfold split at 1 3. cbn [set_parts re_id]. destruct (Z.eqb_spec (re_id r) n) as [E|E].
    + destruct (Hw r ltac:(constructor) E) as (W1 & W2 & W3). cbn [app fill_side part1 part2 re_dir re_tick re_open re_filled]. rewrite (bool_decide_true _ Ed), Z.eqb_refl.
      f_equal; [|f_equal].
      * unfold set_parts, part1. cbn. f_equal; unfold a; lia.
      * unfold set_parts, part2. cbn. f_equal; unfold a; lia.
      * apply fill_ext. intros u. unfold X'. destruct (Z.eqb_spec u (re_tick r)) as [->|]; [unfold a; lia|reflexivity].
    + cbn [app fill_side ren re_dir re_tick re_open re_filled]. rewrite (bool_decide_true _ Ed). reflexivity.
  - cbn [flat_map]. rewrite <- (IH X HX Hop' Hw'). unfold split at 1 3. destruct (re_id r =? n); cbn [app fill_side part1 part2 ren re_dir]; rewrite (bool_decide_false _ Ed); reflexivity.
Qed.
Lemma split_swap e sender tin out mn fee target m : mok m -> whole (ma_orders m) -> 0 <= c_amount tin ->
  split_res (m_swap e sender tin out mn fee target m) (m_swap e sender tin out mn fee target (msplit m)).
Proof.
  intros Hm Hw Ha. unfold split_res, m_swap. change (maker_side (msplit m)) with (maker_side m). cbn [msplit ma_set ma_orders].
  destruct (maker_side m (c_denom tin) out) as [side|]; [|reflexivity]. destruct (_ && _); [|reflexivity]. rewrite (split_levels _ _ _ Hw).
  rewrite (walk_ext side _ (open_on side (flat_map split (ma_orders m))) (open_on side (ma_orders m))) by (intros; apply split_open).
  destruct (walk _ _ _ _ _ _) as [[f rest]|] eqn:E; [|reflexivity]. destruct (mn <=? total_out f); [|reflexivity].
  assert (Hop : forall o, o ∈ ma_orders m -> 0 <= re_open o) by (intros o Ho; apply (mk_order _ Hm _ Ho)).
  assert (Hf : forall u, 0 <= taken_at f u).
  { intros u. eapply (walk_bounds side); [exact Ha| | | |exact E].
    - intros v Hv. apply levels_in in Hv as (o & Ho & _ & <-). apply (mk_order _ Hm _ Ho).
    - intros v _. apply open_on_nonneg, Hop.
    - apply levels_nodup. }
  rewrite split_fill by assumption. reflexivity.
Qed.
Lemma split_run self e c m : mok m -> whole (ma_orders m) -> n < ma_next m -> call_ok self c = true -> names n c = false -> split_res (m_run e c m) (m_run e (later_call (n + 1) c) (msplit m)).
Proof.
  intros Hm Hw Hlt Hok Hn. destruct c as [i x|x| |c]; [destruct x as [t d q b|t id|t id|l|a]| | |]; cbn [later_call m_run].
  - unfold split_res, m_place. change (deposit_of (msplit m)) with (deposit_of m). change (payout_of (msplit m)) with (payout_of m). cbn [msplit ma_set ma_next ma_quote ma_base ma_orders]. destruct (_ && _); [|reflexivity].
    assert (El : later (n + 1) (ma_next m) = ma_next m + 1) by (unfold later; destruct (Z.ltb_spec (ma_next m) (n + 1)); [lia|reflexivity]). f_equal. f_equal.
    + unfold msplit. cbn [ma_set ma_next ma_quote ma_base ma_orders]. f_equal. rewrite flat_map_app. f_equal. cbn [flat_map]. unfold split. cbn [re_id]. rewrite (proj2 (Z.eqb_neq _ _)) by lia. cbn [app]. unfold ren. cbn. rewrite El. reflexivity.
    + unfold later_resp. cbn [r_attrs r_events r_msgs r_data map later_attr]. change (bool_decide ("order_id" = "order_id")) with true. cbv iota. rewrite El. reflexivity.
  - cbn [names] in Hn. apply Z.eqb_neq in Hn. unfold split_res, m_cancel. change (deposit_of (msplit m)) with (deposit_of m). change (payout_of (msplit m)) with (payout_of m). cbn [msplit ma_orders ma_set]. rewrite (split_find t id _ Hn).
    destruct (find_order t id (ma_orders m)) as [o|]; cbn [option_map]; [|reflexivity]. cbn [ren re_owner re_filled re_dir re_open re_placed]. destruct (_ && _); [|reflexivity]. f_equal. f_equal.
    unfold msplit, with_orders. cbn [ma_quote ma_base ma_set ma_next ma_orders]. f_equal. apply split_change; [exact Hn|reflexivity|discriminate].
  - cbn [names] in Hn. apply Z.eqb_neq in Hn. unfold split_res, m_claim. rewrite (split_claim_one _ _ _ _ Hn). cbn [msplit ma_set]. destruct (_ && _); [|reflexivity]. destruct (claim_one _ t id m) as [[[m1 ms] ev]|]; reflexivity.
  - cbn [names] in Hn. unfold split_res, m_batch. rewrite (split_claim_all _ _ _ Hn), map_length. cbn [msplit ma_set]. destruct (_ && _); [|reflexivity]. destruct (claim_all _ l m) as [[m1 ms] evs]. reflexivity.
  - unfold m_auth. cbn [msplit ma_set]. destruct (ma_set m). destruct a;
      (match goal with |- split_res (if ?c then _ else _) _ => destruct c; [apply split_reply; reflexivity|reflexivity] end).
  - assert (Hs : forall sender tin out mn fee target, 0 <= c_amount tin -> split_res (m_swap e sender tin out mn fee target m) (m_swap e sender tin out mn fee target (msplit m))) by (intros; apply split_swap; assumption).
    unfold m_sudo. cbn [msplit ma_set]. destruct (ma_set m). destruct x; try reflexivity;
      try (match goal with |- split_res (if ?c then _ else _) _ => destruct c; [apply split_reply; reflexivity|reflexivity] end);
      (apply Hs; unfold call_ok in Hok; cbn [sudo_typed] in Hok; apply andb_prop in Hok as [_ Hok]; repeat (apply andb_prop in Hok as [Hok _]); apply Z.leb_le, Hok).
  - reflexivity.
  - reflexivity.
Qed.
Lemma split_step self e c m : mok m -> whole (ma_orders m) -> n < ma_next m -> call_ok self c = true -> names n c = false ->
  m_step e (msplit m) (later_call (n + 1) c) = (msplit (fst (m_step e m c)), later_outcome (n + 1) (snd (m_step e m c))).
Proof.
  intros Hm Hw Hlt Hok Hn. pose proof (split_run self e c m Hm Hw Hlt Hok Hn) as H. unfold m_step. rewrite H. destruct (m_run e c m) as [[m1 r]|]; [|reflexivity].
  cbn [later_resp r_msgs]. destruct (forallb _ _); reflexivity.
Qed.
End Halves.

(** ** Histories *)
Lemma ids_unique l r r' : StronglySorted Z.lt (map re_id l) -> r ∈ l -> r' ∈ l -> re_id r = re_id r' -> r = r'.
Proof.
  induction l as [|a l IH]; [intros _ H; inversion H|]. cbn [map]. intros Hs Hr Hr' E. apply StronglySorted_inv in Hs as [Hs Ha]. rewrite Forall_forall in Ha.
  apply elem_of_cons in Hr as [->|Hr]; apply elem_of_cons in Hr' as [->|Hr']; [reflexivity| | |auto].
  - specialize (Ha (re_id r') ltac:(apply elem_of_list_fmap; eauto)). lia.
  - specialize (Ha (re_id r) ltac:(apply elem_of_list_fmap; eauto)). lia.
Qed.
Lemma there_in t n k m : there t n k 0 m -> exists o, find_order t n (ma_orders m) = Some o /\ o ∈ ma_orders m /\ re_tick o = t /\ re_id o = n /\ core o = k.
Proof.
  intros (o & Ef & Hc & _). exists o. pose proof Ef as Ef'. apply find_some in Ef' as [Hin Hi]. unfold is_order in Hi. apply andb_prop in Hi as [I1 I2]. apply Z.eqb_eq in I1, I2. apply elem_of_list_In in Hin. auto.
Qed.
Lemma there_whole t n k q1 q2 m : mok m -> there t n k 0 m -> re_open k = q1 + q2 -> whole n q1 q2 (ma_orders m) /\ n < ma_next m.
Proof.
  intros Hm Ht Hk. destruct (there_in _ _ _ _ Ht) as (o & _ & Hin & _ & Ei & Hc). split.
  - intros r Hr Er. assert (r = o) as -> by (eapply ids_unique; [apply (mk_ids _ Hm)|exact Hr|exact Hin|congruence]). destruct (mk_order _ Hm _ Hin) as (P1 & P2 & _). subst k. cbn in Hk. lia.
  - destruct (mk_order _ Hm _ Hin) as (_ & _ & _ & _ & P & _). lia.
Qed.
Lemma halves_history w0 t n k q1 q2 mid : 0 < q1 -> 0 < q2 -> re_open k = q1 + q2 -> forall h, start w0 -> history w0 (h ++ mid) -> short (h ++ mid) -> (forall e c, (e, c) ∈ mid -> names n c = false) ->
  let m := abs (w_st (run w0 h)) (ideal_run w0 [] h) in there t n k 0 m ->
  m_outcomes (msplit n q1 q2 m) (later_history (n + 1) mid) = map (later_outcome (n + 1)) (m_outcomes m mid) /\
  m_after (msplit n q1 q2 m) (later_history (n + 1) mid) = msplit n q1 q2 (m_after m mid) /\ there t n k 0 (m_after m mid).
Proof.
  intros H1 H2 Hk. induction mid as [|[e c] mid IH]; intros h Hs Hh Hsh Hn m Ht; [auto|].
  assert (Hn' : forall e c, (e, c) ∈ mid -> names n c = false) by (intros e0 c0 H0; apply (Hn e0); constructor; exact H0).
  pose proof Hh as Hh1. apply history_app in Hh1 as [Hh1 Hc]. apply Forall_cons in Hc as [Hok _]. cbn [snd] in Hok. destruct (run_good _ _ Hs Hh1) as (G & Hg). pose proof (good_mok _ _ _ Hg) as Hm. fold m in Hm.
  pose proof (Hn e c ltac:(constructor)) as Hnc. destruct (there_whole t n k q1 q2 m Hm Ht Hk) as [Hw Hlt]. destruct (other_step t n k 0 _ e c m Hm Ht Hok Hnc) as [_ Ht'].
  pose proof (split_step n q1 q2 H2 _ e c m Hm Hw Hlt Hok Hnc) as Es. cbn [later_history map m_outcomes m_after fst snd]. fold (later_history (n + 1) mid). rewrite Es. cbn [fst snd].
  pose proof (machine_step e w0 h c Hs Hh1 (short_app _ _ Hsh) Hok) as Em. cbv zeta in Em. fold m in Em. rewrite cons_middle, app_assoc in Hh, Hsh.
  assert (Ea : abs (w_st (run w0 (h ++ [(e, c)]))) (ideal_run w0 [] (h ++ [(e, c)])) = fst (m_step e m c)) by (rewrite run_app, ideal_run_app; cbn [run ideal_run]; rewrite Em; reflexivity).
  specialize (IH (h ++ [(e, c)]) Hs Hh Hsh Hn'). cbv zeta in IH. rewrite Ea in IH. destruct (IH Ht') as (I1 & I2 & I3). split; [rewrite I1; reflexivity|]. auto.
Qed.
(** The placements. *)
Lemma place_step e m s dn t d b q : m_step e m (snd (placement e s dn t d b q)) =
  if se_active (ma_set m) && tick_ok t && (0 <? q) && match b with Some x => (0 <=? x) && (x <=? 10 ^ 16) | None => true end && bool_decide (dn = deposit_of m d)
  then (mkMachine (ma_quote m) (ma_base m) (ma_set m) (ma_next m + 1) (ma_orders m ++ [mkResting t d (ma_next m) s b (e_time e) q q 0]),
        Done (mkResp [("method", AStr "placeLimit"); ("owner", AStr s); ("tick_id", AInt t); ("order_id", AInt (ma_next m));
                  ("order_direction", ADir d); ("quantity", AInt q); ("order_denom", AStr (deposit_of m d)); ("output_denom", AStr (payout_of m d))] [] [] None))
  else (m, Failed).
Proof.
  unfold placement. cbn [snd]. unfold m_step. cbn [m_run]. unfold m_place. cbn [i_funds i_sender c_denom c_amount]. rewrite Z.eqb_refl, andb_true_r.
  match goal with |- match (if ?c then _ else _) with _ => _ end = _ => destruct c end; reflexivity.
Qed.
Lemma split_low n q1 q2 l : (forall r, r ∈ l -> re_id r < n) -> flat_map (split n q1 q2) l = l.
Proof.
  induction l as [|r l IH]; intros H; [reflexivity|]. cbn [flat_map]. rewrite IH by (intros; apply H; constructor; assumption). specialize (H r ltac:(constructor)). unfold split. rewrite (proj2 (Z.eqb_neq _ _)) by lia.
  cbn [app]. f_equal. destruct r. unfold ren, later. cbn in *. destruct (Z.ltb_spec re_id (n + 1)); [reflexivity|lia].
Qed.
Lemma find_new t n l o : (forall r, r ∈ l -> re_id r <> n) -> re_tick o = t -> re_id o = n -> find_order t n (l ++ [o]) = Some o.
Proof.
  intros H Ht Hi. unfold find_order. induction l as [|x l IH]; cbn [app List.find].
  - unfold is_order. rewrite Ht, Hi, !Z.eqb_refl. reflexivity.
  - assert (is_order t n x = false) as -> by (unfold is_order; rewrite (proj2 (Z.eqb_neq _ _) (H x ltac:(constructor))); apply andb_false_r). apply IH. intros; apply H; constructor; assumption.
Qed.
Section Placed.
Context (w0 : world) (h : list (env * call)) (e : env) (s dn : string) (t : Z) (d : dir) (b : option Z) (q1 q2 : Z) (mid : list (env * call)).
Let w := run w0 h.
Let n := next_order_id (w_st w).
Let one := placement e s dn t d b (q1 + q2).
Let two := [placement e s dn t d b q1; placement e s dn t d b q2].
Let k := mkResting t d n s b (e_time e) (q1 + q2) (q1 + q2) 0.
Let a := run (run w [one]) mid.
Let v := run (run w two) (later_history (n + 1) mid).
Lemma halves_setup : start w0 -> history w0 (h ++ one :: mid) -> history w0 (h ++ two ++ later_history (n + 1) mid) -> short (h ++ two ++ later_history (n + 1) mid) -> 0 < q1 -> 0 < q2 ->
  (exists r, snd (step e w (snd one)) = Done r) -> (forall e c, (e, c) ∈ mid -> names n c = false) ->
  length (answers_of (all_outcomes w two)) = 2%nat /\
  all_outcomes (run w two) (later_history (n + 1) mid) = map (later_outcome (n + 1)) (all_outcomes (run w [one]) mid) /\
  abs (w_st v) (ideal_run w0 [] (h ++ two ++ later_history (n + 1) mid)) = msplit n q1 q2 (abs (w_st a) (ideal_run w0 [] (h ++ one :: mid))) /\
  there t n k 0 (abs (w_st a) (ideal_run w0 [] (h ++ one :: mid))) /\
  (forall denom, balance (run w two) denom = balance (run w [one]) denom).
Proof.
  intros Hs Hh1 Hh2 Hsh2 H1 H2 (r & Er) Hn.
  assert (Hsh1 : short (h ++ one :: mid)) by (unfold short, later_history in *; rewrite !app_length, ?map_length in *; cbn [length two] in *; rewrite ?map_length in *; lia).
  pose proof Hh1 as Hh0. apply history_app in Hh0 as [Hh0 _]. destruct (run_good _ _ Hs Hh0) as (G & Hg). pose proof (good_mok _ _ _ Hg) as Hm0. fold w in Hm0.
  destruct (machine_history w0 (one :: mid) h Hs Hh1 Hsh1) as [O1 A1]. destruct (machine_history w0 (two ++ later_history (n + 1) mid) h Hs Hh2 Hsh2) as [O2 A2]. fold w in O1, A1, O2, A2.
  assert (Ea : run w0 (h ++ one :: mid) = a) by (rewrite cons_middle, app_assoc, !run_app; reflexivity). assert (Ev : run w0 (h ++ two ++ later_history (n + 1) mid) = v) by (rewrite !run_app; reflexivity).
  rewrite Ea in A1. rewrite Ev in A2. set (m0 := abs (w_st w) (ideal_run w0 [] h)) in *. assert (En : ma_next m0 = n) by reflexivity.
  set (m1 := fst (m_step e m0 (snd one))). 
  assert (S1 : m_step e m0 (snd one) = (m1, Done r)).
  { unfold m1. destruct (m_step e m0 (snd one)) as [x y] eqn:Ex. cbn [fst]. f_equal. unfold one, placement in O1. cbn [m_outcomes all_outcomes] in O1. injection O1 as O1 _. change (CExec (mkInfo s [mkCoin dn (q1 + q2)]) (PlaceLimit t d (q1 + q2) b)) with (snd one) in O1.
    rewrite Ex in O1. cbn [snd] in O1. rewrite O1. exact Er. }
  unfold one in S1. rewrite place_step in S1. match type of S1 with (if ?c then _ else _) = _ => destruct c eqn:Ec; [|discriminate] end. injection S1 as S1 Er'.
  apply andb_prop in Ec as [Ec C5]. apply andb_prop in Ec as [Ec C4]. apply andb_prop in Ec as [Ec _]. apply andb_prop in Ec as [C1 C2].
  assert (Sq : forall m q, ma_set m = ma_set m0 -> ma_quote m = ma_quote m0 -> ma_base m = ma_base m0 -> 0 < q -> exists r, m_step e m (snd (placement e s dn t d b q)) =
    (mkMachine (ma_quote m) (ma_base m) (ma_set m) (ma_next m + 1) (ma_orders m ++ [mkResting t d (ma_next m) s b (e_time e) q q 0]), Done r)).
  { intros m q Em1 Em2 Em3 Hq. rewrite place_step, Em1, C1, C2, C4. assert (deposit_of m d = deposit_of m0 d) as -> by (destruct d; assumption). rewrite C5, (proj2 (Z.ltb_lt _ _) Hq). cbn [andb]. eauto. }
  destruct (Sq m0 q1 eq_refl eq_refl eq_refl H1) as (r1 & S2). set (m2 := mkMachine (ma_quote m0) _ _ _ _) in S2. destruct (Sq m2 q2 eq_refl eq_refl eq_refl H2) as (r2 & S3). set (m3 := mkMachine (ma_quote m2) _ _ _ _) in S3.
  assert (E3 : m3 = msplit n q1 q2 m1).
  { rewrite <- S1. unfold m3, m2, msplit. cbn [ma_quote ma_base ma_set ma_next ma_orders]. f_equal. rewrite flat_map_app, split_low by (intros x Hx; rewrite <- En; apply (mk_order _ Hm0 _ Hx)).
    rewrite <- app_assoc. f_equal. cbn [flat_map app]. unfold split. cbn [re_id]. rewrite En, Z.eqb_refl. unfold part1, part2. cbn. rewrite !Z.min_l by lia. repeat f_equal; lia. }
  assert (Ht : there t n k 0 m1).
  { rewrite <- S1. exists k. cbn [ma_orders]. split; [|split; [|cbn; lia]].
    - apply (find_new t n (ma_orders m0) k); [|reflexivity|reflexivity]. intros x Hx. destruct (mk_order _ Hm0 _ Hx) as (_ & _ & _ & _ & P & _). lia.
    - unfold core, k. cbn. unfold set_parts. cbn. f_equal. lia. }
  assert (Em1 : abs (w_st (run w0 (h ++ [one]))) (ideal_run w0 [] (h ++ [one])) = m1).
  { rewrite cons_middle, app_assoc in Hh1, Hsh1. apply history_app in Hh1 as [Hh1 _]. destruct (machine_history w0 [one] h Hs Hh1 (short_app _ _ Hsh1)) as [_ A]. fold w m0 in A. rewrite <- A. reflexivity. }
  pose proof Hh1 as Hh1'. pose proof Hsh1 as Hsh1'. rewrite cons_middle, app_assoc in Hh1', Hsh1'.
  pose proof (halves_history w0 t n k q1 q2 mid H1 H2 eq_refl (h ++ [one]) Hs Hh1' Hsh1' Hn) as HH. cbv zeta in HH. rewrite Em1 in HH. destruct (HH Ht) as (I1 & I2 & I3).
  destruct (machine_history w0 mid (h ++ [one]) Hs Hh1' Hsh1') as [O3 _]. rewrite Em1, run_app in O3. fold w in O3.
  pose proof Hh2 as Hh2'. pose proof Hsh2 as Hsh2'. rewrite app_assoc in Hh2', Hsh2'.
  assert (Em3 : abs (w_st (run w0 (h ++ two))) (ideal_run w0 [] (h ++ two)) = m3 /\ all_outcomes w two = [Done r1; Done r2]).
  { pose proof Hh2' as K. apply history_app in K as [K _]. destruct (machine_history w0 two h Hs K (short_app _ _ Hsh2')) as [O A]. fold w m0 in O, A. rewrite <- A, <- O. unfold two. unfold placement in S2, S3 |- *. cbn [snd] in S2, S3. cbn [m_after m_outcomes].
    rewrite S2. cbn [fst snd]. rewrite S3. auto. }
  destruct Em3 as [Em3 Eo]. destruct (machine_history w0 (later_history (n + 1) mid) (h ++ two) Hs Hh2' Hsh2') as [O4 A4]. rewrite Em3, run_app in O4. fold w in O4. rewrite Em3 in A4.
  split; [rewrite Eo; reflexivity|]. split; [rewrite <- O4, <- O3, E3; exact I1|].
  assert (Hma : abs (w_st a) (ideal_run w0 [] (h ++ one :: mid)) = m_after m1 mid) by (rewrite <- A1; reflexivity).
  split; [|split].
  - rewrite Hma, <- I2, <- E3, <- Ev. rewrite app_assoc. symmetry. exact A4.
  - rewrite Hma. exact I3.
  - intros denom. rewrite !balance_net, Eo. pose proof O1 as O1'. unfold one, placement in O1' |- *. cbn [all_outcomes m_outcomes] in O1' |- *. injection O1' as O1' _. unfold one, placement in Er. cbn [snd] in Er. rewrite Er. unfold two, placement. cbn [net call_funds i_funds].
    assert (Em : r_msgs r = [] /\ r_msgs r1 = [] /\ r_msgs r2 = []).
    { rewrite <- Er'. split; [reflexivity|]. rewrite place_step in S2, S3. split; [destruct (_ && _) in S2; [injection S2 as <-; reflexivity|discriminate]|destruct (_ && _) in S3; [injection S3 as <-; reflexivity|discriminate]]. }
    destruct Em as (-> & -> & ->). unfold received, leaving. cbn [foldr c_denom c_amount]. repeat case_bool_decide; try contradiction; lia.
Qed.
End Placed.

(** ** What is left of the two pieces *)
Lemma find_parts n q1 q2 t l o : (forall r, r ∈ l -> re_id r = n -> re_tick r = t) -> find_order t n l = Some o ->
  find_order t n (flat_map (split n q1 q2) l) = Some (part1 n q1 o) /\ find_order t (n + 1) (flat_map (split n q1 q2) l) = Some (part2 n q1 q2 o).
Proof.
  intros Ht. unfold find_order. induction l as [|r l IH]; [discriminate|]. cbn [List.find flat_map]. intros Hf. unfold split at 1 3. destruct (Z.eqb_spec (re_id r) n) as [E|E].
  - assert (Hr : is_order t n r = true) by (unfold is_order; rewrite E, (Ht r ltac:(constructor) E), !Z.eqb_refl; reflexivity). rewrite Hr in Hf. injection Hf as <-. cbn [app List.find]. unfold is_order. cbn [part1 part2 re_tick re_id].
    rewrite (Ht r ltac:(constructor) E), !Z.eqb_refl. cbn [andb]. rewrite (proj2 (Z.eqb_neq n (n + 1))) by lia. auto.
  - assert (Hr : is_order t n r = false) by (unfold is_order; rewrite (proj2 (Z.eqb_neq _ _) E); apply andb_false_r). rewrite Hr in Hf. cbn [app List.find]. destruct (later_parts n (re_id r) E) as [L1 L2].
    assert (Hr1 : is_order t n (ren (n + 1) r) = false) by (unfold is_order; cbn [ren re_tick re_id]; rewrite Z.eqb_sym in L1; rewrite L1; apply andb_false_r).
    assert (Hr2 : is_order t (n + 1) (ren (n + 1) r) = false) by (unfold is_order; cbn [ren re_tick re_id]; rewrite Z.eqb_sym in L2; rewrite L2; apply andb_false_r).
    rewrite Hr1, Hr2. apply IH; [|exact Hf]. intros x Hx. apply Ht. constructor. exact Hx.
Qed.
Lemma there_ticks t n k m : mok m -> there t n k 0 m -> forall r, r ∈ ma_orders m -> re_id r = n -> re_tick r = t.
Proof. intros Hm Ht r Hr Er. destruct (there_in _ _ _ _ Ht) as (o & _ & Hin & Et & Ei & _). assert (r = o) as -> by (eapply ids_unique; [apply (mk_ids _ Hm)|exact Hr|exact Hin|congruence]). exact Et. Qed.
Lemma shows_split n q1 q2 s s' m : whole n q1 q2 (ma_orders m) -> shows s m -> shows s' (msplit n q1 q2 m) -> split_at n s s'.
Proof.
  intros Hw [A1 A2 A3 A4 A5 A6 A7 A8] [B1 B2 B3 B4 B5 B6 B7 B8]. cbn [msplit ma_quote ma_base ma_set ma_next ma_orders] in *.
  assert (Ht : forall s d, (exists ob, s_orderbook s = Some ob /\ ob_quote ob = ma_quote m /\ ob_base ob = ma_base m) -> deposit_denom s d = deposit_of m d).
  { intros x d (ob & E & E1 & E2). unfold deposit_denom. rewrite E. destruct d; assumption. }
  split.
  - intros d. rewrite (Ht s d A1), (Ht s' d B1). reflexivity.
  - unfold active. change (unwrap_or (s_active s) true) with (match s_active s with Some b => b | None => true end). change (unwrap_or (s_active s') true) with (match s_active s' with Some b => b | None => true end). congruence.
  - congruence.
  - lia.
  - intros t id Hn. pose proof (split_find n q1 q2 t id (ma_orders m) Hn) as Hf.
    destruct (s_orders s !! (t, id)) as [o|] eqn:E, (s_orders s' !! (t, later (n + 1) id)) as [o'|] eqn:E'; cbn [option_map]; try reflexivity.
    + destruct (A4 _ _ _ E) as (r & Hr & D). destruct (B4 _ _ _ E') as (r' & Hr' & D'). rewrite Hf, Hr in Hr'. injection Hr' as <-. cbn [ren re_tick re_dir re_id re_owner re_bounty re_time re_placed re_open re_filled] in D'. unfold visible_data. congruence.
    + destruct (A4 _ _ _ E) as (r & Hr & D). rewrite (B5 _ _ E'), Hr in Hf. discriminate.
    + destruct (B4 _ _ _ E') as (r & Hr & D). rewrite Hf, (A5 _ _ E) in Hr. discriminate.
  - intros u d. specialize (A8 u d). specialize (B8 u d). rewrite split_open, <- A8 in B8. unfold tick_liquidity. unfold get_values.
    destruct (s_ticks s !! u), (s_ticks s' !! u); rewrite ?B8; try reflexivity. rewrite <- B8. reflexivity.
Qed.
Lemma quote_split n q1 q2 m tin out : whole n q1 q2 (ma_orders m) -> 0 < q2 -> m_quote tin out (msplit n q1 q2 m) = m_quote tin out m.
Proof.
  intros Hw H2. unfold m_quote. change (maker_side (msplit n q1 q2 m)) with (maker_side m). cbn [msplit ma_orders].
  destruct (maker_side m (c_denom tin) out) as [side|]; [|reflexivity]. destruct (_ =? 0); [reflexivity|]. rewrite split_levels by assumption.
  rewrite (walk_ext side _ (open_on side (flat_map (split n q1 q2) (ma_orders m))) (open_on side (ma_orders m))) by (intros; apply split_open). reflexivity.
Qed.
(** Claims. *)
Lemma claim_step e i t id m o : find_order t id (ma_orders m) = Some o -> 0 < re_filled o -> se_active (ma_set m) && no_funds i = true ->
  forallb (fun s => (0 <? c_amount (sm_coin s)) && e_bank_ok e (sm_to s)) (payments m (i_sender i) o) = true ->
  exists ev, m_step e m (claim_at i t id) = (edit1 (claim_edit t id) m, Done (mkResp [("method", AStr "claimLimit")] [ev] (payments m (i_sender i) o) None)).
Proof. intros Ef Hp Ha Hb. unfold m_step. cbn [m_run claim_at]. unfold m_claim, claim_one. rewrite Ef, (proj2 (Z.ltb_lt _ _) Hp), Ha. cbn [r_msgs]. rewrite Hb. eauto. Qed.
Lemma halves_claim t n k q1 q2 e i m m' r : 0 < q1 -> 0 < q2 -> mok m -> there t n k 0 m -> re_open k = q1 + q2 -> m_step e m (claim_at i t n) = (m', Done r) ->
  let answers := answers_of (m_outcomes (msplit n q1 q2 m) [(e, claim_at i t n); (e, claim_at i t (n + 1))]) in
  let parts := SpecEarly.sum (map (fun r => total_paid (r_msgs r)) answers) in
  answers <> [] /\ parts <= total_paid (r_msgs r) <= parts + (Z.of_nat (length answers) - 1).
Proof.
  intros H1 H2 Hm Ht Hk Es. destruct (there_whole t n k q1 q2 m Hm Ht Hk) as [Hw Hlt]. destruct (there_in _ _ _ _ Ht) as (o & Ef & Hin & Et & Ei & Hc). destruct (Hw o Hin Ei) as (W1 & W2 & W3).
  destruct (find_parts n q1 q2 t _ o (there_ticks t n k m Hm Ht) Ef) as [F1 F2].
  unfold m_step in Es. cbn [m_run claim_at] in Es. unfold m_claim in Es. destruct (se_active (ma_set m) && no_funds i) eqn:Ea; [|discriminate]. unfold claim_one in Es. rewrite Ef in Es.
  destruct (Z.ltb_spec 0 (re_filled o)) as [Hp|]; [|discriminate]. cbn [r_msgs] in Es. destruct (forallb _ _) eqn:Eb; [|discriminate]. injection Es as _ <-. cbn [r_msgs]. rewrite total_payments.
  destruct (mk_order _ Hm _ Hin) as (_ & _ & _ & Hv & _ & Hbo). rewrite Et in Hv.
  assert (Hd : re_dir o = re_dir k) by (rewrite <- Hc; reflexivity).
  assert (Ew : forall x y, re_tick x = t -> re_dir x = re_dir k -> re_filled x = y -> earned x = worth t k y) by (intros x y X1 X2 <-; unfold earned, worth; rewrite X1, X2; reflexivity).
  rewrite (Ew o (re_filled o)) by auto. set (F := re_filled o) in *. set (y1 := Z.min F q1).
  assert (P1 : forall p, re_tick p = t -> re_dir p = re_dir k -> re_owner p = re_owner o -> re_bounty p = re_bounty o -> 0 <= re_filled p <= F ->
    forallb (fun s => (0 <? c_amount (sm_coin s)) && e_bank_ok e (sm_to s)) (payments (msplit n q1 q2 m) (i_sender i) p) = true).
  { intros p X1 X2 X3 X4 X5. change (payments (msplit n q1 q2 m)) with (payments m). eapply smaller_payments; [exact Hm|exact X3|exact X4|exact Hbo| |exact Eb].
    rewrite (Ew p (re_filled p)), (Ew o F) by auto. apply worth_mono; assumption. }
  destruct (claim_step e i t n (msplit n q1 q2 m) (part1 n q1 o) F1) as (ev1 & S1); [cbn; fold F; lia|exact Ea|apply P1; cbn; auto; fold F; lia|].
  set (m1 := edit1 (claim_edit t n) (msplit n q1 q2 m)) in *.
  assert (F2' : find_order t (n + 1) (ma_orders m1) = Some (part2 n q1 q2 o)).
  { unfold m1, edit1. cbn [with_orders ma_orders claim_edit fst snd msplit]. rewrite find_change_other; [exact F2|intros [= E]; lia|]. intros x x'. destruct (re_open x =? 0); [discriminate|]. intros [= <-]. auto. }
  cbn [m_outcomes]. rewrite S1. cbn [fst snd].
  destruct (Z_lt_le_dec q1 F) as [Hgt|Hle].
  - destruct (claim_step e i t (n + 1) m1 (part2 n q1 q2 o) F2') as (ev2 & S2); [cbn; fold F; lia|exact Ea|change (payments m1) with (payments (msplit n q1 q2 m)); apply P1; cbn; auto; fold F; lia|].
    rewrite S2. cbn [snd answers_of flat_map app map length r_msgs]. split; [discriminate|]. rewrite !total_payments. rewrite (Ew (part1 n q1 o) y1), (Ew (part2 n q1 q2 o) (F - y1)) by (try exact Et; try exact Hd; reflexivity).
    pose proof (worth_parts t k [y1; F - y1] Hv) as W. cbn [map length] in W. replace (SpecEarly.sum [y1; F - y1]) with F in W by (cbn; lia). apply W; [|discriminate]. repeat constructor; unfold y1; lia.
  - assert (S2 : snd (m_step e m1 (claim_at i t (n + 1))) = Failed).
    { unfold m_step. cbn [m_run claim_at]. unfold m_claim, claim_one. rewrite F2'. destruct (_ && _); [|reflexivity]. cbn [part2 re_filled]. fold F. rewrite (proj2 (Z.ltb_ge _ _)) by lia. reflexivity. }
    rewrite S2. cbn [snd answers_of flat_map app map length r_msgs]. split; [discriminate|]. rewrite !total_payments. rewrite (Ew (part1 n q1 o) F) by (try exact Et; try exact Hd; cbn; fold F; lia). cbn. lia.
Qed.
(** Cancellations. *)
Lemma halves_cancel t n k q1 q2 e i m m' r : 0 < q1 -> 0 < q2 -> mok m -> there t n k 0 m -> re_open k = q1 + q2 -> m_step e m (cancel_at i t n) = (m', Done r) ->
  r_msgs r = refund (re_owner k) (deposit_of m (re_dir k)) (q1 + q2) /\
  map r_msgs (answers_of (m_outcomes (msplit n q1 q2 m) [(e, cancel_at i t n); (e, cancel_at i t (n + 1))])) = [refund (re_owner k) (deposit_of m (re_dir k)) q1; refund (re_owner k) (deposit_of m (re_dir k)) q2].
Proof.
  intros H1 H2 Hm Ht Hk Es. destruct (there_whole t n k q1 q2 m Hm Ht Hk) as [Hw Hlt]. destruct (there_in _ _ _ _ Ht) as (o & Ef & Hin & Et & Ei & Hc). destruct (Hw o Hin Ei) as (W1 & W2 & W3).
  destruct (find_parts n q1 q2 t _ o (there_ticks t n k m Hm Ht) Ef) as [F1 F2].
  assert (Hd : re_dir o = re_dir k) by (rewrite <- Hc; reflexivity). assert (Ho : re_owner o = re_owner k) by (rewrite <- Hc; reflexivity).
  unfold m_step in Es. cbn [m_run cancel_at] in Es. unfold m_cancel in Es. rewrite Ef in Es. destruct (se_active (ma_set m) && no_funds i && bool_decide (re_owner o = i_sender i) && (re_filled o =? 0)) eqn:Ea; [|discriminate].
  cbn [r_msgs forallb sm_coin sm_to c_amount] in Es. destruct ((_ && _) && true) eqn:Eb in Es; [|discriminate]. injection Es as _ <-. cbn [r_msgs].
  apply andb_prop in Eb as [Eb _]. apply andb_prop in Eb as [_ Eb]. apply andb_prop in Ea as [Ea C4]. apply Z.eqb_eq in C4. pose proof Ea as Ea'. apply andb_prop in Ea' as [_ C3]. apply bool_decide_eq_true in C3.
  unfold refund. rewrite <- Ho, C3, <- Hd. split; [do 3 f_equal; lia|].
  assert (Sc : forall mm id p, ma_set mm = ma_set m -> deposit_of mm (re_dir o) = deposit_of m (re_dir o) -> find_order t id (ma_orders mm) = Some p -> re_owner p = re_owner o -> re_dir p = re_dir o -> re_filled p = 0 -> 0 < re_open p ->
    exists r, m_step e mm (cancel_at i t id) = (edit1 (t, id, fun _ => None) mm, Done r) /\ r_msgs r = [mkSend 1 (i_sender i) (mkCoin (deposit_of m (re_dir o)) (re_open p))]).
  { intros mm id p X1 X2 X3 X4 X5 X6 X7. unfold m_step. cbn [m_run cancel_at]. unfold m_cancel. rewrite X3, X1, X4, X6, X5, X2, Ea. cbn [Z.eqb andb r_msgs forallb sm_coin sm_to c_amount]. rewrite (proj2 (Z.ltb_lt _ _) X7), Eb. cbn [andb]. eexists. split; reflexivity. }
  destruct (Sc (msplit n q1 q2 m) n (part1 n q1 o)) as (r1 & S1 & M1); try reflexivity; [exact F1|cbn; lia|cbn; lia|].
  set (m1 := edit1 (t, n, fun _ => None) (msplit n q1 q2 m)) in *.
  assert (F2' : find_order t (n + 1) (ma_orders m1) = Some (part2 n q1 q2 o)).
  { unfold m1, edit1. cbn [with_orders ma_orders fst snd msplit]. rewrite find_change_other; [exact F2|intros [= E]; lia|discriminate]. }
  destruct (Sc m1 (n + 1) (part2 n q1 q2 o)) as (r2 & S2 & M2); try reflexivity; [exact F2'|cbn; lia|cbn; lia|].
  cbn [m_outcomes]. rewrite S1. cbn [fst snd]. rewrite S2. cbn [snd answers_of flat_map app map]. rewrite M1, M2. cbn [part1 part2 re_open]. rewrite C4, Z.min_l by lia. repeat f_equal; lia.
Qed.

(** ** C74 *)
Theorem C74_two_pieces :
  forall w0 h e s dn t d b q1 q2 mid,
  let w := run w0 h in let n := next_order_id (w_st w) in
  let one := placement e s dn t d b (q1 + q2) in let two := [placement e s dn t d b q1; placement e s dn t d b q2] in
  let u := run w [one] in let v := run w two in let mid' := later_history (n + 1) mid in let a := run u mid in let z := run v mid' in
  start w0 -> history w0 (h ++ one :: mid) -> history w0 (h ++ two ++ mid') -> short (h ++ two ++ mid') -> 0 < q1 -> 0 < q2 ->
  (exists r, snd (step e w (snd one)) = Done r) -> (forall e c, (e, c) ∈ mid -> names n c = false) ->
  length (answers_of (all_outcomes w two)) = 2%nat /\
  all_outcomes v mid' = map (later_outcome (n + 1)) (all_outcomes u mid) /\
  split_at n (w_st a) (w_st z) /\
  option_map visible_data (order_of (w_st a) t n) = Some (t, d, s, q1 + q2, b, q1 + q2, e_time e) /\
  option_map visible_data (order_of (w_st z) t n) = Some (t, d, s, q1, b, q1, e_time e) /\
  option_map visible_data (order_of (w_st z) t (n + 1)) = Some (t, d, s, q2, b, q2, e_time e) /\
  (forall tin out answer, coin_typed tin = true ->
     (calc_out_amount_given_in (w_st a) tin out 0 = Ok answer <-> calc_out_amount_given_in (w_st z) tin out 0 = Ok answer)) /\
  forall denom, balance z denom = balance a denom.
Proof.
  intros w0 h e s dn t d b q1 q2 mid w n one two u v mid' a z Hs Hh1 Hh2 Hsh2 H1 H2 Hr Hn.
  destruct (halves_setup w0 h e s dn t d b q1 q2 mid Hs Hh1 Hh2 Hsh2 H1 H2 Hr Hn) as (E1 & E2 & E3 & E4 & E5). fold w n one two u v mid' a z in E1, E2, E3, E4, E5.
  assert (Hsh1 : short (h ++ one :: mid)) by (unfold short, mid', later_history in *; rewrite !app_length, ?map_length in *; cbn [length two] in *; rewrite ?map_length in *; lia).
  assert (Ea : run w0 (h ++ one :: mid) = a) by (rewrite cons_middle, app_assoc, !run_app; reflexivity). assert (Ez : run w0 (h ++ two ++ mid') = z) by (rewrite !run_app; reflexivity).
  destruct (short_ready _ _ Hs Hh1 Hsh1) as (Ga & Ra). destruct (short_ready _ _ Hs Hh2 Hsh2) as (Gz & Rz). rewrite Ea in Ra. rewrite Ez in Rz.
  pose proof (shows_abs _ _ _ (rd_good _ _ _ Ra)) as Sa. pose proof (shows_abs _ _ _ (rd_good _ _ _ Rz)) as Sz. pose proof (good_mok _ _ _ (rd_good _ _ _ Ra)) as Hm. set (ma := abs (w_st a) _) in *. set (mz := abs (w_st z) _) in *.
  destruct (there_whole t n _ q1 q2 ma Hm E4 eq_refl) as [Hw _].
  split; [exact E1|]. split; [exact E2|]. pose proof Sz as Sz'. rewrite E3 in Sz'. split; [eapply shows_split; [exact Hw|exact Sa|exact Sz']|].
  destruct (there_in _ _ _ _ E4) as (o & Ef & Hin & Et & Ei & Hc). destruct (find_parts n q1 q2 t _ o (there_ticks t n _ ma Hm E4) Ef) as [F1 F2].
  assert (Look : forall st m id p, shows st m -> find_order t id (ma_orders m) = Some p -> option_map visible_data (order_of st t id) = Some (re_tick p, re_dir p, re_owner p, re_open p + re_filled p, re_bounty p, re_placed p, re_time p)).
  { intros st m id p Sh Fp. unfold order_of. destruct (s_orders st !! (t, id)) as [x|] eqn:Ex; [|rewrite (sh_none _ _ Sh _ _ Ex) in Fp; discriminate]. destruct (sh_order _ _ Sh _ _ _ Ex) as (p' & Fp' & D). rewrite Fp in Fp'. injection Fp' as <-.
    cbn [option_map]. unfold visible_data. congruence. }
  destruct (Hw o Hin Ei) as (W1 & W2 & W3).
  assert (Hdata : (re_tick o, re_dir o, re_owner o, re_bounty o, re_time o, re_placed o) = (t, d, s, b, e_time e, q1 + q2)) by (unfold core, set_parts in Hc; injection Hc as ? ? ? ? ? ? ? ?; congruence). injection Hdata as D1 D2 D3 D4 D5 D6.
  split; [rewrite (Look _ _ _ _ Sa Ef); congruence|]. split; [rewrite (Look _ _ _ _ Sz' F1); cbn; rewrite D1, D2, D3, D4, D5; do 2 f_equal; f_equal; f_equal; f_equal; lia|].
  split; [rewrite (Look _ _ _ _ Sz' F2); cbn; rewrite D1, D2, D3, D4, D5; do 2 f_equal; f_equal; f_equal; f_equal; lia|]. split.
  - intros tin out answer Hty. assert (Hamt : 0 <= c_amount tin <= U128_MAX). { unfold coin_typed, u128 in Hty. apply andb_prop in Hty as [T1 T2]. apply Z.leb_le in T1, T2. auto. }
    pose proof (quote_machine _ _ _ tin out Ra Hamt) as Qa. pose proof (quote_machine _ _ _ tin out Rz Hamt) as Qz. fold ma in Qa. fold mz in Qz. rewrite E3, (quote_split _ _ _ _ _ _ Hw H2) in Qz.
    destruct (m_quote tin out ma); [rewrite Qa, Qz; reflexivity|]. split; intros H; exfalso; [eapply Qa|eapply Qz]; exact H.
  - intros denom. unfold z, a. rewrite !balance_net, E2, E5. unfold mid'. rewrite later_net. assert (w_self v = w_self u) as -> by (unfold u, v; rewrite !run_self; reflexivity). reflexivity.
Qed.


(** Settling: claims and cancellations of the order and of its pieces. *)
Lemma two_calls w0 h c1 c2 e : start w0 -> history w0 (h ++ [(e, c1); (e, c2)]) -> short (h ++ [(e, c1); (e, c2)]) ->
  all_outcomes (run w0 h) [(e, c1); (e, c2)] = m_outcomes (abs (w_st (run w0 h)) (ideal_run w0 [] h)) [(e, c1); (e, c2)].
Proof. intros Hs Hh Hsh. symmetry. apply (machine_history w0 [(e, c1); (e, c2)] h Hs Hh Hsh). Qed.
Section Settle.
Context (w0 : world) (h : list (env * call)) (e : env) (s dn : string) (t : Z) (d : dir) (b : option Z) (q1 q2 : Z) (mid : list (env * call)) (e' : env) (act : Z -> call) (a' : world) (r : response).
Let w := run w0 h.
Let n := next_order_id (w_st w).
Let one := placement e s dn t d b (q1 + q2).
Let two := [placement e s dn t d b q1; placement e s dn t d b q2].
Let mid' := later_history (n + 1) mid.
Let a := run (run w [one]) mid.
Let z := run (run w two) mid'.
Let k := mkResting t d n s b (e_time e) (q1 + q2) (q1 + q2) 0.
Let both := [(e', act n); (e', act (n + 1))].
Lemma settle : start w0 -> history w0 (h ++ one :: mid) -> history w0 (h ++ two ++ mid' ++ both) -> short (h ++ two ++ mid' ++ both) -> 0 < q1 -> 0 < q2 ->
  (exists r, snd (step e w (snd one)) = Done r) -> (forall e c, (e, c) ∈ mid -> names n c = false) -> step e' a (act n) = (a', Done r) ->
  exists m m', mok m /\ there t n k 0 m /\ m_step e' m (act n) = (m', Done r) /\ all_outcomes z both = m_outcomes (msplit n q1 q2 m) both /\ deposit_of m d = dn.
Proof.
  intros Hs Hh1 Hh2 Hsh2 H1 H2 Hr Hn Es. pose proof Hh2 as Hh3. pose proof Hsh2 as Hsh3. rewrite !app_assoc in Hh3, Hsh3. pose proof Hh3 as Hh4. apply history_app in Hh4 as [Hh4 Hb]. pose proof (short_app _ _ Hsh3) as Hsh4. rewrite <- app_assoc in Hh4, Hsh4.
  destruct (halves_setup w0 h e s dn t d b q1 q2 mid Hs Hh1 Hh4 Hsh4 H1 H2 Hr Hn) as (E1 & E2 & E3 & E4 & E5). fold w n one two mid' a z k in E1, E2, E3, E4, E5.
  assert (Hsh1 : short (h ++ one :: mid)) by (unfold short, mid', later_history in *; rewrite !app_length, ?map_length in *; cbn [length two] in *; rewrite ?map_length in *; lia).
  assert (Ea : run w0 (h ++ one :: mid) = a) by (rewrite cons_middle, app_assoc, !run_app; reflexivity). assert (Ez : run w0 ((h ++ two) ++ mid') = z) by (rewrite !run_app; reflexivity).
  apply Forall_cons in Hb as [Hok _]. cbn [snd] in Hok. rewrite Ez in Hok. assert (Eself : w_self z = w_self a) by (unfold z, a; rewrite !run_self; reflexivity). rewrite Eself, <- Ea in Hok.
  pose proof (machine_step e' w0 _ (act n) Hs Hh1 Hsh1 Hok) as Em. cbv zeta in Em. rewrite Ea, Es in Em. cbn [fst snd] in Em.
  destruct (run_good _ _ Hs Hh1) as (G & Hg). pose proof (good_mok _ _ _ Hg) as Hm. rewrite Ea in Hm.
  eexists. eexists. split; [exact Hm|]. split; [exact E4|]. split; [exact Em|]. split.
  - pose proof (two_calls w0 ((h ++ two) ++ mid') (act n) (act (n + 1)) e' Hs Hh3 Hsh3) as T. rewrite Ez, <- app_assoc, E3 in T. exact T.
  - rewrite abs_deposit. pose proof Hh1 as Hh0. apply history_app in Hh0 as [Hh0 Hrest]. fold w in Hrest. pose proof (start_reachable _ _ Hs Hh0) as Hre. fold w in Hre.
    pose proof (C29_denoms_fixed w (one :: mid) Hre Hrest) as Hden. change (run w (one :: mid)) with a in Hden. assert (deposit_denom (w_st a) d = deposit_denom (w_st w) d) as -> by (unfold denoms_of in Hden; injection Hden as X1 X2; destruct d; assumption).
    destruct Hr as (r0 & Hr). inversion Hrest as [|x l Hok1 _]; subst x l. pose proof (machine_step e w0 h (snd one) Hs Hh0 (short_app _ _ Hsh1) Hok1) as E0. cbv zeta in E0. fold w in E0. rewrite Hr in E0. unfold one at 1 in E0. rewrite place_step in E0.
    destruct (_ && _) eqn:C in E0; [|discriminate]. apply andb_prop in C as [_ C]. apply bool_decide_eq_true in C. rewrite abs_deposit in C. symmetry. exact C.
Qed.
End Settle.
Theorem C74_claims :
  forall w0 h e s dn t d b q1 q2 mid e' i a' r,
  let w := run w0 h in let n := next_order_id (w_st w) in
  let one := placement e s dn t d b (q1 + q2) in let two := [placement e s dn t d b q1; placement e s dn t d b q2] in
  let mid' := later_history (n + 1) mid in let a := run (run w [one]) mid in let z := run (run w two) mid' in
  let claims := [(e', claim_at i t n); (e', claim_at i t (n + 1))] in
  start w0 -> history w0 (h ++ one :: mid) -> history w0 (h ++ two ++ mid' ++ claims) -> short (h ++ two ++ mid' ++ claims) -> 0 < q1 -> 0 < q2 ->
  (exists r, snd (step e w (snd one)) = Done r) -> (forall e c, (e, c) ∈ mid -> names n c = false) ->
  step e' a (claim_at i t n) = (a', Done r) ->
  let answers := answers_of (all_outcomes z claims) in let parts := SpecEarly.sum (map (fun r => total_paid (r_msgs r)) answers) in
  answers <> [] /\ parts <= total_paid (r_msgs r) <= parts + (Z.of_nat (length answers) - 1).
Proof.
  intros w0 h e s dn t d b q1 q2 mid e' i a' r w n one two mid' a z claims Hs Hh1 Hh2 Hsh2 H1 H2 Hr Hn Es answers parts.
  destruct (settle w0 h e s dn t d b q1 q2 mid e' (claim_at i t) a' r Hs Hh1 Hh2 Hsh2 H1 H2 Hr Hn Es) as (m & m' & Hm & Ht & Em & Eo & _). fold w n two mid' in Eo. fold z claims in Eo.
  destruct (halves_claim t n _ q1 q2 e' i m m' r H1 H2 Hm Ht eq_refl Em) as (Y1 & Y2 & Y3). unfold answers, parts, answers. rewrite Eo. split; [exact Y1|split; [exact Y2|exact Y3]].
Qed.
Theorem C74_cancels :
  forall w0 h e s dn t d b q1 q2 mid e' i a' r,
  let w := run w0 h in let n := next_order_id (w_st w) in
  let one := placement e s dn t d b (q1 + q2) in let two := [placement e s dn t d b q1; placement e s dn t d b q2] in
  let mid' := later_history (n + 1) mid in let a := run (run w [one]) mid in let z := run (run w two) mid' in
  let cancels := [(e', cancel_at i t n); (e', cancel_at i t (n + 1))] in
  start w0 -> history w0 (h ++ one :: mid) -> history w0 (h ++ two ++ mid' ++ cancels) -> short (h ++ two ++ mid' ++ cancels) -> 0 < q1 -> 0 < q2 ->
  (exists r, snd (step e w (snd one)) = Done r) -> (forall e c, (e, c) ∈ mid -> names n c = false) ->
  step e' a (cancel_at i t n) = (a', Done r) ->
  r_msgs r = refund s dn (q1 + q2) /\ map r_msgs (answers_of (all_outcomes z cancels)) = [refund s dn q1; refund s dn q2].
Proof.
  intros w0 h e s dn t d b q1 q2 mid e' i a' r w n one two mid' a z cancels Hs Hh1 Hh2 Hsh2 H1 H2 Hr Hn Es.
  destruct (settle w0 h e s dn t d b q1 q2 mid e' (cancel_at i t) a' r Hs Hh1 Hh2 Hsh2 H1 H2 Hr Hn Es) as (m & m' & Hm & Ht & Em & Eo & Hdn). fold w n two mid' in Eo. fold z cancels in Eo.
  pose proof (halves_cancel t n _ q1 q2 e' i m m' r H1 H2 Hm Ht eq_refl Em) as Y. cbn [re_owner re_dir] in Y. rewrite Hdn in Y. rewrite Eo. exact Y.
Qed.
(** A sale of 1000 at tick 100000 (price 1.1), whole or as 507 and 493, behind a sale of 10; two buys, of 107 and 600, fill 632 of it.  One claim pays 695, the two claims 557 and 137.
    Without the buys, cancelling the whole refunds 1000, cancelling the pieces 507 and 493. *)
Definition hist_halves : list (env * call) := [place "d" 100000 Ask 10 None].
Definition mid_halves : list (env * call) := [buy "y" 107; place "n" 0 Bid 40 None; claim "z" 100000 0; buy "y" 600; cancel "n" 0 2].
Definition mid_quiet : list (env * call) := [buy "y" 10; place "n" 0 Bid 40 None; claim "z" 100000 0; cancel "n" 0 2].
Example C74_case :
  let w := run w_start hist_halves in let n := next_order_id (w_st w) in
  let one := placement tenv "s" "base" 100000 Ask None 1000 in let two := [placement tenv "s" "base" 100000 Ask None 507; placement tenv "s" "base" 100000 Ask None 493] in
  let i := mkInfo "s" [] in let claims := [(tenv, claim_at i 100000 1); (tenv, claim_at i 100000 2)] in let cancels := [(tenv, cancel_at i 100000 1); (tenv, cancel_at i 100000 2)] in
  start w_start /\ n = 1 /\
  history w_start (hist_halves ++ one :: mid_halves) /\ history w_start (hist_halves ++ two ++ later_history 2 mid_halves ++ claims) /\
  history w_start (hist_halves ++ one :: mid_quiet) /\ history w_start (hist_halves ++ two ++ later_history 2 mid_quiet ++ cancels) /\
  forallb (fun ec => negb (names 1 (snd ec))) (mid_halves ++ mid_quiet) = true /\
  run_out w (one :: mid_halves) = [true; true; true; true; true; true] /\ run_out w (one :: mid_quiet) = [true; true; true; true; true] /\
  map (fun r => total_paid (r_msgs r)) (answers_of (all_outcomes (run (run w two) (later_history 2 mid_halves)) claims)) = [557; 137] /\
  match snd (step tenv (run (run w [one]) mid_halves) (claim_at i 100000 1)) with Done r => total_paid (r_msgs r) = 695 | Failed => False end /\
  map r_msgs (answers_of (all_outcomes (run (run w two) (later_history 2 mid_quiet)) cancels)) = [refund "s" "base" 507; refund "s" "base" 493] /\
  match snd (step tenv (run (run w [one]) mid_quiet) (cancel_at i 100000 1)) with Done r => r_msgs r = refund "s" "base" 1000 | Failed => False end.
Proof.
  cbv zeta. split; [apply start_ok|]. split; [vm_compute; reflexivity|]. split; [hist|]. split; [hist|]. split; [hist|]. split; [hist|]. split; [reflexivity|].
  do 5 (split; [vm_compute; reflexivity|]). vm_compute; reflexivity.
Qed.



