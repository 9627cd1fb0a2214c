(** * Property C54: managing different orders commutes. *)
From Verif Require Import Base Dec Types State TickMath Sumtree Tick Order Auth Contract Query World SpecMath TickMathProofs
  TreeDefs Exec SumtreeProofs Ghost Inv Trans Spec Reach Refine RefineStep Reserve Solvency Books SpecProps PropBase Tests PropOrders PropClaims PropAdmin
  SpecAdmin SpecBank PropBank SpecMachine MachineBase PropMachine SpecTrace PropTrace SpecAlike PropAlike SpecCommute.

(** ** Lists *)
Definition inb (K : list Z) (id : Z) : bool := existsb (Z.eqb id) K.
Definition keep (K : list Z) (l : list resting) : list resting := List.filter (fun o => inb K (re_id o)) l.
Lemma inb_in K id : inb K id = true <-> In id K.
Proof. unfold inb. rewrite existsb_exists. split; [intros (x & Hx & E); apply Z.eqb_eq in E; subst; exact Hx|intros H; exists id; split; [exact H|apply Z.eqb_refl]]. Qed.
Lemma keep_find K t id l : In id K -> find_order t id (keep K l) = find_order t id l.
Proof.
  intros Hk. unfold find_order, keep. induction l as [|o l IH]; [reflexivity|]. cbn [List.filter List.find]. destruct (inb K (re_id o)) eqn:E; cbn [List.find]; rewrite IH; [reflexivity|].
  unfold is_order. destruct (Z.eqb_spec (re_id o) id) as [<-|]; [|rewrite andb_false_r; reflexivity]. apply inb_in in Hk. congruence.
Qed.
Definition keeps_id (f : resting -> option resting) : Prop := forall o o', f o = Some o' -> re_id o' = re_id o.
Lemma keep_change K t id f l : keeps_id f -> keep K (change t id f l) = change t id f (keep K l).
Proof.
  intros Hf. unfold keep, change. induction l as [|o l IH]; [reflexivity|]. cbn [flat_map]. rewrite List.filter_app, IH. cbn [List.filter].
  destruct (is_order t id o) eqn:E.
  - destruct (f o) as [o'|] eqn:Ef.
    + cbn [List.filter]. rewrite (Hf _ _ Ef). destruct (inb K (re_id o)); cbn [flat_map]; [rewrite E, Ef; reflexivity|reflexivity].
    + cbn [List.filter app]. destruct (inb K (re_id o)); cbn [flat_map]; [rewrite E, Ef; reflexivity|reflexivity].
  - cbn [List.filter]. destruct (inb K (re_id o)); cbn [flat_map]; [rewrite E; reflexivity|reflexivity].
Qed.
Lemma change_none t id f l : (forall o, In o l -> re_id o <> id) -> change t id f l = l.
Proof.
  induction l as [|o l IH]; intros H; [reflexivity|]. unfold change. cbn [flat_map]. fold (change t id f l). rewrite IH by (intros; apply H; right; assumption).
  unfold is_order. rewrite (proj2 (Z.eqb_neq (re_id o) id) (H o (or_introl eq_refl))), andb_false_r. reflexivity.
Qed.
Lemma keep_out K t id f l : keeps_id f -> ~ In id K -> keep K (change t id f l) = keep K l.
Proof.
  intros Hf Hn. rewrite keep_change by exact Hf. apply change_none. intros o Ho <-. apply filter_In in Ho as [_ Ho]. apply inb_in in Ho. contradiction.
Qed.
Lemma change_app t id f l1 l2 : change t id f (l1 ++ l2) = change t id f l1 ++ change t id f l2.
Proof. unfold change. apply flat_map_app. Qed.
Lemma change_comm t1 id1 f1 t2 id2 f2 l : keeps_id f1 -> keeps_id f2 -> id1 <> id2 -> change t1 id1 f1 (change t2 id2 f2 l) = change t2 id2 f2 (change t1 id1 f1 l).
Proof.
  intros H1 H2 Hn. induction l as [|o l IH]; [reflexivity|]. change (o :: l) with ([o] ++ l). rewrite !change_app, IH. f_equal. unfold change. cbn [flat_map]. rewrite !app_nil_r.
  assert (N : forall t id t' id' a b, is_order t id a = true -> re_id b = re_id a -> id <> id' -> is_order t' id' b = false).
  { intros t id t' id' a b E Eb Hne. unfold is_order in *. apply andb_prop in E as [_ E]. apply Z.eqb_eq in E. rewrite Eb, E, (proj2 (Z.eqb_neq _ _) Hne), andb_false_r. reflexivity. }
  destruct (is_order t1 id1 o) eqn:E1, (is_order t2 id2 o) eqn:E2; cbn [flat_map].
  - pose proof (N _ _ t2 id2 _ o E1 eq_refl Hn). congruence.
  - rewrite E1. destruct (f1 o) as [o'|] eqn:Ef; cbn [flat_map]; [|reflexivity]. rewrite (N _ _ _ _ _ _ E1 (H1 _ _ Ef) Hn). reflexivity.
  - rewrite E2. destruct (f2 o) as [o'|] eqn:Ef; cbn [flat_map]; [|reflexivity]. rewrite (N _ _ _ _ _ _ E2 (H2 _ _ Ef) (not_eq_sym Hn)). reflexivity.
  - rewrite E1, E2. reflexivity.
Qed.

(** ** Sequences of changes *)
Definition edit : Type := Z * Z * (resting -> option resting).
Definition edit1 (x : edit) (m : machine) : machine := with_orders m (change x.1.1 x.1.2 x.2 (ma_orders m)).
Definition edits (L : list edit) (m : machine) : machine := fold_left (fun m x => edit1 x m) L m.
Definition edits_ok (L : list edit) (K : list Z) : Prop := forall x, In x L -> In x.1.2 K /\ keeps_id x.2.
Record same_for (K : list Z) (m m' : machine) : Prop := {
  sf_quote : ma_quote m' = ma_quote m; sf_base : ma_base m' = ma_base m; sf_set : ma_set m' = ma_set m; sf_keep : keep K (ma_orders m') = keep K (ma_orders m)
}.
Lemma same_refl K m : same_for K m m.
Proof. split; reflexivity. Qed.
Lemma same_deposit K m m' d : same_for K m m' -> deposit_of m' d = deposit_of m d.
Proof. intros []. destruct d; assumption. Qed.
Lemma same_payout K m m' d : same_for K m m' -> payout_of m' d = payout_of m d.
Proof. apply same_deposit. Qed.
Lemma same_find K m m' t id : same_for K m m' -> In id K -> find_order t id (ma_orders m') = find_order t id (ma_orders m).
Proof. intros H Hk. rewrite <- (keep_find K t id _ Hk), (sf_keep _ _ _ H). apply keep_find. exact Hk. Qed.
Lemma same_edit1 K x m m' : keeps_id x.2 -> same_for K m m' -> same_for K (edit1 x m) (edit1 x m').
Proof. intros Hx [H1 H2 H3 H4]. split; try assumption. cbn [edit1 with_orders ma_orders]. rewrite !keep_change by exact Hx. rewrite H4. reflexivity. Qed.
Lemma edits_rest L m : ma_quote (edits L m) = ma_quote m /\ ma_base (edits L m) = ma_base m /\ ma_set (edits L m) = ma_set m /\ ma_next (edits L m) = ma_next m.
Proof. revert m. induction L as [|x L IH]; intros m; [auto|]. cbn [edits fold_left]. fold (edits L (edit1 x m)). destruct (IH (edit1 x m)) as (-> & -> & -> & ->). auto. Qed.
Lemma same_edits K K' L m : edits_ok L K' -> (forall id, In id K -> ~ In id K') -> same_for K m (edits L m).
Proof.
  intros HL Hd. destruct (edits_rest L m) as (E1 & E2 & E3 & _). split; try assumption. clear E1 E2 E3. revert m. induction L as [|x L IH]; intros m; [reflexivity|].
  cbn [edits fold_left]. fold (edits L (edit1 x m)). rewrite IH by (intros y Hy; apply HL; right; exact Hy). destruct (HL x (or_introl eq_refl)) as [Hx Hf].
  cbn [edit1 with_orders ma_orders]. apply keep_out; [exact Hf|]. intros Hk. exact (Hd _ Hk Hx).
Qed.
Lemma edits1_comm x L m K K' : keeps_id x.2 -> In x.1.2 K -> edits_ok L K' -> (forall id, In id K -> ~ In id K') -> edits L (edit1 x m) = edit1 x (edits L m).
Proof.
  intros Hx Hk HL Hd. revert m. induction L as [|y L IH]; intros m; [reflexivity|]. cbn [edits fold_left]. fold (edits L (edit1 y m)) (edits L (edit1 y (edit1 x m))).
  rewrite <- IH by (intros z Hz; apply HL; right; exact Hz). f_equal. destruct (HL y (or_introl eq_refl)) as [Hy Hf]. unfold edit1. cbn [with_orders ma_orders]. unfold with_orders. cbn. f_equal.
  apply change_comm; try assumption. intros E. rewrite E in Hy. exact (Hd _ Hk Hy).
Qed.
Lemma edits_comm L1 L2 m K K' : edits_ok L1 K -> edits_ok L2 K' -> (forall id, In id K -> ~ In id K') -> edits L1 (edits L2 m) = edits L2 (edits L1 m).
Proof.
  intros H1 H2 Hd. revert m. induction L1 as [|x L IH]; intros m; [reflexivity|]. cbn [edits fold_left]. fold (edits L (edit1 x m)) (edits L (edit1 x (edits L2 m))).
  destruct (H1 x (or_introl eq_refl)) as [Hx Hf]. rewrite <- (edits1_comm x L2 m K K') by assumption. apply IH. intros y Hy. apply H1. right. exact Hy.
Qed.

(** ** Calls other than placements edit the orders they concern, depending on nothing else *)
Definition claim_edit (t id : Z) : edit := (t, id, fun o => if re_open o =? 0 then None else Some (set_parts o (re_open o) 0)).
Lemma claim_keeps t id : keeps_id (claim_edit t id).2.
Proof. intros o o'. cbn. destruct (re_open o =? 0); [discriminate|]. intros [= <-]. reflexivity. Qed.
Lemma claim_one_local s t id m : exists x, match claim_one s t id m with
  | Some (m1, ms, ev) => x = Some (ms, ev) /\ m1 = edit1 (claim_edit t id) m
  | None => x = None end /\ forall K m', same_for K m m' -> In id K ->
  claim_one s t id m' = match x with Some (ms, ev) => Some (edit1 (claim_edit t id) m', ms, ev) | None => None end.
Proof.
  unfold claim_one. destruct (find_order t id (ma_orders m)) as [o|] eqn:Ef.
  - destruct (0 <? re_filled o) eqn:Eo.
    + exists (Some (payments m s o, announcement m s o)). split; [auto|]. intros K m' H Hk. rewrite (same_find _ _ _ _ _ H Hk), Ef, Eo.
      unfold payments, announcement, owner_gets, fee_part. rewrite !(same_payout _ _ _ _ H), !(same_deposit _ _ _ _ H), (sf_set _ _ _ H). reflexivity.
    + exists None. split; [reflexivity|]. intros K m' H Hk. rewrite (same_find _ _ _ _ _ H Hk), Ef, Eo. reflexivity.
  - exists None. split; [reflexivity|]. intros K m' H Hk. rewrite (same_find _ _ _ _ _ H Hk), Ef. reflexivity.
Qed.
Lemma claim_all_local s l : forall m, exists L ms evs, edits_ok L (map snd l) /\ forall K m', same_for K m m' -> (forall id, In id (map snd l) -> In id K) ->
  claim_all s l m' = (edits L m', ms, evs).
Proof.
  induction l as [|[t id] l IH]; intros m.
  - exists [], [], []. split; [intros x []|]. reflexivity.
  - destruct (claim_one_local s t id m) as (x & Hx & Hl). destruct x as [[ms ev]|].
    + destruct (IH (edit1 (claim_edit t id) m)) as (L & ms' & evs & HL & Hr). exists (claim_edit t id :: L), (ms ++ ms'), (ev :: evs). split.
      * intros y [<-|Hy]; [split; [left; reflexivity|apply claim_keeps]|]. destruct (HL y Hy) as [K1 K2]. split; [right; exact K1|exact K2].
      * intros K m' H Hk. cbn [claim_all]. rewrite (Hl K m' H) by (apply Hk; left; reflexivity).
        rewrite (Hr K (edit1 (claim_edit t id) m')); [reflexivity|apply same_edit1; [apply claim_keeps|exact H]|intros; apply Hk; right; assumption].
    + destruct (IH m) as (L & ms' & evs & HL & Hr). exists L, ms', evs. split; [intros y Hy; destruct (HL y Hy); split; [right|]; assumption|].
      intros K m' H Hk. cbn [claim_all]. rewrite (Hl K m' H) by (apply Hk; left; reflexivity). apply (Hr K); [exact H|]. intros; apply Hk; right; assumption.
Qed.
Definition placing (c : call) : bool := match c with CExec _ (PlaceLimit _ _ _ _) => true | _ => false end.
Lemma step_of_run e m c L r : m_run e c m = Some (edits L m, r) ->
  m_step e m c = (if forallb (fun s => (0 <? c_amount (sm_coin s)) && e_bank_ok e (sm_to s)) (r_msgs r) then (edits L m, Done r) else (m, Failed)).
Proof. intros E. unfold m_step. rewrite E. reflexivity. Qed.
Lemma run_local e c n m : managing c = true -> placing c = false ->
  exists x, (match x with Some (L, _) => edits_ok L (concerns n c) | None => True end) /\
    forall m', same_for (concerns n c) m m' -> m_run e c m' = match x with Some (L, r) => Some (edits L m', r) | None => None end.
Proof.
  intros Hm Hp. destruct c as [i x|x| |c]; try discriminate. destruct x as [t d q b|t id|t id|l|a]; try discriminate; cbn [concerns m_run].
  - unfold m_cancel. set (del := (t, id, fun _ : resting => None) : edit).
    destruct (find_order t id (ma_orders m)) as [o|] eqn:Ef.
    + destruct (se_active (ma_set m) && no_funds i && bool_decide (re_owner o = i_sender i) && (re_filled o =? 0)) eqn:Ec.
      * eexists (Some ([del], _)). split; [intros x [<-|[]]; split; [left; reflexivity|discriminate]|]. intros m' H.
        rewrite (same_find _ _ _ _ _ H) by (left; reflexivity). rewrite Ef, (sf_set _ _ _ H), Ec, !(same_deposit _ _ _ _ H), !(same_payout _ _ _ _ H). reflexivity.
      * exists None. split; [exact I|]. intros m' H. rewrite (same_find _ _ _ _ _ H) by (left; reflexivity). rewrite Ef, (sf_set _ _ _ H), Ec. reflexivity.
    + exists None. split; [exact I|]. intros m' H. rewrite (same_find _ _ _ _ _ H) by (left; reflexivity). rewrite Ef. reflexivity.
  - unfold m_claim. destruct (claim_one_local (i_sender i) t id m) as (x & _ & Hl). destruct (se_active (ma_set m) && no_funds i) eqn:Ec.
    + destruct x as [[ms ev]|].
      * eexists (Some ([claim_edit t id], _)). split; [intros y [<-|[]]; split; [left; reflexivity|apply claim_keeps]|]. intros m' H. rewrite (sf_set _ _ _ H), Ec, (Hl _ _ H) by (left; reflexivity). reflexivity.
      * exists None. split; [exact I|]. intros m' H. rewrite (sf_set _ _ _ H), Ec, (Hl _ _ H) by (left; reflexivity). reflexivity.
    + exists None. split; [exact I|]. intros m' H. rewrite (sf_set _ _ _ H), Ec. reflexivity.
  - unfold m_batch. destruct (claim_all_local (i_sender i) l m) as (L & ms & evs & HL & Hr). destruct (se_active (ma_set m) && no_funds i && (Z.of_nat (length l) <=? 100)) eqn:Ec.
    + eexists (Some (L, _)). split; [exact HL|]. intros m' H. rewrite (sf_set _ _ _ H), Ec, (Hr _ _ H) by auto. reflexivity.
    + exists None. split; [exact I|]. intros m' H. rewrite (sf_set _ _ _ H), Ec. reflexivity.
Qed.
Lemma step_local e c n m : managing c = true -> placing c = false ->
  exists L o, edits_ok L (concerns n c) /\ forall m', same_for (concerns n c) m m' -> m_step e m' c = (edits L m', o).
Proof.
  intros Hm Hp. destruct (run_local e c n m Hm Hp) as ([[L r]|] & HL & Hr).
  - destruct (forallb (fun s => (0 <? c_amount (sm_coin s)) && e_bank_ok e (sm_to s)) (r_msgs r)) eqn:E.
    + exists L, (Done r). split; [exact HL|]. intros m' H. unfold m_step. rewrite (Hr _ H), E. reflexivity.
    + exists [], Failed. split; [intros x []|]. intros m' H. unfold m_step. rewrite (Hr _ H), E. reflexivity.
  - exists [], Failed. split; [intros x []|]. intros m' H. unfold m_step. rewrite (Hr _ H). reflexivity.
Qed.
(** A placement appends. *)
Lemma place_edits e c m L K : placing c = true -> edits_ok L K -> ~ In (ma_next m) K ->
  m_step e (edits L m) c = (edits L (fst (m_step e m c)), snd (m_step e m c)) /\ same_for K m (fst (m_step e m c)).
Proof.
  intros Hp HL Hn. destruct c as [i x|x| |c]; try discriminate. destruct x as [t d q b|t id|t id|l|a]; try discriminate. unfold m_step. cbn [m_run]. unfold m_place.
  destruct (edits_rest L m) as (E1 & E2 & E3 & E4). assert (Ed : forall d, deposit_of (edits L m) d = deposit_of m d) by (intros []; assumption).
  unfold payout_of. rewrite !Ed, E3, E4, E1, E2. destruct (_ && _); [|split; [reflexivity|apply same_refl]]. cbn [r_msgs forallb fst snd]. split.
  - f_equal. set (o := mkResting t d (ma_next m) (i_sender i) b (e_time e) q q 0).
    assert (Ho : forall mm, ma_next mm = ma_next m -> edits L (mkMachine (ma_quote mm) (ma_base mm) (ma_set mm) (ma_next mm + 1) (ma_orders mm ++ [o])) =
      let m' := edits L mm in mkMachine (ma_quote m') (ma_base m') (ma_set m') (ma_next m' + 1) (ma_orders m' ++ [o])).
    { clear E1 E2 E3 E4 Ed. induction L as [|x L IH]; intros mm Em; [reflexivity|]. cbn [edits fold_left]. fold (edits L (edit1 x mm)).
      assert (Ex : edit1 x (mkMachine (ma_quote mm) (ma_base mm) (ma_set mm) (ma_next mm + 1) (ma_orders mm ++ [o])) =
                   let m' := edit1 x mm in mkMachine (ma_quote m') (ma_base m') (ma_set m') (ma_next m' + 1) (ma_orders m' ++ [o])).
      { unfold edit1, with_orders. cbn [ma_quote ma_base ma_set ma_next ma_orders]. rewrite change_app, (change_none _ _ _ [o]); [reflexivity|].
        intros o' [<-|[]]. cbn. intros E. apply Hn. rewrite E. apply HL. left. reflexivity. }
      rewrite Ex. cbv zeta. match goal with |- fold_left _ L ?M = _ => change (fold_left _ L M) with (edits L M) end.
      rewrite (IH ltac:(intros y Hy; apply HL; right; exact Hy) (edit1 x mm) Em). reflexivity. }
    rewrite (Ho m eq_refl). cbv zeta. rewrite E1, E2, E3, E4. reflexivity.
  - split; try reflexivity. cbn [ma_orders]. unfold keep. rewrite List.filter_app. cbn [List.filter re_id]. destruct (inb K (ma_next m)) eqn:E; [apply inb_in in E; contradiction|]. apply app_nil_r.
Qed.
Lemma commute_half e1 e2 c1 c2 m : managing c1 = true -> managing c2 = true -> placing c2 = false ->
  (forall id, In id (concerns (ma_next m) c1) -> ~ In id (concerns (ma_next m) c2)) ->
  let m1 := fst (m_step e1 m c1) in let m2 := fst (m_step e2 m c2) in
  m_step e1 m2 c1 = (fst (m_step e2 m1 c2), snd (m_step e1 m c1)) /\ snd (m_step e2 m1 c2) = snd (m_step e2 m c2).
Proof.
  intros Hm1 Hm2 Hp Hd m1 m2. set (n := ma_next m) in *. destruct (step_local e2 c2 n m Hm2 Hp) as (L2 & o2 & HL2 & H2).
  assert (E2 : m_step e2 m c2 = (edits L2 m, o2)) by (apply H2, same_refl).
  destruct (placing c1) eqn:Hp1.
  - destruct (place_edits e1 c1 m L2 (concerns n c2) Hp1 HL2) as [Ea Es]. { apply Hd. destruct c1 as [i x|x| |c]; try discriminate. destruct x; try discriminate. left. reflexivity. }
    fold m1 in Ea, Es. unfold m2. rewrite E2. cbn [fst snd]. rewrite Ea, (H2 _ Es). auto.
  - destruct (step_local e1 c1 n m Hm1 Hp1) as (L1 & o1 & HL1 & H1). assert (E1 : m_step e1 m c1 = (edits L1 m, o1)) by (apply H1, same_refl).
    unfold m1, m2. rewrite E1, E2. cbn [fst snd]. rewrite (H1 (edits L2 m)) by (eapply same_edits; [exact HL2|exact Hd]).
    rewrite (H2 (edits L1 m)) by (eapply same_edits; [exact HL1|intros id Ha Hb; exact (Hd id Hb Ha)]). split; [|reflexivity]. cbn [fst]. f_equal.
    eapply edits_comm; [exact HL1|exact HL2|exact Hd].
Qed.
Lemma commute e1 e2 c1 c2 m : managing c1 = true -> managing c2 = true ->
  (forall id, In id (concerns (ma_next m) c1) -> ~ In id (concerns (ma_next m) c2)) ->
  let m1 := fst (m_step e1 m c1) in let m2 := fst (m_step e2 m c2) in
  fst (m_step e1 m2 c1) = fst (m_step e2 m1 c2) /\ snd (m_step e1 m2 c1) = snd (m_step e1 m c1) /\ snd (m_step e2 m1 c2) = snd (m_step e2 m c2).
Proof.
  intros Hm1 Hm2 Hd m1 m2. destruct (placing c2) eqn:Hp2.
  - destruct (placing c1) eqn:Hp1.
    + exfalso. destruct c1 as [i x|x| |c]; try discriminate. destruct x; try discriminate. destruct c2 as [i' x'|x'| |c']; try discriminate. destruct x'; try discriminate. apply (Hd (ma_next m)); left; reflexivity.
    + destruct (commute_half e2 e1 c2 c1 m Hm2 Hm1 Hp1) as [E1 E2]; [intros id Ha Hb; exact (Hd id Hb Ha)|]. fold m1 m2 in E1, E2. rewrite E1. auto.
  - destruct (commute_half e1 e2 c1 c2 m Hm1 Hm2 Hp2 Hd) as [E1 E2]. fold m1 m2 in E1, E2. rewrite E1. auto.
Qed.

(** ** C54 *)
Lemma shows_alike s s' m : shows s m -> shows s' m -> alike s s'.
Proof.
  intros [A1 A2 A3 A4 A5 A6 A7 A8] [B1 B2 B3 B4 B5 B6 B7 B8].
  assert (Ht : forall s d, (exists ob, s_orderbook s = Some ob /\ ob_quote ob = ma_quote m /\ ob_base ob = ma_base m) -> deposit_denom s d = deposit_of m d).
  { intros x d (ob & E & E1 & E2). unfold deposit_denom. rewrite E. destruct d; assumption. }
  split.
  - intros d. rewrite (Ht s d A1), (Ht s' d B1). reflexivity.
  - unfold active. change (unwrap_or (s_active s) true) with (match s_active s with Some b => b | None => true end). change (unwrap_or (s_active s') true) with (match s_active s' with Some b => b | None => true end). congruence.
  - congruence.
  - congruence.
  - intros t id. destruct (s_orders s !! (t, id)) as [o|] eqn:E, (s_orders s' !! (t, id)) as [o'|] eqn:E'; cbn [option_map]; try reflexivity.
    + destruct (A4 _ _ _ E) as (r & Hr & D). destruct (B4 _ _ _ E') as (r' & Hr' & D'). rewrite Hr in Hr'. injection Hr' as <-. unfold visible. congruence.
    + destruct (A4 _ _ _ E) as (r & Hr & D). rewrite (B5 _ _ E') in Hr. discriminate.
    + destruct (B4 _ _ _ E') as (r & Hr & D). rewrite (A5 _ _ E) in Hr. discriminate.
  - intros t d. specialize (A8 t d). specialize (B8 t d). rewrite <- B8 in A8. unfold tick_liquidity. unfold get_values.
    destruct (s_ticks s !! t), (s_ticks s' !! t); rewrite ?A8; try reflexivity. rewrite <- A8. reflexivity.
Qed.
Theorem C54_commute :
  forall w0 h e1 e2 c1 c2, let w := run w0 h in let n := next_order_id (w_st w) in
  start w0 -> history w0 (h ++ [(e1, c1); (e2, c2)]) -> short (h ++ [(e1, c1); (e2, c2)]) -> managing c1 = true -> managing c2 = true ->
  (forall id, id ∈ concerns n c1 -> id ∉ concerns n c2) ->
  let w12 := run w [(e1, c1); (e2, c2)] in let w21 := run w [(e2, c2); (e1, c1)] in
  snd (step e1 w c1) = snd (step e1 (fst (step e2 w c2)) c1) /\ snd (step e2 w c2) = snd (step e2 (fst (step e1 w c1)) c2) /\
  alike (w_st w12) (w_st w21) /\ forall denom, balance w12 denom = balance w21 denom.
Proof.
  intros w0 h e1 e2 c1 c2 w n Hs Hh Hsh Hm1 Hm2 Hd w12 w21.
  pose proof Hh as K. apply history_app in K as [Hh0 Hcs]. apply Forall_cons in Hcs as [Hc1 Hcs]. apply Forall_cons in Hcs as [Hc2 _]. cbn [snd] in Hc1, Hc2. rewrite run_self in Hc1, Hc2.
  assert (Hh' : history w0 (h ++ [(e2, c2); (e1, c1)])).
  { apply history_app. split; [exact Hh0|]. unfold history. rewrite run_self. repeat constructor; assumption. }
  assert (Hsh' : short (h ++ [(e2, c2); (e1, c1)])) by (unfold short in *; rewrite app_length in *; exact Hsh).
  destruct (machine_history w0 _ h Hs Hh Hsh) as [O1 A1]. destruct (machine_history w0 _ h Hs Hh' Hsh') as [O2 A2]. fold w in O1, A1, O2, A2. set (m := abs (w_st w) (ideal_run w0 [] h)) in *.
  assert (En : ma_next m = n) by reflexivity.
  destruct (commute e1 e2 c1 c2 m Hm1 Hm2) as (C1 & C2 & C3). { intros id Ha Hb. rewrite En in Ha, Hb. apply (Hd id); apply elem_of_list_In; assumption. }
  cbn [m_outcomes m_after all_outcomes] in O1, A1, O2, A2. injection O1 as P1 P2. injection O2 as P3 P4.
  assert (R1 : snd (step e1 w c1) = snd (step e1 (fst (step e2 w c2)) c1)) by (rewrite <- P1, <- P4; symmetry; exact C2).
  assert (R2 : snd (step e2 w c2) = snd (step e2 (fst (step e1 w c1)) c2)) by (rewrite <- P3, <- P2; symmetry; exact C3).
  split; [exact R1|]. split; [exact R2|]. split.
  - unfold w12, w21. pose proof (run_app w0 h [(e1, c1); (e2, c2)]) as U1. pose proof (run_app w0 h [(e2, c2); (e1, c1)]) as U2. fold w in U1, U2. rewrite <- U1, <- U2.
    destruct (run_good _ _ Hs Hh) as (G1 & Hg1). destruct (run_good _ _ Hs Hh') as (G2 & Hg2). apply shows_abs in Hg1, Hg2.
    eapply shows_alike; [exact Hg1|]. rewrite <- A1, <- C1, A2. exact Hg2.
  - intros denom. unfold w12, w21. rewrite !balance_net. cbn [all_outcomes net]. rewrite <- R1, <- R2. lia.
Qed.
Print Assumptions C54_commute.
(** A case: a new order and a batch claim with one empty entry; a cancellation and a claim at the same tick. *)
Example C54_case :
  let w := run w_start hist_three in
  let c1 := snd (place "n" 0 Bid 40 None) in let c2 := CExec (mkInfo "z" []) (BatchClaim [(0, 1); (5, 7)]) in
  let c3 := snd (cancel "c" 0 2) in let c4 := snd (claim "z" 0 1) in
  start w_start /\ history w_start (hist_three ++ [(tenv, c1); (tenv, c2)]) /\ history w_start (hist_three ++ [(tenv, c3); (tenv, c4)]) /\
  map managing [c1; c2; c3; c4] = [true; true; true; true] /\ next_order_id (w_st w) = 3 /\
  map (concerns 3) [c1; c2; c3; c4] = [[3]; [1; 7]; [2]; [1]] /\
  run_out w [(tenv, c1); (tenv, c2)] = [true; true] /\ run_out w [(tenv, c3); (tenv, c4)] = [true; true].
Proof.
  cbv zeta. split; [apply start_ok|]. split; [hist|]. split; [hist|]. split; [reflexivity|]. split; [vm_compute; reflexivity|]. split; [reflexivity|]. split; vm_compute; reflexivity.
Qed.
