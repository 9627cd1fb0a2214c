(** * Property C73: when an order is claimed is nobody else's business. *)
From Verif Require Import Base Dec Types State TickMath Sumtree Tick Order Auth Contract Query World SpecMath TickMathProofs
  TreeDefs Exec SumtreeProofs Ghost Inv Trans Spec Reach Refine RefineStep Reserve Solvency Books SpecProps PropBase Tests PropOrders PropClaims PropAdmin
  SpecAdmin SpecBank PropBank SpecMachine MachineBase MachineSwap PropMachine SpecTrace PropTrace SpecAlike PropAlike SpecCommute PropCommute PropDepth SpecEarly.

(** ** Lists of orders *)
Lemma find_change t id f l : StronglySorted Z.lt (map re_id l) -> (forall o o', f o = Some o' -> re_tick o' = re_tick o /\ re_id o' = re_id o) ->
  find_order t id (change t id f l) = match find_order t id l with Some o => f o | None => None end.
Proof.
  intros Hs Hf. induction l as [|o l IH]; [reflexivity|]. cbn [map] in Hs. apply StronglySorted_inv in Hs as [Hs Ha]. unfold find_order, change. cbn [flat_map List.find]. destruct (is_order t id o) eqn:E.
  - destruct (f o) as [o'|] eqn:Ef.
    + cbn [app List.find]. destruct (Hf _ _ Ef) as [H1 H2]. unfold is_order in E |- *. rewrite H1, H2, E. reflexivity.
    + cbn [app]. fold (change t id f l). rewrite change_none.
      * fold (find_order t id l). destruct (find_order t id l) as [o1|] eqn:E1; [|reflexivity]. exfalso. apply find_some in E1 as [H1 H2].
        unfold is_order in *. apply andb_prop in E as [_ E]. apply andb_prop in H2 as [_ H2]. apply Z.eqb_eq in E, H2. rewrite Forall_forall in Ha.
        specialize (Ha (re_id o1) ltac:(apply elem_of_list_fmap; exists o1; split; [reflexivity|apply elem_of_list_In, H1])). lia.
      * intros o1 H1 E1. rewrite Forall_forall in Ha. unfold is_order in E. apply andb_prop in E as [_ E]. apply Z.eqb_eq in E.
        specialize (Ha (re_id o1) ltac:(apply elem_of_list_fmap; exists o1; split; [reflexivity|apply elem_of_list_In, H1])). lia.
  - cbn [app List.find]. rewrite E. apply IH, Hs.
Qed.
Lemma change_ext t id f g l : (forall o, o ∈ l -> is_order t id o = true -> f o = g o) -> change t id f l = change t id g l.
Proof.
  intros H. induction l as [|o l IH]; [reflexivity|]. unfold change. cbn [flat_map]. fold (change t id f l) (change t id g l). rewrite IH by (intros; apply H; [constructor|]; assumption).
  destruct (is_order t id o) eqn:E; [|reflexivity]. rewrite (H o) by (constructor || exact E). reflexivity.
Qed.
Lemma change_change t id f g l : (forall o o', f o = Some o' -> re_tick o' = re_tick o /\ re_id o' = re_id o) ->
  change t id g (change t id f l) = change t id (fun o => match f o with Some o' => g o' | None => None end) l.
Proof.
  intros Hf. induction l as [|o l IH]; [reflexivity|]. change (o :: l) with ([o] ++ l). rewrite !change_app, IH. f_equal. unfold change. cbn [flat_map]. rewrite !app_nil_r.
  destruct (is_order t id o) eqn:E; [|cbn [flat_map]; rewrite E; reflexivity]. destruct (f o) as [o'|] eqn:Ef; [|reflexivity]. cbn [flat_map]. destruct (Hf _ _ Ef) as [H1 H2].
  assert (is_order t id o' = true) as -> by (unfold is_order in *; rewrite H1, H2; exact E). apply app_nil_r.
Qed.
Lemma change_id t id f l : (forall o, o ∈ l -> is_order t id o = true -> f o = Some o) -> change t id f l = l.
Proof.
  intros H. induction l as [|o l IH]; [reflexivity|]. unfold change. cbn [flat_map]. fold (change t id f l). rewrite IH by (intros; apply H; [constructor|]; assumption).
  destruct (is_order t id o) eqn:E; [|reflexivity]. rewrite (H o) by (constructor || exact E). reflexivity.
Qed.
Lemma find_unique t id l o o' : StronglySorted Z.lt (map re_id l) -> find_order t id l = Some o -> o' ∈ l -> is_order t id o' = true -> o' = o.
Proof.
  intros Hs. induction l as [|a l IH]; [discriminate|]. cbn [map] in Hs. apply StronglySorted_inv in Hs as [Hs Ha]. rewrite Forall_forall in Ha. unfold find_order. cbn [List.find]. intros Hf Hin Ho'.
  assert (Hid : forall b, is_order t id b = true -> re_id b = id) by (intros b Eb; unfold is_order in Eb; apply andb_prop in Eb as [_ Eb]; apply Z.eqb_eq, Eb).
  destruct (is_order t id a) eqn:E.
  - injection Hf as <-. apply elem_of_cons in Hin as [->|Hin]; [reflexivity|]. specialize (Ha (re_id o') ltac:(apply elem_of_list_fmap; eauto)). rewrite (Hid _ E), (Hid _ Ho') in Ha. lia.
  - apply elem_of_cons in Hin as [->|Hin]; [congruence|]. apply IH; assumption.
Qed.

(** ** Machines *)
Record mok (m : machine) : Prop := {
  mk_order : forall o, o ∈ ma_orders m -> 0 <= re_open o /\ 0 <= re_filled o /\ 0 < re_open o + re_filled o /\ valid_tick (re_tick o) /\ re_id o < ma_next m /\ bounty_ok (re_bounty o) = true;
  mk_ids : StronglySorted Z.lt (map re_id (ma_orders m));
  mk_fee : 0 <= se_fee (ma_set m) <= 5 * 10 ^ 16
}.
Lemma good_mok w G Q : good w G Q -> mok (abs (w_st w) Q).
Proof.
  intros Hg. pose proof (gd_inv _ _ _ Hg) as Hi. pose proof (gd_ref _ _ _ Hg) as Hr. destruct (shows_abs w G Q Hg) as [_ _ _ _ _ A6 A7 _]. split.
  - intros o Ho. destruct (A6 o Ho) as (P1 & P2 & P3). cbn [abs ma_orders] in Ho. apply lives_in in Ho as (e & He & _ & ->). destruct (rf_entry _ _ _ Hr _ He) as [E1 _ _ _ _ _ _ E8 E9]. cbn in *. repeat split; try assumption; lia || apply E9.
  - exact A7.
  - destruct (i_fee _ _ Hi) as (f & Ef & Hf). cbn [abs ma_set settings_of se_fee]. rewrite Ef. exact Hf.
Qed.
Definition core (o : resting) : resting := set_parts o (re_open o + re_filled o) 0.
Definition cut (x : Z) (o : resting) : option resting :=
  if (re_open o =? 0) && (re_filled o - x =? 0) then None else Some (set_parts o (re_open o) (re_filled o - x)).
Lemma cut_eq x o : cut x o = if (re_open o =? 0) && (re_filled o - x =? 0) then None else Some (set_parts o (re_open o) (re_filled o - x)).
Proof. reflexivity. Qed.
Lemma cut_same x o o' : cut x o = Some o' -> re_tick o' = re_tick o /\ re_id o' = re_id o.
Proof. unfold cut. destruct (_ && _); [discriminate|]. intros [= <-]. auto. Qed.
Lemma cut_keeps x : keeps_id (cut x).
Proof. intros o o' E. apply (cut_same x o o' E). Qed.
Section Early.
Context (t id : Z) (k : resting).
Definition with_cut (x : Z) (m : machine) : machine := edit1 (t, id, cut x) m.
(** The late machine has the order; [x] of it can have been claimed. *)
Definition there (x : Z) (m : machine) : Prop := exists o, find_order t id (ma_orders m) = Some o /\ core o = k /\ 0 <= x <= re_filled o.
Lemma there_all x m o : mok m -> there x m -> o ∈ ma_orders m -> is_order t id o = true -> 0 <= re_open o /\ 0 <= x <= re_filled o.
Proof.
  intros Hm (o1 & Ef & Hc & Hx) Ho Hi. pose proof (find_unique _ _ _ _ _ (mk_ids _ Hm) Ef Ho Hi) as ->. split; [apply (mk_order _ Hm _ Ho)|exact Hx].
Qed.
Lemma cut_open side x l u : open_on side (change t id (cut x) l) u = open_on side l u.
Proof.
  induction l as [|o l IH]; [reflexivity|]. unfold change. cbn [flat_map]. fold (change t id (cut x) l). unfold open_on. rewrite foldr_app. fold (open_on side (change t id (cut x) l) u). rewrite IH.
  cbn [foldr]. fold (open_on side l u). destruct (is_order t id o); [|reflexivity]. unfold cut. destruct (Z.eqb_spec (re_open o) 0) as [E|E]; cbn [andb].
  - destruct (_ =? 0); cbn [foldr]; [rewrite E; destruct (bool_decide _); reflexivity|reflexivity].
  - reflexivity.
Qed.
Lemma cut_levels side target x l : levels side target (change t id (cut x) l) = levels side target l.
Proof.
  induction l as [|o l IH]; [reflexivity|]. unfold change. cbn [flat_map]. fold (change t id (cut x) l). unfold levels. rewrite foldr_app. fold (levels side target (change t id (cut x) l)). rewrite IH.
  cbn [foldr]. fold (levels side target l). destruct (is_order t id o); [|reflexivity]. unfold cut. destruct (Z.eqb_spec (re_open o) 0) as [E|E]; cbn [andb]; [|reflexivity].
  destruct (_ =? 0); cbn [foldr]; [|reflexivity]. unfold reachable_level. rewrite E. cbn [Z.ltb Z.compare]. rewrite andb_false_r. reflexivity.
Qed.
Lemma cut_fill side x l : forall X, (forall u, 0 <= X u) -> (forall o, o ∈ l -> 0 <= re_open o) -> (forall o, o ∈ l -> is_order t id o = true -> 0 <= x <= re_filled o) ->
  fill_side side X (change t id (cut x) l) = change t id (cut x) (fill_side side X l).
Proof.
  induction l as [|o l IH]; intros X HX Hop Ho; [reflexivity|].
  assert (Hop' : forall o0, o0 ∈ l -> 0 <= re_open o0) by (intros; apply Hop; constructor; assumption).
  assert (Ho' : forall o0, o0 ∈ l -> is_order t id o0 = true -> 0 <= x <= re_filled o0) by (intros; apply Ho; [constructor|]; assumption).
  pose proof (Hop o ltac:(constructor)) as H0. pose proof (HX (re_tick o)) as H1.
  unfold change at 1. cbn [flat_map]. fold (change t id (cut x) l). cbn [fill_side]. destruct (bool_decide_reflect (re_dir o = side)) as [Ed|Ed].
  - set (a := Z.min (X (re_tick o)) (re_open o)). set (X' := fun u => if u =? re_tick o then X u - a else X u).
    assert (HX' : forall u, 0 <= X' u). { intros u. unfold X'. destruct (Z.eqb_spec u (re_tick o)) as [->|]; [unfold a; lia|apply HX]. }
    unfold change. cbn [flat_map]. fold (change t id (cut x) (fill_side side X' l)). fold (change t id (cut x) l). rewrite <- (IH X' HX' Hop' Ho').
    assert (Ei : is_order t id (set_parts o (re_open o - a) (re_filled o + a)) = is_order t id o) by reflexivity. rewrite Ei. destruct (is_order t id o) eqn:E.
    + specialize (Ho o ltac:(constructor) E). rewrite !cut_eq. cbn [set_parts re_open re_filled re_tick re_dir].
      destruct ((re_open o =? 0) && (re_filled o - x =? 0)) eqn:Ec.
      * apply andb_prop in Ec as [C1 C2]. apply Z.eqb_eq in C1, C2. assert (Ea : a = 0) by (unfold a; lia).
        rewrite (proj2 (Z.eqb_eq (re_open o - a) 0)), (proj2 (Z.eqb_eq (re_filled o + a - x) 0)) by lia. cbn [andb app].
        assert (Ex : forall u, X' u = X u) by (intros u; unfold X'; destruct (u =? re_tick o); lia).
        clearbody X'. clear -Ex. revert X X' Ex. generalize (change t id (cut x) l). clear. intros l0. induction l0 as [|o l0 IH]; intros X X' Ex; [reflexivity|]. cbn [fill_side]. rewrite Ex.
        destruct (bool_decide _); f_equal; apply IH; intros u; rewrite ?Ex; reflexivity.
      * assert (((re_open o - a =? 0) && (re_filled o + a - x =? 0)) = false) as ->.
        { apply andb_false_iff. rewrite !Z.eqb_neq. apply andb_false_iff in Ec. rewrite !Z.eqb_neq in Ec. unfold a. lia. }
        cbn [app fill_side]. cbn [set_parts re_open re_filled re_tick re_dir]. rewrite (bool_decide_true _ Ed). fold a. fold X'. f_equal. unfold set_parts. cbn. f_equal. lia.
    + cbn [app fill_side]. rewrite (bool_decide_true _ Ed). reflexivity.
  - unfold change. cbn [flat_map]. fold (change t id (cut x) (fill_side side X l)). fold (change t id (cut x) l). rewrite <- (IH X HX Hop' Ho'). destruct (is_order t id o) eqn:E; [|cbn [app fill_side]; rewrite (bool_decide_false _ Ed); reflexivity].
    rewrite !cut_eq. destruct (_ && _); [reflexivity|]. cbn [app fill_side set_parts re_dir]. rewrite (bool_decide_false _ Ed). reflexivity.
Qed.
Lemma find_fill side l : forall X o, (forall u, 0 <= X u) -> (forall o, o ∈ l -> 0 <= re_open o) -> find_order t id l = Some o ->
  exists o', find_order t id (fill_side side X l) = Some o' /\ core o' = core o /\ re_filled o <= re_filled o'.
Proof.
  induction l as [|o l IH]; intros X o1 HX Hop Hf; [discriminate|]. pose proof (Hop o ltac:(constructor)) as H0. pose proof (HX (re_tick o)) as H1.
  assert (Hop' : forall o0, o0 ∈ l -> 0 <= re_open o0) by (intros; apply Hop; constructor; assumption).
  unfold find_order in *. cbn [List.find fill_side] in *. destruct (bool_decide _).
  - cbn [List.find]. assert (Ei : is_order t id (set_parts o (re_open o - Z.min (X (re_tick o)) (re_open o)) (re_filled o + Z.min (X (re_tick o)) (re_open o))) = is_order t id o) by reflexivity. rewrite Ei.
    destruct (is_order t id o).
    + injection Hf as <-. eexists. split; [reflexivity|]. split; [unfold core, set_parts; cbn; f_equal; lia|]. cbn. lia.
    + apply IH; try assumption. intros u. destruct (Z.eqb_spec u (re_tick o)) as [->|]; [lia|apply HX].
  - cbn [List.find]. destruct (is_order t id o); [|apply IH; assumption]. injection Hf as <-. exists o. split; [reflexivity|]. split; [reflexivity|lia].
Qed.

Lemma levels_nodup side target l : NoDup (levels side target l).
Proof.
  pose proof (levels_ordered side target l) as H. induction (levels side target l) as [|u l' IH]; [constructor|]. destruct (ordered_head _ _ _ H) as (H1 & H2 & _). constructor; [exact H2|apply IH, H1].
Qed.
(** ** Other calls *)
Lemma same_there x m m' : same_for [id] m m' -> there x m -> there x m'.
Proof. intros H (o & Ef & Hc & Hx). exists o. rewrite (same_find _ _ _ _ _ H) by (left; reflexivity). auto. Qed.
Lemma cut_ok x : edits_ok [(t, id, cut x)] [id].
Proof. intros y [<-|[]]. split; [left; reflexivity|apply cut_keeps]. Qed.
Lemma names_concerns n c : names id c = false -> placing c = false -> ~ In id (concerns n c).
Proof.
  destruct c as [i y|y| |c]; try solve [intros _ _ []]. destruct y as [t' d q b|t' id'|t' id'|l|a]; cbn; try discriminate; try solve [intros _ _ []].
  - intros E _ [<-|[]]. rewrite Z.eqb_refl in E. discriminate.
  - intros E _ [<-|[]]. rewrite Z.eqb_refl in E. discriminate.
  - intros E _ Hin. apply in_map_iff in Hin as ([t' id'] & <- & Hin). cbn in *. rewrite <- not_true_iff_false in E. apply E, existsb_exists. exists (t', id'). split; [exact Hin|apply Z.eqb_refl].
Qed.
Definition settings_only (c : call) : bool := negb (managing c) && negb (is_swap c).
Lemma settings_run x e c m : settings_only c = true -> match m_run e c m with
  | Some (m', r) => m_run e c (with_cut x m) = Some (with_cut x m', r) /\ ma_orders m' = ma_orders m
  | None => m_run e c (with_cut x m) = None end.
Proof.
  unfold settings_only. destruct c as [i y|y| |c]; [destruct y; cbn; try discriminate| |cbn; auto|cbn; auto]; intros H.
  - unfold m_auth. change (ma_set (with_cut x m)) with (ma_set m). destruct (ma_set m). destruct m0;
      match goal with |- match (if ?b then _ else _) with _ => _ end => destruct b end; cbn; auto.
  - cbn [m_run]. unfold m_sudo. change (ma_set (with_cut x m)) with (ma_set m). destruct (ma_set m). destruct y; try discriminate; auto;
      match goal with |- match (if ?b then _ else _) with _ => _ end => destruct b end; cbn; auto.
Qed.
Lemma swap_run x e sender tin out mn fee target m : mok m -> there x m -> 0 <= c_amount tin -> match m_swap e sender tin out mn fee target m with
  | Some (m', r) => m_swap e sender tin out mn fee target (with_cut x m) = Some (with_cut x m', r) /\ there x m'
  | None => m_swap e sender tin out mn fee target (with_cut x m) = None end.
Proof.
  intros Hm Ht Ha. unfold m_swap. change (maker_side (with_cut x m)) with (maker_side m). change (ma_set (with_cut x m)) with (ma_set m). change (ma_orders (with_cut x m)) with (change t id (cut x) (ma_orders m)).
  destruct (maker_side m (c_denom tin) out) as [side|]; [|reflexivity]. destruct (_ && _); [|reflexivity]. rewrite cut_levels.
  rewrite (walk_ext side _ (open_on side (change t id (cut x) (ma_orders m))) (open_on side (ma_orders m))) by (intros; apply cut_open).
  destruct (walk _ _ _ _ _ _) as [[f rest]|] eqn:E; [|reflexivity]. destruct (mn <=? total_out f); [|reflexivity].
  assert (Hop : forall o, o ∈ ma_orders m -> 0 <= re_open o) by (intros o Ho; apply (mk_order _ Hm _ Ho)).
  assert (Hf : forall u, 0 <= taken_at f u).
  { intros u. eapply (walk_bounds side); [exact Ha| | | |exact E].
    - intros v Hv. apply levels_in in Hv as (o & Ho & _ & <-). apply (mk_order _ Hm _ Ho).
    - intros v _. apply open_on_nonneg, Hop.
    - apply levels_nodup. }
  split.
  - rewrite cut_fill; [reflexivity|exact Hf|exact Hop|]. intros o Ho Hi. apply (there_all x m o Hm Ht Ho Hi).
  - destruct Ht as (o & Ef & Hc & Hx). destruct (find_fill side _ (taken_at f) o Hf Hop Ef) as (o' & E' & Hc' & Hle). exists o'. split; [exact E'|]. split; [congruence|lia].
Qed.
Lemma other_step x self e c m : mok m -> there x m -> call_ok self c = true -> names id c = false ->
  let m' := fst (m_step e m c) in m_step e (with_cut x m) c = (with_cut x m', snd (m_step e m c)) /\ there x m'.
Proof.
  intros Hm Ht Hok Hn m'. destruct (managing c) eqn:Em.
  - destruct (placing c) eqn:Ep.
    + destruct (place_edits e c m _ [id] Ep (cut_ok x)) as [E1 E2]. { destruct Ht as (o & Ef & _). apply find_some in Ef as [Ho Hi]. intros [E|[]]. apply elem_of_list_In in Ho.
        destruct (mk_order _ Hm _ Ho) as (_ & _ & _ & _ & H & _). unfold is_order in Hi. apply andb_prop in Hi as [_ Hi]. apply Z.eqb_eq in Hi. lia. }
      split; [exact E1|]. eapply same_there; [exact E2|exact Ht].
    + destruct (step_local e c 0 m Em Ep) as (L & o & HL & H). pose proof (names_concerns 0 c Hn Ep) as Hnc. assert (E1 : m_step e m c = (edits L m, o)) by (apply H, same_refl).
      unfold m'. rewrite E1. cbn [fst snd]. rewrite (H (with_cut x m)).
      * split; [|eapply same_there; [|exact Ht]; eapply same_edits; [exact HL|]; intros y [<-|[]]; exact Hnc]. f_equal. unfold with_cut. apply (edits1_comm _ _ _ [id] (concerns 0 c)); [apply cut_keeps|left; reflexivity|exact HL|intros y [<-|[]]; exact Hnc].
      * apply (same_edits _ [id] [(t, id, cut x)]); [apply cut_ok|]. intros y Hy [<-|[]]. contradiction.
  - destruct (is_swap c) eqn:Es.
    + assert (Hsw : exists sender tin out mn fee target, c = swap_call sender tin out mn fee target /\ 0 <= c_amount tin).
      { destruct c as [i y|y| |c]; try discriminate. destruct y as [sender tin out mn fee|sender tin out mn fee target|? ? ? ? ?|?| |?]; try discriminate; unfold call_ok in Hok; cbn [sudo_typed] in Hok;
          apply andb_prop in Hok as [_ Hok]; repeat (apply andb_prop in Hok as [Hok _]).
        - exists sender, tin, out, mn, fee, None. split; [reflexivity|]. apply Z.leb_le, Hok.
        - exists sender, tin, out, mn, fee, (Some target). split; [reflexivity|]. apply Z.leb_le, Hok. }
      destruct Hsw as (sender & tin & out & mn & fee & target & -> & Ha). pose proof (swap_run x e sender tin out mn fee target m Hm Ht Ha) as H.
      assert (Er : forall m, m_run e (swap_call sender tin out mn fee target) m = m_swap e sender tin out mn fee target m) by (intros m0; destruct target; cbn [swap_call m_run]; unfold m_sudo; destruct (ma_set m0); reflexivity).
      unfold m'. unfold m_step. rewrite !Er. destruct (m_swap e sender tin out mn fee target m) as [[m1 r]|].
      * destruct H as [-> H]. destruct (forallb _ _); cbn [fst snd]; auto.
      * rewrite H. cbn [fst snd]. auto.
    + pose proof (settings_run x e c m) as H. unfold settings_only in H. rewrite Em, Es in H. specialize (H eq_refl). unfold m', m_step. destruct (m_run e c m) as [[m1 r]|].
      * destruct H as [-> Ho]. destruct (forallb _ _); cbn [fst snd]; [|auto]. split; [reflexivity|]. unfold there. rewrite Ho. exact Ht.
      * rewrite H. cbn [fst snd]. auto.
Qed.

(** ** Claims of the order *)
Definition worth (y : Z) : Z := match re_dir k with Ask => ask_gross y (tick_price t) | Bid => bid_gross y (tick_price t) end.
Lemma total_payment a to denom n l : total_paid (payment a to denom n ++ l) = n + total_paid l.
Proof. unfold payment. destruct (Z.eqb_spec n 0) as [->|]; reflexivity. Qed.
Lemma total_payments m sender o : total_paid (payments m sender o) = earned o.
Proof. unfold payments. rewrite !total_payment, <- (app_nil_r (payment 4 _ _ _)), total_payment. unfold owner_gets. cbn. lia. Qed.
Lemma core_earned o : is_order t id o = true -> re_dir o = re_dir k -> earned o = worth (re_filled o).
Proof. intros Hi Hk. unfold earned, worth. rewrite <- Hk. unfold is_order in Hi. apply andb_prop in Hi as [Hi _]. apply Z.eqb_eq in Hi. rewrite Hi. reflexivity. Qed.
Lemma early_claim x e i m : mok m -> there x m ->
  let '(m', o) := m_step e (with_cut x m) (CExec i (ClaimLimit t id)) in
  match o with
  | Done r => exists y, 0 < y /\ there (x + y) m /\ m' = with_cut (x + y) m /\ total_paid (r_msgs r) = worth y
  | Failed => m' = with_cut x m
  end.
Proof.
  intros Hm Ht. pose proof Ht as (o & Ef & Hc & Hx). unfold m_step. cbn [m_run]. unfold m_claim. change (ma_set (with_cut x m)) with (ma_set m). destruct (_ && _); [|reflexivity].
  unfold claim_one. change (ma_orders (with_cut x m)) with (change t id (cut x) (ma_orders m)). rewrite (find_change _ _ _ _ (mk_ids _ Hm) (cut_same x)), Ef.
  pose proof Ef as Ef'. apply find_some in Ef' as [Hin Hi]. destruct (cut x o) as [o'|] eqn:Ec; [|reflexivity]. destruct (Z.ltb_spec 0 (re_filled o')) as [Hp|]; [|reflexivity].
  destruct (forallb _ _); [|reflexivity]. unfold cut in Ec. destruct (_ && _) eqn:Eb; [discriminate|]. injection Ec as <-. cbn [set_parts re_filled] in Hp.
  exists (re_filled o - x). split; [exact Hp|]. split; [exists o; split; [exact Ef|]; split; [exact Hc|lia]|]. split.
  - unfold with_cut, edit1, with_orders. cbn. f_equal. rewrite (change_change _ _ _ _ _ (cut_same x)). apply change_ext. intros o1 Ho1 Hi1. pose proof (find_unique _ _ _ _ _ (mk_ids _ Hm) Ef Ho1 Hi1) as ->.
    unfold cut. rewrite Eb. cbn [set_parts re_open]. replace (re_filled o - (x + (re_filled o - x))) with 0 by lia. rewrite andb_true_r. reflexivity.
  - cbn [r_msgs]. rewrite total_payments. rewrite core_earned; [reflexivity|exact Hi|rewrite <- Hc; reflexivity].
Qed.
Lemma share_mono r a b : 0 <= r -> 0 <= a <= b -> 0 <= share r a <= share r b.
Proof. intros Hr Hab. unfold share, floor_div. split; [apply Z.div_pos; [nia|reflexivity]|]. apply Z.div_le_mono; [reflexivity|nia]. Qed.
Lemma owner_pos b f g : 0 <= b <= 10 ^ 16 -> 0 <= f <= 5 * 10 ^ 16 -> 0 < g -> 0 < g - share b g - share f g.
Proof.
  intros Hb Hf Hg. unfold share, floor_div. pose proof (Z.mul_div_le (g * b) ATOM ltac:(reflexivity)) as H1. pose proof (Z.mul_div_le (g * f) ATOM ltac:(reflexivity)) as H2.
  assert (g * b <= g * 10 ^ 16) by nia. assert (g * f <= g * (5 * 10 ^ 16)) by nia. unfold ATOM in *. lia.
Qed.
Lemma share_zero r : share r 0 = 0. Proof. reflexivity. Qed.
Lemma payment_ok e a to denom n : forallb (fun s => (0 <? c_amount (sm_coin s)) && e_bank_ok e (sm_to s)) (payment a to denom n) = true <-> n = 0 \/ (0 < n /\ e_bank_ok e to = true).
Proof. unfold payment. destruct (Z.eqb_spec n 0) as [->|Hn]; cbn; [intuition|]. rewrite andb_true_r, andb_true_iff, Z.ltb_lt. intuition. Qed.
Lemma smaller_payments e m sender o o' : mok m -> re_owner o' = re_owner o -> re_bounty o' = re_bounty o -> bounty_ok (re_bounty o) = true -> 0 <= earned o' <= earned o ->
  forallb (fun s => (0 <? c_amount (sm_coin s)) && e_bank_ok e (sm_to s)) (payments m sender o) = true ->
  forallb (fun s => (0 <? c_amount (sm_coin s)) && e_bank_ok e (sm_to s)) (payments m sender o') = true.
Proof.
  intros Hm E1 E3 Hb He. unfold payments. rewrite !forallb_app, !andb_true_iff, !payment_ok. unfold owner_gets, bounty_part, fee_part. rewrite E1, E3.
  set (b := match re_bounty o with Some b => b | None => 0 end). set (f := se_fee (ma_set m)).
  assert (Hbb : 0 <= b <= 10 ^ 16). { unfold b. destruct (re_bounty o) as [z|]; [|lia]. cbn [bounty_ok] in Hb. apply andb_prop in Hb as [B1 B2]. apply Z.leb_le in B1, B2. change (dec_percent 1) with (10 ^ 16) in B2. lia. }
  pose proof (mk_fee _ Hm) as Hf. fold f in Hf. destruct (share_mono b (earned o') (earned o)) as [S1 S2]; [lia|lia|]. destruct (share_mono f (earned o') (earned o)) as [S3 S4]; [lia|lia|].
  pose proof (owner_pos b f (earned o) Hbb Hf) as P1. pose proof (owner_pos b f (earned o') Hbb Hf) as P2.
  destruct (Z.eq_dec (earned o') 0) as [E0|E0]; [rewrite E0, !share_zero; intros _; split; [left; lia|]; split; left; lia|].
  assert (0 < earned o') by lia. intros (Q1 & Q2 & Q3). split; [right; split; [lia|]; destruct Q1 as [Q1|[_ Q1]]; [lia|exact Q1]|]. split.
  - destruct (Z.eq_dec (share b (earned o')) 0); [left; assumption|right]. split; [lia|]. destruct Q2 as [Q2|[_ Q2]]; [lia|exact Q2].
  - destruct (Z.eq_dec (share f (earned o')) 0); [left; assumption|right]. split; [lia|]. destruct Q3 as [Q3|[_ Q3]]; [lia|exact Q3].
Qed.
Lemma worth_mono a b : valid_tick t -> 0 <= a <= b -> 0 <= worth a <= worth b.
Proof.
  intros Hv Hab. pose proof (tick_price_pos t Hv) as Hp. unfold worth, ask_gross, bid_gross, floor_div. assert (0 < ATOM) by reflexivity.
  destruct (re_dir k); (split; [apply Z.div_pos; nia|apply Z.div_le_mono; nia]).
Qed.
(** A claim that succeeds late: what is left of it early. *)
Lemma late_claim x e i m m1 r : mok m -> there x m -> m_step e m (CExec i (ClaimLimit t id)) = (m1, Done r) ->
  exists F, 0 < F /\ there F m /\ m1 = with_cut F m /\ total_paid (r_msgs r) = worth F /\
  if x =? F then m_step e (with_cut x m) (CExec i (ClaimLimit t id)) = (m1, Failed)
  else x < F /\ exists r', m_step e (with_cut x m) (CExec i (ClaimLimit t id)) = (m1, Done r') /\ total_paid (r_msgs r') = worth (F - x).
Proof.
  intros Hm Ht. pose proof Ht as (o & Ef & Hc & Hx). unfold m_step. cbn [m_run]. unfold m_claim. change (ma_set (with_cut x m)) with (ma_set m). destruct (_ && _); [|discriminate].
  unfold claim_one. change (ma_orders (with_cut x m)) with (change t id (cut x) (ma_orders m)). rewrite (find_change _ _ _ _ (mk_ids _ Hm) (cut_same x)), Ef.
  pose proof Ef as Ef'. apply find_some in Ef' as [Hin Hi]. apply elem_of_list_In in Hin. destruct (Z.ltb_spec 0 (re_filled o)) as [Hp|]; [|discriminate]. cbn [r_msgs].
  destruct (forallb _ _) eqn:Ep; [|discriminate]. intros [= <- <-].
  assert (Ec : change t id (fun o => if re_open o =? 0 then None else Some (set_parts o (re_open o) 0)) (ma_orders m) = change t id (cut (re_filled o)) (ma_orders m)).
  { apply change_ext. intros o1 Ho1 Hi1. pose proof (find_unique _ _ _ _ _ (mk_ids _ Hm) Ef Ho1 Hi1) as ->. unfold cut. rewrite Z.sub_diag, andb_true_r. reflexivity. }
  exists (re_filled o). split; [exact Hp|]. split; [exists o; split; [exact Ef|]; split; [exact Hc|lia]|]. split; [unfold with_cut, edit1, with_orders; cbn; f_equal; exact Ec|].
  assert (Hd : re_dir o = re_dir k) by (rewrite <- Hc; reflexivity). cbn [r_msgs]. rewrite total_payments, core_earned by assumption. split; [reflexivity|]. destruct (Z.eqb_spec x (re_filled o)) as [Ex|Ex].
  - unfold cut at 1. rewrite Ex, Z.sub_diag, andb_true_r.
    assert (Eq : with_orders m (change t id (fun o => if re_open o =? 0 then None else Some (set_parts o (re_open o) 0)) (ma_orders m)) = with_cut (re_filled o) m) by (unfold with_cut, edit1, with_orders; cbn; f_equal; exact Ec).
    destruct (re_open o =? 0); [rewrite Eq; reflexivity|]. cbn [set_parts re_filled]. rewrite Eq. reflexivity.
  - assert (x < re_filled o) by lia. split; [assumption|]. unfold cut at 1. rewrite (proj2 (Z.eqb_neq (re_filled o - x) 0)), andb_false_r by lia. cbn [set_parts re_filled]. rewrite (proj2 (Z.ltb_lt 0 (re_filled o - x))) by lia.
    cbn [r_msgs]. set (o' := set_parts o (re_open o) (re_filled o - x)). change (payments (with_cut x m)) with (payments m). destruct (mk_order _ Hm _ Hin) as (M1 & M2 & M3 & M4 & M5 & M6).
    assert (Ew : earned o' = worth (re_filled o - x)) by (rewrite core_earned; [reflexivity|exact Hi|exact Hd]).
    assert (Ht' : re_tick o = t) by (unfold is_order in Hi; apply andb_prop in Hi as [Hi _]; apply Z.eqb_eq, Hi).
    rewrite (smaller_payments e m (i_sender i) o o'); try assumption; try reflexivity.
    + eexists. split.
      * apply f_equal2; [|reflexivity]. unfold with_cut, edit1, with_orders. cbn. f_equal. rewrite (change_change _ _ _ _ _ (cut_same x)). rewrite Ec. apply change_ext.
        intros o1 Ho1 Hi1. pose proof (find_unique _ _ _ _ _ (mk_ids _ Hm) Ef Ho1 Hi1) as ->. unfold cut. rewrite Z.sub_diag, (proj2 (Z.eqb_neq (re_filled o - x) 0)), andb_false_r, andb_true_r by lia. reflexivity.
      * cbn [r_msgs]. rewrite total_payments. exact Ew.
    + rewrite Ew, core_earned by assumption. apply worth_mono; [rewrite <- Ht'; exact M4|lia].
Qed.
(** Amounts claimed in parts. *)
Lemma worth_parts ys : valid_tick t -> Forall (fun y => 0 < y) ys -> ys <> [] -> sum (map worth ys) <= worth (sum ys) <= sum (map worth ys) + (Z.of_nat (length ys) - 1).
Proof.
  intros Hv. pose proof (tick_price_pos t Hv) as Hp. assert (Hadd : forall a b, worth a + worth b <= worth (a + b) <= worth a + worth b + 1).
  { intros a b. assert (HA : 0 < ATOM) by reflexivity. unfold worth, ask_gross, bid_gross, floor_div.
    assert (G : forall u v n, 0 < n -> u / n + v / n <= (u + v) / n <= u / n + v / n + 1).
    { intros u v n Hn. pose proof (Z.div_mod u n ltac:(lia)). pose proof (Z.div_mod v n ltac:(lia)). pose proof (Z.mod_pos_bound u n Hn). pose proof (Z.mod_pos_bound v n Hn).
      split; [apply Z.div_le_lower_bound; nia|]. apply Z.lt_succ_r, Z.div_lt_upper_bound; nia. }
    destruct (re_dir k); rewrite Z.mul_add_distr_r; apply G; assumption. }
  induction ys as [|y ys IH]; intros Hy Hne; [congruence|]. apply Forall_cons in Hy as [Hy Hys]. destruct ys as [|y' ys].
  - cbn. rewrite !Z.add_0_r. lia.
  - specialize (IH Hys ltac:(discriminate)). specialize (Hadd y (sum (y' :: ys))). cbn [map sum foldr length] in *. fold (sum (map worth ys)) in *. fold (sum ys) in *. lia.
Qed.
End Early.

(** ** Histories *)
Lemma filter_mid t id h e c : without_claims t id ((e, c) :: h) = if is_claim_of t id c then without_claims t id h else (e, c) :: without_claims t id h.
Proof. unfold without_claims. cbn [List.filter snd]. destruct (is_claim_of t id c); reflexivity. Qed.
Lemma early_history w0 t id k mid : forall h x, start w0 -> history w0 (h ++ without_claims t id mid) -> short (h ++ without_claims t id mid) ->
  (forall e c, (e, c) ∈ mid -> is_claim_of t id c = false -> names id c = false) ->
  let m := abs (w_st (run w0 h)) (ideal_run w0 [] h) in there t id k x m ->
  let me := with_cut t id x m in let rest := without_claims t id mid in
  exists ys, Forall (fun y => 0 < y) ys /\ there t id k (x + sum ys) (m_after m rest) /\ m_after me mid = with_cut t id (x + sum ys) (m_after m rest) /\
    m_outcomes m rest = other_outcomes t id mid (m_outcomes me mid) /\
    map (fun r => total_paid (r_msgs r)) (claim_answers t id mid (m_outcomes me mid)) = map (worth t k) ys.
Proof.
  induction mid as [|[e c] mid IH]; intros h x Hs Hh Hsh Hn m Ht me rest.
  - exists []. cbn. rewrite Z.add_0_r. repeat split; try assumption. constructor.
  - assert (Hn' : forall e c, (e, c) ∈ mid -> is_claim_of t id c = false -> names id c = false) by (intros e0 c0 H0; apply (Hn e0); constructor; exact H0).
    pose proof Hh as Hh1. apply history_app in Hh1 as [Hh1 _]. destruct (run_good _ _ Hs Hh1) as (G & Hg). pose proof (good_mok _ _ _ Hg) as Hm. fold m in Hm.
    unfold rest. rewrite filter_mid in Hh, Hsh |- *. cbn [m_outcomes m_after other_outcomes claim_answers].
    destruct (is_claim_of t id c) eqn:Ec.
    + destruct c as [i y|y| |c]; try discriminate. destruct y as [t' d q b|t' id'|t' id'|l|a]; try discriminate. cbn in Ec. apply andb_prop in Ec as [E1 E2]. apply Z.eqb_eq in E1, E2. subst t' id'.
      pose proof (early_claim t id k x e i m Hm Ht) as Hc. fold me in Hc. destruct (m_step e me _) as [m' [r|]] eqn:Es; cbn [fst snd].
      * destruct Hc as (y & Hy & Ht' & -> & Er). destruct (IH h (x + y) Hs Hh Hsh Hn' Ht') as (ys & Y1 & Y2 & Y3 & Y4 & Y5). exists (y :: ys). cbn [sum foldr app map]. fold (sum ys). rewrite Z.add_assoc.
        split; [constructor; assumption|]. split; [exact Y2|]. split; [exact Y3|]. split; [exact Y4|]. f_equal; [exact Er|exact Y5].
      * subst m'. destruct (IH h x Hs Hh Hsh Hn' Ht) as (ys & Y). exists ys. exact Y.
    + assert (Hok : call_ok (w_self (run w0 h)) c = true). { apply history_app in Hh as [_ Hh]. apply Forall_cons in Hh as [Hok _]. exact Hok. }
      pose proof (Hn e c ltac:(constructor) Ec) as Hnc. destruct (other_step t id k x _ e c m Hm Ht Hok Hnc) as [Es Ht']. fold me in Es. rewrite Es. cbn [fst snd m_outcomes m_after].
      pose proof (machine_step e w0 h c Hs Hh1 (short_app _ _ Hsh) Hok) as Em. cbv zeta in Em. fold m in Em.
      rewrite cons_middle, app_assoc in Hh, Hsh.
      assert (Ea : abs (w_st (run w0 (h ++ [(e, c)]))) (ideal_run w0 [] (h ++ [(e, c)])) = fst (m_step e m c)) by (rewrite run_app, ideal_run_app; cbn [run ideal_run]; rewrite Em; reflexivity).
      specialize (IH (h ++ [(e, c)]) x Hs Hh Hsh Hn'). cbv zeta in IH. rewrite Ea in IH. destruct (IH Ht') as (ys & Y1 & Y2 & Y3 & Y4 & Y5).
      exists ys. cbn [app]. split; [exact Y1|]. split; [exact Y2|]. split; [exact Y3|]. split; [f_equal; exact Y4|exact Y5].
Qed.

Lemma find_change_other t id f t' id' l : (t', id') <> (t, id) -> (forall o o', f o = Some o' -> re_tick o' = re_tick o /\ re_id o' = re_id o) -> find_order t' id' (change t id f l) = find_order t' id' l.
Proof.
  intros Hne Hf. induction l as [|o l IH]; [reflexivity|]. unfold find_order, change. cbn [flat_map List.find]. fold (change t id f l).
  destruct (is_order t id o) eqn:E.
  - assert (E0 : is_order t' id' o = false).
    { unfold is_order in *. apply andb_prop in E as [E1 E2]. apply Z.eqb_eq in E1, E2. subst. apply andb_false_iff. rewrite !Z.eqb_neq. destruct (Z.eq_dec (re_tick o) t'); [right|left; assumption]. intros E. apply Hne. congruence. }
    rewrite E0. destruct (f o) as [o'|] eqn:Ef; cbn [app List.find]; [|apply IH]. destruct (Hf _ _ Ef) as [H1 H2].
    assert (is_order t' id' o' = false) as -> by (unfold is_order in *; rewrite H1, H2; exact E0). apply IH.
  - cbn [app List.find]. destruct (is_order t' id' o); [reflexivity|apply IH].
Qed.
Lemma shows_alike_but t id x s s' m : shows s (with_cut t id x m) -> shows s' m -> alike_but t id s s'.
Proof.
  intros [A1 A2 A3 A4 A5 A6 A7 A8] [B1 B2 B3 B4 B5 B6 B7 B8]. cbn [with_cut edit1 with_orders ma_quote ma_base ma_set ma_next ma_orders fst snd] in *.
  assert (Ht : forall s d, (exists ob, s_orderbook s = Some ob /\ ob_quote ob = ma_quote m /\ ob_base ob = ma_base m) -> deposit_denom s d = deposit_of m d).
  { intros y d (ob & E & E1 & E2). unfold deposit_denom. rewrite E. destruct d; assumption. }
  split.
  - intros d. rewrite (Ht s d A1), (Ht s' d B1). reflexivity.
  - unfold active. change (unwrap_or (s_active s) true) with (match s_active s with Some b => b | None => true end). change (unwrap_or (s_active s') true) with (match s_active s' with Some b => b | None => true end). congruence.
  - congruence.
  - congruence.
  - intros t' id' Hne. pose proof (find_change_other t id (cut x) t' id' (ma_orders m) Hne (cut_same x)) as Hf.
    destruct (s_orders s !! (t', id')) as [o|] eqn:E, (s_orders s' !! (t', id')) as [o'|] eqn:E'; cbn [option_map]; try reflexivity.
    + destruct (A4 _ _ _ E) as (r & Hr & D). destruct (B4 _ _ _ E') as (r' & Hr' & D'). rewrite Hf, Hr' in Hr. injection Hr as <-. unfold visible. congruence.
    + destruct (A4 _ _ _ E) as (r & Hr & D). rewrite Hf, (B5 _ _ E') in Hr. discriminate.
    + destruct (B4 _ _ _ E') as (r & Hr & D). rewrite <- Hf, (A5 _ _ E) in Hr. discriminate.
  - intros u d. specialize (A8 u d). specialize (B8 u d). rewrite cut_open, <- B8 in A8. unfold tick_liquidity. unfold get_values.
    destruct (s_ticks s !! u), (s_ticks s' !! u); rewrite ?A8; try reflexivity. rewrite <- A8. reflexivity.
Qed.
Lemma quote_cut t id x m tin out : m_quote tin out (with_cut t id x m) = m_quote tin out m.
Proof.
  unfold m_quote. change (maker_side (with_cut t id x m)) with (maker_side m). change (ma_orders (with_cut t id x m)) with (change t id (cut x) (ma_orders m)).
  destruct (maker_side m (c_denom tin) out) as [side|]; [|reflexivity]. destruct (_ =? 0); [reflexivity|]. rewrite cut_levels.
  rewrite (walk_ext side _ (open_on side (change t id (cut x) (ma_orders m))) (open_on side (ma_orders m))) by (intros; apply cut_open). reflexivity.
Qed.
Lemma cut_none t id m k : mok m -> there t id k 0 m -> with_cut t id 0 m = m.
Proof.
  intros Hm _. unfold with_cut, edit1, with_orders. destruct m as [q b st n l]. cbn in *. f_equal. apply change_id. intros o Ho _. destruct (mk_order _ Hm _ Ho) as (H1 & H2 & H3 & _). unfold cut.
  rewrite Z.sub_0_r. destruct (Z.eqb_spec (re_open o) 0); [rewrite (proj2 (Z.eqb_neq (re_filled o) 0)) by lia|]; cbn [andb]; destruct o; reflexivity.
Qed.
Lemma m_outcomes_length h : forall m, length (m_outcomes m h) = length h.
Proof. induction h as [|[e c] h IH]; intros m; cbn; [reflexivity|]. f_equal. apply IH. Qed.
Lemma m_after_app h1 h2 : forall m, m_after m (h1 ++ h2) = m_after (m_after m h1) h2.
Proof. induction h1 as [|[e c] h1 IH]; intros m; cbn; [reflexivity|]. apply IH. Qed.
Lemma claim_answers_app t id h1 h2 : forall os1 os2, length os1 = length h1 -> claim_answers t id (h1 ++ h2) (os1 ++ os2) = claim_answers t id h1 os1 ++ claim_answers t id h2 os2.
Proof.
  induction h1 as [|[e c] h1 IH]; intros [|o os1] os2 Hl; try discriminate; [reflexivity|]. cbn [app claim_answers]. rewrite IH by (cbn in Hl; lia). rewrite app_assoc. reflexivity.
Qed.
Lemma net_claims self t id h denom : forall os, length os = length h -> (forall e c o r, (e, c, o) ∈ combine h os -> is_claim_of t id c = true -> o = Done r -> call_funds c = []) ->
  net self h os denom + sum (map (fun r => leaving self (r_msgs r) denom) (claim_answers t id h os)) = net self (without_claims t id h) (other_outcomes t id h os) denom.
Proof.
  induction h as [|[e c] h IH]; intros [|o os] Hl Hf; try discriminate; [reflexivity|]. rewrite filter_mid. cbn [net other_outcomes claim_answers].
  specialize (IH os ltac:(cbn in Hl; lia) ltac:(intros e0 c0 o0 r0 H0; apply (Hf e0 c0 o0 r0); cbn [combine]; constructor; exact H0)).
  destruct (is_claim_of t id c) eqn:Ec.
  - cbn [app]. destruct o as [r|]; cbn [app map sum foldr]; fold (sum (map (fun r => leaving self (r_msgs r) denom) (claim_answers t id h os))); [|lia].
    rewrite (Hf e c (Done r) r ltac:(constructor) Ec eq_refl). cbn [received foldr]. lia.
  - cbn [app net]. lia.
Qed.
Lemma all_outcomes_length h : forall w, length (all_outcomes w h) = length h.
Proof. induction h as [|[e c] h IH]; intros w; cbn; [reflexivity|]. f_equal. apply IH. Qed.
Lemma m_claims_free m t id h : forall e c o r, (e, c, o) ∈ combine h (m_outcomes m h) -> is_claim_of t id c = true -> o = Done r -> call_funds c = [].
Proof.
  revert m. induction h as [|[e c] h IH]; intros m e0 c0 o r Hin Hc Ho; cbn [m_outcomes combine] in Hin; [inversion Hin|]. apply elem_of_cons in Hin as [E|Hin]; [|eapply IH; eassumption].
  injection E as -> -> ->. destruct c as [i y|y| |c]; try discriminate. destruct y as [t' d q b|t' id'|t' id'|l|a]; try discriminate. unfold m_step in Ho. cbn [m_run] in Ho. unfold m_claim in Ho.
  cbn [call_funds]. unfold no_funds in Ho. destruct (i_funds i); [reflexivity|]. rewrite andb_false_r in Ho. discriminate.
Qed.

(** ** C73 *)
Lemma without_history w0 h t id mid : history w0 (h ++ mid) -> history w0 (h ++ without_claims t id mid).
Proof.
  intros H. apply history_app in H as [H1 H2]. apply history_app. split; [exact H1|]. unfold history, without_claims in *. rewrite Forall_forall in *. intros x Hx. apply H2.
  apply elem_of_list_In, filter_In in Hx as [Hx _]. apply elem_of_list_In, Hx.
Qed.
Lemma without_short h t id mid : short (h ++ mid) -> short (h ++ without_claims t id mid).
Proof.
  unfold short. rewrite !app_length. assert ((length (without_claims t id mid) <= length mid)%nat); [|lia]. unfold without_claims. induction mid as [|x mid IH]; [reflexivity|]. cbn [List.filter]. destruct (negb _); cbn [length]; lia.
Qed.
Lemma there_start w0 h t id o G : good (run w0 h) G (ideal_run w0 [] h) -> order_of (w_st (run w0 h)) t id = Some o ->
  exists k, there t id k 0 (abs (w_st (run w0 h)) (ideal_run w0 [] h)) /\ (re_tick k, re_id k, re_dir k, re_owner k, re_open k, re_bounty k, re_placed k, re_time k) = visible o.
Proof.
  intros Hg Ho. destruct (shows_abs _ _ _ Hg) as [_ _ _ A4 _ A6 _ _]. destruct (A4 t id o Ho) as (r & Er & D). exists (core r). split.
  - exists r. split; [exact Er|]. split; [reflexivity|]. apply find_some in Er as [Hr _]. apply elem_of_list_In in Hr. destruct (A6 r Hr). lia.
  - unfold visible. cbn. congruence.
Qed.
Theorem C73_nobody_else_notices :
  forall w0 h mid t id o, let w := run w0 h in let mid' := without_claims t id mid in let a := run w mid in let b := run w mid' in
  start w0 -> history w0 (h ++ mid) -> short (h ++ mid) -> order_of (w_st w) t id = Some o ->
  (forall e c, (e, c) ∈ mid -> is_claim_of t id c = false -> names id c = false) ->
  all_outcomes w mid' = other_outcomes t id mid (all_outcomes w mid) /\
  alike_but t id (w_st a) (w_st b) /\
  (exists o', order_of (w_st b) t id = Some o' /\ visible o' = visible o /\
     forall o1, order_of (w_st a) t id = Some o1 -> identity o1 = identity o /\ o_quantity o1 <= o_quantity o) /\
  (forall tin out answer, coin_typed tin = true ->
     (calc_out_amount_given_in (w_st a) tin out 0 = Ok answer <-> calc_out_amount_given_in (w_st b) tin out 0 = Ok answer)) /\
  forall denom, balance b denom = balance a denom + sum (map (fun r => leaving (w_self w) (r_msgs r) denom) (claim_answers t id mid (all_outcomes w mid))).
Proof.
  intros w0 h mid t id o w mid' a b Hs Hh Hsh Ho Hn.
  pose proof (without_history w0 h t id mid Hh) as Hh'. pose proof (without_short h t id mid Hsh) as Hsh'. fold mid' in Hh', Hsh'.
  pose proof Hh as Hh0. apply history_app in Hh0 as [Hh0 _]. destruct (run_good _ _ Hs Hh0) as (G & Hg). destruct (there_start _ _ _ _ _ _ Hg Ho) as (k & Ht & Hk).
  destruct (machine_history w0 mid h Hs Hh Hsh) as [O1 A1]. destruct (machine_history w0 mid' h Hs Hh' Hsh') as [O2 A2].
  destruct (early_history w0 t id k mid h 0 Hs Hh' Hsh' Hn Ht) as (ys & Y1 & Y2 & Y3 & Y4 & Y5). rewrite (cut_none _ _ _ _ (good_mok _ _ _ Hg) Ht) in *. fold w in O1, A1, O2, A2, Y2, Y3, Y4, Y5. fold mid' in Y2, Y3, Y4.
  set (m := abs (w_st w) (ideal_run w0 [] h)) in *. rewrite O1, O2 in Y4. rewrite O1 in Y5. rewrite A1 in Y3. rewrite A2 in Y2, Y3. rewrite run_app in Y3. fold w a in Y3. rewrite run_app in Y2, Y3. fold w b in Y2, Y3.
  destruct (short_ready _ _ Hs Hh Hsh) as (Ga & Ra). destruct (short_ready _ _ Hs Hh' Hsh') as (Gb & Rb). rewrite run_app in Ra, Rb. fold w a in Ra. fold w b in Rb.
  pose proof (shows_abs _ _ _ (rd_good _ _ _ Ra)) as Sa. pose proof (shows_abs _ _ _ (rd_good _ _ _ Rb)) as Sb. set (x := 0 + sum ys) in *. set (ma := abs (w_st a) _) in *. set (mb := abs (w_st b) _) in *.
  split; [exact Y4|]. split; [rewrite Y3 in Sa; eapply shows_alike_but; eassumption|]. split; [|split].
  - destruct Y2 as (r & Er & Ek & Hx). destruct (s_orders (w_st b) !! (t, id)) as [o'|] eqn:E'; [|rewrite (sh_none _ _ Sb _ _ E') in Er; discriminate].
    exists o'. split; [exact E'|]. destruct (sh_order _ _ Sb _ _ _ E') as (r' & Er' & D'). rewrite Er in Er'. injection Er' as <-. subst k. cbn in Hk.
    assert (Hv' : visible o' = visible o) by (unfold visible in *; congruence). split; [exact Hv'|]. intros o1 E1. destruct (sh_order _ _ Sa _ _ _ E1) as (r1 & Er1 & D1). rewrite Y3 in Er1. cbn [with_cut edit1 with_orders ma_orders fst snd] in Er1.
    rewrite (find_change _ _ _ _ (sh_ids _ _ Sb) (cut_same x)), Er in Er1. unfold cut in Er1. destruct (_ && _); [discriminate|]. injection Er1 as <-. cbn in D1. split; [unfold identity, visible in *; congruence|].
    assert (o_quantity o1 = re_open r + (re_filled r - x)) by congruence. assert (o_quantity o' = re_open r + re_filled r) by congruence. assert (o_quantity o' = o_quantity o) by (unfold visible in Hv'; congruence). lia.
  - intros tin out answer Hty. assert (Hamt : 0 <= c_amount tin <= U128_MAX). { unfold coin_typed, u128 in Hty. apply andb_prop in Hty as [T1 T2]. apply Z.leb_le in T1, T2. auto. }
    pose proof (quote_machine _ _ _ tin out Ra Hamt) as Qa. pose proof (quote_machine _ _ _ tin out Rb Hamt) as Qb. fold ma in Qa. fold mb in Qb. rewrite Y3, quote_cut in Qa.
    destruct (m_quote tin out mb); [rewrite Qa, Qb; reflexivity|]. split; intros H; exfalso; [eapply Qa|eapply Qb]; exact H.
  - intros denom. unfold a, b. rewrite !balance_net. rewrite Y4. unfold mid'. rewrite <- net_claims; [lia|apply all_outcomes_length|]. rewrite <- O1. apply m_claims_free.
Qed.
Print Assumptions C73_nobody_else_notices.
Theorem C73_late_claim :
  forall w0 h mid e i t id o b' r, let w := run w0 h in let c := CExec i (ClaimLimit t id) in
  let b := run w (without_claims t id mid) in let all := mid ++ [(e, c)] in let a' := run w all in
  let answers := claim_answers t id all (all_outcomes w all) in
  start w0 -> history w0 (h ++ all) -> short (h ++ all) -> order_of (w_st w) t id = Some o ->
  (forall e c, (e, c) ∈ mid -> is_claim_of t id c = false -> names id c = false) ->
  step e b c = (b', Done r) ->
  alike (w_st a') (w_st b') /\
  let early := sum (map (fun r => total_paid (r_msgs r)) answers) in
  early <= total_paid (r_msgs r) <= early + (Z.of_nat (length answers) - 1).
Proof.
  intros w0 h mid e i t id o b' r w c b all a' answers Hs Hh Hsh Ho Hn Est.
  assert (Hhm : history w0 (h ++ mid)) by (unfold all in Hh; rewrite app_assoc in Hh; apply history_app in Hh as [Hh _]; exact Hh).
  assert (Hshm : short (h ++ mid)) by (unfold all in Hsh; rewrite app_assoc in Hsh; eapply short_app, Hsh).
  pose proof (without_history w0 h t id mid Hhm) as Hh'. pose proof (without_short h t id mid Hshm) as Hsh'. set (mid' := without_claims t id mid) in *.
  pose proof Hh as Hh0. apply history_app in Hh0 as [Hh0 _]. destruct (run_good _ _ Hs Hh0) as (G & Hg). destruct (there_start _ _ _ _ _ _ Hg Ho) as (k & Ht & Hk).
  destruct (machine_history w0 all h Hs Hh Hsh) as [O1 A1]. destruct (machine_history w0 mid' h Hs Hh' Hsh') as [O2 A2].
  destruct (early_history w0 t id k mid h 0 Hs Hh' Hsh' Hn Ht) as (ys & Y1 & Y2 & Y3 & Y4 & Y5). rewrite (cut_none _ _ _ _ (good_mok _ _ _ Hg) Ht) in *. fold w in O1, A1, O2, A2, Y2, Y3, Y4, Y5. fold mid' in Y2, Y3, Y4.
  set (m := abs (w_st w) (ideal_run w0 [] h)) in *. unfold answers. rewrite <- O1. unfold all. rewrite m_outcomes_app, claim_answers_app by apply m_outcomes_length. rewrite map_app, Y5.
  assert (El : length (claim_answers t id mid (m_outcomes m mid)) = length ys) by (apply (f_equal (@length Z)) in Y5; rewrite !map_length in Y5; exact Y5).
  unfold all in A1. rewrite m_after_app in A1. rewrite Y3 in *. rewrite A2 in *. clear O1 O2 Y3 Y4 Y5.
  destruct (run_good _ _ Hs Hh') as (Gb & Hgb). pose proof (good_mok _ _ _ Hgb) as Hmb.
  assert (Hok : call_ok (w_self (run w0 (h ++ mid'))) c = true). { unfold all in Hh. rewrite app_assoc in Hh. apply history_app in Hh as [_ Hh]. apply Forall_cons in Hh as [Hok _]. cbn [snd] in Hok. rewrite run_self in Hok |- *. exact Hok. }
  pose proof (machine_step e w0 (h ++ mid') c Hs Hh' Hsh' Hok) as Em. cbv zeta in Em.
  assert (Eb : run w0 (h ++ mid') = b) by (unfold b, w; apply run_app). rewrite Eb in *. rewrite Est in Em. cbn [fst snd] in Em. set (x := 0 + sum ys) in *. set (mb := abs (w_st b) _) in *.
  destruct (late_claim t id k x e i mb _ r Hmb Y2 Em) as (F & HF & HtF & Emb & Er & Hcase).
  assert (Hv : valid_tick t). { destruct Y2 as (r0 & Er0 & _). apply find_some in Er0 as [Hin Hi0]. apply elem_of_list_In in Hin. destruct (mk_order _ Hmb _ Hin) as (_ & _ & _ & V & _). unfold is_order in Hi0. apply andb_prop in Hi0 as [Hi0 _]. apply Z.eqb_eq in Hi0. rewrite <- Hi0. exact V. }
  assert (Hgood : exists G', good b' G' (ideal_step e b c (ideal_run w0 [] (h ++ mid')))).
  { assert (Hhb : history w0 ((h ++ mid') ++ [(e, c)])). { apply history_app. split; [exact Hh'|]. rewrite Eb. constructor; [cbn; exact Hok|constructor]. }
    destruct (run_good _ _ Hs Hhb) as (G' & Hg'). rewrite run_app, ideal_run_app, Eb in Hg'. cbn [run ideal_run] in Hg'. rewrite Est in Hg'. exists G'. exact Hg'. }
  destruct Hgood as (G' & Hg'). destruct (run_good _ _ Hs Hh) as (Ga & Hga). apply shows_abs in Hg', Hga.
  unfold all in Hga. rewrite <- A1 in Hga. cbn [m_after] in Hga. assert (Ea : run w0 (h ++ mid ++ [(e, c)]) = a') by (unfold a', w, all; apply run_app). rewrite Ea in Hga.
  cbn [m_outcomes claim_answers]. assert (Ec : is_claim_of t id c = true) by (cbn; rewrite !Z.eqb_refl; reflexivity). rewrite Ec. fold c in Hcase.
  destruct (Z.eqb_spec x F) as [Ex|Ex].
  - rewrite Hcase in Hga |- *. cbn [fst snd app map] in *. split; [eapply shows_alike; eassumption|]. rewrite !app_nil_r. cbv zeta. rewrite Er.
    assert (Hne : ys <> []) by (intros ->; cbn in x; unfold x in Ex; lia). pose proof (worth_parts t k ys Hv Y1 Hne) as W. rewrite <- Ex. unfold x. rewrite Z.add_0_l.
    rewrite El. exact W.
  - destruct Hcase as (Hlt & r' & Es & Er'). rewrite Es in Hga |- *. cbn [fst snd app map] in *. split; [eapply shows_alike; eassumption|]. cbv zeta. rewrite Er.
    pose proof (worth_parts t k (ys ++ [F - x]) Hv) as W. rewrite map_app in W. cbn [map] in W.
    assert (Hy : Forall (fun y => 0 < y) (ys ++ [F - x])) by (apply Forall_app; split; [exact Y1|repeat constructor; lia]). specialize (W Hy ltac:(destruct ys; discriminate)).
    rewrite !app_length in *. cbn [length] in *. rewrite El, Er'. assert (Es' : sum (ys ++ [F - x]) = F). { unfold sum. rewrite foldr_app. cbn [foldr]. rewrite Z.add_0_r.
      assert (Hf : forall l z, foldr Z.add z l = foldr Z.add 0 l + z) by (induction l as [|y l IH]; intros z; cbn [foldr]; [lia|rewrite IH; lia]). rewrite Hf. unfold x, sum. lia. }
    rewrite Es' in W. exact W.
Qed.
Print Assumptions C73_late_claim.
(** A case: an ask at price 1.1 that is filled in three pieces; it is claimed after each piece, or only at the end.  The claims pay 106 each,
    the late claim 320. *)
Definition hist_early : list (env * call) := [place "d" 100000 Ask 1000 (Some (10 ^ 16)); buy "y" 107].
Definition mid_early : list (env * call) := [claim "z" 100000 0; place "n" 0 Bid 40 None; buy "y" 107; claim "z" 100000 0; claim "z" 100000 0; cancel "n" 0 1; buy "y" 107].
Example C73_case :
  let w := run w_start hist_early in let c := claim "z" 100000 0 in let rest := without_claims 100000 0 mid_early in
  start w_start /\ history w_start (hist_early ++ mid_early ++ [c]) /\ order_of (w_st w) 100000 0 <> None /\
  forallb (fun ec => is_claim_of 100000 0 (snd ec) || negb (names 0 (snd ec))) mid_early = true /\
  run_out w (mid_early ++ [c]) = [true; true; true; true; false; true; true; true] /\ run_out w (rest ++ [c]) = [true; true; true; true; true] /\
  map (fun r => total_paid (r_msgs r)) (claim_answers 100000 0 (mid_early ++ [c]) (all_outcomes w (mid_early ++ [c]))) = [106; 106; 106] /\
  match snd (step (fst c) (run w rest) (snd c)) with Done r => total_paid (r_msgs r) = 320 | Failed => False end.
Proof.
  cbv zeta. split; [apply start_ok|]. split; [hist|]. split; [vm_compute; discriminate|]. split; [reflexivity|]. split; [vm_compute; reflexivity|]. split; [vm_compute; reflexivity|]. split; [vm_compute; reflexivity|vm_compute; reflexivity].
Qed.
