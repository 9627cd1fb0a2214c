(** * Refine: the contract refines the ideal first-in-first-out book. *)
From Verif Require Import Base Dec Types State TickMath Sumtree Tick Order Auth Contract World SpecMath TickMathProofs
  TreeDefs Exec SumtreeProofs SumtreeRebalance SumtreeInsert PrefixSum SumtreeRoot SumtreeFail Ghost Inv StepPlace StepCancel StepClaim SwapPlan StepSwap Trans Spec Reach.

Definition at_side (t : Z) (d : dir) (e : entry) : bool := bool_decide (en_tick e = t /\ en_dir e = d).
Definition proj1e (t : Z) (d : dir) (e : entry) : list (Z * Z * Z) :=
  if at_side t d e && en_live e then [(en_id e, en_open e, en_filled e)] else [].
Definition proj (t : Z) (d : dir) (Q : ideal) : list (Z * Z * Z) := flat_map (proj1e t d) Q.
Definition view1 (F : Z) (x : Z * (Z * Z * Z)) : Z * Z * Z :=
  (x.1, x.2.2 - fifo F x.2.1.1 x.2.2, fifo F x.2.1.1 x.2.2).
Definition qview (g : side) : list (Z * Z * Z) := map (view1 (g_F g)) (g_lives g).

Record entry_ok (s : storage) (e : entry) : Prop := {
  eo_id : 0 <= en_id e < next_id s;
  eo_open : 0 <= en_open e;
  eo_filled : 0 <= en_filled e;
  eo_settled : 0 <= en_settled e;
  eo_refunded : 0 <= en_refunded e;
  eo_placed : 0 < en_placed e <= U128_MAX;
  eo_sum : en_placed e = en_open e + en_filled e + en_settled e + en_refunded e;
  eo_bounty : bounty_ok (en_bounty e) = true;
  eo_tick : valid_tick (en_tick e)
}.
(** What the entry says about the order, apart from the quantities. *)
Definition same_data (t id : Z) (o : limit_order) (e : entry) : Prop :=
  en_tick e = t /\ en_id e = id /\ en_dir e = o_dir o /\ en_owner e = o_owner o /\ en_bounty e = o_bounty o /\
  en_time e = o_placed_at o /\ en_placed e = o_placed_quantity o.
Record refines (s : storage) (G : ghost) (Q : ideal) : Prop := {
  rf_view : forall t d, proj t d Q = qview (G t d);
  rf_ids : StronglySorted Z.lt (map en_id Q);
  rf_entry : forall e, e ∈ Q -> entry_ok s e;
  rf_data : forall t id o, s_orders s !! (t, id) = Some o -> exists e, e ∈ Q /\ same_data t id o e
}.

(** ** Lists *)
Lemma ids_inj Q e e' : StronglySorted Z.lt (map en_id Q) -> e ∈ Q -> e' ∈ Q -> en_id e = en_id e' -> e = e'.
Proof.
  induction Q as [|a Q IH]; [intros _ H; inversion H|]. cbn [map]. intros Hs He He' E.
  apply StronglySorted_inv in Hs as [Hs Ha]. rewrite Forall_forall in Ha.
  apply elem_of_cons in He as [->|He]; apply elem_of_cons in He' as [->|He']; [reflexivity| | |auto].
  - specialize (Ha (en_id e') ltac:(apply elem_of_list_fmap; eauto)). lia.
  - specialize (Ha (en_id e) ltac:(apply elem_of_list_fmap; eauto)). lia.
Qed.
Lemma at_side_true t d e : at_side t d e = true <-> en_tick e = t /\ en_dir e = d.
Proof. unfold at_side. apply bool_decide_eq_true. Qed.
Lemma proj_elem t d Q id a b :
  (id, a, b) ∈ proj t d Q <-> exists e, e ∈ Q /\ en_tick e = t /\ en_dir e = d /\ en_id e = id /\ en_open e = a /\ en_filled e = b /\ 0 < a + b.
Proof.
  unfold proj. rewrite elem_of_list_In, in_flat_map. split.
  - intros (e & He & Hx). unfold proj1e in Hx. destruct (at_side t d e && en_live e) eqn:E; [|destruct Hx].
    apply andb_prop in E as [E1 E2]. apply at_side_true in E1 as [E1 E1']. unfold en_live in E2. apply Z.ltb_lt in E2.
    destruct Hx as [[= <- <- <-]|[]]. exists e. rewrite elem_of_list_In. auto 10.
  - intros (e & He & E1 & E2 & <- & <- & <- & Hp). exists e. rewrite <- elem_of_list_In. split; [assumption|].
    unfold proj1e, en_live. rewrite (proj2 (at_side_true t d e)) by auto. cbn [andb].
    destruct (Z.ltb_spec 0 (en_open e + en_filled e)); [left; reflexivity|lia].
Qed.
Lemma qview_elem g id a b :
  (id, a, b) ∈ qview g <-> exists n c q, (id, (n, c, q)) ∈ g_lives g /\ b = fifo (g_F g) n q /\ a = q - fifo (g_F g) n q.
Proof.
  unfold qview. rewrite elem_of_list_fmap. split.
  - intros ([id' [[n c] q]] & E & H). cbn in E. injection E as -> -> ->. eauto 10.
  - intros (n & c & q & H & -> & ->). exists (id, (n, c, q)). auto.
Qed.

(** ** Orders and live entries *)
Section R.
  Context (s : storage) (G : ghost) (Q : ideal).
  Hypothesis Hi : inv s G.
  Hypothesis Hr : refines s G Q.

  Lemma entry_of t id o n c :
    s_orders s !! (t, id) = Some o -> (id, (n, c, o_quantity o)) ∈ g_lives (G t (o_dir o)) ->
    exists e, e ∈ Q /\ same_data t id o e /\ en_open e = o_quantity o - fifo (g_F (G t (o_dir o))) n (o_quantity o) /\
      en_filled e = fifo (g_F (G t (o_dir o))) n (o_quantity o).
  Proof.
    intros Eo Hl. destruct (rf_data _ _ _ Hr _ _ _ Eo) as (e & He & Hd). exists e. split; [assumption|]. split; [assumption|].
    assert (Hv : (id, o_quantity o - fifo (g_F (G t (o_dir o))) n (o_quantity o), fifo (g_F (G t (o_dir o))) n (o_quantity o)) ∈ proj t (o_dir o) Q).
    { rewrite (rf_view _ _ _ Hr). apply qview_elem. eauto 10. }
    apply proj_elem in Hv as (e' & He' & A1 & A2 & A3 & A4 & A5 & _).
    destruct Hd as (B1 & B2 & B3 & _). assert (e' = e) as -> by (eapply (ids_inj Q); [apply (rf_ids _ _ _ Hr)|assumption|assumption|congruence]).
    auto.
  Qed.
  Lemma entry_order t id o : s_orders s !! (t, id) = Some o ->
    exists e, e ∈ Q /\ same_data t id o e /\ en_open e + en_filled e = o_quantity o /\ en_live e = true.
  Proof.
    intros Eo. pose proof (i_order _ _ Hi _ _ Eo) as Ho. destruct (oo_live _ _ _ _ Ho) as (n & c & Hl & _). cbn [fst snd] in Hl.
    destruct (entry_of _ _ _ _ _ Eo Hl) as (e & A1 & A2 & A3 & A4). exists e. split; [assumption|]. split; [assumption|].
    pose proof (oo_qty _ _ _ _ Ho). split; [lia|]. unfold en_live. apply Z.ltb_lt. lia.
  Qed.
  Lemma live_order e : e ∈ Q -> en_live e = true ->
    exists o n c, s_orders s !! (en_tick e, en_id e) = Some o /\ same_data (en_tick e) (en_id e) o e /\
      (en_id e, (n, c, o_quantity o)) ∈ g_lives (G (en_tick e) (en_dir e)) /\ o_etas o = (n + c) * DEC /\
      en_filled e = fifo (g_F (G (en_tick e) (en_dir e))) n (o_quantity o) /\
      en_open e = o_quantity o - fifo (g_F (G (en_tick e) (en_dir e))) n (o_quantity o).
  Proof.
    intros He Hl. unfold en_live in Hl. apply Z.ltb_lt in Hl.
    assert (Hv : (en_id e, en_open e, en_filled e) ∈ proj (en_tick e) (en_dir e) Q) by (apply proj_elem; eauto 10).
    rewrite (rf_view _ _ _ Hr) in Hv. apply qview_elem in Hv as (n & c & q & Hl' & E1 & E2).
    destruct (i_live _ _ Hi _ _ _ _ _ _ Hl') as (o & Eo & Ed & <- & Ee). exists o, n, c. split; [assumption|].
    destruct (rf_data _ _ _ Hr _ _ _ Eo) as (e' & He' & Hd'). pose proof Hd' as (B1 & B2 & _).
    assert (e' = e) as -> by (eapply (ids_inj Q); [apply (rf_ids _ _ _ Hr)|assumption|assumption|congruence]). auto 10.
  Qed.
  Lemma dir_unique t id d d' x y : (id, x) ∈ g_lives (G t d) -> (id, y) ∈ g_lives (G t d') -> d = d'.
  Proof.
    destruct x as [[n c] q], y as [[n' c'] q']. intros H1 H2.
    destruct (i_live _ _ Hi _ _ _ _ _ _ H1) as (o & Eo & E1 & _). destruct (i_live _ _ Hi _ _ _ _ _ _ H2) as (o' & Eo' & E2 & _). congruence.
  Qed.
End R.

(** ** Views of the ghost operations *)
Lemma qview_sync g : qview (g_sync g) = qview g.
Proof. unfold qview, g_lives. rewrite sync_items, sync_F. reflexivity. Qed.
Lemma qview_gsync G t t' d : qview (gsync G t t' d) = qview (G t' d).
Proof. apply (gsync_ind (fun a b => qview a = qview b)); [apply qview_sync|reflexivity]. Qed.

Lemma qview_place g id q : side_ok g -> qview (g_place g id q) = qview g ++ [(id, q, 0)].
Proof.
  intros H. unfold qview, g_lives, g_place. cbn [g_items g_F]. rewrite lives_app, map_app. cbn [lives map app]. f_equal.
  unfold view1. cbn [fst snd]. pose proof (so_F _ H). rewrite Z.add_0_l.
  assert (fifo (g_F g) (nfs (g_items g)) q = 0) as -> by (unfold fifo; lia). rewrite Z.sub_0_r. reflexivity.
Qed.

Definition upd_view (id : Z) (psi : Z -> Z -> list (Z * Z)) (l : list (Z * Z * Z)) : list (Z * Z * Z) :=
  flat_map (fun x => if x.1.1 =? id then map (fun y => (x.1.1, y.1, y.2)) (psi x.1.2 x.2) else [x]) l.
Lemma upd_view_app id psi l1 l2 : upd_view id psi (l1 ++ l2) = upd_view id psi l1 ++ upd_view id psi l2.
Proof. apply flat_map_app. Qed.
Lemma upd_view_cons id psi x l :
  upd_view id psi (x :: l) = (if x.1.1 =? id then map (fun y => (x.1.1, y.1, y.2)) (psi x.1.2 x.2) else [x]) ++ upd_view id psi l.
Proof. reflexivity. Qed.
Lemma upd_view_notin id psi l : (forall x, x ∈ l -> x.1.1 <> id) -> upd_view id psi l = l.
Proof.
  induction l as [|x l IH]; intros H; cbn; [reflexivity|].
  destruct (Z.eqb_spec x.1.1 id) as [E|_]; [exfalso; eapply H; [constructor|exact E]|].
  cbn. f_equal. apply IH. intros y Hy. apply H. constructor. exact Hy.
Qed.
Lemma view_ids F n c l x : x ∈ map (view1 F) (lives n c l) -> x.1.1 ∈ map fst (lives 0 0 l).
Proof.
  intros H. rewrite <- (lives_ids n c). apply elem_of_list_fmap in H as (y & -> & Hy). apply elem_of_list_fmap. exists y. auto.
Qed.

(** Orders behind the fill are untouched by a shift. *)
Lemma view_untouched F l : forall n c n' c', F <= n -> F <= n' -> all_at item_pos 0 0 l ->
  map (view1 F) (lives n c l) = map (view1 F) (lives n' c' l).
Proof.
  assert (Hg : forall n0 c0 n c n' c', F <= n -> F <= n' -> all_at item_pos n0 c0 l ->
    map (view1 F) (lives n c l) = map (view1 F) (lives n' c' l)).
  { induction l as [|[id q|q|q] l IH]; intros n0 c0 n c n' c' H1 H2; cbn; [reflexivity| | |]; intros [Hp Hl].
    - f_equal; [|eapply IH; eauto; lia]. unfold view1, fifo. cbn. f_equal; [f_equal|]; lia.
    - eapply IH; eauto; lia.
    - eapply IH; eauto; lia. }
  intros. eapply Hg; eauto.
Qed.
Lemma pos_any n c n' c' l : all_at item_pos n c l -> all_at item_pos n' c' l.
Proof. revert n c n' c'. induction l as [|it l IH]; cbn; intros n c n' c'; [auto|]. intros [A B]. split; [destruct it; exact A|eauto]. Qed.

Lemma qview_cancel g id n c q :
  side_ok g -> (id, (n, c, q)) ∈ g_lives g -> g_F g <= n ->
  qview (g_cancel g id) = upd_view id (fun _ _ => []) (qview g).
Proof.
  intros Hok Hin HF. destruct (cancel_parts _ _ _ _ _ Hok Hin) as (l1 & l2 & El & -> & -> & Ec).
  pose proof (so_ids _ Hok) as Hs. pose proof (all_at_impl _ _ _ _ _ (item_ok_pos _ _ _) (so_items _ Hok)) as Hpos.
  unfold g_lives in Hs. rewrite El in Hs, Hpos. rewrite ids_app, ids_live in Hs. apply sorted_app in Hs as (_ & S2 & S3).
  apply StronglySorted_inv in S2 as [_ S4]. rewrite Forall_forall in S4.
  apply all_at_app in Hpos as [_ [Hq Hpos]]. cbn in Hq.
  unfold qview, g_lives. rewrite Ec, El. change (g_F (g_cancel g id)) with (g_F g).
  rewrite !lives_app. cbn [lives]. rewrite !map_app. cbn [map]. rewrite !upd_view_app.
  rewrite (upd_view_notin id _ (map _ (lives 0 0 l1))).
  2:{ intros x Hx E. apply view_ids in Hx. specialize (S3 x.1.1 id Hx ltac:(constructor)). lia. }
  f_equal. cbn [qn qc]. rewrite upd_view_cons. unfold view1 at 2. cbn [fst snd]. rewrite Z.eqb_refl. cbn [map app].
  rewrite upd_view_notin.
  2:{ intros x Hx E. apply view_ids in Hx. specialize (S4 _ Hx). lia. }
  apply view_untouched; [lia|lia|]. eapply pos_any; eauto.
Qed.

Lemma qview_claim g id n c q :
  side_ok g -> (id, (n, c, q)) ∈ g_lives g -> 0 < fifo (g_F g) n q ->
  qview (g_claim g id (fifo (g_F g) n q)) = upd_view id (fun o _ => if o =? 0 then [] else [(o, 0)]) (qview g).
Proof.
  intros Hok Hin Hf. set (f := fifo (g_F g) n q) in *. destruct (claim_parts _ _ _ _ _ f Hok Hin) as (l1 & l2 & El & En & Ecc & Ec).
  pose proof (so_ids _ Hok) as Hs. unfold g_lives in Hs. rewrite El in Hs. rewrite ids_app, ids_live in Hs. apply sorted_app in Hs as (_ & S2 & S3).
  apply StronglySorted_inv in S2 as [_ S4]. rewrite Forall_forall in S4.
  unfold qview, g_lives. rewrite Ec, El. change (g_F (g_claim g id f)) with (g_F g).
  rewrite !lives_app. rewrite !map_app, !upd_view_app. rewrite <- En, <- Ecc, !Z.add_0_l.
  rewrite (upd_view_notin id _ (map _ (lives 0 0 l1))).
  2:{ intros x Hx E. apply view_ids in Hx. specialize (S3 x.1.1 id Hx ltac:(constructor)). lia. }
  f_equal. destruct (claim_mid id q f) as [N C]. rewrite N, C. rewrite !Z.add_0_r.
  cbn [lives map]. rewrite upd_view_cons. rewrite upd_view_notin.
  2:{ intros x Hx E. apply view_ids in Hx. specialize (S4 _ Hx). lia. }
  cbn [qc]. rewrite ?Z.add_0_r. f_equal. unfold view1 at 2 3 4 5. cbn [fst snd]. rewrite Z.eqb_refl. fold f.
  destruct (Z.eqb_spec (q - f) 0) as [E|E]; cbn [lives map]; [reflexivity|].
  cbn [qn qc app]. rewrite ?Z.add_0_r. unfold view1. cbn [fst snd].
  assert (E0 : fifo (g_F g) (n + f) (q - f) = 0) by (unfold fifo in *; lia). rewrite E0. rewrite Z.sub_0_r. reflexivity.
Qed.

Fixpoint consume (b : Z) (l : list (Z * Z * Z)) : list (Z * Z * Z) :=
  match l with
  | [] => []
  | x :: l => let a := Z.min b x.1.2 in (x.1.1, x.1.2 - a, x.2 + a) :: consume (b - a) l
  end.
Lemma consume_lives F crc last x l : forall n c, 0 <= x -> all_at (item_ok F crc last) n c l ->
  consume (Z.max (F + x) n - Z.max F n) (map (view1 F) (lives n c l)) = map (view1 (F + x)) (lives n c l).
Proof.
  induction l as [|[id q|q|q] l IH]; intros n c Hx; cbn [all_at lives map consume]; [reflexivity| | |]; intros [Hq Hl]; cbn [item_ok qn qc] in *.
  - unfold view1 at 1 2 3 4 5. cbn [fst snd]. rewrite Z.add_0_r in Hl. rewrite <- (IH (n + q) c Hx Hl).
    unfold view1 at 3. cbn [fst snd]. f_equal.
    + unfold fifo. f_equal; [f_equal|]; lia.
    + f_equal. unfold view1, fifo. cbn [fst snd]. lia.
  - rewrite !Z.add_0_r in *. apply IH; assumption.
  - rewrite !Z.add_0_r in *. rewrite <- (IH (n + q) c Hx Hl). f_equal. lia.
Qed.
Lemma qview_fill g x : side_ok g -> 0 <= x -> qview (g_fill g x) = consume x (qview g).
Proof.
  intros H Hx. unfold qview. change (g_lives (g_fill g x)) with (g_lives g). change (g_F (g_fill g x)) with (g_F g + x).
  symmetry. pose proof (consume_lives _ _ _ x _ 0 0 Hx (so_items _ H)) as E. unfold g_lives. rewrite <- E. f_equal.
  pose proof (so_F _ H). lia.
Qed.

(** ** Views of the ideal operations *)
Lemma proj_app t d Q1 Q2 : proj t d (Q1 ++ Q2) = proj t d Q1 ++ proj t d Q2.
Proof. apply flat_map_app. Qed.
Definition live_view (id o f : Z) : list (Z * Z * Z) := if 0 <? o + f then [(id, o, f)] else [].

Lemma proj_upd t0 id0 (phi : entry -> entry) psi Q t d :
  (forall e, e ∈ Q -> en_tick (phi e) = en_tick e /\ en_dir (phi e) = en_dir e /\ en_id (phi e) = en_id e) ->
  (forall e, e ∈ Q -> en_is t0 id0 e = true ->
     live_view (en_id e) (en_open (phi e)) (en_filled (phi e)) =
     if en_live e then map (fun y => (en_id e, y.1, y.2)) (psi (en_open e) (en_filled e)) else []) ->
  proj t d (map (fun e => if en_is t0 id0 e then phi e else e) Q) =
  if t =? t0 then upd_view id0 psi (proj t d Q) else proj t d Q.
Proof.
  induction Q as [|e Q IH]; intros H1 H2; [destruct (_ =? _); reflexivity|].
  cbn [map]. unfold proj. cbn [flat_map]. fold (proj t d Q). fold (proj t d (map (fun e => if en_is t0 id0 e then phi e else e) Q)).
  rewrite IH; [|intros; apply H1; constructor; assumption|intros; apply H2; [constructor; assumption|assumption]].
  destruct (H1 e ltac:(constructor)) as (A1 & A2 & A3). specialize (H2 e ltac:(constructor)).
  destruct (en_is t0 id0 e) eqn:Eis.
  - specialize (H2 eq_refl). unfold en_is in Eis. apply andb_prop in Eis as [E1 E2]. apply Z.eqb_eq in E1, E2.
    unfold proj1e, at_side. rewrite A1, A2, A3. unfold en_live at 1. unfold live_view in H2.
    destruct (bool_decide_reflect (en_tick e = t /\ en_dir e = d)) as [[B1 B2]|Hn]; cbn [andb app].
    + assert (t =? t0 = true) as -> by (apply Z.eqb_eq; congruence). rewrite upd_view_app. f_equal.
      destruct (en_live e).
      * unfold upd_view. cbn [flat_map fst snd]. rewrite (proj2 (Z.eqb_eq _ _) E2). rewrite app_nil_r. rewrite <- H2. reflexivity.
      * destruct (0 <? _); [discriminate|reflexivity].
    + reflexivity.
  - destruct (Z.eqb_spec t t0) as [->|Hne]; [|reflexivity]. rewrite upd_view_app. f_equal.
    unfold proj1e, at_side. destruct (bool_decide_reflect (en_tick e = t0 /\ en_dir e = d)) as [[B1 B2]|Hn]; cbn [andb]; [|reflexivity].
    destruct (en_live e); [|reflexivity]. unfold upd_view. cbn [flat_map fst snd].
    unfold en_is in Eis. rewrite B1, Z.eqb_refl in Eis. cbn [andb] in Eis. rewrite Eis. reflexivity.
Qed.

Lemma proj_fill t d Q : forall x,
  (forall e, e ∈ Q -> 0 <= en_open e /\ 0 <= en_filled e) -> (forall t d, 0 <= x t d) ->
  proj t d (ideal_fill x Q) = consume (x t d) (proj t d Q).
Proof.
  induction Q as [|e Q IH]; intros x HQ Hx; [reflexivity|]. cbn [ideal_fill]. destruct (HQ e ltac:(constructor)) as [Ho Hf].
  set (a := Z.min (x (en_tick e) (en_dir e)) (en_open e)). specialize (Hx (en_tick e) (en_dir e)) as Hxe.
  unfold proj. cbn [flat_map]. fold (proj t d Q). match goal with |- context [flat_map (proj1e t d) ?L] => fold (proj t d L) end.
  rewrite IH.
  2:{ intros e' He'. apply HQ. constructor. assumption. }
  2:{ intros t' d'. case_bool_decide as Hd; [|apply Hx]. destruct Hd as [-> ->]. unfold a. lia. }
  unfold proj1e, at_side, en_live. cbn [en_set en_tick en_dir en_id en_open en_filled].
  assert ((0 <? en_open e - a + (en_filled e + a)) = (0 <? en_open e + en_filled e)) as -> by (f_equal; lia).
  destruct (bool_decide_reflect (en_tick e = t /\ en_dir e = d)) as [[<- <-]|Hn]; cbn [andb].
  - destruct (Z.ltb_spec 0 (en_open e + en_filled e)).
    + cbn [app consume fst snd]. fold a. rewrite bool_decide_true by auto. reflexivity.
    + rewrite bool_decide_true by auto. cbn [app]. f_equal. unfold a. lia.
  - cbn [app]. rewrite bool_decide_false; [reflexivity|]. intros [-> ->]. apply Hn. auto.
Qed.
