(** * Property C53: books that look the same have the same future. *)
From Verif Require Import Base Dec Types State TickMath Sumtree Tick Order Auth Contract Query World SpecMath TickMathProofs
  TreeDefs Exec SumtreeProofs Ghost Inv Trans Spec Reach Refine RefineStep Reserve Solvency Books SpecProps PropBase Tests PropOrders PropClaims PropAdmin
  SpecAdmin SpecBank PropBank SpecMachine MachineBase PropMachine SpecAlike.

(** ** First in, first out determines how much of each order is filled *)
Fixpoint fifo_view (l : list (Z * Z * Z)) : Prop :=
  match l with
  | [] => True
  | (_, a, b) :: l => 0 <= a /\ 0 <= b /\ (0 < a -> Forall (fun x => x.2 = 0) l) /\ fifo_view l
  end.
Lemma lives_fresh F crc last l : forall n c, F <= n -> all_at (item_ok F crc last) n c l -> Forall (fun x : Z * Z * Z => x.2 = 0) (map (view1 F) (lives n c l)).
Proof.
  induction l as [|it l IH]; intros n c Hn H; [constructor|]. cbn [all_at] in H. destruct H as [H1 H2].
  destruct it as [id q|q|q]; cbn [lives map] in *; cbn [item_ok qn qc] in *; rewrite ?Z.add_0_r in *.
  - constructor; [|apply IH; [lia|exact H2]]. cbn. unfold fifo. lia.
  - apply IH; [lia|exact H2].
  - apply IH; [lia|exact H2].
Qed.
Lemma lives_fifo F crc last l : forall n c, all_at (item_ok F crc last) n c l -> fifo_view (map (view1 F) (lives n c l)).
Proof.
  induction l as [|it l IH]; intros n c H; [exact I|]. cbn [all_at] in H. destruct H as [H1 H2].
  destruct it as [id q|q|q]; cbn [lives map] in *; cbn [item_ok qn qc] in *; rewrite ?Z.add_0_r in *; try (apply IH; exact H2).
  cbn [fifo_view view1 fst snd]. split; [unfold fifo; lia|]. split; [unfold fifo; lia|]. split; [|apply IH; exact H2].
  intros Ha. apply (lives_fresh F crc last); [unfold fifo in Ha; lia|exact H2].
Qed.
Definition opens (l : list (Z * Z * Z)) : Z := foldr (fun x acc => x.1.2 + acc) 0 l.
Lemma opens_max l l' : fifo_view l -> Forall (fun x => x.2 = 0) l' -> map (fun x => (x.1.1, x.1.2 + x.2)) l = map (fun x => (x.1.1, x.1.2 + x.2)) l' -> opens l <= opens l'.
Proof.
  revert l'. induction l as [|[[id a] b] l IH]; intros [|[[id' a'] b'] l'] H H' E; try discriminate. cbn [map fst snd] in E. injection E as E1 E2 E.
  cbn [fifo_view] in H. destruct H as (K1 & K2 & _ & K). apply Forall_cons in H' as [K3 H']. cbn [snd] in K3. specialize (IH l' K H' E). cbn [opens foldr fst snd]. fold (opens l) (opens l'). lia.
Qed.
Lemma fifo_unique l l' : fifo_view l -> fifo_view l' -> map (fun x => (x.1.1, x.1.2 + x.2)) l = map (fun x => (x.1.1, x.1.2 + x.2)) l' -> opens l = opens l' -> l = l'.
Proof.
  revert l'. induction l as [|[[id a] b] l IH]; intros [|[[id' a'] b'] l'] H H' E Eo; try discriminate; [reflexivity|]. cbn [map fst snd] in E. injection E as <- E2 E.
  cbn [fifo_view] in H, H'. destruct H as (K1 & K2 & K3 & K). destruct H' as (K1' & K2' & K3' & K'). cbn [opens foldr fst snd] in Eo. fold (opens l) (opens l') in Eo.
  destruct (Z.lt_trichotomy a a') as [Hl|[->|Hl]].
  - pose proof (opens_max l l' K (K3' ltac:(lia)) E). lia.
  - assert (b = b') as -> by lia. f_equal. apply IH; try assumption. lia.
  - pose proof (opens_max l' l K' (K3 ltac:(lia)) (eq_sym E)). lia.
Qed.
(** ** Sorted lists *)
Lemma sorted_same {A} (f : A -> Z) l : forall l', StronglySorted Z.lt (map f l) -> StronglySorted Z.lt (map f l') -> (forall x, x ∈ l <-> x ∈ l') -> l = l'.
Proof.
  induction l as [|a l IH]; intros [|b l'] H H' E; [reflexivity| | |].
  - exfalso. assert (Hx : b ∈ ([] : list A)) by (apply E; constructor). inversion Hx.
  - exfalso. assert (Hx : a ∈ ([] : list A)) by (apply E; constructor). inversion Hx.
  - cbn [map] in H, H'. apply StronglySorted_inv in H as [H Ha]. apply StronglySorted_inv in H' as [H' Hb]. rewrite Forall_forall in Ha, Hb.
    assert (La : forall x, x ∈ l -> f a < f x) by (intros x Hx; apply Ha, elem_of_list_fmap; eauto).
    assert (Lb : forall x, x ∈ l' -> f b < f x) by (intros x Hx; apply Hb, elem_of_list_fmap; eauto).
    assert (a = b) as <-.
    { assert (H1 : a ∈ b :: l') by (apply E; constructor). assert (H2 : b ∈ a :: l) by (apply E; constructor).
      apply elem_of_cons in H1 as [?|H1]; [assumption|]. apply elem_of_cons in H2 as [?|H2]; [congruence|]. specialize (La _ H2). specialize (Lb _ H1). lia. }
    f_equal. apply IH; try assumption. intros x. specialize (E x). rewrite !elem_of_cons in E. split; intros Hx.
    + destruct (proj1 E (or_intror Hx)) as [->|?]; [specialize (La _ Hx); lia|assumption].
    + destruct (proj2 E (or_intror Hx)) as [->|?]; [specialize (Lb _ Hx); lia|assumption].
Qed.

(** ** The books *)
Lemma opens_at s G Q t d : refines s G Q -> opens (proj t d Q) = open_at Q t d.
Proof.
  intros Hr. pose proof (rf_entry _ _ _ Hr) as He. clear Hr. unfold open_at, ideal_sum. induction Q as [|e Q IH]; [reflexivity|].
  unfold proj. cbn [flat_map foldr]. fold (proj t d Q). rewrite <- IH by (intros x Hx; apply He; constructor; exact Hx). specialize (He e ltac:(constructor)).
  unfold proj1e, at_side, en_live. destruct (bool_decide (en_tick e = t /\ en_dir e = d)); cbn [andb]; [|reflexivity]. pose proof (eo_open _ _ He). pose proof (eo_filled _ _ He).
  destruct (Z.ltb_spec 0 (en_open e + en_filled e)); [reflexivity|]. cbn [app]. lia.
Qed.
Lemma view_sorted g : side_ok g -> StronglySorted Z.lt (map (fun x : Z * Z => x.1) (map (fun x : Z * Z * Z => (x.1.1, x.1.2 + x.2)) (qview g))).
Proof. intros H. unfold qview. rewrite !map_map. cbn [fst view1]. exact (so_ids _ H). Qed.
Lemma alike_sym s s' : alike s s' -> alike s' s.
Proof. intros [A1 A2 A3 A4 A5 A6]. split; intros; symmetry; auto. Qed.
Section two.
  Variables (w1 w2 : world) (h1 h2 : list (env * call)).
  Hypotheses (Hs1 : start w1) (Hs2 : start w2) (Hh1 : history w1 h1) (Hh2 : history w2 h2).
  Hypothesis Ha : alike (w_st (run w1 h1)) (w_st (run w2 h2)).
  Let Q1 := ideal_run w1 [] h1.
  Let Q2 := ideal_run w2 [] h2.
  Lemma alike_entry en1 : en1 ∈ Q1 -> en_live en1 = true ->
    exists en2, en2 ∈ Q2 /\ en_live en2 = true /\ (en_tick en2, en_id en2, en_dir en2, en_owner en2, en_bounty en2, en_time en2, en_placed en2, en_open en2 + en_filled en2)
      = (en_tick en1, en_id en1, en_dir en1, en_owner en1, en_bounty en1, en_time en1, en_placed en1, en_open en1 + en_filled en1).
  Proof.
    intros Hen Hl. destruct (C08_fifo_state w1 h1 Hs1 Hh1) as (_ & _ & Ho1 & _). destruct (C08_fifo_state w2 h2 Hs2 Hh2) as (_ & Ho2 & _).
    destruct (Ho1 en1 Hen Hl) as (o1 & Eo1 & D1). pose proof (al_orders _ _ Ha (en_tick en1) (en_id en1)) as E. rewrite Eo1 in E. cbn [option_map] in E.
    destruct (s_orders (w_st (run w2 h2)) !! (en_tick en1, en_id en1)) as [o2|] eqn:Eo2; [|discriminate]. cbn [option_map] in E. unfold visible in E. injection E as V1 V2 V3 V4 V5 V6 V7 V8.
    destruct (Ho2 _ _ _ Eo2) as (en2 & Hen2 & T2 & I2 & L2 & D2). exists en2. split; [exact Hen2|]. split; [exact L2|].
    destruct D1 as (a1 & a2 & a3 & a4 & a5 & a6 & a7 & a8), D2 as (b1 & b2 & b3 & b4 & b5 & b6 & b7 & b8). rewrite b1, b2, b3, b4, b5, b6, b7, b8, a1, a2, a3, a4, a5, a6, a7, a8. congruence.
  Qed.
End two.
Lemma alike_view w1 w2 h1 h2 t d : start w1 -> start w2 -> history w1 h1 -> history w2 h2 -> alike (w_st (run w1 h1)) (w_st (run w2 h2)) ->
  proj t d (ideal_run w1 [] h1) = proj t d (ideal_run w2 [] h2).
Proof.
  intros Hs1 Hs2 Hh1 Hh2 Ha. destruct (run_good w1 h1 Hs1 Hh1) as (G1 & Hg1). destruct (run_good w2 h2 Hs2 Hh2) as (G2 & Hg2).
  pose proof (gd_ref _ _ _ Hg1) as R1. pose proof (gd_ref _ _ _ Hg2) as R2.
  pose proof (i_side _ _ (gd_inv _ _ _ Hg1) t d) as S1. pose proof (i_side _ _ (gd_inv _ _ _ Hg2) t d) as S2.
  apply fifo_unique.
  - rewrite (rf_view _ _ _ R1). unfold qview. eapply lives_fifo. apply (so_items _ S1).
  - rewrite (rf_view _ _ _ R2). unfold qview. eapply lives_fifo. apply (so_items _ S2).
  - apply (sorted_same fst).
    + rewrite (rf_view _ _ _ R1). apply view_sorted. exact S1.
    + rewrite (rf_view _ _ _ R2). apply view_sorted. exact S2.
    + assert (Hone : forall u v k l, start u -> start v -> history u k -> history v l -> alike (w_st (run u k)) (w_st (run v l)) ->
        forall x, x ∈ map (fun x : Z * Z * Z => (x.1.1, x.1.2 + x.2)) (proj t d (ideal_run u [] k)) -> x ∈ map (fun x : Z * Z * Z => (x.1.1, x.1.2 + x.2)) (proj t d (ideal_run v [] l))).
      { clear. intros u v k l Hu Hv Hk Hl Ha x Hx. apply elem_of_list_fmap in Hx as ([[id a] b] & -> & Hx). apply proj_elem in Hx as (e & He & Et & Ed & Ei & Eo & Ef & Hpos). subst.
        destruct (alike_entry u v k l Hu Hv Hk Hl Ha e He ltac:(unfold en_live; apply Z.ltb_lt; exact Hpos)) as (e2 & He2 & L2 & E). injection E as E1 E2 E3 E4 E5 E6 E7 E8.
        apply elem_of_list_fmap. exists (en_id e2, en_open e2, en_filled e2). split; [cbn; congruence|]. apply proj_elem. exists e2. rewrite E8. auto 10. }
      intros x. split; apply Hone; try assumption. apply alike_sym. assumption.
  - rewrite (opens_at _ _ _ _ _ R1), (opens_at _ _ _ _ _ R2).
    destruct (C08_fifo_state w1 h1 Hs1 Hh1) as (_ & _ & _ & _ & L1). destruct (C08_fifo_state w2 h2 Hs2 Hh2) as (_ & _ & _ & _ & L2). rewrite <- L1, <- L2. apply (al_liquidity _ _ Ha).
Qed.
Lemma alike_lives w1 w2 h1 h2 : start w1 -> start w2 -> history w1 h1 -> history w2 h2 -> alike (w_st (run w1 h1)) (w_st (run w2 h2)) ->
  forall o, o ∈ lives_of (ideal_run w1 [] h1) -> o ∈ lives_of (ideal_run w2 [] h2).
Proof.
  intros Hs1 Hs2 Hh1 Hh2 Ha o Ho. apply lives_in in Ho as (e1 & He1 & L1 & ->). destruct (alike_entry w1 w2 h1 h2 Hs1 Hs2 Hh1 Hh2 Ha e1 He1 L1) as (e2 & He2 & L2 & E).
  injection E as E1 E2 E3 E4 E5 E6 E7 E8.
  assert (Hv : (en_id e1, en_open e1, en_filled e1) ∈ proj (en_tick e1) (en_dir e1) (ideal_run w1 [] h1)) by (apply proj_elem; unfold en_live in L1; apply Z.ltb_lt in L1; eauto 10).
  rewrite (alike_view w1 w2 h1 h2) in Hv by assumption. apply proj_elem in Hv as (e3 & He3 & F1 & F2 & F3 & F4 & F5 & _).
  destruct (run_good w2 h2 Hs2 Hh2) as (G2 & Hg2). assert (e3 = e2) as -> by (apply (ids_inj _ _ _ (rf_ids _ _ _ (gd_ref _ _ _ Hg2)) He3 He2); congruence).
  apply lives_in. exists e2. split; [exact He2|]. split; [exact L2|]. unfold strip. f_equal; congruence.
Qed.
Lemma alike_abs w1 w2 h1 h2 : start w1 -> start w2 -> history w1 h1 -> history w2 h2 -> alike (w_st (run w1 h1)) (w_st (run w2 h2)) ->
  abs (w_st (run w1 h1)) (ideal_run w1 [] h1) = abs (w_st (run w2 h2)) (ideal_run w2 [] h2).
Proof.
  intros Hs1 Hs2 Hh1 Hh2 Ha. pose proof Ha as [A1 A2 A3 A4 A5 A6]. unfold abs. f_equal; try apply A1.
  - unfold settings_of. injection A3 as B1 B2 B3 B4 B5 B6. congruence.
  - exact A4.
  - destruct (run_good w1 h1 Hs1 Hh1) as (G1 & Hg1). destruct (run_good w2 h2 Hs2 Hh2) as (G2 & Hg2). apply (sorted_same re_id).
    + apply (sh_ids _ _ (shows_abs _ _ _ Hg1)).
    + apply (sh_ids _ _ (shows_abs _ _ _ Hg2)).
    + intros o. split; apply alike_lives; try assumption. apply alike_sym. assumption.
Qed.

(** ** C53 *)
Theorem C53_same_future :
  forall w1 w2 h1 h2 h, start w1 -> start w2 -> history w1 (h1 ++ h) -> history w2 (h2 ++ h) -> short (h1 ++ h) -> short (h2 ++ h) ->
  alike (w_st (run w1 h1)) (w_st (run w2 h2)) ->
  all_outcomes (run w1 h1) h = all_outcomes (run w2 h2) h.
Proof.
  intros w1 w2 h1 h2 h Hs1 Hs2 Hh1 Hh2 L1 L2 Ha. pose proof (proj1 (proj1 (history_app _ _ _) Hh1)) as K1. pose proof (proj1 (proj1 (history_app _ _ _) Hh2)) as K2.
  destruct (machine_history w1 h h1 Hs1 Hh1 L1) as [M1 _]. destruct (machine_history w2 h h2 Hs2 Hh2 L2) as [M2 _].
  rewrite <- M1, <- M2, (alike_abs w1 w2 h1 h2); auto.
Qed.
Print Assumptions C53_same_future.
(** A case: in the second history the withdrawn order was elsewhere and the fill came in two parts; the orders and the liquidity
    are the same, the cumulative counters of the ticks are not. *)
Definition hist_one : list (env * call) := [place "a" 0 Bid 10 None; place "b" 0 Bid 5 None; cancel "b" 0 1; place "c" 0 Bid 20 None; sell "y" 16; claim "z" 0 0].
Definition hist_two : list (env * call) :=
  [place "a" 0 Bid 10 None; place "b" (-7) Bid 50 None; cancel "b" (-7) 1; sell "y" 8; claim "z" 0 0; place "c" 0 Bid 20 None; sell "y" 8; claim "z" 0 0].
Definition both (ts : tick_state) : option (Z * Z) :=
  let b := tv_tal (ts_bid ts) / DEC in let a := tv_tal (ts_ask ts) / DEC in if (b =? 0) && (a =? 0) then None else Some (b, a).
Lemma both_liquidity s t d : tick_liquidity s t d = match omap both (s_ticks s) !! t with Some p => match d with Bid => fst p | Ask => snd p end | None => 0 end.
Proof.
  rewrite lookup_omap. unfold tick_liquidity. destruct (s_ticks s !! t) as [ts|]; cbn [mbind option_bind]; [|reflexivity]. unfold both. cbv zeta.
  destruct (Z.eqb_spec (tv_tal (ts_bid ts) / DEC) 0), (Z.eqb_spec (tv_tal (ts_ask ts) / DEC) 0), d; cbn [andb fst snd]; cbn [get_values]; auto.
Qed.
Lemma alike_by s s' :
  (deposit_denom s Bid, deposit_denom s Ask, active s, next_id s) = (deposit_denom s' Bid, deposit_denom s' Ask, active s', next_id s') ->
  (s_fee s, s_recipient s, s_admin s, s_admin_offer s, s_moderator s, s_moderator_offer s) = (s_fee s', s_recipient s', s_admin s', s_admin_offer s', s_moderator s', s_moderator_offer s') ->
  bool_decide (visible <$> s_orders s = visible <$> s_orders s') = true -> bool_decide (omap both (s_ticks s) = omap both (s_ticks s')) = true -> alike s s'.
Proof.
  intros [= E1 E2 E3 E4] E5 E6 E7. apply bool_decide_eq_true in E6, E7. split; [intros []; assumption|assumption|assumption|exact E4| |].
  - intros t id. change (option_map visible (s_orders s !! (t, id))) with (visible <$> s_orders s !! (t, id)). rewrite <- lookup_fmap, E6, lookup_fmap. reflexivity.
  - intros t d. rewrite !both_liquidity, E7. reflexivity.
Qed.
Lemma ticks_differ s s' : option_map (fun ts => tv_ctt (ts_bid ts)) (s_ticks s !! 0) <> option_map (fun ts => tv_ctt (ts_bid ts)) (s_ticks s' !! 0) -> s_ticks s <> s_ticks s'.
Proof. intros H E. apply H. rewrite E. reflexivity. Qed.
Example C53_case :
  start w_start /\ history w_start hist_one /\ history w_start hist_two /\ alike (w_st (run w_start hist_one)) (w_st (run w_start hist_two)) /\
  s_ticks (w_st (run w_start hist_one)) <> s_ticks (w_st (run w_start hist_two)) /\
  run_out (run w_start hist_one) [sell "y" 9; claim "z" 0 2; place "d" 0 Ask 3 None] = [true; true; true].
Proof.
  split; [apply start_ok|]. split; [hist|]. split; [hist|]. split; [apply alike_by|split].
  - vm_compute. reflexivity.
  - vm_compute. reflexivity.
  - vm_compute. reflexivity.
  - vm_compute. reflexivity.
  - apply ticks_differ. vm_compute. discriminate.
  - vm_compute. reflexivity.
Qed.
