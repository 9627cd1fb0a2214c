(** * Books: sums over the ideal book and over the ticks. *)
From Verif Require Import Base Dec Types State TickMath Sumtree Tick Order Auth Contract World SpecMath TickMathProofs
  TreeDefs Exec SumtreeProofs SumtreeRebalance SumtreeInsert PrefixSum SumtreeRoot SumtreeFail Ghost Inv StepPlace StepCancel StepClaim
  SwapPlan StepSwap Trans Spec Reach Refine RefineStep Reserve Solvency.

Fixpoint psum (h : Z -> Z -> Z) (l : list (Z * Z * Z)) : Z :=
  match l with [] => 0 | x :: l => h x.1.2 x.2 + psum h l end.
Lemma psum_app h l1 l2 : psum h (l1 ++ l2) = psum h l1 + psum h l2.
Proof. induction l1; cbn; lia. Qed.
Lemma ideal_sum_ext f g Q : (forall e, e ∈ Q -> f e = g e) -> ideal_sum f Q = ideal_sum g Q.
Proof.
  induction Q as [|e Q IH]; intros H; [reflexivity|]. cbn. fold (ideal_sum f Q) (ideal_sum g Q).
  rewrite (H e) by constructor. rewrite IH; [reflexivity|]. intros e' He'. apply H. constructor. assumption.
Qed.
Lemma ideal_sum_add f g Q : ideal_sum (fun e => f e + g e) Q = ideal_sum f Q + ideal_sum g Q.
Proof. induction Q as [|e Q IH]; [reflexivity|]. cbn. fold (ideal_sum f Q) (ideal_sum g Q) (ideal_sum (fun e => f e + g e) Q). lia. Qed.

Lemma proj_sum h t d Q :
  psum h (proj t d Q) = ideal_sum (fun e => if at_side t d e && en_live e then h (en_open e) (en_filled e) else 0) Q.
Proof.
  induction Q as [|e Q IH]; [reflexivity|]. cbn [proj flat_map]. fold (proj t d Q). rewrite psum_app, IH.
  cbn [ideal_sum foldr]. fold (ideal_sum (fun e => if at_side t d e && en_live e then h (en_open e) (en_filled e) else 0) Q).
  unfold proj1e. destruct (at_side t d e && en_live e); cbn [psum fst snd]; lia.
Qed.
Lemma ideal_split {A} (m : gmap Z A) h d Q :
  (forall e, e ∈ Q -> en_live e = true -> is_Some (m !! en_tick e)) ->
  ideal_sum (fun e => if bool_decide (en_dir e = d) && en_live e then h (en_tick e) (en_open e) (en_filled e) else 0) Q =
  ksum (fun t => psum (h t) (proj t d Q)) m.
Proof.
  induction Q as [|e Q IH]; intros H.
  - cbn. symmetry. apply ksum_zero.
  - cbn [ideal_sum foldr]. fold (ideal_sum (fun e => if bool_decide (en_dir e = d) && en_live e then h (en_tick e) (en_open e) (en_filled e) else 0) Q).
    rewrite IH by (intros; apply H; [constructor; assumption|assumption]).
    transitivity (ksum (fun t => (if bool_decide (en_dir e = d) && en_live e then (if en_tick e =? t then h (en_tick e) (en_open e) (en_filled e) else 0) else 0) + psum (h t) (proj t d Q)) m).
    + rewrite ksum_add. f_equal. destruct (bool_decide (en_dir e = d)); cbn [andb]; [|symmetry; apply ksum_zero].
      destruct (en_live e) eqn:El; [|symmetry; apply ksum_zero]. symmetry. apply ksum_one. apply H; [constructor|assumption].
    + apply ksum_ext. intros t _. cbn [proj flat_map]. fold (proj t d Q). rewrite psum_app. f_equal.
      unfold proj1e, at_side. destruct (Z.eqb_spec (en_tick e) t) as [<-|Hn].
      * destruct (bool_decide_reflect (en_dir e = d)) as [E|E].
        -- rewrite bool_decide_true by auto. cbn [andb]. destruct (en_live e); cbn; lia.
        -- rewrite bool_decide_false by tauto. reflexivity.
      * rewrite (bool_decide_false (en_tick e = t /\ _)) by tauto. cbn [andb psum]. destruct (bool_decide _ && _); reflexivity.
Qed.

(** Sums over a queue. *)
Lemma psum_view h g : psum h (qview g) = sumL (fun n q => h (q - fifo (g_F g) n q) (fifo (g_F g) n q)) (g_lives g).
Proof. unfold qview. induction (g_lives g) as [|[id [[n c] q]] L IH]; cbn; [reflexivity|]. rewrite IH. reflexivity. Qed.
Lemma epoch_zero g : side_ok g -> epoch_ok g 0.
Proof. intros H. pose proof (so_F _ H). split; [lia|]. intros id n c q Hin. pose proof (live_pos _ _ _ _ _ H Hin). lia. Qed.
Lemma open_sum g : side_ok g -> psum (fun o _ => o) (qview g) = g_open g.
Proof.
  intros Hok. pose proof (so_F _ Hok) as HF. rewrite psum_view.
  pose proof (open_part_step g (g_open g) 0 Hok (epoch_zero _ Hok) ltac:(unfold g_open; lia)) as Ho. unfold open_part in Ho.
  enough (sumL (fun n q => if n <? 0 then 0 else fifo (g_F g + g_open g) n q) (g_lives g) =
          sumL (fun n q => if n <? 0 then 0 else fifo (g_F g) n q) (g_lives g) +
          sumL (fun n q => q - fifo (g_F g) n q) (g_lives g)) by lia.
  rewrite <- sumL_add. apply sumL_ext. intros id n c q Hin. pose proof (live_pos _ _ _ _ _ Hok Hin).
  destruct (Z.ltb_spec n 0); [lia|]. unfold fifo, g_open in *. lia.
Qed.

Section B.
  Context (s : storage) (G : ghost) (Q : ideal).
  Hypothesis Hi : inv s G.
  Hypothesis Hr : refines s G Q.

  Lemma dead_zero e : e ∈ Q -> en_live e = false -> en_open e = 0 /\ en_filled e = 0.
  Proof.
    intros He Hl. pose proof (rf_entry _ _ _ Hr _ He) as [_ A1 A2 _ _ _ _ _ _]. unfold en_live in Hl. apply Z.ltb_ge in Hl. lia.
  Qed.
  Lemma live_tick e : e ∈ Q -> en_live e = true -> is_Some (s_ticks s !! en_tick e).
  Proof.
    intros He Hl. destruct (live_order s G Q Hi Hr e He Hl) as (o & n & c & Eo & _). rewrite (order_tick _ _ _ _ _ Hi Eo). eauto.
  Qed.

  (** Liquidity of a tick is the open interest of the ideal book there. *)
  Lemma liquidity_open t d : tick_liquidity s t d = open_at Q t d.
  Proof.
    rewrite (tick_liquidity_open _ _ _ _ Hi), <- (open_sum _ (i_side _ _ Hi t d)), <- (rf_view _ _ _ Hr), proj_sum.
    unfold open_at. apply ideal_sum_ext. intros e He. fold (at_side t d e). destruct (at_side t d e); cbn [andb]; [|reflexivity].
    destruct (en_live e) eqn:E; [reflexivity|]. destruct (dead_zero _ He E). lia.
  Qed.
  Lemma open_dir_sum d : open_dir Q d = ksum (fun t => g_open (G t d)) (s_ticks s).
  Proof.
    rewrite (ksum_ext _ (fun t => psum ((fun _ o _ => o) t) (proj t d Q))).
    2:{ intros t _. rewrite (rf_view _ _ _ Hr). symmetry. apply open_sum, (i_side _ _ Hi). }
    rewrite <- (ideal_split (s_ticks s) (fun _ o _ => o)) by apply live_tick.
    apply ideal_sum_ext. intros e He. destruct (bool_decide _); cbn [andb]; [|reflexivity].
    destruct (en_live e) eqn:E; [reflexivity|]. destruct (dead_zero _ He E). lia.
  Qed.
  Lemma owed_req B d : epochs_ok G B -> owed Q d <= req s G B d.
  Proof.
    intros HB. unfold owed, req.
    transitivity (open_dir Q d + ksum (fun t => psum (fun _ f => proceeds (opposite d) t f) (proj t (opposite d) Q)) (s_ticks s)).
    - rewrite <- (ideal_split (s_ticks s) (fun t _ f => proceeds (opposite d) t f)) by apply live_tick.
      unfold open_dir. rewrite <- ideal_sum_add. apply Z.eq_le_incl. apply ideal_sum_ext. intros e He.
      destruct (bool_decide_reflect (en_dir e = d)) as [E|E].
      + rewrite bool_decide_false by (intros E'; exact (opp_ne d (eq_trans (eq_sym E') E))). cbn [andb]. lia.
      + destruct (dir_cases d (en_dir e)) as [E'|E']; [contradiction|]. rewrite bool_decide_true by assumption. cbn [andb]. rewrite E'.
        destruct (en_live e) eqn:El; [lia|]. destruct (dead_zero _ He El) as [_ ->].
        pose proof (tick_price_pos _ (eo_tick _ _ (rf_entry _ _ _ Hr _ He))) as Hp.
        pose proof (gross0 (opposite d) _ Hp) as H0. unfold proceeds. unfold gross in H0. lia.
    - rewrite open_dir_sum, <- ksum_add. apply ksum_le. intros t [ts E]. destruct (i_some _ _ Hi _ _ E) as [Ht _]. unfold rq.
      rewrite (rf_view _ _ _ Hr), psum_view.
      pose proof (reserve_covers (opposite d) (tick_price t) (B t (opposite d)) (G t (opposite d)) (i_side _ _ Hi _ _) (HB _ _) (tick_price_pos t Ht)) as Hc.
      unfold gross in Hc. unfold proceeds. lia.
  Qed.
  Lemma total_liquidity d : get_directional_liquidity s d = open_dir Q d * DEC.
  Proof.
    rewrite (i_liq _ _ Hi), open_dir_sum. unfold ksum.
    rewrite <- (msum_scale (fun k (_ : unit) => g_open (G k d))).
    assert (Hm : forall m : gmap Z tick_state, (forall t ts, m !! t = Some ts -> ts = ts_of G t) ->
      msum (liq d) m = msum (fun k (_ : unit) => g_open (G k d) * DEC) ((fun _ => tt) <$> m)).
    { clear. induction m as [|k v m Hk IH] using map_ind; intros H; [rewrite fmap_empty, !msum_empty; reflexivity|].
      rewrite fmap_insert, !msum_insert_new by (rewrite ?lookup_fmap, Hk; reflexivity). f_equal.
      - unfold liq. rewrite (H k v) by apply lookup_insert. rewrite get_ts_of. reflexivity.
      - apply IH. intros t ts E. apply H. rewrite lookup_insert_ne; [assumption|]. intros ->. congruence. }
    apply Hm. intros t ts E. apply (i_some _ _ Hi _ _ E).
  Qed.
End B.

(** ** Every history *)
Record good (w : world) (G : ghost) (Q : ideal) : Prop := {
  gd_inv : inv (w_st w) G;
  gd_ref : refines (w_st w) G Q;
  gd_sol : solvent w G
}.
Theorem run_good w0 h : start w0 -> history w0 h -> exists G, good (run w0 h) G (ideal_run w0 [] h).
Proof.
  intros Hs Hh. destruct (run_ind (fun w G Q => refines (w_st w) G Q /\ solvent w G) w0 h) as (G & Hi & Hr & Hsol); try assumption.
  - split; [|apply solvent_start; assumption]. apply start_inv in Hs as (_ & (q & b & -> & _) & _). apply refines0. reflexivity.
  - intros e w G Q c w' G' o Hi Hok [Hr Hsol] Hst. split; [eapply ref_step; eauto|eapply solvent_step; eauto].
  - exists G. split; assumption.
Qed.
Lemma good_owed w G Q d : good w G Q -> owed Q d <= balance w (den (w_st w) d).
Proof.
  intros [Hi Hr (B & HB & _ & Hs)]. etransitivity; [eapply owed_req; eauto|]. apply Hs.
Qed.
