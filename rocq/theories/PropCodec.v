(** * Property C71, continued: stored values, messages and answers are read back from their texts. *)
From Verif Require Import Base Dec Types State TickMath Sumtree Tick Order Auth Contract Query World SpecMath TickMathProofs
  TreeDefs Exec SumtreeProofs SumtreeRebalance SumtreeInsert PrefixSum SumtreeRoot SumtreeFail Ghost Inv StepPlace StepCancel StepClaim
  SwapPlan StepSwap Trans Spec Reach Refine RefineStep Reserve Solvency Books SpecProps PropBase Tests PropOrders PropClaims PropSwap SpecTree PropTree SpecEvents
  PropQuery SpecCost Keys SpecKeys PropKeys Wire WireProofs Codec SpecWire CodecProofs RangeProofs PropWire.

Lemma from_to {A} (rd : json -> option A) w x : rd (w x) = Some x -> from_json rd (to_json w x) = Some x.
Proof. intros H. unfold from_json, to_json. rewrite parse_show. exact H. Qed.

(** ** Values *)
(** C71, values: a value within its type is read back from its text as it was; an order written before orders had a time is read with time zero. *)
Theorem C71_values :
  (forall o, order_range o -> from_json rd_order (to_json w_order o) = Some o) /\
  (forall t, tick_range t -> from_json rd_tick (to_json w_tick t) = Some t) /\
  (forall b, book_range b -> from_json rd_book (to_json w_book b) = Some b) /\
  (forall n, node_range n -> from_json rd_node (to_json w_node n) = Some n) /\
  (forall x, 0 <= x <= U256_MAX -> from_json rd_dec (to_json w_dec x) = Some x) /\
  (forall x, u64 x = true -> from_json rd_u64 (to_json w_int x) = Some x) /\
  (forall x, from_json rd_str (to_json w_str x) = Some x) /\
  (forall o, order_range o ->
     from_json rd_order (legacy_text o) =
     Some (mkOrder (o_tick o) (o_id o) (o_dir o) (o_owner o) (o_quantity o) (o_etas o) (o_bounty o) (o_placed_quantity o) 0)).
Proof.
  split; [intros; apply from_to, rw_order; assumption|]. split; [intros; apply from_to, rw_tick; assumption|].
  split; [intros; apply from_to, rw_book; assumption|]. split; [intros; apply from_to, rw_node; assumption|].
  split; [intros; apply from_to, rw_dec, is_dec; assumption|]. split; [intros; apply from_to, rw_u64; assumption|]. split; [intros; apply from_to, rw_str|].
  intros o (H1 & H2 & H3 & H4 & H5 & H6 & H7). unfold from_json, legacy_text. rewrite parse_show. unfold rd_order. obj.
  rewrite rw_i64, rw_u64, rw_dir, rw_str, rw_u128, rw_dec by assumption. rewrite (rw_maybe w_dec rd_dec) by (intros; try apply rw_dec; auto; discriminate).
  rewrite rw_u128 by assumption. reflexivity.
Qed.
Print Assumptions C71_values.

(** ** The store *)
(** C71, ranges: nothing the contract stores is out of the range of its type. *)
Theorem C71_in_range : forall w0 h, start w0 -> history w0 h -> on_chain h -> store_range (w_st (run w0 h)).
Proof. exact run_range. Qed.
Print Assumptions C71_in_range.

Lemma entry_typed s r j : store_range s -> entry_json s r = Some j -> typed_entry r.
Proof.
  intros H E. destruct r as [c|a k|t a k|]; [destruct c as [| |t|d|t id|t k|t|t d| | | | | | |]|..]; cbn [typed_entry entry_json] in *; try exact I.
  - destruct (s_ticks s !! t) eqn:Et; [|discriminate]. apply (sr_ticks _ H _ _ Et).
  - destruct (s_orders s !! (t, id)) eqn:Et; [|discriminate]. apply (sr_orders _ H _ _ Et).
  - destruct (s_nodes s !! (t, k)) eqn:Et; [|discriminate]. apply (sr_nodes _ H _ _ Et).
  - destruct (s_nodectr s !! t) eqn:Et; [|discriminate]. apply (sr_ctr _ H _ _ Et).
  - destruct (s_tree s !! (t, d)) eqn:Et; [|discriminate]. apply (sr_tree _ H _ _ _ Et).
  - destruct (s_orders s !! k) as [o|] eqn:Et; [|discriminate]. destruct (sr_orders _ H _ _ Et) as (K & _ & N).
    destruct (bool_decide_reflect (o_owner o = a)) as [<-|]; [|discriminate]. auto.
  - destruct (s_orders s !! k) as [o|] eqn:Et; [|discriminate]. destruct (sr_orders _ H _ _ Et) as (K & (R & _) & N).
    destruct (bool_decide_reflect (o_owner o = a /\ o_tick o = t)) as [[<- <-]|]; [|discriminate]. auto.
Qed.
Lemma show_inj j j' : show_json j = show_json j' -> j = j'.
Proof. intros H. pose proof (parse_show j) as E. rewrite H, parse_show in E. congruence. Qed.
Lemma same_entry s s' : store_range s -> store_range s' -> (forall key t, raw_text s key t -> raw_text s' key t) ->
  forall r j, entry_json s r = Some j -> entry_json s' r = Some j.
Proof.
  intros H H' Hr r j E. destruct (Hr (raw_key r) (show_json j)) as (r' & j' & E' & Ek & Et); [exists r, j; auto|].
  apply C70_distinct in Ek; [|exact (entry_typed _ _ _ H E)|exact (entry_typed _ _ _ H' E')]. apply show_inj in Et. subst. exact E'.
Qed.
Lemma opt_inj {A} (w : A -> json) (rd : json -> option A) x y : (forall a, x = Some a -> rd (w a) = Some a) -> (forall a, y = Some a -> rd (w a) = Some a) ->
  option_map w x = option_map w y -> x = y.
Proof.
  intros Hx Hy E. destruct x as [a|], y as [b|]; cbn in E; try discriminate; [|reflexivity]. injection E as E.
  specialize (Hx a eq_refl). rewrite E, (Hy b eq_refl) in Hx. congruence.
Qed.
Lemma store_inj s s' : store_range s -> store_range s' -> (forall r, entry_json s r = entry_json s' r) -> s = s'.
Proof.
  intros [A1 A2 A3 A4 A5 A6 A7 A8 A9] [B1 B2 B3 B4 B5 B6 B7 B8 B9] E.
  destruct s as [f1 f2 f3 f4 f5 f6 f7 f8 f9 f10 f11 f12 f13 f14 f15], s' as [g1 g2 g3 g4 g5 g6 g7 g8 g9 g10 g11 g12 g13 g14 g15].
  cbn [s_order_id s_orderbook s_ticks s_dirliq s_orders s_nodes s_nodectr s_tree s_fee] in *.
  assert (f1 = g1) as -> by (apply (opt_inj w_int rd_u64); [intros; apply rw_u64; auto..|exact (E (RCell COrderId))]).
  assert (f2 = g2) as -> by (apply (opt_inj w_book rd_book); [intros; apply rw_book; auto..|exact (E (RCell COrderbook))]).
  assert (f3 = g3) as ->.
  { apply map_eq. intros t. apply (opt_inj w_tick rd_tick); [intros a Ha; apply rw_tick; first [apply (A3 _ _ Ha)|apply (B3 _ _ Ha)]..|exact (E (RCell (CTick t)))]. }
  assert (f4 = g4) as ->.
  { apply map_eq. intros d. apply (opt_inj w_dec rd_dec); [intros a Ha; apply rw_dec; first [apply (A4 _ _ Ha)|apply (B4 _ _ Ha)]..|exact (E (RCell (CLiquidity d)))]. }
  assert (f5 = g5) as ->.
  { apply map_eq. intros [t id]. apply (opt_inj w_order rd_order); [intros a Ha; apply rw_order; first [apply (A5 _ _ Ha)|apply (B5 _ _ Ha)]..|exact (E (RCell (COrder t id)))]. }
  assert (f6 = g6) as ->.
  { apply map_eq. intros [t k]. apply (opt_inj w_node rd_node); [intros a Ha; apply rw_node; first [apply (A6 _ _ Ha)|apply (B6 _ _ Ha)]..|exact (E (RCell (CNode t k)))]. }
  assert (f7 = g7) as ->.
  { apply map_eq. intros t. apply (opt_inj w_int rd_u64); [intros a Ha; apply rw_u64; first [apply (A7 _ _ Ha)|apply (B7 _ _ Ha)]..|exact (E (RCell (CNodeId t)))]. }
  assert (f8 = g8) as ->.
  { apply map_eq. intros [t d]. apply (opt_inj w_int rd_u64); [intros a Ha; apply rw_u64; first [apply (A8 _ _ _ Ha)|apply (B8 _ _ _ Ha)]..|exact (E (RCell (CTree t d)))]. }
  assert (f9 = g9) as -> by (apply (opt_inj JBool rd_bool); [reflexivity..|exact (E (RCell CActive))]).
  assert (f10 = g10) as -> by (apply (opt_inj w_dec rd_dec); [intros; apply rw_dec; auto..|exact (E (RCell CFee))]).
  assert (f11 = g11) as -> by (apply (opt_inj w_str rd_str); [intros; apply rw_str..|exact (E (RCell CRecipient))]).
  assert (f12 = g12) as -> by (apply (opt_inj w_str rd_str); [intros; apply rw_str..|exact (E (RCell CAdmin))]).
  assert (f13 = g13) as -> by (apply (opt_inj w_str rd_str); [intros; apply rw_str..|exact (E (RCell CAdminOffer))]).
  assert (f14 = g14) as -> by (apply (opt_inj w_str rd_str); [intros; apply rw_str..|exact (E (RCell CModerator))]).
  assert (f15 = g15) as -> by (apply (opt_inj w_str rd_str); [intros; apply rw_str..|exact (E (RCell CModeratorOffer))]).
  reflexivity.
Qed.
(** C71, the store: under one key there is one text, and the texts in the chain's store determine the state completely: two histories that leave
    the same bytes leave the same state. *)
Theorem C71_store :
  forall w0 h w0' h', start w0 -> history w0 h -> on_chain h -> start w0' -> history w0' h' -> on_chain h' ->
  let s := w_st (run w0 h) in let s' := w_st (run w0' h') in
  (forall key t t', raw_text s key t -> raw_text s key t' -> t = t') /\
  ((forall key t, raw_text s key t <-> raw_text s' key t) -> s = s').
Proof.
  intros w0 h w0' h' H1 H2 H3 H1' H2' H3' s s'. pose proof (run_range _ _ H1 H2 H3) as R. pose proof (run_range _ _ H1' H2' H3') as R'. fold s in R. fold s' in R'. split.
  - intros key t t' (r & j & E & -> & ->) (r' & j' & E' & Ek & ->). apply C70_distinct in Ek; [|exact (entry_typed _ _ _ R E)|exact (entry_typed _ _ _ R E')]. subst. congruence.
  - intros Hx. apply store_inj; [assumption..|]. intros r.
    destruct (entry_json s r) as [j|] eqn:E; [symmetry; eapply same_entry; try exact E; auto; intros; apply Hx; assumption|].
    destruct (entry_json s' r) as [j|] eqn:E'; [|reflexivity]. rewrite <- E. eapply same_entry; try exact E'; auto. intros; apply Hx; assumption.
Qed.
Print Assumptions C71_store.

(** ** Messages *)
(** C71, messages: every message can be written, and is read as it was; whatever text is accepted as a message stands for a message with every
    number within its type (so the assumption on calls of all other properties costs nothing). *)
Theorem C71_messages :
  (forall m, exec_typed m = true -> from_json rd_exec (to_json w_exec m) = Some m) /\
  (forall m, sudo_typed m = true -> from_json rd_sudo (to_json w_sudo m) = Some m) /\
  (forall q, question_typed q = true -> from_json rd_query (to_json w_query q) = Some q) /\
  (forall t m, from_json rd_exec t = Some m -> exec_typed m = true) /\
  (forall t m, from_json rd_sudo t = Some m -> sudo_typed m = true) /\
  (forall t q, from_json rd_query t = Some q -> question_typed q = true).
Proof.
  split; [intros; apply from_to, rw_exec; assumption|]. split; [intros; apply from_to, rw_sudo; assumption|].
  split; [intros; apply from_to, rw_query; assumption|].
  unfold from_json. split; [|split]; intros t m H; destruct (parse t); try discriminate; eauto using rd_exec_ok, rd_sudo_ok, rd_query_ok.
Qed.
Print Assumptions C71_messages.

(** ** Narrowing *)
(** C71, narrowing: where the contract turns a 256-bit number into a 128-bit one by way of its text - the spot price, a wide coin - the number
    survives exactly when it fits; otherwise the price query fails and the coin conversion aborts. *)
Theorem C71_narrow :
  (forall p, 0 <= p -> narrow_price p = if p <=? U128_MAX then Ok p else Err EStd) /\
  (forall c, 0 <= c_amount c -> coin_narrow c = if c_amount c <=? U128_MAX then Ok c else Panic).
Proof.
  split.
  - intros p H. unfold narrow_price. rewrite read_show_decimal by exact H. unfold within, range. rewrite (proj2 (Z.leb_le 0 p) H). cbn [andb]. destruct (p <=? U128_MAX); reflexivity.
  - intros [d a] H. cbn [c_amount c_denom] in *. unfold coin_narrow, read_u128. cbn [c_amount c_denom]. destruct (Z.leb_spec a U128_MAX) as [L|L].
    + rewrite read_u_ok by lia. reflexivity.
    + rewrite read_u_big by lia. reflexivity.
Qed.
Print Assumptions C71_narrow.

(** ** Answers *)
Lemma ticks_rw {A} name (w : A -> json) rd (l : list (Z * A)) : name <> "tick_id" ->
  Forall (fun x => i64 x.1 = true /\ rd (w x.2) = Some x.2) l -> rd_ticks name rd (w_ticks (fun x => (name, w x)) l) = Some l.
Proof.
  intros Hn H. unfold rd_ticks, w_ticks. apply (rw_field "ticks" _ (fun l => l)). apply rw_list. eapply Forall_impl; [exact H|]. intros [t x] [H1 H2]. cbn [fst snd] in *.
  rewrite rd_obj_w.
  - cbv beta iota. rewrite !get_txt. cbn [sget]. rewrite (proj2 (String.eqb_neq "tick_id" name) ltac:(congruence)). rewrite !String.eqb_refl. cbn [need].
    rewrite rw_i64, H2 by exact H1. reflexivity.
  - unfold fits. cbn [map fst forallb existsb]. rewrite !String.eqb_refl. rewrite !orb_true_r. cbn [orb andb]. apply bool_decide_eq_true_2.
    repeat constructor; [|apply not_elem_of_nil]. rewrite elem_of_list_singleton. congruence.
Qed.
Lemma rw_answer q a : answer_range q a -> rd_answer q (w_answer q a) = Some a.
Proof.
  intros H. destruct q, a; cbn [answer_range] in H; try contradiction; cbn [rd_answer w_answer].
  - apply rw_field, rw_decimal, H.
  - apply rw_field, rw_coin, H.
  - apply rw_field, rw_coin, H.
  - apply rw_field, rw_list. eapply Forall_impl; [exact H|]. intros c Hc. apply rw_coin, Hc.
  - rewrite (ticks_rw "tick_state" w_tick rd_tick); [reflexivity|discriminate|]. eapply Forall_impl; [exact H|]. intros x [X1 X2]. split; [exact X1|apply rw_tick, X2].
  - reflexivity.
  - apply rw_field, rw_decimal, H.
  - destruct H as [Hn Hl]. obj. rewrite rw_list, rw_u64; [reflexivity|exact Hn|]. eapply Forall_impl; [exact Hl|]. intros o Ho. apply rw_order, Ho.
  - rewrite rw_book by exact H. reflexivity.
  - rewrite (ticks_rw "tick_state" w_tick rd_tick); [reflexivity|discriminate|]. eapply Forall_impl; [exact H|]. intros x [X1 X2]. split; [exact X1|apply rw_tick, X2].
  - destruct H as [Hn Hl]. obj. rewrite rw_list, rw_u64; [reflexivity|exact Hn|]. eapply Forall_impl; [exact Hl|]. intros o Ho. apply rw_order, Ho.
  - obj. rewrite !rw_str. reflexivity.
  - rewrite rw_dec by exact H. reflexivity.
  - rewrite (ticks_rw "unrealized_cancels" (fun c : Z * Z => w_obj [("ask_unrealized_cancels", w_dec c.1); ("bid_unrealized_cancels", w_dec c.2)])); [reflexivity|discriminate|].
    eapply Forall_impl; [exact H|]. intros [t [x y]] (X1 & X2 & X3). cbn [fst snd] in *. split; [exact X1|]. obj. rewrite !rw_dec by assumption. reflexivity.
  - rewrite rw_maybe; [reflexivity| |discriminate]. intros; apply rw_str.
Qed.
Lemma first_elem {A} (l : list A) x : forall n, x ∈ takeZ n l -> x ∈ l.
Proof.
  induction l as [|y l IH]; intros n H; cbn [takeZ] in H; [exact H|]. destruct (n <=? 0); [inversion H|].
  apply elem_of_cons in H as [->|H]; [left|right; eapply IH; exact H].
Qed.
Lemma orders_at_elem s l o : o ∈ orders_at s l -> exists k, k ∈ l /\ s_orders s !! k = Some o.
Proof. unfold orders_at. intros H. apply elem_of_list_omap in H as (k & Hk & E). eauto. Qed.
Lemma count_ok s G p : inv s G -> 0 <= Z.of_nat (length (sorted_order_keys s p)) <= U64_MAX.
Proof.
  intros Hi. split; [lia|]. pose proof (i_next _ _ Hi) as Hn.
  assert (H : Z.of_nat (length (map (fun k : Z * Z => k.2 + 1) (sorted_order_keys s p))) <= next_id s).
  { apply bounded_length; [| |lia].
    - assert (Hnd := sok_nodup s p). assert (Hin : forall k, k ∈ sorted_order_keys s p -> exists o, s_orders s !! k = Some o).
      { intros k Hk. apply sok_elem in Hk as (o & E & _). eauto. }
      induction Hnd as [|k l Hk Hnd IH]; [constructor|]. cbn [map]. constructor; [|apply IH; intros; apply Hin; right; assumption].
      intros X. apply elem_of_list_fmap in X as (k' & E & Hk'). destruct (Hin k ltac:(left)) as [o Ho]. destruct (Hin k' ltac:(right; exact Hk')) as [o' Ho'].
      destruct k as [t id], k' as [t' id']. cbn [snd] in E. assert (id = id') as <- by lia. rewrite (i_ids _ _ Hi _ _ _ _ _ Ho Ho') in Hk. contradiction.
    - apply Forall_forall. intros x Hx. apply elem_of_list_fmap in Hx as (k & -> & Hk). apply sok_elem in Hk as (o & E & _).
      pose proof (oo_next _ _ _ _ (i_order _ _ Hi _ _ E)). lia. }
  rewrite map_length in H. lia.
Qed.
Lemma query_range w q a : reachable w -> store_range (w_st w) -> question_typed q = true -> query (w_st w) q = Ok a -> answer_range q a.
Proof.
  intros Hre Hs Hq H. destruct (reachable_inv _ Hre) as (G & Hi). set (s := w_st w) in *. pose proof DEC_pos as HD.
  destruct (i_book _ _ Hi) as (ob & Eob & Hbk). assert (Eload : load_orderbook s = Ok ob) by (unfold load_orderbook; rewrite Eob; reflexivity).
  assert (Hquote : forall c d f x, coin_typed c = true -> calc_out_amount_given_in s c d f = Ok x -> coin_range U256_MAX x).
  { intros c d f x Hc E. unfold calc_out_amount_given_in in E. apply rbind_inv in E as (u & _ & E). rewrite Eload in E. cbn [rbind] in E.
    apply rbind_inv in E as (di & Ed & E). apply rbind_inv in E as ([m dn] & Er & E). injection E as <-. cbn [fst snd].
    pose proof (u128_in _ Hc) as Hc'. destruct (internal_inv _ _ _ _ _ _ _ _ Hi Eob Hc' Er) as (l & fs & r & pr & Hp & -> & ->).
    unfold coin_range. cbn [c_amount mkt_after m_out]. rewrite Z.add_0_l. eapply out_range; try exact Hp; [exact Hi|lia]. }
  assert (Horders : forall p n, Forall order_range (takeZ n (orders_at s (sorted_order_keys s p)))).
  { intros p n. apply Forall_forall. intros o Ho. apply first_elem, orders_at_elem in Ho as (k & _ & E). apply (sr_orders _ Hs _ _ E). }
  destruct q; cbn [query] in H; unfold rmap in H.
  - apply rbind_inv in H as (p & Hp & H). injection H as <-. cbn [answer_range].
    assert (X : 0 <= p <= U128_MAX); [|exact X]. unfold spot_price in Hp. apply rbind_inv in Hp as (u & _ & Hp). rewrite Eload in Hp. cbn [rbind] in Hp.
    apply rbind_inv in Hp as (di & Ed & Hp). apply rbind_inv in Hp as (price & Et & Hp). apply rbind_inv in Hp as (sp & Es & Hp).
    destruct (Z.leb_spec sp U128_MAX) as [L|L]; [|discriminate]. injection Hp as <-. split; [|exact L].
    pose proof Hbk as [_ B2 B3 _ _]. destruct di.
    + rewrite (tick_to_price_ok _ B3) in Et. injection Et as <-. unfold dec_inv in Es. destruct (tick_price (ob_next_ask ob) =? 0); [discriminate|].
      injection Es as <-. apply Z.div_pos; [vm_compute; discriminate|apply tick_price_pos, B3].
    + rewrite (tick_to_price_ok _ B2) in Et. injection Et as <-. injection Es as <-. pose proof (tick_price_pos _ B2). lia.
  - apply rbind_inv in H as (c & Hc & H). injection H as <-. cbn [question_typed] in Hq. apply andb_prop in Hq as [Q1 _]. eapply Hquote; eauto.
  - apply rbind_inv in H as (c & Hc & H). injection H as <-. cbn [question_typed] in Hq. apply andb_prop in Hq as [Q1 _]. eapply Hquote; eauto.
  - apply rbind_inv in H as (l & Hl & H). injection H as <-. cbn [answer_range]. unfold total_pool_liquidity in Hl. rewrite Eload in Hl. cbn [rbind] in Hl. cbv zeta in Hl.
    assert (Hc : forall d x, match to_u128 (to_uint_floor (get_directional_liquidity s d)) with Ok x => Ok x | _ => Panic end = Ok x -> 0 <= x <= U128_MAX).
    { intros d x E. unfold to_u128 in E. destruct (Z.leb_spec (to_uint_floor (get_directional_liquidity s d)) U128_MAX) as [L|L]; [|discriminate]. injection E as <-.
      split; [|exact L]. unfold to_uint_floor. apply Z.div_pos; [|exact HD]. rewrite (liq_opens _ _ d Hi). apply Z.mul_nonneg_nonneg; [|lia].
      apply msum_nonneg. intros t ts Et. unfold opens, g_open. pose proof (so_F _ (i_side _ _ Hi t d)). lia. }
    apply rbind_inv in Hl as (x & Hx & Hl). apply rbind_inv in Hl as (y & Hy & Hl). injection Hl as <-. apply Hc in Hx, Hy. repeat constructor; apply Hx || apply Hy.
  - discriminate H.
  - cbn [all_ticks rbind] in H. unfold all_ticks in H. cbn [rbind] in H. injection H as <-. cbn [answer_range]. apply Forall_forall. intros [t ts] Hx.
    assert (Hin : (t, ts) ∈ omap (fun t => option_map (pair t) (s_ticks s !! t)) (sorted_keys (s_ticks s) start_from end_at)) by (destruct limit; [eapply first_elem; exact Hx|exact Hx]).
    apply elem_of_list_omap in Hin as (t' & _ & E). destruct (s_ticks s !! t') as [ts'|] eqn:Et; [|discriminate]. cbn in E. injection E as -> ->. apply (sr_ticks _ Hs _ _ Et).
  - injection H as <-. exact I.
  - injection H as <-. cbn [answer_range]. unfold get_swap_fee. split; [lia|vm_compute; discriminate].
  - unfold orders_by_owner in H. cbn [rbind fst snd] in H. injection H as <-. cbn [answer_range]. split; [apply is_u64, (count_ok _ _ _ Hi)|]. apply Horders.
  - unfold orderbook_state in H. rewrite Eload in H. cbn [rbind] in H. injection H as <-. apply (sr_book _ Hs), Eob.
  - apply rbind_inv in H as (l & Hl & H). injection H as <-. cbn [answer_range]. revert l Hl. clear Hq. induction ids as [|t ids IH]; intros l Hl; cbn [ticks_by_id] in Hl; [injection Hl as <-; constructor|].
    apply rbind_inv in Hl as (ts & Et & Hl). apply ok_or_inv in Et. apply rbind_inv in Hl as (l' & Hl' & Hl). injection Hl as <-. constructor; [apply (sr_ticks _ Hs _ _ Et)|apply IH, Hl'].
  - unfold orders_by_tick in H. cbn [rbind fst snd] in H. injection H as <-. cbn [answer_range]. split; [apply is_u64, (count_ok _ _ _ Hi)|]. apply Horders.
  - unfold denoms in H. rewrite Eload in H. cbn [rbind] in H. injection H as <-. exact I.
  - unfold query_maker_fee in H. cbn [rbind] in H. injection H as <-. cbn [answer_range]. destruct (i_fee _ _ Hi) as (f & Ef & Hf). unfold get_maker_fee. rewrite Ef. cbn. apply (sr_fee _ Hs), Ef.
  - apply rbind_inv in H as (l & Hl & H). injection H as <-. cbn [answer_range]. revert l Hl. clear Hq. induction ids as [|t ids IH]; intros l Hl; cbn [ticks_unrealized_cancels_by_id] in Hl; [injection Hl as <-; constructor|].
    apply rbind_inv in Hl as (ts & Et & Hl). apply ok_or_inv in Et. apply rbind_inv in Hl as (u & Hu & Hl). apply rbind_inv in Hl as (l' & Hl' & Hl). injection Hl as <-.
    constructor; [|apply IH, Hl']. cbn [fst snd]. split; [apply (sr_ticks _ Hs _ _ Et)|].
    pose proof (inv_tick_some _ _ _ _ Hi Et) as ->. unfold get_unrealized_cancels in Hu. rewrite !get_ts_of in Hu.
    assert (Hd : forall d, dec_ok (greedy (g_F (G t d) * DEC) 0 (canl G t d) - g_crc (G t d) * DEC)).
    { intros d. destruct (unrealized_spec s G t d Hi) as [_ Hp]. apply is_dec. split; [exact Hp|]. pose proof (i_side _ _ Hi t d) as Hside.
      pose proof (so_F _ Hside). pose proof (so_crc _ Hside). pose proof (so_max _ Hside).
      assert (ER : greedy (g_F (G t d) * DEC) 0 (canl G t d) = realc (g_F (G t d)) 0 0 (g_items (G t d)) * DEC).
      { rewrite greedy_real. unfold canl. rewrite <- (Z.mul_0_l DEC) at 1. rewrite scale_real. unfold g_cans. rewrite real_realc. reflexivity. }
      pose proof (realc_bounds (g_F (G t d)) 0 0 (g_items (G t d)) (all_at_impl _ _ _ _ _ (item_ok_pos _ _ _) (so_items _ Hside))). rewrite ER. nia. }
    rewrite (proj1 (unrealized_spec s G t Ask Hi)), (proj1 (unrealized_spec s G t Bid Hi)) in Hu. cbn [rbind] in Hu. injection Hu as <-. split; apply Hd.
  - injection H as <-. exact I.
Qed.
(** C71, answers: every answer of the contract is read back from its text by a client that knows what it asked - except that the answer to the
    maker-fee question is not of the declared form: a client that follows the declaration can never read it. *)
Theorem C71_answers :
  forall w0 h q a, start w0 -> history w0 h -> on_chain h -> question_typed q = true -> query (w_st (run w0 h)) q = Ok a ->
  from_json (rd_answer q) (to_json (w_answer q) a) = Some a /\
  (q = QGetMakerFee -> from_json rd_maker_fee_declared (to_json (w_answer q) a) = None).
Proof.
  intros w0 h q a H1 H2 H3 Hq H. assert (Hre : reachable (run w0 h)) by (apply start_reachable; assumption).
  pose proof (query_range _ _ _ Hre (run_range _ _ H1 H2 H3) Hq H) as Hr. split; [apply from_to, rw_answer, Hr|].
  intros ->. destruct a; try contradiction Hr. unfold from_json, to_json. rewrite parse_show. reflexivity.
Qed.
Print Assumptions C71_answers.

(** A concrete history, and the texts it leaves: a bid with a bounty, a partial fill, the claim by somebody else, a cancellation. *)
Definition hist_texts : list (env * call) :=
  [place "alice" 100000 Bid 1000 (Some (DEC / 100)); place "bob" 100000 Bid 500 None; sell "carol" 100; claim "dave" 100000 0; cancel "bob" 100000 1].
Definition bytes_of (t : text) : list Z := map code t.
Example C71_case :
  start w_start /\ history w_start hist_texts /\ on_chain hist_texts /\
  run_out w_start hist_texts = [true; true; true; true; true] /\
  option_map (fun j => str (show_json j)) (entry_json (w_st (run w_start hist_texts)) (RCell (COrder 100000 0))) =
    Some "{""tick_id"":100000,""order_id"":0,""order_direction"":""bid"",""owner"":""alice"",""quantity"":""890"",""etas"":""110"",""claim_bounty"":""0.01"",""placed_quantity"":""1000"",""placed_at"":""7""}" /\
  str (to_json w_exec (PlaceLimit (-5) Bid 100 (Some (DEC / 100)))) =
    "{""place_limit"":{""tick_id"":-5,""order_direction"":""bid"",""quantity"":""100"",""claim_bounty"":""0.01""}}" /\
  from_json rd_exec (txt " {""claim_limit"" : {""order_id"":3,""tick_id"":-5}} ") = Some (ClaimLimit (-5) 3) /\
  from_json rd_exec (txt "{""claim_limit"":{""order_id"":-3,""tick_id"":-5}}") = None /\
  from_json rd_exec (txt "{""claim_limit"":{""order_id"":3,""tick_id"":-5,""to"":""me""}}") = None /\
  map (fun r => (find (wr_attrs (render "contract" r)) "method", length (wr_msgs (render "contract" r)))) (responses w_start hist_texts) =
    [(Some "placeLimit", 0%nat); (Some "placeLimit", 0%nat); (Some "swapExactAmountIn", 1%nat); (Some "claimLimit", 2%nat); (Some "cancelLimit", 1%nat)] /\
  bytes_of (proto_send "c" "a" [mkCoin "uosmo" 120]) =
    [10; 1; 99; 18; 1; 97; 26; 12; 10; 5; 117; 111; 115; 109; 111; 18; 3; 49; 50; 48] /\
  foldl wire_heard ∅ (map (render "contract") (responses w_start hist_texts)) !! (100000, 0) = Some (mkKnown "alice" Bid 890 1000) /\
  narrow_price (2 ^ 128) = Err EStd /\
  (exists a, query (w_st (run w_start hist_texts)) QGetMakerFee = Ok a /\ str (to_json (w_answer QGetMakerFee) a) = """0""").
Proof.
  split; [exact start_ok|]. split; [hist|]. split; [repeat constructor; vm_compute; reflexivity|].
  do 10 (split; [vm_compute; reflexivity|]). eexists. split; [vm_compute; reflexivity|]. vm_compute. reflexivity.
Qed.
