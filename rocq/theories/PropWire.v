(** * Property C71: texts.  What is written - announcements, payments, stored values, messages, answers - can be read back, unambiguously. *)
From Verif Require Import Base Dec Types State TickMath Sumtree Tick Order Auth Contract Query World SpecMath TickMathProofs
  TreeDefs Exec SumtreeProofs SumtreeRebalance SumtreeInsert PrefixSum SumtreeRoot SumtreeFail Ghost Inv StepPlace StepCancel StepClaim
  SwapPlan StepSwap Trans Spec Reach Refine RefineStep Reserve Solvency Books SpecProps PropBase Tests PropOrders PropClaims PropSwap SpecEvents PropEvents
  SpecCost Keys SpecKeys PropKeys Wire WireProofs Codec SpecWire CodecProofs.

(** ** The listener *)
Lemma digit_not_minus c : is_digit c = true -> c <> "-"%char.
Proof. intros H ->. discriminate H. Qed.
Lemma read_show_int z : read_int (str (show_int z)) = Some z.
Proof.
  unfold read_int. rewrite txt_str. unfold show_int. destruct (Z.ltb_spec z 0) as [L|L].
  - destruct (ascii_dec "-" "-") as [_|N]; [|congruence]. rewrite read_show_nat by lia. cbn. f_equal. lia.
  - destruct (show_nat_head z) as (c & r & E & Hc). rewrite E. destruct (ascii_dec c "-") as [->|_]; [discriminate Hc|]. rewrite <- E. apply read_show_nat, L.
Qed.
Lemma read_show_side d : read_side (str (show_dir d)) = Some d. Proof. destruct d; reflexivity. Qed.
Lemma wire_claim_ok K ev : wire_claim K (show_event ev) = heard_claim K ev.
Proof.
  unfold wire_claim, show_event. cbn [we_type we_attrs]. pick. cbv zeta. cbn [find]. pick. rewrite !read_show_int, read_show_side.
  unfold heard_claim. destruct (ce_fully_claimed ev); reflexivity.
Qed.
Lemma wire_claims_ok l : forall K, foldl wire_claim K (map show_event l) = foldl heard_claim K l.
Proof. induction l as [|ev l IH]; intros K; cbn [map foldl]; [reflexivity|]. rewrite wire_claim_ok. apply IH. Qed.
Lemma find_attr l name : find (map (fun a : string * attr => (a.1, show_attr a.2)) l) name = option_map show_attr (attr_get l name).
Proof. induction l as [|[k v] l IH]; [reflexivity|]. cbn [map find attr_get fst snd]. destruct (bool_decide (k = name)); [reflexivity|apply IH]. Qed.
Lemma wire_silent self K r : attr_get (r_attrs r) "order_id" = None -> wire_heard K (render self r) = heard K r.
Proof.
  intros H. unfold wire_heard, heard, render. cbn [wr_events wr_attrs]. rewrite wire_claims_ok. cbv zeta. rewrite !find_attr, H.
  destruct (attr_get (r_attrs r) "method") as [[]|]; try reflexivity; destruct (attr_get (r_attrs r) "tick_id") as [[]|]; reflexivity.
Qed.
Lemma auth_attrs e i m s s' r : auth_dispatch e i m s = (s', Ok r) -> attr_get (r_attrs r) "order_id" = None.
Proof.
  intros H. revert H. destruct m; cbn [auth_dispatch];
    unfold dispatch_transfer_admin, dispatch_cancel_admin_transfer, dispatch_claim_admin, dispatch_reject_admin_transfer,
      dispatch_renounce_adminship, dispatch_offer_moderator, dispatch_claim_moderator, dispatch_reject_moderator_offer,
      dispatch_set_active, dispatch_set_maker_fee, dispatch_set_maker_fee_recipient, ensure_is_admin, ensure_is_admin_or_moderator,
      offer_admin, remove_admin_transfer, update_admin, remove_admin, offer_moderator, remove_moderator_offer, update_moderator, set_active, set_maker_fee;
    intros H.
  all: repeat match type of H with
       | mbindM _ _ _ = _ => first [rewrite bind_read in H | rewrite bind_mod in H | rewrite bind_assoc in H |
            (let x := fresh "x" in let s1 := fresh "s1" in let H1 := fresh "Hm" in
             apply bind_inv in H as (x & s1 & H1 & H);
             first [ apply mensure_inv in H1 as [-> H1] | apply mlift_inv in H1 as [-> H1] | apply mret_inv in H1 as [-> ->] ])]
       | mret _ _ = _ => apply mret_inv in H as [-> ->]
       end.
  all: reflexivity.
Qed.
Lemma sudo_attrs e m s s' r : swap_args (CSudo m) = None -> sudo e m s = (s', Ok r) -> attr_get (r_attrs r) "order_id" = None.
Proof.
  intros Hm H. unfold sudo in H. apply bind_inv in H as (u & s1 & H1 & H). apply active_inv in H1 as [-> _].
  destruct m as [? ? ? ? ?|? ? ? ? ? ?|? ? ? ? ?|a| |b]; try discriminate Hm.
  - unfold mlift in H. discriminate.
  - unfold update_admin in H. rewrite bind_assoc in H. apply bind_inv in H as (u1 & s1 & H1 & H). apply mlift_inv in H1 as [-> H1].
    rewrite bind_mod in H. apply mret_inv in H as [-> ->]. reflexivity.
  - unfold remove_admin in H. rewrite bind_mod in H. apply mret_inv in H as [-> ->]. reflexivity.
  - unfold set_active in H. rewrite bind_mod in H. apply mret_inv in H as [-> ->]. reflexivity.
Qed.
Lemma trans_wire self e s G c r s' G' K : trans e s G c r s' G' -> wire_heard K (render self r) = heard K r.
Proof.
  intros H. destruct H as [i t0 d0 q b ob Hq Hp Ha|i t0 id ob o n cc m' tr' c' Ha A1 A2 A3 A4 A5 A6 A7 A8|i t0 id ob s' G' a ms o Ha A1 A2 A3
    |i l ob s' G' ms es Ha A1 A2 A3 A4|i m r s' A1 A2 A3 A4|cl sender tin outd mn fee target d0 ob l fs rest pr Ha A1 A2 A3 A4 A5 A6 A7
    |m r s' Ha A1 A2 A3 A4 A5 A6 A7|cl A]; try (apply wire_silent; first [reflexivity|eapply auth_attrs; eassumption|eapply sudo_attrs; eassumption]).
  - unfold wire_heard, heard, render. cbn [wr_events wr_attrs]. rewrite wire_claims_ok. cbv zeta. rewrite !find_attr.
    match goal with |- context [attr_get ?l _] => set (L := l) end. cbn in L. subst L. cbn [attr_get]. pick. cbn [option_map show_attr]. rewrite !read_show_int, read_show_side. pick. reflexivity.
  - unfold wire_heard, heard, render. cbn [wr_events wr_attrs]. rewrite wire_claims_ok. cbv zeta. rewrite !find_attr.
    match goal with |- context [attr_get ?l _] => set (L := l) end. cbn in L. subst L. cbn [attr_get]. pick. cbn [option_map show_attr]. rewrite !read_show_int, read_show_side. pick. reflexivity.
Qed.

(** C71, announcements: a listener that sees only the strings of the announcements - attribute and event texts - knows exactly the stored orders. *)
Theorem C71_listener :
  forall w0 h, start w0 -> history w0 h ->
  foldl wire_heard ∅ (map (render (w_self w0)) (responses w0 h)) = SpecEvents.stored (w_st (run w0 h)).
Proof.
  intros w0 h Hs Hh. rewrite <- C42_indexer by assumption.
  assert (Hre : reachable w0) by (apply (start_reachable w0 []); [assumption|constructor]). clear Hs.
  generalize (∅ : table). generalize (w_self w0) at 1. intros self.
  revert w0 Hre Hh. induction h as [|[e c] h IH]; intros w Hre Hh K; [reflexivity|].
  inversion Hh as [|x l Hok Hh']; subst. cbn [snd] in Hok. unfold responses. cbn [collect]. rewrite map_app, !foldl_app.
  fold (responses (fst (step e w c)) h). rewrite IH; [|apply step_reach; assumption|unfold history; rewrite step_self; assumption].
  f_equal. destruct (step e w c) as [w' [r|]] eqn:E; cbn [fst snd map foldl]; [|reflexivity].
  destruct (reachable_inv _ Hre) as (G & Hi). destruct (step_done _ _ _ _ _ _ Hi Hok E) as (G' & Ht & _). eapply trans_wire; eauto.
Qed.
Print Assumptions C71_listener.

(** ** Payments *)
Lemma varint_step f n : varint (S f) n = if n <? 128 then [chr n] else chr (128 + n mod 128) :: varint f (n / 128).
Proof. reflexivity. Qed.
Lemma read_varint_ok fuel : forall n r, 0 <= n < 128 ^ Z.of_nat (S fuel) -> read_varint (varint (S fuel) n ++ r) = Some (n, r).
Proof.
  induction fuel as [|f IH]; intros n r Hn; rewrite varint_step.
  - change (128 ^ Z.of_nat 1) with 128 in Hn. destruct (Z.ltb_spec n 128); [|lia].
    cbn [app read_varint]. rewrite code_chr by lia. destruct (Z.ltb_spec n 128); [reflexivity|lia].
  - rewrite Nat2Z.inj_succ, Z.pow_succ_r in Hn by lia. destruct (Z.ltb_spec n 128) as [L|L].
    { cbn [app read_varint]. rewrite code_chr by lia. destruct (Z.ltb_spec n 128); [reflexivity|lia]. }
    cbn [app read_varint]. pose proof (Z.mod_pos_bound n 128 ltac:(lia)). pose proof (Z.div_mod n 128 ltac:(lia)).
    rewrite code_chr by lia. destruct (Z.ltb_spec (128 + n mod 128) 128); [lia|].
    rewrite IH; [cbn [fst snd]; do 2 f_equal; lia|]. split; [apply Z.div_pos; lia|]. apply Z.div_lt_upper_bound; lia.
Qed.
Lemma read_len n r : read_varint (proto_len n ++ r) = Some (Z.of_nat n, r).
Proof.
  unfold proto_len. apply read_varint_ok. split; [lia|]. rewrite Nat2Z.inj_succ.
  pose proof (Z.pow_gt_lin_r 128 (Z.succ (Z.of_nat n)) ltac:(lia) ltac:(lia)). lia.
Qed.
(** A message as its fields. *)
Definition encode (l : list (Z * text)) : text := flat_map (fun x => proto_bytes x.1 x.2) l.
Definition small (n : Z) : Prop := 0 < n < 31.
Lemma read_encode l : Forall (fun x => small x.1) l -> forall fuel, (length l <= fuel)%nat -> read_proto fuel (encode l) = Some l.
Proof.
  induction 1 as [|[n b] l Hn Hl IH]; intros fuel Hf; [destruct fuel; reflexivity|]. destruct fuel as [|f]; [cbn in Hf; lia|].
  cbn [fst] in Hn. unfold small in Hn. cbn [encode flat_map fst snd]. fold (encode l). unfold proto_bytes. rewrite <- app_comm_cons, <- app_assoc. cbn [read_proto].
  rewrite code_chr by lia. replace ((8 * n + 2) mod 8) with 2 by (rewrite Z.add_comm, Z.mul_comm, Z.mod_add by lia; reflexivity).
  replace ((8 * n + 2) / 8) with n by (rewrite Z.add_comm, Z.mul_comm, Z.div_add by lia; reflexivity).
  cbn [Z.eqb Pos.eqb]. rewrite read_len. cbn [fst snd]. rewrite app_length. destruct (Z.leb_spec (Z.of_nat (length b)) (Z.of_nat (length b + length (encode l)))) as [_|L]; [|lia].
  rewrite Nat2Z.id, take_app, drop_app, IH by (cbn in Hf; lia). reflexivity.
Qed.
Lemma encode_length l : (length l <= length (encode l))%nat.
Proof. induction l as [|x l IH]; [cbn; lia|]. cbn [encode flat_map]. fold (encode l). unfold proto_bytes. rewrite app_length. cbn [length]. lia. Qed.
Lemma fields_encode l : Forall (fun x => small x.1) l -> fields_of (encode l) = Some l.
Proof. intros H. apply read_encode; [exact H|apply encode_length]. Qed.
(** String fields that are empty are left out. *)
Definition opt (n : Z) (b : text) : list (Z * text) := match b with [] => [] | _ => [(n, b)] end.
Lemma encode_app a b : encode (a ++ b) = encode a ++ encode b.
Proof. apply flat_map_app. Qed.
Lemma encode_opt n b : encode (opt n b) = proto_string n b.
Proof. destruct b as [|c b]; [reflexivity|]. cbn [opt encode flat_map fst snd proto_string]. apply app_nil_r. Qed.
Lemma opt_small n b : small n -> Forall (fun x : Z * text => small x.1) (opt n b).
Proof. intros H. destruct b; repeat constructor; apply H. Qed.
Lemma read_proto_coin c : 0 <= c_amount c ->
  (let* l := fields_of (proto_coin c) in read_amount (field 1 l) (field 2 l)) = Some c.
Proof.
  intros H. assert (E : proto_coin c = encode (opt 1 (txt (c_denom c)) ++ opt 2 (show_nat (c_amount c)))) by (unfold proto_coin; rewrite encode_app, !encode_opt; reflexivity).
  rewrite E, fields_encode by (apply Forall_app; split; apply opt_small; unfold small; lia).
  assert (E1 : field 1 (opt 1 (txt (c_denom c)) ++ opt 2 (show_nat (c_amount c))) = c_denom c).
  { unfold field. rewrite foldl_app. rewrite <- (str_txt (c_denom c)) at 2. f_equal. destruct (show_nat (c_amount c)), (txt (c_denom c)); reflexivity. }
  assert (E2 : field 2 (opt 1 (txt (c_denom c)) ++ opt 2 (show_nat (c_amount c))) = str (show_nat (c_amount c))).
  { unfold field. rewrite foldl_app. f_equal. destruct (show_nat (c_amount c)), (txt (c_denom c)); reflexivity. }
  rewrite E1, E2. unfold read_amount. rewrite txt_str, read_show_nat by exact H. destruct c; reflexivity.
Qed.
Lemma read_send self m : 0 < c_amount (sm_coin m) ->
  read_msg (show_msg self m).2 = Some (if sm_reply m =? REPLY_ID_REFUND then None else Some self, sm_to m, [sm_coin m]).
Proof.
  intros H. unfold show_msg. cbn [snd]. destruct (sm_reply m =? REPLY_ID_REFUND).
  - cbn [read_msg map fst snd]. unfold read_amount. rewrite txt_str, read_show_nat by lia. destruct (sm_coin m); reflexivity.
  - cbn [read_msg]. rewrite bool_decide_eq_true_2 by reflexivity. set (L := opt 1 (txt self) ++ opt 2 (txt (sm_to m)) ++ [(3, proto_coin (sm_coin m))]).
    assert (E : proto_send self (sm_to m) [sm_coin m] = encode L).
    { unfold proto_send, L. rewrite !encode_app, !encode_opt. reflexivity. }
    rewrite E, fields_encode by (apply Forall_app; split; [|apply Forall_app; split]; try apply opt_small; try (repeat constructor; cbn); unfold small; lia).
    assert (E3 : fields 3 L = [proto_coin (sm_coin m)]).
    { unfold fields, L. rewrite !flat_map_app. destruct (txt self), (txt (sm_to m)); reflexivity. }
    rewrite E3. cbn [map all_some]. rewrite read_proto_coin by lia.
    assert (E1 : field 1 L = self).
    { unfold field, L. rewrite !foldl_app. rewrite <- (str_txt self) at 2. f_equal. destruct (txt self), (txt (sm_to m)); reflexivity. }
    assert (E2 : field 2 L = sm_to m).
    { unfold field, L. rewrite !foldl_app. rewrite <- (str_txt (sm_to m)) at 2. f_equal. destruct (txt self), (txt (sm_to m)); reflexivity. }
    rewrite E1, E2. reflexivity.
Qed.
Lemma sends_pos e self l : forall b b', sends e self b l = Some b' -> Forall (fun m => 0 < c_amount (sm_coin m)) l.
Proof.
  induction l as [|m l IH]; intros b b' H; [constructor|]. cbn [sends] in H. destruct (send1 e self b m) as [b1|] eqn:E.
  - constructor; [|eapply IH; exact H]. unfold send1 in E. cbv zeta in E. destruct (0 <? c_amount (sm_coin m)) eqn:E0; [apply Z.ltb_lt, E0|discriminate].
  - cbn in H. discriminate.
Qed.
Lemma out_range s G ob d bound q l fs r pr : inv s G -> 0 <= q -> swap_pre s G ob d bound q l fs r pr -> 0 <= sum_out fs <= U256_MAX.
Proof.
  intros Hi Hq [P1 P2 P3 P4 P5]. pose proof DEC_pos as HD. destruct (plan_good_inv _ _ _ _ _ _ _ _ _ _ Hi Hq P3 P4) as [Hg _].
  destruct (plan_ctx _ _ _ _ _ _ Hi P3) as (C1 & C2 & C3 & C4).
  pose proof (sum_out_le _ _ _ _ (pg_fills _ _ _ _ _ _ _ _ Hg) (pg_ticks _ _ _ _ _ _ _ _ Hg) C3) as Hso.
  assert (Hlm : lsumf (opens G (opposite d)) l <= msum (fun t _ => opens G (opposite d) t) (s_ticks s)).
  { apply lsumf_msum; [assumption|eapply ordered_nodup; eauto|]. intros t Ht. apply C2 in Ht as [E _]. eauto. }
  assert (Hso0 : 0 <= sum_out fs).
  { pose proof (pg_fills _ _ _ _ _ _ _ _ Hg) as Hff. clear -Hff. induction Hff as [|f fs (H & _) _ IH]; cbn; lia. }
  pose proof (liq_opens _ _ (opposite d) Hi) as Ho. pose proof (i_liqmax _ _ Hi (opposite d)). nia.
Qed.
Lemma trans_data e w G c r s' G' x : inv (w_st w) G -> call_ok (w_self w) c = true -> trans e (w_st w) G c r s' G' -> r_data r = Some x -> 0 <= x <= U256_MAX.
Proof.
  intros Hi Hok H E. destruct H as [i t0 d0 q b ob Hq Hp Ha|i t0 id ob o n cc m' tr' c' Ha A1 A2 A3 A4 A5 A6 A7 A8|i t0 id ob s' G' a ms o Ha A1 A2 A3
    |i l ob s' G' ms es Ha A1 A2 A3 A4|i m r s' A1 A2 A3 A4|cl sender tin outd mn fee target d0 ob l fs rest pr Ha A1 A2 A3 A4 A5 A6 A7
    |m r s' Ha A1 A2 A3 A4 A5 A6 A7|cl A]; try discriminate E.
  - exfalso. revert A1. destruct m; cbn [auth_dispatch];
    unfold dispatch_transfer_admin, dispatch_cancel_admin_transfer, dispatch_claim_admin, dispatch_reject_admin_transfer,
      dispatch_renounce_adminship, dispatch_offer_moderator, dispatch_claim_moderator, dispatch_reject_moderator_offer,
      dispatch_set_active, dispatch_set_maker_fee, dispatch_set_maker_fee_recipient, ensure_is_admin, ensure_is_admin_or_moderator,
      offer_admin, remove_admin_transfer, update_admin, remove_admin, offer_moderator, remove_moderator_offer, update_moderator, set_active, set_maker_fee;
    intros H.
    all: repeat match type of H with
       | mbindM _ _ _ = _ => first [rewrite bind_read in H | rewrite bind_mod in H | rewrite bind_assoc in H |
            (let x := fresh "x" in let s1 := fresh "s1" in let H1 := fresh "Hm" in
             apply bind_inv in H as (x & s1 & H1 & H);
             first [ apply mensure_inv in H1 as [-> H1] | apply mlift_inv in H1 as [-> H1] | apply mret_inv in H1 as [-> ->] ])]
       | mret _ _ = _ => apply mret_inv in H as [-> ->]
       end.
    all: discriminate E.
  - cbn [swap_resp r_data] in E. injection E as <-. apply (out_range _ _ _ _ _ _ _ _ _ _ Hi) in A6; [exact A6|].
    pose proof (call_funds_typed _ _ Hok) as Hty. rewrite (swap_funds _ _ _ _ _ _ _ A1) in Hty. cbn [forallb] in Hty. apply andb_prop in Hty as [Hty _].
    unfold coin_typed, u128 in Hty. apply andb_prop in Hty as [T1 _]. apply Z.leb_le in T1. exact T1.
  - exfalso. unfold sudo in A1. apply bind_inv in A1 as (u & s1 & H1 & H). apply active_inv in H1 as [-> _].
    destruct m as [? ? ? ? ?|? ? ? ? ? ?|? ? ? ? ?|a| |b]; try discriminate A2.
    + unfold mlift in H. discriminate.
    + unfold update_admin in H. rewrite bind_assoc in H. apply bind_inv in H as (u1 & s1 & H1 & H). apply mlift_inv in H1 as [-> H1].
      rewrite bind_mod in H. apply mret_inv in H as [-> ->]. discriminate E.
    + unfold remove_admin in H. rewrite bind_mod in H. apply mret_inv in H as [-> ->]. discriminate E.
    + unfold set_active in H. rewrite bind_mod in H. apply mret_inv in H as [-> ->]. discriminate E.
Qed.
Lemma done_sends e w c w' r : step e w c = (w', Done r) -> exists b', sends e (w_self w) (credits (w_bal w) (call_funds c)) (r_msgs r) = Some b'.
Proof.
  unfold step. intros H. cbv zeta in H. destruct (call_run e c (w_st w)) as [s' [r'|er| |]]; try discriminate.
  destruct (sends e (w_self w) (credits (w_bal w) (call_funds c)) (r_msgs r')) as [b'|] eqn:E; [|discriminate]. injection H as <- <-. eauto.
Qed.

(** C71, payments: read as bank messages, the bytes of the sub-messages of a call that went through say exactly who pays whom how much, and the
    data of a swap says how much came out. *)
Theorem C71_payments :
  forall e w c w' r, reachable w -> call_ok (w_self w) c = true -> step e w c = (w', Done r) ->
  map (fun m => (m.1, read_msg m.2)) (wr_msgs (render (w_self w) r)) =
    map (fun m => (sm_reply m, Some (if sm_reply m =? REPLY_ID_REFUND then None else Some (w_self w), sm_to m, [sm_coin m]))) (r_msgs r) /\
  option_map read_data (wr_data (render (w_self w) r)) = option_map Some (r_data r).
Proof.
  intros e w c w' r Hre Hok H. split.
  - destruct (done_sends _ _ _ _ _ H) as [b' Hs]. apply sends_pos in Hs. unfold render. cbn [wr_msgs]. rewrite map_map.
    apply map_ext_in. intros m Hm. rewrite Forall_forall in Hs. specialize (Hs m ltac:(apply elem_of_list_In, Hm)). rewrite read_send by exact Hs. reflexivity.
  - unfold render. cbn [wr_data]. destruct (r_data r) as [x|] eqn:E; [|reflexivity]. cbn [option_map]. f_equal.
    destruct (reachable_inv _ Hre) as (G & Hi). destruct (step_done _ _ _ _ _ _ Hi Hok H) as (G' & Ht & _).
    pose proof (trans_data _ _ _ _ _ _ _ _ Hi Hok Ht E) as Hx. unfold read_data, show_data, from_json, to_json. rewrite parse_show.
    apply (rw_field "token_out_amount" rd_u256 (fun x => x)). apply rw_uint, Hx.
Qed.
Print Assumptions C71_payments.
