(** * WireProofs: what is written can be read back. *)
From Verif Require Import Base Dec Types State Exec Wire.

Lemma str_txt s : str (txt s) = s.
Proof. apply String.string_of_list_ascii_of_string. Qed.
Lemma txt_str t : txt (str t) = t.
Proof. apply String.list_ascii_of_string_of_list_ascii. Qed.
Lemma code_chr z : 0 <= z < 256 -> code (chr z) = z.
Proof. intros H. unfold code, chr. rewrite N_ascii_embedding by lia. lia. Qed.
Lemma chr_code c : chr (code c) = c.
Proof. unfold code, chr. rewrite N2Z.id. apply ascii_N_embedding. Qed.
Lemma code_range c : 0 <= code c < 256.
Proof. unfold code. pose proof (N_ascii_bounded c). lia. Qed.
Lemma code_inj a b : code a = code b -> a = b.
Proof. intros H. rewrite <- (chr_code a), <- (chr_code b), H. reflexivity. Qed.

(** ** Integers *)
Lemma nat_value_app t c : nat_value (t ++ [c]) = nat_value t * 10 + (code c - 48).
Proof. unfold nat_value. rewrite foldl_app. reflexivity. Qed.
Lemma digit_code n : code (chr (48 + n mod 10)) = 48 + n mod 10.
Proof. apply code_chr. pose proof (Z.mod_pos_bound n 10). lia. Qed.
Lemma digit_is n : is_digit (chr (48 + n mod 10)) = true.
Proof. unfold is_digit. rewrite digit_code. pose proof (Z.mod_pos_bound n 10). apply andb_true_intro. split; apply Z.leb_le; lia. Qed.
Lemma dig_value fuel : forall n, 0 <= n < 10 ^ Z.of_nat fuel -> nat_value (dig fuel n) = n.
Proof.
  induction fuel as [|f IH]; intros n Hn; cbn [dig]; [cbn in *; lia|].
  rewrite Nat2Z.inj_succ, Z.pow_succ_r in Hn by lia. rewrite nat_value_app, digit_code.
  pose proof (Z.div_mod n 10) as HD. destruct (Z.ltb_spec n 10) as [H|H].
  - rewrite Z.mod_small by lia. cbn. lia.
  - rewrite IH; [lia|]. split; [apply Z.div_pos; lia|apply Z.div_lt_upper_bound; lia].
Qed.
Lemma dig_digits fuel n : forallb is_digit (dig fuel n) = true.
Proof.
  revert n. induction fuel as [|f IH]; intros n; cbn [dig]; [reflexivity|]. rewrite forallb_app. cbn [forallb]. rewrite digit_is, andb_true_r.
  destruct (n <? 10); cbn [andb forallb]; [reflexivity|]. rewrite IH. reflexivity.
Qed.
Lemma dig_length fuel : forall n k, 0 <= n < 10 ^ Z.of_nat k -> (1 <= k)%nat -> (length (dig fuel n) <= k)%nat.
Proof.
  induction fuel as [|f IH]; intros n k Hn Hk; cbn [dig]; [cbn; lia|]. rewrite app_length. cbn [length].
  destruct (Z.ltb_spec n 10) as [H|H]; [cbn; lia|]. destruct k as [|k]; [lia|]. rewrite Nat2Z.inj_succ, Z.pow_succ_r in Hn by lia.
  assert (length (dig f (n / 10)) <= k)%nat; [|lia]. apply IH.
  - split; [apply Z.div_pos; lia|apply Z.div_lt_upper_bound; lia].
  - destruct k; [cbn in Hn; lia|lia].
Qed.
Lemma fuel_enough n : 0 <= n -> 0 <= n < 10 ^ Z.of_nat (S (Z.to_nat (Z.log2 n))).
Proof.
  intros H. split; [exact H|]. pose proof (Z.log2_nonneg n). rewrite Nat2Z.inj_succ, Z2Nat.id by lia.
  destruct (Z.eq_dec n 0) as [->|]; [apply Z.pow_pos_nonneg; lia|]. pose proof (Z.log2_spec n ltac:(lia)) as [_ L].
  eapply Z.lt_le_trans; [exact L|]. apply Z.pow_le_mono_l. lia.
Qed.
Lemma show_nat_value n : 0 <= n -> nat_value (show_nat n) = n.
Proof. intros H. apply dig_value, fuel_enough, H. Qed.
Lemma show_nat_digits n : forallb is_digit (show_nat n) = true.
Proof. apply dig_digits. Qed.
Lemma show_nat_ne n : exists a c, show_nat n = a ++ [c].
Proof. unfold show_nat. cbn [dig]. eauto. Qed.
Lemma read_show_nat n : 0 <= n -> read_nat (show_nat n) = Some n.
Proof.
  intros H. unfold read_nat. rewrite show_nat_digits, show_nat_value by exact H.
  destruct (show_nat_ne n) as (a & c & ->). destruct a; reflexivity.
Qed.
Lemma show_nat_head n : exists c r, show_nat n = c :: r /\ is_digit c = true.
Proof.
  pose proof (show_nat_digits n) as H. destruct (show_nat n) as [|c r] eqn:E.
  - destruct (show_nat_ne n) as (a & c & E'). rewrite E in E'. destruct a; discriminate.
  - cbn [forallb] in H. apply andb_prop in H as [H _]. eauto.
Qed.
Lemma read_u_ok hi n : 0 <= n <= hi -> within (range hi) (read_nat (show_nat n)) = Some n.
Proof.
  intros H. rewrite read_show_nat by lia. unfold within, range.
  destruct (Z.leb_spec 0 n); [|lia]. destruct (Z.leb_spec n hi); [reflexivity|lia].
Qed.
Lemma read_u_big hi n : 0 <= n -> hi < n -> within (range hi) (read_nat (show_nat n)) = None.
Proof.
  intros H H'. rewrite read_show_nat by lia. unfold within, range.
  destruct (Z.leb_spec n hi); [lia|]. rewrite andb_false_r. reflexivity.
Qed.

(** ** Decimals *)
Lemma split_plain t : forallb is_digit t = true -> split t = [t].
Proof.
  induction t as [|c t IH]; intros H; [reflexivity|]. cbn [forallb] in H. apply andb_prop in H as [Hc Ht]. cbn [split].
  destruct (ascii_dec c ".") as [->|_]; [discriminate Hc|]. rewrite IH by exact Ht. reflexivity.
Qed.
Lemma split_point a b : forallb is_digit a = true -> forallb is_digit b = true -> split (a ++ "."%char :: b) = [a; b].
Proof.
  intros Ha Hb. induction a as [|c a IH]; cbn [app split].
  - rewrite split_plain by exact Hb. destruct (ascii_dec "." "."); [reflexivity|congruence].
  - cbn [forallb] in Ha. apply andb_prop in Ha as [Hc Ha]. destruct (ascii_dec c ".") as [->|_]; [discriminate Hc|]. rewrite IH by exact Ha. reflexivity.
Qed.
Lemma value_shift t v : foldl (fun v c => v * 10 + (code c - 48)) v t = v * 10 ^ Z.of_nat (length t) + nat_value t.
Proof.
  unfold nat_value. revert v. induction t as [|c t IH]; intros v; cbn [foldl length]; [cbn; lia|].
  rewrite IH, (IH (0 * 10 + _)), Nat2Z.inj_succ, Z.pow_succ_r by lia. lia.
Qed.
Lemma value_app a b : nat_value (a ++ b) = nat_value a * 10 ^ Z.of_nat (length b) + nat_value b.
Proof. unfold nat_value at 1. rewrite foldl_app. fold (nat_value a). apply value_shift. Qed.
Lemma value_zeros k : nat_value (repeat "0"%char k) = 0.
Proof. induction k as [|k IH]; [reflexivity|]. change (repeat "0"%char (S k)) with (["0"%char] ++ repeat "0"%char k). rewrite value_app, IH. change (nat_value ["0"%char]) with 0. lia. Qed.
Lemma digits_zeros k : forallb is_digit (repeat "0"%char k) = true.
Proof. induction k as [|k IH]; [reflexivity|]. cbn [repeat forallb]. rewrite IH. reflexivity. Qed.
Lemma trim_spec t : exists k, t = trim t ++ repeat "0"%char k.
Proof.
  induction t as [|c t [k IH]]; [exists 0%nat; reflexivity|]. cbn [trim]. destruct (trim t) as [|x l].
  - destruct (ascii_dec c "0") as [->|]; [exists (S k); cbn in *; rewrite <- IH; reflexivity|]. exists k. cbn in *. rewrite <- IH. reflexivity.
  - exists k. cbn [app] in *. rewrite IH at 1. reflexivity.
Qed.
Lemma DEC_18 : DEC = 10 ^ 18.
Proof. reflexivity. Qed.
Lemma read_show_decimal hi a : 0 <= a -> read_decimal hi (show_dec a) = within (range hi) (Some a).
Proof.
  intros Ha. unfold show_dec. cbv zeta. pose proof (Z.mod_pos_bound a DEC) as Hm. pose proof (Z.div_mod a DEC) as Hd. rewrite DEC_18 in Hm, Hd. rewrite <- !DEC_18 in *.
  assert (Hq : 0 <= a / DEC) by (apply Z.div_pos; [exact Ha|reflexivity]).
  destruct (Z.eqb_spec (a mod DEC) 0) as [E|E].
  - rewrite app_nil_r. unfold read_decimal. rewrite split_plain by apply show_nat_digits. rewrite read_show_nat by exact Hq.
    do 2 f_equal. specialize (Hd ltac:(discriminate)). lia.
  - set (f := a mod DEC) in *. assert (Hf : 0 < f < 10 ^ Z.of_nat 18) by (change (10 ^ Z.of_nat 18) with DEC; specialize (Hm ltac:(reflexivity)); lia).
    set (p := pad 18 (show_nat f)).
    assert (Lp : length p = 18%nat).
    { unfold p, pad. rewrite app_length, repeat_length. assert (length (show_nat f) <= 18)%nat; [|lia]. apply dig_length; lia. }
    assert (Vp : nat_value p = f) by (unfold p, pad; rewrite value_app, value_zeros, show_nat_value by lia; lia).
    assert (Dp : forallb is_digit p = true) by (unfold p, pad; rewrite forallb_app, digits_zeros, show_nat_digits; reflexivity).
    destruct (trim_spec p) as [k Ek].
    assert (Dt : forallb is_digit (trim p) = true) by (rewrite Ek, forallb_app in Dp; apply andb_prop in Dp as [D _]; exact D).
    assert (Lt : (length (trim p) + k = 18)%nat) by (rewrite Ek, app_length, repeat_length in Lp; exact Lp).
    assert (Vt : nat_value (trim p) * 10 ^ Z.of_nat k = f) by (transitivity (nat_value p); [|exact Vp]; transitivity (nat_value (trim p ++ repeat "0"%char k)); [rewrite value_app, value_zeros, repeat_length; lia|rewrite <- Ek; reflexivity]).
    unfold read_decimal. rewrite split_point by (apply show_nat_digits || exact Dt). rewrite read_show_nat by exact Hq.
    assert (Rt : read_nat (trim p) = Some (nat_value (trim p))).
    { unfold read_nat. rewrite Dt. destruct (trim p) as [|c l] eqn:Et; [|reflexivity]. exfalso. cbn in Vt. lia. }
    rewrite Rt. destruct (Nat.leb_spec (length (trim p)) 18); [|lia]. do 2 f_equal.
    replace (18 - length (trim p))%nat with k by lia. rewrite Vt. specialize (Hd ltac:(discriminate)). lia.
Qed.
Lemma read_show_dec a : 0 <= a <= U256_MAX -> read_dec (show_dec a) = Some a.
Proof.
  intros H. unfold read_dec. rewrite read_show_decimal by lia. unfold within, range. destruct (Z.leb_spec 0 a); [|lia]. destruct (Z.leb_spec a U256_MAX); [reflexivity|lia].
Qed.

(** ** Strings *)
Lemma read_esc t : forall r, read_body (flat_map esc t ++ quote :: r) = Some (t, r).
Proof.
  induction t as [|c t IH]; intros r.
  - cbn [flat_map app read_body]. destruct (ascii_dec quote quote); [reflexivity|congruence].
  - cbn [flat_map]. rewrite <- app_assoc. pose proof (IH r) as E. clear IH. set (u := flat_map esc t ++ quote :: r) in *. clearbody u.
    destruct c as [[] [] [] [] [] [] [] []];
      (match goal with |- context [esc ?c] => let v := eval vm_compute in (esc c) in change (esc c) with v end);
      cbn [app read_body]; rewrite E; reflexivity.
Qed.
Lemma read_show_str t r : read_str (show_str t ++ r) = Some (t, r).
Proof.
  unfold show_str, read_str. cbn [app]. destruct (ascii_dec quote quote) as [_|C]; [|congruence]. rewrite <- app_assoc. apply read_esc.
Qed.

(** ** JSON *)
(** After a number comes something that is not a digit. *)
Definition stop (r : text) : Prop := match r with c :: _ => is_digit c = false | [] => True end.
Lemma span_ok d r : forallb is_digit d = true -> stop r -> span_digits (d ++ r) = (d, r).
Proof.
  intros Hd Hr. induction d as [|c d IH].
  - destruct r as [|c r]; [reflexivity|]. cbn [app span_digits]. cbn in Hr. rewrite Hr. reflexivity.
  - cbn [forallb] in Hd. apply andb_prop in Hd as [Hc Hd]. cbn [app span_digits]. rewrite Hc, IH by exact Hd. reflexivity.
Qed.
Lemma read_show_num z r : stop r -> read_num (show_int z ++ r) = Some (z, r).
Proof.
  intros Hr. unfold show_int. destruct (Z.ltb_spec z 0) as [H|H].
  - cbn [app]. unfold read_num. destruct (ascii_dec "-" "-"); [|congruence]. rewrite span_ok by (apply show_nat_digits || exact Hr). rewrite read_show_nat by lia. do 2 f_equal. lia.
  - destruct (show_nat_head z) as (c & t & E & Hc). unfold read_num. rewrite E at 1. cbn [app]. destruct (ascii_dec c "-") as [->|_]; [discriminate Hc|].
    rewrite span_ok by (apply show_nat_digits || exact Hr). rewrite read_show_nat by lia. reflexivity.
Qed.
(** How a value begins. *)
Definition starts (c : ascii) : Prop := is_space c = false /\ c <> "]"%char /\ c <> "}"%char /\ c <> ","%char /\ c <> ":"%char.
Lemma digit_starts c : is_digit c = true -> starts c.
Proof.
  intros H. unfold is_digit in H. apply andb_prop in H as [H1 H2]. apply Z.leb_le in H1, H2.
  split; [unfold is_space; repeat (apply orb_false_intro); apply Z.eqb_neq; lia|].
  repeat split; intros ->; vm_compute in H1, H2; congruence.
Qed.
Lemma show_head j : exists c r, show_json j = c :: r /\ starts c.
Proof.
  destruct j as [|[]|z|t|l|l].
  1-3: eexists _, _; split; [reflexivity|repeat split; discriminate].
  2-4: eexists _, _; split; [reflexivity|repeat split; discriminate].
  cbn [show_json]. unfold show_int. destruct (z <? 0).
  - eexists _, _; split; [reflexivity|repeat split; discriminate].
  - destruct (show_nat_head z) as (c & r & E & Hc). exists c, r. split; [exact E|apply digit_starts, Hc].
Qed.
Lemma ws_starts c r : is_space c = false -> ws (c :: r) = c :: r.
Proof. intros H. cbn [ws]. rewrite H. reflexivity. Qed.
Lemma ws_show j r : ws (show_json j ++ r) = show_json j ++ r.
Proof. destruct (show_head j) as (c & t & -> & H & _). apply ws_starts, H. Qed.
Lemma expect_ok c r : is_space c = false -> expect c (c :: r) = Some r.
Proof. intros H. unfold expect. rewrite ws_starts by exact H. destruct (ascii_dec c c); congruence. Qed.
Lemma expect_no c a r : is_space a = false -> a <> c -> expect c (a :: r) = None.
Proof. intros H N. unfold expect. rewrite ws_starts by exact H. destruct (ascii_dec a c); congruence. Qed.
Lemma strip_head p a r c p' : p = c :: p' -> a <> c -> strip p (a :: r) = None.
Proof. intros -> N. cbn [strip]. destruct (ascii_dec c a); congruence. Qed.

(** The text of the elements of an array or object, with the closing bracket. *)
Fixpoint show_items (first : bool) (l : list json) : text :=
  match l with
  | [] => ["]"%char]
  | j :: l => (if first then [] else [","%char]) ++ show_json j ++ show_items false l
  end.
Fixpoint show_fields (first : bool) (l : list (text * json)) : text :=
  match l with
  | [] => ["}"%char]
  | (k, j) :: l => (if first then [] else [","%char]) ++ show_str k ++ ":"%char :: show_json j ++ show_fields false l
  end.
Lemma show_arr l : show_json (JArr l) = "["%char :: show_items true l.
Proof. reflexivity. Qed.
Lemma show_obj l : show_json (JObj l) = "{"%char :: show_fields true l.
Proof. reflexivity. Qed.
(** Induction through the lists. *)
Lemma json_rect' (P : json -> Prop) :
  P JNull -> (forall b, P (JBool b)) -> (forall z, P (JNum z)) -> (forall t, P (JStr t)) ->
  (forall l, Forall P l -> P (JArr l)) -> (forall l, Forall (fun x => P x.2) l -> P (JObj l)) -> forall j, P j.
Proof.
  intros H1 H2 H3 H4 H5 H6. fix IH 1. intros [|b|z|t|l|l]; [exact H1|exact (H2 b)|exact (H3 z)|exact (H4 t)| |].
  - apply H5. induction l as [|j l IHl]; constructor; [apply IH|exact IHl].
  - apply H6. induction l as [|[k j] l IHl]; constructor; [apply IH|exact IHl].
Qed.
Definition reads (j : json) : Prop :=
  forall fuel r, (length (show_json j) <= fuel)%nat -> stop r -> read_json fuel (show_json j ++ r) = Some (j, r).
Lemma items_ok l : Forall reads l -> forall fuel r, l <> [] -> (length (show_items true l) <= fuel)%nat ->
  read_items fuel (show_items true l ++ r) = Some (l, r).
Proof.
  induction 1 as [|j l Hj Hl IH]; intros fuel r Hne Hf; [congruence|]. clear Hne.
  cbn [show_items app] in Hf |- *. rewrite <- app_assoc.
  assert (L : (0 < length (show_items false l))%nat) by (destruct l; cbn [show_items]; rewrite ?app_length; cbn; lia).
  rewrite app_length in Hf. destruct fuel as [|f]; [lia|]. cbn [read_items].
  rewrite Hj; [|lia|destruct l; reflexivity].
  destruct l as [|j' l].
  - cbn [show_items app]. rewrite expect_ok by reflexivity. reflexivity.
  - cbn [show_items app] in Hf |- *. rewrite (expect_no "]" ",") by (reflexivity || discriminate). rewrite expect_ok by reflexivity.
    change (show_json j' ++ show_items false l) with (show_items true (j' :: l)). rewrite IH; [reflexivity|discriminate|].
    cbn [show_items app length] in Hf |- *. lia.
Qed.
Lemma fields_ok l : Forall (fun x => reads x.2) l -> forall fuel r, l <> [] -> (length (show_fields true l) <= fuel)%nat ->
  read_fields fuel (show_fields true l ++ r) = Some (l, r).
Proof.
  induction 1 as [|[k j] l Hj Hl IH]; intros fuel r Hne Hf; [congruence|]. clear Hne. cbn [snd] in Hj.
  cbn [show_fields app] in Hf |- *. rewrite <- app_assoc. cbn [app]. rewrite <- app_assoc.
  assert (L : (0 < length (show_fields false l))%nat) by (destruct l as [|[? ?] ?]; cbn [show_fields]; rewrite ?app_length; cbn; lia).
  rewrite app_length in Hf. cbn [length] in Hf. rewrite app_length in Hf. destruct fuel as [|f]; [lia|]. cbn [read_fields].
  assert (W : forall x, ws (show_str k ++ x) = show_str k ++ x) by (intros x; apply ws_starts; reflexivity).
  rewrite W, read_show_str. rewrite expect_ok by reflexivity.
  rewrite Hj; [|lia|destruct l as [|[? ?] ?]; reflexivity].
  destruct l as [|[k' j'] l].
  - cbn [show_fields app]. rewrite expect_ok by reflexivity. reflexivity.
  - cbn [show_fields app] in Hf |- *. rewrite (expect_no "}" ",") by (reflexivity || discriminate). rewrite expect_ok by reflexivity.
    change (show_str k' ++ ":"%char :: show_json j' ++ show_fields false l) with (show_fields true ((k', j') :: l)). rewrite IH; [reflexivity|discriminate|].
    cbn [show_fields app length] in Hf |- *. lia.
Qed.
Lemma read_show_json : forall j, reads j.
Proof.
  apply json_rect'.
  - intros fuel r Hf _. destruct fuel; [cbn in Hf; lia|]. reflexivity.
  - intros [] fuel r Hf _; (destruct fuel; [cbn in Hf; lia|]; reflexivity).
  - intros z fuel r Hf Hr. destruct fuel as [|f]; [destruct (show_head (JNum z)) as (c & t & E & _); rewrite E in Hf; cbn in Hf; lia|]. clear Hf.
    pose proof (ws_show (JNum z) r) as W. cbn [read_json]. rewrite W. cbn [show_json].
    pose proof (read_show_num z r Hr) as N.
    assert (H : exists c t, show_int z = c :: t /\ (c = "-"%char \/ is_digit c = true)).
    { unfold show_int. destruct (z <? 0); [eauto|]. destruct (show_nat_head z) as (c & t & -> & Hc). eauto. }
    destruct H as (c & t & E & Hc). rewrite E in N |- *. cbn [app] in N |- *.
    assert (D : forall x, is_digit x = false -> x <> "-"%char -> c <> x) by (intros x H1 H2 ->; destruct Hc; congruence).
    rewrite (strip_head (txt "null") c _ "n" (txt "ull")), (strip_head (txt "true") c _ "t" (txt "rue")), (strip_head (txt "false") c _ "f" (txt "alse"));
      [|reflexivity|apply D; [reflexivity|discriminate]|reflexivity|apply D; [reflexivity|discriminate]|reflexivity|apply D; [reflexivity|discriminate]].
    destruct (ascii_dec c quote) as [->|_]; [exfalso; eapply (D quote); [reflexivity|discriminate|reflexivity]|].
    destruct (ascii_dec c "[") as [->|_]; [exfalso; eapply (D "["%char); [reflexivity|discriminate|reflexivity]|].
    destruct (ascii_dec c "{") as [->|_]; [exfalso; eapply (D "{"%char); [reflexivity|discriminate|reflexivity]|].
    rewrite N. reflexivity.
  - intros t fuel r Hf _. destruct fuel as [|f]; [cbn in Hf; lia|]. cbn [show_json]. unfold show_str. cbn [read_json app]. rewrite (ws_starts quote) by reflexivity.
    rewrite (strip_head (txt "null") quote _ "n" (txt "ull")), (strip_head (txt "true") quote _ "t" (txt "rue")), (strip_head (txt "false") quote _ "f" (txt "alse")) by (reflexivity || discriminate). destruct (ascii_dec quote quote); [|congruence]. rewrite <- app_assoc. cbn [app]. rewrite read_esc. reflexivity.
  - intros l Hl fuel r Hf _. rewrite show_arr in Hf |- *. cbn [length app] in Hf |- *. destruct fuel as [|f]; [lia|]. cbn [read_json]. rewrite (ws_starts "[") by reflexivity.
    rewrite (strip_head (txt "null") "["%char _ "n" (txt "ull")), (strip_head (txt "true") "["%char _ "t" (txt "rue")), (strip_head (txt "false") "["%char _ "f" (txt "alse")) by (reflexivity || discriminate).
    destruct (ascii_dec "[" quote) as [C|_]; [discriminate C|]. destruct (ascii_dec "[" "["); [|congruence].
    destruct l as [|j l]; [cbn [show_items app]; rewrite expect_ok by reflexivity; reflexivity|].
    assert (X : expect "]" (show_items true (j :: l) ++ r) = None).
    { cbn [show_items app]. destruct (show_head j) as (c & t & -> & H1 & H2 & _). cbn [app]. apply expect_no; assumption. }
    rewrite X, items_ok; [reflexivity|exact Hl|discriminate|lia].
  - intros l Hl fuel r Hf _. rewrite show_obj in Hf |- *. cbn [length app] in Hf |- *. destruct fuel as [|f]; [lia|]. cbn [read_json]. rewrite (ws_starts "{") by reflexivity.
    rewrite (strip_head (txt "null") "{"%char _ "n" (txt "ull")), (strip_head (txt "true") "{"%char _ "t" (txt "rue")), (strip_head (txt "false") "{"%char _ "f" (txt "alse")) by (reflexivity || discriminate).
    destruct (ascii_dec "{" quote) as [C|_]; [discriminate C|]. destruct (ascii_dec "{" "[") as [C|_]; [discriminate C|]. destruct (ascii_dec "{" "{"); [|congruence].
    destruct l as [|[k j] l]; [cbn [show_fields app]; rewrite expect_ok by reflexivity; reflexivity|].
    assert (X : expect "}" (show_fields true ((k, j) :: l) ++ r) = None).
    { cbn [show_fields app]. unfold show_str. cbn [app]. apply expect_no; [reflexivity|discriminate]. }
    rewrite X, fields_ok; [reflexivity|exact Hl|discriminate|lia].
Qed.
Lemma parse_show j : parse (show_json j) = Some j.
Proof.
  unfold parse. pose proof (read_show_json j (S (length (show_json j))) [] ltac:(lia) I) as H. rewrite app_nil_r in H. rewrite H. reflexivity.
Qed.
