(** * Proofs about tick_to_price and the amount conversions. *)
From Coq Require Import ZifyBool.
From Verif Require Import Base Dec Types TickMath SpecMath.
Ltac Zify.zify_post_hook ::= Z.div_mod_to_equations.

Lemma DEC_ATOM : DEC = ATOM. Proof. reflexivity. Qed.
Lemma DEC_pos : 0 < DEC. Proof. reflexivity. Qed.
Lemma DEC_val : DEC = 1000000000000000000. Proof. reflexivity. Qed.

Lemma pow10_pos k : 0 <= k -> 0 < 10 ^ k.
Proof. intros; apply Z.pow_pos_nonneg; lia. Qed.
Lemma pow10_mono a b : a <= b -> 10 ^ a <= 10 ^ b.
Proof. intros; apply Z.pow_le_mono_r; lia. Qed.

Lemma pow_ten_nonneg e : 0 <= e <= 58 -> pow_ten e = Ok (10 ^ (18 + e)).
Proof.
  intros He. unfold pow_ten, checked_pow256. rewrite Z.abs_eq by lia.
  pose proof (pow10_mono e 58 ltac:(lia)) as H58. pose proof (pow10_pos e ltac:(lia)).
  assert (10 ^ 58 <= U256_MAX) by (vm_compute; discriminate).
  assert (10 ^ 58 * DEC <= U256_MAX) by (vm_compute; discriminate).
  destruct (Z.leb_spec (10 ^ e) U256_MAX); [|lia]. cbn [rbind].
  destruct (Z.ltb_spec e 0); [lia|].
  unfold checked_mul256. rewrite Z.mul_1_l.
  destruct (Z.leb_spec (10 ^ e) U256_MAX); [|lia]. cbn [rbind].
  unfold dec_from_ratio, dec_checked_from_ratio. cbn [Z.eqb]. rewrite Z.div_1_r.
  pose proof DEC_pos.
  destruct (Z.leb_spec (10 ^ e * DEC) U256_MAX); [|nia].
  f_equal. rewrite Z.pow_add_r by lia. unfold DEC. lia.
Qed.

Lemma pow_ten_neg e : -18 <= e < 0 -> pow_ten e = Ok (10 ^ (18 + e)).
Proof.
  intros He. unfold pow_ten, checked_pow256. rewrite Z.abs_neq by lia.
  pose proof (pow10_mono (- e) 18 ltac:(lia)). pose proof (pow10_pos (- e) ltac:(lia)).
  assert (10 ^ 18 <= U256_MAX) by (vm_compute; discriminate).
  destruct (Z.leb_spec (10 ^ (- e)) U256_MAX); [|lia]. cbn [rbind].
  destruct (Z.ltb_spec e 0); [|lia].
  unfold dec_checked_from_ratio.
  destruct (Z.eqb_spec (10 ^ (- e)) 0); [lia|].
  rewrite Z.mul_1_l.
  assert (Hd : DEC / 10 ^ (- e) = 10 ^ (18 + e)).
  { unfold DEC. replace 18 with ((18 + e) + - e) at 1 by lia.
    rewrite Z.pow_add_r by lia. apply Z.div_mul. lia. }
  rewrite Hd.
  pose proof (pow10_mono (18 + e) 18 ltac:(lia)).
  destruct (Z.leb_spec (10 ^ (18 + e)) U256_MAX); [reflexivity|lia].
Qed.

Lemma pow_ten_ok e : -18 <= e <= 58 -> pow_ten e = Ok (10 ^ (18 + e)).
Proof.
  intros. destruct (Z.lt_ge_cases e 0); [apply pow_ten_neg|apply pow_ten_nonneg]; lia.
Qed.

Lemma dec_from_ratio_1 a : 0 <= a -> a * DEC <= U256_MAX -> dec_from_ratio a 1 = Ok (a * DEC).
Proof.
  intros Ha Hb. unfold dec_from_ratio, dec_checked_from_ratio. cbn [Z.eqb]. rewrite Z.div_1_r.
  destruct (Z.leb_spec (a * DEC) U256_MAX); [reflexivity|lia].
Qed.

Lemma dec_checked_mul_int a b :
  a * b <= U256_MAX -> dec_checked_mul (a * DEC) b = Ok (a * b).
Proof.
  intros Hb. unfold dec_checked_mul.
  replace (a * DEC * b) with (a * b * DEC) by lia. rewrite Z.div_mul by (pose proof DEC_pos; lia).
  destruct (Z.leb_spec (a * b) U256_MAX); [reflexivity|lia].
Qed.

(** The arithmetic of quotient and remainder by 9,000,000. *)
Lemma tick_to_price_ok t : valid_tick t -> tick_to_price t = Ok (tick_price t).
Proof.
  unfold valid_tick, tick_to_price, tick_price. intros Ht.
  destruct (Z.eqb_spec t 0) as [->|Hne]; [reflexivity|].
  unfold MIN_TICK, MAX_TICK, GEOMETRIC_INCREMENT, EXPONENT_AT_PRICE_ONE.
  destruct (Z.leb_spec (-108000000) t); [|lia].
  destruct (Z.leb_spec t 182402823); [|lia]. cbn [andb rensure rbind].
  set (k := t / 9000000). set (m := t mod 9000000).
  assert (Htk : t = 9000000 * k + m) by (apply Z.div_mod; lia).
  assert (Hm : 0 <= m < 9000000) by (apply Z.mod_pos_bound; lia).
  assert (Hk : -12 <= k <= 20) by lia.
  destruct (Z.ltb_spec t 0) as [Hneg|Hpos].
  - (* negative tick *)
    destruct (Z.eq_dec m 0) as [Hm0|Hm0].
    + (* exact power of ten *)
      assert (Hq : Z.quot t 9000000 = k).
      { symmetry. apply Z.quot_unique_exact; lia. }
      rewrite Hq.
      replace (t - k * 9000000) with 0 by lia. rewrite Hm0, Z.add_0_r.
      destruct (Z.eq_dec k (-12)) as [->|Hk12]; [reflexivity|].
      rewrite (pow_ten_ok (-6 + k - 1)) by lia. cbn [rbind].
      rewrite (pow_ten_ok k) by lia. cbn [rbind Z.abs].
      change (dec_from_ratio (Z.abs 0) 1) with (@Ok Z 0). cbn [rbind].
      change (dec_checked_mul 0 (10 ^ (18 + (-6 + k - 1)))) with (@Ok Z 0). cbn [rbind].
      change (0 <? 0) with false. cbn iota.
      unfold checked_add256. rewrite Z.add_0_r.
      assert (10 ^ (18 + k) <= U256_MAX).
      { etransitivity; [apply (pow10_mono _ 38); lia|vm_compute; discriminate]. }
      destruct (Z.leb_spec (10 ^ (18 + k)) U256_MAX); [|lia].
      f_equal. replace (18 + k) with (12 + k + 6) by lia. apply Z.pow_add_r; lia.
    + assert (Hq : Z.quot t 9000000 = k + 1).
      { replace t with (- (- t)) by lia. rewrite Z.quot_opp_l by lia.
        rewrite <- (Z.quot_unique (- t) 9000000 (- (k + 1)) (9000000 - m)) by lia. lia. }
      rewrite Hq.
      assert (k <= -1) by lia.
      replace (t - (k + 1) * 9000000) with (- (9000000 - m)) by lia.
      rewrite (pow_ten_ok (-6 + (k + 1) - 1)) by lia. cbn [rbind].
      rewrite (pow_ten_ok (k + 1)) by lia. cbn [rbind].
      rewrite Z.abs_opp, Z.abs_eq by lia.
      assert (Hbig : 10 ^ 20 * DEC <= U256_MAX) by (vm_compute; discriminate).
      pose proof DEC_pos.
      rewrite dec_from_ratio_1 by (try nia; lia). cbn [rbind].
      pose proof (pow10_pos (12 + k) ltac:(lia)).
      pose proof (pow10_mono (12 + k) 12 ltac:(lia)) as H12.
      replace (18 + (-6 + (k + 1) - 1)) with (12 + k) by lia.
      assert (HH : (9000000 - m) * 10 ^ (12 + k) <= U256_MAX).
      { transitivity (9000000 * 10 ^ 12); [nia|vm_compute; discriminate]. }
      rewrite dec_checked_mul_int by exact HH. cbn [rbind].
      destruct (Z.ltb_spec (- (9000000 - m)) 0); [|lia].
      unfold checked_sub.
      assert (E : 10 ^ (18 + (k + 1)) = 10 ^ (12 + k) * 10 ^ 7).
      { rewrite <- Z.pow_add_r by lia. f_equal. lia. }
      rewrite E. change (10 ^ 7) with 10000000. change (10 ^ 6) with 1000000.
      destruct (Z.leb_spec ((9000000 - m) * 10 ^ (12 + k)) (10 ^ (12 + k) * 10000000)); [|nia].
      f_equal. nia.
  - assert (Hq : Z.quot t 9000000 = k).
    { symmetry. apply Z.quot_unique with (r := m); lia. }
    rewrite Hq. replace (t - k * 9000000) with m by lia.
    rewrite (pow_ten_ok (-6 + k)) by lia. cbn [rbind].
    rewrite (pow_ten_ok k) by lia. cbn [rbind].
    rewrite Z.abs_eq by lia.
    assert (Hbig : 10 ^ 20 * DEC <= U256_MAX) by (vm_compute; discriminate).
    pose proof DEC_pos.
    rewrite dec_from_ratio_1 by (try nia; lia). cbn [rbind].
    replace (18 + (-6 + k)) with (12 + k) by lia.
    pose proof (pow10_pos (12 + k) ltac:(lia)).
    pose proof (pow10_mono (12 + k) 32 ltac:(lia)) as H12.
    assert (HH : m * 10 ^ (12 + k) <= U256_MAX).
    { transitivity (9000000 * 10 ^ 32); [nia|vm_compute; discriminate]. }
    rewrite dec_checked_mul_int by exact HH. cbn [rbind].
    destruct (Z.ltb_spec m 0); [lia|].
    unfold checked_add256.
    assert (E : 10 ^ (18 + k) = 10 ^ (12 + k) * 10 ^ 6).
    { rewrite <- Z.pow_add_r by lia. f_equal. lia. }
    rewrite E. change (10 ^ 6) with 1000000.
    assert (10 ^ (12 + k) * 1000000 + m * 10 ^ (12 + k) <= U256_MAX).
    { transitivity (10000000 * 10 ^ 32); [nia|vm_compute; discriminate]. }
    destruct (Z.leb_spec (10 ^ (12 + k) * 1000000 + m * 10 ^ (12 + k)) U256_MAX); [|lia].
    f_equal. lia.
Qed.

Lemma tick_to_price_err t : ~ valid_tick t -> tick_to_price t = Err (ETickOutOfBounds t).
Proof.
  unfold valid_tick, tick_to_price. intros Ht.
  destruct (Z.eqb_spec t 0) as [->|Hne]; [exfalso; lia|].
  unfold MIN_TICK, MAX_TICK.
  destruct (Z.leb_spec (-108000000) t), (Z.leb_spec t 182402823); cbn; try reflexivity.
  exfalso; lia.
Qed.

Lemma tick_price_succ t : -108000000 <= t -> tick_price t < tick_price (t + 1).
Proof.
  intros Ht. unfold tick_price.
  set (k := t / 9000000). set (m := t mod 9000000).
  assert (Htk : t = 9000000 * k + m) by (apply Z.div_mod; lia).
  assert (Hm : 0 <= m < 9000000) by (apply Z.mod_pos_bound; lia).
  assert (Hk : -12 <= k) by lia.
  pose proof (pow10_pos (12 + k) ltac:(lia)).
  change (10 ^ 6) with 1000000.
  destruct (Z.eq_dec m 8999999) as [Hmx|Hmx].
  - assert (E1 : (t + 1) / 9000000 = k + 1).
    { symmetry. apply Z.div_unique with (r := 0); lia. }
    assert (E2 : (t + 1) mod 9000000 = 0).
    { symmetry. apply Z.mod_unique with (q := k + 1); lia. }
    rewrite E1, E2. replace (12 + (k + 1)) with ((12 + k) + 1) by lia.
    rewrite (Z.pow_add_r 10 (12 + k) 1) by lia. change (10 ^ 1) with 10. nia.
  - assert (E1 : (t + 1) / 9000000 = k).
    { symmetry. apply Z.div_unique with (r := m + 1); lia. }
    assert (E2 : (t + 1) mod 9000000 = m + 1).
    { symmetry. apply Z.mod_unique with (q := k); lia. }
    rewrite E1, E2. nia.
Qed.

Lemma tick_price_mono a b : -108000000 <= a -> a < b -> tick_price a < tick_price b.
Proof.
  intros Ha Hab.
  replace b with (a + 1 + Z.of_nat (Z.to_nat (b - a - 1))) by lia.
  generalize (Z.to_nat (b - a - 1)) as n. intros n.
  induction n as [|n IH].
  - replace (a + 1 + Z.of_nat 0) with (a + 1) by lia. apply tick_price_succ; lia.
  - replace (a + 1 + Z.of_nat (S n)) with (a + 1 + Z.of_nat n + 1) by lia.
    etransitivity; [exact IH|]. apply tick_price_succ. lia.
Qed.

Lemma tick_price_mono_le a b : -108000000 <= a -> a <= b -> tick_price a <= tick_price b.
Proof.
  intros Ha Hab. destruct (Z.eq_dec a b) as [->|]; [lia|].
  pose proof (tick_price_mono a b Ha ltac:(lia)). lia.
Qed.

Lemma tick_price_min : tick_price MIN_TICK = min_spot_price. Proof. reflexivity. Qed.
Lemma tick_price_max : tick_price MAX_TICK = max_spot_price. Proof. reflexivity. Qed.

Lemma tick_price_range t : valid_tick t -> min_spot_price <= tick_price t <= max_spot_price.
Proof.
  intros [H1 H2]. rewrite <- tick_price_min, <- tick_price_max.
  split; apply tick_price_mono_le; unfold MIN_TICK, MAX_TICK; lia.
Qed.

Lemma tick_price_pos t : valid_tick t -> 0 < tick_price t.
Proof. intros H. pose proof (tick_price_range t H). unfold min_spot_price in *. lia. Qed.

(** No tick price lies strictly between 1 and 1 + 10^-6. *)
Lemma tick_price_gap t : valid_tick t -> tick_price t <= DEC \/ DEC + 10 ^ 12 <= tick_price t.
Proof.
  intros [H1 H2]. destruct (Z.le_gt_cases t 0) as [H|H].
  - left. change DEC with (tick_price 0). apply tick_price_mono_le; lia.
  - right. change (DEC + 10 ^ 12) with (tick_price 1). apply tick_price_mono_le; lia.
Qed.

(** ** Conversions *)
Lemma ceil_div_eq a : 0 <= a -> to_uint_ceil a = ceil_div a DEC.
Proof.
  intros Ha. unfold to_uint_ceil, ceil_div. rewrite DEC_val.
  destruct (Z.eqb_spec a 0); lia.
Qed.

Definition price_ok (p : Z) : Prop := min_spot_price <= p <= max_spot_price.

Lemma multiply_by_price_spec a p r :
  0 <= a <= U128_MAX -> price_ok p ->
  multiply_by_price a p r =
  Ok (match r with RDown => floor_div (a * p) DEC | RUp => ceil_div (a * p) DEC end).
Proof.
  intros Ha [Hp1 Hp2]. unfold multiply_by_price.
  pose proof DEC_pos. unfold min_spot_price in Hp1.
  assert (U128_MAX * DEC <= U256_MAX) by (vm_compute; discriminate).
  rewrite dec_from_ratio_1 by nia. cbn [rbind].
  assert (H1 : U128_MAX * max_spot_price <= U256_MAX) by (vm_compute; discriminate).
  assert (H2 : a * p <= U256_MAX) by nia.
  unfold dec_checked_mul. replace (p * (a * DEC)) with (a * p * DEC) by lia.
  rewrite Z.div_mul by lia.
  destruct (Z.leb_spec (a * p) U256_MAX); [|lia].
  destruct r; cbn [round]; [reflexivity|]. f_equal. apply ceil_div_eq. nia.
Qed.

Lemma divide_by_price_spec a p r :
  0 <= a <= U128_MAX -> price_ok p ->
  divide_by_price a p r =
  Ok (match r with
      | RDown => floor_div (a * DEC) p
      | RUp => ceil_div (floor_div (a * DEC * DEC) p) DEC
      end).
Proof.
  intros Ha [Hp1 Hp2]. unfold divide_by_price.
  pose proof DEC_pos. unfold min_spot_price in Hp1.
  assert (U128_MAX * DEC <= U256_MAX) by (vm_compute; discriminate).
  rewrite dec_from_ratio_1 by nia. cbn [rbind].
  unfold dec_checked_div, dec_checked_from_ratio.
  destruct (Z.eqb_spec p 0); [lia|].
  assert (H1 : U128_MAX * DEC * DEC / 10 ^ 6 <= U256_MAX) by (vm_compute; discriminate).
  assert (H2 : a * DEC * DEC / p <= U256_MAX).
  { etransitivity; [|exact H1].
    transitivity (a * DEC * DEC / 10 ^ 6).
    - apply Z.div_le_compat_l; [nia|]. unfold min_spot_price in *. lia.
    - apply Z.div_le_mono; [lia|]. nia. }
  destruct (Z.leb_spec (a * DEC * DEC / p) U256_MAX); [|lia].
  destruct r; cbn [round].
  - unfold to_uint_floor, floor_div. f_equal.
    rewrite Z.div_div by lia. rewrite Z.div_mul_cancel_r by lia. reflexivity.
  - f_equal. apply ceil_div_eq. apply Z.div_pos; nia.
Qed.

Lemma amount_to_value_spec d a p r :
  0 <= a <= U128_MAX -> price_ok p ->
  amount_to_value d a p r =
  Ok (match d, r with
      | Ask, RDown => floor_div (a * p) DEC
      | Ask, RUp => ceil_div (a * p) DEC
      | Bid, RDown => floor_div (a * DEC) p
      | Bid, RUp => ceil_div (floor_div (a * DEC * DEC) p) DEC
      end).
Proof.
  intros Ha Hp. unfold amount_to_value.
  destruct (Z.eqb_spec a 0) as [->|Hne].
  - destruct d, r; reflexivity.
  - destruct d.
    + rewrite divide_by_price_spec by assumption. destruct r; reflexivity.
    + rewrite multiply_by_price_spec by assumption. destruct r; reflexivity.
Qed.

Lemma C01_lemma :
  (forall t, valid_tick t ->
     tick_to_price t = Ok (tick_price t) /\
     min_spot_price <= tick_price t <= max_spot_price) /\
  (forall t, ~ valid_tick t -> exists err, tick_to_price t = Err err) /\
  (forall a b, valid_tick a -> valid_tick b -> a < b -> tick_price a < tick_price b).
Proof.
  split; [|split].
  - intros t Ht. split; [apply tick_to_price_ok; exact Ht|apply tick_price_range; exact Ht].
  - intros t Ht. eexists. apply tick_to_price_err; exact Ht.
  - intros a b Ha Hb Hab. apply tick_price_mono; [apply Ha|exact Hab].
Qed.

Lemma C02_lemma :
  forall (t a : Z), valid_tick t -> 0 <= a <= U128_MAX ->
  let p := tick_price t in
  (exists price, tick_to_price t = Ok price /\
   amount_to_value Ask a price RDown = Ok (floor_div (a * p) ATOM) /\
   amount_to_value Ask a price RUp = Ok (ceil_div (a * p) ATOM) /\
   amount_to_value Bid a price RDown = Ok (floor_div (a * ATOM) p) /\
   exists x, amount_to_value Bid a price RUp = Ok (ceil_div x ATOM) /\
             x * p <= a * ATOM * ATOM < (x + 1) * p).
Proof.
  intros t a Ht Ha p. exists p. split; [apply tick_to_price_ok; exact Ht|].
  pose proof (tick_price_range t Ht) as Hp. pose proof (tick_price_pos t Ht) as Hpos. fold p in Hp, Hpos.
  split; [|split; [|split]]; try (rewrite amount_to_value_spec; [reflexivity|exact Ha|exact Hp]).
  exists (floor_div (a * ATOM * ATOM) p). split; [rewrite amount_to_value_spec; [reflexivity|exact Ha|exact Hp]|].
  unfold floor_div. set (y := a * ATOM * ATOM).
  pose proof (Z.div_mod y p ltac:(lia)). pose proof (Z.mod_pos_bound y p ltac:(lia)). nia.
Qed.
