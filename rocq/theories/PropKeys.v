(** * C70: the raw store behind the maps. *)
From Verif Require Import Base Dec Types State TickMath Sumtree Tick Order Auth Contract Query World Spec SpecMath SpecProps SpecCost Keys SpecKeys
  Exec Inv StepSwap Reach PropBase PropQuery Tests.

(** ** Bytes *)
Lemma be_length n x : length (be n x) = n.
Proof. revert x. induction n as [|n IH]; intros x; cbn [be]; [reflexivity|]. rewrite app_length, IH. cbn. lia. Qed.
Lemma app_inj_len {A} (a b x y : list A) : length a = length b -> a ++ x = b ++ y -> a = b /\ x = y.
Proof. intros L E. apply app_inj_1; assumption. Qed.
Lemma be_inj n : forall x y, 0 <= x < 256 ^ Z.of_nat n -> 0 <= y < 256 ^ Z.of_nat n -> be n x = be n y -> x = y.
Proof.
  induction n as [|n IH]; intros x y Hx Hy E; [cbn in *; lia|].
  rewrite Nat2Z.inj_succ, Z.pow_succ_r in Hx, Hy by lia. cbn [be] in E. apply app_inj_len in E as [E1 E2]; [|rewrite !be_length; reflexivity].
  injection E2 as E2. apply IH in E1.
  - pose proof (Z.div_mod x 256). pose proof (Z.div_mod y 256). lia.
  - split; [apply Z.div_pos; lia|apply Z.div_lt_upper_bound; lia].
  - split; [apply Z.div_pos; lia|apply Z.div_lt_upper_bound; lia].
Qed.
Lemma blt_app p a b : blt (p ++ a) (p ++ b) <-> blt a b.
Proof. induction p as [|x p IH]; cbn [app blt]; [reflexivity|]. rewrite IH. split; [intros [H|[_ H]]; [lia|exact H]|auto]. Qed.
Lemma blt_irrefl a : ~ blt a a.
Proof. induction a as [|x a IH]; cbn; [tauto|]. intros [H|[_ H]]; [lia|auto]. Qed.
Lemma blt_trans a b c : blt a b -> blt b c -> blt a c.
Proof.
  revert b c. induction a as [|x a IH]; intros [|y b] [|z c]; cbn; try tauto.
  intros [H1|[-> H1]] [H2|[-> H2]]; [left; lia|left; lia|left; lia|right; split; [reflexivity|eauto]].
Qed.
Lemma blt_split a b x y : length a = length b -> blt (a ++ x) (b ++ y) <-> blt a b \/ (a = b /\ blt x y).
Proof.
  revert b. induction a as [|i a IH]; intros [|j b] L; cbn in *; try discriminate; [tauto|]. injection L as L. rewrite (IH b L).
  split.
  - intros [H|[-> [H|[-> H]]]]; auto.
  - intros [[H|[-> H]]|[[= -> ->] H]]; auto.
Qed.
Lemma be_lt n : forall x y, 0 <= x < 256 ^ Z.of_nat n -> 0 <= y < 256 ^ Z.of_nat n -> (blt (be n x) (be n y) <-> x < y).
Proof.
  induction n as [|n IH]; intros x y Hx Hy; [cbn in *; lia|].
  rewrite Nat2Z.inj_succ, Z.pow_succ_r in Hx, Hy by lia. cbn [be]. rewrite blt_split by (rewrite !be_length; reflexivity).
  assert (X : 0 <= x / 256 < 256 ^ Z.of_nat n) by (split; [apply Z.div_pos; lia|apply Z.div_lt_upper_bound; lia]).
  assert (Y : 0 <= y / 256 < 256 ^ Z.of_nat n) by (split; [apply Z.div_pos; lia|apply Z.div_lt_upper_bound; lia]).
  rewrite (IH _ _ X Y). pose proof (Z.div_mod x 256). pose proof (Z.div_mod y 256). pose proof (Z.mod_pos_bound x 256). pose proof (Z.mod_pos_bound y 256).
  cbn [blt]. split.
  - intros [K|[K [K'|[_ K']]]]; [lia| |contradiction]. apply (be_inj n _ _ X Y) in K. lia.
  - intros K. destruct (Z.eq_dec (x / 256) (y / 256)) as [E|E]; [right; rewrite E; split; [reflexivity|left; lia]|left; lia].
Qed.
Lemma i64_range x : i64 x = true -> 0 <= x + 2 ^ 63 < 256 ^ Z.of_nat 8.
Proof. unfold i64. intros H. apply andb_prop in H as [H1 H2]. apply Z.leb_le in H1. apply Z.ltb_lt in H2. change (256 ^ Z.of_nat 8) with (2 ^ 64). lia. Qed.
Lemma u64_range x : u64 x = true -> 0 <= x < 256 ^ Z.of_nat 8.
Proof. unfold u64, U64_MAX. intros H. apply andb_prop in H as [H1 H2]. apply Z.leb_le in H1, H2. change (256 ^ Z.of_nat 8) with (2 ^ 64). lia. Qed.
Lemma i64_inj x y : i64 x = true -> i64 y = true -> i64_key x = i64_key y -> x = y.
Proof. intros Hx Hy E. apply be_inj in E; [lia|apply i64_range, Hx|apply i64_range, Hy]. Qed.
Lemma u64_inj x y : u64 x = true -> u64 y = true -> u64_key x = u64_key y -> x = y.
Proof. intros Hx Hy E. apply be_inj in E; [lia|apply u64_range, Hx|apply u64_range, Hy]. Qed.
Lemma i64_lt x y : i64 x = true -> i64 y = true -> blt (i64_key x) (i64_key y) <-> x < y.
Proof. intros Hx Hy. unfold i64_key. rewrite be_lt by (apply i64_range; assumption). lia. Qed.
Lemma u64_lt x y : u64 x = true -> u64 y = true -> blt (u64_key x) (u64_key y) <-> x < y.
Proof. intros Hx Hy. unfold u64_key. rewrite be_lt by (apply u64_range; assumption). lia. Qed.
Lemma str_length a : length (str_key a) = String.length a.
Proof. unfold str_key. rewrite map_length. induction a as [|c a IH]; cbn; [reflexivity|]. rewrite IH. reflexivity. Qed.
Lemma str_inj a b : str_key a = str_key b -> a = b.
Proof.
  unfold str_key. revert b. induction a as [|x a IH]; intros [|y b] E; cbn in E; try discriminate; [reflexivity|].
  injection E as E1 E2. apply IH in E2 as ->. apply N2Z.inj in E1. apply (f_equal Ascii.ascii_of_N) in E1. rewrite !Ascii.ascii_N_embedding in E1. congruence.
Qed.
Definition fits (p : bytes) : Prop := Z.of_nat (length p) < 2 ^ 16.
Lemma framed_inj p q x y : fits p -> fits q -> framed p ++ x = framed q ++ y -> p = q /\ x = y.
Proof.
  unfold framed, fits. intros Hp Hq E. rewrite <- !app_assoc in E. apply app_inj_len in E as [E1 E2]; [|rewrite !be_length; reflexivity].
  apply be_inj in E1; [|change (256 ^ Z.of_nat 2) with (2 ^ 16); lia|change (256 ^ Z.of_nat 2) with (2 ^ 16); lia].
  apply app_inj_len in E2; [exact E2|lia].
Qed.
Lemma fits_i64 x : fits (i64_key x).
Proof. unfold fits, i64_key. rewrite be_length. reflexivity. Qed.
Lemma fits_str a : name_ok a -> fits (str_key a).
Proof. unfold fits, name_ok. rewrite str_length. auto. Qed.
Lemma pk_inj k k' : typed_key k -> typed_key k' -> order_pk k = order_pk k' -> k = k'.
Proof.
  destruct k as [t i], k' as [t' i']. intros [H1 H2] [H3 H4] E. unfold order_pk, path in E. cbn [foldr fst snd] in *.
  apply framed_inj in E as [E1 E2]; [|apply fits_i64..]. apply i64_inj in E1; [|assumption..]. apply u64_inj in E2; [|assumption..]. congruence.
Qed.
Lemma dir_inj d d' : str_key (dir_name d) = str_key (dir_name d') -> d = d'.
Proof. intros E. apply str_inj in E. destruct d, d'; cbn in E; congruence. Qed.

(** ** Distinct entries have distinct keys *)
Definition item_name (a : string) : bool := match a with String.String c _ => negb (Ascii.eqb c Ascii.zero) | _ => false end.
Definition map_name (a : string) : bool := Z.of_nat (String.length a) <? 256.
Lemma item_not_map a ns x : str_key a = framed (str_key ns) ++ x -> item_name a = true -> map_name ns = true -> False.
Proof.
  intros E Ha Hn. destruct a as [|c a]; [discriminate|]. unfold framed in E. rewrite str_length in E. cbn [be app str_key] in E.
  unfold str_key in E. cbn [map String.list_ascii_of_string] in E. injection E as E _. unfold map_name in Hn. apply Z.ltb_lt in Hn.
  rewrite Z.div_small in E by lia. cbn in E. assert (N0 : Ascii.N_of_ascii c = 0%N) by (change (Z.of_N (Ascii.N_of_ascii c) = 0) in E; lia). apply (f_equal Ascii.ascii_of_N) in N0. rewrite Ascii.ascii_N_embedding in N0. subst c. discriminate.
Qed.
Lemma item_not_item a b : str_key a = str_key b -> String.eqb a b = false -> False.
Proof. intros E H. apply str_inj in E. subst. rewrite String.eqb_refl in H. discriminate. Qed.
Lemma map_not_map a b x y : framed (str_key a) ++ x = framed (str_key b) ++ y -> map_name a = true -> map_name b = true -> String.eqb a b = false -> False.
Proof.
  unfold map_name. intros E Ha Hb H. apply Z.ltb_lt in Ha, Hb. apply framed_inj in E as [E _]; [|unfold fits; rewrite str_length; lia..].
  eapply item_not_item; eassumption.
Qed.
Ltac apart E := exfalso; first
  [ exact (item_not_item _ _ E eq_refl) | exact (map_not_map _ _ _ _ E eq_refl eq_refl eq_refl)
  | exact (item_not_map _ _ _ E eq_refl eq_refl) | exact (item_not_map _ _ _ (eq_sym E) eq_refl eq_refl) ].
Theorem C70_distinct : forall r r', typed_entry r -> typed_entry r' -> raw_key r = raw_key r' -> r = r'.
Proof.
  intros r r' Hr Hr' E.
  destruct r as [c|a [t id]|t0 a [t id]|], r' as [c'|a' [t' id']|t0' a' [t' id']|].
  all: try destruct c as [| |t|d|t id|t k|t|t d| | | | | | |]; try destruct c' as [| |t'|d'|t' id'|t' k'|t'|t' d'| | | | | | |].
  all: try reflexivity.
  all: cbn [raw_key] in E; unfold path in E; cbn [foldr] in E.
  all: try (apart E).
  all: apply framed_inj in E as [_ E]; [|exact eq_refl..]; cbn [typed_entry] in Hr, Hr'.
  - f_equal. f_equal. apply i64_inj in E; assumption.
  - do 2 f_equal. apply dir_inj, E.
  - assert (X : (t, id) = (t', id')) by (apply pk_inj; assumption). congruence.
  - assert (X : (t, k) = (t', k')) by (apply pk_inj; assumption). congruence.
  - f_equal. f_equal. apply i64_inj in E; assumption.
  - apply framed_inj in E as [E1 E2]; [|apply fits_i64..]. apply i64_inj in E1; [|assumption..]. apply dir_inj in E2. congruence.
  - destruct Hr as [N K], Hr' as [N' K']. apply framed_inj in E as [E1 E2]; [|apply fits_str; assumption..]. apply str_inj in E1. apply pk_inj in E2; [|assumption..]. congruence.
  - destruct Hr as (I & N & K), Hr' as (I' & N' & K'). apply framed_inj in E as [E1 E]; [|apply fits_i64..]. apply framed_inj in E as [E2 E3]; [|apply fits_str; assumption..].
    apply i64_inj in E1; [|assumption..]. apply str_inj in E2. apply pk_inj in E3; [|assumption..]. congruence.
Qed.
Print Assumptions C70_distinct.

(** ** Byte order is the order of ticks and order keys *)
Definition key_lt (k k' : Z * Z) : Prop := k.1 < k'.1 \/ (k.1 = k'.1 /\ k.2 < k'.2).
Lemma pk_lt k k' : typed_key k -> typed_key k' -> (blt (order_pk k) (order_pk k') <-> key_lt k k').
Proof.
  intros [H1 H2] [H3 H4]. unfold order_pk, path. cbn [foldr]. unfold framed. rewrite <- !app_assoc.
  replace (length (i64_key k'.1)) with (length (i64_key k.1)) by (unfold i64_key; rewrite !be_length; reflexivity).
  rewrite blt_app, blt_split by (unfold i64_key; rewrite !be_length; reflexivity). rewrite i64_lt, u64_lt by assumption. unfold key_lt. split.
  - intros [H|[E H]]; [auto|]. apply i64_inj in E; auto.
  - intros [H|[E H]]; [auto|]. rewrite E. auto.
Qed.
(** The keys of the ticks are in the order of the ticks; the keys of the orders, and of the index entries of one owner, in the order of tick and id. *)
Theorem C70_order :
  forall k k', typed_key k -> typed_key k' ->
  (blt (raw_key (RCell (CTick k.1))) (raw_key (RCell (CTick k'.1))) <-> k.1 < k'.1) /\
  (blt (raw_key (RCell (COrder k.1 k.2))) (raw_key (RCell (COrder k'.1 k'.2))) <-> k.1 < k'.1 \/ (k.1 = k'.1 /\ k.2 < k'.2)) /\
  (forall a, blt (raw_key (RByOwner a k)) (raw_key (RByOwner a k')) <-> k.1 < k'.1 \/ (k.1 = k'.1 /\ k.2 < k'.2)) /\
  (forall t a, blt (raw_key (RByTickOwner t a k)) (raw_key (RByTickOwner t a k')) <-> k.1 < k'.1 \/ (k.1 = k'.1 /\ k.2 < k'.2)).
Proof.
  intros k k' Hk Hk'. pose proof (pk_lt k k' Hk Hk') as HP. unfold key_lt in HP. pose proof Hk as [H1 H2]. pose proof Hk' as [H3 H4].
  split. { cbn [raw_key]. unfold path. cbn [foldr]. rewrite blt_app. apply i64_lt; assumption. }
  split. { cbn [raw_key]. unfold path. cbn [foldr]. rewrite blt_app. exact HP. }
  split; intros; cbn [raw_key]; unfold path; cbn [foldr]; rewrite !blt_app; exact HP.
Qed.
Print Assumptions C70_order.

(** ** Range scans *)
Lemma sorted_same (l l' : list bytes) : StronglySorted blt l -> StronglySorted blt l' -> (forall x, x ∈ l <-> x ∈ l') -> l = l'.
Proof.
  intros Hl. revert l'. induction Hl as [|a l Hl IH Ha]; intros l' Hl' Hx.
  - destruct l' as [|b l']; [reflexivity|]. exfalso. specialize (proj2 (Hx b) ltac:(constructor)). intros H. inversion H.
  - destruct Hl' as [|b l' Hl' Hb]; [exfalso; specialize (proj1 (Hx a) ltac:(constructor)); intros H; inversion H|].
    rewrite Forall_forall in Ha, Hb.
    assert (a = b) as ->.
    { pose proof (proj1 (Hx a) ltac:(constructor)) as A. pose proof (proj2 (Hx b) ltac:(constructor)) as B.
      apply elem_of_cons in A as [A|A]; [exact A|]. apply elem_of_cons in B as [B|B]; [symmetry; exact B|].
      exfalso. apply (blt_irrefl a). apply (blt_trans _ b); [apply Ha, B|apply Hb, A]. }
    f_equal. apply IH; [exact Hl'|]. intros x. specialize (Hx x). rewrite !elem_of_cons in Hx. split; intros K.
    + destruct (proj1 Hx (or_intror K)) as [->|H]; [|exact H]. exfalso. apply (blt_irrefl b), Ha, K.
    + destruct (proj2 Hx (or_intror K)) as [->|H]; [|exact H]. exfalso. apply (blt_irrefl b), Hb, K.
Qed.
Lemma scan_unique keys P lo hi l l' : scan keys P lo hi l -> scan keys P lo hi l' -> l = l'.
Proof. intros [S1 E1] [S2 E2]. apply sorted_same; [assumption..|]. intros x. rewrite E1, E2. reflexivity. Qed.
Lemma scan_iff keys P lo hi l : scan keys P lo hi l -> forall l', scan keys P lo hi l' <-> l' = l.
Proof. intros H l'. split; [intros H'; eapply scan_unique; eauto|intros ->; exact H]. Qed.
Lemma sorted_map {A} (f : A -> bytes) (R : A -> A -> Prop) l : (forall x y, x ∈ l -> y ∈ l -> R x y -> blt (f x) (f y)) -> StronglySorted R l -> StronglySorted blt (map f l).
Proof.
  intros H Hl. induction Hl as [|a l Hl IH Ha]; cbn [map]; constructor.
  - apply IH. intros x y Hx Hy. apply H; constructor; assumption.
  - rewrite Forall_forall in Ha. apply Forall_forall. intros y Hy. apply elem_of_list_fmap in Hy as (x & -> & Hx). apply H; [constructor|constructor; exact Hx|apply Ha, Hx].
Qed.
Lemma key_strict l : StronglySorted key_le l -> NoDup l -> StronglySorted key_lt l.
Proof.
  induction 1 as [|a l Hl IH Ha]; intros Hn; constructor; apply NoDup_cons in Hn as [Hna Hn]; [auto|].
  rewrite Forall_forall in *. intros [x y] Hx. specialize (Ha _ Hx). assert (a <> (x, y)) by (intros ->; contradiction). destruct a as [p q]. unfold key_le, key_lt in *. cbn in *.
  destruct (Z.eq_dec q y) as [->|]; [|lia]. destruct Ha as [Ha|[-> _]]; [lia|congruence].
Qed.

Lemma present_some {A} (x : option A) : present x <-> is_Some x.
Proof. destruct x; cbn; split; [eauto|tauto|intros []|intros [? ?]; discriminate]. Qed.
(** What lies behind each prefix that the contract scans. *)
Definition tick_prefix : bytes := path [str_key "tick_state"] [].
Definition orders_prefix (t : Z) : bytes := path [str_key "orders"; i64_key t] [].
Definition owner_prefix (a : string) : bytes := path [str_key "orders_owner"; str_key a] [].
Definition tick_owner_prefix (t : Z) (a : string) : bytes := path [str_key "orders_tick_and_owner"; i64_key t; str_key a] [].
Definition owners_ok (s : storage) : Prop := forall k o, s_orders s !! k = Some o -> name_ok (o_owner o).
Definition typed_store (s : storage) : Prop :=
  (forall t, is_Some (s_ticks s !! t) -> i64 t = true) /\ (forall k o, s_orders s !! k = Some o -> typed_key k /\ o_tick o = k.1).
Lemma typed_reach w : reachable w -> typed_store (w_st w).
Proof.
  intros Hre. destruct (reachable_inv _ Hre) as (G & Hi).
  assert (V : forall t, valid_tick t -> i64 t = true) by (intros t [V1 V2]; unfold i64; apply andb_true_intro; split; [apply Z.leb_le; lia|apply Z.ltb_lt; lia]).
  split.
  - intros t [ts E]. apply V, (i_some _ _ Hi _ _ E).
  - intros [t id] o E. pose proof (i_order _ _ Hi _ _ E) as Ho. split; [|apply (oo_tick _ _ _ _ Ho)]. pose proof (oo_next _ _ _ _ Ho). pose proof (i_next _ _ Hi). cbn [snd] in *. split; cbn [fst snd].
    + apply V. apply (StepCancel.order_tick _ _ _ _ _ Hi) in E. apply (i_some _ _ Hi _ _ E).
    + unfold u64. apply andb_true_intro; split; apply Z.leb_le; lia.
Qed.
Ltac other_namespaces E :=
  cbn [raw_key] in E; unfold tick_prefix, orders_prefix, owner_prefix, tick_owner_prefix, path in E; cbn [foldr] in E; rewrite ?app_nil_r, <- ?app_assoc in E; try apart E.
Lemma behind_ticks s x : stored s (tick_prefix ++ x) <-> exists t, is_Some (s_ticks s !! t) /\ x = i64_key t.
Proof.
  split.
  - intros (r & Hh & E). destruct r as [c|a [t id]|t0 a [t id]|]; [destruct c as [| |t|d|t id|t k|t|t d| | | | | | |]|..]; other_namespaces E.
    apply framed_inj in E as [_ E]; [|exact eq_refl..]. exists t. split; [apply present_some, Hh|symmetry; exact E].
  - intros (t & Ht & ->). exists (RCell (CTick t)). split; [apply present_some, Ht|]. cbn [raw_key]. unfold tick_prefix, path. cbn [foldr]. rewrite app_nil_r. reflexivity.
Qed.
Lemma behind_orders s t x : typed_store s -> i64 t = true -> stored s (orders_prefix t ++ x) <-> exists id, is_Some (s_orders s !! (t, id)) /\ x = u64_key id.
Proof.
  intros [_ Ts] Ht. split.
  - intros (r & Hh & E). destruct r as [c|a [t' id]|t0 a [t' id]|]; [destruct c as [| |t'|d|t' id|t' k|t'|t' d| | | | | | |]|..]; other_namespaces E.
    apply framed_inj in E as [_ E]; [|exact eq_refl..]. apply framed_inj in E as [E1 E2]; [|apply fits_i64..].
    cbn in Hh. apply present_some in Hh. assert (t' = t) as ->. { apply i64_inj; [|assumption..]. destruct Hh as [o Eo]. apply (Ts _ _ Eo). }
    exists id. split; [exact Hh|symmetry; exact E2].
  - intros (id & Hid & ->). exists (RCell (COrder t id)). split; [apply present_some, Hid|]. cbn [raw_key]. unfold orders_prefix, path. cbn [foldr]. rewrite app_nil_r, <- !app_assoc. reflexivity.
Qed.
Lemma behind_owner s a x : owners_ok s -> name_ok a -> stored s (owner_prefix a ++ x) <-> exists k o, s_orders s !! k = Some o /\ o_owner o = a /\ x = order_pk k.
Proof.
  intros Ho Ha. split.
  - intros (r & Hh & E). destruct r as [c|a' k|t0 a' k|]; [destruct c as [| |t'|d|t' id|t' k|t'|t' d| | | | | | |]|..]; other_namespaces E.
    destruct Hh as (o & Eo & Eow). apply framed_inj in E as [_ E]; [|exact eq_refl..]. apply framed_inj in E as [E1 E2]; [|apply fits_str; [rewrite <- Eow; eapply Ho; exact Eo]|apply fits_str, Ha].
    apply str_inj in E1. subst a'. exists k, o. auto.
  - intros (k & o & Eo & Ea & ->). exists (RByOwner a k). split; [exists o; auto|]. cbn [raw_key]. unfold owner_prefix, path. cbn [foldr]. rewrite app_nil_r, <- !app_assoc. reflexivity.
Qed.
Lemma behind_tick_owner s t a x : typed_store s -> owners_ok s -> i64 t = true -> name_ok a ->
  stored s (tick_owner_prefix t a ++ x) <-> exists k o, s_orders s !! k = Some o /\ o_owner o = a /\ o_tick o = t /\ x = order_pk k.
Proof.
  intros [_ Ts] Ho Ht Ha. split.
  - intros (r & Hh & E). destruct r as [c|a' k|t0 a' k|]; [destruct c as [| |t'|d|t' id|t' k|t'|t' d| | | | | | |]|..]; other_namespaces E.
    destruct Hh as (o & Eo & Eow & Eot). apply framed_inj in E as [_ E]; [|exact eq_refl..]. apply framed_inj in E as [E1 E]; [|apply fits_i64..].
    apply framed_inj in E as [E2 E3]; [|apply fits_str; [rewrite <- Eow; eapply Ho; exact Eo]|apply fits_str, Ha].
    apply i64_inj in E1; [|destruct (Ts _ _ Eo) as [[K _] K']; rewrite <- Eot, K'; exact K|exact Ht]. apply str_inj in E2. subst. eauto 10.
  - intros (k & o & Eo & Ea & Et & ->). exists (RByTickOwner t a k). split; [exists o; auto|]. cbn [raw_key]. unfold tick_owner_prefix, path. cbn [foldr]. rewrite app_nil_r, <- !app_assoc. reflexivity.
Qed.
Lemma i64_le x y : i64 x = true -> i64 y = true -> ble (i64_key x) (i64_key y) <-> x <= y.
Proof.
  intros Hx Hy. unfold ble. rewrite i64_lt by assumption. split.
  - intros [E|H]; [apply i64_inj in E; [lia|assumption..]|lia].
  - intros H. destruct (Z.eq_dec x y) as [->|]; [auto|right; lia].
Qed.
Lemma u64_le x y : u64 x = true -> u64 y = true -> ble (u64_key x) (u64_key y) <-> x <= y.
Proof.
  intros Hx Hy. unfold ble. rewrite u64_lt by assumption. split.
  - intros [E|H]; [apply u64_inj in E; [lia|assumption..]|lia].
  - intros H. destruct (Z.eq_dec x y) as [->|]; [auto|right; lia].
Qed.
Lemma pk_le k k' : typed_key k -> typed_key k' -> ble (order_pk k) (order_pk k') <-> key_leb k k' = true.
Proof.
  intros Hk Hk'. unfold ble. rewrite pk_lt, key_leb_spec by assumption. unfold key_lt. split.
  - intros [E|H]; [apply pk_inj in E as ->; [lia|assumption..]|lia].
  - intros H. destruct k as [p q], k' as [p' q']. cbn [fst snd] in *. destruct (Z.eq_dec p p') as [->|], (Z.eq_dec q q') as [->|]; first [left; reflexivity|right; lia].
Qed.
Lemma bounds_le {A} (f : A -> bytes) (leb : A -> A -> bool) (ok : A -> Prop) lo hi x :
  (forall a b, ok a -> ok b -> ble (f a) (f b) <-> leb a b = true) -> ok x -> (forall b, lo = Some b -> ok b) -> (forall b, hi = Some b -> ok b) ->
  ((forall b, option_map f lo = Some b -> ble b (f x)) /\ (forall b, option_map f hi = Some b -> ble (f x) b)) <->
  match lo with Some l => leb l x | None => true end && match hi with Some h => leb x h | None => true end = true.
Proof.
  intros H Hx Hl Hh. rewrite andb_true_iff. destruct lo as [l|], hi as [h|]; cbn [option_map].
  all: try (pose proof (Hl _ eq_refl)). all: try (pose proof (Hh _ eq_refl)).
  - rewrite <- !H by assumption. split; [intros [A1 A2]; split; [apply A1|apply A2]; reflexivity|intros [A1 A2]; split; intros b [= <-]; assumption].
  - rewrite <- !H by assumption. split; [intros [A1 A2]; split; [apply A1; reflexivity|reflexivity]|intros [A1 A2]; split; intros b; [intros [= <-]; assumption|discriminate]].
  - rewrite <- !H by assumption. split; [intros [A1 A2]; split; [reflexivity|apply A2; reflexivity]|intros [A1 A2]; split; intros b; [discriminate|intros [= <-]; assumption]].
  - split; [auto|]. intros _. split; discriminate.
Qed.
(** The range scans of the contract, byte for byte, are the sorted lists of the model: of the ticks (all ticks, swaps), of the orders at a tick,
    of the orders of an owner, and of the orders of an owner at a tick. *)
Theorem C70_tick_scan :
  forall w lo hi, reachable w -> (forall b, lo = Some b -> i64 b = true) -> (forall b, hi = Some b -> i64 b = true) ->
  forall l, scan (stored (w_st w)) (path [str_key "tick_state"] []) (option_map i64_key lo) (option_map i64_key hi) l <->
            l = map i64_key (sorted_keys (s_ticks (w_st w)) lo hi).
Proof.
  intros w lo hi Hre Hlo Hhi. apply scan_iff. destruct (typed_reach w Hre) as [Tt _]. split.
  - apply (sorted_map _ Z.lt); [|apply sorted_keys_sorted]. intros x y Hx Hy. apply sorted_keys_elem in Hx as [Hx _], Hy as [Hy _]. apply i64_lt; auto.
  - intros x. fold tick_prefix. rewrite behind_ticks. split.
    + intros Hx. apply elem_of_list_fmap in Hx as (t & -> & Ht). apply sorted_keys_elem in Ht as [Hs Hb]. split; [eauto|].
      apply (bounds_le i64_key Z.leb (fun t => i64 t = true)); auto. intros. rewrite Z.leb_le. apply i64_le; assumption.
    + intros ((t & Hs & ->) & Hb). apply elem_of_list_fmap. exists t. split; [reflexivity|]. apply sorted_keys_elem. split; [exact Hs|].
      apply (bounds_le i64_key Z.leb (fun t => i64 t = true)) in Hb; auto. intros. rewrite Z.leb_le. apply i64_le; assumption.
Qed.
Print Assumptions C70_tick_scan.
Theorem C70_order_scan :
  forall w t lo hi, reachable w -> i64 t = true -> (forall b, lo = Some b -> u64 b = true) -> (forall b, hi = Some b -> u64 b = true) ->
  forall l, scan (stored (w_st w)) (path [str_key "orders"; i64_key t] []) (option_map u64_key lo) (option_map u64_key hi) l <->
            l = map (fun k => u64_key k.2) (sorted_order_keys (w_st w) (fun k _ => (k.1 =? t) && in_bounds lo hi k.2)).
Proof.
  intros w t lo hi Hre Ht Hlo Hhi. apply scan_iff. pose proof (typed_reach w Hre) as Ts. pose proof Ts as [_ To].
  assert (K : forall k, k ∈ sorted_order_keys (w_st w) (fun k _ => (k.1 =? t) && in_bounds lo hi k.2) <-> k.1 = t /\ is_Some (s_orders (w_st w) !! (t, k.2)) /\ in_bounds lo hi k.2 = true).
  { intros [t' id]. rewrite sok_elem. cbn [fst snd]. split.
    - intros (o & Eo & Hp). apply andb_prop in Hp as [Hp1 Hp2]. apply Z.eqb_eq in Hp1. subst. eauto.
    - intros (-> & [o Eo] & Hb). exists o. split; [exact Eo|]. rewrite Z.eqb_refl, Hb. reflexivity. }
  split.
  - apply (sorted_map _ key_lt); [|apply key_strict; [apply sok_sorted|apply sok_nodup]]. intros x y Hx Hy Hl. apply K in Hx as (X1 & [ox Ex] & _), Hy as (Y1 & [oy Ey] & _).
    apply u64_lt; [apply (To _ _ Ex)|apply (To _ _ Ey)|]. unfold key_lt in Hl. lia.
  - intros x. fold (orders_prefix t). rewrite behind_orders by assumption. split.
    + intros Hx. apply elem_of_list_fmap in Hx as ([t' id] & -> & Hk). apply K in Hk as (E1 & [o Eo] & Hb). cbn [fst snd] in E1, Eo, Hb |- *. split; [eauto|].
      apply (bounds_le u64_key Z.leb (fun t => u64 t = true)); auto; [intros; rewrite Z.leb_le; apply u64_le; assumption|apply (To _ _ Eo)].
    + intros ((id & [o Eo] & ->) & Hb). apply elem_of_list_fmap. exists (t, id). split; [reflexivity|]. apply K. cbn [fst snd]. split; [reflexivity|]. split; [eauto|].
      apply (bounds_le u64_key Z.leb (fun t => u64 t = true)) in Hb; auto; [intros; rewrite Z.leb_le; apply u64_le; assumption|apply (To _ _ Eo)].
Qed.
Print Assumptions C70_order_scan.
Theorem C70_owner_scans :
  forall w a lo hi, reachable w -> (forall k o, s_orders (w_st w) !! k = Some o -> name_ok (o_owner o)) -> name_ok a ->
  (forall b, lo = Some b -> typed_key b) -> (forall b, hi = Some b -> typed_key b) ->
  (forall l, scan (stored (w_st w)) (path [str_key "orders_owner"; str_key a] []) (option_map order_pk lo) (option_map order_pk hi) l <->
             l = map order_pk (sorted_order_keys (w_st w) (fun k o => filter_key (FAll a) k o && key_in_bounds lo hi k))) /\
  (forall t, i64 t = true ->
   forall l, scan (stored (w_st w)) (path [str_key "orders_tick_and_owner"; i64_key t; str_key a] []) (option_map order_pk lo) (option_map order_pk hi) l <->
             l = map order_pk (sorted_order_keys (w_st w) (fun k o => filter_key (FByTick t a) k o && key_in_bounds lo hi k))).
Proof.
  intros w a lo hi Hre Ho Ha Hlo Hhi. pose proof (typed_reach w Hre) as Ts. pose proof Ts as [_ To].
  assert (Gen : forall p prefix, (forall x, stored (w_st w) (prefix ++ x) <-> exists k o, s_orders (w_st w) !! k = Some o /\ p k o = true /\ x = order_pk k) ->
    scan (stored (w_st w)) prefix (option_map order_pk lo) (option_map order_pk hi) (map order_pk (sorted_order_keys (w_st w) (fun k o => p k o && key_in_bounds lo hi k)))).
  { intros p prefix HP. split.
    - apply (sorted_map _ key_lt); [|apply key_strict; [apply sok_sorted|apply sok_nodup]]. intros x y Hx Hy Hl.
      apply sok_elem in Hx as (ox & Ex & _), Hy as (oy & Ey & _). apply pk_lt; [apply (To _ _ Ex)|apply (To _ _ Ey)|exact Hl].
    - intros x. rewrite HP. split.
      + intros Hx. apply elem_of_list_fmap in Hx as (k & -> & Hk). apply sok_elem in Hk as (o & Eo & Hp). apply andb_prop in Hp as [Hp Hb]. split; [eauto|].
        apply (bounds_le order_pk key_leb typed_key); auto; [apply pk_le|apply (To _ _ Eo)].
      + intros ((k & o & Eo & Hp & ->) & Hb). apply elem_of_list_fmap. exists k. split; [reflexivity|]. apply sok_elem. exists o. split; [exact Eo|]. rewrite Hp.
        apply (bounds_le order_pk key_leb typed_key) in Hb; auto; [apply pk_le|apply (To _ _ Eo)]. }
  split.
  - apply scan_iff, Gen. intros x. fold (owner_prefix a). rewrite behind_owner by assumption. cbn [filter_key]. split; intros (k & o & Eo & K & ->); exists k, o; (split; [exact Eo|]; split; [|reflexivity]).
    + apply bool_decide_eq_true. exact K.
    + apply bool_decide_eq_true in K. exact K.
  - intros t Ht. apply scan_iff, Gen. intros x. fold (tick_owner_prefix t a). rewrite behind_tick_owner by assumption. cbn [filter_key]. split.
    + intros (k & o & Eo & K1 & K2 & ->). exists k, o. split; [exact Eo|]. split; [|reflexivity]. rewrite bool_decide_true, K2, Z.eqb_refl by exact K1. reflexivity.
    + intros (k & o & Eo & K & ->). apply andb_prop in K as [K1 K2]. apply bool_decide_eq_true in K1. apply Z.eqb_eq in K2. eauto 10.
Qed.
Print Assumptions C70_owner_scans.

(** ** The indexes are in step with the orders *)
Lemma index_elem k o x : x ∈ index_keys k o <-> x = raw_key (RByOwner (o_owner o) k) \/ x = raw_key (RByTickOwner (o_tick o) (o_owner o) k).
Proof. unfold index_keys. set_solver. Qed.
Lemma index_apart k o k' o' x : typed_key k -> i64 (o_tick o) = true -> name_ok (o_owner o) -> typed_key k' -> i64 (o_tick o') = true -> name_ok (o_owner o') ->
  x ∈ index_keys k o -> x ∈ index_keys k' o' -> k = k'.
Proof.
  intros A1 A2 A3 B1 B2 B3 H H'. apply index_elem in H, H'.
  assert (X : exists r r', raw_key r = raw_key r' /\ typed_entry r /\ typed_entry r' /\ (r = r' -> k = k')).
  { destruct H as [->| ->], H' as [E|E].
    - exists (RByOwner (o_owner o) k), (RByOwner (o_owner o') k'). cbn [typed_entry]. repeat split; auto; try apply A1; try apply B1. congruence.
    - exists (RByOwner (o_owner o) k), (RByTickOwner (o_tick o') (o_owner o') k'). cbn [typed_entry]. repeat split; auto; try apply A1; try apply B1. congruence.
    - exists (RByTickOwner (o_tick o) (o_owner o) k), (RByOwner (o_owner o') k'). cbn [typed_entry]. repeat split; auto; try apply A1; try apply B1. congruence.
    - exists (RByTickOwner (o_tick o) (o_owner o) k), (RByTickOwner (o_tick o') (o_owner o') k'). cbn [typed_entry]. repeat split; auto; try apply A1; try apply B1. congruence. }
  destruct X as (r & r' & E & T & T' & K). apply K. eapply C70_distinct; eassumption.
Qed.
(** Whatever orders are saved and removed, the index keys in the store are exactly those of the orders in the store. *)
Theorem C70_indexes :
  forall ops, Forall typed_op ops -> let ix := foldl ix_apply (mkIx ∅ ∅) ops in
  forall x, x ∈ ix_keys ix <-> exists k o, ix_orders ix !! k = Some o /\ (x = raw_key (RByOwner (o_owner o) k) \/ x = raw_key (RByTickOwner (o_tick o) (o_owner o) k)).
Proof.
  intros ops. induction ops as [|op ops IH] using rev_ind; intros Hops; cbv zeta.
  - intros x. cbn. split; [set_solver|]. intros (k & o & E & _). rewrite lookup_empty in E. discriminate.
  - apply Forall_app in Hops as [Hops Hop]. specialize (IH Hops). cbv zeta in IH. rewrite foldl_app. cbn [foldl]. set (ix := foldl ix_apply (mkIx ∅ ∅) ops) in *.
    assert (Typed : forall k o, ix_orders ix !! k = Some o -> typed_key k /\ i64 (o_tick o) = true /\ name_ok (o_owner o)).
    { clear IH Hop. unfold ix. clear ix. induction ops as [|op' ops IH] using rev_ind.
      - intros k o E. cbn in E. rewrite lookup_empty in E. discriminate.
      - apply Forall_app in Hops as [Hops Hop]. specialize (IH Hops). apply Forall_cons in Hop as [Hop _]. rewrite foldl_app. cbn [foldl]. intros k o E. destruct op' as [k' o'|k']; cbn [ix_apply ix_orders typed_op] in *.
        + destruct (decide (k' = k)) as [->|Hne]; [rewrite lookup_insert in E; injection E as <-; exact Hop|]. rewrite lookup_insert_ne in E by exact Hne. auto.
        + apply lookup_delete_Some in E as [_ E]. auto. }
    apply Forall_cons in Hop as [Hop _].
    assert (Old : forall x k, typed_key k -> (x ∈ ix_keys ix ∖ ix_old ix k <-> exists k' o, k' <> k /\ ix_orders ix !! k' = Some o /\ x ∈ index_keys k' o)).
    { intros x k Hk. rewrite elem_of_difference, IH. unfold ix_old. split.
      - intros [(k' & o & E & Hx) Hn]. exists k', o. apply index_elem in Hx. split; [|auto]. intros ->. rewrite E in Hn. contradiction.
      - intros (k' & o & Hne & E & Hx). split; [exists k', o; split; [exact E|apply index_elem, Hx]|].
        destruct (ix_orders ix !! k) as [o2|] eqn:E2; [|set_solver]. intros C. apply Hne.
        destruct (Typed _ _ E) as (T1 & T2 & T3), (Typed _ _ E2) as (U1 & U2 & U3). eapply index_apart; [..|exact Hx|exact C]; assumption. }
    intros x. destruct op as [k o|k]; cbn [ix_apply ix_keys ix_orders typed_op] in *.
    + rewrite elem_of_union, (Old x k (proj1 Hop)), index_elem. split.
      * intros [(k' & o' & Hne & E & Hx)|Hx].
        -- exists k', o'. rewrite lookup_insert_ne by congruence. split; [exact E|apply index_elem, Hx].
        -- exists k, o. rewrite lookup_insert. auto.
      * intros (k' & o' & E & Hx). destruct (decide (k' = k)) as [->|Hne].
        -- rewrite lookup_insert in E. injection E as <-. right. exact Hx.
        -- rewrite lookup_insert_ne in E by congruence. left. exists k', o'. split; [exact Hne|]. split; [exact E|]. apply index_elem, Hx.
    + rewrite (Old x k Hop). split.
      * intros (k' & o' & Hne & E & Hx). exists k', o'. rewrite lookup_delete_ne by congruence. split; [exact E|apply index_elem, Hx].
      * intros (k' & o' & E & Hx). apply lookup_delete_Some in E as [Hne E]. exists k', o'. split; [congruence|]. split; [exact E|]. apply index_elem, Hx.
Qed.
Print Assumptions C70_indexes.
(** Concrete cases: the owners "al" and "alice", one a prefix of the other, at ticks below and above zero. *)
Definition h_keys : list (env * call) := [place "al" 5 Ask 3 None; place "alice" (-2) Bid 4 None; place "al" (-300) Bid 1 None; place "al" (-2) Bid 2 None].
Example C70_case :
  start w_start /\ history w_start h_keys /\
  raw_key (RByOwner "al" (-2, 3)) =
    [0; 12; 111; 114; 100; 101; 114; 115; 95; 111; 119; 110; 101; 114; 0; 2; 97; 108; 0; 8; 127; 255; 255; 255; 255; 255; 255; 254; 0; 0; 0; 0; 0; 0; 0; 3] /\
  sorted_order_keys (w_st (run w_start h_keys)) (fun k o => filter_key (FAll "al") k o && key_in_bounds None (Some (0, 0)) k) = [(-300, 2); (-2, 3)] /\
  sorted_keys (s_ticks (w_st (run w_start h_keys))) None None = [-300; -2; 5] /\
  typed_entry (RByOwner "al" (-2, 3)) /\ typed_key (0, 0).
Proof.
  split; [exact PropOrders.start_ok|]. split; [PropOrders.hist|]. do 3 (split; [vm_compute; reflexivity|]).
  split; [split; [exact eq_refl|split; exact eq_refl]|split; exact eq_refl].
Qed.
