(** * CodecProofs: structs and messages are read back as they were written. *)
From Verif Require Import Base Dec Types State Order Auth Contract Query World SpecCost Keys Wire WireProofs Codec SpecProps SpecEvents SpecKeys SpecWire.

Lemma u_range hi z : 0 <= z <= hi -> range hi z = true.
Proof. intros H. unfold range. apply andb_true_intro. split; apply Z.leb_le; lia. Qed.
Lemma u256_dec z : dec_ok z -> 0 <= z <= U256_MAX.
Proof. unfold dec_ok, u256. intros H. apply andb_prop in H as [H1 H2]. apply Z.leb_le in H1, H2. lia. Qed.
Lemma u128_in z : u128 z = true -> 0 <= z <= U128_MAX.
Proof. unfold u128. intros H. apply andb_prop in H as [H1 H2]. apply Z.leb_le in H1, H2. lia. Qed.
Lemma u64_in z : u64 z = true -> 0 <= z <= U64_MAX.
Proof. unfold u64. intros H. apply andb_prop in H as [H1 H2]. apply Z.leb_le in H1, H2. lia. Qed.

(** ** Fields *)
Lemma rw_int ok z : ok z = true -> rd_int ok (w_int z) = Some z.
Proof. intros H. cbn. rewrite H. reflexivity. Qed.
Lemma rw_i64 z : i64 z = true -> rd_i64 (w_int z) = Some z. Proof. apply rw_int. Qed.
Lemma rw_u64 z : u64 z = true -> rd_u64 (w_int z) = Some z. Proof. apply rw_int. Qed.
Lemma rw_uint hi z : 0 <= z <= hi -> rd_uint hi (w_uint z) = Some z.
Proof. intros H. cbn [rd_uint w_uint]. apply read_u_ok, H. Qed.
Lemma rw_u128 z : u128 z = true -> rd_u128 (w_uint z) = Some z. Proof. intros H. apply rw_uint, u128_in, H. Qed.
Lemma rw_time z : u64 z = true -> rd_time (w_uint z) = Some z. Proof. intros H. apply rw_uint, u64_in, H. Qed.
Lemma rw_decimal hi z : 0 <= z <= hi -> rd_decimal hi (w_dec z) = Some z.
Proof. intros H. cbn [rd_decimal w_dec]. rewrite read_show_decimal by lia. unfold within. rewrite u_range by exact H. reflexivity. Qed.
Lemma rw_dec z : dec_ok z -> rd_dec (w_dec z) = Some z. Proof. intros H. apply rw_decimal, u256_dec, H. Qed.
Lemma rw_dec128 z : u128 z = true -> rd_dec128 (w_dec z) = Some z. Proof. intros H. apply rw_decimal, u128_in, H. Qed.
Lemma rw_dir d : rd_dir (w_dir d) = Some d. Proof. destruct d; reflexivity. Qed.
Lemma rw_str s : rd_str (w_str s) = Some s. Proof. cbn. rewrite str_txt. reflexivity. Qed.
Lemma rw_maybe {A} (w : A -> json) rd x : (forall a, x = Some a -> rd (w a) = Some a) -> (forall a, w a <> JNull) -> maybe rd (Some (w_opt w x)) = Some x.
Proof.
  intros H N. destruct x as [a|]; [|reflexivity]. cbn [w_opt maybe]. specialize (H a eq_refl). specialize (N a). destruct (w a); [congruence|..]; rewrite H; reflexivity.
Qed.
Lemma rw_list {A} (w : A -> json) rd l : Forall (fun a => rd (w a) = Some a) l -> rd_list rd (w_list w l) = Some l.
Proof. intros H. cbn [rd_list w_list]. induction H as [|a l Ha Hl IH]; [reflexivity|]. cbn [map rd_all]. rewrite Ha, IH. reflexivity. Qed.
Lemma rw_pair {A B} (wa : A -> json) (wb : B -> json) ra rb p : ra (wa p.1) = Some p.1 -> rb (wb p.2) = Some p.2 -> rd_pair ra rb (w_pair wa wb p) = Some p.
Proof. intros Ha Hb. cbn [rd_pair w_pair]. rewrite Ha, Hb. destruct p; reflexivity. Qed.
(** ** Structs *)
Lemma txt_inj a b : txt a = txt b -> a = b.
Proof. intros H. rewrite <- (str_txt a), <- (str_txt b), H. reflexivity. Qed.
Fixpoint sget (l : list (string * json)) (n : string) : option json :=
  match l with [] => None | (k, j) :: l => if String.eqb k n then Some j else sget l n end.
Lemma get_txt l n : get (map (fun x : string * json => (txt x.1, x.2)) l) (txt n) = sget l n.
Proof.
  induction l as [|[k j] l IH]; [reflexivity|]. cbn [map get sget fst snd]. rewrite IH. destruct (String.eqb_spec k n) as [->|N].
  - rewrite bool_decide_eq_true_2 by reflexivity. reflexivity.
  - rewrite bool_decide_eq_false_2; [reflexivity|]. intros E. apply N, txt_inj, E.
Qed.
Definition fits (names : list string) (l : list (string * json)) : bool :=
  forallb (fun k => existsb (String.eqb k) names) (map fst l) && bool_decide (NoDup (map fst l)).
Lemma rd_obj_w names l : fits names l = true -> rd_obj names (w_obj l) = Some (fun n => get (map (fun x : string * json => (txt x.1, x.2)) l) (txt n)).
Proof.
  unfold fits. intros H. apply andb_prop in H as [H1 H2]. apply bool_decide_eq_true in H2. cbn [rd_obj w_obj].
  rewrite map_map. cbn [fst]. rewrite bool_decide_eq_true_2; [rewrite andb_true_r|].
  - assert (E : forallb (fun x : text * json => bool_decide (x.1 ∈ map txt names)) (map (fun x : string * json => (txt x.1, x.2)) l) = true); [|rewrite E; reflexivity].
    apply forallb_forall. intros x Hx. apply in_map_iff in Hx as (y & <- & Hy). cbn [fst]. apply bool_decide_eq_true_2. rewrite forallb_forall in H1.
    specialize (H1 y.1 (in_map fst _ _ Hy)). apply existsb_exists in H1 as (n & Hn & E). apply String.eqb_eq in E. rewrite E. apply elem_of_list_In, in_map, Hn.
  - rewrite <- (map_map fst txt). apply NoDup_fmap_2; [|exact H2]. intros a b. apply txt_inj.
Qed.
Ltac obj := rewrite rd_obj_w by (vm_compute; reflexivity); cbv beta iota; rewrite ?get_txt; cbn [sget String.eqb Ascii.eqb Bool.eqb fst snd need default_to].
Ltac variant :=
  cbn [rd_variant w_variant w_obj map fst snd]; rewrite ?str_txt; cbv zeta; cbn [fst snd];
  repeat first [rewrite bool_decide_eq_true_2 by reflexivity | rewrite bool_decide_eq_false_2 by discriminate].
Lemma rw_order o : order_range o -> rd_order (w_order o) = Some o.
Proof.
  intros (H1 & H2 & H3 & H4 & H5 & H6 & H7). unfold rd_order, w_order. obj.
  rewrite rw_i64, rw_u64, rw_dir, rw_str, rw_u128, rw_dec by assumption. rewrite (rw_maybe w_dec rd_dec) by (intros; try apply rw_dec; auto; discriminate).
  rewrite rw_u128, rw_time by assumption. destruct o; reflexivity.
Qed.
Lemma rw_values v : values_range v -> rd_values (w_values v) = Some v.
Proof. intros (H1 & H2 & H3 & H4 & H5). unfold rd_values, w_values. obj. rewrite !rw_dec by assumption. destruct v; reflexivity. Qed.
Lemma rw_tick t : tick_range t -> rd_tick (w_tick t) = Some t.
Proof. intros (H1 & H2). unfold rd_tick, w_tick. obj. rewrite !rw_values by assumption. destruct t; reflexivity. Qed.
Lemma rw_book b : book_range b -> rd_book (w_book b) = Some b.
Proof. intros (H1 & H2 & H3). unfold rd_book, w_book. obj. rewrite !rw_str, !rw_i64 by assumption. destruct b; reflexivity. Qed.
Lemma rw_ntype t : ntype_range t -> rd_ntype (w_ntype t) = Some t.
Proof.
  destruct t as [v e|a lo hi w]; cbn [ntype_range].
  - intros (H1 & H2). unfold rd_ntype, w_ntype. variant. fold (w_obj [("value", w_dec v); ("etas", w_dec e)]). obj. rewrite !rw_dec by assumption. reflexivity.
  - intros (H1 & H2 & H3 & H4). unfold rd_ntype, w_ntype. variant. fold (w_obj [("accumulator", w_dec a); ("range", w_pair w_dec w_dec (lo, hi)); ("weight", w_int w)]). obj.
    rewrite rw_dec, rw_pair, rw_u64 by (try apply rw_dec; assumption). reflexivity.
Qed.
Lemma rw_node n : node_range n -> rd_node (w_node n) = Some n.
Proof.
  intros (H1 & H2 & H3 & H4 & H5 & H6). unfold rd_node, w_node. obj.
  rewrite rw_u64, rw_i64, rw_dir by assumption. rewrite !(rw_maybe w_int rd_u64) by (intros; try apply rw_u64; auto; discriminate).
  rewrite rw_ntype by assumption. destruct n; reflexivity.
Qed.
Lemma rw_coin hi c : 0 <= c_amount c <= hi -> rd_coin hi (w_coin c) = Some c.
Proof. intros H. unfold rd_coin, w_coin. obj. rewrite rw_str, rw_uint by assumption. destruct c; reflexivity. Qed.
Lemma rw_field {A B} name (rd : json -> option A) (k : A -> B) j x : rd j = Some x -> rd_field name rd k (w_obj [(name, j)]) = Some (k x).
Proof.
  intros H. unfold rd_field. rewrite rd_obj_w.
  - cbv beta iota. rewrite get_txt. cbn [sget]. rewrite String.eqb_refl. cbn [need]. rewrite H. reflexivity.
  - unfold fits. cbn [map fst forallb existsb]. rewrite String.eqb_refl. cbn [orb andb]. apply bool_decide_eq_true_2, NoDup_singleton.
Qed.
Lemma rw_empty {A} (x : A) : rd_empty x (w_obj []) = Some x.
Proof. reflexivity. Qed.
(** ** Messages *)
Lemma variant_w n fs : rd_variant (w_variant n fs) = Some (n, w_obj fs).
Proof. unfold w_variant, w_obj. cbn [map rd_variant fst snd]. rewrite str_txt. reflexivity. Qed.
Ltac pick := repeat first [rewrite bool_decide_eq_true_2 by reflexivity | rewrite bool_decide_eq_false_2 by discriminate].
Lemma rw_auth m : match m with SetMakerFee f => u256 f = true | _ => True end -> rd_auth (w_auth m) = Some m.
Proof.
  intros H. unfold rd_auth. destruct m; cbn [w_auth]; rewrite variant_w; cbv zeta; cbn [fst snd]; pick;
    try apply rw_empty; try (apply rw_field; first [apply rw_str|reflexivity|apply rw_dec, H]).
Qed.
Lemma rw_exec m : exec_typed m = true -> rd_exec (w_exec m) = Some m.
Proof.
  intros H. unfold rd_exec. destruct m as [t d q b|t id|t id|l|m]; cbn [w_exec exec_typed] in *.
  - apply andb_prop in H as [H Hb]. apply andb_prop in H as [Ht Hq]. rewrite variant_w. cbv zeta. cbn [fst snd]. pick. obj.
    rewrite rw_i64, rw_dir, rw_u128 by assumption. rewrite (rw_maybe w_dec rd_dec); [reflexivity| |discriminate]. intros x ->. apply rw_dec, Hb.
  - apply andb_prop in H as [Ht Hi]. rewrite variant_w. cbv zeta. cbn [fst snd]. pick. obj. rewrite rw_i64, rw_u64 by assumption. reflexivity.
  - apply andb_prop in H as [Ht Hi]. rewrite variant_w. cbv zeta. cbn [fst snd]. pick. obj. rewrite rw_i64, rw_u64 by assumption. reflexivity.
  - rewrite variant_w. cbv zeta. cbn [fst snd]. pick. apply rw_field, rw_list. apply Forall_forall. intros x Hx. rewrite forallb_forall in H. specialize (H x ltac:(apply elem_of_list_In, Hx)).
    apply andb_prop in H as [H1 H2]. apply rw_pair; [apply rw_i64, H1|apply rw_u64, H2].
  - unfold w_obj. cbn [map rd_variant fst snd]. rewrite str_txt. cbv zeta. cbn [fst snd]. pick. rewrite rw_auth; [reflexivity|]. destruct m; auto.
Qed.
Lemma rw_sudo m : sudo_typed m = true -> rd_sudo (w_sudo m) = Some m.
Proof.
  intros H. unfold rd_sudo.
  destruct m as [a tin out mn fee|a tin out mn fee t|a ind mx tout fee|a| |b]; cbn [w_sudo sudo_typed] in *; rewrite variant_w; cbv zeta; cbn [fst snd]; pick.
  - apply andb_prop in H as [H Hf]. apply andb_prop in H as [Hc Hm]. obj. rewrite !rw_str, rw_coin, rw_u128, rw_dec128 by (try apply u128_in; assumption). reflexivity.
  - apply andb_prop in H as [H Ht]. apply andb_prop in H as [H Hf]. apply andb_prop in H as [Hc Hm]. obj. rewrite !rw_str, rw_coin, rw_u128, rw_dec128, rw_i64 by (try apply u128_in; assumption). reflexivity.
  - apply andb_prop in H as [H Hf]. apply andb_prop in H as [Hm Hc]. obj. rewrite !rw_str, rw_u128, rw_coin, rw_dec128 by (try apply u128_in; assumption). reflexivity.
  - apply rw_field, rw_str.
  - apply rw_empty.
  - apply rw_field. reflexivity.
Qed.
(** Whatever is read is within range. *)
Lemma rd_int_ok ok j z : rd_int ok j = Some z -> ok z = true.
Proof. destruct j; cbn; try discriminate. destruct (ok z0) eqn:E; [|discriminate]. intros H. injection H as <-. exact E. Qed.
Lemma within_ok ok x z : within ok x = Some z -> ok z = true.
Proof. unfold within. destruct x as [y|]; [|discriminate]. destruct (ok y) eqn:E; [|discriminate]. intros H. injection H as <-. exact E. Qed.
Lemma rd_uint_ok hi j z : rd_uint hi j = Some z -> range hi z = true.
Proof. destruct j; cbn; try discriminate. apply within_ok. Qed.
Lemma rd_decimal_ok hi j z : rd_decimal hi j = Some z -> range hi z = true.
Proof.
  destruct j as [| | |t| |]; cbn [rd_decimal]; try discriminate. unfold read_decimal. destruct (split t) as [|w [|f [|]]]; try discriminate.
  - destruct (read_nat w); [apply within_ok|discriminate].
  - destruct (read_nat w), (read_nat f); try discriminate. destruct (Nat.leb _ _); [apply within_ok|discriminate].
Qed.
Lemma maybe_ok {A} (rd : json -> option A) x y a : maybe rd x = Some y -> y = Some a -> exists j, rd j = Some a.
Proof.
  unfold maybe. destruct x as [j|]; [|congruence]. intros H ->. exists j. destruct j; try discriminate H.
  all: destruct (rd _) eqn:E; [|discriminate H]; injection H as ->; reflexivity.
Qed.
Lemma all_ok {A} (rd : json -> option A) l x : rd_all rd l = Some x -> Forall (fun a => exists j, rd j = Some a) x.
Proof.
  revert x. induction l as [|j l IH]; intros x H; cbn [rd_all] in H; [injection H as <-; constructor|].
  destruct (rd j) eqn:E; [|discriminate]. destruct (rd_all rd l) eqn:E'; [|discriminate]. injection H as <-. constructor; eauto.
Qed.
Ltac opened := repeat match goal with
  | H : match ?x with Some _ => _ | None => None end = Some _ |- _ => let E := fresh "E" in destruct x eqn:E; [|discriminate H]
  | H : (if ?b then _ else _) = Some _ |- _ => destruct b
  | H : need ?rd ?x = Some _ |- _ => unfold need in H
  | H : rd_field _ _ _ _ = Some _ |- _ => unfold rd_field in H
  | H : rd_empty _ _ = Some _ |- _ => unfold rd_empty in H
  | H : Some _ = Some _ |- _ => injection H as <-
  | H : None = Some _ |- _ => discriminate H
  end.
Lemma rd_coin_ok hi j c : rd_coin hi j = Some c -> range hi (c_amount c) = true.
Proof. unfold rd_coin. intros H. opened. cbn. eauto using rd_uint_ok. Qed.
Lemma rd_exec_ok j m : rd_exec j = Some m -> exec_typed m = true.
Proof.
  unfold rd_exec. intros H. destruct (rd_variant j) as [[n v]|]; [|discriminate]. cbv zeta in H. cbn [fst snd] in H. opened; cbn [exec_typed].
  - pose proof (rd_uint_ok _ _ _ E2 : u128 _ = true) as X. rewrite (rd_int_ok _ _ _ E0), X. cbn [andb]. destruct o0 as [b|]; [|reflexivity]. destruct (maybe_ok _ _ _ b E3 eq_refl) as [jb Ej]. exact (rd_decimal_ok _ _ _ Ej).
  - rewrite (rd_int_ok _ _ _ E0), (rd_int_ok _ _ _ E1). reflexivity.
  - rewrite (rd_int_ok _ _ _ E0), (rd_int_ok _ _ _ E1). reflexivity.
  - apply forallb_forall. intros [t id] Hx. destruct j0 as [| | | |jl|]; cbn [rd_list] in *; try discriminate. apply all_ok in E0. rewrite Forall_forall in E0.
    destruct (E0 (t, id) ltac:(apply elem_of_list_In, Hx)) as [jp Ep]. unfold rd_pair in Ep. destruct jp as [| | | |[|ja [|jb [|]]]|]; try discriminate. opened.
    subst. cbn [fst snd]. apply andb_true_intro. split; eapply rd_int_ok; eassumption.
  - destruct a; try reflexivity. unfold rd_auth in E. destruct (rd_variant v) as [[n' v']|]; [|discriminate]. cbv zeta in E. cbn [fst snd] in E. opened; try discriminate.
    exact (rd_decimal_ok _ _ _ E1).
Qed.
Lemma rd_sudo_ok j m : rd_sudo j = Some m -> sudo_typed m = true.
Proof.
  unfold rd_sudo. intros H. destruct (rd_variant j) as [[n v]|]; [|discriminate]. cbv zeta in H. cbn [fst snd] in H.
  opened; cbn [sudo_typed]; try reflexivity; unfold coin_typed;
  repeat match goal with
  | E : rd_coin _ _ = Some _ |- _ => apply rd_coin_ok in E; change (range U128_MAX) with u128 in E; rewrite E; clear E
  | E : rd_u128 _ = Some _ |- _ => apply rd_uint_ok in E; change (range U128_MAX) with u128 in E; rewrite E; clear E
  | E : rd_dec128 _ = Some _ |- _ => apply rd_decimal_ok in E; change (range U128_MAX) with u128 in E; rewrite E; clear E
  | E : rd_i64 _ = Some _ |- _ => apply rd_int_ok in E; rewrite E; clear E
  end; reflexivity.
Qed.

(** ** Questions *)
Lemma rw_opt_int ok x : opt_typed ok x = true -> maybe (rd_int ok) (Some (w_opt w_int x)) = Some x.
Proof. intros H. apply rw_maybe; [|discriminate]. intros a ->. apply rw_int, H. Qed.
Lemma rw_opt_key x : opt_typed key_typed x = true -> maybe rd_key (Some (w_opt w_key x)) = Some x.
Proof. intros H. apply rw_maybe; [|discriminate]. intros a ->. cbn in H. apply andb_prop in H as [H1 H2]. apply rw_pair; apply rw_int; assumption. Qed.
Lemma usize_range z : range (2 ^ 32 - 1) z = (0 <=? z) && (z <? 2 ^ 32).
Proof. unfold range. f_equal. destruct (Z.leb_spec z (2 ^ 32 - 1)), (Z.ltb_spec z (2 ^ 32)); try reflexivity; lia. Qed.
Lemma rw_usize x : opt_typed (fun z => (0 <=? z) && (z <? 2 ^ 32)) x = true -> maybe rd_usize (Some (w_opt w_int x)) = Some x.
Proof. intros H. apply rw_opt_int. destruct x as [z|]; [|reflexivity]. cbn [opt_typed] in *. rewrite usize_range. exact H. Qed.
Lemma rw_quote {A} (k : coin -> string -> Z -> A) c d f : coin_typed c = true -> u128 f = true ->
  rd_quote k (w_obj [("token_in", w_coin c); ("token_out_denom", w_str d); ("swap_fee", w_dec f)]) = Some (k c d f).
Proof. intros Hc Hf. unfold rd_quote. obj. rewrite rw_coin, rw_str, rw_dec128 by (try apply u128_in; assumption). reflexivity. Qed.
Lemma rw_ids l : forallb i64 l = true -> rd_list rd_i64 (w_list w_int l) = Some l.
Proof. intros H. apply rw_list. apply Forall_forall. intros x Hx. rewrite forallb_forall in H. apply rw_i64, H, elem_of_list_In, Hx. Qed.
Lemma rw_query q : question_typed q = true -> rd_query (w_query q) = Some q.
Proof.
  intros H. unfold rd_query.
  destruct q as [a b|c d f|c d f| | |lo hi n| | |a lo hi n| |l|t lo hi n| | |l|q]; cbn [w_query question_typed] in *;
    try (rewrite variant_w; cbv zeta; cbn [fst snd]; pick; apply rw_empty).
  - rewrite variant_w; cbv zeta; cbn [fst snd]; pick. obj. rewrite !rw_str. reflexivity.
  - apply andb_prop in H as [H1 H2]. rewrite variant_w; cbv zeta; cbn [fst snd]; pick. apply rw_quote; assumption.
  - apply andb_prop in H as [H1 H2]. rewrite variant_w; cbv zeta; cbn [fst snd]; pick. apply rw_quote; assumption.
  - apply andb_prop in H as [H H3]. apply andb_prop in H as [H1 H2]. rewrite variant_w; cbv zeta; cbn [fst snd]; pick. obj.
    unfold rd_i64. rewrite !rw_opt_int, rw_usize by assumption. reflexivity.
  - apply andb_prop in H as [H H3]. apply andb_prop in H as [H1 H2]. rewrite variant_w; cbv zeta; cbn [fst snd]; pick. obj.
    rewrite rw_str, !rw_opt_key by assumption. unfold rd_u64. rewrite rw_opt_int by assumption. reflexivity.
  - rewrite variant_w; cbv zeta; cbn [fst snd]; pick. apply rw_field, rw_ids, H.
  - apply andb_prop in H as [H H4]. apply andb_prop in H as [H H3]. apply andb_prop in H as [H1 H2]. rewrite variant_w; cbv zeta; cbn [fst snd]; pick. obj.
    rewrite rw_i64 by assumption. unfold rd_u64. rewrite !rw_opt_int by assumption. reflexivity.
  - rewrite variant_w; cbv zeta; cbn [fst snd]; pick. apply rw_field, rw_ids, H.
  - unfold w_obj. cbn [map rd_variant fst snd]. rewrite str_txt. cbv zeta. cbn [fst snd]. pick.
    unfold rd_auth_query. destruct q; cbn [w_auth_query]; rewrite variant_w; cbv zeta; cbn [fst snd]; pick; rewrite rw_empty; reflexivity.
Qed.
Lemma opt_int_ok ok x y : maybe (rd_int ok) x = Some y -> opt_typed ok y = true.
Proof. intros H. destruct y as [z|]; [|reflexivity]. destruct (maybe_ok _ _ _ z H eq_refl) as [j Ej]. apply (rd_int_ok _ _ _ Ej). Qed.
Lemma opt_key_ok x y : maybe rd_key x = Some y -> opt_typed key_typed y = true.
Proof.
  intros H. destruct y as [z|]; [|reflexivity]. destruct (maybe_ok _ _ _ z H eq_refl) as [j Ej]. unfold rd_key, rd_pair in Ej.
  destruct j as [| | | |[|ja [|jb [|]]]|]; try discriminate. opened. unfold key_typed, opt_typed. cbn [fst snd]. apply andb_true_intro. split; eapply rd_int_ok; eassumption.
Qed.
Lemma ids_ok j l : rd_list rd_i64 j = Some l -> forallb i64 l = true.
Proof.
  destruct j as [| | | |jl|]; cbn [rd_list]; try discriminate. intros H. apply all_ok in H. rewrite Forall_forall in H. apply forallb_forall. intros x Hx.
  destruct (H x ltac:(apply elem_of_list_In, Hx)) as [jx Ex]. apply (rd_int_ok _ _ _ Ex).
Qed.
Lemma rd_query_ok j q : rd_query j = Some q -> question_typed q = true.
Proof.
  unfold rd_query. intros H. destruct (rd_variant j) as [[n v]|]; [|discriminate]. cbv zeta in H. cbn [fst snd] in H. unfold rd_quote in H.
  opened; cbn [question_typed]; try reflexivity; unfold coin_typed;
  repeat match goal with
  | E : rd_coin _ _ = Some _ |- _ => apply rd_coin_ok in E; change (range U128_MAX) with u128 in E; rewrite E; clear E
  | E : rd_dec128 _ = Some _ |- _ => apply rd_decimal_ok in E; change (range U128_MAX) with u128 in E; rewrite E; clear E
  | E : rd_i64 _ = Some _ |- _ => apply rd_int_ok in E; rewrite E; clear E
  | E : maybe rd_i64 _ = Some _ |- _ => apply opt_int_ok in E; rewrite E; clear E
  | E : maybe rd_u64 _ = Some _ |- _ => apply opt_int_ok in E; rewrite E; clear E
  | E : maybe rd_key _ = Some _ |- _ => apply opt_key_ok in E; rewrite E; clear E
  | E : rd_list rd_i64 _ = Some _ |- _ => apply ids_ok in E; rewrite E; clear E
  | E : maybe rd_usize _ = Some ?y |- _ => apply opt_int_ok in E; destruct y; cbn [opt_typed] in *; [rewrite usize_range in E; rewrite E|]; clear E
  end; reflexivity.
Qed.
