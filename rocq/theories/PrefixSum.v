(** * PrefixSum: the prefix-sum walk computes the greedy realisation of cancelled ranges. *)
From Verif Require Import Base Dec Types State Sumtree TreeDefs Exec SumtreeProofs SumtreeRebalance SumtreeInsert.

(** Greedy realisation: walk the ranges in order, realising each one whose start is not
    beyond the fill position [F] advanced by what has been realised so far. *)
Fixpoint real (F S : Z) (L : list (Z * Z)) : Z :=
  match L with
  | [] => S
  | (e, v) :: L' => if e <=? F + S then real F (S + v) L' else S
  end.

(** [prev] is an earlier greedy result: every range below it is realised whole. *)
Fixpoint okprev (F prev A : Z) (L : list (Z * Z)) : Prop :=
  match L with
  | [] => True
  | (e, v) :: L' => (A < prev -> A + v <= prev /\ e <= F + A) /\ okprev F prev (A + v) L'
  end.

Lemma okprev_app F prev A L1 L2 :
  okprev F prev A (L1 ++ L2) <-> okprev F prev A L1 /\ okprev F prev (A + lsum L1) L2.
Proof.
  revert A. induction L1 as [|[e v] L1 IH]; intros A; cbn.
  - rewrite Z.add_0_r. tauto.
  - rewrite IH. rewrite Z.add_assoc. tauto.
Qed.

Lemma real_app F A L1 L2 :
  real F A L1 = A + lsum L1 -> Forall (fun p : Z * Z => 0 <= p.1 /\ 0 < p.2) L1 ->
  real F A (L1 ++ L2) = real F (A + lsum L1) L2.
Proof.
  revert A. induction L1 as [|[e v] L1 IH]; intros A HR HF; cbn in *.
  - rewrite Z.add_0_r. reflexivity.
  - inversion HF as [|? ? Hp HF']; subst. pose proof (lsum_nonneg _ HF'). cbn in Hp.
    destruct (Z.leb_spec e (F + A)).
    + rewrite IH; [f_equal; lia|lia|assumption].
    + lia.
Qed.

Lemma real_bounds F A L :
  Forall (fun p : Z * Z => 0 <= p.1 /\ 0 < p.2) L -> A <= real F A L <= A + lsum L.
Proof.
  revert A. induction L as [|[e v] L IH]; intros A HF; cbn; [lia|].
  inversion HF as [|? ? Hp HF']; subst. cbn in Hp. specialize (IH (A + v) HF').
  pose proof (lsum_nonneg _ HF'). destruct (Z.leb_spec e (F + A)); lia.
Qed.

(** If the next range is out of reach even when everything before is realised, it does not matter. *)
Lemma real_app_stop F A L1 e v L2 :
  Forall (fun p : Z * Z => 0 <= p.1 /\ 0 < p.2) L1 ->
  F + A + lsum L1 < e -> real F A (L1 ++ (e, v) :: L2) = real F A L1.
Proof.
  revert A. induction L1 as [|[e1 v1] L1 IH]; intros A HF Hlt; cbn in *.
  - destruct (Z.leb_spec e (F + A)); [lia|reflexivity].
  - inversion HF as [|? ? Hp HF']; subst. destruct (Z.leb_spec e1 (F + A)); [|reflexivity].
    apply IH; [assumption|lia].
Qed.

(** All ranges start at most [F + max A prev]: everything is realised. *)
Lemma real_all F A prev L :
  Forall (fun p : Z * Z => 0 <= p.1 /\ 0 < p.2) L -> okprev F prev A L ->
  (forall p, p ∈ L -> p.1 <= F + Z.max A prev) -> real F A L = A + lsum L.
Proof.
  revert A. induction L as [|[e v] L IH]; intros A HF Hok Hle; cbn in *; [lia|].
  inversion HF as [|? ? Hp HF']; subst. cbn in Hp. destruct Hok as [H1 H2].
  assert (He : e <= F + A).
  { destruct (Z.lt_ge_cases A prev) as [Hlt|Hge]; [apply H1; exact Hlt|].
    specialize (Hle (e, v) ltac:(constructor)). cbn in Hle. lia. }
  destruct (Z.leb_spec e (F + A)); [|lia]. rewrite IH; [lia|assumption|assumption|].
  intros p Hpp. specialize (Hle p ltac:(constructor; assumption)).
  destruct (Z.lt_ge_cases A prev); [|lia]. specialize (H1 ltac:(assumption)). lia.
Qed.

(** The next range is within reach of everything before: everything before is realised. *)
Lemma real_all_before F A B L :
  segs_ok L -> (forall p, p ∈ L -> p.1 + p.2 <= B) -> B <= F + A + lsum L -> real F A L = A + lsum L.
Proof.
  revert A. induction L as [|[e v] L IH]; intros A Hok Hle HB; [cbn; lia|].
  assert (Hsum : e + v + lsum L <= B).
  { clear IH HB. revert e v Hok Hle. induction L as [|[e2 v2] L IH]; intros e v Hok Hle.
    - specialize (Hle (e, v) ltac:(constructor)). cbn in *. lia.
    - destruct Hok as [HS HF]. apply StronglySorted_inv in HS as [HS Hx].
      inversion HF as [|? ? Hp HF']; subst. inversion Hx as [|? ? Hb Hx']; subst.
      unfold seg_before in Hb. cbn in Hb. specialize (IH e2 v2 (conj HS HF')).
      assert (e2 + v2 + lsum L <= B) by (apply IH; intros p Hpp; apply Hle; constructor; assumption).
      cbn. lia. }
  cbn in *. destruct (Z.leb_spec e (F + A)); [|lia].
  destruct Hok as [HS HF]. apply StronglySorted_inv in HS as [HS Hx]. inversion HF as [|? ? Hp HF']; subst.
  rewrite IH; [lia|split; assumption| |lia]. intros p Hpp. apply Hle. constructor. exact Hpp.
Qed.

Section walk.
  Context (tick : Z) (d : dir) (s : storage) (F prev : Z).
  Local Notation m := (s_nodes s).

  Lemma walk_spec t : forall fuel p A,
    theight t <= Z.of_nat fuel ->
    repr tick d m p t -> segs_ok (leaves t) -> tmax t <= U256_MAX ->
    0 <= F -> 0 <= A -> 0 <= prev -> okprev F prev A (leaves t) ->
    F + Z.max (A + tsum t) prev <= U256_MAX ->
    tmin t <= F + Z.max A prev ->
    prefix_sum_walk fuel s (node_of tick d p t) (A + tsum t) (F + Z.max A prev) prev
    = Ok (real F A (leaves t)).
  Proof.
    induction t as [k e v|k l IHl r IHr]; intros fuel p A Hf Hrep Hok Hmax HF HA Hprev Hokp Hsum Hmin.
    - destruct fuel as [|fuel]; [cbn in Hf; lia|]. cbn [prefix_sum_walk].
      rewrite node_of_min. cbn [tmin tmax tsum leaves] in *.
      destruct (Z.ltb_spec (F + Z.max A prev) e); [lia|].
      rewrite node_of_max by exact Hmax. cbn [rbind tmax].
      assert (E : real F A [(e, v)] = A + v).
      { cbn. destruct (Z.leb_spec e (F + A)) as [|Hgt]; [reflexivity|].
        destruct Hokp as [H1 _]. destruct (Z.lt_ge_cases A prev) as [Hlt|Hge]; [specialize (H1 Hlt); lia|lia]. }
      rewrite E. destruct (Z.leb_spec (v + e) (F + Z.max A prev)); [reflexivity|]. reflexivity.
    - destruct fuel as [|fuel]; [pose proof (theight_pos (TNode k l r)); lia|].
      pose proof (theight_pos l). pose proof (theight_pos r).
      cbn [theight] in Hf.
      destruct Hrep as (Hself & Hl & Hr).
      pose proof (repr_lookup _ _ _ _ _ Hl) as Hl0. pose proof (repr_lookup _ _ _ _ _ Hr) as Hr0.
      pose proof (tmax_tmin _ _ _ Hok) as Hlr. pose proof (segs_node _ _ _ Hok) as [Hokl Hokr].
      pose proof (tsum_range _ Hokl). pose proof (tsum_range _ Hokr).
      pose proof (tmin_lt_tmax _ Hokl). pose proof (tmin_lt_tmax _ Hokr).
      pose proof (tsum_lsum l) as Esl. pose proof (tsum_lsum r) as Esr.
      cbn [leaves] in Hokp. apply okprev_app in Hokp as [Hokpl Hokpr]. rewrite <- Esl in Hokpr.
      cbn [tsum tmin tmax] in *.
      cbn [prefix_sum_walk]. rewrite node_of_min. cbn [tmin].
      destruct (Z.ltb_spec (F + Z.max A prev) (tmin l)); [lia|].
      rewrite node_of_max by (cbn; lia). cbn [rbind tmax].
      destruct (Z.leb_spec (tmax r) (F + Z.max A prev)) as [Hall|Hnall].
      { f_equal. symmetry. rewrite (real_all F A prev).
        - cbn [leaves]. rewrite lsum_app. lia.
        - apply Hok.
        - cbn [leaves]. apply okprev_app. rewrite <- Esl. split; assumption.
        - intros q Hq. pose proof (tmax_ge _ _ Hok Hq). pose proof (segs_ok_pos _ _ Hok Hq).
          cbn [tmax] in *. lia. }
      cbn [is_internal negb node_of n_type].
      unfold get_left, get_right. cbn [n_left n_right n_tick load_child node_of]. rewrite Hl0, Hr0.
      cbn [get_value n_type]. rewrite !node_of_value, !node_of_min.
      rewrite checked_sub_ok by (cbn [tsum]; lia). cbn [rbind tsum].
      replace (A + (tsum l + tsum r) - (tsum l + tsum r)) with A by lia.
      assert (Ene : F + Z.max A prev + saturating_sub (tsum l) (saturating_sub prev A)
                    = F + Z.max (A + tsum l) prev) by (unfold saturating_sub; lia).
      rewrite checked_add_ok by (rewrite Ene; lia). cbn [rbind]. rewrite Ene.
      destruct (Z.leb_spec (tmin r) (F + Z.max (A + tsum l) prev)) as [Hre|Hre]; cbn [rbind].
      { (* walk right *)
        replace (A + (tsum l + tsum r)) with (A + tsum l + tsum r) by lia.
        rewrite IHr; try assumption; try lia.
        f_equal. cbn [leaves]. symmetry. rewrite real_app.
        - rewrite <- Esl. reflexivity.
        - destruct (Z.le_gt_cases prev (A + tsum l)) as [Hp|Hp].
          + apply (real_all_before F A (tmin r)); [exact Hokl| |lia].
            intros q Hq. pose proof (tmax_ge _ _ Hokl Hq). lia.
          + clear - Hokl Hokpl Hp Esl HA. rewrite Esl in Hp. clear Esl. destruct Hokl as [_ HFl].
            revert A HA Hokpl Hp. induction (leaves l) as [|[e v] L IH]; intros A HA Hokpl Hp; cbn in *; [lia|].
            destruct Hokpl as [Hx1 Hx2]. inversion HFl as [|? ? Hpos HFl']; subst. cbn in Hpos.
            pose proof (lsum_nonneg _ HFl').
            destruct (Z.leb_spec e (F + A)); [|specialize (Hx1 ltac:(lia)); lia].
            rewrite IH; try assumption; lia.
        - apply Hokl. }
      (* the right subtree is out of reach *)
      assert (Hp : prev <= A + tsum l).
      { destruct (tmin_cons r) as (vv & L & EL). rewrite EL in Hokpr. cbn in Hokpr. destruct Hokpr as [Hx1 _].
        destruct (Z.lt_ge_cases (A + tsum l) prev) as [Hlt|]; [specialize (Hx1 Hlt); lia|assumption]. }
      assert (Estop : real F A (leaves l ++ leaves r) = real F A (leaves l)).
      { destruct (tmin_cons r) as (vv & L & EL). rewrite EL. apply real_app_stop; [apply Hokl|lia]. }
      cbn [leaves]. rewrite Estop.
      destruct (Z.ltb_spec (F + Z.max A prev) (tmin l)); [lia|].
      rewrite node_of_max by lia. cbn [rbind].
      destruct (Z.ltb_spec (F + Z.max A prev) (tmax l)) as [Hin|Hout].
      { cbn [option_map unwrap_or]. rewrite node_of_value. rewrite checked_sub_ok by lia. cbn [rbind].
        replace (A + (tsum l + tsum r) - tsum r) with (A + tsum l) by lia.
        rewrite IHl; try assumption; try lia. reflexivity. }
      cbn [rbind]. destruct (Z.ltb_spec (F + Z.max A prev) (tmin r)); [|lia].
      rewrite checked_sub_ok by lia. f_equal. rewrite (real_all F A prev); [lia|apply Hokl|assumption|].
      intros q Hq. pose proof (tmax_ge _ _ Hokl Hq). pose proof (segs_ok_pos _ _ Hokl Hq). lia.
  Qed.
End walk.
