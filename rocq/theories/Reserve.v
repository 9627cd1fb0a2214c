(** * Reserve: what one tick and direction owes its makers, and how operations change it. *)
From Verif Require Import Base Dec Types State TickMath Sumtree Tick Order SpecMath TickMathProofs
  TreeDefs Exec SumtreeProofs SumtreeRebalance SumtreeInsert PrefixSum SumtreeRoot SumtreeFail Ghost Inv StepPlace StepCancel StepClaim SwapPlan StepSwap.

(** Value of [u] units of a maker order of direction [d], as a fraction. *)
Definition vnum (d : dir) (u p : Z) : Z := match d with Ask => u * p | Bid => u * DEC end.
Definition vden (d : dir) (p : Z) : Z := match d with Ask => DEC | Bid => p end.
Definition cgross (d : dir) (u p : Z) : Z := ceil_div (vnum d u p) (vden d p).
Lemma gross_v d u p : gross d u p = floor_div (vnum d u p) (vden d p).
Proof. destruct d; reflexivity. Qed.
Lemma vden_pos d p : 0 < p -> 0 < vden d p.
Proof. pose proof DEC_pos. destruct d; cbn; lia. Qed.
Lemma vnum_add d a b p : vnum d (a + b) p = vnum d a p + vnum d b p.
Proof. destruct d; cbn; lia. Qed.

Lemma ceil_add a b k : 0 < k -> ceil_div (a + b) k <= ceil_div a k + ceil_div b k.
Proof. intros Hk. apply ceil_le; [assumption|]. pose proof (ceil_spec a k Hk). pose proof (ceil_spec b k Hk). lia. Qed.
Lemma ceil_split a b k : 0 < k -> ceil_div a k + floor_div b k <= ceil_div (a + b) k.
Proof.
  intros Hk. pose proof (ceil_spec a k Hk). pose proof (floor_spec b k Hk). pose proof (ceil_spec (a + b) k Hk).
  enough ((ceil_div a k + floor_div b k) * k < (ceil_div (a + b) k + 1) * k) by nia. lia.
Qed.
Lemma floor_add a b k : 0 < k -> floor_div a k + floor_div b k <= floor_div (a + b) k.
Proof. intros Hk. apply floor_ge; [assumption|]. pose proof (floor_spec a k Hk). pose proof (floor_spec b k Hk). lia. Qed.
Lemma floor_ceil a b k : 0 < k -> floor_div (a + b) k <= ceil_div a k + floor_div b k.
Proof. intros Hk. apply floor_le; [assumption|]. pose proof (ceil_spec a k Hk). pose proof (floor_spec b k Hk). lia. Qed.

Lemma cgross_add d a b p : 0 < p -> cgross d (a + b) p <= cgross d a p + cgross d b p.
Proof. intros Hp. unfold cgross. rewrite vnum_add. apply ceil_add, vden_pos, Hp. Qed.
Lemma cgross_split d a b p : 0 < p -> cgross d a p + gross d b p <= cgross d (a + b) p.
Proof. intros Hp. unfold cgross. rewrite gross_v, vnum_add. apply ceil_split, vden_pos, Hp. Qed.
Lemma gross_add d a b p : 0 < p -> gross d a p + gross d b p <= gross d (a + b) p.
Proof. intros Hp. rewrite !gross_v, vnum_add. apply floor_add, vden_pos, Hp. Qed.
Lemma gross_cgross d a b p : 0 < p -> gross d (a + b) p <= cgross d a p + gross d b p.
Proof. intros Hp. unfold cgross. rewrite !gross_v, vnum_add. apply floor_ceil, vden_pos, Hp. Qed.
Lemma gross_le_cgross d a p : 0 < p -> gross d a p <= cgross d a p.
Proof.
  intros Hp. rewrite gross_v. unfold cgross. pose proof (floor_spec (vnum d a p) _ (vden_pos d p Hp)). pose proof (ceil_spec (vnum d a p) _ (vden_pos d p Hp)).
  pose proof (vden_pos d p Hp). nia.
Qed.
Lemma cgross_nonneg d a p : 0 <= a -> 0 < p -> 0 <= cgross d a p.
Proof. intros Ha Hp. pose proof (gross_nonneg d a p Ha Hp). pose proof (gross_le_cgross d a p Hp). lia. Qed.
Lemma gross0 d p : 0 < p -> gross d 0 p = 0.
Proof. intros Hp. destruct d; cbn; [apply Z.div_0_l; lia|reflexivity]. Qed.
Lemma cgross0 d p : 0 < p -> cgross d 0 p = 0.
Proof. intros Hp. unfold cgross, ceil_div. destruct d; cbn; [rewrite Z.div_0_l by lia|]; reflexivity. Qed.

(** ** What the swapper pays covers what the makers are owed *)
Lemma cost_ge_gross d x p : 0 <= x -> 0 < p -> gross (opposite d) x p <= cost d x p.
Proof.
  intros Hx Hp. destruct d; cbn [opposite].
  - unfold gross, ask_gross, cost. change ATOM with DEC. pose proof DEC_pos as HD.
    pose proof (floor_spec (x * p) DEC HD). pose proof (ceil_spec (x * p) DEC HD). nia.
  - unfold gross, bid_gross, cost. change ATOM with DEC. pose proof DEC_pos as HD.
    pose proof (floor_spec (x * DEC) p Hp) as H1. set (k := floor_div (x * DEC) p) in *.
    apply ceil_ge; [assumption|]. assert (k * DEC <= floor_div (x * DEC * DEC) p); [|nia].
    apply floor_ge; [assumption|]. nia.
Qed.
(** Exact when the fill is all the input is worth. *)
Lemma cost_exact d q p : 0 <= q -> gap_ok p -> cost d (gross d q p) p = cgross (opposite d) (gross d q p) p.
Proof.
  intros Hq [Hp Hg]. pose proof DEC_pos as HD. assert (Hp0 : 0 < p) by lia. pose proof (gross_nonneg d q p Hq Hp0) as Hx0.
  destruct d; cbn [opposite]; [reflexivity|]. set (x := gross Ask q p) in *.
  destruct Hg as [Hg|Hg]; [apply sell_cost_exact; [assumption|lia]|].
  unfold cgross, vnum, vden. destruct (sell_cost_bounds x p Hx0 Hp0) as (H1 & H2 & H3).
  set (c := cost Ask x p) in *. set (b := ceil_div (x * DEC) p) in *.
  destruct (Z.eq_dec b c) as [->|Hne]; [reflexivity|exfalso]. assert (Eb : b = c + 1) by lia.
  pose proof (ceil_spec (x * DEC) p Hp0) as H4. fold b in H4.
  assert (Hx : x * DEC <= q * p < x * DEC + DEC).
  { pose proof (floor_spec (q * p) DEC HD) as H5. unfold x, gross, ask_gross. change ATOM with DEC. lia. }
  (* c p < x DEC <= q p, so q >= c + 1 and x DEC > (c + 1) p - DEC *)
  assert (c < q) by nia. assert ((c + 1) * p <= q * p) by nia.
  assert (Hgap : c * p + 10 ^ 12 < x * DEC) by lia.
  (* but x DEC DEC - p < c DEC p *)
  assert (p * DEC <= 10 ^ 12 * DEC * DEC \/ 10 ^ 12 * DEC < p) as [Hs|Hs] by nia.
  - (* p small *) assert ((c * p + 10 ^ 12) * DEC < c * DEC * p + p) by nia. assert (10 ^ 12 * DEC < p) by nia. nia.
  - (* p large: then DEC < p / 10^12 *)
    assert (x * DEC * DEC < c * DEC * p + p) by lia.
    assert (((c + 1) * p - DEC) * DEC < c * DEC * p + p) by nia.
    assert (p * DEC < DEC * DEC + p) by nia. assert (p * (DEC - 1) < DEC * DEC) by nia. rewrite DEC_val in *. nia.
Qed.

(** ** Sums over live orders *)
Definition lv : Type := Z * (Z * Z * Z).
Fixpoint sumL (f : Z -> Z -> Z) (L : list lv) : Z :=
  match L with [] => 0 | x :: L => f x.2.1.1 x.2.2 + sumL f L end.
Lemma sumL_app f L1 L2 : sumL f (L1 ++ L2) = sumL f L1 + sumL f L2.
Proof. induction L1; cbn; lia. Qed.
Lemma sumL_ext f g L : (forall id n c q, (id, (n, c, q)) ∈ L -> f n q = g n q) -> sumL f L = sumL g L.
Proof.
  induction L as [|[id [[n c] q]] L IH]; intros H; [reflexivity|]. cbn. rewrite (H id n c q) by constructor. f_equal.
  apply IH. intros. eapply H. constructor. eassumption.
Qed.
Lemma sumL_le f g L : (forall id n c q, (id, (n, c, q)) ∈ L -> f n q <= g n q) -> sumL f L <= sumL g L.
Proof.
  induction L as [|[id [[n c] q]] L IH]; intros H; [cbn; lia|]. cbn. pose proof (H id n c q ltac:(constructor)).
  enough (sumL f L <= sumL g L) by lia. apply IH. intros. eapply H. constructor. eassumption.
Qed.
Lemma sumL_nonneg f L : (forall id n c q, (id, (n, c, q)) ∈ L -> 0 <= f n q) -> 0 <= sumL f L.
Proof.
  induction L as [|[id [[n c] q]] L IH]; intros H; [cbn; lia|]. cbn. pose proof (H id n c q ltac:(constructor)).
  enough (0 <= sumL f L) by lia. apply IH. intros. eapply H. constructor. eassumption.
Qed.
Lemma sumL_add f g L : sumL (fun n q => f n q + g n q) L = sumL f L + sumL g L.
Proof. induction L; cbn; lia. Qed.
Lemma sumL_gross d p f L : 0 < p -> (forall id n c q, (id, (n, c, q)) ∈ L -> 0 <= f n q) ->
  sumL (fun n q => gross d (f n q) p) L <= gross d (sumL f L) p.
Proof.
  intros Hp. induction L as [|[id [[n c] q]] L IH]; intros H; cbn [sumL fst snd]; [rewrite gross0 by assumption; lia|].
  pose proof (gross_add d (f n q) (sumL f L) p Hp). enough (sumL (fun n q => gross d (f n q) p) L <= gross d (sumL f L) p) by lia.
  apply IH. intros. eapply H. constructor. eassumption.
Qed.

(** [B] closes an epoch: everything before it was completely filled when the tick ran empty. *)
Record epoch_ok (g : side) (B : Z) : Prop := {
  ep_B : 0 <= B <= g_F g;
  ep_live : forall id n c q, (id, (n, c, q)) ∈ g_lives g -> n + q <= B \/ B <= n
}.
Definition closed_part (d : dir) (p B : Z) (L : list lv) : Z := sumL (fun n q => if n <? B then gross d q p else 0) L.
Definition open_part (F B : Z) (L : list lv) : Z := sumL (fun n q => if n <? B then 0 else fifo F n q) L.
Definition reserve (d : dir) (p B : Z) (g : side) : Z :=
  closed_part d p B (g_lives g) + cgross d (open_part (g_F g) B (g_lives g)) p.

Lemma epoch0 : epoch_ok side0 0.
Proof. split; [cbn; lia|]. intros id n c q H. inversion H. Qed.
Lemma reserve0 d p : 0 < p -> reserve d p 0 side0 = 0.
Proof. intros Hp. unfold reserve, closed_part, open_part. cbn. rewrite cgross0 by assumption. reflexivity. Qed.
Lemma live_pos g id n c q : side_ok g -> (id, (n, c, q)) ∈ g_lives g -> 0 < q /\ 0 <= n /\ n + q <= nfs (g_items g).
Proof.
  intros Hok Hin. unfold g_lives in Hin. apply lives_split in Hin as (l1 & l2 & El & -> & ->).
  pose proof (all_at_impl _ _ _ _ _ (item_ok_pos _ _ _) (so_items _ Hok)) as Hpos. rewrite El in Hpos. apply all_at_app in Hpos as [P1 [Hq P2]].
  cbn in Hq. pose proof (pos_nonneg _ _ _ P1). pose proof (pos_nonneg _ _ _ P2). rewrite El, nfs_app. cbn. lia.
Qed.
Lemma reserve_nonneg d p B g : side_ok g -> 0 < p -> 0 <= reserve d p B g.
Proof.
  intros Hok Hp. unfold reserve. assert (0 <= closed_part d p B (g_lives g)).
  { apply sumL_nonneg. intros id n c q Hin. pose proof (live_pos _ _ _ _ _ Hok Hin). destruct (_ <? _); [apply gross_nonneg; lia|lia]. }
  enough (0 <= cgross d (open_part (g_F g) B (g_lives g)) p) by lia. apply cgross_nonneg; [|assumption].
  apply sumL_nonneg. intros id n c q Hin. destruct (_ <? _); unfold fifo; lia.
Qed.
(** The reserve covers the proceeds of every order. *)
Lemma reserve_covers d p B g : side_ok g -> epoch_ok g B -> 0 < p ->
  sumL (fun n q => gross d (fifo (g_F g) n q) p) (g_lives g) <= reserve d p B g.
Proof.
  intros Hok [E1 E2] Hp. unfold reserve.
  assert (H : sumL (fun n q => gross d (if n <? B then 0 else fifo (g_F g) n q) p) (g_lives g) <= cgross d (open_part (g_F g) B (g_lives g)) p).
  { etransitivity; [apply sumL_gross; [assumption|]|apply gross_le_cgross; assumption].
    intros id n c q Hin. destruct (_ <? _); unfold fifo; lia. }
  enough (sumL (fun n q => gross d (fifo (g_F g) n q) p) (g_lives g) =
    closed_part d p B (g_lives g) + sumL (fun n q => gross d (if n <? B then 0 else fifo (g_F g) n q) p) (g_lives g)) by lia.
  unfold closed_part. rewrite <- sumL_add. apply sumL_ext. intros id n c q Hin. pose proof (live_pos _ _ _ _ _ Hok Hin).
  destruct (E2 _ _ _ _ Hin); destruct (Z.ltb_spec n B); try lia.
  - rewrite gross0 by assumption. assert (fifo (g_F g) n q = q) as -> by (unfold fifo; lia). lia.
Qed.

(** ** Operations *)
Lemma reserve_sync d p B g : reserve d p B (g_sync g) = reserve d p B g.
Proof. unfold reserve, g_lives. rewrite sync_items, sync_F. reflexivity. Qed.
Lemma epoch_sync B g : epoch_ok g B -> epoch_ok (g_sync g) B.
Proof. intros [E1 E2]. split; [rewrite sync_F; assumption|]. unfold g_lives. rewrite sync_items. exact E2. Qed.

Lemma reserve_place d p B g id q : side_ok g -> epoch_ok g B -> 0 < p -> 0 < q ->
  epoch_ok (g_place g id q) B /\ reserve d p B (g_place g id q) = reserve d p B g.
Proof.
  intros Hok [E1 E2] Hp Hq. pose proof (so_F _ Hok) as HF.
  assert (El : g_lives (g_place g id q) = g_lives g ++ [(id, (nfs (g_items g), cns (g_items g), q))]).
  { unfold g_lives, g_place. cbn [g_items]. rewrite lives_app. reflexivity. }
  split.
  - split; [exact E1|]. intros id' n c q' Hin. rewrite El in Hin. apply elem_of_app in Hin as [Hin|Hin]; [eauto|].
    apply elem_of_list_singleton in Hin as [= -> -> -> ->]. lia.
  - unfold reserve, closed_part, open_part. rewrite El, !sumL_app. change (g_F (g_place g id q)) with (g_F g). cbn [sumL fst snd].
    destruct (Z.ltb_spec (nfs (g_items g)) B); [lia|].
    assert (fifo (g_F g) (nfs (g_items g)) q = 0) as -> by (unfold fifo; lia). rewrite !Z.add_0_r. reflexivity.
Qed.

Lemma pos_any n c n' c' l : all_at item_pos n c l -> all_at item_pos n' c' l.
Proof.
  revert n c n' c'. induction l as [|it l IH]; cbn; [auto|]. intros n c n' c' [A A2]. split; [destruct it; exact A|eauto].
Qed.
Lemma lives_from n c l id n' c' q : all_at item_pos 0 0 l -> (id, (n', c', q)) ∈ lives n c l -> n <= n'.
Proof.
  intros Hp Hin. apply lives_split in Hin as (l1 & l2 & -> & -> & _). apply all_at_app in Hp as [P1 _].
  pose proof (pos_nonneg _ _ _ P1). lia.
Qed.
Lemma sum_behind f L F : (forall n q, F <= n -> f n q = 0) -> (forall id n c q, (id, (n, c, q)) ∈ L -> F <= n) -> sumL f L = 0.
Proof.
  intros Hf HL. rewrite (sumL_ext f (fun _ _ => 0)); [|intros; apply Hf; eauto]. clear. induction L; cbn; lia.
Qed.

Lemma reserve_cancel d p B g id n c q : side_ok g -> epoch_ok g B -> (id, (n, c, q)) ∈ g_lives g -> g_F g <= n ->
  epoch_ok (g_cancel g id) B /\ reserve d p B (g_cancel g id) = reserve d p B g.
Proof.
  intros Hok [E1 E2] Hin HF. pose proof (live_pos _ _ _ _ _ Hok Hin) as Hq.
  split.
  - split; [exact E1|]. intros id' n' c' q' Hin'. destruct (cancel_lives _ _ _ _ _ Hok Hin) as [Hc _].
    destruct (Hc _ _ _ _ Hin') as (_ & n0 & c0 & Hin0 & _ & [[-> _]|[-> ?]]); [eauto|lia].
  - destruct (cancel_parts _ _ _ _ _ Hok Hin) as (l1 & l2 & El & En & Ec & Eg).
    pose proof (all_at_impl _ _ _ _ _ (item_ok_pos _ _ _) (so_items _ Hok)) as Hpos. rewrite El in Hpos. apply all_at_app in Hpos as [_ [_ P2]].
    assert (P2' : all_at item_pos 0 0 l2) by (eapply pos_any; exact P2). clear P2. rename P2' into P2.
    unfold reserve, closed_part, open_part, g_lives. rewrite Eg, El. change (g_F (g_cancel g id)) with (g_F g).
    rewrite !lives_app, !sumL_app. cbn [lives sumL fst snd qn qc]. rewrite <- En, <- Ec, ?Z.add_0_l.
    assert (Hz1 : forall m1 m2, g_F g <= m1 -> sumL (fun n q => if n <? B then gross d q p else 0) (lives m1 m2 l2) = 0).
    { intros m1 m2 Hm. eapply (sum_behind _ _ (g_F g)); [|intros id' n' c' q' H; apply lives_from in H; [lia|assumption]].
      intros n' q' Hn'. destruct (Z.ltb_spec n' B); lia. }
    assert (Hz2 : forall m1 m2, g_F g <= m1 -> sumL (fun n q => if n <? B then 0 else fifo (g_F g) n q) (lives m1 m2 l2) = 0).
    { intros m1 m2 Hm. eapply (sum_behind _ _ (g_F g)); [|intros id' n' c' q' H; apply lives_from in H; [lia|assumption]].
      intros n' q' Hn'. destruct (Z.ltb_spec n' B); unfold fifo; lia. }
    rewrite !Hz1, !Hz2 by lia. destruct (Z.ltb_spec n B); [lia|].
    assert (fifo (g_F g) n q = 0) as -> by (unfold fifo; lia). rewrite ?Z.add_0_r. reflexivity.
Qed.

Lemma reserve_claim d p B g id n c q : side_ok g -> epoch_ok g B -> (id, (n, c, q)) ∈ g_lives g -> 0 < p ->
  let f := fifo (g_F g) n q in 0 < f ->
  epoch_ok (g_claim g id f) B /\ reserve d p B (g_claim g id f) + gross d f p <= reserve d p B g.
Proof.
  intros Hok [E1 E2] Hin Hp f Hf. pose proof (live_pos _ _ _ _ _ Hok Hin) as Hq.
  destruct (claim_parts _ _ _ _ _ f Hok Hin) as (l1 & l2 & El & En & Ec & Eg).
  assert (Hfq : f <= q) by (unfold f, fifo; lia).
  split.
  - split; [exact E1|]. intros id' n' c' q' Hin'. apply (claim_lives _ _ _ _ _ f Hok Hin) in Hin' as [[_ Hin']|(-> & Hne & [= -> -> ->])]; [eauto|].
    destruct (E2 _ _ _ _ Hin) as [H|H]; [|lia]. exfalso. unfold f, fifo in *. lia.
  - destruct (claim_mid id q f) as [N C].
    unfold reserve, closed_part, open_part, g_lives. rewrite Eg, El. change (g_F (g_claim g id f)) with (g_F g).
    rewrite !lives_app, !sumL_app. cbn [lives sumL fst snd]. rewrite <- En, <- Ec, N, C, ?Z.add_0_l, ?Z.add_0_r.
    match goal with |- ?a1 + (?m1 + ?a2) + cgross d (?o1 + (?m2 + ?o2)) p + _ <= ?a1 + (?m3 + ?a2) + cgross d (?o1 + (?m4 + ?o2)) p =>
      set (A1 := a1); set (A2 := a2); set (O1 := o1); set (O2 := o2); set (M1 := m1); set (M2 := m2) end.
    assert (HM : (n < B -> M1 = 0 /\ M2 = 0 /\ f = q) /\ (B <= n -> M1 = 0 /\ M2 = 0)).
    { unfold M1, M2. destruct (E2 _ _ _ _ Hin) as [H|H]; (split; intros HB; [|try (exfalso; lia)]); try (exfalso; lia).
      - assert (Efq : f = q) by (unfold f, fifo; lia). destruct (Z.eqb_spec (q - f) 0); [cbn; auto|lia].
      - destruct (Z.eqb_spec (q - f) 0); [cbn; auto|]. cbn [lives sumL fst snd qn].
        destruct (Z.ltb_spec (n + f) B); [lia|]. unfold fifo. unfold f, fifo in *. lia. }
    destruct HM as [HM1 HM2]. fold f. destruct (Z.ltb_spec n B) as [HB|HB].
    + destruct (HM1 HB) as (-> & -> & ->). rewrite Z.add_0_l. lia.
    + destruct (HM2 HB) as (-> & ->). rewrite !Z.add_0_l. pose proof (cgross_split d (O1 + O2) f p Hp) as H.
      replace (O1 + (f + O2)) with (O1 + O2 + f) by lia. lia.
Qed.

(** Fills. *)
Lemma open_part_fill F crc last x B l : forall n c, 0 <= x -> B <= F ->
  all_at (item_ok F crc last) n c l -> (forall id n' c' q, (id, (n', c', q)) ∈ lives n c l -> n' + q <= B \/ B <= n') ->
  open_part (F + x) B (lives n c l) = open_part F B (lives n c l) + Z.max 0 (Z.min (F + x) (n + nfs l) - Z.max F n).
Proof.
  unfold open_part. induction l as [|[id q|q|q] l IH]; intros n c Hx HB; cbn [all_at lives sumL nfs qn qc]; [lia| | |]; intros [Hq Hl] He; cbn [item_ok qn qc] in *.
  - rewrite Z.add_0_r in Hl. cbn [fst snd]. rewrite (IH (n + q) c Hx HB Hl).
    2:{ intros. eapply He. constructor. eassumption. }
    pose proof (pos_nonneg _ _ _ (all_at_impl _ _ _ _ _ (item_ok_pos _ _ _) Hl)) as [Hn _].
    destruct (He id n c q ltac:(constructor)); destruct (Z.ltb_spec n B); unfold fifo; lia.
  - rewrite Z.add_0_r in *. rewrite (IH n (c + q) Hx HB Hl); [lia|]. exact He.
  - rewrite Z.add_0_r in *. rewrite (IH (n + q) c Hx HB Hl); [|exact He]. 
    pose proof (pos_nonneg _ _ _ (all_at_impl _ _ _ _ _ (item_ok_pos _ _ _) Hl)) as [Hn _]. lia.
Qed.

Lemma open_part_step g x B : side_ok g -> epoch_ok g B -> 0 <= x <= g_open g ->
  open_part (g_F g + x) B (g_lives g) = open_part (g_F g) B (g_lives g) + x.
Proof.
  intros Hok [E1 E2] Hx. pose proof (so_F _ Hok) as HF. unfold g_open in *.
  pose proof (open_part_fill (g_F g) (g_crc g) (g_last g) x B (g_items g) 0 0 ltac:(lia) ltac:(lia) (so_items _ Hok) E2) as Ho.
  fold (g_lives g) in Ho. rewrite Z.add_0_l in Ho. lia.
Qed.
(** A fill that empties the tick. *)
Lemma reserve_fill_last d p B g x ch : side_ok g -> epoch_ok g B -> 0 < p -> 0 < x -> x = g_open g -> gross d x p <= ch ->
  epoch_ok (g_fill g x) (g_F g + x) /\ reserve d p (g_F g + x) (g_fill g x) <= reserve d p B g + ch.
Proof.
  intros Hok He Hp Hx0 Hx H1. pose proof He as [E1 E2]. pose proof (so_F _ Hok) as HF.
  pose proof (open_part_step g x B Hok He ltac:(lia)) as Ho. unfold g_open in *.
  split.
  - split; [cbn; lia|]. intros id n c q Hin. left. pose proof (live_pos _ _ _ _ _ Hok Hin). lia.
  - unfold reserve. change (g_lives (g_fill g x)) with (g_lives g). change (g_F (g_fill g x)) with (g_F g + x).
    assert (Eo : open_part (g_F g + x) (g_F g + x) (g_lives g) = 0).
    { unfold open_part. rewrite (sumL_ext _ (fun _ _ => 0)); [clear; induction (g_lives g); cbn; lia|].
      intros id n c q Hin. pose proof (live_pos _ _ _ _ _ Hok Hin). destruct (Z.ltb_spec n (g_F g + x)); lia. }
    rewrite Eo, cgross0 by assumption. rewrite Z.add_0_r.
    pose proof (gross_cgross d (open_part (g_F g) B (g_lives g)) x p Hp) as H3. rewrite <- Ho in H3.
    assert (H4 : sumL (fun n q => gross d (if n <? B then 0 else fifo (g_F g + x) n q) p) (g_lives g) <= gross d (open_part (g_F g + x) B (g_lives g)) p).
    { apply sumL_gross; [assumption|]. intros id n c q Hin. destruct (_ <? _); unfold fifo; lia. }
    enough (closed_part d p (g_F g + x) (g_lives g) = closed_part d p B (g_lives g) +
      sumL (fun n q => gross d (if n <? B then 0 else fifo (g_F g + x) n q) p) (g_lives g)) by lia.
    unfold closed_part. rewrite <- sumL_add. apply sumL_ext. intros id n c q Hin. pose proof (live_pos _ _ _ _ _ Hok Hin).
    destruct (Z.ltb_spec n (g_F g + x)); [|lia]. destruct (Z.ltb_spec n B); [rewrite gross0 by assumption; lia|].
    assert (fifo (g_F g + x) n q = q) as -> by (unfold fifo; lia). lia.
Qed.
Lemma reserve_fill_part d p B g x ch : side_ok g -> epoch_ok g B -> 0 < p -> 0 <= x <= g_open g -> cgross d x p <= ch ->
  reserve d p B (g_fill g x) <= reserve d p B g + ch.
Proof.
  intros Hok He Hp Hx H2. pose proof (open_part_step g x B Hok He Hx) as Ho.
  unfold reserve. change (g_lives (g_fill g x)) with (g_lives g). change (g_F (g_fill g x)) with (g_F g + x). rewrite Ho.
  pose proof (cgross_add d (open_part (g_F g) B (g_lives g)) x p Hp). lia.
Qed.

(** The epoch after a fill of [x]: a fill that empties the tick closes the epoch. *)
Definition fill_epoch (B : Z) (g : side) (x : Z) : Z :=
  if (0 <? x) && (x =? g_open g) then g_F g + x else B.
Lemma reserve_fill d p B g x ch : side_ok g -> epoch_ok g B -> 0 < p -> 0 <= x <= g_open g -> 0 <= ch ->
  gross d x p <= ch -> (0 < x < g_open g -> cgross d x p <= ch) ->
  epoch_ok (g_fill g x) (fill_epoch B g x) /\ reserve d p (fill_epoch B g x) (g_fill g x) <= reserve d p B g + ch.
Proof.
  intros Hok He Hp Hx Hch H1 H2. unfold fill_epoch.
  destruct (Z.ltb_spec 0 x) as [Hx0|Hx0]; cbn [andb].
  2:{ assert (x = 0) as -> by lia. rewrite fill0. split; [assumption|lia]. }
  destruct (Z.eqb_spec x (g_open g)) as [Ex|Hne].
  - apply reserve_fill_last; assumption.
  - split; [|apply reserve_fill_part; auto; apply H2; lia].
    destruct He as [E1 E2]. pose proof (so_F _ Hok). split; [cbn; lia|exact E2].
Qed.
