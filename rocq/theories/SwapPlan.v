(** * SwapPlan: the arithmetic of a market order, without storage. *)
From Verif Require Import Base Dec Types State TickMath Order SpecMath TickMathProofs StepClaim.

(** Input charged for taking [x] units at price [p] (as amount_to_value computes it). *)
Definition cost (d : dir) (x p : Z) : Z :=
  match d with
  | Bid => ceil_div (x * p) DEC
  | Ask => ceil_div (floor_div (x * DEC * DEC) p) DEC
  end.

(** Walk the ticks [l]; [open t] is the liquidity at [t].  Result: fills (tick, taken, charged),
    left-over quantity and price of the last tick looked at; [None] when a fill would cost nothing. *)
Fixpoint plan (d : dir) (open : Z -> Z) (l : list Z) (q p0 : Z) : option (list (Z * Z * Z) * Z * Z) :=
  match l with
  | [] => Some ([], q, p0)
  | t :: l =>
      if open t =? 0 then plan d open l q p0
      else
        let p := tick_price t in
        let w := gross d q p in
        if w =? 0 then Some ([], 0, p)
        else
          let x := Z.min w (open t) in
          let c := cost d x p in
          if c =? 0 then None
          else match plan d open l (q - c) p with
               | Some (fs, r, pr) => Some ((t, x, c) :: fs, r, pr)
               | None => None
               end
  end.

Definition f_tick (f : Z * Z * Z) : Z := f.1.1.
Definition f_out (f : Z * Z * Z) : Z := f.1.2.
Definition f_in (f : Z * Z * Z) : Z := f.2.
Fixpoint sum_out (fs : list (Z * Z * Z)) : Z := match fs with [] => 0 | f :: fs => f_out f + sum_out fs end.
Fixpoint sum_in (fs : list (Z * Z * Z)) : Z := match fs with [] => 0 | f :: fs => f_in f + sum_in fs end.
Fixpoint taken (fs : list (Z * Z * Z)) (t : Z) : Z :=
  match fs with [] => 0 | f :: fs => (if f_tick f =? t then f_out f else 0) + taken fs t end.

(** ** Rounding *)
Lemma ceil_spec a b : 0 < b -> a <= ceil_div a b * b < a + b.
Proof.
  intros Hb. unfold ceil_div. pose proof (Z.mul_div_le (- a) b Hb). pose proof (Z.mul_succ_div_gt (- a) b Hb). lia.
Qed.
Lemma floor_spec a b : 0 < b -> floor_div a b * b <= a < floor_div a b * b + b.
Proof.
  intros Hb. unfold floor_div. pose proof (Z.mul_div_le a b Hb). pose proof (Z.mul_succ_div_gt a b Hb). lia.
Qed.
Lemma ceil_le a b c : 0 < b -> a <= c * b -> ceil_div a b <= c.
Proof. intros Hb H. pose proof (ceil_spec a b Hb). nia. Qed.
Lemma ceil_ge a b c : 0 < b -> (c - 1) * b < a -> c <= ceil_div a b.
Proof. intros Hb H. pose proof (ceil_spec a b Hb). nia. Qed.
Lemma floor_le a b c : 0 < b -> a < (c + 1) * b -> floor_div a b <= c.
Proof. intros Hb H. pose proof (floor_spec a b Hb). nia. Qed.
Lemma floor_ge a b c : 0 < b -> c * b <= a -> c <= floor_div a b.
Proof. intros Hb H. pose proof (floor_spec a b Hb). nia. Qed.

Lemma gross_nonneg d q p : 0 <= q -> 0 < p -> 0 <= gross d q p.
Proof.
  intros Hq Hp. pose proof DEC_pos. destruct d; unfold gross, ask_gross, bid_gross; rewrite <- DEC_ATOM; apply floor_ge; nia.
Qed.
Lemma cost_nonneg d x p : 0 <= x -> 0 < p -> 0 <= cost d x p.
Proof.
  intros Hq Hp. pose proof DEC_pos as HD. destruct d; unfold cost; apply ceil_ge; try assumption; [nia|].
  assert (0 <= floor_div (x * DEC * DEC) p) by (apply floor_ge; nia). nia.
Qed.

Lemma cost_le d q p x : 0 <= x <= gross d q p -> 0 < p -> cost d x p <= q.
Proof.
  intros Hx Hp. pose proof DEC_pos as HD. destruct d; unfold gross, ask_gross, bid_gross in Hx; rewrite <- DEC_ATOM in Hx; unfold cost.
  - pose proof (floor_spec (q * DEC) p Hp). apply ceil_le; [assumption|]. nia.
  - pose proof (floor_spec (q * p) DEC HD). apply ceil_le; [assumption|].
    pose proof (floor_spec (x * DEC * DEC) p Hp) as H1.
    assert (floor_div (x * DEC * DEC) p * p <= q * DEC * p) by nia. nia.
Qed.

(** Positive fills cost something when buying. *)
Lemma buy_cost_pos x p : 0 < x -> 0 < p -> 0 < cost Bid x p.
Proof. intros Hx Hp. pose proof DEC_pos as HD. unfold cost. assert (1 <= ceil_div (x * p) DEC); [|lia]. apply ceil_ge; nia. Qed.

(** Prices that ticks can have: none strictly between 1 and 1 + 10^-6. *)
Definition gap_ok (p : Z) : Prop := 10 ^ 6 <= p /\ (p <= DEC \/ DEC + 10 ^ 12 <= p).
Lemma tick_gap t : valid_tick t -> gap_ok (tick_price t).
Proof. intros H. split; [apply (tick_price_range t H)|apply tick_price_gap; assumption]. Qed.

(** Selling: the charge is the exact ceiling unless the price is above one. *)
Lemma sell_cost_exact x p : 0 <= x -> 10 ^ 6 <= p <= DEC -> cost Ask x p = ceil_div (x * DEC) p.
Proof.
  intros Hx Hp. pose proof DEC_pos as HD. unfold cost.
  pose proof (floor_spec (x * DEC * DEC) p ltac:(lia)) as H1. set (f := floor_div (x * DEC * DEC) p) in *.
  pose proof (ceil_spec f DEC HD) as H2. pose proof (ceil_spec (x * DEC) p ltac:(lia)) as H3.
  set (a := ceil_div f DEC) in *. set (b := ceil_div (x * DEC) p) in *.
  (* a * DEC >= f > x DEC DEC / p - 1 >= ... *)
  assert (a <= b). { enough (a * DEC < (b + 1) * DEC) by nia. enough (a * DEC * p < (b + 1) * DEC * p) by nia. nia. }
  enough (b <= a) by lia.
  (* suppose a <= b - 1: then a * p < x * DEC, so x*DEC - a*p >= 1, (x*DEC - a*p) * DEC >= DEC >= p, so f >= a*DEC + 1 *)
  destruct (Z.le_gt_cases b a); [assumption|exfalso]. assert (a * p + 1 <= x * DEC) by nia.
  assert (a * DEC + 1 <= f); [|lia]. enough (a * DEC * p + p <= f * p + p - 1) by nia.
  assert (a * DEC * p + DEC <= x * DEC * DEC) by nia. nia.
Qed.
Lemma sell_cost_bounds x p : 0 <= x -> 0 < p ->
  x * DEC * DEC - p < cost Ask x p * DEC * p /\ cost Ask x p <= ceil_div (x * DEC) p /\ ceil_div (x * DEC) p <= cost Ask x p + 1.
Proof.
  intros Hx Hp. pose proof DEC_pos as HD. unfold cost.
  pose proof (floor_spec (x * DEC * DEC) p ltac:(lia)) as H1. set (f := floor_div (x * DEC * DEC) p) in *.
  pose proof (ceil_spec f DEC HD) as H2. pose proof (ceil_spec (x * DEC) p ltac:(lia)) as H3.
  set (a := ceil_div f DEC) in *. set (b := ceil_div (x * DEC) p) in *.
  assert (f * p <= a * DEC * p) by nia.
  split; [lia|]. split.
  - enough (a * DEC < (b + 1) * DEC) by nia. enough (a * DEC * p < (b + 1) * DEC * p) by nia. nia.
  - destruct (Z.le_gt_cases b (a + 1)); [assumption|exfalso].
    assert ((a + 1) * p + 1 <= x * DEC) by nia. assert ((a + 1) * p * DEC <= x * DEC * DEC) by nia.
    assert (p < p * DEC) by (rewrite DEC_val; lia). nia.
Qed.

(** Taking as much as the input is worth leaves input that is worth nothing at this price. *)
Lemma full_take_rest d q p :
  0 <= q -> gap_ok p -> let x := gross d q p in gross d (q - cost d x p) p = 0.
Proof.
  intros Hq [Hp Hg] x. pose proof DEC_pos as HD. assert (Hp0 : 0 < p) by lia.
  pose proof (gross_nonneg d q p Hq Hp0) as Hx0. fold x in Hx0.
  pose proof (cost_le d q p x ltac:(lia) Hp0) as Hc.
  assert (Hr0 : 0 <= gross d (q - cost d x p) p) by (apply gross_nonneg; lia).
  enough (gross d (q - cost d x p) p <= 0) by lia. clear Hr0.
  destruct d; unfold x in *; clear x; unfold gross, ask_gross, bid_gross in *; change ATOM with DEC in *; apply floor_le; try assumption.
  - pose proof (floor_spec (q * DEC) p Hp0) as H1. set (y := floor_div (q * DEC) p) in *.
    unfold cost in *. pose proof (ceil_spec (y * p) DEC HD). nia.
  - pose proof (floor_spec (q * p) DEC HD) as H1. set (y := floor_div (q * p) DEC) in *.
    destruct Hg as [Hg|Hg].
    + rewrite sell_cost_exact in * by lia. pose proof (ceil_spec (y * DEC) p Hp0). nia.
    + destruct (sell_cost_bounds y p Hx0 Hp0) as [H2 _]. set (c := cost Ask y p) in *.
      assert (q - c = 0 \/ 1 <= q - c) as [E|E] by lia; [rewrite E; lia|]. exfalso.
      assert (H3 : (q - c) * p * DEC < DEC * DEC + p) by nia.
      assert (p * DEC <= (q - c) * p * DEC) by nia.
      assert (DEC * DEC + p <= p * DEC); [|lia]. rewrite DEC_val in *. nia.
Qed.
(** A worse price does not help. *)
Lemma gross_worse d q p p' :
  0 <= q -> 0 < p -> 0 < p' -> match d with Bid => p <= p' | Ask => p' <= p end -> gross d q p' <= gross d q p.
Proof.
  intros Hq Hp Hp' H. pose proof DEC_pos as HD. destruct d; unfold gross, ask_gross, bid_gross; rewrite <- DEC_ATOM.
  - apply floor_ge; [assumption|]. pose proof (floor_spec (q * DEC) p' Hp').
    assert (0 <= floor_div (q * DEC) p') by (apply floor_ge; nia). nia.
  - apply floor_ge; [assumption|]. pose proof (floor_spec (q * p') DEC HD). nia.
Qed.

(** ** The plan *)
(** Tick [a] has a strictly better price than [b] for the taker. *)
Definition better (d : dir) (a b : Z) : Prop := match d with Bid => a < b | Ask => b < a end.
Definition worse_eq (d : dir) (p p' : Z) : Prop := match d with Bid => p <= p' | Ask => p' <= p end.
Lemma better_trans d a b c : better d a b -> better d b c -> better d a c.
Proof. destruct d; cbn; lia. Qed.
Lemma better_price d a b : valid_tick a -> valid_tick b -> better d a b -> worse_eq d (tick_price a) (tick_price b).
Proof.
  intros [A1 A2] [B1 B2]. destruct d; cbn; intros H.
  - apply tick_price_mono_le; lia.
  - apply tick_price_mono_le; lia.
Qed.
Lemma better_cases d a b : a = b \/ better d a b \/ better d b a.
Proof. destruct d; cbn; lia. Qed.

Definition fill_good (d : dir) (open : Z -> Z) (f : Z * Z * Z) : Prop :=
  0 < f_out f <= open (f_tick f) /\ f_in f = cost d (f_out f) (tick_price (f_tick f)) /\ 0 < f_in f.

Record plan_good (d : dir) (open : Z -> Z) (l : list Z) (q p0 : Z) (fs : list (Z * Z * Z)) (r pr : Z) : Prop := {
  pg_fills : Forall (fill_good d open) fs;
  pg_ticks : sublist (map f_tick fs) l;
  pg_rest : 0 <= r;
  pg_dust : 0 <= q - sum_in fs - r;
  pg_one : q - sum_in fs - r = 0 \/ r = 0;
  pg_dusty : 0 < q - sum_in fs - r -> exists t, t ∈ l /\ taken fs t < open t;
  pg_none : (forall t, t ∈ l -> gross d q (tick_price t) = 0) -> fs = [];
  pg_prio : forall t t', t ∈ map f_tick fs -> t' ∈ l -> better d t' t -> taken fs t' = open t';
  pg_left : forall t, t ∈ l -> taken fs t < open t -> gross d (q - sum_in fs) (tick_price t) = 0;
  pg_price : pr = p0 \/ exists t, t ∈ l /\ pr = tick_price t;
  pg_last : r <> 0 -> forall t, t ∈ l -> open t <> 0 -> worse_eq d (tick_price t) pr
}.

Lemma taken_notin fs t : t ∉ map f_tick fs -> taken fs t = 0.
Proof.
  induction fs as [|f fs IH]; cbn; [reflexivity|]. intros H. rewrite IH; [|intros E; apply H; constructor; exact E].
  destruct (Z.eqb_spec (f_tick f) t) as [<-|]; [exfalso; apply H; constructor|reflexivity].
Qed.
Lemma taken_in_range d open fs t :
  Forall (fill_good d open) fs -> NoDup (map f_tick fs) -> 0 <= open t -> 0 <= taken fs t <= open t.
Proof.
  intros Hf Hnd Ho. induction fs as [|f fs IH]; cbn; [lia|].
  apply Forall_cons in Hf as [Hg Hf]. apply NoDup_cons in Hnd as [Hni Hnd]. specialize (IH Hf Hnd).
  destruct (Z.eqb_spec (f_tick f) t) as [<-|]; [|lia]. rewrite (taken_notin fs) by exact Hni. destruct Hg as (? & _). lia.
Qed.
Lemma sum_in_nonneg d open fs : Forall (fill_good d open) fs -> 0 <= sum_in fs.
Proof. induction 1 as [|f fs Hf Hfs IH]; cbn; [lia|]. destruct Hf as (_ & _ & ?). lia. Qed.

Definition ordered (d : dir) (l : list Z) : Prop := StronglySorted (better d) l.
Lemma ordered_nodup d l : ordered d l -> NoDup l.
Proof.
  induction 1 as [|a l Hl IH Ha]; constructor; [|exact IH]. intros Hin. rewrite Forall_forall in Ha.
  specialize (Ha a Hin). destruct d; cbn in Ha; lia.
Qed.
Lemma sublist_nodup {A} (l1 l2 : list A) : sublist l1 l2 -> NoDup l2 -> NoDup l1.
Proof.
  induction 1 as [|a l1 l2 H IH|a l1 l2 H IH]; intros Hn; [exact Hn| |]; apply NoDup_cons in Hn as [Ha Hn]; [|auto].
  constructor; [|auto]. intros Hin. apply Ha. apply sublist_submseteq in H. eapply elem_of_submseteq; eauto.
Qed.
Lemma sublist_in {A} (l1 l2 : list A) x : sublist l1 l2 -> x ∈ l1 -> x ∈ l2.
Proof. intros H Hx. apply sublist_submseteq in H. eapply elem_of_submseteq; eauto. Qed.

Lemma plan_spec d open l : forall q p0 fs r pr,
  ordered d l -> (forall t, t ∈ l -> valid_tick t) -> (forall t, 0 <= open t) -> 0 <= q ->
  plan d open l q p0 = Some (fs, r, pr) -> plan_good d open l q p0 fs r pr.
Proof.
  induction l as [|t l IH]; intros q p0 fs r pr Hord Hval Hop Hq.
  { cbn. intros [= <- <- <-]. split; cbn; try lia; try constructor; auto; intros; try (exfalso; lia);
      match goal with H : _ ∈ [] |- _ => inversion H end. }
  apply StronglySorted_inv in Hord as [Hord Ht]. rewrite Forall_forall in Ht.
  assert (Hvt : valid_tick t) by (apply Hval; constructor).
  assert (Hvl : forall t', t' ∈ l -> valid_tick t') by (intros; apply Hval; constructor; assumption).
  pose proof (tick_price_pos t Hvt) as Hp. assert (Htl : t ∉ l) by (intros Hin; specialize (Ht t Hin); destruct d; cbn in Ht; lia).
  cbn [plan]. destruct (Z.eqb_spec (open t) 0) as [E0|Hne].
  { intros H. destruct (IH _ _ _ _ _ Hord Hvl Hop Hq H) as [H1 H2 H3 H4 H5 H6 H7 H8 H9 H10 H11].
    assert (Htk : taken fs t = 0) by (apply taken_notin; intros Hin; apply Htl; eapply sublist_in; eauto).
    split; try assumption.
    - constructor. assumption.
    - intros Hd. destruct (H6 Hd) as (t' & ? & ?). exists t'. split; [constructor; assumption|assumption].
    - intros Hz. apply H7. intros t' Ht'. apply Hz. constructor. assumption.
    - intros a b Ha Hb Hab. apply elem_of_cons in Hb as [->|Hb]; [lia|]. eauto.
    - intros a Ha Hlt. apply elem_of_cons in Ha as [->|Ha]; [lia|]. eauto.
    - destruct H10 as [|(t' & ? & ?)]; [auto|]. right. exists t'. split; [constructor; assumption|assumption].
    - intros Hd a Ha Hao. apply elem_of_cons in Ha as [->|Ha]; [contradiction|]. eauto. }
  specialize (Hop t) as Hopt.
  destruct (Z.eqb_spec (gross d q (tick_price t)) 0) as [Ew|Hw].
  { intros [= <- <- <-]. split; cbn [sum_in map taken]; try lia; auto.
    - apply sublist_nil_l.
    - intros _. exists t. split; [constructor|]. lia.
    - intros a b Ha. inversion Ha.
    - intros a Ha Hlt. apply elem_of_cons in Ha as [->|Ha]; [replace (q - 0) with q by lia; exact Ew|].
      replace (q - 0) with q by lia. pose proof (tick_price_pos a (Hvl _ Ha)) as Hpa.
      pose proof (gross_worse d q _ _ Hq Hp Hpa) as Hgw.
      pose proof (better_price d t a Hvt (Hvl _ Ha) (Ht _ Ha)) as Hb. unfold worse_eq in Hb. specialize (Hgw Hb).
      pose proof (gross_nonneg d q _ Hq Hpa). lia.
    - right. exists t. split; [constructor|reflexivity].
  }
  set (p := tick_price t) in *. set (w := gross d q p) in *. set (x := Z.min w (open t)). set (c := cost d x p).
  destruct (Z.eqb_spec c 0) as [|Hc]; [discriminate|].
  destruct (plan d open l (q - c) p) as [[[fs0 r0] pr0]|] eqn:E; [|discriminate]. intros [= <- <- <-].
  assert (Hw0 : 0 < w) by (pose proof (gross_nonneg d q p Hq Hp) as Hgn; fold w in Hgn; lia).
  assert (Hx : 0 < x) by (unfold x; lia). assert (Hxw : x <= w) by (unfold x; lia). assert (Hxo : x <= open t) by (unfold x; lia).
  pose proof (cost_le d q p x ltac:(fold w; lia) Hp) as Hcq. fold c in Hcq.
  pose proof (cost_nonneg d x p ltac:(lia) Hp) as Hc0. fold c in Hc0.
  destruct (IH (q - c) p fs0 r0 pr0 Hord Hvl Hop ltac:(lia) E) as [H1 H2 H3 H4 H5 H6 H7 H8 H9 H10 H11].
  pose proof (sum_in_nonneg _ _ _ H1) as Hs0.
  assert (Hnt : t ∉ map f_tick fs0) by (intros Hin; apply Htl; eapply sublist_in; eauto).
  assert (Htk : taken fs0 t = 0) by (apply taken_notin; assumption).
  assert (Htkc : taken ((t, x, c) :: fs0) t = x) by (cbn [taken f_tick f_out fst snd]; rewrite Z.eqb_refl; lia).
  assert (Htkn : forall t', t' ∈ l -> taken ((t, x, c) :: fs0) t' = taken fs0 t').
  { intros t' Hin. cbn [taken f_tick f_out fst snd]. destruct (Z.eqb_spec t t') as [->|]; [contradiction|lia]. }
  (* partial take: nothing more happens *)
  assert (Hpart : x < open t -> fs0 = [] /\ forall t', t' ∈ l -> gross d (q - c) (tick_price t') = 0).
  { intros Hlt. assert (Exw : x = w) by (unfold x in *; lia).
    pose proof (full_take_rest d q p Hq (tick_gap _ Hvt)) as Hz. cbn zeta in Hz. fold w in Hz. rewrite <- Exw in Hz. fold c in Hz.
    assert (Hall : forall t', t' ∈ l -> gross d (q - c) (tick_price t') = 0).
    { intros t' Hin. pose proof (tick_price_pos t' (Hvl _ Hin)) as Hp'.
      pose proof (better_price d t t' Hvt (Hvl _ Hin) (Ht _ Hin)) as Hb.
      pose proof (gross_worse d (q - c) p _ ltac:(lia) Hp Hp' Hb). pose proof (gross_nonneg d (q - c) _ ltac:(lia) Hp'). lia. }
    split; [apply H7; assumption|assumption]. }
  split; cbn [sum_in f_in f_out f_tick fst snd map]; try lia.
  - constructor; [|assumption]. unfold fill_good. cbn [f_tick f_out f_in fst snd]. fold p. fold c. repeat split; lia.
  - constructor. assumption.
  - intros Hd. destruct (H6 ltac:(lia)) as (t' & Hin & ?). exists t'. split; [constructor; assumption|]. rewrite Htkn by assumption. assumption.
  - intros Hz. specialize (Hz t ltac:(constructor)). fold p in Hz. fold w in Hz. lia.
  - intros a b Ha Hb Hab. apply elem_of_cons in Ha as [->|Ha].
    + apply elem_of_cons in Hb as [->|Hb]; [destruct d; cbn in Hab; lia|]. specialize (Ht _ Hb). destruct d; cbn in *; lia.
    + apply elem_of_cons in Hb as [->|Hb].
      * rewrite Htkc. destruct (Z.lt_ge_cases x (open t)) as [Hlt|]; [|lia]. destruct (Hpart Hlt) as [-> _]. inversion Ha.
      * rewrite Htkn by assumption. eauto.
  - intros a Ha Hlt. apply elem_of_cons in Ha as [->|Ha].
    + rewrite Htkc in Hlt. destruct (Hpart Hlt) as [-> _]. cbn [sum_in].
      assert (Exw : x = w) by (unfold x in *; lia).
      pose proof (full_take_rest d q p Hq (tick_gap _ Hvt)) as Hz. cbn zeta in Hz. fold w in Hz. rewrite <- Exw in Hz. fold c in Hz.
      rewrite Z.add_0_r. exact Hz.
    + rewrite Htkn in Hlt by assumption. replace (q - (c + sum_in fs0)) with (q - c - sum_in fs0) by lia. auto.
  - right. destruct H10 as [->|(t' & ? & ?)]; [exists t; split; [constructor|reflexivity]|].
    exists t'. split; [constructor; assumption|assumption].
  - intros Hd a Ha Hao. apply elem_of_cons in Ha as [->|Ha].
    + destruct H10 as [->|(t' & Hin & ->)]; [fold p; unfold worse_eq; destruct d; lia|].
      apply better_price; auto.
    + eauto.
Qed.

(** Buying never runs into a zero charge. *)
Lemma plan_buy_some open l : forall q p0,
  (forall t, t ∈ l -> valid_tick t) -> (forall t, 0 <= open t) -> 0 <= q -> exists fs r pr, plan Bid open l q p0 = Some (fs, r, pr).
Proof.
  induction l as [|t l IH]; intros q p0 Hval Hop Hq; cbn [plan]; [eauto|].
  assert (Hvl : forall t', t' ∈ l -> valid_tick t') by (intros; apply Hval; constructor; assumption).
  pose proof (tick_price_pos t (Hval t ltac:(constructor))) as Hp. specialize (Hop t) as Hopt.
  destruct (Z.eqb_spec (open t) 0); [auto|].
  destruct (Z.eqb_spec (gross Bid q (tick_price t)) 0) as [|Hw]; [eauto|].
  pose proof (gross_nonneg Bid q _ Hq Hp) as Hw0.
  set (x := Z.min _ _). assert (Hx : 0 < x <= gross Bid q (tick_price t)) by (unfold x; lia).
  pose proof (buy_cost_pos x (tick_price t) ltac:(lia) Hp) as Hc.
  destruct (Z.eqb_spec (cost Bid x (tick_price t)) 0); [lia|].
  pose proof (cost_le Bid q (tick_price t) x ltac:(lia) Hp) as Hcq.
  destruct (IH (q - cost Bid x (tick_price t)) (tick_price t) Hvl Hop ltac:(lia)) as (fs & r & pr & ->). eauto.
Qed.

Fixpoint lsumf (f : Z -> Z) (l : list Z) : Z := match l with [] => 0 | t :: l => f t + lsumf f l end.

(** When everything was taken, the charge is the value of the whole side. *)
Lemma sum_in_all d open l fs :
  NoDup l -> sublist (map f_tick fs) l -> Forall (fill_good d open) fs -> (forall t, t ∈ l -> taken fs t = open t) ->
  sum_in fs = lsumf (fun t => if open t =? 0 then 0 else cost d (open t) (tick_price t)) l.
Proof.
  revert fs. induction l as [|t l IH]; intros fs Hnd Hsub Hg Hall.
  - inversion Hsub as [E| |]. destruct fs; [reflexivity|discriminate].
  - apply NoDup_cons in Hnd as [Htl Hnd]. specialize (Hall t ltac:(constructor)) as Ht. cbn [lsumf].
    inversion Hsub as [|a l1 l2 Hs E1 E2|a l1 l2 Hs E1 E2].
    + destruct fs as [|f fs]; [discriminate|]. cbn [map] in E1. injection E1 as E1 E3. subst.
      apply Forall_cons in Hg as [Hf Hg]. destruct Hf as (Hf1 & Hf2 & Hf3).
      assert (Hn : f_tick f ∉ map f_tick fs) by (intros Hin; apply Htl; eapply sublist_in; eauto).
      cbn [taken] in Ht. rewrite Z.eqb_refl, (taken_notin fs) in Ht by assumption.
      cbn [sum_in]. rewrite Hf2. replace (f_out f) with (open (f_tick f)) by lia.
      destruct (Z.eqb_spec (open (f_tick f)) 0); [lia|]. f_equal. apply IH; try assumption.
      intros t' Hin. specialize (Hall t' ltac:(constructor; assumption)). cbn [taken] in Hall.
      destruct (Z.eqb_spec (f_tick f) t'); [subst; contradiction|]. lia.
    + subst. assert (Hn : t ∉ map f_tick fs) by (intros Hin; apply Htl; eapply sublist_in; eauto).
      rewrite taken_notin in Ht by assumption. rewrite <- Ht. cbn [Z.eqb]. rewrite Z.add_0_l. apply IH; try assumption.
      intros t' Hin. apply Hall. constructor. assumption.
Qed.
