(** * Property C62 on both sides of the book: more depth helps a taker, up to rounding. *)
From Verif Require Import Base Dec Types State TickMath Sumtree Tick Order Auth Contract Query World SpecMath TickMathProofs
  TreeDefs Exec SumtreeProofs SumtreeRebalance SumtreeInsert PrefixSum SumtreeRoot SumtreeFail Ghost Inv StepPlace StepCancel StepClaim
  SwapPlan StepSwap Trans Spec Reach Refine RefineStep Reserve Solvency Books SpecProps PropBase Tests PropOrders PropClaims PropBatch PropSwap PropQuote PropAdmin PropQuery PlanCurve PropCurve
  SpecAdmin SpecBank PropBank SpecMachine MachineBase MachineSwap PropMachine PropDepth SpecBuy PropBuy SpecCover PropCover RangeProofs.

(** ** Taking the cheapest first costs least, for any cost per unit *)
Fixpoint cheap (W : Z -> Z) (liq : Z -> Z) (l : list Z) (y : Z) : Z :=
  match l with [] => 0 | t :: l => if y <=? liq t then y * W t else liq t * W t + cheap W liq l (y - liq t) end.
Fixpoint alloc (liq : Z -> Z) (l : list Z) (y : Z) (u : Z) : Z :=
  match l with
  | [] => 0
  | t :: l => if y <=? liq t then (if t =? u then y else 0) else (if t =? u then liq t else 0) + alloc liq l (y - liq t) u
  end.
Lemma lsumf_single l t y g : NoDup l -> t ∈ l -> lsumf (fun u => (if t =? u then y else 0) * g u) l = y * g t.
Proof.
  induction l as [|a l IH]; intros Hn Ht; cbn [lsumf]; [inversion Ht|]. apply NoDup_cons in Hn as [Ha Hn]. apply elem_of_cons in Ht as [->|Ht].
  - rewrite Z.eqb_refl. enough (lsumf (fun u => (if a =? u then y else 0) * g u) l = 0) as -> by lia. clear -Ha.
    induction l as [|b l IH]; cbn [lsumf]; [reflexivity|]. rewrite not_elem_of_cons in Ha. destruct Ha as [H1 H2]. rewrite (proj2 (Z.eqb_neq a b)) by congruence. rewrite IH by exact H2. lia.
  - rewrite IH by assumption. destruct (Z.eqb_spec t a) as [->|]; [contradiction|lia].
Qed.
Lemma alloc_bounds liq l : forall y u, NoDup l -> (forall t, t ∈ l -> 0 <= liq t) -> 0 <= y -> 0 <= alloc liq l y u /\ (u ∈ l -> alloc liq l y u <= liq u) /\ (u ∉ l -> alloc liq l y u = 0).
Proof.
  induction l as [|t l IH]; intros y u Hn H Hy; cbn [alloc].
  { split; [lia|]. split; [intros K; inversion K|reflexivity]. }
  apply NoDup_cons in Hn as [Ht Hn]. pose proof (H t ltac:(constructor)) as H0. destruct (Z.leb_spec y (liq t)) as [K|K].
  - destruct (Z.eqb_spec t u) as [->|N]; (split; [lia|]); split.
    + intros _. lia.
    + intros K'. exfalso. apply K'. constructor.
    + intros K'. apply elem_of_cons in K' as [->|K']; [congruence|]. apply H. constructor. exact K'.
    + reflexivity.
  - destruct (IH (y - liq t) u Hn ltac:(intros; apply H; constructor; assumption) ltac:(lia)) as (I1 & I2 & I3).
    destruct (Z.eqb_spec t u) as [->|N]; (split; [lia|]); split.
    + intros _. rewrite (I3 Ht). lia.
    + intros K'. exfalso. apply K'. constructor.
    + intros K'. apply elem_of_cons in K' as [->|K']; [congruence|]. specialize (I2 K'). lia.
    + intros K'. rewrite not_elem_of_cons in K'. rewrite (I3 (proj2 K')). lia.
Qed.
Lemma alloc_sum liq g L l : forall y, NoDup L -> (forall t, t ∈ l -> t ∈ L) -> 0 <= y -> y <= lsumf liq l ->
  lsumf (fun u => alloc liq l y u * g u) L = cheap g liq l y.
Proof.
  intros y HL. revert y. induction l as [|t l IH]; intros y Hin Hy Hs; cbn [lsumf alloc cheap] in *.
  { clear. induction L as [|a L IH]; cbn [lsumf]; [reflexivity|]. rewrite IH. lia. }
  destruct (Z.leb_spec y (liq t)) as [K|K].
  - apply lsumf_single; [exact HL|]. apply Hin. constructor.
  - rewrite <- (IH (y - liq t)) by (try lia; intros; apply Hin; constructor; assumption).
    rewrite <- (lsumf_single L t (liq t) g HL) by (apply Hin; constructor). clear. induction L as [|a L IH]; cbn [lsumf]; [reflexivity|]. rewrite IH. lia.
Qed.
Lemma cheap_one liq l : forall y, 0 <= y <= lsumf liq l -> cheap (fun _ => 1) liq l y = y.
Proof. induction l as [|t l IH]; intros y H; cbn [lsumf cheap] in *; [lia|]. destruct (Z.leb_spec y (liq t)); [lia|]. rewrite IH by lia. lia. Qed.
Lemma cheap_min W open a l : forall p0 y, StronglySorted (fun t u => W t <= W u) l -> (forall t, t ∈ l -> 0 <= a t <= open t /\ 0 <= p0 <= W t) -> 0 <= y <= lsumf a l ->
  cheap W open l y + p0 * (lsumf a l - y) <= lsumf (fun t => a t * W t) l.
Proof.
  induction l as [|t l IH]; intros p0 y Hl H Hy; cbn [cheap lsumf] in *; [assert (y = 0) as -> by lia; lia|].
  pose proof (H t ltac:(constructor)) as (Ha & Hp0). apply StronglySorted_inv in Hl as [Hl' Hb]. rewrite Forall_forall in Hb.
  assert (Hr : forall u, u ∈ l -> 0 <= a u <= open u /\ 0 <= W t <= W u).
  { intros u Hu. destruct (H u ltac:(constructor; assumption)) as (Hau & _). split; [exact Hau|]. split; [lia|]. apply Hb, Hu. }
  assert (Hs : 0 <= lsumf a l) by (apply lsumf_nonneg; intros u Hu; destruct (Hr u Hu); lia).
  assert (Hw : W t * lsumf a l <= lsumf (fun u => a u * W u) l).
  { clear -Hr. induction l as [|u l IHl]; cbn [lsumf]; [lia|]. destruct (Hr u ltac:(constructor)) as [Ha Hw]. specialize (IHl ltac:(intros; apply Hr; constructor; assumption)). nia. }
  destruct (Z.leb_spec y (open t)) as [Hle|Hgt].
  - nia.
  - specialize (IH (W t) (y - open t) Hl' Hr ltac:(lia)). nia.
Qed.
(** ** The price against the cost *)
Definition scaled (side : dir) (K : Z) (W : Z -> Z) (t : Z) : Prop :=
  (forall x, 0 <= x -> x * W t <= charge side x (tick_price t) * K < x * W t + K) /\
  (forall x, 0 <= x -> paid side x (tick_price t) <= charge side x (tick_price t) /\
     ATOM * (x * W t) - (match side with Bid => K | Ask => 0 end) <= ATOM * (paid side x (tick_price t) * K)).
Lemma price_above side K W liq l : forall x, 0 < K -> (forall t, t ∈ l -> 0 <= liq t /\ scaled side K W t) -> 0 < x <= lsumf liq l ->
  price_of side liq l x * K < cheap W liq l x + Z.of_nat (length l) * K.
Proof.
  induction l as [|t l IH]; intros x HK H Hx; cbn [lsumf price_of cheap length] in *; [lia|]. destruct (H t ltac:(constructor)) as [Hq [S1 S2]].
  destruct (Z.leb_spec x (liq t)) as [Hle|Hgt].
  - specialize (S1 x ltac:(lia)). nia.
  - specialize (IH (x - liq t) HK ltac:(intros; apply H; constructor; assumption) ltac:(lia)). specialize (S1 (liq t) Hq). specialize (S2 (liq t) Hq). nia.
Qed.
Lemma price_below side K W liq l : forall x, 0 < K -> (forall t, t ∈ l -> 0 <= liq t /\ scaled side K W t) -> 0 < x <= lsumf liq l ->
  ATOM * cheap W liq l x - (match side with Bid => (Z.of_nat (length l) - 1) * K | Ask => 0 end) <= ATOM * (price_of side liq l x * K).
Proof.
  pose proof atom_pos as HA. induction l as [|t l IH]; intros x HK H Hx; cbn [lsumf price_of cheap length] in *; [lia|]. destruct (H t ltac:(constructor)) as [Hq [S1 S2]].
  destruct (Z.leb_spec x (liq t)) as [Hle|Hgt].
  - specialize (S1 x ltac:(lia)). destruct side; nia.
  - specialize (IH (x - liq t) HK ltac:(intros; apply H; constructor; assumption) ltac:(lia)). specialize (S2 (liq t) Hq). destruct side; nia.
Qed.
(** ** The weights *)
Fixpoint prices (l : list Z) : Z := match l with [] => 1 | t :: l => tick_price t * prices l end.
Lemma prices_pos l : (forall t, t ∈ l -> 0 < tick_price t) -> 0 < prices l.
Proof. induction l as [|t l IH]; intros H; cbn; [lia|]. pose proof (H t ltac:(constructor)). specialize (IH ltac:(intros; apply H; constructor; assumption)). nia. Qed.
Lemma prices_div l t : t ∈ l -> (tick_price t | prices l).
Proof. induction l as [|u l IH]; intros H; cbn; [inversion H|]. apply elem_of_cons in H as [->|H]; [apply Z.divide_factor_l|]. apply Z.divide_mul_r, IH, H. Qed.
Lemma weights side l : (forall t, t ∈ l -> valid_tick t) -> StronglySorted (better_tick side) l ->
  exists K W, 0 < K /\ (forall t, t ∈ l -> 0 <= W t /\ scaled side K W t) /\ StronglySorted (fun t u => W t <= W u) l.
Proof.
  intros Hv Hl. pose proof atom_pos as HA.
  assert (Hsort : forall W, (forall t u, t ∈ l -> u ∈ l -> better_tick side t u -> W t <= W u) -> StronglySorted (fun t u => W t <= W u) l).
  { clear -Hl. intros W H. induction Hl as [|t l Hl IH Hf]; [constructor|]. rewrite Forall_forall in Hf. constructor.
    - apply IH. intros; apply H; try assumption; constructor; assumption.
    - apply Forall_forall. intros u Hu. apply H; [constructor|constructor; exact Hu|apply Hf, Hu]. }
  destruct side.
  - set (M := prices l). assert (HM : 0 < M) by (apply prices_pos; intros; apply tick_price_pos, Hv; assumption).
    exists M, (fun t => ATOM * (M / tick_price t)). assert (Hd : forall t, t ∈ l -> 0 < M / tick_price t /\ M = tick_price t * (M / tick_price t) /\ 0 < tick_price t).
    { intros t Ht. pose proof (tick_price_pos t (Hv t Ht)) as Hp. assert (E : M = tick_price t * (M / tick_price t)) by (apply Z_div_exact_full_2; [lia|]; apply Z.mod_divide; [lia|]; apply prices_div, Ht).
      split; [|auto]. nia. }
    split; [exact HM|]. split; [|apply Hsort].
    + intros t Ht. destruct (Hd t Ht) as (D1 & D2 & Hp). set (v := M / tick_price t) in *. set (p := tick_price t) in *. split; [nia|]. split.
      * intros x Hx. cbn [charge]. fold p. pose proof (ceil_spec (x * ATOM) p Hp). set (c := ceil_div (x * ATOM) p) in *. split; nia.
      * intros x Hx. fold p. pose proof (paid_bounds Bid x p Hp Hx) as [[_ P] _]. split; [exact P|]. cbn [paid].
        pose proof (floor_spec (x * ATOM * ATOM) p Hp) as F. set (u := floor_div (x * ATOM * ATOM) p) in *. pose proof (ceil_spec u ATOM HA) as C. set (c := ceil_div u ATOM) in *.
        assert (x * ATOM * ATOM <= (c * ATOM + 1) * p) by nia. nia.
    + intros t u Ht Hu Hb. destruct (Hd t Ht) as (D1 & D2 & Hp). destruct (Hd u Hu) as (E1 & E2 & Hpu).
      assert (tick_price u <= tick_price t) by (apply price_mono; [apply Hv, Hu|apply Hv, Ht|]; cbn in Hb; lia).
      apply Z.mul_le_mono_nonneg_l; [lia|]. nia.
  - exists ATOM, tick_price. split; [exact HA|]. split; [|apply Hsort].
    + intros t Ht. pose proof (tick_price_pos t (Hv t Ht)) as Hp. split; [lia|]. split.
      * intros x Hx. cbn [charge]. pose proof (ceil_spec (x * tick_price t) ATOM HA). lia.
      * intros x Hx. cbn [paid charge]. pose proof (ceil_spec (x * tick_price t) ATOM HA). split; [lia|]. nia.
    + intros t u Ht Hu Hb. apply price_mono; [apply Hv, Ht|apply Hv, Hu|]. cbn in Hb. lia.
Qed.
Lemma ticks_length l : NoDup l -> (forall t, t ∈ l -> valid_tick t) -> Z.of_nat (length l) <= ATOM.
Proof.
  intros Hn Hv. rewrite <- (map_length (fun t => t + 108000001)). etransitivity; [apply (bounded_length _ 290402824)|].
  - apply NoDup_fmap_2; [intros a b; lia|exact Hn].
  - apply Forall_forall. intros u Hu. apply elem_of_list_fmap in Hu as (t & -> & Ht). destruct (Hv t Ht). lia.
  - lia.
  - unfold ATOM. lia.
Qed.
Lemma price_deeper side liq liq' l l' post x : StronglySorted (better_tick side) l -> StronglySorted (better_tick side) (l' ++ post) ->
  (forall t, t ∈ l' ++ post -> valid_tick t) -> (forall t, t ∈ l -> t ∈ l' ++ post) -> (forall t, 0 <= liq t <= liq' t) ->
  0 < x <= lsumf liq l -> x <= lsumf liq' l' ->
  price_of side liq' l' x <= price_of side liq l x + slack side (length l').
Proof.
  intros Hl Hl' Hv Hin Hq Hx Hx'. destruct (weights side (l' ++ post) Hv Hl') as (K & W & HK & HW & HS).
  assert (Hnd : forall k, StronglySorted (better_tick side) k -> NoDup k).
  { clear. intros k H. induction H as [|t k H IH Hf]; [constructor|]. apply NoDup_cons. split; [|exact IH]. intros Ht. rewrite Forall_forall in Hf. specialize (Hf t Ht). destruct side; cbn in Hf; lia. }
  pose proof (price_above side K W liq' l' x HK ltac:(intros t Ht; split; [specialize (Hq t); lia|apply HW; apply elem_of_app; auto]) ltac:(lia)) as H1.
  pose proof (price_below side K W liq l x HK ltac:(intros t Ht; split; [specialize (Hq t); lia|apply HW, Hin, Ht]) ltac:(lia)) as H2.
  pose proof (alloc_sum liq W (l' ++ post) l x (Hnd _ Hl') Hin ltac:(lia) ltac:(lia)) as A1.
  pose proof (alloc_sum liq (fun _ => 1) (l' ++ post) l x (Hnd _ Hl') Hin ltac:(lia) ltac:(lia)) as A2. rewrite cheap_one in A2 by lia.
  assert (A3 : lsumf (alloc liq l x) (l' ++ post) = x) by (etransitivity; [|exact A2]; apply lsumf_ext; intros; lia).
  pose proof (cheap_min W liq' (alloc liq l x) (l' ++ post) 0 x HS) as HM. rewrite A3, A1 in HM. specialize (HM ltac:(
    intros t Ht; split; [|split; [lia|apply HW, Ht]]; destruct (alloc_bounds liq l x t (Hnd _ Hl) ltac:(intros; apply Hq) ltac:(lia)) as (B1 & B2 & B3);
    split; [exact B1|]; destruct (decide (t ∈ l)) as [D|D]; [specialize (B2 D); specialize (Hq t); lia|rewrite (B3 D); specialize (Hq t); lia]) ltac:(lia)).
  assert (Hpre : cheap W liq' (l' ++ post) x = cheap W liq' l' x).
  { destruct Hx as [Hx _]. clear -Hx' Hx. revert x Hx' Hx. induction l' as [|t l' IH]; intros x Hx' Hx; cbn [lsumf app cheap] in *; [lia|].
    destruct (Z.leb_spec x (liq' t)); [reflexivity|]. rewrite IH by lia. reflexivity. }
  rewrite Hpre in HM. pose proof (ticks_length l (Hnd _ Hl) ltac:(intros t Ht; apply Hv, Hin, Ht)) as Hlen. pose proof atom_pos as HA.
  set (P := price_of side liq l x) in *. set (P' := price_of side liq' l' x) in *. set (n := Z.of_nat (length l')) in *. set (m := Z.of_nat (length l)) in *.
  set (C := cheap W liq l x) in *. set (C' := cheap W liq' l' x) in *. destruct side; unfold slack; fold n.
  - assert (H3 : ATOM * C < ATOM * (P * K + K)) by nia. assert (C < P * K + K) by nia. nia.
  - assert (C <= P * K) by nia. nia.
Qed.
(** C62 on both sides: with at least as much on offer at every tick, an amount costs at most [slack] units more. *)
Theorem C62_price_either_side :
  forall w0 h w0' h' side T ticks T' ticks' x, start w0 -> history w0 h -> short h -> start w0' -> history w0' h' -> short h' ->
  let s := w_st (run w0 h) in let s' := w_st (run w0' h') in
  (forall t, offered s side t <= offered s' side t) ->
  ladder s side T ticks -> 0 < x <= sum_ticks (offered s side) ticks ->
  ladder s' side T' ticks' -> x <= sum_ticks (offered s' side) ticks' ->
  price_of side (offered s' side) ticks' x <= price_of side (offered s side) ticks x + slack side (length ticks').
Proof.
  intros w0 h w0' h' side T ticks T' ticks' x Hs Hh Hsh Hs' Hh' Hsh' s s' Hle Ht Hx Ht' Hx'.
  destruct (short_ready w0 h Hs Hh Hsh) as (G & Hrd). pose proof (rd_good _ _ _ Hrd) as Hg.
  destruct (short_ready w0' h' Hs' Hh' Hsh') as (G' & Hrd'). pose proof (rd_good _ _ _ Hrd') as Hg'.
  destruct (side_facts _ _ _ side Hg) as (L1 & L2 & L3 & L4 & _). fold s in L2, L3, L4. destruct (side_facts _ _ _ side Hg') as (M1 & M2 & M3 & M4 & _). fold s' in M2, M3, M4.
  destruct (side_prefix _ _ _ _ _ _ Hg' Ht') as (post & EL). rewrite !sum_ticks_lsumf in *.
  apply (price_deeper side _ _ ticks ticks' post).
  - apply Ht.
  - rewrite <- EL. destruct side; exact M1.
  - rewrite <- EL. intros t K. apply M2, K.
  - intros t K. rewrite <- EL. apply M3. apply Ht in K as [_ K]. specialize (Hle t). fold s in K. lia.
  - intros t. split; [apply L4|apply Hle].
  - exact Hx.
  - exact Hx'.
Qed.
Print Assumptions C62_price_either_side.
Lemma walk_total side partial open l : forall q last f r, (forall t, t ∈ l -> valid_tick t /\ 0 < open t) -> 0 <= q ->
  walk side partial open l q last = Some (f, r) -> total_out f <= lsumf open l.
Proof.
  induction l as [|u l IH]; intros q last f r Hr Hq E; cbn [walk] in E.
  - destruct (_ || _); [|discriminate]. injection E as <- _. cbn. lia.
  - destruct (Hr u ltac:(constructor)) as [Hv Ho]. pose proof (tick_price_pos u Hv) as Hp. pose proof (output_nonneg side q _ Hp Hq).
    assert (Hnn : 0 <= lsumf open l) by (apply lsumf_nonneg; intros t Ht; apply Z.lt_le_incl, Hr; constructor; exact Ht). cbn [lsumf].
    destruct (_ =? 0); [injection E as <- _; cbn; lia|]. destruct (_ && _); [|discriminate]. destruct (walk _ _ _ l _ _) as [[f1 r1]|] eqn:E1; [|discriminate].
    injection E as <- _. cbn [total_out foldr snd]. apply IH in E1; [unfold total_out in E1; lia|intros; apply Hr; constructor; assumption|].
    rewrite paid_input. set (m := Z.min _ _). pose proof (paid_bounds side m _ Hp ltac:(lia)). assert (charge side m (tick_price u) <= q) by (apply charge_least; lia). lia.
Qed.
(** ... so that whatever an input is quoted in the one book, [slack] units more are quoted no less in the other. *)
Theorem C62_quote_either_side :
  forall w0 h w0' h' side T' ticks' q q' x x', start w0 -> history w0 h -> short h -> start w0' -> history w0' h' -> short h' ->
  let s := w_st (run w0 h) in let s' := w_st (run w0' h') in
  let quote s q := calc_out_amount_given_in s (mkCoin (deposit_denom s (opposite side)) q) (deposit_denom s side) 0 in
  (forall t, offered s side t <= offered s' side t) ->
  ladder s' side T' ticks' -> 0 < x <= sum_ticks (offered s' side) ticks' ->
  0 <= q -> q + slack side (length ticks') <= q' <= U128_MAX ->
  quote s q = Ok (mkCoin (deposit_denom s side) x) -> quote s' q' = Ok (mkCoin (deposit_denom s' side) x') -> x <= x'.
Proof.
  intros w0 h w0' h' side T' ticks' q q' x x' Hs Hh Hsh Hs' Hh' Hsh' s s' quote Hle Ht' Hx' Hq Hq' E E'.
  destruct (short_ready w0 h Hs Hh Hsh) as (G & Hrd). pose proof (rd_good _ _ _ Hrd) as Hg.
  destruct (side_facts _ _ _ side Hg) as (L1 & L2 & L3 & L4 & _). fold s in L2, L3, L4. set (L := levels side None (lives_of (ideal_run w0 [] h))) in *.
  set (T := match side with Ask => 182402823 | Bid => -108000000 end).
  assert (HL : ladder s side T L).
  { split; [destruct side; exact L1|]. intros t. rewrite L3. split; [|tauto]. intros K. split; [|exact K]. apply L3, L2 in K as [[V1 V2] _]. unfold T. destruct side; cbn [better_tick]; lia. }
  assert (Hn : 0 < Z.of_nat (length ticks')) by (destruct ticks'; [cbn in Hx'; lia|cbn; lia]).
  assert (Hsl : 0 <= slack side (length ticks')) by (unfold slack; destruct side; lia).
  assert (Hxs : 0 < x <= sum_ticks (offered s side) L).
  { split; [lia|]. rewrite sum_ticks_lsumf. destruct (Z.eq_dec q 0) as [->|Hq0].
    { exfalso. pose proof (quote_machine _ G (ideal_run w0 [] h) (mkCoin (deposit_denom s (opposite side)) 0) (deposit_denom s side) Hrd ltac:(cbn [c_amount]; unfold U128_MAX; lia)) as HQ.
      unfold m_quote in HQ. cbn [c_amount] in HQ. unfold quote in E. destruct (maker_side _ _ _); eapply HQ; exact E. }
    apply (quote_walk _ G _ side q Hrd ltac:(lia)) in E as (f & r & Ew & <-). fold s L in Ew.
    eapply walk_total; [exact L2|exact Hq|exact Ew]. }
  pose proof (C62_price_either_side w0 h w0' h' side T L T' ticks' x Hs Hh Hsh Hs' Hh' Hsh' Hle HL Hxs Ht' ltac:(apply Hx')) as HP. fold s s' in HP.
  pose proof (proj1 (C66_quote_covers w0 h side T L x q x Hs Hh Hsh HL Hxs ltac:(lia) E) (Z.le_refl _)) as HC. fold s in HC.
  apply (C66_quote_covers w0' h' side T' ticks' x q' x' Hs' Hh' Hsh' Ht' Hx' ltac:(lia) E'). fold s'. lia.
Qed.
Print Assumptions C62_quote_either_side.
(** For sells, too, the extra units are needed: bids for 10 quote units at 0.6; the same with one more unit at 0.75.  Five base units
    sell for 3 in the first book, and only for 2 in the second, where the first unit takes two of the five. *)
Definition hist_bid : list (env * call) := [place "a" (-4000000) Bid 10 None].
Definition hist_bid_more : list (env * call) := [place "a" (-4000000) Bid 10 None; place "b" (-2500000) Bid 1 None].
Lemma bid_offers t : offered (w_st (run w_start hist_bid)) Bid t = (if t =? -4000000 then 10 else 0) /\
  offered (w_st (run w_start hist_bid_more)) Bid t = (if t =? -4000000 then 10 else if t =? -2500000 then 1 else 0).
Proof.
  destruct (C08_fifo_state w_start hist_bid start_ok ltac:(hist)) as (_ & _ & _ & _ & H1).
  destruct (C08_fifo_state w_start hist_bid_more start_ok ltac:(hist)) as (_ & _ & _ & _ & H2).
  unfold offered. rewrite H1, H2.
  assert (E1 : ideal_run w_start [] hist_bid = [mkEntry (-4000000) Bid 0 "a" None 7 10 10 0 0 0]) by (vm_compute; reflexivity).
  assert (E2 : ideal_run w_start [] hist_bid_more = [mkEntry (-4000000) Bid 0 "a" None 7 10 10 0 0 0; mkEntry (-2500000) Bid 1 "b" None 7 1 1 0 0 0]) by (vm_compute; reflexivity).
  rewrite E1, E2. unfold open_at. cbn [ideal_sum foldr en_tick en_dir en_open].
  assert (K : forall a x, (if bool_decide (a = t /\ Bid = Bid) then x else 0) = (if t =? a then x else 0)).
  { intros a x. destruct (Z.eqb_spec t a) as [->|N]; [rewrite bool_decide_true by auto; reflexivity|]. rewrite bool_decide_false by (intros [? _]; congruence). reflexivity. }
  rewrite !K. destruct (Z.eqb_spec t (-4000000)) as [->|]; [split; reflexivity|]. split; [reflexivity|]. lia.
Qed.
Lemma bid_deeper t : offered (w_st (run w_start hist_bid)) Bid t <= offered (w_st (run w_start hist_bid_more)) Bid t.
Proof. destruct (bid_offers t) as [-> ->]. destruct (t =? -4000000), (t =? -2500000); lia. Qed.
Lemma bid_ladder : ladder (w_st (run w_start hist_bid_more)) Bid (-4000000) [-2500000; -4000000].
Proof.
  split; [repeat constructor|]. intros t. rewrite (proj2 (bid_offers t)), !elem_of_cons, elem_of_nil. cbn [better_tick].
  destruct (Z.eqb_spec t (-4000000)); [lia|]. destruct (Z.eqb_spec t (-2500000)); lia.
Qed.
Theorem C62_exact_refuted_for_sells :
  ~ (forall w0 h w0' h' q x x', start w0 -> history w0 h -> short h -> start w0' -> history w0' h' -> short h' ->
     let s := w_st (run w0 h) in let s' := w_st (run w0' h') in
     let quote s q := calc_out_amount_given_in s (mkCoin (deposit_denom s Ask) q) (deposit_denom s Bid) 0 in
     (forall t, offered s Bid t <= offered s' Bid t) ->
     quote s q = Ok (mkCoin (deposit_denom s Bid) x) -> quote s' q = Ok (mkCoin (deposit_denom s' Bid) x') -> x <= x').
Proof.
  intros H. enough (3 <= 2) by lia.
  refine (H w_start hist_bid w_start hist_bid_more 5 3 2 start_ok _ _ start_ok _ _ _ _ _).
  - hist.
  - vm_compute; discriminate.
  - hist.
  - vm_compute; discriminate.
  - exact bid_deeper.
  - vm_compute; reflexivity.
  - vm_compute; reflexivity.
Qed.
Print Assumptions C62_exact_refuted_for_sells.
(** The hypotheses of C62_price_either_side and C62_quote_either_side are met here; the prices of 3 units in both books, and quotes. *)
Example C62_either_side_case :
  start w_start /\ history w_start hist_bid /\ short hist_bid /\ history w_start hist_bid_more /\ short hist_bid_more /\
  (forall t, offered (w_st (run w_start hist_bid)) Bid t <= offered (w_st (run w_start hist_bid_more)) Bid t) /\
  ladder (w_st (run w_start hist_bid_more)) Bid (-4000000) [-2500000; -4000000] /\
  sum_ticks (offered (w_st (run w_start hist_bid_more)) Bid) [-2500000; -4000000] = 11 /\
  price_of Bid (offered (w_st (run w_start hist_bid)) Bid) [-4000000] 3 = 5 /\
  price_of Bid (offered (w_st (run w_start hist_bid_more)) Bid) [-2500000; -4000000] 3 = 6 /\
  (let got h q := match calc_out_amount_given_in (w_st (run w_start h)) (mkCoin "base" q) "quote" 0 with Ok a => c_amount a | _ => -1 end in
   map (got hist_bid) [4; 5; 6; 7] = [2; 3; 3; 4] /\ map (got hist_bid_more) [4; 5; 6; 7] = [2; 2; 3; 4]).
Proof.
  split; [apply start_ok|]. split; [hist|]. split; [vm_compute; discriminate|]. split; [hist|]. split; [vm_compute; discriminate|].
  split; [exact bid_deeper|]. split; [exact bid_ladder|]. do 3 (split; [vm_compute; reflexivity|]). split; vm_compute; reflexivity.
Qed.
