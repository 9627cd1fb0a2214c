(** * Property C63 for the orders at a tick and for the ticks of the book. *)
From Verif Require Import Base Dec Types State TickMath Sumtree Tick Order Auth Contract Query World SpecMath TickMathProofs
  TreeDefs Exec SumtreeProofs SumtreeRebalance SumtreeInsert PrefixSum SumtreeRoot SumtreeFail Ghost Inv StepPlace StepCancel StepClaim
  SwapPlan StepSwap Trans Spec Reach Refine RefineStep Reserve Solvency Books SpecProps SpecQuery PropBase Tests PropOrders PropClaims PropHistory PropQuery SpecPaging PropPaging.

(** ** Reading pages of items with integer keys *)
Definition by_key {A} (key : A -> Z) (a b : A) : Prop := key a < key b.
Lemma keyed_join {A} (key : A -> Z) l1 l2 : StronglySorted (by_key key) l1 -> StronglySorted (by_key key) l2 -> (forall a b, a ∈ l1 -> b ∈ l2 -> key a < key b) ->
  StronglySorted (by_key key) (l1 ++ l2).
Proof.
  induction l1 as [|x l1 IH]; intros H1 H2 H; [exact H2|]. apply StronglySorted_inv in H1 as [H1 F]. cbn. constructor.
  - apply IH; [exact H1|exact H2|]. intros a b Ha Hb. apply H; [constructor; exact Ha|exact Hb].
  - apply Forall_app. split; [exact F|]. apply Forall_forall. intros b Hb. apply H; [constructor|exact Hb].
Qed.
Lemma keyed_split {A} (key : A -> Z) l1 l2 : StronglySorted (by_key key) (l1 ++ l2) -> StronglySorted (by_key key) l1 /\ forall a b, a ∈ l1 -> b ∈ l2 -> key a < key b.
Proof.
  induction l1 as [|x l1 IH]; intros H; [split; [constructor|intros a b K; inversion K]|]. cbn in H. apply StronglySorted_inv in H as [H F]. apply Forall_app in F as [F1 F2].
  destruct (IH H) as [I1 I2]. split; [constructor; assumption|]. intros a b Ha Hb. apply elem_of_cons in Ha as [->|Ha]; [|auto]. rewrite Forall_forall in F2. apply F2, Hb.
Qed.
(** One step of reading: a page is the beginning of the sorted list of what is there from the cursor on. *)
Definition pages_of {A} (key : A -> Z) (n : Z) (view : Z -> option A) (cursor : option Z) (page : list A) : Prop :=
  exists sel, StronglySorted (by_key key) sel /\ (forall x, x ∈ sel <-> view (key x) = Some x /\ from cursor (key x)) /\ page = firstn (Z.to_nat n) sel.
Fixpoint reading {A} (key : A -> Z) (page : world -> option Z -> list A) (cursor : option Z) (w : world) (batches : list (list (env * call))) : list A * bool :=
  match batches with
  | [] => ([], false)
  | h :: batches =>
      let w := run w h in
      match last (page w cursor) with
      | None => ([], true)
      | Some x => let '(rest, fin) := reading key page (Some (key x + 1)) w batches in (page w cursor ++ rest, fin)
      end
  end.
Lemma reading_spec {A} (key : A -> Z) n (view : world -> Z -> option A) (page : world -> option Z -> list A) : 0 < n ->
  (forall w cursor, reachable w -> pages_of key n (view w) cursor (page w cursor)) -> (forall w k x, reachable w -> view w k = Some x -> key x = k) ->
  forall batches cursor w l fin, reachable w -> history w (concat batches) -> reading key page cursor w batches = (l, fin) ->
  StronglySorted (by_key key) l /\
  (forall x, x ∈ l -> from cursor (key x) /\ exists k, (1 <= k <= length batches)%nat /\ view (run w (concat (take k batches))) (key x) = Some x) /\
  (fin = true -> forall k, from cursor k ->
     (forall j, (1 <= j <= length batches)%nat -> is_Some (view (run w (concat (take j batches))) k)) -> exists x, x ∈ l /\ key x = k).
Proof.
  intros Hn Hpage Hkey. induction batches as [|h batches IH]; intros cursor w l fin Hre Hh Hr; cbn [reading] in Hr.
  { injection Hr as <- <-. split; [constructor|]. split; [intros o Ho; inversion Ho|discriminate]. }
  cbn [concat] in Hh. apply history_app in Hh as [Hh1 Hh2]. set (w1 := run w h) in *. pose proof (run_reach w h Hre Hh1) as Hre1. fold w1 in Hre1.
  destruct (Hpage w1 cursor Hre1) as (sel & S1 & S2 & Ep). set (pg := page w1 cursor) in *. set (more := skipn (Z.to_nat n) sel).
  assert (El : sel = pg ++ more) by (rewrite Ep; symmetry; apply firstn_skipn).
  assert (Hpg : forall x, x ∈ pg -> view w1 (key x) = Some x /\ from cursor (key x)) by (intros x Hx; apply S2; rewrite El; apply elem_of_app; auto).
  assert (Hw1 : forall k, run w (concat (take (S k) (h :: batches))) = run w1 (concat (take k batches))) by (intros k; cbn [take concat]; rewrite run_app; reflexivity).
  assert (Hw0 : run w (concat (take 1 (h :: batches))) = w1) by (rewrite Hw1; destruct batches; reflexivity).
  destruct (last pg) as [o|] eqn:Elast.
  - destruct (reading key page (Some (key o + 1)) w1 batches) as [rest fin'] eqn:Er. injection Hr as <- <-.
    destruct (IH _ _ _ _ Hre1 Hh2 Er) as (R1 & R2 & R3). apply last_elem in Elast as (l0 & El0).
    assert (Ho : o ∈ pg) by (rewrite El0; apply elem_of_app; right; constructor).
    pose proof S1 as S1'. rewrite El in S1'. apply keyed_split in S1' as [Hps Hmore].
    assert (Hle : forall a, a ∈ pg -> key a <= key o).
    { intros a Ha. rewrite El0 in Ha, Hps. apply elem_of_app in Ha as [Ha|Ha]; [|apply elem_of_list_singleton in Ha as ->; reflexivity].
      apply keyed_split in Hps as [_ K]. specialize (K a o Ha ltac:(constructor)). lia. }
    split; [|split].
    + apply keyed_join; [exact Hps|exact R1|]. intros a b Ha Hb. destruct (R2 b Hb) as (B & _). cbn in B. specialize (Hle a Ha). lia.
    + intros x Hx. apply elem_of_app in Hx as [Hx|Hx].
      * destruct (Hpg x Hx) as (X1 & X3). split; [exact X3|]. exists 1%nat. split; [cbn; lia|]. rewrite Hw0. exact X1.
      * destruct (R2 x Hx) as (X1 & k & Hk & X3). split.
        { destruct (Hpg o Ho) as (_ & F). cbn in X1. unfold from in *. destruct cursor; [lia|exact I]. }
        exists (S k). split; [cbn; lia|]. rewrite Hw1. exact X3.
    + intros Hfin k Hkf Hall. destruct (Hall 1%nat ltac:(cbn; lia)) as (x & X1). rewrite Hw0 in X1. pose proof (Hkey _ _ _ Hre1 X1) as Ek. subst k.
      assert (Hs : x ∈ sel) by (apply S2; auto).
      rewrite El in Hs. apply elem_of_app in Hs as [Hs|Hs]; [exists x; split; [apply elem_of_app; auto|auto]|].
      specialize (Hmore o x Ho Hs). destruct (R3 Hfin (key x)) as (y & Hy & Y1).
      * cbn. lia.
      * intros j Hj. specialize (Hall (S j) ltac:(cbn; lia)). rewrite Hw1 in Hall. exact Hall.
      * exists y. split; [apply elem_of_app; auto|auto].
  - injection Hr as <- <-. split; [constructor|]. split; [intros o Ho; inversion Ho|]. intros _ k Hkf Hall. exfalso.
    destruct (Hall 1%nat ltac:(cbn; lia)) as (x & X1). rewrite Hw0 in X1. pose proof (Hkey _ _ _ Hre1 X1) as Ek. subst k.
    assert (Hs : x ∈ sel) by (apply S2; auto).
    apply last_None in Elast. destruct sel as [|y sel']; [inversion Hs|]. assert (L1 : length pg = Nat.min (Z.to_nat n) (length (y :: sel'))) by (rewrite Ep; apply firstn_length). rewrite Elast in L1. cbn [length] in L1. lia.
Qed.
Lemma keyed_nodup {A} (key : A -> Z) l : StronglySorted (by_key key) l -> NoDup (map key l).
Proof.
  induction 1 as [|a l Hl IH F]; [constructor|]. cbn [map]. constructor; [|exact IH]. rewrite elem_of_list_fmap. intros (b & E & Hb).
  rewrite Forall_forall in F. specialize (F b Hb). unfold by_key in F. lia.
Qed.
(** ** Orders at a tick *)
Lemma by_tick w t lo n : reachable w ->
  exists sel, lists (w_st w) (fun o => o_tick o = t /\ from lo (o_id o)) sel /\
    query (w_st w) (QOrdersByTick t lo None (Some n)) = Ok (AOrders (Z.of_nat (length sel)) (first (n mod 2 ^ 32) sel)).
Proof.
  intros Hre. pose proof (order_keys w Hre) as Hk. set (s := w_st w) in *.
  destruct (lists_sok s (fun o => o_tick o = t /\ from lo (o_id o)) (fun k _ => (k.1 =? t) && in_bounds lo None k.2) Hk) as [L N].
  { intros k o Eo. destruct (Hk _ _ Eo) as [E1 E2]. rewrite andb_true_iff, Z.eqb_eq, E1, E2. unfold in_bounds, from. rewrite andb_true_iff.
    destruct lo; rewrite ?Z.leb_le; intuition. }
  eexists. split; [exact L|]. cbn [query orders_by_tick rmap rbind fst snd]. rewrite N. rewrite takeZ_first. reflexivity.
Qed.
Definition tick_page (t n : Z) (w : world) (cursor : option Z) : list limit_order :=
  match query (w_st w) (QOrdersByTick t cursor None (Some n)) with Ok (AOrders _ page) => page | _ => [] end.
Lemma read_tick_reading t n : forall batches cursor w, reachable w -> history w (concat batches) ->
  read_tick t n cursor w batches = reading o_id (tick_page t n) cursor w batches.
Proof.
  induction batches as [|h batches IH]; intros cursor w Hre Hh; cbn [read_tick reading]; [reflexivity|].
  cbn [concat] in Hh. apply history_app in Hh as [Hh1 Hh2]. pose proof (run_reach w h Hre Hh1) as Hre1.
  unfold tick_page at 1 3. destruct (by_tick (run w h) t cursor n Hre1) as (sel & _ & ->). destruct (last _) as [o|]; [|reflexivity]. rewrite IH by assumption. reflexivity.
Qed.
(** C63: reading the orders at a tick page by page while the book is in use. *)
Theorem C63_tick_orders_while_trading :
  forall w t n first_batch batches l fin, reachable w -> history w (first_batch ++ concat batches) -> 0 < n < 2 ^ 32 ->
  read_tick t n None w (first_batch :: batches) = (l, fin) ->
  NoDup (map o_id l) /\ StronglySorted (fun a b => o_id a < o_id b) l /\
  (forall o, o ∈ l -> o_tick o = t /\
     exists k, order_of (w_st (run w (first_batch ++ concat (take k batches)))) t (o_id o) = Some o) /\
  (fin = true -> forall id o o',
     order_of (w_st (run w first_batch)) t id = Some o ->
     order_of (w_st (run w (first_batch ++ concat batches))) t id = Some o' ->
     exists x, x ∈ l /\ o_id x = id).
Proof.
  intros w t n hf batches l fin Hre Hh Hn Hr. rewrite (read_tick_reading t n (hf :: batches) None w Hre Hh) in Hr.
  destruct (reading_spec o_id n (fun w id => order_of (w_st w) t id) (tick_page t n)) with (batches := hf :: batches) (cursor := @None Z) (w := w) (l := l) (fin := fin) as (R1 & R2 & R3); try assumption; try lia.
  { intros w1 cursor Hre1. unfold tick_page. destruct (by_tick w1 t cursor n Hre1) as (sel & [S1 S2] & ->). exists sel. rewrite Z.mod_small by lia. split; [|split; [|reflexivity]].
    - assert (Ht : forall o, o ∈ sel -> o_tick o = t) by (intros o Ho; apply S2 in Ho; tauto). clear -S1 Ht. induction S1 as [|a l Hl IH F]; constructor.
      + apply IH. intros; apply Ht; constructor; assumption.
      + rewrite Forall_forall in *. intros b Hb. specialize (F b Hb). unfold key_before in F. rewrite (Ht a ltac:(constructor)), (Ht b ltac:(constructor; exact Hb)) in F. unfold by_key. lia.
    - intros x. rewrite S2. split.
      + intros (E & <- & K). auto.
      + intros [E K]. destruct (order_keys w1 Hre1 (t, o_id x) x E) as [E1 _]. cbn in E1. subst t. auto. }
  { intros w1 k x Hre1 E. destruct (order_keys w1 Hre1 (t, k) x E) as [_ E2]. cbn in E2. congruence. }
  split; [apply keyed_nodup; exact R1|]. split; [exact R1|]. split.
  - intros o Ho. destruct (R2 o Ho) as (_ & k & Hk & X). destruct k as [|k]; [lia|]. cbn [take concat] in X.
    assert (Hre' : reachable (run w (hf ++ concat (take k batches)))).
    { apply run_reach; [exact Hre|]. assert (Ec : concat batches = concat (take k batches) ++ concat (drop k batches)) by (rewrite <- concat_app, take_drop; reflexivity).
      rewrite Ec, app_assoc in Hh. apply history_app in Hh as [Hh _]. exact Hh. }
    destruct (order_keys _ Hre' (t, o_id o) o X) as [E1 _]. cbn in E1. split; [congruence|]. exists k. exact X.
  - intros Hfin id o o' Eo Eo'. apply (R3 Hfin id I). intros k Hk. destruct k as [|k]; [lia|]. cbn [take concat].
    apply history_app in Hh as [Hh1 Hh2]. pose proof (run_reach w hf Hre Hh1) as Hre1. rewrite run_app in Eo'.
    assert (Ec : concat batches = concat (take k batches) ++ concat (drop k batches)) by (rewrite <- concat_app, take_drop; reflexivity). rewrite Ec in Hh2, Eo'.
    destruct (stays (run w hf) _ _ t id o o' Hre1 Hh2 Eo Eo') as (o1 & E1 & _). exists o1. rewrite run_app. exact E1.
Qed.
Print Assumptions C63_tick_orders_while_trading.
(** ** Ticks *)
Definition all_page (n : Z) (w : world) (cursor : option Z) : list (Z * tick_state) :=
  match query (w_st w) (QAllTicks cursor None (Some n)) with Ok (ATicks page) => page | _ => [] end.
Lemma read_ticks_reading n : forall batches cursor w, read_ticks n cursor w batches = reading fst (all_page n) cursor w batches.
Proof.
  induction batches as [|h batches IH]; intros cursor w; cbn [read_ticks reading]; [reflexivity|].
  unfold all_page at 1 3. destruct (C32_all_ticks (w_st (run w h)) cursor None (Some n)) as (sel & _ & _ & ->). destruct (last _) as [o|]; [|reflexivity]. rewrite IH. reflexivity.
Qed.
Lemma ticks_stay h : forall w, reachable w -> history w h -> forall t, is_Some (s_ticks (w_st w) !! t) -> is_Some (s_ticks (w_st (run w h)) !! t).
Proof.
  intros w Hre Hh t Ht. destruct (reach_good _ Hre) as (w0 & h0 & G & Hs & Hh0 & Ew & Hg).
  assert (Hh01 : history w0 (h0 ++ h)) by (apply history_app; rewrite Ew; auto).
  rewrite <- Ew, <- run_app. rewrite <- Ew in Ht. apply (C32_known_ticks w0 (h0 ++ h) Hs Hh01). apply (C32_known_ticks w0 h0 Hs Hh0) in Ht as (en & Hin & Et).
  rewrite ideal_run_app, Ew. destruct (run_evolves h _ _ _ en Hg Hh Hin) as (b & Hb & Eb). exists b. split; [exact Hb|]. rewrite (ev_tick _ _ Eb). exact Et.
Qed.
(** C63: reading the ticks page by page while the book is in use: no tick twice, every state received is the state at one of the
    requests, and every tick in use at the first request is received (ticks are never removed). *)
Theorem C63_ticks_while_trading :
  forall w n first_batch batches l fin, reachable w -> history w (first_batch ++ concat batches) -> 0 < n ->
  read_ticks n None w (first_batch :: batches) = (l, fin) ->
  NoDup (map fst l) /\ StronglySorted (fun a b => fst a < fst b) l /\
  (forall t ts, (t, ts) ∈ l -> exists k, s_ticks (w_st (run w (first_batch ++ concat (take k batches)))) !! t = Some ts) /\
  (fin = true -> forall t, is_Some (s_ticks (w_st (run w first_batch)) !! t) -> exists ts, (t, ts) ∈ l).
Proof.
  intros w n hf batches l fin Hre Hh Hn Hr. rewrite read_ticks_reading in Hr.
  destruct (reading_spec (@fst Z tick_state) n (fun w t => option_map (pair t) (s_ticks (w_st w) !! t)) (all_page n)) with (batches := hf :: batches) (cursor := @None Z) (w := w) (l := l) (fin := fin) as (R1 & R2 & R3); try assumption.
  { intros w1 cursor Hre1. unfold all_page. destruct (C32_all_ticks (w_st w1) cursor None (Some n)) as (sel & S1 & S2 & ->). exists sel. split; [exact S1|]. split; [|reflexivity].
    intros [t ts]. rewrite S2. cbn [fst upto]. destruct (s_ticks (w_st w1) !! t) as [ts'|]; cbn [option_map].
    - split; [intros ([= ->] & K & _); auto|intros [[= ->] K]; auto].
    - split; [intros ([=] & _)|intros [[=] _]]. }
  { intros w1 k x _ E. destruct (s_ticks (w_st w1) !! k); [|discriminate]. injection E as <-. reflexivity. }
  split; [apply keyed_nodup; exact R1|]. split; [exact R1|]. split.
  - intros t ts Ho. destruct (R2 _ Ho) as (_ & k & Hk & X). destruct k as [|k]; [lia|]. cbn [take concat fst] in X. exists k.
    destruct (s_ticks _ !! t); [|discriminate]. injection X as ->. reflexivity.
  - intros Hfin t Ht. destruct (R3 Hfin t I) as ([t' ts] & Hin & E); [|cbn in E; subst t'; eauto]. intros k Hk. destruct k as [|k]; [lia|]. cbn [take concat].
    apply history_app in Hh as [Hh1 Hh2]. pose proof (run_reach w hf Hre Hh1) as Hre1.
    assert (Ec : concat batches = concat (take k batches) ++ concat (drop k batches)) by (rewrite <- concat_app, take_drop; reflexivity). rewrite Ec in Hh2. apply history_app in Hh2 as [Hh2 _].
    rewrite run_app. destruct (ticks_stay _ _ Hre1 Hh2 t Ht) as [ts ->]. cbn. eauto.
Qed.
Print Assumptions C63_ticks_while_trading.
(** A case: orders 0 to 3 at tick 0 and ticks 0 and 100000, one per page; meanwhile orders 0 and 2 are withdrawn, and order 4 (at a
    new tick) and order 5 are added. *)
Definition first_tick_read : list (env * call) :=
  [place "a" 0 Bid 1 None; place "b" 0 Bid 2 None; place "a" 0 Bid 3 None; place "a" 100000 Ask 4 None].
Definition batches_tick_read : list (list (env * call)) :=
  [[cancel "a" 0 0; cancel "a" 0 2; place "a" (-100000) Bid 5 None; place "b" 0 Bid 6 None]; []; []; []].
Example C63_pages_case :
  reachable w_start /\ history w_start (first_tick_read ++ concat batches_tick_read) /\
  (let '(l, fin) := read_tick 0 1 None w_start (first_tick_read :: batches_tick_read) in (map o_id l, fin)) = ([0; 1; 5], true) /\
  (let '(l, fin) := read_ticks 1 None w_start (first_tick_read :: batches_tick_read) in (map fst l, fin)) = ([0; 100000], true) /\
  map (fun t => bool_decide (is_Some (s_ticks (w_st (run w_start (first_tick_read ++ concat batches_tick_read))) !! t))) [-100000; 0; 100000] = [true; true; true].
Proof.
  split; [apply (start_reachable w_start []); [apply start_ok|constructor]|]. split; [hist|]. split; [vm_compute; reflexivity|]. split; vm_compute; reflexivity.
Qed.
