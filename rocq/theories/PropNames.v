(** * Property C52: names of accounts and tokens, the contract's address and the clock have no influence. *)
From Verif Require Import Base Dec Types State TickMath Sumtree Tick Order Auth Contract Query World SpecMath TickMathProofs
  TreeDefs Exec SumtreeProofs Ghost Inv Trans Spec Reach Refine RefineStep Reserve Solvency Books SpecProps PropBase Tests PropOrders PropAdmin
  SpecAdmin SpecBank PropBank SpecMachine MachineBase PropMachine SpecTrace PropTrace SpecNames.

Section rename.
  Variables p d : string -> string.
  Definition g_order (o : resting) : resting :=
    mkResting (re_tick o) (re_dir o) (re_id o) (p (re_owner o)) (re_bounty o) 0 (re_placed o) (re_open o) (re_filled o).
  Definition g_set (s : settings) : settings :=
    mkSettings (se_active s) (se_fee s) (p (se_recipient s)) (option_map p (se_admin s)) (option_map p (se_admin_offer s))
      (option_map p (se_moderator s)) (option_map p (se_moderator_offer s)).
  Definition g_machine (m : machine) : machine :=
    mkMachine (d (ma_quote m)) (d (ma_base m)) (g_set (ma_set m)) (ma_next m) (map g_order (ma_orders m)).
  Definition g_res (x : option (machine * response)) : option (machine * response) :=
    option_map (fun y => (g_machine y.1, name_resp p d y.2)) x.
  Hypothesis Hp : injective p.
  Hypothesis Hd : injective d.

  Lemma p_eq a b : bool_decide (p a = p b) = bool_decide (a = b).
  Proof. apply bool_decide_ext. split; [apply Hp|intros ->; reflexivity]. Qed.
  Lemma d_eq a b : bool_decide (d a = d b) = bool_decide (a = b).
  Proof. apply bool_decide_ext. split; [apply Hd|intros ->; reflexivity]. Qed.
  Lemma opt_eq o x : bool_decide (option_map p o = Some (p x)) = bool_decide (o = Some x).
  Proof. apply bool_decide_ext. destruct o as [a|]; cbn; split; try discriminate; intros [= E]; f_equal; [apply Hp, E|congruence]. Qed.

  Lemma g_find t id l : find_order t id (map g_order l) = option_map g_order (find_order t id l).
  Proof. unfold find_order. induction l as [|o l IH]; [reflexivity|]. cbn [map List.find]. unfold is_order at 1 3. cbn [g_order re_tick re_id]. destruct (_ && _); [reflexivity|exact IH]. Qed.
  Lemma g_change t id f f' l : (forall o, f' (g_order o) = option_map g_order (f o)) -> change t id f' (map g_order l) = map g_order (change t id f l).
  Proof.
    intros Hf. unfold change. induction l as [|o l IH]; [reflexivity|]. cbn [map flat_map]. rewrite map_app, IH. f_equal. unfold is_order. cbn [g_order re_tick re_id].
    destruct (_ && _); [|reflexivity]. fold (g_order o). rewrite Hf. destruct (f o); reflexivity.
  Qed.
  Lemma g_deposit m x : deposit_of (g_machine m) x = d (deposit_of m x).
  Proof. destruct x; reflexivity. Qed.
  Lemma g_payout m x : payout_of (g_machine m) x = d (payout_of m x).
  Proof. apply g_deposit. Qed.
  Lemma g_open side l t : open_on side (map g_order l) t = open_on side l t.
  Proof. unfold open_on. induction l as [|o l IH]; [reflexivity|]. cbn [map foldr]. rewrite IH. reflexivity. Qed.
  Lemma g_levels side target l : levels side target (map g_order l) = levels side target l.
  Proof. unfold levels. induction l as [|o l IH]; [reflexivity|]. cbn [map foldr]. rewrite IH. reflexivity. Qed.
  Lemma g_fill side l : forall x, fill_side side x (map g_order l) = map g_order (fill_side side x l).
  Proof.
    induction l as [|o l IH]; intros x; [reflexivity|]. cbn [map fill_side g_order re_dir re_tick re_open re_filled]. fold (g_order o).
    destruct (bool_decide _); cbn [map]; rewrite IH; reflexivity.
  Qed.
  Lemma g_with m l l' : map g_order l = l' -> with_orders (g_machine m) l' = g_machine (with_orders m l).
  Proof. intros <-. reflexivity. Qed.
  Lemma g_payment k to den amt : payment k (p to) (d den) amt = map (name_send p d) (payment k to den amt).
  Proof. unfold payment. destruct (amt =? 0); reflexivity. Qed.
  Lemma g_claim_one s t id m : claim_one (p s) t id (g_machine m) =
    option_map (fun y => (g_machine y.1.1, map (name_send p d) y.1.2, name_event p d y.2)) (claim_one s t id m).
  Proof.
    unfold claim_one. cbn [g_machine ma_orders]. rewrite g_find. destruct (find_order t id (ma_orders m)) as [o|]; [|reflexivity]. cbn [option_map g_order re_filled].
    destruct (0 <? re_filled o); [|reflexivity]. fold (g_order o). fold (g_machine m). cbn [option_map fst snd]. f_equal. f_equal; [f_equal|].
    - apply g_with. symmetry. apply g_change. intros o'. cbn [g_order re_open]. destruct (re_open o' =? 0); reflexivity.
    - unfold payments. rewrite g_payout, !map_app. cbn [g_machine ma_set g_set se_recipient g_order re_owner]. rewrite !g_payment. reflexivity.
    - unfold announcement, name_event. rewrite g_payout, g_deposit. reflexivity.
  Qed.
  Lemma g_claim_all s l : forall m, claim_all (p s) l (g_machine m) =
    (g_machine (claim_all s l m).1.1, map (name_send p d) (claim_all s l m).1.2, map (name_event p d) (claim_all s l m).2).
  Proof.
    induction l as [|[t id] l IH]; intros m; [reflexivity|]. cbn [claim_all]. rewrite g_claim_one. destruct (claim_one s t id m) as [[[m1 ms] ev]|]; cbn [option_map fst snd].
    - rewrite IH. destruct (claim_all s l m1) as [[m2 ms2] evs]. cbn [fst snd]. rewrite map_app. reflexivity.
    - apply IH.
  Qed.
  Lemma g_funds i : no_funds (name_info p d i) = no_funds i.
  Proof. unfold no_funds. cbn [name_info i_funds]. destruct (i_funds i); reflexivity. Qed.
  Lemma g_reply m s s' a a' : g_set s = s' -> map (name_attr p d) a = a' -> m_reply (g_machine m) s' a' = g_res (m_reply m s a).
  Proof. intros <- <-. reflexivity. Qed.
  Lemma g_side m tin tout : maker_side (g_machine m) (d tin) (d tout) = maker_side m tin tout.
  Proof.
    unfold maker_side. cbn [g_machine ma_quote ma_base].
    assert (E : forall a b x y, bool_decide (d a = d b /\ d x = d y) = bool_decide (a = b /\ x = y)).
    { intros. apply bool_decide_ext. split; [intros [E1 E2]; split; apply Hd; assumption|intros [-> ->]; auto]. }
    rewrite !E. reflexivity.
  Qed.
  Lemma g_swap e e' s tin tout mn fee target m : same_rules p e e' ->
    m_swap e' (p s) (name_coin d tin) (d tout) mn fee target (g_machine m) = g_res (m_swap e s tin tout mn fee target m).
  Proof.
    intros He. unfold m_swap. cbn [name_coin c_denom c_amount]. rewrite g_side. destruct (maker_side m (c_denom tin) tout) as [side|]; [|reflexivity].
    rewrite (proj1 (He s)). cbn [g_machine ma_set g_set se_active ma_orders]. destruct (_ && _); [|reflexivity].
    rewrite g_levels, (walk_ext _ _ _ _ _ (g_open side (ma_orders m))). destruct (walk _ _ _ _ _ _) as [[f rest]|]; [|reflexivity]. destruct (mn <=? total_out f); [|reflexivity].
    unfold g_res, name_resp. cbn [option_map fst snd r_attrs r_events r_msgs r_data map]. rewrite <- g_payment. f_equal. f_equal. fold (g_machine m). apply g_with. symmetry. apply g_fill.
  Qed.
  Lemma g_run e e' c m : same_rules p e e' -> e_time e' = 0 -> m_run e' (name_call p d c) (g_machine m) = g_res (m_run e c m).
  Proof.
    intros He Ht. destruct c as [i x|x| |c]; [destruct x as [t dr q b|t id|t id|l|a]| | |]; cbn [name_call m_run].
    - unfold m_place. rewrite g_deposit, g_payout. cbn [name_info i_funds i_sender g_machine ma_set g_set se_active].
      assert (E : match map (name_coin d) (i_funds i) with [c] => bool_decide (c_denom c = d (deposit_of m dr)) && (c_amount c =? q) | _ => false end
                = match i_funds i with [c] => bool_decide (c_denom c = deposit_of m dr) && (c_amount c =? q) | _ => false end).
      { destruct (i_funds i) as [|c0 [|c1 l]]; cbn [map]; try reflexivity. cbn [name_coin c_denom c_amount]. rewrite d_eq. reflexivity. }
      rewrite E. destruct (_ && _); [|reflexivity]. unfold g_res. cbn [option_map fst snd]. rewrite Ht. f_equal. f_equal.
      unfold g_machine. cbn [ma_quote ma_base ma_set ma_next ma_orders]. rewrite map_app. reflexivity.
    - unfold m_cancel. cbn [g_machine ma_orders]. rewrite g_find. destruct (find_order t id (ma_orders m)) as [o|]; [|reflexivity]. cbn [option_map]. rewrite g_funds. fold (g_machine m).
      cbn [g_order re_owner re_filled re_dir re_open re_placed name_info i_sender g_machine ma_set g_set se_active]. rewrite p_eq. destruct (_ && _); [|reflexivity]. fold (g_machine m).
      rewrite g_deposit, g_payout. unfold g_res. cbn [option_map fst snd]. f_equal. f_equal. apply g_with. symmetry. apply g_change. reflexivity.
    - unfold m_claim. rewrite g_funds. cbn [name_info i_sender]. rewrite g_claim_one. cbn [g_machine ma_set g_set se_active]. destruct (_ && _); [|reflexivity].
      destruct (claim_one _ t id m) as [[[m1 ms] ev]|]; reflexivity.
    - unfold m_batch. rewrite g_funds. cbn [name_info i_sender]. rewrite g_claim_all. cbn [g_machine ma_set g_set se_active]. destruct (_ && _); [|reflexivity].
      destruct (claim_all _ l m) as [[m1 ms] evs]; reflexivity.
    - unfold m_auth. cbn [g_machine ma_set]. destruct (ma_set m) as [ac fe re ad ao mo mf] eqn:Es. cbn [g_set se_active se_fee se_recipient se_admin se_admin_offer se_moderator se_moderator_offer].
      cbn [name_info i_sender]. change (mkMachine _ _ _ _ _) with (g_machine m).
      destruct a; cbn [name_auth]; rewrite ?opt_eq, ?(proj1 (He _)); (match goal with |- (if ?c then _ else _) = _ => destruct c; [apply g_reply; reflexivity|reflexivity] end).
    - unfold m_sudo. cbn [g_machine ma_set]. destruct (ma_set m) as [ac fe re ad ao mo mf] eqn:Es. cbn [g_set se_active se_fee se_recipient se_admin se_admin_offer se_moderator se_moderator_offer].
      destruct x; cbn [name_sudo].
      all: try reflexivity.
      all: rewrite ?(proj1 (He _)).
      all: fold (g_machine m); try (apply g_swap; exact He).
      all: try (match goal with |- (if ?c then _ else _) = _ => destruct c; [apply g_reply; reflexivity|reflexivity] end).
    - reflexivity.
    - reflexivity.
  Qed.
  Lemma g_step e e' c m : same_rules p e e' -> e_time e' = 0 ->
    m_step e' (g_machine m) (name_call p d c) = (g_machine (m_step e m c).1, name_outcome p d (m_step e m c).2).
  Proof.
    intros He Ht. unfold m_step. rewrite (g_run _ _ _ _ He Ht). destruct (m_run e c m) as [[m' r]|]; [|reflexivity]. cbn [g_res option_map fst snd].
    assert (E : forallb (fun s => (0 <? c_amount (sm_coin s)) && e_bank_ok e' (sm_to s)) (r_msgs (name_resp p d r))
              = forallb (fun s => (0 <? c_amount (sm_coin s)) && e_bank_ok e (sm_to s)) (r_msgs r)).
    { cbn [name_resp r_msgs]. induction (r_msgs r) as [|s l IH]; [reflexivity|]. cbn [map forallb name_send sm_coin name_coin c_amount sm_to]. rewrite IH, (proj2 (He _)). reflexivity. }
    rewrite E. destruct (forallb _ (r_msgs r)); reflexivity.
  Qed.
  Lemma g_history h h' : Forall2 (fun x x' => same_rules p (fst x) (fst x') /\ e_time (fst x') = 0 /\ snd x' = name_call p d (snd x)) h h' -> forall m,
    m_outcomes (g_machine m) h' = map (name_outcome p d) (m_outcomes m h).
  Proof.
    induction 1 as [|[e c] [e' c'] h h' (He & Ht & Hc) _ IH]; intros m; [reflexivity|]. cbn [m_outcomes map fst snd] in *. subst c'. rewrite (g_step _ _ _ _ He Ht). cbn [fst snd]. rewrite IH. reflexivity.
  Qed.
End rename.
Definition timeless (h : list (env * call)) : list (env * call) :=
  map (fun x => (mkEnv 0 (e_addr_valid (fst x)) (e_supply (fst x)) (e_bank_ok (fst x)), snd x)) h.
Lemma coin_same c : name_coin (fun a => a) c = c.
Proof. destruct c. reflexivity. Qed.
Lemma call_same c : name_call (fun a => a) (fun a => a) c = c.
Proof.
  assert (Hi : forall i, name_info (fun a => a) (fun a => a) i = i).
  { intros [s f]. unfold name_info. cbn. f_equal. induction f as [|x f IH]; [reflexivity|]. cbn. rewrite IH, coin_same. reflexivity. }
  destruct c as [i x|x| |c]; [destruct x as [t dr q b|t id|t id|l|a]| | |]; cbn [name_call]; rewrite ?Hi, ?coin_same; try reflexivity.
  - destruct a; reflexivity.
  - destruct x; cbn [name_sudo]; rewrite ?coin_same; reflexivity.
Qed.
Lemma outcome_same o : name_outcome (fun a => a) (fun a => a) o = o.
Proof.
  destruct o as [[a ev ms dt]|]; [|reflexivity]. cbn. unfold name_resp. cbn [r_attrs r_events r_msgs r_data]. f_equal. f_equal.
  - induction a as [|[k v] a IH]; [reflexivity|]. cbn [map]. rewrite IH. f_equal. unfold name_attr. cbn [fst snd]. destruct v; try reflexivity.
    + destruct (has_key k account_keys), (has_key k token_keys); reflexivity.
    + rewrite coin_same. reflexivity.
  - induction ev as [|x ev IH]; [reflexivity|]. cbn [map]. rewrite IH. destruct x. reflexivity.
  - induction ms as [|x ms IH]; [reflexivity|]. cbn [map]. rewrite IH. destruct x as [k to [de am]]. reflexivity.
Qed.
Lemma map_same {A} (f : A -> A) l : (forall x, f x = x) -> map f l = l.
Proof. intros H. induction l as [|x l IH]; [reflexivity|]. cbn. rewrite H, IH. reflexivity. Qed.
Lemma new_same p d quote base : (forall a, a ∈ built_in -> p a = a) -> g_machine p d (m_new quote base) = m_new (d quote) (d base).
Proof.
  intros H. unfold g_machine, m_new, g_set. cbn [ma_quote ma_base ma_set ma_next ma_orders se_active se_fee se_recipient se_admin se_admin_offer se_moderator se_moderator_offer option_map map].
  rewrite !H by (unfold built_in; set_solver). reflexivity.
Qed.
(** The contract's own balances move alike. *)
Lemma name_net p d self h h' denom : injective p -> injective d -> renamed p d h h' -> forall os,
  net (p self) h' (map (name_outcome p d) os) (d denom) = net self h os denom.
Proof.
  intros Hp Hd. induction 1 as [|[e c] [e' c'] h h' [_ Hc] _ IH]; intros [|o os]; try reflexivity. cbn [fst snd map net] in *. subst c'. rewrite IH. f_equal. destruct o as [r|]; [|reflexivity]. cbn [name_outcome].
  assert (E1 : forall l, received (map (name_coin d) l) (d denom) = received l denom).
  { intros l. unfold received. induction l as [|x l IHl]; [reflexivity|]. cbn [map foldr name_coin c_denom c_amount]. rewrite IHl, (d_eq d Hd). reflexivity. }
  assert (E2 : forall l, leaving (p self) (map (name_send p d) l) (d denom) = leaving self l denom).
  { intros l. unfold leaving. induction l as [|x l IHl]; [reflexivity|]. cbn [map foldr name_send name_coin c_denom c_amount sm_coin sm_to]. rewrite IHl. f_equal.
    assert (E : bool_decide (d (c_denom (sm_coin x)) = d denom /\ p (sm_to x) <> p self) = bool_decide (c_denom (sm_coin x) = denom /\ sm_to x <> self)); [|rewrite E; reflexivity].
    apply bool_decide_ext. split; intros [K1 K2]; (split; [|intros K; apply K2]); [apply Hd, K1|congruence|congruence|apply Hp, K]. }
  cbn [name_resp r_msgs]. rewrite E2. f_equal. rewrite <- E1. f_equal. destruct c as [i x|x| |c]; [destruct x|destruct x| |]; reflexivity.
Qed.

(** ** C52 *)
Theorem C52_only_numbers_matter :
  forall p d e self quote base funds w0 e' funds' w0' h h',
  injective p -> injective d -> (forall a, a ∈ built_in -> p a = a) ->
  init_world e self quote base funds = Some w0 -> init_world e' (p self) (d quote) (d base) funds' = Some w0' ->
  forallb coin_typed funds = true -> forallb coin_typed funds' = true ->
  renamed p d h h' -> history w0 h -> history w0' h' -> short h ->
  all_outcomes w0' h' = map (name_outcome p d) (all_outcomes w0 h) /\
  forall denom, balance (run w0' h') (d denom) - balance w0' (d denom) = balance (run w0 h) denom - balance w0 denom.
Proof.
  intros p d e self quote base funds w0 e' funds' w0' h h' Hp Hd Hb H0 H0' Hf Hf' Hr Hh Hh' Hsh.
  assert (Hsh' : short h') by (unfold short in *; rewrite <- (Forall2_length _ _ _ Hr); exact Hsh).
  assert (R : all_outcomes w0' h' = map (name_outcome p d) (all_outcomes w0 h)).
  { rewrite (C50_same_outcomes _ _ _ _ _ _ _ H0 Hf Hh Hsh), (C50_same_outcomes _ _ _ _ _ _ _ H0' Hf' Hh' Hsh').
    set (i := fun a : string => a).
    assert (Hi : injective i) by (intros a b E; exact E).
    assert (A1 : m_outcomes (g_machine i i (m_new (d quote) (d base))) (timeless h') = map (name_outcome i i) (m_outcomes (m_new (d quote) (d base)) h')).
    { apply g_history; try assumption. clear. induction h' as [|[e c] h' IH]; constructor; [|exact IH]. cbn [fst snd]. split; [intros a; auto|]. split; [reflexivity|]. symmetry. apply call_same. }
    rewrite (map_same _ _ outcome_same) in A1. rewrite <- A1. rewrite new_same by reflexivity. unfold i at 1 2. rewrite <- (new_same p d) by exact Hb. apply g_history; try assumption.
    clear -Hr. induction Hr as [|[e c] [e' c'] h h' [He Hc] _ IH]; constructor; [|exact IH]. cbn [fst snd] in *. split; [exact He|]. auto. }
  split; [exact R|]. intros denom. rewrite !balance_net, R.
  assert (S0 : w_self w0 = self) by (unfold init_world in H0; destruct (instantiate e quote base st_empty) as [s [r| | |]]; try discriminate; injection H0 as <-; reflexivity).
  assert (S1 : w_self w0' = p self) by (unfold init_world in H0'; destruct (instantiate e' (d quote) (d base) st_empty) as [s [r| | |]]; try discriminate; injection H0' as <-; reflexivity).
  rewrite S0, S1, (name_net p d self h h') by assumption. lia.
Qed.
Print Assumptions C52_only_numbers_matter.
(** In particular the clock: histories that differ in nothing but the times of their blocks have the same outcomes. *)
Theorem C52_clock :
  forall w0 h h', start w0 -> history w0 h -> short h ->
  Forall2 (fun x x' => snd x' = snd x /\ (forall a, e_addr_valid (fst x') a = e_addr_valid (fst x) a /\ e_bank_ok (fst x') a = e_bank_ok (fst x) a)) h h' ->
  all_outcomes w0 h' = all_outcomes w0 h.
Proof.
  intros w0 h h' (e & self & quote & base & funds & H0 & Hf) Hh Hsh Hr. set (i := fun a : string => a).
  assert (Hh' : history w0 h').
  { clear -Hh Hr. unfold history in *. induction Hr as [|[e c] [e' c'] h h' [Hc He] _ IH]; [constructor|]. cbn [fst snd] in *. subst c'. inversion Hh; subst. constructor; auto. }
  rewrite <- (map_same _ (all_outcomes w0 h) outcome_same). apply (C52_only_numbers_matter i i e self quote base funds w0 e funds w0); try assumption; try (intros a b E; exact E).
  - reflexivity.
  - clear -Hr. induction Hr as [|[e c] [e' c'] h h' [Hc He] _ IH]; constructor; [|exact IH]. cbn [fst snd] in *. subst c'. split; [exact He|]. symmetry. apply call_same.
Qed.
Print Assumptions C52_clock.
(** A case: account "a" becomes "zoe" and back, the tokens change names, the clock runs differently. *)
Definition other (x y a : string) : string := if String.eqb a x then y else if String.eqb a y then x else a.
Lemma other_twice x y a : other x y (other x y a) = a.
Proof.
  unfold other. destruct (String.eqb_spec a x) as [->|H1].
  - rewrite String.eqb_refl. destruct (String.eqb_spec y x); congruence.
  - destruct (String.eqb_spec a y) as [->|H2]; [rewrite String.eqb_refl; reflexivity|]. rewrite (proj2 (String.eqb_neq _ _) H1), (proj2 (String.eqb_neq _ _) H2). reflexivity.
Qed.
Definition env_later : env := mkEnv 777 (fun _ => true) (fun _ => None) (fun _ => true).
Definition w_other : world := unwrap_or (init_world tenv "contract" "base" "quote" []) (mkWorld "" st_empty ∅).
Definition hist_other : list (env * call) := map (fun x => (env_later, name_call (other "a" "zoe") (other "quote" "base") (snd x))) hist_machine.
Example C52_case :
  injective (other "a" "zoe") /\ injective (other "quote" "base") /\ (forall a, a ∈ built_in -> other "a" "zoe" a = a) /\
  init_world tenv "contract" "quote" "base" [] = Some w_start /\ init_world tenv "contract" "base" "quote" [] = Some w_other /\
  renamed (other "a" "zoe") (other "quote" "base") hist_machine hist_other /\ history w_start hist_machine /\ history w_other hist_other /\
  run_out w_other hist_other = [true; true; true; true; false; true; false; true; true; true; true; true; true; false].
Proof.
  assert (Hi : forall x y, injective (other x y)) by (intros x y a b E; rewrite <- (other_twice x y a), E; apply other_twice).
  split; [apply Hi|]. split; [apply Hi|]. split. { intros a Ha. unfold built_in in Ha. repeat (apply elem_of_cons in Ha as [->|Ha]; [reflexivity|]). inversion Ha. }
  split; [vm_compute; reflexivity|]. split; [vm_compute; reflexivity|].
  split. { unfold hist_other. assert (He : Forall (fun x => e_addr_valid (fst x) = (fun _ => true) /\ e_bank_ok (fst x) = (fun _ => true)) hist_machine) by (repeat constructor).
    induction He as [|[e c] l [H1 H2] _ IH]; constructor; [|exact IH]. cbn [fst snd] in *. split; [|reflexivity]. intros a. rewrite H1, H2. auto. }
  split; [hist|]. split; [hist|]. vm_compute. reflexivity.
Qed.
