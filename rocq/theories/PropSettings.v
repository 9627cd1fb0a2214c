(** * Property C43: the settings are what the last successful call said. *)
From Verif Require Import Base Dec Types State TickMath Sumtree Tick Order Auth Contract Query World Tests SpecMath TickMathProofs
  TreeDefs Exec SumtreeProofs SumtreeRebalance SumtreeInsert PrefixSum SumtreeRoot SumtreeFail Ghost Inv StepPlace StepCancel StepClaim SwapPlan StepSwap Trans
  Spec Reach Refine RefineStep Reserve Solvency Books SpecProps PropBase PropOrders SpecAdmin PropAdmin SpecSettings.

Definition settings (s : storage) := (active s, unwrap_or (s_fee s) 0, s_recipient s, s_admin s, s_admin_offer s, s_moderator s, s_moderator_offer s).
Definition said1 (c : call) (x : bool * Z * option string * option string * option string * option string * option string) :=
  let '(ac, fe, re, ad, ao, mo, mf) := x in
  let say {A} (o : option A) (y : A) := match o with Some z => z | None => y end in
  (say (says_active c) ac, say (says_fee c) fe, match says_recipient c with Some z => Some z | None => re end,
   say (says_admin c) ad, say (says_admin_offer c) ao, say (says_moderator c) mo, say (says_moderator_offer c) mf).

Lemma settings_step e w c : reachable w -> call_ok (w_self w) c = true ->
  settings (w_st (fst (step e w c))) = match snd (step e w c) with Done _ => said1 c (settings (w_st w)) | Failed => settings (w_st w) end.
Proof.
  intros Hre Hok. destruct (admin_step e w c Hre Hok) as [[E1 E2]|[(i & m & -> & Hm & E)|[(m & -> & Hm & E)|(Hc & E)]]].
  - rewrite E1, E2. reflexivity.
  - destruct (proj1 (C27_auth_exact e w i m) Hm) as (w2 & r2 & E2 & _). rewrite E2 in E |- *. cbn [fst snd] in E |- *.
    unfold admin_data, effect in E. unfold settings, active. destruct m; injection E as -> -> -> -> -> -> ->; reflexivity.
  - assert (Hr : is_role_sudo m = true) by (destruct m; try reflexivity; destruct Hm).
    destruct (proj1 (C27_chain_exact e w m Hr) Hm) as (w2 & r2 & E2 & _). rewrite E2 in E |- *. cbn [fst snd] in E |- *.
    unfold admin_data, chain_effect in E. unfold settings, active. destruct m; try discriminate Hr; injection E as -> -> -> -> -> -> ->; reflexivity.
  - assert (Ec : forall x, said1 c x = x).
    { intros [[[[[[? ?] ?] ?] ?] ?] ?]. destruct c as [i [| | | |]|[]| |]; try discriminate Hc; reflexivity. }
    rewrite Ec. unfold admin_data in E. unfold settings, active. injection E as -> -> -> -> -> -> ->. destruct (snd (step e w c)); reflexivity.
Qed.

(** C43: at any time, the switch, the fee, its recipient, the roles and the pending offers - as the
    queries report them - are what the last successful call concerning them said; if there was none,
    the values set at instantiation. *)
Theorem C43_settings :
  forall w0 h, start w0 -> history w0 h ->
  let s := w_st (run w0 h) in
  let last {A} (says : call -> option A) (x : A) := last_said says x (successes w0 h) in
  query s QIsActive = Ok (AFlag (last says_active true)) /\
  query s QGetMakerFee = Ok (AFee (last says_fee 0)) /\
  s_recipient s = Some (last says_recipient DEFAULT_MAKER_FEE_RECIPIENT) /\
  query s (QAuth QAdmin) = Ok (AAddress (last says_admin (Some OSMOSIS_GOV_ADDR))) /\
  query s (QAuth QAdminOffer) = Ok (AAddress (last says_admin_offer None)) /\
  query s (QAuth QModerator) = Ok (AAddress (last says_moderator (Some CIRCUIT_BREAKER_SUBDAO_ADDR))) /\
  query s (QAuth QModeratorOffer) = Ok (AAddress (last says_moderator_offer None)) /\
  query s QGetSwapFee = Ok (AFee 0).
Proof.
  intros w0 h Hs Hh. destruct (start_inv _ Hs) as (_ & (q & b & Es & _) & _).
  assert (Hre : reachable w0) by (apply (start_reachable w0 []); [assumption|constructor]).
  assert (K : forall h w ac fe re ad ao mo mf, reachable w -> history w h -> settings (w_st w) = (ac, fe, Some re, ad, ao, mo, mf) ->
    let l := successes w h in
    settings (w_st (run w h)) = (last_said says_active ac l, last_said says_fee fe l, Some (last_said says_recipient re l), last_said says_admin ad l,
      last_said says_admin_offer ao l, last_said says_moderator mo l, last_said says_moderator_offer mf l)).
  { clear. induction h as [|[e c] h IH]; intros w ac fe re ad ao mo mf Hre Hh E; cbv zeta; cbn [run successes]; [assumption|].
    inversion Hh as [|x l Hok Hh']; subst. cbn [snd] in Hok.
    pose proof (settings_step e w c Hre Hok) as Hst. rewrite E in Hst.
    assert (Hre' : reachable (fst (step e w c))) by (apply step_reach; assumption).
    assert (Hh2 : history (fst (step e w c)) h) by (unfold history; rewrite step_self; assumption).
    destruct (snd (step e w c)) as [r|]; cbn [app last_said].
    - apply IH; [assumption|assumption|]. rewrite Hst. unfold said1. destruct (says_recipient c); reflexivity.
    - apply IH; assumption. }
  specialize (K h w0 true 0 DEFAULT_MAKER_FEE_RECIPIENT (Some OSMOSIS_GOV_ADDR) None (Some CIRCUIT_BREAKER_SUBDAO_ADDR) None Hre Hh).
  rewrite Es in K. specialize (K eq_refl). cbv zeta in K |- *.
  destruct (reachable_inv _ (start_reachable _ _ Hs Hh)) as (G & Hi). destruct (i_fee _ _ Hi) as (fee & Ef & _).
  unfold settings, active in K. injection K as K1 K2 K3 K4 K5 K6 K7. rewrite Ef in K2. cbn [unwrap_or] in K2.
  cbn [query]. unfold is_active, query_maker_fee, get_maker_fee, auth_query_run. rewrite Ef, K1, K4, K5, K6, K7. cbn. rewrite K2.
  do 2 (split; [reflexivity|]). split; [exact K3|]. repeat split; reflexivity.
Qed.
Print Assumptions C43_settings.

(** A history in which every setting is set, some twice, some unsuccessfully. *)
Definition hist_settings : list (env * call) :=
  let a x m := (tenv, c_auth x m) in
  [a OSMOSIS_GOV_ADDR (SetMakerFee (10 ^ 16)); a "thief" (SetMakerFee 0); a OSMOSIS_GOV_ADDR (SetMakerFee (10 ^ 18));
   a OSMOSIS_GOV_ADDR (TransferAdmin "alice"); a "thief" ClaimAdmin; a "alice" ClaimAdmin; a OSMOSIS_GOV_ADDR (SetMakerFee 0);
   a "alice" (OfferModerator "bob"); a "alice" (SetMakerFeeRecipient "carol"); a CIRCUIT_BREAKER_SUBDAO_ADDR (SetActive false); (tenv, CSudo (SudoSetActive true))].
Example C43_case :
  history w_start hist_settings /\ run_out w_start hist_settings = [true; false; false; true; false; true; false; true; true; true; false] /\
  let s := w_st (run w_start hist_settings) in
  (query s QIsActive, query s QGetMakerFee, s_recipient s, query s (QAuth QAdmin), query s (QAuth QAdminOffer), query s (QAuth QModeratorOffer)) =
  (Ok (AFlag false), Ok (AFee (10 ^ 16)), Some "carol", Ok (AAddress (Some "alice")), Ok (AAddress None), Ok (AAddress (Some "bob"))).
Proof. split; [hist|]. split; vm_compute; reflexivity. Qed.
