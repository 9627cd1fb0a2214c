(** * ConfAuth: the unit tests of src/tests/test_auth.rs replayed on the model (see ConfBase.v). *)
From Verif Require Import Base Dec Types State TickMath Sumtree Tick Order Auth Contract Query ConfBase.

(** cosmwasm_std's MockApi rejects addresses of fewer than three characters. *)
Definition aenv : env := mkEnv ttime (fun a => Nat.leb 3 (String.length a)) (e_supply menv) (fun _ => true).
Definition by_sender (a : string) : info := mkInfo a [].
(** The storage with an admin, an admin offer, a moderator and a moderator offer. *)
Definition roles (admin offer moderator moderator_offer : option string) : storage :=
  mkSt None None ∅ ∅ ∅ ∅ ∅ ∅ None None None admin offer moderator moderator_offer.
Definition fails_with (e : option error) {A} (r : res A) (on_error on_ok : bool) : bool :=
  match e with Some e => err_is e r && on_error | None => match r with Ok _ => on_ok | _ => false end end.

(** src/tests/test_auth.rs:23-86 *)
Record TransferAdminTestCase := mkTransferAdminTestCase { ta_name : string; ta_admin : string; ta_new : string; ta_error : option error }.
Definition check_transfer (c : TransferAdminTestCase) : bool :=
  let '(s, r) := dispatch_transfer_admin aenv (by_sender "sender") (ta_new c) (roles (Some (ta_admin c)) None None None) in
  fails_with (ta_error c) r (eqb (s_admin_offer s) None) (eqb (s_admin_offer s) (Some (ta_new c))).
(* BEGIN tests/test_auth.rs test_transfer_admin TransferAdminTestCase *)
Definition test_transfer_admin_cases : list TransferAdminTestCase :=
  [ mkTransferAdminTestCase "valid transfer" "sender" "new_admin" None;
    mkTransferAdminTestCase "unauthorized" "notthesender" "new_admin" (Some EUnauthorized) ].
(* END *)
Example test_transfer_admin : failures ta_name check_transfer test_transfer_admin_cases = [].
Proof. vm_compute. reflexivity. Qed.
(** src/tests/test_auth.rs:88-154 *)
Record CancelAdminTransferTestCase := mkCancelAdminTransferTestCase { ca_name : string; ca_admin : string; ca_new : string; ca_error : option error }.
Definition check_cancel_transfer (c : CancelAdminTransferTestCase) : bool :=
  let '(s, r) := dispatch_cancel_admin_transfer (by_sender "sender") (roles (Some (ca_admin c)) (Some (ca_new c)) None None) in
  fails_with (ca_error c) r (eqb (s_admin_offer s) (Some (ca_new c))) (eqb (s_admin_offer s) None).
(* BEGIN tests/test_auth.rs test_cancel_admin_transfer CancelAdminTransferTestCase *)
Definition test_cancel_admin_transfer_cases : list CancelAdminTransferTestCase :=
  [ mkCancelAdminTransferTestCase "valid transfer" "sender" "new_admin" None;
    mkCancelAdminTransferTestCase "unauthorized" "notthesender" "new_admin" (Some EUnauthorized) ].
(* END *)
Example test_cancel_admin_transfer : failures ca_name check_cancel_transfer test_cancel_admin_transfer_cases = [].
Proof. vm_compute. reflexivity. Qed.
(** src/tests/test_auth.rs:156-236 *)
Record ClaimAdminTestCase := mkClaimAdminTestCase { cm_name : string; cm_sender : string; cm_new : option string; cm_error : option error }.
Definition check_claim_admin (c : ClaimAdminTestCase) : bool :=
  let '(s, r) := dispatch_claim_admin aenv (by_sender (cm_sender c)) (roles None (cm_new c) None None) in
  fails_with (cm_error c) r (eqb (s_admin s) None) (eqb (s_admin s) (cm_new c) && eqb (s_admin_offer s) None).
(* BEGIN tests/test_auth.rs test_claim_admin ClaimAdminTestCase *)
Definition test_claim_admin_cases : list ClaimAdminTestCase :=
  [ mkClaimAdminTestCase "valid claim" "new_admin" (Some "new_admin") None;
    mkClaimAdminTestCase "no offer" "new_admin" None (Some EUnauthorized);
    mkClaimAdminTestCase "unauthorized" "notthenewadmin" (Some "new_admin") (Some EUnauthorized) ].
(* END *)
Example test_claim_admin : failures cm_name check_claim_admin test_claim_admin_cases = [].
Proof. vm_compute. reflexivity. Qed.
(** src/tests/test_auth.rs:238-333 *)
Record RejectAdminTransferTestCase := mkRejectAdminTransferTestCase { ra_name : string; ra_sender : string; ra_new : option string; ra_error : option error }.
Definition check_reject (c : RejectAdminTransferTestCase) : bool :=
  let '(s, r) := dispatch_reject_admin_transfer (by_sender (ra_sender c)) (roles (Some "current_admin") (ra_new c) None None) in
  eqb (s_admin s) (Some "current_admin") && fails_with (ra_error c) r (eqb (s_admin_offer s) (ra_new c)) (eqb (s_admin_offer s) None).
(* BEGIN tests/test_auth.rs test_reject_admin_transfer RejectAdminTransferTestCase *)
Definition test_reject_admin_transfer_cases : list RejectAdminTransferTestCase :=
  [ mkRejectAdminTransferTestCase "valid rejection" "new_admin" (Some "new_admin") None;
    mkRejectAdminTransferTestCase "no offer" "new_admin" None (Some EUnauthorized);
    mkRejectAdminTransferTestCase "unauthorized" "notthenewadmin" (Some "new_admin") (Some EUnauthorized) ].
(* END *)
Example test_reject_admin_transfer : failures ra_name check_reject test_reject_admin_transfer_cases = [].
Proof. vm_compute. reflexivity. Qed.
(** src/tests/test_auth.rs:335-401 *)
Record RenounceAdminshipTestCase := mkRenounceAdminshipTestCase { rn_name : string; rn_sender : string; rn_error : option error }.
Definition check_renounce (c : RenounceAdminshipTestCase) : bool :=
  let '(s, r) := dispatch_renounce_adminship (by_sender (rn_sender c)) (roles (Some "current_admin") None None None) in
  fails_with (rn_error c) r (eqb (s_admin s) (Some "current_admin")) (eqb (s_admin s) None).
(* BEGIN tests/test_auth.rs test_renounce_adminship RenounceAdminshipTestCase *)
Definition test_renounce_adminship_cases : list RenounceAdminshipTestCase :=
  [ mkRenounceAdminshipTestCase "valid renouncement" "current_admin" None;
    mkRenounceAdminshipTestCase "unauthorized" "notthenewadmin" (Some EUnauthorized) ].
(* END *)
Example test_renounce_adminship : failures rn_name check_renounce test_renounce_adminship_cases = [].
Proof. vm_compute. reflexivity. Qed.
(** src/tests/test_auth.rs:405-481 *)
Record OfferModeratorTestCase := mkOfferModeratorTestCase { om_name : string; om_sender : string; om_new : string; om_error : option error }.
Definition check_offer_moderator (c : OfferModeratorTestCase) : bool :=
  let '(s, r) := dispatch_offer_moderator aenv (by_sender (om_sender c)) (om_new c) (roles (Some "current_admin") None (Some "current_moderator") None) in
  fails_with (om_error c) r (eqb (s_moderator_offer s) None) (eqb (s_moderator_offer s) (Some (om_new c))).
(* BEGIN tests/test_auth.rs test_offer_moderator OfferModeratorTestCase *)
Definition test_offer_moderator_cases : list OfferModeratorTestCase :=
  [ mkOfferModeratorTestCase "valid offer" "current_admin" "new_admin" None;
    mkOfferModeratorTestCase "unauthorized" "nottheadmin" "new_admin" (Some EUnauthorized);
    mkOfferModeratorTestCase "unauthorized current moderator" "current_moderator" "new_admin" (Some EUnauthorized) ].
(* END *)
Example test_offer_moderator : failures om_name check_offer_moderator test_offer_moderator_cases = [].
Proof. vm_compute. reflexivity. Qed.
(** src/tests/test_auth.rs:483-577 *)
Record RejectModeratorOfferTestCase := mkRejectModeratorOfferTestCase { rmo_name : string; rmo_sender : string; rmo_new : option string; rmo_error : option error }.
Definition check_reject_moderator (c : RejectModeratorOfferTestCase) : bool :=
  let '(s, r) := dispatch_reject_moderator_offer (by_sender (rmo_sender c)) (roles None None (Some "current_moderator") (rmo_new c)) in
  eqb (s_moderator s) (Some "current_moderator") && fails_with (rmo_error c) r (eqb (s_moderator_offer s) (rmo_new c)) (eqb (s_moderator_offer s) None).
(* BEGIN tests/test_auth.rs test_reject_moderator_offer RejectModeratorOfferTestCase *)
Definition test_reject_moderator_offer_cases : list RejectModeratorOfferTestCase :=
  [ mkRejectModeratorOfferTestCase "valid rejection" "new_moderator" (Some "new_moderator") None;
    mkRejectModeratorOfferTestCase "no offer" "new_moderator" None (Some EUnauthorized);
    mkRejectModeratorOfferTestCase "unauthorized" "notthenewmoderator" (Some "new_moderator") (Some EUnauthorized) ].
(* END *)
Example test_reject_moderator_offer : failures rmo_name check_reject_moderator test_reject_moderator_offer_cases = [].
Proof. vm_compute. reflexivity. Qed.
(** src/tests/test_auth.rs:579-673 *)
Record ClaimModeratorTestCase := mkClaimModeratorTestCase { cmo_name : string; cmo_sender : string; cmo_new : option string; cmo_error : option error }.
Definition check_claim_moderator (c : ClaimModeratorTestCase) : bool :=
  let '(s, r) := dispatch_claim_moderator aenv (by_sender (cmo_sender c)) (roles None None (Some "current_moderator") (cmo_new c)) in
  fails_with (cmo_error c) r (eqb (s_moderator s) (Some "current_moderator") && eqb (s_moderator_offer s) (cmo_new c))
    (eqb (s_moderator s) (cmo_new c) && eqb (s_moderator_offer s) None).
(* BEGIN tests/test_auth.rs test_claim_moderator ClaimModeratorTestCase *)
Definition test_claim_moderator_cases : list ClaimModeratorTestCase :=
  [ mkClaimModeratorTestCase "valid rejection" "new_moderator" (Some "new_moderator") None;
    mkClaimModeratorTestCase "no offer" "new_moderator" None (Some EUnauthorized);
    mkClaimModeratorTestCase "unauthorized" "notthenewmoderator" (Some "new_moderator") (Some EUnauthorized) ].
(* END *)
Example test_claim_moderator : failures cmo_name check_claim_moderator test_claim_moderator_cases = [].
Proof. vm_compute. reflexivity. Qed.
(** src/tests/test_auth.rs:675-776 *)
Record SetActiveTestCase := mkSetActiveTestCase { sa_name : string; sa_sender : string; sa_now : bool; sa_new : bool; sa_error : option error }.
Definition check_set_active (c : SetActiveTestCase) : bool :=
  let s0 := fst (set_active (sa_now c) (roles (Some "current_admin") None (Some "current_moderator") None)) in
  let '(s, r) := execute aenv (by_sender (sa_sender c)) (AuthMsg (SetActive (sa_new c))) s0 in
  fails_with (sa_error c) r true (eqb (s_active s) (Some (sa_new c))).
(* BEGIN tests/test_auth.rs test_set_active SetActiveTestCase *)
Definition test_set_active_cases : list SetActiveTestCase :=
  [ mkSetActiveTestCase "valid admin set active: true -> false" "current_admin" true false None;
    mkSetActiveTestCase "valid admin set active: false -> true" "current_admin" false true None;
    mkSetActiveTestCase "valid moderator set active: true -> false" "current_moderator" true false None;
    mkSetActiveTestCase "valid moderator set active: false -> true" "current_moderator" false true None;
    mkSetActiveTestCase "unauthorized" "notadminormoderator" true false (Some EUnauthorized) ].
(* END *)
Example test_set_active : failures sa_name check_set_active test_set_active_cases = [].
Proof. vm_compute. reflexivity. Qed.
(** src/tests/test_auth.rs:778-863: the four role queries *)
Example test_get_roles :
  let ask q s := match query s (QAuth q) with Ok (AAddress a) => Some a | _ => None end in
  [ ask QAdmin (roles (Some "admin") None None None); ask QAdminOffer (roles None None None None);
    ask QAdminOffer (roles None (Some "admin") None None); ask QModerator (roles None None (Some "mod") None);
    ask QAdminOffer (roles None None None None); ask QModeratorOffer (roles None None None (Some "moderator")) ]
  = [ Some (Some "admin"); Some None; Some (Some "admin"); Some (Some "mod"); Some None; Some (Some "moderator") ].
Proof. vm_compute. reflexivity. Qed.
(** src/tests/test_auth.rs:865-955 *)
Record SetMakerFeeTestCase := mkSetMakerFeeTestCase { mf_name : string; mf_sender : string; mf_fee : Z; mf_error : option error }.
Definition check_fee (c : SetMakerFeeTestCase) : bool :=
  let '(s, r) := execute aenv (by_sender (mf_sender c)) (AuthMsg (SetMakerFee (mf_fee c))) (roles (Some "admin") None (Some "moderator") None) in
  fails_with (mf_error c) r (eqb (s_fee s) None) (get_maker_fee s =? mf_fee c).
(* BEGIN tests/test_auth.rs test_set_maker_fee SetMakerFeeTestCase *)
Definition test_set_maker_fee_cases : list SetMakerFeeTestCase :=
  [ mkSetMakerFeeTestCase "valid fee set by moderator" "moderator" 10000000000000000 (Some EUnauthorized);
    mkSetMakerFeeTestCase "valid fee set by admin" "admin" 10000000000000000 None;
    mkSetMakerFeeTestCase "valid zero fee" "admin" 0 None;
    mkSetMakerFeeTestCase "invalid fee set by unauthorized user" "user" 0 (Some EUnauthorized);
    mkSetMakerFeeTestCase "fee above maximum" "admin" 60000000000000000 (Some EInvalidMakerFee) ].
(* END *)
Example test_set_maker_fee : failures mf_name check_fee test_set_maker_fee_cases = [].
Proof. vm_compute. reflexivity. Qed.
(** src/tests/test_auth.rs:957-1045 *)
Record SetMakerFeeRecipientTestCase := mkSetMakerFeeRecipientTestCase { fr_name : string; fr_sender : string; fr_recipient : string; fr_error : option error }.
Definition check_recipient (c : SetMakerFeeRecipientTestCase) : bool :=
  let '(s, r) := execute aenv (by_sender (fr_sender c)) (AuthMsg (SetMakerFeeRecipient (fr_recipient c))) (roles (Some "admin") None (Some "moderator") None) in
  fails_with (fr_error c) r (eqb (s_recipient s) None) (eqb (s_recipient s) (Some (fr_recipient c))).
(* BEGIN tests/test_auth.rs test_set_maker_fee_recipient SetMakerFeeRecipientTestCase *)
Definition test_set_maker_fee_recipient_cases : list SetMakerFeeRecipientTestCase :=
  [ mkSetMakerFeeRecipientTestCase "valid set by admin" "admin" "fee_recipient" None;
    mkSetMakerFeeRecipientTestCase "invalid set by moderator" "moderator" "fee_recipient" (Some EUnauthorized);
    mkSetMakerFeeRecipientTestCase "invalid set by unauthorized user" "user" "fee_recipient" (Some EUnauthorized);
    mkSetMakerFeeRecipientTestCase "invalid recipient" "admin" "0" (Some EInvalidMakerFeeRecipient) ].
(* END *)
Example test_set_maker_fee_recipient : failures fr_name check_recipient test_set_maker_fee_recipient_cases = [].
Proof. vm_compute. reflexivity. Qed.
