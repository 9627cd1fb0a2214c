(** * Auth: src/auth.rs (and the two setters of src/orderbook.rs it uses) *)
From Verif Require Import Base Dec Types State Order.

(** src/msg.rs:37-56 AuthExecuteMsg *)
Inductive auth_msg : Type :=
| TransferAdmin (new_admin : string)
| CancelAdminTransfer
| RejectAdminTransfer
| ClaimAdmin
| RenounceAdminship
| OfferModerator (new_moderator : string)
| RejectModeratorOffer
| ClaimModerator
| SetActive (active : bool)
| SetMakerFee (fee : Z)
| SetMakerFeeRecipient (recipient : string).

Definition resp_attrs (l : list (string * attr)) : response := mkResp l [] [] None.

(** Api::addr_validate as a result. *)
Definition addr_validate (e : env) (a : string) : res unit := rensure (e_addr_valid e a) EStd.

(** src/auth.rs:342-356 ensure_is_admin *)
Definition ensure_is_admin (sender : string) : M storage unit :=
  let! a := mread s_admin in
  mensure (bool_decide (a = Some sender)) EUnauthorized.

(** src/auth.rs:358-379 ensure_is_admin_or_moderator *)
Definition ensure_is_admin_or_moderator (sender : string) : M storage unit :=
  let! m := mread s_moderator in
  let! a := mread s_admin in
  mensure (bool_decide (m = Some sender) || bool_decide (a = Some sender)) EUnauthorized.

(** src/auth.rs:159-168 offer_admin *)
Definition offer_admin (e : env) (a : string) : M storage unit :=
  let! _ := mlift (addr_validate e a) in mmod (set_admin_offer (Some a)).
(** src/auth.rs:170-173 remove_admin_transfer *)
Definition remove_admin_transfer : M storage unit := mmod (set_admin_offer None).
(** src/auth.rs:175-184 update_admin *)
Definition update_admin (e : env) (a : string) : M storage unit :=
  let! _ := mlift (addr_validate e a) in mmod (set_admin (Some a)).
(** src/auth.rs:186-189 remove_admin *)
Definition remove_admin : M storage unit := mmod (set_admin None).
(** src/auth.rs:252-261 offer_moderator *)
Definition offer_moderator (e : env) (a : string) : M storage unit :=
  let! _ := mlift (addr_validate e a) in mmod (set_moderator_offer (Some a)).
(** src/auth.rs:263-266 remove_moderator_offer *)
Definition remove_moderator_offer : M storage unit := mmod (set_moderator_offer None).
(** src/auth.rs:268-277 update_moderator *)
Definition update_moderator (e : env) (a : string) : M storage unit :=
  let! _ := mlift (addr_validate e a) in mmod (set_moderator (Some a)).

(** src/auth.rs:86-100 dispatch_transfer_admin *)
Definition dispatch_transfer_admin (e : env) (i : info) (a : string) : M storage response :=
  let! _ := ensure_is_admin (i_sender i) in
  let! _ := offer_admin e a in
  mret (resp_attrs [("method", AStr "transfer_admin"); ("new_admin", AStr a)]).
(** src/auth.rs:102-114 dispatch_cancel_admin_transfer *)
Definition dispatch_cancel_admin_transfer (i : info) : M storage response :=
  let! _ := ensure_is_admin (i_sender i) in
  let! _ := remove_admin_transfer in
  mret (resp_attrs [("method", AStr "cancel_transfer_admin")]).
(** src/auth.rs:116-130 dispatch_claim_admin *)
Definition dispatch_claim_admin (e : env) (i : info) : M storage response :=
  let! offer := mread s_admin_offer in
  let! _ := mensure (bool_decide (Some (i_sender i) = offer)) EUnauthorized in
  let! _ := update_admin e (i_sender i) in
  let! _ := remove_admin_transfer in
  mret (resp_attrs [("method", AStr "claim_admin")]).
(** src/auth.rs:132-145 dispatch_reject_admin_transfer *)
Definition dispatch_reject_admin_transfer (i : info) : M storage response :=
  let! offer := mread s_admin_offer in
  let! _ := mensure (bool_decide (Some (i_sender i) = offer)) EUnauthorized in
  let! _ := remove_admin_transfer in
  mret (resp_attrs [("method", AStr "reject_admin_transfer")]).
(** src/auth.rs:147-157 dispatch_renounce_adminship *)
Definition dispatch_renounce_adminship (i : info) : M storage response :=
  let! _ := ensure_is_admin (i_sender i) in
  let! _ := remove_admin in
  mret (resp_attrs [("method", AStr "renounce_adminship")]).
(** src/auth.rs:201-218 dispatch_offer_moderator *)
Definition dispatch_offer_moderator (e : env) (i : info) (a : string) : M storage response :=
  let! _ := ensure_is_admin (i_sender i) in
  let! _ := offer_moderator e a in
  mret (resp_attrs [("method", AStr "offer_moderator"); ("new_moderator", AStr a)]).
(** src/auth.rs:220-236 dispatch_claim_moderator *)
Definition dispatch_claim_moderator (e : env) (i : info) : M storage response :=
  let! offer := mread s_moderator_offer in
  let! _ := mensure (bool_decide (Some (i_sender i) = offer)) EUnauthorized in
  let! _ := update_moderator e (i_sender i) in
  let! _ := remove_moderator_offer in
  mret (resp_attrs [("method", AStr "claim_moderator")]).
(** src/auth.rs:238-250 dispatch_reject_moderator_offer *)
Definition dispatch_reject_moderator_offer (i : info) : M storage response :=
  let! offer := mread s_moderator_offer in
  let! _ := mensure (bool_decide (Some (i_sender i) = offer)) EUnauthorized in
  let! _ := remove_moderator_offer in
  mret (resp_attrs [("method", AStr "reject_moderator_offer")]).

(** src/sudo.rs:251-260 set_active *)
Definition set_active (active : bool) : M storage response :=
  let! _ := mmod (set_active_item active) in
  mret (resp_attrs [("method", AStr "set_active"); ("active", ABool active)]).

(** src/auth.rs:289-300 dispatch_set_active *)
Definition dispatch_set_active (i : info) (active : bool) : M storage response :=
  let! _ := ensure_is_admin_or_moderator (i_sender i) in
  set_active active.

(** src/orderbook.rs:41-52 set_maker_fee *)
Definition set_maker_fee (fee : Z) : M storage Z :=
  let! _ := mensure (fee <=? MAX_MAKER_FEE_PERCENTAGE) EInvalidMakerFee in
  let! _ := mmod (set_fee fee) in
  mret fee.

(** src/auth.rs:302-318 dispatch_set_maker_fee *)
Definition dispatch_set_maker_fee (i : info) (fee : Z) : M storage response :=
  let! _ := ensure_is_admin (i_sender i) in
  let! f := set_maker_fee fee in
  mret (resp_attrs [("method", AStr "set_maker_fee"); ("maker_fee", ADec f)]).

(** src/auth.rs:320-340 dispatch_set_maker_fee_recipient *)
Definition dispatch_set_maker_fee_recipient (e : env) (i : info) (a : string) : M storage response :=
  let! _ := ensure_is_admin (i_sender i) in
  let! _ := mensure (e_addr_valid e a) EInvalidMakerFeeRecipient in
  let! _ := mmod (set_recipient a) in
  mret (resp_attrs [("method", AStr "set_maker_fee_recipient"); ("maker_fee_recipient", AStr a)]).

(** src/auth.rs:17-65 dispatch *)
Definition auth_dispatch (e : env) (i : info) (m : auth_msg) : M storage response :=
  match m with
  | TransferAdmin a => dispatch_transfer_admin e i a
  | CancelAdminTransfer => dispatch_cancel_admin_transfer i
  | RejectAdminTransfer => dispatch_reject_admin_transfer i
  | ClaimAdmin => dispatch_claim_admin e i
  | RenounceAdminship => dispatch_renounce_adminship i
  | OfferModerator a => dispatch_offer_moderator e i a
  | RejectModeratorOffer => dispatch_reject_moderator_offer i
  | ClaimModerator => dispatch_claim_moderator e i
  | SetActive b => dispatch_set_active i b
  | SetMakerFee f => dispatch_set_maker_fee i f
  | SetMakerFeeRecipient a => dispatch_set_maker_fee_recipient e i a
  end.

(** src/msg.rs:151-158 AuthQueryMsg, src/auth.rs:67-79 query *)
Inductive auth_query : Type := QAdmin | QAdminOffer | QModerator | QModeratorOffer.
Definition auth_query_run (s : storage) (q : auth_query) : option string :=
  match q with
  | QAdmin => s_admin s
  | QAdminOffer => s_admin_offer s
  | QModerator => s_moderator s
  | QModeratorOffer => s_moderator_offer s
  end.
