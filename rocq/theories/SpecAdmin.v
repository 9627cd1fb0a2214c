(** * SpecAdmin: who may send which administration message, and what it does. *)
From Verif Require Import Base Dec Types State Order Auth Contract World SpecMath Spec SpecProps.

(** Roles. *)
Definition is_admin (s : storage) (x : string) : Prop := s_admin s = Some x.
Definition is_moderator (s : storage) (x : string) : Prop := s_moderator s = Some x.
(** The highest maker fee: 5%. *)
Definition five_percent : Z := 5 * 10 ^ 16.
Definition one_percent : Z := 10 ^ 16.

(** Permission of [x] to send Auth message [m]. *)
Definition may (e : env) (s : storage) (x : string) (m : auth_msg) : Prop :=
  match m with
  | TransferAdmin a => is_admin s x /\ e_addr_valid e a = true
  | CancelAdminTransfer => is_admin s x
  | RejectAdminTransfer => s_admin_offer s = Some x
  | ClaimAdmin => s_admin_offer s = Some x /\ e_addr_valid e x = true
  | RenounceAdminship => is_admin s x
  | OfferModerator a => is_admin s x /\ e_addr_valid e a = true
  | RejectModeratorOffer => s_moderator_offer s = Some x
  | ClaimModerator => s_moderator_offer s = Some x /\ e_addr_valid e x = true
  | SetActive _ => is_admin s x \/ is_moderator s x
  | SetMakerFee f => is_admin s x /\ f <= five_percent
  | SetMakerFeeRecipient a => is_admin s x /\ e_addr_valid e a = true
  end.
(** Effect of the message: (switch, fee, recipient, admin, admin offer, moderator, moderator offer). *)
Definition effect (s : storage) (x : string) (m : auth_msg) :=
  let ac := s_active s in let fe := s_fee s in let re := s_recipient s in
  let ad := s_admin s in let ao := s_admin_offer s in let mo := s_moderator s in let mf := s_moderator_offer s in
  match m with
  | TransferAdmin a        => (ac, fe, re, ad, Some a, mo, mf)
  | CancelAdminTransfer    => (ac, fe, re, ad, None, mo, mf)
  | RejectAdminTransfer    => (ac, fe, re, ad, None, mo, mf)
  | ClaimAdmin             => (ac, fe, re, Some x, None, mo, mf)
  | RenounceAdminship      => (ac, fe, re, None, ao, mo, mf)
  | OfferModerator a       => (ac, fe, re, ad, ao, mo, Some a)
  | RejectModeratorOffer   => (ac, fe, re, ad, ao, mo, None)
  | ClaimModerator         => (ac, fe, re, ad, ao, Some x, None)
  | SetActive b            => (Some b, fe, re, ad, ao, mo, mf)
  | SetMakerFee f          => (ac, Some f, re, ad, ao, mo, mf)
  | SetMakerFeeRecipient a => (ac, fe, Some a, ad, ao, mo, mf)
  end.
(** Permission and effect of the chain's three role/switch messages. *)
Definition chain_may (e : env) (s : storage) (m : sudo_msg) : Prop :=
  match m with
  | SudoTransferAdmin a => active s = true /\ e_addr_valid e a = true
  | SudoRemoveAdmin | SudoSetActive _ => active s = true
  | _ => False
  end.
Definition chain_effect (s : storage) (m : sudo_msg) :=
  let ac := s_active s in let fe := s_fee s in let re := s_recipient s in
  let ad := s_admin s in let ao := s_admin_offer s in let mo := s_moderator s in let mf := s_moderator_offer s in
  match m with
  | SudoTransferAdmin a => (ac, fe, re, Some a, ao, mo, mf)
  | SudoRemoveAdmin     => (ac, fe, re, None, ao, mo, mf)
  | SudoSetActive b     => (Some b, fe, re, ad, ao, mo, mf)
  | _                   => admin_data s
  end.
Definition is_role_sudo (m : sudo_msg) : bool :=
  match m with SudoTransferAdmin _ | SudoRemoveAdmin | SudoSetActive _ => true | _ => false end.

(** Everything except the administration data: orders, ticks, cancellation trees, totals, ids. *)
Definition trading_data (s : storage) :=
  (s_order_id s, s_orderbook s, s_ticks s, s_dirliq s, s_orders s, s_nodes s, s_nodectr s, s_tree s).

(** Calls. *)
Definition c_auth (x : string) (m : auth_msg) : call := CExec (mkInfo x []) (AuthMsg m).
Definition is_auth (m : exec_msg) : bool := match m with AuthMsg _ => true | _ => false end.
Definition administers (c : call) : bool :=
  match c with CExec _ (AuthMsg _) => true | CSudo m => is_role_sudo m | _ => false end.
(** The sender of an Auth message. *)
Definition auth_by (x : string) (c : call) : bool :=
  match c with CExec i (AuthMsg _) => bool_decide (i_sender i = x) | _ => false end.
Definition is_sudo_transfer (c : call) : bool := match c with CSudo (SudoTransferAdmin _) => true | _ => false end.
Definition is_sudo_admin (c : call) : bool := match c with CSudo (SudoTransferAdmin _) | CSudo SudoRemoveAdmin => true | _ => false end.
Definition switches_on (c : call) : bool :=
  match c with CExec _ (AuthMsg (SetActive true)) => true | _ => false end.
