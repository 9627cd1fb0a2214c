(** * SpecSettings: every setting is what the last successful call that concerns it said. *)
From Verif Require Import Base Dec Types State Order Auth Contract World SpecMath Spec SpecProps.

(** What a call says about each setting ([None]: nothing). *)
Definition says_active (c : call) : option bool :=
  match c with CExec _ (AuthMsg (SetActive b)) | CSudo (SudoSetActive b) => Some b | _ => None end.
Definition says_fee (c : call) : option Z :=
  match c with CExec _ (AuthMsg (SetMakerFee f)) => Some f | _ => None end.
Definition says_recipient (c : call) : option string :=
  match c with CExec _ (AuthMsg (SetMakerFeeRecipient a)) => Some a | _ => None end.
(** The admin is whoever claimed an offer last or was put in by the chain; nobody after a renouncement. *)
Definition says_admin (c : call) : option (option string) :=
  match c with
  | CExec i (AuthMsg ClaimAdmin) => Some (Some (i_sender i))
  | CExec _ (AuthMsg RenounceAdminship) => Some None
  | CSudo (SudoTransferAdmin a) => Some (Some a)
  | CSudo SudoRemoveAdmin => Some None
  | _ => None
  end.
(** A pending offer lasts until it is replaced, cancelled, rejected or claimed. *)
Definition says_admin_offer (c : call) : option (option string) :=
  match c with
  | CExec _ (AuthMsg (TransferAdmin a)) => Some (Some a)
  | CExec _ (AuthMsg (CancelAdminTransfer | RejectAdminTransfer | ClaimAdmin)) => Some None
  | _ => None
  end.
Definition says_moderator (c : call) : option (option string) :=
  match c with CExec i (AuthMsg ClaimModerator) => Some (Some (i_sender i)) | _ => None end.
Definition says_moderator_offer (c : call) : option (option string) :=
  match c with
  | CExec _ (AuthMsg (OfferModerator a)) => Some (Some a)
  | CExec _ (AuthMsg (RejectModeratorOffer | ClaimModerator)) => Some None
  | _ => None
  end.

(** Calls of a history that succeeded, in order. *)
Fixpoint successes (w : world) (h : list (env * call)) : list call :=
  match h with
  | [] => []
  | (e, c) :: h => match snd (step e w c) with Done _ => [c] | Failed => [] end ++ successes (fst (step e w c)) h
  end.
(** The last thing said, or the initial value. *)
Fixpoint last_said {A} (says : call -> option A) (initially : A) (l : list call) : A :=
  match l with
  | [] => initially
  | c :: l => last_said says (match says c with Some x => x | None => initially end) l
  end.
