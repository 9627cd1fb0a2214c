(** * SpecNames: vocabulary of property C52: other names for accounts ([p]) and tokens ([d]). *)
From Verif Require Import Base Dec Types State Order Auth Contract World SpecMath.

Definition name_coin (d : string -> string) (c : coin) : coin := mkCoin (d (c_denom c)) (c_amount c).
Definition name_info (p d : string -> string) (i : info) : info := mkInfo (p (i_sender i)) (map (name_coin d) (i_funds i)).
Definition name_auth (p : string -> string) (m : auth_msg) : auth_msg :=
  match m with
  | TransferAdmin a => TransferAdmin (p a)
  | OfferModerator a => OfferModerator (p a)
  | SetMakerFeeRecipient a => SetMakerFeeRecipient (p a)
  | m => m
  end.
Definition name_sudo (p d : string -> string) (m : sudo_msg) : sudo_msg :=
  match m with
  | SwapExactAmountIn s tin out mn fee => SwapExactAmountIn (p s) (name_coin d tin) (d out) mn fee
  | SwapToTick s tin out mn fee t => SwapToTick (p s) (name_coin d tin) (d out) mn fee t
  | SwapExactAmountOut s tin mx tout fee => SwapExactAmountOut (p s) (d tin) mx (name_coin d tout) fee
  | SudoTransferAdmin a => SudoTransferAdmin (p a)
  | m => m
  end.
Definition name_call (p d : string -> string) (c : call) : call :=
  match c with
  | CExec i (AuthMsg m) => CExec (name_info p d i) (AuthMsg (name_auth p m))
  | CExec i m => CExec (name_info p d i) m
  | CSudo m => CSudo (name_sudo p d m)
  | CMigrate => CMigrate
  | CDonate c => CDonate (name_coin d c)
  end.
(** The attributes that name an account or a token. *)
Definition account_keys : list string := ["owner"; "sender"; "new_admin"; "new_moderator"; "maker_fee_recipient"].
Definition token_keys : list string := ["order_denom"; "output_denom"; "token_out_denom"].
Definition has_key (k : string) (l : list string) : bool := existsb (String.eqb k) l.
Definition name_attr (p d : string -> string) (a : string * attr) : string * attr :=
  (a.1, match a.2 with
        | AStr x => if has_key a.1 account_keys then AStr (p x) else if has_key a.1 token_keys then AStr (d x) else AStr x
        | ACoin c => ACoin (name_coin d c)
        | v => v
        end).
Definition name_event (p d : string -> string) (ev : claim_event) : claim_event :=
  mkClaimEvent (p (ce_sender ev)) (ce_tick ev) (ce_id ev) (ce_quantity_remaining ev) (p (ce_owner ev)) (ce_dir ev) (ce_amount_claimed ev)
    (ce_placed_quantity ev) (ce_fully_claimed ev) (d (ce_order_denom ev)) (d (ce_output_denom ev)).
Definition name_send (p d : string -> string) (m : submsg) : submsg := mkSend (sm_reply m) (p (sm_to m)) (name_coin d (sm_coin m)).
Definition name_resp (p d : string -> string) (r : response) : response :=
  mkResp (map (name_attr p d) (r_attrs r)) (map (name_event p d) (r_events r)) (map (name_send p d) (r_msgs r)) (r_data r).
Definition name_outcome (p d : string -> string) (o : outcome) : outcome :=
  match o with Done r => Done (name_resp p d r) | Failed => Failed end.
(** Two environments treat an account and its other name alike: the same addresses are valid and the
    same recipients are blocked.  Their clocks and token supplies are arbitrary. *)
Definition same_rules (p : string -> string) (e e' : env) : Prop :=
  forall a, e_addr_valid e' (p a) = e_addr_valid e a /\ e_bank_ok e' (p a) = e_bank_ok e a.
(** The same history under other names. *)
Definition renamed (p d : string -> string) (h h' : list (env * call)) : Prop :=
  Forall2 (fun x x' => same_rules p (fst x) (fst x') /\ snd x' = name_call p d (snd x)) h h'.
Definition injective (f : string -> string) : Prop := forall a b, f a = f b -> a = b.
(** The addresses that the contract has built in (src/constants.rs:14-24: first admin, first moderator, first fee recipient). *)
Definition built_in : list string :=
  ["osmo1r9jc2234fljy93z80cevqjt3nmjycec8aj4cc6"; "osmo10d07y265gmmuvt4z0w9aw880jnsr700jjeq4qp";
   "osmo1peuxfjj66n2qt2v5jmqlvzz8neakjgduez7vttvemw58uug6546sr60ngl"].
