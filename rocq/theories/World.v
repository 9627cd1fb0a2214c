(** * World: the chain around the contract.

    Not in /repo; the behaviour of wasmd / the bank module / the Osmosis
    cosmwasmpool module assumed here is part of the trusted base:
    - a transaction is atomic: if the entry point errs or panics, or a bank transfer it
      emitted fails, nothing happens.  (A failed transfer triggers [reply] because all
      sub-messages are reply_on_error; [reply] then errs, src/contract.rs:176-186, which
      fails the transaction.)
    - funds attached to an execute message are credited to the contract first;
    - the pool module transfers token_in from the swapper to the contract before it calls
      sudo SwapExactAmountIn / SwapToTick / SwapExactAmountOut(not reached);
    - a bank transfer of amount zero, above the balance, or to a blocked address fails. *)
From Verif Require Import Base Dec Types State TickMath Sumtree Tick Order Auth Contract.

Record world : Type := mkWorld {
  w_self : string;             (* address of the contract *)
  w_st : storage;              (* its storage *)
  w_bal : gmap string Z        (* its bank balances *)
}.
Definition balance (w : world) (denom : string) : Z := unwrap_or (w_bal w !! denom) 0.
Definition bal_get (b : gmap string Z) (denom : string) : Z := unwrap_or (b !! denom) 0.

Definition credit (b : gmap string Z) (c : coin) : gmap string Z :=
  <[c_denom c := bal_get b (c_denom c) + c_amount c]> b.
Definition credits (b : gmap string Z) (l : list coin) : gmap string Z := foldl credit b l.

(** One bank transfer out of the contract. *)
Definition send1 (e : env) (self : string) (b : gmap string Z) (m : submsg) : option (gmap string Z) :=
  let c := sm_coin m in
  if (0 <? c_amount c) && (c_amount c <=? bal_get b (c_denom c)) && e_bank_ok e (sm_to m)
  then Some (if bool_decide (sm_to m = self) then b
             else <[c_denom c := bal_get b (c_denom c) - c_amount c]> b)
  else None.
(** Sub-messages in order; a failed one is fed to [reply], whose error aborts
    (the bank's error text does not matter and is left empty). *)
Fixpoint sends (e : env) (self : string) (b : gmap string Z) (l : list submsg)
  : option (gmap string Z) :=
  match l with
  | [] => Some b
  | m :: l => match send1 e self b m with
              | Some b' => sends e self b' l
              | None => match reply (sm_reply m) (Some "") st_empty with
                        | (_, Ok _) => sends e self b l
                        | _ => None
                        end
              end
  end.

(** What can happen to the contract. *)
Inductive call : Type :=
| CExec (i : info) (m : exec_msg)       (* MsgExecuteContract *)
| CSudo (m : sudo_msg)                  (* called by the chain *)
| CMigrate                              (* MsgMigrateContract *)
| CDonate (c : coin).                   (* anybody sends coins to the contract address *)

Inductive outcome : Type := Done (r : response) | Failed.

(** Funds moved to the contract before the entry point runs. *)
Definition call_funds (c : call) : list coin :=
  match c with
  | CExec i _ => i_funds i
  | CSudo (SwapExactAmountIn _ tin _ _ _) => [tin]
  | CSudo (SwapToTick _ tin _ _ _ _) => [tin]
  | CSudo _ => []
  | CMigrate => []
  | CDonate c => [c]
  end.
Definition call_run (e : env) (c : call) : M storage response :=
  match c with
  | CExec i m => execute e i m
  | CSudo m => sudo e m
  | CMigrate => migrate
  | CDonate _ => mret resp_default
  end.

(** One transaction. *)
Definition step (e : env) (w : world) (c : call) : world * outcome :=
  let b := credits (w_bal w) (call_funds c) in
  match call_run e c (w_st w) with
  | (s', Ok r) =>
      match sends e (w_self w) b (r_msgs r) with
      | Some b' => (mkWorld (w_self w) s' b', Done r)
      | None => (w, Failed)
      end
  | _ => (w, Failed)
  end.

(** Rust-typed arguments. *)
Definition u128 (x : Z) : bool := (0 <=? x) && (x <=? U128_MAX).
Definition u64 (x : Z) : bool := (0 <=? x) && (x <=? U64_MAX).
Definition i64 (x : Z) : bool := (- 2 ^ 63 <=? x) && (x <? 2 ^ 63).
Definition u256 (x : Z) : bool := (0 <=? x) && (x <=? U256_MAX).
Definition coin_typed (c : coin) : bool := u128 (c_amount c).
Definition opt_typed (f : Z -> bool) (o : option Z) : bool :=
  match o with Some x => f x | None => true end.
Definition exec_typed (m : exec_msg) : bool :=
  match m with
  | PlaceLimit t _ q b => i64 t && u128 q && opt_typed u256 b
  | CancelLimit t i => i64 t && u64 i
  | ClaimLimit t i => i64 t && u64 i
  | BatchClaim l => forallb (fun p => i64 p.1 && u64 p.2) l
  | AuthMsg (SetMakerFee f) => u256 f
  | AuthMsg _ => true
  end.
Definition sudo_typed (m : sudo_msg) : bool :=
  match m with
  | SwapExactAmountIn _ tin _ min fee => coin_typed tin && u128 min && u128 fee
  | SwapToTick _ tin _ min fee t => coin_typed tin && u128 min && u128 fee && i64 t
  | SwapExactAmountOut _ _ mx tout fee => u128 mx && coin_typed tout && u128 fee
  | _ => true
  end.
(** Who pays: the contract never calls itself, so it is never the funding sender. *)
Definition payer_ok (self : string) (c : call) : bool :=
  match c with
  | CExec i _ => negb (bool_decide (i_sender i = self))
  | CSudo (SwapExactAmountIn s _ _ _ _) => negb (bool_decide (s = self))
  | CSudo (SwapToTick s _ _ _ _ _) => negb (bool_decide (s = self))
  | _ => true
  end.
Definition call_ok (self : string) (c : call) : bool :=
  payer_ok self c &&
  match c with
  | CExec i m => forallb coin_typed (i_funds i) && exec_typed m
  | CSudo m => sudo_typed m
  | CMigrate => true
  | CDonate c => coin_typed c
  end.

(** The world right after a successful instantiate (with any funds attached). *)
Definition init_world (e : env) (self quote base : string) (funds : list coin) : option world :=
  match instantiate e quote base st_empty with
  | (s, Ok _) => Some (mkWorld self s (credits ∅ funds))
  | _ => None
  end.

(** Run a history of (environment, call) pairs. *)
Fixpoint run (w : world) (h : list (env * call)) : world :=
  match h with
  | [] => w
  | (e, c) :: h => run (fst (step e w c)) h
  end.

(** Reachable worlds: any instantiation, any history of well-typed calls. *)
Definition reachable (w : world) : Prop :=
  exists e self quote base funds w0 h,
    init_world e self quote base funds = Some w0 /\
    forallb coin_typed funds = true /\
    Forall (fun ec => call_ok self (snd ec) = true) h /\
    run w0 h = w.
