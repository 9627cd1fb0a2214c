(** * Base: result values and the storage-passing monad.

    All source paths in this development are relative to
    /repo/contracts/sumtree-orderbook/src (abbreviated src/). *)
From Coq Require Export ZArith Lia.
From stdpp Require Export base tactics gmap strings sorting numbers list.
Global Open Scope Z_scope.
Global Open Scope string_scope.
Global Open Scope list_scope.
Global Open Scope Z_scope.

(** Models src/error.rs:9-128 [ContractError].  The values a variant carries are
    kept; texts made of them are kept as the values they are made of ([swap_fault], and the
    old and new sum of [EInvalidPrefixSum]); the fixed text of [EInvalidSumtree] and the
    operands inside the wrapped library errors are dropped (simplification).
    The nine wrapper variants around library errors (Std, Overflow, Coins,
    PaymentError, ConversionOverflow, CheckedMultiplyRatio, CheckedFromRatio,
    DivideByZero, DecimalRangeExceeded; error.rs:11-37) are kept as one
    constructor each when the model can raise them. *)
(** cw_utils 1.0.3 payment.rs PaymentError *)
Inductive payment_fault : Type :=
| NoFunds | MultipleDenoms | MissingDenom (denom : string) | NonPayable.
(** The texts an InvalidSwap error is built with: order.rs:445-447 and 566-568, sudo.rs:119-121,
    149-151 (cannot occur: the message always carries one coin), 214-219, 224-229, 235-237, 246-250. *)
Inductive swap_fault : Type :=
| ZeroInput | ZeroStepInput | SameDenoms
| ExceededMax (expected received : Z) | BelowMin (expected received : Z) | WrongFee (expected received : Z).
Inductive error : Type :=
| EStd                       (* error.rs:12 StdError (missing key, bad address) *)
| EOverflow                  (* error.rs:15 *)
| EPayment (f : payment_fault)  (* error.rs:21 *)
| EConversion                (* error.rs:25 *)
| ECheckedFromRatio          (* error.rs:31 *)
| EDivideByZero              (* error.rs:34 *)
| EUnauthorized              (* error.rs:40 *)
| EInvalidTickId (tick : Z)  (* error.rs:43 *)
| EInvalidQuantity (quantity : Z)  (* error.rs:46 *)
| EInsufficientFunds (sent required : Z)  (* error.rs:49 *)
| EInvalidPair (token_in token_out : string)  (* error.rs:52 *)
| EInvalidSwap (f : swap_fault)  (* error.rs:58 *)
| EInvalidDenom (denom : string)  (* error.rs:61 *)
| EDuplicateDenoms           (* error.rs:64 *)
| EOrderNotFound (tick order : Z)  (* error.rs:67 *)
| EReplyError (id : Z) (text : string)  (* error.rs:70 *)
| ETickOutOfBounds (tick : Z)  (* error.rs:74 *)
| EInvalidNodeType           (* error.rs:80 *)
| EChildlessInternalNode     (* error.rs:83 *)
| ECancelFilledOrder         (* error.rs:86 *)
| EInvalidTickSync           (* error.rs:89 *)
| EInvalidPrefixSum (previous new : Z)  (* error.rs:92 *)
| EZeroClaim                 (* error.rs:95 *)
| ENodeInsertionError        (* error.rs:98 *)
| EInsufficientLiquidity     (* error.rs:101 *)
| EInvalidClaimBounty (bounty : option Z)  (* error.rs:104 *)
| EBatchClaimLimitExceeded (max : Z)  (* error.rs:109 *)
| EInactive                  (* error.rs:112 *)
| ENoMakerFeeRecipient       (* error.rs:118 *)
| EInvalidMakerFeeRecipient  (* error.rs:121 *)
| EInvalidMakerFee           (* error.rs:124 *)
| EInvalidSumtree.           (* error.rs:127 *)

(** Outcome of a Rust computation.  [Ok]/[Err] are [Result]; [Panic] is a panic
    (profile.release has panic = 'abort', Cargo.toml:6-14: the whole transaction
    aborts); [NoFuel] is an artefact of the model (recursion fuel exhausted) that
    the proofs show unreachable. *)
Inductive res (A : Type) : Type :=
| Ok (a : A)
| Err (e : error)
| Panic
| NoFuel.
Arguments Ok {A} _.
Arguments Err {A} _.
Arguments Panic {A}.
Arguments NoFuel {A}.

(** Rust's [?] on a pure [Result]. *)
Definition rbind {A B} (m : res A) (k : A -> res B) : res B :=
  match m with
  | Ok a => k a
  | Err e => Err e
  | Panic => Panic
  | NoFuel => NoFuel
  end.

Notation "'let?' x ':=' m 'in' k" := (rbind m (fun x => k))
  (at level 200, x pattern, m at level 100, k at level 200, only parsing).

(** cosmwasm_std::ensure! as a pure result. *)
Definition rensure (b : bool) (e : error) : res unit :=
  if b then Ok tt else Err e.

Definition is_ok {A} (r : res A) : bool :=
  match r with Ok _ => true | _ => false end.

(** Functions taking [&mut dyn Storage]: the storage is returned also on [Err],
    exactly as written so far (Rust does not roll back a swallowed error). *)
Definition M (S A : Type) : Type := S -> S * res A.

Definition mret {S A} (a : A) : M S A := fun s => (s, Ok a).
Definition merr {S A} (e : error) : M S A := fun s => (s, Err e).
Definition mbindM {S A B} (m : M S A) (k : A -> M S B) : M S B :=
  fun s => match m s with
           | (s', Ok a) => k a s'
           | (s', Err e) => (s', Err e)
           | (s', Panic) => (s', Panic)
           | (s', NoFuel) => (s', NoFuel)
           end.
(** Read the whole storage. *)
Definition mget {S} : M S S := fun s => (s, Ok s).
(** Read something from the storage. *)
Definition mread {S A} (f : S -> A) : M S A := fun s => (s, Ok (f s)).
(** Read-only computation that may fail ([&dyn Storage]). *)
Definition mreadr {S A} (f : S -> res A) : M S A := fun s => (s, f s).
(** Write. *)
Definition mmod {S} (f : S -> S) : M S unit := fun s => (f s, Ok tt).
(** Pure computation that may fail. *)
Definition mlift {S A} (r : res A) : M S A := fun s => (s, r).
Definition mensure {S} (b : bool) (e : error) : M S unit := mlift (rensure b e).

Notation "'let!' x ':=' m 'in' k" := (mbindM m (fun x => k))
  (at level 200, x pattern, m at level 100, k at level 200, only parsing).

(** Turn an [Option] into a [Result] ([ok_or], or [load] of a missing key). *)
Definition ok_or {A} (o : option A) (e : error) : res A :=
  match o with Some a => Ok a | None => Err e end.

(** [Option::unwrap_or_default] / [unwrap_or]. *)
Definition unwrap_or {A} (o : option A) (d : A) : A :=
  match o with Some a => a | None => d end.
