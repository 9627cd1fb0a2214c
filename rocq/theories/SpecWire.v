(** * Specification of the texts (property C71): readers for what the chain sees, and what "in range" means. *)
From Verif Require Import Base Dec Types State Order Auth Contract Query World Spec SpecMath SpecProps SpecEvents SpecCost Keys SpecKeys Wire Codec.

(** ** A listener that sees only strings *)
Fixpoint find (l : list (string * string)) (name : string) : option string :=
  match l with [] => None | (k, v) :: l => if bool_decide (k = name) then Some v else find l name end.
(** A number in decimal, with a sign if negative. *)
Definition read_int (s : string) : option Z :=
  match txt s with
  | c :: r => if ascii_dec c "-" then option_map Z.opp (read_nat r) else read_nat (c :: r)
  | [] => None
  end.
Definition read_side (s : string) : option dir := if bool_decide (s = "bid") then Some Bid else if bool_decide (s = "ask") then Some Ask else None.
Definition wire_claim (K : table) (ev : wire_event) : table :=
  let a := find (we_attrs ev) in
  if bool_decide (we_type ev = "limitClaimed") then
    match a "tick_id", a "order_id", a "owner", a "order_direction", a "quantity_remaining", a "placed_quantity", a "fully_claimed" with
    | Some t, Some id, Some owner, Some d, Some q, Some p, Some f =>
        match read_int t, read_int id, read_side d, read_int q, read_int p with
        | Some t, Some id, Some d, Some q, Some p =>
            if bool_decide (f = "true") then delete (t, id) K else <[(t, id) := mkKnown owner d q p]> K
        | _, _, _, _, _ => K
        end
    | _, _, _, _, _, _, _ => K
    end
  else K.
Definition wire_heard (K : table) (r : wire_response) : table :=
  let K := foldl wire_claim K (wr_events r) in
  let a := find (wr_attrs r) in
  match a "method", a "tick_id", a "order_id", a "owner", a "order_direction", a "quantity" with
  | Some m, Some t, Some id, Some owner, Some d, Some q =>
      match read_int t, read_int id, read_side d, read_int q with
      | Some t, Some id, Some d, Some q =>
          if bool_decide (m = "placeLimit") then <[(t, id) := mkKnown owner d q q]> K
          else if bool_decide (m = "cancelLimit") then delete (t, id) K
          else K
      | _, _, _, _ => K
      end
  | _, _, _, _, _, _ => K
  end.

(** ** Reading the bank messages *)
(** A protobuf varint: seven bits per byte, the lowest first. *)
Fixpoint read_varint (t : text) : option (Z * text) :=
  match t with
  | [] => None
  | c :: r => if code c <? 128 then Some (code c, r) else let* x := read_varint r in Some (code c - 128 + 128 * x.1, x.2)
  end.
(** The fields of a protobuf message, all of them length delimited: field number and bytes. *)
Fixpoint read_proto (fuel : nat) (t : text) : option (list (Z * text)) :=
  match fuel, t with
  | _, [] => Some []
  | O, _ => None
  | S f, c :: r =>
      if code c mod 8 =? 2 then
        let* x := read_varint r in
        if x.1 <=? Z.of_nat (length x.2) then
          let* l := read_proto f (drop (Z.to_nat x.1) x.2) in Some ((code c / 8, take (Z.to_nat x.1) x.2) :: l)
        else None
      else None
  end.
Definition fields_of (t : text) : option (list (Z * text)) := read_proto (length t) t.
(** A string field: the last one with the number, empty if there is none. *)
Definition field (n : Z) (l : list (Z * text)) : string := str (foldl (fun acc x => if x.1 =? n then x.2 else acc) [] l).
Definition fields (n : Z) (l : list (Z * text)) : list text := flat_map (fun x => if x.1 =? n then [x.2] else []) l.
Definition read_amount (d a : string) : option coin := let* n := read_nat (txt a) in Some (mkCoin d n).
Fixpoint all_some {A} (l : list (option A)) : option (list A) :=
  match l with [] => Some [] | x :: l => let* a := x in let* l := all_some l in Some (a :: l) end.
(** Sender (None: the contract itself, as in BankMsg::Send), recipient and coins. *)
Definition read_msg (m : wire_msg) : option (option string * string * list coin) :=
  match m with
  | WBank to l => let* cs := all_some (map (fun x => read_amount x.1 x.2) l) in Some (None, to, cs)
  | WStargate url v =>
      if bool_decide (url = "/cosmos.bank.v1beta1.MsgSend") then
        let* l := fields_of v in
        let* cs := all_some (map (fun b => let* c := fields_of b in read_amount (field 1 c) (field 2 c)) (fields 3 l)) in
        Some (Some (field 1 l), field 2 l, cs)
      else None
  end.
Definition read_data (t : text) : option Z := from_json (rd_field "token_out_amount" rd_u256 (fun x => x)) t.

(** ** Values within their Rust types *)
Definition dec_ok (z : Z) : Prop := u256 z = true.
Definition order_range (o : limit_order) : Prop :=
  i64 (o_tick o) = true /\ u64 (o_id o) = true /\ u128 (o_quantity o) = true /\ dec_ok (o_etas o) /\ (forall b, o_bounty o = Some b -> dec_ok b) /\
  u128 (o_placed_quantity o) = true /\ u64 (o_placed_at o) = true.
Definition values_range (v : tick_values) : Prop := dec_ok (tv_tal v) /\ dec_ok (tv_ctt v) /\ dec_ok (tv_etas v) /\ dec_ok (tv_crc v) /\ dec_ok (tv_last v).
Definition tick_range (t : tick_state) : Prop := values_range (ts_ask t) /\ values_range (ts_bid t).
Definition book_range (b : orderbook) : Prop := i64 (ob_current b) = true /\ i64 (ob_next_bid b) = true /\ i64 (ob_next_ask b) = true.
Definition ntype_range (t : ntype) : Prop :=
  match t with
  | NLeaf v e => dec_ok v /\ dec_ok e
  | NInternal a lo hi w => dec_ok a /\ dec_ok lo /\ dec_ok hi /\ u64 w = true
  end.
Definition node_range (n : tnode) : Prop :=
  u64 (n_key n) = true /\ i64 (n_tick n) = true /\ (forall x, n_left n = Some x -> u64 x = true) /\ (forall x, n_right n = Some x -> u64 x = true) /\
  (forall x, n_parent n = Some x -> u64 x = true) /\ ntype_range (n_type n).
Record store_range (s : storage) : Prop := {
  sr_id : forall x, s_order_id s = Some x -> u64 x = true;
  sr_book : forall b, s_orderbook s = Some b -> book_range b;
  sr_ticks : forall t x, s_ticks s !! t = Some x -> i64 t = true /\ tick_range x;
  sr_liq : forall d x, s_dirliq s !! d = Some x -> dec_ok x;
  sr_orders : forall k o, s_orders s !! k = Some o -> typed_key k /\ order_range o /\ name_ok (o_owner o);
  sr_nodes : forall k n, s_nodes s !! k = Some n -> typed_key k /\ node_range n;
  sr_ctr : forall t x, s_nodectr s !! t = Some x -> i64 t = true /\ u64 x = true;
  sr_tree : forall t d x, s_tree s !! (t, d) = Some x -> i64 t = true /\ u64 x = true;
  sr_fee : forall x, s_fee s = Some x -> dec_ok x
}.
(** What the chain guarantees of the surroundings of a call: block times are u64, senders are addresses. *)
Definition on_chain (h : list (env * call)) : Prop :=
  Forall (fun x : env * call => u64 (e_time x.1) = true /\ match x.2 with CExec i _ => name_ok (i_sender i) | _ => True end) h.
(** What is in the chain's store: texts under byte keys. *)
Definition raw_text (s : storage) (key : bytes) (t : text) : Prop := exists r j, entry_json s r = Some j /\ key = raw_key r /\ t = show_json j.

(** An order as it was written before orders had a time: the same text without the last field. *)
Definition legacy_text (o : limit_order) : text := show_json (w_obj
  [("tick_id", w_int (o_tick o)); ("order_id", w_int (o_id o)); ("order_direction", w_dir (o_dir o)); ("owner", w_str (o_owner o));
   ("quantity", w_uint (o_quantity o)); ("etas", w_dec (o_etas o)); ("claim_bounty", w_opt w_dec (o_bounty o)); ("placed_quantity", w_uint (o_placed_quantity o))]).
(** Questions within their types (usize is 32 bits wide in the contract's machine). *)
Definition key_typed (k : Z * Z) : bool := i64 k.1 && u64 k.2.
Definition opt_typed {A} (ok : A -> bool) (x : option A) : bool := match x with Some a => ok a | None => true end.
Definition question_typed (q : query_msg) : bool :=
  match q with
  | QCalcOutAmountGivenIn c _ f | QCalcOutAmtGivenIn c _ f => coin_typed c && u128 f
  | QAllTicks lo hi n => opt_typed i64 lo && opt_typed i64 hi && opt_typed (fun z => (0 <=? z) && (z <? 2 ^ 32)) n
  | QOrdersByOwner _ lo hi n => opt_typed key_typed lo && opt_typed key_typed hi && opt_typed u64 n
  | QOrdersByTick t lo hi n => i64 t && opt_typed u64 lo && opt_typed u64 hi && opt_typed u64 n
  | QTicksById l | QGetUnrealizedCancels l => forallb i64 l
  | _ => true
  end.
(** Answers within their types. *)
Definition coin_range (hi : Z) (c : coin) : Prop := 0 <= c_amount c <= hi.
Definition answer_range (q : query_msg) (a : answer) : Prop :=
  match q, a with
  | QSpotPrice _ _, APrice p => 0 <= p <= U128_MAX
  | QCalcOutAmountGivenIn _ _ _, ATokenOut c | QCalcOutAmtGivenIn _ _ _, ATokenOut c => coin_range U256_MAX c
  | QGetTotalPoolLiquidity, ALiquidity l => Forall (coin_range U128_MAX) l
  | QAllTicks _ _ _, ATicks l | QTicksById _, ATicks l => Forall (fun x => i64 x.1 = true /\ tick_range x.2) l
  | QIsActive, AFlag _ => True
  | QGetSwapFee, AFee f => 0 <= f <= U128_MAX
  | QOrdersByOwner _ _ _ _, AOrders n l | QOrdersByTick _ _ _ _, AOrders n l => u64 n = true /\ Forall order_range l
  | QOrderbookState, ABook b => book_range b
  | QDenoms, ADenoms _ _ => True
  | QGetMakerFee, AFee f => dec_ok f
  | QGetUnrealizedCancels _, AUnrealized l => Forall (fun x => i64 x.1 = true /\ dec_ok x.2.1 /\ dec_ok x.2.2) l
  | QAuth _, AAddress _ => True
  | _, _ => False
  end.
