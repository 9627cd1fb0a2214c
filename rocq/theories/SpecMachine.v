(** * SpecMachine: the whole contract as a small machine.

    This is a complete, executable description of what the contract does, without cumulative
    totals, fill positions, cancellation trees, tick pointers or liquidity counters: its state
    is the settings, the two tokens, the next order id and the list of the orders that are
    still open or not yet claimed, oldest first.  [m_step] says for every transaction whether
    it succeeds, what it answers and how the state changes; property C50 says that the contract
    and this machine cannot be told apart.  Of the model of the code, only the types of
    messages, responses and environments are used. *)
From Verif Require Import Base Dec Types State Order Auth Contract World SpecMath.

(** ** State *)
Record resting : Type := mkResting {
  re_tick : Z; re_dir : dir; re_id : Z; re_owner : string;
  re_bounty : option Z;     (* share of the proceeds for whoever claims, atoms *)
  re_time : Z;              (* time of placement *)
  re_placed : Z;            (* quantity placed *)
  re_open : Z;              (* waiting to be filled *)
  re_filled : Z             (* filled, not yet claimed *)
}.
Record settings : Type := mkSettings {
  se_active : bool; se_fee : Z; se_recipient : string;
  se_admin : option string; se_admin_offer : option string;
  se_moderator : option string; se_moderator_offer : option string
}.
Record machine : Type := mkMachine {
  ma_quote : string; ma_base : string;
  ma_set : settings;
  ma_next : Z;
  ma_orders : list resting
}.
Definition with_orders (m : machine) (l : list resting) : machine := mkMachine (ma_quote m) (ma_base m) (ma_set m) (ma_next m) l.
Definition with_set (m : machine) (s : settings) : machine := mkMachine (ma_quote m) (ma_base m) s (ma_next m) (ma_orders m).
Definition set_parts (o : resting) (op fi : Z) : resting :=
  mkResting (re_tick o) (re_dir o) (re_id o) (re_owner o) (re_bounty o) (re_time o) (re_placed o) op fi.

(** Bids deposit quote tokens and are paid base tokens, asks the other way round. *)
Definition deposit_of (m : machine) (d : dir) : string := match d with Bid => ma_quote m | Ask => ma_base m end.
Definition payout_of (m : machine) (d : dir) : string := deposit_of m (opposite d).
Definition tick_ok (t : Z) : bool := (-108000000 <=? t) && (t <=? 182402823).
Definition is_order (t id : Z) (o : resting) : bool := (re_tick o =? t) && (re_id o =? id).
Definition find_order (t id : Z) (l : list resting) : option resting := List.find (is_order t id) l.
(** Replace the order (t, id) by what [f] makes of it; [None] removes it. *)
Definition change (t id : Z) (f : resting -> option resting) (l : list resting) : list resting :=
  flat_map (fun o => if is_order t id o then match f o with Some o' => [o'] | None => [] end else [o]) l.
Definition no_funds (i : info) : bool := match i_funds i with [] => true | _ => false end.

(** ** Placing *)
Definition m_place (e : env) (i : info) (t : Z) (d : dir) (q : Z) (b : option Z) (m : machine) : option (machine * response) :=
  if se_active (ma_set m) && tick_ok t && (0 <? q)
     && match b with Some x => (0 <=? x) && (x <=? 10 ^ 16) | None => true end    (* at most 1% *)
     && match i_funds i with [c] => bool_decide (c_denom c = deposit_of m d) && (c_amount c =? q) | _ => false end
  then
    let o := mkResting t d (ma_next m) (i_sender i) b (e_time e) q q 0 in
    Some (mkMachine (ma_quote m) (ma_base m) (ma_set m) (ma_next m + 1) (ma_orders m ++ [o]),
          mkResp [("method", AStr "placeLimit"); ("owner", AStr (i_sender i)); ("tick_id", AInt t); ("order_id", AInt (ma_next m));
                  ("order_direction", ADir d); ("quantity", AInt q);
                  ("order_denom", AStr (deposit_of m d)); ("output_denom", AStr (payout_of m d))] [] [] None)
  else None.

(** ** Cancelling: by the owner, only while nothing is waiting to be claimed *)
Definition m_cancel (i : info) (t id : Z) (m : machine) : option (machine * response) :=
  match find_order t id (ma_orders m) with
  | Some o =>
      if se_active (ma_set m) && no_funds i && bool_decide (re_owner o = i_sender i) && (re_filled o =? 0)
      then Some (with_orders m (change t id (fun _ => None) (ma_orders m)),
                 mkResp [("method", AStr "cancelLimit"); ("owner", AStr (i_sender i)); ("tick_id", AInt t); ("order_id", AInt id);
                         ("quantity", AInt (re_open o)); ("order_direction", ADir (re_dir o)); ("initial_quantity", AInt (re_placed o));
                         ("order_denom", AStr (deposit_of m (re_dir o))); ("output_denom", AStr (payout_of m (re_dir o)))]
                        [] [mkSend 1 (i_sender i) (mkCoin (deposit_of m (re_dir o)) (re_open o))] None)
      else None
  | None => None
  end.

(** ** Claiming *)
(** What the filled part of an order earned, rounded down; the bounty for whoever claims and the
    maker fee are shares of it, rounded down, and the owner gets the rest. *)
Definition earned (o : resting) : Z :=
  match re_dir o with Ask => ask_gross (re_filled o) (tick_price (re_tick o)) | Bid => bid_gross (re_filled o) (tick_price (re_tick o)) end.
Definition bounty_part (o : resting) : Z := share (match re_bounty o with Some b => b | None => 0 end) (earned o).
Definition fee_part (m : machine) (o : resting) : Z := share (se_fee (ma_set m)) (earned o).
Definition owner_gets (m : machine) (o : resting) : Z := earned o - bounty_part o - fee_part m o.
Definition payment (reply : Z) (to denom : string) (amount : Z) : list submsg :=
  if amount =? 0 then [] else [mkSend reply to (mkCoin denom amount)].
Definition payments (m : machine) (sender : string) (o : resting) : list submsg :=
  payment 2 (re_owner o) (payout_of m (re_dir o)) (owner_gets m o) ++
  payment 3 sender (payout_of m (re_dir o)) (bounty_part o) ++
  payment 4 (se_recipient (ma_set m)) (payout_of m (re_dir o)) (fee_part m o).
Definition announcement (m : machine) (sender : string) (o : resting) : claim_event :=
  mkClaimEvent sender (re_tick o) (re_id o) (re_open o) (re_owner o) (re_dir o) (owner_gets m o) (re_placed o) (re_open o =? 0)
    (deposit_of m (re_dir o)) (payout_of m (re_dir o)).
(** One claim: new state, transfers, event; [None] if there is nothing to claim. *)
Definition claim_one (sender : string) (t id : Z) (m : machine) : option (machine * list submsg * claim_event) :=
  match find_order t id (ma_orders m) with
  | Some o =>
      if 0 <? re_filled o
      then Some (with_orders m (change t id (fun o => if re_open o =? 0 then None else Some (set_parts o (re_open o) 0)) (ma_orders m)),
                 payments m sender o, announcement m sender o)
      else None
  | None => None
  end.
Definition m_claim (i : info) (t id : Z) (m : machine) : option (machine * response) :=
  if se_active (ma_set m) && no_funds i
  then match claim_one (i_sender i) t id m with
       | Some (m', ms, ev) => Some (m', mkResp [("method", AStr "claimLimit")] [ev] ms None)
       | None => None
       end
  else None.
(** A batch: one claim after the other, those with nothing to claim are skipped. *)
Fixpoint claim_all (sender : string) (l : list (Z * Z)) (m : machine) : machine * list submsg * list claim_event :=
  match l with
  | [] => (m, [], [])
  | (t, id) :: l =>
      match claim_one sender t id m with
      | Some (m1, ms1, ev) => let '(m2, ms2, evs) := claim_all sender l m1 in (m2, ms1 ++ ms2, ev :: evs)
      | None => claim_all sender l m
      end
  end.
Definition m_batch (i : info) (l : list (Z * Z)) (m : machine) : option (machine * response) :=
  if se_active (ma_set m) && no_funds i && (Z.of_nat (length l) <=? 100)
  then let '(m', ms, evs) := claim_all (i_sender i) l m in
       Some (m', mkResp [("method", AStr "batchClaimLimit"); ("sender", AStr (i_sender i))] evs ms None)
  else None.

(** ** Swapping *)
(** [side] is the maker side that is traded against. *)
Definition better_for_taker (side : dir) (t u : Z) : bool := match side with Ask => t <? u | Bid => u <? t end.
Fixpoint add_level (side : dir) (t : Z) (l : list Z) : list Z :=
  match l with
  | [] => [t]
  | u :: l' => if t =? u then l else if better_for_taker side t u then t :: l else u :: add_level side t l'
  end.
(** The ticks with open orders on this side up to the target, best price first. *)
Definition reachable_level (side : dir) (target : option Z) (o : resting) : bool :=
  bool_decide (re_dir o = side) && (0 <? re_open o)
  && match target with None => true | Some b => match side with Ask => re_tick o <=? b | Bid => b <=? re_tick o end end.
Definition levels (side : dir) (target : option Z) (l : list resting) : list Z :=
  foldr (fun o acc => if reachable_level side target o then add_level side (re_tick o) acc else acc) [] l.
Definition open_on (side : dir) (l : list resting) (t : Z) : Z :=
  foldr (fun o acc => (if bool_decide (re_dir o = side /\ re_tick o = t) then re_open o else 0) + acc) 0 l.
(** Output that [q] input units buy at price [p], rounded down, and the input charged for [x] output
    units, rounded up (for bids after rounding down to 10^-18). *)
Definition output_for (side : dir) (q p : Z) : Z := match side with Ask => bid_gross q p | Bid => ask_gross q p end.
Definition input_for (side : dir) (x p : Z) : Z :=
  match side with Ask => ceil_div (x * p) ATOM | Bid => ceil_div (floor_div (x * ATOM * ATOM) p) ATOM end.
(** Walk through the levels with input [q].  Result: what was taken at which tick, and the input that
    is handed back.  A level where the input buys nothing ends the walk, and that input is kept.
    Otherwise, when all levels are exhausted, the input left over must not be worth anything at the
    last price, unless [partial] swaps are allowed. *)
Fixpoint walk (side : dir) (partial : bool) (open : Z -> Z) (l : list Z) (q last : Z) : option (list (Z * Z) * Z) :=
  match l with
  | [] => if (output_for side q last =? 0) || partial then Some ([], q) else None
  | t :: l =>
      let p := tick_price t in
      let w := output_for side q p in
      if w =? 0 then Some ([], 0)
      else
        let x := Z.min w (open t) in
        let c := input_for side x p in
        if (x <=? 2 ^ 128 - 1) && negb (c =? 0)
        then match walk side partial open l (q - c) p with
             | Some (f, r) => Some ((t, x) :: f, r)
             | None => None
             end
        else None
  end.
Definition total_out (f : list (Z * Z)) : Z := foldr (fun x acc => x.2 + acc) 0 f.
Definition taken_at (f : list (Z * Z)) (t : Z) : Z := foldr (fun x acc => (if x.1 =? t then x.2 else 0) + acc) 0 f.
(** Fill [x t] units of every tick of the side, oldest orders first. *)
Fixpoint fill_side (side : dir) (x : Z -> Z) (l : list resting) : list resting :=
  match l with
  | [] => []
  | o :: l =>
      if bool_decide (re_dir o = side)
      then let a := Z.min (x (re_tick o)) (re_open o) in
           set_parts o (re_open o - a) (re_filled o + a) :: fill_side side (fun t => if t =? re_tick o then x t - a else x t) l
      else o :: fill_side side x l
  end.
(** The maker side: quote tokens buy from asks, base tokens are sold to bids. *)
Definition maker_side (m : machine) (tin tout : string) : option dir :=
  if bool_decide (tin = ma_quote m /\ tout = ma_base m) then Some Ask
  else if bool_decide (tin = ma_base m /\ tout = ma_quote m) then Some Bid
  else None.
Definition partial_allowed (side : dir) (target : option Z) : bool :=
  match target with None => false | Some b => match side with Ask => b <? 182402823 | Bid => -108000000 <? b end end.
Definition m_swap (e : env) (sender : string) (tin : coin) (tout : string) (mn fee : Z) (target : option Z) (m : machine)
  : option (machine * response) :=
  match maker_side m (c_denom tin) tout with
  | Some side =>
      if se_active (ma_set m) && (fee =? 0) && e_addr_valid e sender && negb (c_amount tin =? 0)
         && match target with Some b => tick_ok b | None => true end
      then
        match walk side (partial_allowed side target) (open_on side (ma_orders m)) (levels side target (ma_orders m)) (c_amount tin) ATOM with
        | Some (f, rest) =>
            if mn <=? total_out f
            then Some (with_orders m (fill_side side (taken_at f) (ma_orders m)),
                       mkResp [("method", AStr "swapExactAmountIn"); ("sender", AStr sender); ("token_in", ACoin tin);
                               ("token_out_denom", AStr tout); ("token_out_min_amount", AInt mn); ("output_quantity", AInt (total_out f))] []
                              (mkSend 5 sender (mkCoin tout (total_out f)) :: payment 1 sender (c_denom tin) rest) (Some (total_out f)))
            else None
        | None => None
        end
      else None
  | None => None
  end.

(** ** Administration *)
Definition m_reply (m : machine) (s : settings) (a : list (string * attr)) : option (machine * response) :=
  Some (with_set m s, mkResp a [] [] None).
Definition m_auth (e : env) (x : string) (msg : auth_msg) (m : machine) : option (machine * response) :=
  let '(mkSettings ac fe re ad ao mo mf) := ma_set m in
  let admin := bool_decide (ad = Some x) in
  match msg with
  | TransferAdmin a =>
      if admin && e_addr_valid e a
      then m_reply m (mkSettings ac fe re ad (Some a) mo mf) [("method", AStr "transfer_admin"); ("new_admin", AStr a)] else None
  | CancelAdminTransfer =>
      if admin then m_reply m (mkSettings ac fe re ad None mo mf) [("method", AStr "cancel_transfer_admin")] else None
  | RejectAdminTransfer =>
      if bool_decide (ao = Some x) then m_reply m (mkSettings ac fe re ad None mo mf) [("method", AStr "reject_admin_transfer")] else None
  | ClaimAdmin =>
      if bool_decide (ao = Some x) && e_addr_valid e x
      then m_reply m (mkSettings ac fe re (Some x) None mo mf) [("method", AStr "claim_admin")] else None
  | RenounceAdminship =>
      if admin then m_reply m (mkSettings ac fe re None ao mo mf) [("method", AStr "renounce_adminship")] else None
  | OfferModerator a =>
      if admin && e_addr_valid e a
      then m_reply m (mkSettings ac fe re ad ao mo (Some a)) [("method", AStr "offer_moderator"); ("new_moderator", AStr a)] else None
  | RejectModeratorOffer =>
      if bool_decide (mf = Some x) then m_reply m (mkSettings ac fe re ad ao mo None) [("method", AStr "reject_moderator_offer")] else None
  | ClaimModerator =>
      if bool_decide (mf = Some x) && e_addr_valid e x
      then m_reply m (mkSettings ac fe re ad ao (Some x) None) [("method", AStr "claim_moderator")] else None
  | SetActive b =>
      if admin || bool_decide (mo = Some x)
      then m_reply m (mkSettings b fe re ad ao mo mf) [("method", AStr "set_active"); ("active", ABool b)] else None
  | SetMakerFee f =>
      if admin && (f <=? 5 * 10 ^ 16)
      then m_reply m (mkSettings ac f re ad ao mo mf) [("method", AStr "set_maker_fee"); ("maker_fee", ADec f)] else None
  | SetMakerFeeRecipient a =>
      if admin && e_addr_valid e a
      then m_reply m (mkSettings ac fe a ad ao mo mf) [("method", AStr "set_maker_fee_recipient"); ("maker_fee_recipient", AStr a)] else None
  end.
Definition m_sudo (e : env) (msg : sudo_msg) (m : machine) : option (machine * response) :=
  let '(mkSettings ac fe re ad ao mo mf) := ma_set m in
  match msg with
  | SwapExactAmountIn sender tin tout mn fee => m_swap e sender tin tout mn fee None m
  | SwapToTick sender tin tout mn fee target => m_swap e sender tin tout mn fee (Some target) m
  | SwapExactAmountOut _ _ _ _ _ => None
  | SudoTransferAdmin a =>
      if ac && e_addr_valid e a
      then m_reply m (mkSettings ac fe re (Some a) ao mo mf) [("method", AStr "sudo_transfer_admin"); ("new_admin", AStr a)] else None
  | SudoRemoveAdmin => if ac then m_reply m (mkSettings ac fe re None ao mo mf) [("method", AStr "sudo_remove_admin")] else None
  | SudoSetActive b => if ac then m_reply m (mkSettings b fe re ad ao mo mf) [("method", AStr "set_active"); ("active", ABool b)] else None
  end.

(** ** Transactions *)
Definition m_run (e : env) (c : call) (m : machine) : option (machine * response) :=
  match c with
  | CExec i (PlaceLimit t d q b) => m_place e i t d q b m
  | CExec i (CancelLimit t id) => m_cancel i t id m
  | CExec i (ClaimLimit t id) => m_claim i t id m
  | CExec i (BatchClaim l) => m_batch i l m
  | CExec i (AuthMsg a) => m_auth e (i_sender i) a m
  | CSudo a => m_sudo e a m
  | CMigrate | CDonate _ => Some (m, resp_default)
  end.
(** A transaction succeeds if all its transfers can be carried out: positive amounts to recipients the
    bank does not block.  (The contract always owns enough.) *)
Definition m_step (e : env) (m : machine) (c : call) : machine * outcome :=
  match m_run e c m with
  | Some (m', r) =>
      if forallb (fun s => (0 <? c_amount (sm_coin s)) && e_bank_ok e (sm_to s)) (r_msgs r) then (m', Done r) else (m, Failed)
  | None => (m, Failed)
  end.
Fixpoint m_outcomes (m : machine) (h : list (env * call)) : list outcome :=
  match h with
  | [] => []
  | (e, c) :: h => snd (m_step e m c) :: m_outcomes (fst (m_step e m c)) h
  end.
Fixpoint m_after (m : machine) (h : list (env * call)) : machine :=
  match h with
  | [] => m
  | (e, c) :: h => m_after (fst (m_step e m c)) h
  end.
(** A new book: no orders, trading, no fee, the governance address as admin, the circuit breaker as moderator. *)
Definition m_new (quote base : string) : machine :=
  mkMachine quote base
    (mkSettings true 0 "osmo1r9jc2234fljy93z80cevqjt3nmjycec8aj4cc6" (Some "osmo10d07y265gmmuvt4z0w9aw880jnsr700jjeq4qp") None
       (Some "osmo1peuxfjj66n2qt2v5jmqlvzz8neakjgduez7vttvemw58uug6546sr60ngl") None) 0 [].

(** The answer to an out-amount query (for a zero swap fee); [None] is an error. *)
Definition m_quote (tin : coin) (tout : string) (m : machine) : option Z :=
  match maker_side m (c_denom tin) tout with
  | Some side =>
      if c_amount tin =? 0 then None
      else match walk side false (open_on side (ma_orders m)) (levels side None (ma_orders m)) (c_amount tin) ATOM with
           | Some (f, _) => Some (total_out f)
           | None => None
           end
  | None => None
  end.

(** ** Comparison with the contract *)
(** The outcomes of all transactions of a history. *)
Fixpoint all_outcomes (w : world) (h : list (env * call)) : list outcome :=
  match h with
  | [] => []
  | (e, c) :: h => snd (step e w c) :: all_outcomes (fst (step e w c)) h
  end.
(** The stored data of a contract is that of the machine: tokens, settings, next id, exactly the same
    orders with the same data, and the liquidity of every tick. *)
Record shows (s : storage) (m : machine) : Prop := {
  sh_tokens : exists ob, s_orderbook s = Some ob /\ ob_quote ob = ma_quote m /\ ob_base ob = ma_base m;
  sh_set : (match s_active s with Some b => b | None => true end, s_fee s, s_recipient s, s_admin s, s_admin_offer s, s_moderator s, s_moderator_offer s)
           = (se_active (ma_set m), Some (se_fee (ma_set m)), Some (se_recipient (ma_set m)), se_admin (ma_set m), se_admin_offer (ma_set m), se_moderator (ma_set m), se_moderator_offer (ma_set m));
  sh_next : match s_order_id s with Some n => n | None => 0 end = ma_next m;
  sh_order : forall t id o, s_orders s !! (t, id) = Some o -> exists r, find_order t id (ma_orders m) = Some r /\
      (o_tick o, o_id o, o_dir o, o_owner o, o_bounty o, o_placed_at o, o_placed_quantity o, o_quantity o)
      = (re_tick r, re_id r, re_dir r, re_owner r, re_bounty r, re_time r, re_placed r, re_open r + re_filled r);
  sh_none : forall t id, s_orders s !! (t, id) = None -> find_order t id (ma_orders m) = None;
  sh_parts : forall r, r ∈ ma_orders m -> 0 <= re_open r /\ 0 <= re_filled r /\ 0 < re_open r + re_filled r;
  sh_ids : StronglySorted Z.lt (map re_id (ma_orders m));
  sh_liquidity : forall t d, match s_ticks s !! t with
      | Some ts => tv_tal (match d with Bid => ts_bid ts | Ask => ts_ask ts end)
      | None => 0 end = open_on d (ma_orders m) t * ATOM
}.
