(** * Wire: texts.  How numbers, decimals, coins and directions are written (Display, FromStr, src/types/coin.rs), and how values and
    messages are written as JSON (cosmwasm-std 1.5.5 to_json_vec / from_json, serde-json-wasm 0.5, cw_serde).
    Everywhere else the model passes the values themselves. *)
From Verif Require Import Base Dec Types State.
From Coq Require Export Ascii.

(** Texts are lists of bytes. *)
Definition text := list ascii.
Definition txt (s : string) : text := String.list_ascii_of_string s.
Definition str (t : text) : string := String.string_of_list_ascii t.
Definition chr (z : Z) : ascii := ascii_of_N (Z.to_N z).
Definition code (c : ascii) : Z := Z.of_N (N_of_ascii c).

(** ** Integers: Display and FromStr of u64, i64, Uint128, Uint256 *)
Fixpoint dig (fuel : nat) (n : Z) : text :=
  match fuel with
  | O => []
  | S f => (if n <? 10 then [] else dig f (n / 10)) ++ [chr (48 + n mod 10)]
  end.
Definition show_nat (n : Z) : text := dig (S (Z.to_nat (Z.log2 n))) n.
Definition show_int (n : Z) : text := if n <? 0 then "-"%char :: show_nat (- n) else show_nat n.
Definition is_digit (c : ascii) : bool := (48 <=? code c) && (code c <=? 57).
Definition nat_value (t : text) : Z := foldl (fun v c => v * 10 + (code c - 48)) 0 t.
Definition read_nat (t : text) : option Z :=
  match t with [] => None | _ => if forallb is_digit t then Some (nat_value t) else None end.
(** The same with the range of the type. *)
Definition within (ok : Z -> bool) (x : option Z) : option Z :=
  match x with Some z => if ok z then Some z else None | None => None end.
Definition range (hi z : Z) : bool := (0 <=? z) && (z <=? hi).
Definition read_u64 (t : text) : option Z := within (range U64_MAX) (read_nat t).
Definition read_u128 (t : text) : option Z := within (range U128_MAX) (read_nat t).
Definition read_u256 (t : text) : option Z := within (range U256_MAX) (read_nat t).

(** ** Decimals: Display and FromStr of Decimal256 (and Decimal, with the smaller range).
    Whole part, and if the fraction is not zero a point and its 18 digits without the zeros at the end. *)
Definition pad (n : nat) (t : text) : text := repeat "0"%char (n - length t) ++ t.
Fixpoint trim (t : text) : text :=
  match t with
  | [] => []
  | c :: t => match trim t with [] => if ascii_dec c "0" then [] else [c] | t' => c :: t' end
  end.
Definition show_dec (a : Z) : text :=
  let f := a mod DEC in
  show_nat (a / DEC) ++ (if f =? 0 then [] else "."%char :: trim (pad 18 (show_nat f))).
(** Split at every point. *)
Fixpoint split (t : text) : list text :=
  match t with
  | [] => [[]]
  | c :: t => if ascii_dec c "." then [] :: split t
              else match split t with p :: ps => (c :: p) :: ps | [] => [[c]] end
  end.
(** FromStr: one part is a whole number; two parts, at most 18 digits after the point; the sum must fit. *)
Definition read_decimal (hi : Z) (t : text) : option Z :=
  match split t with
  | [w] => match read_nat w with Some w => within (range hi) (Some (w * DEC)) | None => None end
  | [w; f] =>
      match read_nat w, read_nat f with
      | Some w, Some x => if Nat.leb (length f) 18 then within (range hi) (Some (w * DEC + x * 10 ^ Z.of_nat (18 - length f))) else None
      | _, _ => None
      end
  | _ => None
  end.
Definition read_dec : text -> option Z := read_decimal U256_MAX.

(** src/types/coin.rs:34-41 From<Coin256> for Coin: the amount is written and read back as a Uint128; too large an amount panics. *)
Definition coin_narrow (c : coin) : res coin :=
  match read_u128 (show_nat (c_amount c)) with Some a => Ok (mkCoin (c_denom c) a) | None => Panic end.
(** src/query.rs:67-69: the spot price is written as a Decimal256 and read back as a Decimal. *)
Definition narrow_price (p : Z) : res Z :=
  match read_decimal U128_MAX (show_dec p) with Some p => Ok p | None => Err EStd end.
(** src/types/order.rs:24-37 *)
Definition show_dir (d : dir) : text := match d with Bid => txt "bid" | Ask => txt "ask" end.
Definition read_dir (t : text) : option dir :=
  if bool_decide (t = txt "bid") then Some Bid else if bool_decide (t = txt "ask") then Some Ask else None.
Definition show_bool (b : bool) : text := if b then txt "true" else txt "false".
(** cosmwasm_std::Coin Display: amount and denom, nothing in between. *)
Definition show_coin (c : coin) : text := show_nat (c_amount c) ++ txt (c_denom c).

(** ** JSON *)
Inductive json : Type :=
| JNull
| JBool (b : bool)
| JNum (z : Z)
| JStr (t : text)
| JArr (l : list json)
| JObj (l : list (text * json)).
(** Strings: quotes, backslashes and control characters are escaped. *)
Definition quote : ascii := chr 34.
Definition backslash : ascii := chr 92.
Definition hex (z : Z) : ascii := if z <? 10 then chr (48 + z) else chr (55 + z).
Definition esc (c : ascii) : text :=
  let z := code c in
  if (z =? 34) || (z =? 92) then [backslash; c]
  else if z =? 8 then [backslash; "b"%char] else if z =? 9 then [backslash; "t"%char] else if z =? 10 then [backslash; "n"%char]
  else if z =? 12 then [backslash; "f"%char] else if z =? 13 then [backslash; "r"%char]
  else if z <? 32 then [backslash; "u"%char; "0"%char; "0"%char; hex (z / 16); hex (z mod 16)]
  else [c].
Definition show_str (t : text) : text := quote :: flat_map esc t ++ [quote].
Fixpoint show_json (j : json) : text :=
  match j with
  | JNull => txt "null"
  | JBool b => show_bool b
  | JNum z => show_int z
  | JStr t => show_str t
  | JArr l =>
      "["%char :: (fix go (first : bool) (l : list json) : text :=
        match l with
        | [] => ["]"%char]
        | j :: l => (if first then [] else [","%char]) ++ show_json j ++ go false l
        end) true l
  | JObj l =>
      "{"%char :: (fix go (first : bool) (l : list (text * json)) : text :=
        match l with
        | [] => ["}"%char]
        | (k, j) :: l => (if first then [] else [","%char]) ++ show_str k ++ ":"%char :: show_json j ++ go false l
        end) true l
  end.

(** Reading.  Each reader returns the rest of the text. *)
Definition unhex (c : ascii) : option Z :=
  let z := code c in
  if (48 <=? z) && (z <=? 57) then Some (z - 48)
  else if (65 <=? z) && (z <=? 70) then Some (z - 55)
  else if (97 <=? z) && (z <=? 102) then Some (z - 87) else None.
(** The body of a string, up to the closing quote.  Escaped code points above 255 are not modelled (simplification: rejected). *)
Fixpoint read_body (t : text) : option (text * text) :=
  match t with
  | [] => None
  | c :: t =>
      if ascii_dec c quote then Some ([], t)
      else if ascii_dec c backslash then
        match t with
        | [] => None
        | e :: t' =>
            let more (x : ascii) (rest : option (text * text)) := match rest with Some (b, r) => Some (x :: b, r) | None => None end in
            let z := code e in
            if (z =? 34) || (z =? 92) || (z =? 47) then more e (read_body t')
            else if z =? 98 then more (chr 8) (read_body t') else if z =? 116 then more (chr 9) (read_body t')
            else if z =? 110 then more (chr 10) (read_body t') else if z =? 102 then more (chr 12) (read_body t')
            else if z =? 114 then more (chr 13) (read_body t')
            else if z =? 117 then
              match t' with
              | a :: b :: x :: y :: t'' =>
                  match unhex a, unhex b, unhex x, unhex y with
                  | Some 0, Some 0, Some x, Some y => more (chr (16 * x + y)) (read_body t'')
                  | _, _, _, _ => None
                  end
              | _ => None
              end
            else None
        end
      else match read_body t with Some (b, r) => Some (c :: b, r) | None => None end
  end.
Definition read_str (t : text) : option (text * text) :=
  match t with c :: t => if ascii_dec c quote then read_body t else None | [] => None end.
Fixpoint span_digits (t : text) : text * text :=
  match t with
  | c :: r => if is_digit c then let (d, r) := span_digits r in (c :: d, r) else ([], t)
  | [] => ([], [])
  end.
Definition read_num (t : text) : option (Z * text) :=
  match t with
  | c :: r =>
      if ascii_dec c "-" then let (d, r) := span_digits r in match read_nat d with Some n => Some (- n, r) | None => None end
      else let (d, r) := span_digits t in match read_nat d with Some n => Some (n, r) | None => None end
  | [] => None
  end.
Fixpoint strip (p t : text) : option text :=
  match p, t with
  | [], _ => Some t
  | a :: p, b :: t => if ascii_dec a b then strip p t else None
  | _, [] => None
  end.
Definition is_space (c : ascii) : bool := let z := code c in (z =? 32) || (z =? 10) || (z =? 9) || (z =? 13).
Fixpoint ws (t : text) : text := match t with c :: r => if is_space c then ws r else t | [] => [] end.
Definition expect (c : ascii) (t : text) : option text :=
  match ws t with a :: r => if ascii_dec a c then Some r else None | [] => None end.
(** A value; [items] and [fields] are the elements after the first of an array or object. *)
Fixpoint read_json (fuel : nat) (t : text) : option (json * text) :=
  match fuel with
  | O => None
  | S fuel =>
      let t := ws t in
      match strip (txt "null") t, strip (txt "true") t, strip (txt "false") t with
      | Some r, _, _ => Some (JNull, r)
      | _, Some r, _ => Some (JBool true, r)
      | _, _, Some r => Some (JBool false, r)
      | None, None, None =>
          match t with
          | [] => None
          | c :: r =>
              if ascii_dec c quote then match read_body r with Some (s, r) => Some (JStr s, r) | None => None end
              else if ascii_dec c "[" then
                match expect "]" r with
                | Some r => Some (JArr [], r)
                | None => match read_items fuel r with Some (l, r) => Some (JArr l, r) | None => None end
                end
              else if ascii_dec c "{" then
                match expect "}" r with
                | Some r => Some (JObj [], r)
                | None => match read_fields fuel r with Some (l, r) => Some (JObj l, r) | None => None end
                end
              else match read_num t with Some (z, r) => Some (JNum z, r) | None => None end
          end
      end
  end
with read_items (fuel : nat) (t : text) : option (list json * text) :=
  match fuel with
  | O => None
  | S fuel =>
      match read_json fuel t with
      | None => None
      | Some (j, r) =>
          match expect "]" r with
          | Some r => Some ([j], r)
          | None =>
              match expect "," r with
              | Some r => match read_items fuel r with Some (l, r) => Some (j :: l, r) | None => None end
              | None => None
              end
          end
      end
  end
with read_fields (fuel : nat) (t : text) : option (list (text * json) * text) :=
  match fuel with
  | O => None
  | S fuel =>
      match read_str (ws t) with
      | None => None
      | Some (k, r) =>
          match expect ":" r with
          | None => None
          | Some r =>
              match read_json fuel r with
              | None => None
              | Some (j, r) =>
                  match expect "}" r with
                  | Some r => Some ([(k, j)], r)
                  | None =>
                      match expect "," r with
                      | Some r => match read_fields fuel r with Some (l, r) => Some ((k, j) :: l, r) | None => None end
                      | None => None
                      end
                  end
              end
          end
      end
  end.
(** The whole text: one value and nothing after it but spaces. *)
Definition parse (t : text) : option json :=
  match read_json (S (length t)) t with
  | Some (j, r) => match ws r with [] => Some j | _ => None end
  | None => None
  end.
