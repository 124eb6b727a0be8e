(** Model of /repo/vanillaplusjs/build/css/tokenizer.py (whole file),
    token.py (20-60) and serializer.py (whole file).

    The tokenizer is modelled over the text that is left: [peek(n)] is [None] on
    the empty text and its first [n] characters otherwise, [read(n)] drops them.
    That is what the preprocessing reader does on texts without a CRLF (C20);
    files are opened with universal newlines, so no CRLF reaches it.

    Numbers: python integers are [Z]; python floats are an abstract type with the
    two conversions [float(text)] and [str(value)] as parameters.  [isdigit] and
    [int] are exact on ASCII and parameters on other characters ([isalpha] only
    matters on ASCII, line 513). *)
From Verif Require Import Base Graph PyStr Json.
From Coq Require Import List NArith ZArith Bool.
Import ListNotations.
Open Scope list_scope.
Open Scope N_scope.

Section Css.
Context {F : Type} (float_of : str -> option F) (float_str : F -> str).
Context (high_digit : N -> bool) (int_high : str -> option Z).

Inductive num := NInt (z : Z) | NFloat (f : F).

(** token.py 19-60; [type_flag] "integer"/"number" of the numeric tokens and
    "id"/"unrestricted" of the hash are booleans (true: "number", "id") *)
Inductive token :=
| TWhitespace (v : str) | TString (v : str) | TBadString (v : str) | THash (id : bool) (v : str) | TDelim (v : str)
| TLParen | TRParen | TNumber (v : num) (float : bool) | TPercentage (v : num) (float : bool) | TDimension (v : num) (float : bool) (unit : str)
| TComma | TCDC | TIdent (v : str) | TFunction (v : str) | TUrl (v : str) | TBadUrl | TColon | TSemicolon | TCDO | TAt (v : str)
| TLSquare | TRSquare | TLCurly | TRCurly | TEof | TComment (v : str).

(** * Character classes *)
(** 223, 502-507 *)
Definition is_space (c : N) : bool := (c =? 10) || (c =? 9) || (c =? 32).
(** str.isdigit *)
Definition is_dec (c : N) : bool := if c <? 128 then Json.is_digit c else high_digit c.
(** str.isalpha on ASCII *)
Definition is_letter (c : N) : bool := ((65 <=? c) && (c <=? 90)) || ((97 <=? c) && (c <=? 122)).
(** 510-513 *)
Definition ident_start (c : N) : bool := is_letter c || (128 <=? c) || (c =? 95).
(** 516-519 *)
Definition ident_cp (c : N) : bool := ident_start c || is_dec c || (c =? 45).
(** 495-499 *)
Definition is_hex (c : N) : bool := Json.is_digit c || ((97 <=? c) && (c <=? 102)) || ((65 <=? c) && (c <=? 70)).
(** 522-531, on the text that is left *)
Definition valid_escape (s : str) : bool := match s with a :: b :: _ => (a =? 92) && negb (b =? 10) | _ => false end.
(** 534-558; [len(None)] raises TypeError *)
Definition ident_sequence (s : str) : res bool :=
  match s with
  | [] => Raise TypeError
  | a :: b :: c :: _ =>
      Ret (if a =? 45 then ident_start b || (b =? 45) || valid_escape [b; c]
           else if ident_start a then true
           else if a =? 92 then valid_escape [a; b] else false)
  | _ => Ret false
  end.
(** 561-576 *)
Definition is_number (s : str) : bool :=
  match s with
  | a :: b :: c :: _ =>
      if (a =? 43) || (a =? 45) then is_dec b || ((b =? 46) && is_dec c)
      else if a =? 46 then is_dec b else is_dec a
  | _ => false
  end.
(** 579-590 *)
Definition non_printable (c : N) : bool := (c <=? 8) || (c =? 11) || ((14 <=? c) && (c <=? 31)) || (c =? 127).

(** * Consuming *)
Fixpoint span (p : N -> bool) (s : str) : str * str :=
  match s with
  | c :: r => if p c then let '(a, b) := span p r in (c :: a, b) else ([], s)
  | [] => ([], [])
  end.
(** 213-220, after the opening of the comment; [None]: the text ends first *)
Fixpoint comment_body (s : str) : option (str * str) :=
  match s with
  | c :: r =>
      match r with
      | d :: r2 =>
          if (c =? 42) && (d =? 47) then Some ([], r2)
          else match comment_body r with Some (v, rest) => Some (c :: v, rest) | None => None end
      | [] => None
      end
  | [] => None
  end.
(** [int(digits, 16)] *)
Definition hex_num (ds : str) : N := fold_left (fun a c => 16 * a + match Json.hex_val c with Some v => v | None => 0 end) ds 0.
(** 285-287: at most [n] more hexadecimal digits *)
Fixpoint take_hex (n : nat) (s : str) : str * str :=
  match n, s with
  | S k, c :: r => if is_hex c then let '(a, b) := take_hex k r in (c :: a, b) else ([], s)
  | _, _ => ([], s)
  end.
(** 292-295 *)
Definition code_point (n : N) : N := if (n =? 0) || ((55296 <=? n) && (n <=? 57343)) || (1114111 <? n) then 65533 else n.
(** 281-300, after the backslash *)
Definition escaped (s : str) : N * str :=
  match s with
  | [] => (65533, [])
  | c :: r =>
      if is_hex c then
        let '(ds, rest) := take_hex 6 s in
        (code_point (hex_num ds), match rest with w :: r2 => if is_space w then r2 else rest | [] => [] end)
      else (c, r)
  end.
(** 303-318; the fuel bounds the loop *)
Fixpoint ident_seq (fuel : nat) (s : str) : res (str * str) :=
  match fuel with
  | O => Raise OutOfFuel
  | S k =>
      match s with
      | [] => Ret ([], [])
      | c :: r =>
          if ident_cp c then match ident_seq k r with Ret (v, rest) => Ret (c :: v, rest) | Raise e => Raise e end
          else if valid_escape s then
            let '(x, r2) := escaped r in
            match ident_seq k r2 with Ret (v, rest) => Ret (x :: v, rest) | Raise e => Raise e end
          else Ret ([], s)
      end
  end.
(** 251-278, after the opening quote [q]; true: a string, false: a bad string *)
Fixpoint string_body (fuel : nat) (q : N) (s : str) : res (bool * str * str) :=
  match fuel with
  | O => Raise OutOfFuel
  | S k =>
      match s with
      | [] => Ret (true, [], [])
      | c :: r =>
          if c =? q then Ret (true, [], r)
          else if c =? 10 then Ret (false, [], s)
          else if c =? 92 then
            match r with
            | [] => string_body k q []
            | d :: r2 =>
                if d =? 10 then string_body k q r2
                else let '(x, r3) := escaped r in
                     match string_body k q r3 with Ret (b, v, rest) => Ret (b, x :: v, rest) | Raise e => Raise e end
            end
          else match string_body k q r with Ret (b, v, rest) => Ret (b, c :: v, rest) | Raise e => Raise e end
      end
  end.
Definition string_token (fuel : nat) (q : N) (s : str) : res (token * str) :=
  match string_body fuel q s with
  | Ret (b, v, rest) => Ret (if b then TString v else TBadString v, rest)
  | Raise e => Raise e
  end.

(** python's [int(text)] of an optional sign and digits *)
Definition int_of (s : str) : option Z :=
  if is_ascii s then
    match s with
    | c :: r => if c =? 43 then match parse_N r with Some n => Some (Z.of_N n) | None => None end else parse_Z s
    | [] => None
    end
  else int_high s.
Definition to_int (repr : str) (rest : str) : res (num * bool * str) :=
  match int_of repr with Some z => Ret (NInt z, false, rest) | None => Raise ValueError end.
Definition to_float (repr : str) (rest : str) : res (num * bool * str) :=
  match float_of repr with Some f => Ret (NFloat f, true, rest) | None => Raise ValueError end.
(** 335-346: an optional sign and the digits *)
Definition sign_digits (s : str) : str * str :=
  match s with
  | c :: r => if (c =? 43) || (c =? 45) then let '(ds, rest) := span is_dec r in (c :: ds, rest) else span is_dec s
  | [] => ([], [])
  end.
(** 363-383, with the text so far and whether there was a fraction *)
Definition exponent (repr : str) (frac : bool) (s : str) : res (num * bool * str) :=
  match s with
  | a :: b :: r =>
      if ((a =? 101) || (a =? 69)) && (is_dec b || (((b =? 43) || (b =? 45)) && match r with c :: _ => is_dec c | [] => false end)) then
        let '(ds, rest) := span is_dec r in to_float (repr ++ a :: b :: ds) rest
      else if frac then to_float repr s else to_int repr s
  | _ => to_float repr s
  end.
(** 321-383; unpacking [None] in line 391 raises TypeError *)
Definition number (s : str) : res (num * bool * str) :=
  match s with
  | [] => Raise TypeError
  | _ =>
      let '(repr, s1) := sign_digits s in
      match s1 with
      | [] => match repr with [] => Raise TypeError | [c] => if (c =? 43) || (c =? 45) then Raise TypeError else to_int repr [] | _ => to_int repr [] end
      | [_] => to_int repr s1
      | a :: b :: r =>
          if (a =? 46) && is_dec b then
            let '(ds, s2) := span is_dec r in
            match s2 with
            | [] => to_float (repr ++ a :: b :: ds) []
            | _ => exponent (repr ++ a :: b :: ds) true s2
            end
          else exponent repr false s1
      end
  end.
(** 386-413 *)
Definition numeric_token (fuel : nat) (s : str) : res (token * str) :=
  match number s with
  | Raise e => Raise e
  | Ret (v, f, rest) =>
      match ident_sequence rest with
      | Raise e => Raise e
      | Ret true => match ident_seq fuel rest with Ret (u, rest2) => Ret (TDimension v f u, rest2) | Raise e => Raise e end
      | Ret false =>
          match rest with
          | c :: r => if c =? 37 then Ret (TPercentage v f, r) else Ret (TNumber v f, rest)
          | [] => Ret (TNumber v f, rest)
          end
      end
  end.
(** 485-492, each iteration starting with the [read]; [str + None] raises TypeError *)
Fixpoint bad_url_rest (fuel : nat) (s : str) : res str :=
  match fuel with
  | O => Raise OutOfFuel
  | S k =>
      match s with
      | [] => Ret []
      | c :: r =>
          if c =? 41 then Ret r
          else match r with
               | [] => Raise TypeError
               | d :: _ => if valid_escape [c; d] then bad_url_rest k (snd (escaped r)) else bad_url_rest k r
               end
      end
  end.
(** 447-478; [None]: a bad url *)
Fixpoint url_body (fuel : nat) (s : str) : res (option str * str) :=
  match fuel with
  | O => Raise OutOfFuel
  | S k =>
      match s with
      | [] => Ret (Some [], [])
      | c :: r =>
          if c =? 41 then Ret (Some [], r)
          else if is_space c then url_body k r
          else if (c =? 34) || (c =? 39) || (c =? 40) || non_printable c then
            match bad_url_rest k s with Ret rest => Ret (None, rest) | Raise e => Raise e end
          else
            let '(x, r2) := if (c =? 92) && valid_escape s then escaped r else (c, r) in
            match url_body k r2 with
            | Ret (Some v, rest) => Ret (Some (x :: v), rest)
            | Ret (None, rest) => Ret (None, rest)
            | Raise e => Raise e
            end
      end
  end.
(** 424-428: whitespace is skipped while two of them are left *)
Fixpoint url_space (s : str) : str :=
  match s with
  | a :: r => match r with b :: _ => if is_space a && is_space b then url_space r else s | [] => s end
  | [] => s
  end.
Definition is_quote (c : N) : bool := (c =? 34) || (c =? 39).
(** [string.lower() == "url"] for three characters *)
Definition is_url_name (v : str) : bool :=
  match v with
  | [a; b; c] => ((a =? 117) || (a =? 85)) && ((b =? 114) || (b =? 82)) && ((c =? 108) || (c =? 76))
  | _ => false
  end.
(** 416-444 *)
Definition ident_like (fuel : nat) (s : str) : res (token * str) :=
  match ident_seq fuel s with
  | Raise e => Raise e
  | Ret (v, rest) =>
      match rest with
      | p :: r =>
          if p =? 40 then
            if is_url_name v then
              let r2 := url_space r in
              match r2 with
              | [] => Ret (TIdent v, [])
              | a :: t =>
                  if is_quote a || (is_space a && match t with b :: _ => is_quote b | [] => false end) then Ret (TFunction v, r2)
                  else match url_body fuel r2 with
                       | Ret (Some u, rest2) => Ret (TUrl u, rest2)
                       | Ret (None, rest2) => Ret (TBadUrl, rest2)
                       | Raise e => Raise e
                       end
              end
            else Ret (TFunction v, r)
          else Ret (TIdent v, rest)
      | [] => Ret (TIdent v, [])
      end
  end.

(** * One turn of the loop of 32-187, on a text that is not at its end *)
Definition next_token (fuel : nat) (c : N) (r : str) : res (token * str) :=
  let s := c :: r in
  let after_hash :=
    match r with
    | [] => Raise TypeError
    | d :: _ =>
        if ident_cp d || valid_escape r then
          match ident_sequence r with
          | Raise e => Raise e
          | Ret id => match ident_seq fuel r with Ret (v, rest) => Ret (THash id v, rest) | Raise e => Raise e end
          end
        else Ret (TDelim [35], r)
    end in
  if (c =? 47) && match r with d :: _ => d =? 42 | [] => false end then
    (* 33-35; at the end of the text the loop body goes on with the first character *)
    match comment_body (tl r) with
    | Some (v, rest) => Ret (TComment v, rest)
    | None => Ret (TDelim [47], [])
    end
  else if is_space c then let '(w, rest) := span is_space s in Ret (TWhitespace w, rest)
  else if c =? 34 then string_token fuel 34 r
  else if c =? 35 then after_hash
  else if c =? 39 then string_token fuel 39 r
  else if c =? 40 then Ret (TLParen, r)
  else if c =? 41 then Ret (TRParen, r)
  else if c =? 43 then if is_number s then numeric_token fuel s else Ret (TDelim [43], r)
  else if c =? 44 then Ret (TComma, r)
  else if c =? 45 then
    if is_number s then numeric_token fuel s
    else if starts_with [45; 45; 62] s then Ret (TCDC, skipn 3 s)
    else match ident_sequence s with
         | Raise e => Raise e
         | Ret true => ident_like fuel s
         | Ret false => Ret (TDelim [45], r)
         end
  else if c =? 46 then if is_number s then numeric_token fuel s else Ret (TDelim [46], r)
  else if c =? 58 then Ret (TColon, r)
  else if c =? 59 then Ret (TSemicolon, r)
  else if c =? 60 then if starts_with [60; 33; 45; 45] s then Ret (TCDO, skipn 4 s) else Ret (TDelim [60], r)
  else if c =? 64 then
    match ident_sequence r with
    | Raise e => Raise e
    | Ret true => match ident_seq fuel r with Ret (v, rest) => Ret (TAt v, rest) | Raise e => Raise e end
    | Ret false => Ret (TDelim [64], r)
    end
  else if c =? 91 then Ret (TLSquare, r)
  else if c =? 92 then if valid_escape s then ident_like fuel s else Ret (TDelim [92], r)
  else if c =? 93 then Ret (TRSquare, r)
  else if c =? 123 then Ret (TLCurly, r)
  else if c =? 125 then Ret (TRCurly, r)
  else if is_dec c then numeric_token fuel s
  else if ident_start c then ident_like fuel s
  else Ret (TDelim [c], r).

(** 32-189: the tokens yielded, and the exception that ended the generator, if any *)
Fixpoint tokens (fuel : nat) (s : str) : list token * option exn :=
  match s with
  | [] => ([TEof], None)
  | c :: r =>
      match fuel with
      | O => ([], Some OutOfFuel)
      | S k =>
          match next_token fuel c r with
          | Raise e => ([], Some e)
          | Ret (t, rest) => let '(l, e) := tokens k rest in (t :: l, e)
          end
      end
  end.
Definition tokenize (s : str) : list token * option exn := tokens (2 + length s)%nat s.

(** * serializer.py *)
(** [hex(n)[2:]] *)
Fixpoint hex_digits (fuel : nat) (n : N) (acc : str) : str :=
  match fuel with
  | O => acc
  | S k => let acc' := Json.hex_digit (n mod 16) :: acc in if n / 16 =? 0 then acc' else hex_digits k (n / 16) acc'
  end.
Definition hex (n : N) : str := hex_digits (S (N.to_nat (N.size n))) n [].
(** 92-100 *)
Definition special (c : N) : option N :=
  if c =? 10 then Some 110 else if c =? 13 then Some 114 else if c =? 9 then Some 116 else if c =? 8 then Some 98
  else if c =? 12 then Some 102 else if c =? 11 then Some 118 else if c =? 0 then Some 48 else None.
(** 106-125; [simple] holds the quote too *)
Definition serialize_char (simple : N -> bool) (c : N) : str :=
  if simple c then [92; c]
  else match special c with
       | Some x => [92; x]
       | None => if (c <=? 8) || (c =? 11) || ((14 <=? c) && (c <=? 31)) || (127 <=? c) then 92 :: hex c else [c]
       end.
Definition serialize_string (quote : option N) (simple : list N) (v : str) : str :=
  let q := match quote with Some x => [x] | None => [] end in
  q ++ flat_map (serialize_char (fun c => existsb (N.eqb c) (q ++ simple))) v ++ q.
(** 82-89 *)
Definition auto_quote (v : str) : str :=
  if negb (existsb (N.eqb 34) v) then serialize_string (Some 34) [92] v
  else if negb (existsb (N.eqb 39) v) then serialize_string (Some 39) [92] v
  else serialize_string (Some 34) [92] v.
Definition num_str (v : num) : str := match v with NInt z => print_Z z | NFloat f => float_str f end.
(** 5-74 *)
Definition serialize (t : token) : str :=
  match t with
  | TWhitespace v => v
  | TString v => auto_quote v
  | TBadString _ => [34; 10]
  | THash _ v => 35 :: v
  | TDelim v => v
  | TLParen => [40] | TRParen => [41]
  | TNumber v _ => num_str v
  | TPercentage v _ => num_str v ++ [37]
  | TDimension v _ u => num_str v ++ u
  | TComma => [44]
  | TCDC => [45; 45; 62]
  | TIdent v => v
  | TFunction v => v ++ [40]
  | TUrl v => [117; 114; 108; 40] ++ serialize_string None [34; 39; 40; 92] v ++ [41]
  | TBadUrl => [117; 114; 108; 40; 40; 41]
  | TColon => [58] | TSemicolon => [59]
  | TCDO => [60; 33; 45; 45]
  | TAt v => 64 :: v
  | TLSquare => [91] | TRSquare => [93] | TLCurly => [123] | TRCurly => [125]
  | TComment v => [47; 42] ++ v ++ [42; 47]
  | TEof => []
  end.
(** 77-79 *)
Definition serialize_many (ts : list token) : str := flat_map serialize ts.

End Css.
Arguments NInt {F} z. Arguments NFloat {F} f.
