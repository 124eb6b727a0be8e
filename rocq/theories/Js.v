(** Model of /repo/vanillaplusjs/build/js/tokenizer.py (whole file), token.py (13-54),
    serializer.py (whole file) and unicode_derived.py (75-110).

    As in [Css], the reader is the text that is left: [peek(n)] is [None] on the empty
    text and its first [n] characters otherwise, [read(n)] drops them.  That is what the
    preprocessing reader does on texts without a CRLF (C20). *)
From Verif Require Import Base Graph Css JsTables.
From Coq Require Import String ZArith NArith Bool List.
Import ListNotations.
Open Scope list_scope.
Open Scope N_scope.

(** token.py 13-54 *)
Inductive jtok :=
| JSpace (v : str) | JNewline | JComment (v : str) | JOpen | JClose | JStar | JAs | JImport | JFrom | JComma
| JIdent (v : str) | JString (v : str) | JSemi | JRegex (v flags : str) | JInvalid (v : str) | JEof.

(** * unicode_derived.py *)
(** 87-99: the loop on [left] and [right]; the fuel bounds it *)
Fixpoint search (fuel : nat) (ranges : list (N * N)) (needle : N) (left right : Z) : res bool :=
  if (left <=? right)%Z then
    match fuel with
    | O => Raise OutOfFuel
    | S k =>
        let mid := ((left + right) / 2)%Z in
        match nth_error ranges (Z.to_nat mid) with
        | None => Raise IndexError
        | Some (lo, hi) =>
            if (lo <=? needle) && (needle <=? hi) then Ret true
            else if needle <? lo then search k ranges needle left (mid - 1)
            else search k ranges needle (mid + 1) right
        end
    end
  else Ret false.
(** 75-101 *)
Definition is_match (c : N) (exact : list N) (ranges : list (N * N)) : res bool :=
  if existsb (N.eqb c) exact then Ret true
  else search (S (length ranges)) ranges c 0 (Z.of_nat (length ranges) - 1).
Definition yes (r : res bool) : bool := match r with Ret b => b | Raise _ => false end.
(** 104-106; C31 shows that the search raises nothing *)
Definition is_id_start (c : N) : bool := yes (is_match c exact_matches_id_start match_ranges_id_start).
(** 109-111 *)
Definition is_id_continue (c : N) : bool := yes (is_match c exact_matches_id_continue match_ranges_id_continue).

(** * tokenizer.py *)
(** 299-307 *)
Definition is_whitespace (c : N) : bool :=
  existsb (N.eqb c) [9; 11; 12; 65279; 32; 160; 5760; 8192; 8193; 8194; 8195; 8196; 8197; 8198; 8199; 8200; 8201; 8202; 8239; 8287; 12288].
(** 310-313 *)
Definition is_newline (c : N) : bool := (c =? 10) || (c =? 8232) || (c =? 8233).
(** 328-337: [acc] are the digits so far *)
Fixpoint brace_escape (acc l : str) : bool :=
  match l with
  | c :: r =>
      match r with
      | [] => false
      | _ =>
          if c =? 125 then match acc with [] => false | _ => Css.hex_num acc <=? 1114111 end
          else if Css.is_hex c then brace_escape (acc ++ [c]) r else false
      end
  | [] => false
  end.
(** 316-339 *)
Definition is_unicode_escape (nine : str) : bool :=
  match nine with
  | u :: b :: r =>
      if negb (u =? 117) then false
      else if b =? 123 then brace_escape [] r
      else (5 <=? length nine)%nat && forallb Css.is_hex (firstn 4 (b :: r))
  | _ => false
  end.
(** [peekable.peek(10)[1:]] when the text is a backslash followed by [r] *)
Definition escape_next (r : str) : bool := is_unicode_escape (firstn 9 r).
(** [chr(n)] *)
Definition py_chr (n : N) : res N := if 1114111 <? n then Raise ValueError else Ret n.
(** 184-222, on the text after the backslash; where it returns [None], [res += None]
    in 163 and 237 raises TypeError *)
Definition unicode_escape (s : str) : res (N * str) :=
  match s with
  | [] => Raise TypeError
  | u :: r =>
      if negb (u =? 117) then Raise TypeError
      else
        let four :=
          let '(ds, rest) := Css.take_hex 4 r in
          if (length ds <? 4)%nat then Raise TypeError
          else match py_chr (Css.hex_num ds) with Ret n => Ret (n, rest) | Raise e => Raise e end in
        match r with
        | b :: r2 =>
            if b =? 123 then
              let '(ds, rest) := Css.span (fun c => negb (c =? 125)) r2 in
              match rest with
              | [] => Raise TypeError
              | _ :: r3 =>
                  if negb (forallb Css.is_hex ds) then Raise TypeError
                  else match ds with
                       | [] => Raise ValueError
                       | _ => match py_chr (Css.hex_num ds) with Ret n => Ret (n, r3) | Raise e => Raise e end
                       end
              end
            else four
        | [] => four
        end
  end.
(** 143-155, after the opening of the comment *)
Fixpoint block_body (s : str) : str * str :=
  match s with
  | [] => ([], [])
  | c :: r =>
      if (c =? 42) && match r with d :: _ => d =? 47 | [] => false end then ([], tl r)
      else let '(v, rest) := block_body r in (c :: v, rest)
  end.
(** 116-141 *)
Definition comment (s : str) : option (jtok * str) :=
  match s with
  | a :: b :: r =>
      if (a =? 47) && (b =? 47) then let '(v, rest) := Css.span (fun c => negb (is_newline c)) r in Some (JComment v, rest)
      else if (a =? 47) && (b =? 42) then let '(v, rest) := block_body r in Some (JComment v, rest)
      else None
  | _ => None
  end.
(** 165-173: [started] tells that [res] is not empty *)
Fixpoint ident_body (fuel : nat) (started : bool) (s : str) : res (str * str) :=
  match fuel with
  | O => Raise OutOfFuel
  | S k =>
      match s with
      | [] => Ret ([], [])
      | c :: r =>
          if (c =? 92) && escape_next r then
            match unicode_escape r with
            | Raise e => Raise e
            | Ret (x, r2) => match ident_body k true r2 with Ret (v, rest) => Ret (x :: v, rest) | Raise e => Raise e end
            end
          else if (if started then existsb (N.eqb c) [36; 8204; 8205] || is_id_continue c else is_id_start c) then
            match ident_body k true r with Ret (v, rest) => Ret (c :: v, rest) | Raise e => Raise e end
          else Ret ([], s)
      end
  end.
(** 157-162, 178-181 *)
Definition word (v : str) : jtok :=
  if str_eqb v (lit "as") then JAs else if str_eqb v (lit "from") then JFrom else if str_eqb v (lit "import") then JImport else JIdent v.
(** 252-267 *)
Definition escaped_char (c : N) : N :=
  if c =? 110 then 10 else if c =? 114 then 13 else if c =? 116 then 9 else if c =? 98 then 8
  else if c =? 102 then 12 else if c =? 118 then 11 else if c =? 48 then 0 else c.
(** 225-270, after the opening quote [q]; the first component tells the kind of token
    ([None]: a string, [Some x]: invalid, with [x] after the value) *)
Fixpoint js_string_body (fuel : nat) (q : N) (s : str) : res (option str * str * str) :=
  match fuel with
  | O => Raise OutOfFuel
  | S k =>
      match s with
      | [] => Ret (Some [], [], [])
      | c :: r =>
          if is_newline c then Ret (Some [], [], s)
          else if c =? q then Ret (None, [], r)
          else if c =? 92 then
            if escape_next r then
              match unicode_escape r with
              | Raise e => Raise e
              | Ret (x, r2) => match js_string_body k q r2 with Ret (o, v, rest) => Ret (o, x :: v, rest) | Raise e => Raise e end
              end
            else
              match r with
              | [] => Ret (Some [92], [], [])
              | d :: r2 => match js_string_body k q r2 with Ret (o, v, rest) => Ret (o, escaped_char d :: v, rest) | Raise e => Raise e end
              end
          else match js_string_body k q r with Ret (o, v, rest) => Ret (o, c :: v, rest) | Raise e => Raise e end
      end
  end.
Definition string_literal (fuel : nat) (q : N) (s : str) : res (jtok * str) :=
  match js_string_body fuel q s with
  | Ret (None, v, rest) => Ret (JString v, rest)
  | Ret (Some x, v, rest) => Ret (JInvalid (q :: v ++ x), rest)
  | Raise e => Raise e
  end.
(** 277-291, after the opening slash; true: the closing slash was found *)
Fixpoint regex_body (level : nat) (s : str) : bool * str * str :=
  match s with
  | [] => (false, [], [])
  | c :: r =>
      if is_newline c then (false, [], s)
      else if (Nat.eqb level 0) && (c =? 47) then (true, [], r)
      else
        let level1 := if (0 <? level)%nat && (c =? 93) then pred level else level in
        let level2 := if c =? 91 then S level1 else level1 in
        match r with
        | d :: r2 =>
            if (c =? 92) && (d =? 47) then let '(b, v, rest) := regex_body level r2 in (b, c :: d :: v, rest)
            else let '(b, v, rest) := regex_body level2 r in (b, c :: v, rest)
        | [] => let '(b, v, rest) := regex_body level2 r in (b, c :: v, rest)
        end
  end.
Definition is_flag (c : N) : bool := existsb (N.eqb c) (lit "igmsuyd").
(** 273-296 *)
Definition regex (s : str) : jtok * str :=
  match regex_body 0 s with
  | (true, v, rest) => let '(f, rest2) := Css.span is_flag rest in (JRegex v f, rest2)
  | (false, v, rest) => (JInvalid (47 :: v), rest)
  end.
(** one turn of the loop of 36-95, on a text that is not at its end *)
Definition js_next (fuel : nat) (c : N) (r : str) : res (jtok * str) :=
  let s := c :: r in
  match Css.span is_whitespace s with
  | ((_ :: _) as w, rest) => Ret (JSpace w, rest)
  | ([], _) =>
      match comment s with
      | Some x => Ret x
      | None =>
          match ident_body fuel false s with
          | Raise e => Raise e
          | Ret ((_ :: _) as v, rest) => Ret (word v, rest)
          | Ret ([], _) =>
              if is_newline c then Ret (JNewline, r)
              else if c =? 123 then Ret (JOpen, r)
              else if c =? 125 then Ret (JClose, r)
              else if c =? 42 then Ret (JStar, r)
              else if c =? 44 then Ret (JComma, r)
              else if c =? 59 then Ret (JSemi, r)
              else if c =? 34 then string_literal fuel 34 r
              else if c =? 39 then string_literal fuel 39 r
              else if c =? 47 then Ret (regex r)
              else Ret (JInvalid [c], r)
          end
      end
  end.
(** 35-97 *)
Fixpoint js_tokens (fuel : nat) (s : str) : res (list jtok) :=
  match s with
  | [] => Ret [JEof]
  | c :: r =>
      match fuel with
      | O => Raise OutOfFuel
      | S k =>
          match js_next fuel c r with
          | Raise e => Raise e
          | Ret (t, rest) => match js_tokens k rest with Ret l => Ret (t :: l) | Raise e => Raise e end
          end
      end
  end.
Definition js_tokenize (s : str) : res (list jtok) := js_tokens (2 + length s)%nat s.

(** * serializer.py *)
(** [value.replace("*/", "*\\/")], 20 *)
Fixpoint guard (v : str) : str :=
  match v with
  | c :: r =>
      match r with
      | d :: r2 => if (c =? 42) && (d =? 47) then 42 :: 92 :: 47 :: guard r2 else c :: guard r
      | [] => [c]
      end
  | [] => []
  end.
(** 6-49; [serialize_string_auto_quote] is the css one *)
Definition js_serialize (t : jtok) : str :=
  match t with
  | JSpace v => v
  | JNewline => [10]
  | JComment v => [47; 42] ++ guard v ++ [42; 47]
  | JOpen => [123] | JClose => [125] | JStar => [42]
  | JAs => lit "as" | JImport => lit "import" | JFrom => lit "from"
  | JComma => [44]
  | JIdent v => v
  | JString v => auto_quote v
  | JRegex v f => [47] ++ v ++ [47] ++ f
  | JSemi => [59]
  | JInvalid v => v
  | JEof => []
  end.
(** 52-54 *)
Definition js_serialize_many (ts : list jtok) : str := flat_map js_serialize ts.
