(** A small model of the parts of python's json module that the project uses:
    [json.dump] with default settings (ensure_ascii, separators ", " and ": ")
    and [json.load].  This is python's standard library, not code of /repo; the
    functions follow json/encoder.py and json/decoder.py. *)
From Verif Require Import Base.
From Coq Require Import List NArith ZArith Bool Ascii String.
Import ListNotations.
Open Scope N_scope.

(** Values; a number is kept as its source text, to be interpreted by int() or
    float(). *)
Inductive json :=
| JNull | JBool (b : bool) | JNum (raw : str) | JStr (s : str)
| JList (l : list json) | JObj (l : list (str * json)).

(** ** characters *)
Definition c_quote := 34. Definition c_bs := 92. Definition c_comma := 44. Definition c_colon := 58.
Definition c_lbrace := 123. Definition c_rbrace := 125. Definition c_lbrack := 91. Definition c_rbrack := 93.
Definition c_space := 32. Definition c_minus := 45. Definition c_plus := 43. Definition c_dot := 46.

(** one lower-case hex digit, ['{0:04x}'.format] *)
Definition hex_digit (d : N) : N := if d <? 10 then 48 + d else 87 + d.
Definition hex4 (n : N) : str :=
  [hex_digit (n / 4096 mod 16); hex_digit (n / 256 mod 16); hex_digit (n / 16 mod 16); hex_digit (n mod 16)].

(** encoder.py py_encode_basestring_ascii: one character *)
Definition escape_char (c : N) : str :=
  if c =? c_quote then [c_bs; c_quote]
  else if c =? c_bs then [c_bs; c_bs]
  else if c =? 10 then [c_bs; 110]
  else if c =? 13 then [c_bs; 114]
  else if c =? 9 then [c_bs; 116]
  else if c =? 12 then [c_bs; 102]
  else if c =? 8 then [c_bs; 98]
  else if (32 <=? c) && (c <=? 126) then [c]
  else if c <? 65536 then [c_bs; 117] ++ hex4 c
  else let v := c - 65536 in
       [c_bs; 117] ++ hex4 (55296 + v / 1024) ++ [c_bs; 117] ++ hex4 (56320 + v mod 1024).

Definition dump_str (s : str) : str := [c_quote] ++ flat_map escape_char s ++ [c_quote].

(** [sep.join(l)] *)
Fixpoint join (sep : str) (l : list str) : str :=
  match l with
  | [] => []
  | [x] => x
  | x :: r => x ++ sep ++ join sep r
  end.

(** json.dump of a value *)
Fixpoint dump (v : json) : str :=
  match v with
  | JNull => lit "null" | JBool true => lit "true" | JBool false => lit "false"
  | JNum raw => raw
  | JStr s => dump_str s
  | JList l => [c_lbrack] ++ join (lit ", ") (map dump l) ++ [c_rbrack]
  | JObj l => [c_lbrace] ++ join (lit ", ") (map (fun kv => dump_str (fst kv) ++ lit ": " ++ dump (snd kv)) l) ++ [c_rbrace]
  end.

(** ** parsing *)
Definition is_ws (c : N) : bool := (c =? 32) || (c =? 9) || (c =? 10) || (c =? 13).
Fixpoint skip_ws (s : str) : str :=
  match s with [] => [] | c :: r => if is_ws c then skip_ws r else s end.

Definition hex_val (c : N) : option N :=
  if (48 <=? c) && (c <=? 57) then Some (c - 48)
  else if (97 <=? c) && (c <=? 102) then Some (c - 87)
  else if (65 <=? c) && (c <=? 70) then Some (c - 55)
  else None.
(** decoder.py _decode_uXXXX *)
Definition take_hex4 (s : str) : option (N * str) :=
  match s with
  | a :: b :: c :: d :: r =>
      match hex_val a, hex_val b, hex_val c, hex_val d with
      | Some a, Some b, Some c, Some d => Some (((a * 16 + b) * 16 + c) * 16 + d, r)
      | _, _, _, _ => None
      end
  | _ => None
  end.

(** decoder.py py_scanstring, after the opening quote; fuel = characters left *)
Fixpoint scan_str (fuel : nat) (s : str) : option (str * str) :=
  match fuel with
  | O => None
  | S fuel' =>
      match s with
      | [] => None
      | c :: r =>
          if c =? c_quote then Some ([], r)
          else if c =? c_bs then
            match r with
            | [] => None
            | e :: r2 =>
                if e =? 117 then
                  match take_hex4 r2 with
                  | None => None
                  | Some (u, r3) =>
                      let alone := match scan_str fuel' r3 with Some (t, rest) => Some (u :: t, rest) | None => None end in
                      if (55296 <=? u) && (u <=? 56319) then
                        match r3 with
                        | b :: x :: r4 =>
                            if (b =? c_bs) && (x =? 117) then
                              match take_hex4 r4 with
                              | None => None
                              | Some (u2, r5) =>
                                  if (56320 <=? u2) && (u2 <=? 57343) then
                                    match scan_str fuel' r5 with
                                    | Some (t, rest) => Some (65536 + (u - 55296) * 1024 + (u2 - 56320) :: t, rest)
                                    | None => None
                                    end
                                  else alone
                              end
                            else alone
                        | _ => alone
                        end
                      else alone
                  end
                else
                  let simple := if e =? c_quote then Some c_quote else if e =? c_bs then Some c_bs
                    else if e =? 47 then Some 47 else if e =? 98 then Some 8 else if e =? 102 then Some 12
                    else if e =? 110 then Some 10 else if e =? 114 then Some 13 else if e =? 116 then Some 9 else None in
                  match simple with
                  | None => None
                  | Some d => match scan_str fuel' r2 with Some (t, rest) => Some (d :: t, rest) | None => None end
                  end
            end
          else if c <? 32 then None
          else match scan_str fuel' r with Some (t, rest) => Some (c :: t, rest) | None => None end
      end
  end.

(** scanner.py NUMBER_RE: (-?(?:0|[1-9]\d* ))(\.\d+)?([eE][-+]?\d+)? *)
Definition is_digit (c : N) : bool := (48 <=? c) && (c <=? 57).
Fixpoint span_digits (s : str) : str * str :=
  match s with
  | [] => ([], [])
  | c :: r => if is_digit c then let '(d, t) := span_digits r in (c :: d, t) else ([], s)
  end.
Definition scan_int_part (s : str) : option (str * str) :=
  match s with
  | c :: r => if c =? 48 then Some ([48], r)
              else if is_digit c then let '(d, t) := span_digits r in Some (c :: d, t)
              else None
  | [] => None
  end.
Definition scan_frac (s : str) : str * str :=
  match s with
  | c :: r => if c =? c_dot then match span_digits r with ([], _) => ([], s) | (d, t) => (c :: d, t) end else ([], s)
  | [] => ([], [])
  end.
Definition scan_exp (s : str) : str * str :=
  match s with
  | e :: r =>
      if (e =? 101) || (e =? 69) then
        match r with
        | sg :: r2 =>
            if (sg =? c_minus) || (sg =? c_plus) then
              match span_digits r2 with ([], _) => ([], s) | (d, t) => (e :: sg :: d, t) end
            else match span_digits r with ([], _) => ([], s) | (d, t) => (e :: d, t) end
        | [] => ([], s)
        end
      else ([], s)
  | [] => ([], [])
  end.
Definition scan_number (s : str) : option (str * str) :=
  let '(sign, s1) := match s with c :: r => if c =? c_minus then ([c_minus], r) else ([], s) | [] => ([], s) end in
  match scan_int_part s1 with
  | None => None
  | Some (i, s2) => let '(f, s3) := scan_frac s2 in let '(e, s4) := scan_exp s3 in Some (sign ++ i ++ f ++ e, s4)
  end.

Definition strip_prefix (p s : str) : option str :=
  if starts_with p s then Some (skipn (List.length p) s) else None.

(** scanner.py py_make_scanner, decoder.py JSONObject and JSONArray.  Objects
    are returned as the list of pairs in source order. *)
Fixpoint parse_value (fuel : nat) (s : str) : option (json * str) :=
  match fuel with
  | O => None
  | S fuel' =>
      match s with
      | [] => None
      | c :: r =>
          if c =? c_quote then match scan_str (S (List.length r)) r with Some (t, rest) => Some (JStr t, rest) | None => None end
          else if c =? c_lbrace then
            match skip_ws r with
            | [] => None
            | x :: r' => if x =? c_rbrace then Some (JObj [], r')
                         else if x =? c_quote then
                                match parse_pairs fuel' r' with Some (l, rest) => Some (JObj l, rest) | None => None end
                         else None
            end
          else if c =? c_lbrack then
            match skip_ws r with
            | [] => None
            | x :: r' => if x =? c_rbrack then Some (JList [], r')
                         else match parse_items fuel' (x :: r') with Some (l, rest) => Some (JList l, rest) | None => None end
            end
          else match strip_prefix (lit "null") s with Some rest => Some (JNull, rest) | None =>
               match strip_prefix (lit "true") s with Some rest => Some (JBool true, rest) | None =>
               match strip_prefix (lit "false") s with Some rest => Some (JBool false, rest) | None =>
               match scan_number s with Some (n, rest) => Some (JNum n, rest) | None => None end end end end
      end
  end
(** after the opening quote of a key *)
with parse_pairs (fuel : nat) (s : str) : option (list (str * json) * str) :=
  match fuel with
  | O => None
  | S fuel' =>
      match scan_str (S (List.length s)) s with
      | None => None
      | Some (k, s1) =>
          match skip_ws s1 with
          | c :: s2 =>
              if c =? c_colon then
                match parse_value fuel' (skip_ws s2) with
                | None => None
                | Some (v, s3) =>
                    match skip_ws s3 with
                    | d :: s4 =>
                        if d =? c_rbrace then Some ([(k, v)], s4)
                        else if d =? c_comma then
                          match skip_ws s4 with
                          | q :: s5 => if q =? c_quote then
                                         match parse_pairs fuel' s5 with Some (l, rest) => Some ((k, v) :: l, rest) | None => None end
                                       else None
                          | [] => None
                          end
                        else None
                    | [] => None
                    end
                end
              else None
          | [] => None
          end
      end
  end
with parse_items (fuel : nat) (s : str) : option (list json * str) :=
  match fuel with
  | O => None
  | S fuel' =>
      match parse_value fuel' s with
      | None => None
      | Some (v, s1) =>
          match skip_ws s1 with
          | d :: s2 =>
              if d =? c_rbrack then Some ([v], s2)
              else if d =? c_comma then
                match parse_items fuel' (skip_ws s2) with Some (l, rest) => Some (v :: l, rest) | None => None end
              else None
          | [] => None
          end
      end
  end.

(** json.load: the whole text must be one value (surrounding white space
    allowed).  [None] stands for JSONDecodeError. *)
Definition json_load (s : str) : option json :=
  match parse_value (S (2 * List.length s)) (skip_ws s) with
  | Some (v, rest) => match skip_ws rest with [] => Some v | _ => None end
  | None => None
  end.

(** ** integers: str(int) / int(str) in base 10 *)
Fixpoint print_digits (fuel : nat) (n : N) (acc : str) : str :=
  match fuel with
  | O => acc
  | S f => let acc' := (48 + n mod 10) :: acc in
           if n / 10 =? 0 then acc' else print_digits f (n / 10) acc'
  end.
Definition print_N (n : N) : str := print_digits (S (N.to_nat (N.size n))) n [].
Definition print_Z (z : Z) : str :=
  match z with
  | Z0 => [48]
  | Zpos p => print_N (Npos p)
  | Zneg p => c_minus :: print_N (Npos p)
  end.
Definition parse_N (s : str) : option N :=
  match s with
  | [] => None
  | _ => fold_left (fun acc c => match acc with
                                 | Some a => if is_digit c then Some (a * 10 + (c - 48)) else None
                                 | None => None end) s (Some 0)
  end.
Definition parse_Z (s : str) : option Z :=
  match s with
  | c :: r => if c =? c_minus then match parse_N r with Some n => Some (- Z.of_N n)%Z | None => None end
              else match parse_N s with Some n => Some (Z.of_N n) | None => None end
  | [] => None
  end.

(** member access [v["k"]]; a later duplicate key wins, as in a python dict *)
Definition jget (k : str) (v : json) : option json :=
  match v with
  | JObj l => dget k (rev l)
  | _ => None
  end.
