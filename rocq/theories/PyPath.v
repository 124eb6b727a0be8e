(** Parts of python's posixpath and urllib.parse (standard library, not in /repo)
    that the code relies on. *)
From Verif Require Import Base.
From Coq Require Import String ZArith NArith Bool List.
Import ListNotations.
Open Scope list_scope.
Open Scope N_scope.

(** posixpath.join of two components *)
Definition join2 (a b : str) : str :=
  match b with
  | c :: _ => if c =? 47 then b
              else match a with [] => b | _ => if last a 0 =? 47 then a ++ b else a ++ [47] ++ b end
  | [] => match a with [] => [] | _ => if last a 0 =? 47 then a else a ++ [47] end
  end.
Definition join_path (a : str) (l : list str) : str := fold_left join2 l a.

(** the bytes of [s.encode("utf-8")]; surrogates, which raise UnicodeEncodeError, are
    encoded like their neighbours *)
Definition utf8 (c : N) : list N :=
  if c <? 128 then [c]
  else if c <? 2048 then [192 + c / 64; 128 + c mod 64]
  else if c <? 65536 then [224 + c / 4096; 128 + c / 64 mod 64; 128 + c mod 64]
  else [240 + c / 262144; 128 + c / 4096 mod 64; 128 + c / 64 mod 64; 128 + c mod 64].
Definition hex_upper (d : N) : N := if d <? 10 then 48 + d else 55 + d.
Definition unreserved (c : N) : bool :=
  ((48 <=? c) && (c <=? 57)) || ((65 <=? c) && (c <=? 90)) || ((97 <=? c) && (c <=? 122)) || (c =? 95) || (c =? 46) || (c =? 45) || (c =? 126).
(** urllib.parse.quote_plus with the default safe set *)
Definition quote_char (c : N) : str :=
  if c =? 32 then [43] else if unreserved c then [c] else flat_map (fun b => [37; hex_upper (b / 16); hex_upper (b mod 16)]) (utf8 c).
Definition quote_plus (s : str) : str := flat_map quote_char s.
(** urlencode of a dict *)
Fixpoint urlencode (d : list (str * str)) : str :=
  match d with
  | [] => []
  | [(k, v)] => quote_plus k ++ [61] ++ quote_plus v
  | (k, v) :: r => quote_plus k ++ [61] ++ quote_plus v ++ [38] ++ urlencode r
  end.
(** vanillaplusjs/constants.py 6 *)
Definition PROCESSOR_VERSION : str := lit "1.3.2".
