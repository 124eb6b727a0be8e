(** The sizes of exported images: build/html/manips/images/cover_fit.py and resolutions.py.

    Numbers: an [int] is a [Z]; a finite [float] is its value, a rational; a finite
    [Decimal] is its coefficient and exponent.  NaN and infinities are not modelled, nor
    are the limits of the exponents (2^1024 for float, 10^999999 for Decimal). *)
From Verif Require Import Base Graph.
From Coq Require Import ZArith QArith Bool List.
Import ListNotations.
Open Scope list_scope.
Open Scope Z_scope.

(** * Python's arithmetic *)
(** the integer nearest to n/d, ties to even *)
Definition round_half_even (n d : Z) : Z :=
  let q := n / d in
  match 2 * (n mod d) ?= d with Lt => q | Gt => q + 1 | Eq => if Z.even q then q else q + 1 end.
(** the double nearest to n/d, for positive n and d *)
Definition nearest_double (n d : Z) : Q :=
  let e0 := Z.log2 n - Z.log2 d - 52 in
  let e := if n * 2 ^ Z.max 0 (- e0) <? 2 ^ 52 * (d * 2 ^ Z.max 0 e0) then e0 - 1 else e0 in
  let m := round_half_even (n * 2 ^ Z.max 0 (- e)) (d * 2 ^ Z.max 0 e) in
  Qred (Qmake (m * 2 ^ Z.max 0 e) (Z.to_pos (2 ^ Z.max 0 (- e)))).
Definition double (x : Q) : Q :=
  match Qnum x with
  | Z0 => 0%Q
  | Zpos n => nearest_double (Zpos n) (Zpos (Qden x))
  | Zneg n => Qopp (nearest_double (Zpos n) (Zpos (Qden x)))
  end.
(** [a / b] for two ints: rounded once *)
Definition true_div (a b : Z) : Q := double (inject_Z a / inject_Z b)%Q.
(** [a * x] for an int and a float: the int is converted first *)
Definition int_times_float (a : Z) (x : Q) : Q := double (double (inject_Z a) * x)%Q.
(** [round(x)] for a float *)
Definition round_float (x : Q) : Z := round_half_even (Qnum x) (Zpos (Qden x)).

Record dec := { coef : Z; expo : Z }.
(** the number of decimal digits of [n] *)
Fixpoint count_digits (fuel : nat) (n : Z) : Z :=
  match fuel with O => 0 | S k => if n <? 1 then 0 else 1 + count_digits k (n / 10) end.
Definition digits (n : Z) : Z := count_digits (S (Z.to_nat (Z.log2 n))) n.
(** the default context keeps 28 digits, ties to even *)
Definition fix_dec (c e : Z) : dec :=
  let k := digits (Z.abs c) - 28 in
  if k <=? 0 then {| coef := c; expo := e |} else {| coef := round_half_even c (10 ^ k); expo := e + k |}.
(** [Decimal(n)] for an int: exact *)
Definition dec_of_int (n : Z) : dec := {| coef := n; expo := 0 |}.
Definition dec_mul (a b : dec) : dec := fix_dec (coef a * coef b) (expo a + expo b).
Definition dec_add (a b : dec) : dec :=
  let e := Z.min (expo a) (expo b) in fix_dec (coef a * 10 ^ (expo a - e) + coef b * 10 ^ (expo b - e)) e.
(** [int(d)]: towards zero *)
Definition dec_int (d : dec) : Z := if 0 <=? expo d then coef d * 10 ^ expo d else Z.quot (coef d) (10 ^ (- expo d)).
(** [d <= n] for an int n: exact *)
Definition dec_at_most (d : dec) (n : Z) : bool := if 0 <=? expo d then coef d * 10 ^ expo d <=? n else coef d <=? n * 10 ^ (- expo d).

(** * cover_fit.py *)
(** 93-113; the percentages have been converted by Decimal(), which is exact for floats *)
Definition cover_fit_plain (source_width source_height dest_width dest_height : Z) (left top : dec) : res (Z * Z * Z * Z) :=
  if source_height =? 0 then Raise ZeroDivisionError else
  if dest_height =? 0 then Raise ZeroDivisionError else
  let source_ratio := true_div source_width source_height in
  let dest_ratio := true_div dest_width dest_height in
  match (source_ratio ?= dest_ratio)%Q with
  | Gt =>
      let source_resolution := true_div source_height dest_height in
      let crop_width := round_float (int_times_float dest_width source_resolution) in
      let crop_x := dec_int (dec_mul (dec_of_int (source_width - crop_width)) left) in
      Ret (crop_x, 0, crop_width, source_height)
  | Lt =>
      if dest_width =? 0 then Raise ZeroDivisionError else
      let source_resolution := true_div source_width dest_width in
      let crop_height := round_float (int_times_float dest_height source_resolution) in
      let crop_y := dec_int (dec_mul (dec_of_int (source_height - crop_height)) top) in
      Ret (0, crop_y, source_width, crop_height)
  | Eq => Ret (0, 0, source_width, source_height)
  end.
(** 5-113 *)
Definition cover_fit (source_width source_height dest_width dest_height : Z) (left top : dec) (pre_top pre_left pre_bottom pre_right : Z) : res (Z * Z * Z * Z) :=
  if negb (pre_top =? 0) || negb (pre_left =? 0) || negb (pre_bottom =? 0) || negb (pre_right =? 0) then
    if source_width - pre_left - pre_right <=? 0 then Raise ValueError else
    if source_height - pre_top - pre_bottom <=? 0 then Raise ValueError else
    match cover_fit_plain (source_width - pre_left - pre_right) (source_height - pre_top - pre_bottom) dest_width dest_height left top with
    | Raise e => Raise e
    | Ret (x, y, w, h) => Ret (pre_left + x, pre_top + y, w, h)
    end
  else cover_fit_plain source_width source_height dest_width dest_height left top.

(** * resolutions.py *)
Section Sizes.
Context (maximum_resolution : Z) (resolution_step : dec) (src_width src_height dst_width dst_height : Z).
(** 33-37 *)
Definition exported_at (resolution : dec) : bool :=
  dec_at_most (dec_mul (dec_of_int dst_width) resolution) src_width &&
  dec_at_most (dec_mul (dec_of_int dst_height) resolution) src_height &&
  dec_at_most resolution maximum_resolution.
(** 32-39; [None]: the loop has not ended after that many rounds *)
Fixpoint resolutions_from (fuel : nat) (resolution : dec) : option (list dec) :=
  match fuel with
  | O => None
  | S k =>
      if exported_at resolution
      then match resolutions_from k (dec_add resolution resolution_step) with Some l => Some (resolution :: l) | None => None end
      else Some []
  end.
Definition yield_resolutions (fuel : nat) : option (list dec) := resolutions_from fuel (dec_of_int 1).
(** 42-57 *)
Definition yield_sizes (fuel : nat) : option (list (Z * Z)) :=
  match yield_resolutions fuel with
  | None => None
  | Some l => Some (map (fun r => (dec_int (dec_mul (dec_of_int dst_width) r), dec_int (dec_mul (dec_of_int dst_height) r))) l)
  end.
End Sizes.
