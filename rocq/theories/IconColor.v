(** Model of /repo/vanillaplusjs/build/css/manips/icons/color.py (whole file) and of the
    colour tables of settings.py (223-365). *)
From Verif Require Import Base Graph Css.
From Coq Require Import String ZArith NArith Bool List.
Import ListNotations.
Open Scope list_scope.
Open Scope N_scope.

(** color.py 4-10 *)
Record color := mkColor { red : Z; green : Z; blue : Z }.

Section Color.
(** what python turns a character from 127 on into before reading a number: an ASCII
    digit for a decimal digit, a space for a space, "?" otherwise *)
Context (plain : N -> N).
(** str.lower of one character from 128 on *)
Context (lower_high : N -> str).

(** the value of a hex digit *)
Definition digit16 (c : N) : option Z :=
  if (48 <=? c) && (c <=? 57) then Some (Z.of_N c - 48)%Z
  else if (65 <=? c) && (c <=? 70) then Some (Z.of_N c - 55)%Z
  else if (97 <=? c) && (c <=? 102) then Some (Z.of_N c - 87)%Z
  else None.
Definition blank (c : N) : bool := ((9 <=? c) && (c <=? 13)) || (c =? 32).
Definition ascii (c : N) : N := if c <? 127 then c else plain c.
(** python's [int(text, 16)] for a text of two characters: two digits, a sign and a digit,
    or one digit and one blank (prefixes and underscores need three characters) *)
Definition int16 (a b : N) : res Z :=
  let a := ascii a in let b := ascii b in
  match digit16 a, digit16 b with
  | Some x, Some y => Ret (16 * x + y)%Z
  | None, Some y => if (a =? 43) || blank a then Ret y else if a =? 45 then Ret (- y)%Z else Raise ValueError
  | Some x, None => if blank b then Ret x else Raise ValueError
  | None, None => Raise ValueError
  end.
Definition three (r g b : res Z) : res color :=
  match r with
  | Raise e => Raise e
  | Ret r => match g with
    | Raise e => Raise e
    | Ret g => match b with Raise e => Raise e | Ret b => Ret (mkColor r g b) end
    end
  end.
(** color.py 12-35 *)
Definition from_hex (s : str) : res color :=
  match s with
  | [] => Raise IndexError
  | h :: t =>
      if negb (h =? 35) then Raise ValueError
      else match t with
        | [r1; r2; g1; g2; b1; b2] => three (int16 r1 r2) (int16 g1 g2) (int16 b1 b2)
        | [r; g; b] => three (int16 r r) (int16 g g) (int16 b b)
        | _ => Raise ValueError
        end
  end.
Definition digit_char (n : N) : N := if n <? 10 then 48 + n else 55 + n.
(** the digits of a number, most significant first, at least two *)
Fixpoint hex_upper (fuel : nat) (n : N) (acc : str) : str :=
  match fuel with
  | O => acc
  | S k => let acc := digit_char (n mod 16) :: acc in if n <? 16 then acc else hex_upper k (n / 16) acc
  end.
(** format(x, "02X") *)
Definition format02X (x : Z) : str :=
  let n := Z.abs_N x in
  let s := hex_upper (S (N.to_nat (N.size n))) n [] in
  if (x <? 0)%Z then 45 :: s else match s with [c] => [48; c] | _ => s end.
(** color.py 37-38 *)
Definition to_hex (c : color) : str := lit "#" ++ format02X (red c) ++ format02X (green c) ++ format02X (blue c).

(** str.lower *)
Definition lower_char (c : N) : str := if c <? 128 then [if (65 <=? c) && (c <=? 90) then c + 32 else c] else lower_high c.
Definition lower (s : str) : str := flat_map lower_char s.
(** settings.py 223-365 *)
Definition named_colors : list (str * color) :=
  [(lit "aliceblue", mkColor 240 248 255);
   (lit "antiquewhite", mkColor 250 235 215);
   (lit "aqua", mkColor 0 255 255);
   (lit "aquamarine", mkColor 127 255 212);
   (lit "azure", mkColor 240 255 255);
   (lit "beige", mkColor 245 245 220);
   (lit "bisque", mkColor 255 228 196);
   (lit "black", mkColor 0 0 0);
   (lit "blanchedalmond", mkColor 255 235 205);
   (lit "blue", mkColor 0 0 255);
   (lit "blueviolet", mkColor 138 43 226);
   (lit "brown", mkColor 165 42 42);
   (lit "burlywood", mkColor 222 184 135);
   (lit "cadetblue", mkColor 95 158 160);
   (lit "chartreuse", mkColor 127 255 0);
   (lit "chocolate", mkColor 210 105 30);
   (lit "coral", mkColor 255 127 80);
   (lit "cornflowerblue", mkColor 100 149 237);
   (lit "cornsilk", mkColor 255 248 220);
   (lit "crimson", mkColor 220 20 60);
   (lit "cyan", mkColor 0 255 255);
   (lit "darkblue", mkColor 0 0 139);
   (lit "darkcyan", mkColor 0 139 139);
   (lit "darkgoldenrod", mkColor 184 134 11);
   (lit "darkgray", mkColor 169 169 169);
   (lit "darkgreen", mkColor 0 100 0);
   (lit "darkkhaki", mkColor 189 183 107);
   (lit "darkmagenta", mkColor 139 0 139);
   (lit "darkolivegreen", mkColor 85 107 47);
   (lit "darkorange", mkColor 255 140 0);
   (lit "darkorchid", mkColor 153 50 204);
   (lit "darkred", mkColor 139 0 0);
   (lit "darksalmon", mkColor 233 150 122);
   (lit "darkseagreen", mkColor 143 188 143);
   (lit "darkslateblue", mkColor 72 61 139);
   (lit "darkslategray", mkColor 47 79 79);
   (lit "darkturquoise", mkColor 0 206 209);
   (lit "darkviolet", mkColor 148 0 211);
   (lit "deeppink", mkColor 255 20 147);
   (lit "deepskyblue", mkColor 0 191 255);
   (lit "dimgray", mkColor 105 105 105);
   (lit "dodgerblue", mkColor 30 144 255);
   (lit "firebrick", mkColor 178 34 34);
   (lit "floralwhite", mkColor 255 250 240);
   (lit "forestgreen", mkColor 34 139 34);
   (lit "fuchsia", mkColor 255 0 255);
   (lit "gainsboro", mkColor 220 220 220);
   (lit "ghostwhite", mkColor 248 248 255);
   (lit "gold", mkColor 255 215 0);
   (lit "goldenrod", mkColor 218 165 32);
   (lit "gray", mkColor 127 127 127);
   (lit "green", mkColor 0 128 0);
   (lit "greenyellow", mkColor 173 255 47);
   (lit "honeydew", mkColor 240 255 240);
   (lit "hotpink", mkColor 255 105 180);
   (lit "indianred", mkColor 205 92 92);
   (lit "indigo", mkColor 75 0 130);
   (lit "ivory", mkColor 255 255 240);
   (lit "khaki", mkColor 240 230 140);
   (lit "lavender", mkColor 230 230 250);
   (lit "lavenderblush", mkColor 255 240 245);
   (lit "lawngreen", mkColor 124 252 0);
   (lit "lemonchiffon", mkColor 255 250 205);
   (lit "lightblue", mkColor 173 216 230);
   (lit "lightcoral", mkColor 240 128 128);
   (lit "lightcyan", mkColor 224 255 255);
   (lit "lightgoldenrodyellow", mkColor 250 250 210);
   (lit "lightgreen", mkColor 144 238 144);
   (lit "lightgrey", mkColor 211 211 211);
   (lit "lightpink", mkColor 255 182 193);
   (lit "lightsalmon", mkColor 255 160 122);
   (lit "lightseagreen", mkColor 32 178 170);
   (lit "lightskyblue", mkColor 135 206 250);
   (lit "lightslategray", mkColor 119 136 153);
   (lit "lightsteelblue", mkColor 176 196 222);
   (lit "lightyellow", mkColor 255 255 224);
   (lit "lime", mkColor 0 255 0);
   (lit "limegreen", mkColor 50 205 50);
   (lit "linen", mkColor 250 240 230);
   (lit "magenta", mkColor 255 0 255);
   (lit "maroon", mkColor 128 0 0);
   (lit "mediumaquamarine", mkColor 102 205 170);
   (lit "mediumblue", mkColor 0 0 205);
   (lit "mediumorchid", mkColor 186 85 211);
   (lit "mediumpurple", mkColor 147 112 219);
   (lit "mediumseagreen", mkColor 60 179 113);
   (lit "mediumslateblue", mkColor 123 104 238);
   (lit "mediumspringgreen", mkColor 0 250 154);
   (lit "mediumturquoise", mkColor 72 209 204);
   (lit "mediumvioletred", mkColor 199 21 133);
   (lit "midnightblue", mkColor 25 25 112);
   (lit "mintcream", mkColor 245 255 250);
   (lit "mistyrose", mkColor 255 228 225);
   (lit "moccasin", mkColor 255 228 181);
   (lit "navajowhite", mkColor 255 222 173);
   (lit "navy", mkColor 0 0 128);
   (lit "navyblue", mkColor 159 175 223);
   (lit "oldlace", mkColor 253 245 230);
   (lit "olive", mkColor 128 128 0);
   (lit "olivedrab", mkColor 107 142 35);
   (lit "orange", mkColor 255 165 0);
   (lit "orangered", mkColor 255 69 0);
   (lit "orchid", mkColor 218 112 214);
   (lit "palegoldenrod", mkColor 238 232 170);
   (lit "palegreen", mkColor 152 251 152);
   (lit "paleturquoise", mkColor 175 238 238);
   (lit "palevioletred", mkColor 219 112 147);
   (lit "papayawhip", mkColor 255 239 213);
   (lit "peachpuff", mkColor 255 218 185);
   (lit "peru", mkColor 205 133 63);
   (lit "pink", mkColor 255 192 203);
   (lit "plum", mkColor 221 160 221);
   (lit "powderblue", mkColor 176 224 230);
   (lit "purple", mkColor 128 0 128);
   (lit "red", mkColor 255 0 0);
   (lit "rosybrown", mkColor 188 143 143);
   (lit "royalblue", mkColor 65 105 225);
   (lit "saddlebrown", mkColor 139 69 19);
   (lit "salmon", mkColor 250 128 114);
   (lit "sandybrown", mkColor 250 128 114);
   (lit "seagreen", mkColor 46 139 87);
   (lit "seashell", mkColor 255 245 238);
   (lit "sienna", mkColor 160 82 45);
   (lit "silver", mkColor 192 192 192);
   (lit "skyblue", mkColor 135 206 235);
   (lit "slateblue", mkColor 106 90 205);
   (lit "slategray", mkColor 112 128 144);
   (lit "snow", mkColor 255 250 250);
   (lit "springgreen", mkColor 0 255 127);
   (lit "steelblue", mkColor 70 130 180);
   (lit "tan", mkColor 210 180 140);
   (lit "teal", mkColor 0 128 128);
   (lit "thistle", mkColor 216 191 216);
   (lit "tomato", mkColor 255 99 71);
   (lit "turquoise", mkColor 64 224 208);
   (lit "violet", mkColor 238 130 238);
   (lit "wheat", mkColor 245 222 179);
   (lit "white", mkColor 255 255 255);
   (lit "whitesmoke", mkColor 245 245 245);
   (lit "yellow", mkColor 255 255 0);
   (lit "yellowgreen", mkColor 154 205 50)].
(** string.hexdigits *)
Definition hex_digit (c : N) : bool := match digit16 c with Some _ => true | None => false end.
(** settings.py 368-393.  [None]: not a colour; the call of [from_hex] might raise. *)
Definition interpret_as_color {F} (tokens : list (token (F := F))) : res (option color) :=
  match tokens with
  | [TIdent v] => Ret (dget (lower v) named_colors)
  | [THash _ v] =>
      if negb (Nat.eqb (length v) 3) && negb (Nat.eqb (length v) 6) then Ret None
      else if negb (forallb hex_digit v) then Ret None
      else match from_hex (lit "#" ++ v) with Ret c => Ret (Some c) | Raise e => Raise e end
  | _ => Ret None
  end.
End Color.
