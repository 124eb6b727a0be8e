(** Vocabulary for C32: hexadecimal digits, and the colour keywords of CSS. *)
From Verif Require Import Base Graph IconColor.
From Coq Require Import String ZArith NArith Bool List.
Import ListNotations.
Open Scope list_scope.
Open Scope N_scope.

Definition channel (x : Z) : Prop := (0 <= x <= 255)%Z.
Definition real_color (c : color) : Prop := channel (red c) /\ channel (green c) /\ channel (blue c).
(** the sixteen digits in value order, with both cases of the letters *)
Definition upper_digits : str := lit "0123456789ABCDEF".
Definition lower_digits : str := lit "0123456789abcdef".
(** character [c] is a digit of value [v] *)
Definition digit_value (c : N) (v : Z) : Prop :=
  exists k, v = Z.of_nat k /\ (nth_error upper_digits k = Some c \/ nth_error lower_digits k = Some c).

(** the keywords of https://www.w3.org/wiki/CSS/Properties/color/keywords *)
Definition css_keywords : list (str * str) :=
  [(lit "aliceblue", lit "#F0F8FF");
   (lit "antiquewhite", lit "#FAEBD7");
   (lit "aqua", lit "#00FFFF");
   (lit "aquamarine", lit "#7FFFD4");
   (lit "azure", lit "#F0FFFF");
   (lit "beige", lit "#F5F5DC");
   (lit "bisque", lit "#FFE4C4");
   (lit "black", lit "#000000");
   (lit "blanchedalmond", lit "#FFEBCD");
   (lit "blue", lit "#0000FF");
   (lit "blueviolet", lit "#8A2BE2");
   (lit "brown", lit "#A52A2A");
   (lit "burlywood", lit "#DEB887");
   (lit "cadetblue", lit "#5F9EA0");
   (lit "chartreuse", lit "#7FFF00");
   (lit "chocolate", lit "#D2691E");
   (lit "coral", lit "#FF7F50");
   (lit "cornflowerblue", lit "#6495ED");
   (lit "cornsilk", lit "#FFF8DC");
   (lit "crimson", lit "#DC143C");
   (lit "cyan", lit "#00FFFF");
   (lit "darkblue", lit "#00008B");
   (lit "darkcyan", lit "#008B8B");
   (lit "darkgoldenrod", lit "#B8860B");
   (lit "darkgray", lit "#A9A9A9");
   (lit "darkgreen", lit "#006400");
   (lit "darkgrey", lit "#A9A9A9");
   (lit "darkkhaki", lit "#BDB76B");
   (lit "darkmagenta", lit "#8B008B");
   (lit "darkolivegreen", lit "#556B2F");
   (lit "darkorange", lit "#FF8C00");
   (lit "darkorchid", lit "#9932CC");
   (lit "darkred", lit "#8B0000");
   (lit "darksalmon", lit "#E9967A");
   (lit "darkseagreen", lit "#8FBC8F");
   (lit "darkslateblue", lit "#483D8B");
   (lit "darkslategray", lit "#2F4F4F");
   (lit "darkslategrey", lit "#2F4F4F");
   (lit "darkturquoise", lit "#00CED1");
   (lit "darkviolet", lit "#9400D3");
   (lit "deeppink", lit "#FF1493");
   (lit "deepskyblue", lit "#00BFFF");
   (lit "dimgray", lit "#696969");
   (lit "dimgrey", lit "#696969");
   (lit "dodgerblue", lit "#1E90FF");
   (lit "firebrick", lit "#B22222");
   (lit "floralwhite", lit "#FFFAF0");
   (lit "forestgreen", lit "#228B22");
   (lit "fuchsia", lit "#FF00FF");
   (lit "gainsboro", lit "#DCDCDC");
   (lit "ghostwhite", lit "#F8F8FF");
   (lit "gold", lit "#FFD700");
   (lit "goldenrod", lit "#DAA520");
   (lit "gray", lit "#808080");
   (lit "green", lit "#008000");
   (lit "greenyellow", lit "#ADFF2F");
   (lit "grey", lit "#808080");
   (lit "honeydew", lit "#F0FFF0");
   (lit "hotpink", lit "#FF69B4");
   (lit "indianred", lit "#CD5C5C");
   (lit "indigo", lit "#4B0082");
   (lit "ivory", lit "#FFFFF0");
   (lit "khaki", lit "#F0E68C");
   (lit "lavender", lit "#E6E6FA");
   (lit "lavenderblush", lit "#FFF0F5");
   (lit "lawngreen", lit "#7CFC00");
   (lit "lemonchiffon", lit "#FFFACD");
   (lit "lightblue", lit "#ADD8E6");
   (lit "lightcoral", lit "#F08080");
   (lit "lightcyan", lit "#E0FFFF");
   (lit "lightgoldenrodyellow", lit "#FAFAD2");
   (lit "lightgray", lit "#D3D3D3");
   (lit "lightgreen", lit "#90EE90");
   (lit "lightgrey", lit "#D3D3D3");
   (lit "lightpink", lit "#FFB6C1");
   (lit "lightsalmon", lit "#FFA07A");
   (lit "lightseagreen", lit "#20B2AA");
   (lit "lightskyblue", lit "#87CEFA");
   (lit "lightslategray", lit "#778899");
   (lit "lightslategrey", lit "#778899");
   (lit "lightsteelblue", lit "#B0C4DE");
   (lit "lightyellow", lit "#FFFFE0");
   (lit "lime", lit "#00FF00");
   (lit "limegreen", lit "#32CD32");
   (lit "linen", lit "#FAF0E6");
   (lit "magenta", lit "#FF00FF");
   (lit "maroon", lit "#800000");
   (lit "mediumaquamarine", lit "#66CDAA");
   (lit "mediumblue", lit "#0000CD");
   (lit "mediumorchid", lit "#BA55D3");
   (lit "mediumpurple", lit "#9370DB");
   (lit "mediumseagreen", lit "#3CB371");
   (lit "mediumslateblue", lit "#7B68EE");
   (lit "mediumspringgreen", lit "#00FA9A");
   (lit "mediumturquoise", lit "#48D1CC");
   (lit "mediumvioletred", lit "#C71585");
   (lit "midnightblue", lit "#191970");
   (lit "mintcream", lit "#F5FFFA");
   (lit "mistyrose", lit "#FFE4E1");
   (lit "moccasin", lit "#FFE4B5");
   (lit "navajowhite", lit "#FFDEAD");
   (lit "navy", lit "#000080");
   (lit "oldlace", lit "#FDF5E6");
   (lit "olive", lit "#808000");
   (lit "olivedrab", lit "#6B8E23");
   (lit "orange", lit "#FFA500");
   (lit "orangered", lit "#FF4500");
   (lit "orchid", lit "#DA70D6");
   (lit "palegoldenrod", lit "#EEE8AA");
   (lit "palegreen", lit "#98FB98");
   (lit "paleturquoise", lit "#AFEEEE");
   (lit "palevioletred", lit "#DB7093");
   (lit "papayawhip", lit "#FFEFD5");
   (lit "peachpuff", lit "#FFDAB9");
   (lit "peru", lit "#CD853F");
   (lit "pink", lit "#FFC0CB");
   (lit "plum", lit "#DDA0DD");
   (lit "powderblue", lit "#B0E0E6");
   (lit "purple", lit "#800080");
   (lit "red", lit "#FF0000");
   (lit "rosybrown", lit "#BC8F8F");
   (lit "royalblue", lit "#4169E1");
   (lit "saddlebrown", lit "#8B4513");
   (lit "salmon", lit "#FA8072");
   (lit "sandybrown", lit "#F4A460");
   (lit "seagreen", lit "#2E8B57");
   (lit "seashell", lit "#FFF5EE");
   (lit "sienna", lit "#A0522D");
   (lit "silver", lit "#C0C0C0");
   (lit "skyblue", lit "#87CEEB");
   (lit "slateblue", lit "#6A5ACD");
   (lit "slategray", lit "#708090");
   (lit "slategrey", lit "#708090");
   (lit "snow", lit "#FFFAFA");
   (lit "springgreen", lit "#00FF7F");
   (lit "steelblue", lit "#4682B4");
   (lit "tan", lit "#D2B48C");
   (lit "teal", lit "#008080");
   (lit "thistle", lit "#D8BFD8");
   (lit "tomato", lit "#FF6347");
   (lit "turquoise", lit "#40E0D0");
   (lit "violet", lit "#EE82EE");
   (lit "wheat", lit "#F5DEB3");
   (lit "white", lit "#FFFFFF");
   (lit "whitesmoke", lit "#F5F5F5");
   (lit "yellow", lit "#FFFF00");
   (lit "yellowgreen", lit "#9ACD32")].
(** [a] is the lower case word [b], with any letters written in upper case *)
Fixpoint same_letters (a b : str) : Prop :=
  match a, b with
  | [], [] => True
  | x :: a, y :: b => (x = y \/ (97 <= y <= 122 /\ x + 32 = y)) /\ same_letters a b
  | _, _ => False
  end.
(** the keywords the code gets wrong or lacks *)
Definition odd_names : list str := [lit "gray"; lit "grey"; lit "sandybrown"; lit "darkgrey"; lit "darkslategrey"; lit "dimgrey"; lit "lightgray"; lit "lightslategrey"; lit "slategrey"].
