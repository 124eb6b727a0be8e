(** build/html/manips/images/settings.py, and the settings hash of metadata.py. *)
From Verif Require Import Base Graph Html.
From Coq Require Import String ZArith NArith Bool List.
Import ListNotations.
Open Scope list_scope.
Open Scope Z_scope.

(** a value in the configuration: a float with its [str], and a list or dictionary, which
    [stable_hash] refuses *)
Inductive kval := KNone | KBool (b : bool) | KInt (z : Z) | KFloat (text : str) | KStr (s : str) | KOther.
(** settings.py 8-35 *)
Record image_export := { min_area : option Z; max_area : option Z; preference : Z; kwargs : list (str * kval) }.
(** 64-78 *)
Record image_format := { exports : list (str * image_export); unit_size : Z }.
(** 102-121; the step is kept as its [str], which is all the hash uses *)
Record image_settings := { formats : list (str * image_format); default_format : str; maximum : Z; step_text : str }.
(** 37-44 *)
Definition applies_to (e : image_export) (width height : Z) : bool :=
  let area := width * height in
  match min_area e with None => true | Some m => m <=? area end && match max_area e with None => true | Some m => area <=? m end.
(** 47-61 *)
Definition compare (a : image_export) (size_a : Z) (b : image_export) (size_b : Z) : Z := size_a * preference b - size_b * preference a.
(** 81-99 *)
Definition compare_in_format (fmt : image_format) (a : image_export) (size_a : Z) (b : image_export) (size_b : Z) : Z :=
  compare a (Z.max size_a (unit_size fmt)) b (Z.max size_b (unit_size fmt)).

(** metadata.py 418-420: [n & 0xFFFFFFFFFFFFFFFF] *)
Definition overflow (n : Z) : Z := n mod 2 ^ 64.
(** 449-457 *)
Definition hash_str (s : str) : Z := fold_left (fun result c => overflow (result * 31 + Z.of_N c)) s 1.
(** 423-446; a Decimal, which is only ever the step, is [stable_hash_decimal] *)
Definition stable_hash (v : kval) : res Z :=
  match v with
  | KNone => Ret 447684351148253
  | KBool true => Ret 945172902943441
  | KBool false => Ret 596202892359953
  | KInt z => Ret z
  | KFloat t => Ret (overflow (31 * hash_str t + 843027630870857))
  | KStr s => Ret (hash_str s)
  | KOther => Raise ValueError
  end.
Definition stable_hash_decimal (t : str) : Z := overflow (31 * hash_str t + 563112335098849).
(** sorted(d.keys()) *)
Fixpoint insert_key (k : str) (l : list str) : list str :=
  match l with [] => [k] | k' :: r => if str_leb k k' then k :: l else k' :: insert_key k r end.
Definition sorted (l : list str) : list str := fold_right insert_key [] l.
Definition area_value (m : option Z) : kval := match m with None => KNone | Some z => KInt z end.
Definition mix (result : Z) (v : kval) : res Z := match stable_hash v with Ret h => Ret (overflow (result * 31 + h)) | Raise e => Raise e end.
(** for name in sorted(d.keys()): result = body(result, name, d[name]) *)
Fixpoint hash_items {V} (body : Z -> str -> V -> res Z) (d : list (str * V)) (names : list str) (result : Z) : res Z :=
  match names with
  | [] => Ret result
  | n :: r =>
      match dget n d with
      | None => Raise KeyError
      | Some v => match body result n v with Ret result => hash_items body d r result | Raise e => Raise e end
      end
  end.
(** 403-408 *)
Definition hash_kwarg (result : Z) (name : str) (v : kval) : res Z :=
  match mix result (KStr name) with Raise e => Raise e | Ret result => mix result v end.
(** 395-408 *)
Definition hash_export (result : Z) (name : str) (e : image_export) : res Z :=
  match mix result (KStr name) with Raise x => Raise x | Ret result =>
  match mix result (area_value (min_area e)) with Raise x => Raise x | Ret result =>
  match mix result (area_value (max_area e)) with Raise x => Raise x | Ret result =>
  match mix result (KInt (preference e)) with Raise x => Raise x | Ret result =>
  hash_items hash_kwarg (kwargs e) (sorted (map fst (kwargs e))) result end end end end.
(** 390-410 *)
Definition hash_format (result : Z) (name : str) (f : image_format) : res Z :=
  match mix result (KStr name) with Raise x => Raise x | Ret result =>
  match hash_items hash_export (exports f) (sorted (map fst (exports f))) result with Raise x => Raise x | Ret result =>
  mix result (KInt (unit_size f)) end end.
(** 383-415 *)
Definition hash_image_settings (s : image_settings) : res Z :=
  match hash_items hash_format (formats s) (sorted (map fst (formats s))) 1 with Raise x => Raise x | Ret result =>
  match mix result (KStr (default_format s)) with Raise x => Raise x | Ret result =>
  match mix result (KInt (maximum s)) with Raise x => Raise x | Ret result =>
  Ret (overflow (result * 31 + stable_hash_decimal (step_text s))) end end end.
