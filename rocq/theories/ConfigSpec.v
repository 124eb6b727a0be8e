(** Vocabulary for C66: what a configuration file says. *)
From Verif Require Import External Base Graph Json Handlers Html ImgSize ImgSettings.
From Coq Require Import String ZArith NArith Bool List.
Import ListNotations.
Open Scope list_scope.
Open Scope Z_scope.

Definition number (z : Z) : json := JNum (print_Z z).
(** a bound that may be left out or null *)
Definition bound_is (v : option json) (o : option Z) : Prop := match o with None => v = None \/ v = Some JNull | Some z => v = Some (number z) end.
(** an argument for the encoder *)
Inductive value_is : json -> kval -> Prop :=
| is_null : value_is JNull KNone
| is_bool b : value_is (JBool b) (KBool b)
| is_int z : value_is (number z) (KInt z)
| is_text s : value_is (JStr s) (KStr s).
(** the entries of a json object, one by one *)
Definition entries_are {V} (is : json -> V -> Prop) (l : list (str * json)) (l' : list (str * V)) : Prop :=
  Forall2 (fun a b => fst a = fst b /\ is (snd a) (snd b)) l l'.
Definition export_is (v : json) (e : image_export) : Prop :=
  exists d, v = JObj d /\ bound_is (dget (lit "min_area_px2") d) (min_area e) /\ bound_is (dget (lit "max_area_px2") d) (max_area e) /\
    dget (lit "preference") d = Some (number (preference e)) /\
    ((dget (lit "formatter_kwargs") d = None /\ kwargs e = []) \/ exists k, dget (lit "formatter_kwargs") d = Some (JObj k) /\ entries_are value_is k (kwargs e)).
Definition format_is (v : json) (fm : image_format) : Prop :=
  exists d l, v = JObj d /\ dget (lit "exports") d = Some (JObj l) /\ entries_are export_is l (exports fm) /\ dget (lit "minimum_unit_size_bytes") d = Some (number (unit_size fm)).
(** the settings for images; the step is written as a text or a number [t] *)
Definition settings_are (v : json) (s : image_settings) (t : json) : Prop :=
  exists d l, v = JObj d /\ dget (lit "formats") d = Some (JObj l) /\ entries_are format_is l (formats s) /\ dget (lit "default_format") d = Some (JStr (default_format s)) /\
    dget (lit "maximum_resolution") d = Some (number (maximum s)) /\ dget (lit "resolution_step") d = Some t /\ ((exists x, t = JStr x) \/ exists x, t = JNum x).

(** what the new configuration asks for *)
Definition quality (q : Z) : list (str * kval) := [(lit "quality", KInt q)].
Definition webp (q : Z) (lossless : bool) : list (str * kval) := [(lit "quality", KInt q); (lit "method", KInt 6); (lit "lossless", KBool lossless)].
Definition export (min max : option Z) (p : Z) (k : list (str * kval)) : image_export := {| min_area := min; max_area := max; preference := p; kwargs := k |}.
Definition new_settings : image_settings :=
  {| formats :=
       [(lit "jpeg", {| exports := [(lit "50", export (Some 360000) None 1 (quality 50)); (lit "75", export None None 2 (quality 75)); (lit "85", export None None 3 (quality 85));
           (lit "100", export None (Some 360000) 5 (quality 100))]; unit_size := 85000 |});
        (lit "webp", {| exports := [(lit "50", export (Some 160000) None 1 (webp 50 false)); (lit "75", export (Some 360000) None 2 (webp 75 false)); (lit "85", export None None 3 (webp 85 false));
           (lit "100", export None (Some 360000) 5 (webp 100 false)); (lit "lossless", export None (Some 160000) 8 (webp 100 true))]; unit_size := 85000 |})];
     default_format := lit "jpeg"; maximum := 7; step_text := lit "0.5" |}.
Definition half : dec := {| coef := 5; expo := -1 |}.
Definition new_constants : constants :=
  {| c_relpath := lit "src/public/js/constants.js"; c_shared := []; c_dev := [(lit "API_URL", VStr (lit "http://127.0.0.1:8080"))]; c_prod := [(lit "API_URL", VStr [])] |}.

(** an external file: under its relpath, which is its key if none is given *)
Definition external_is (key : str) (v : json) (x : external) : Prop :=
  exists d, v = JObj d /\ ((dget (lit "relpath") d = None /\ x_relpath x = key) \/ dget (lit "relpath") d = Some (JStr (x_relpath x))) /\
    dget (lit "url") d = Some (JStr (x_url x)) /\ dget (lit "integrity") d = Some (JStr (x_integrity x)).
Definition externals_are (l : list (str * json)) (xs : list external) : Prop := Forall2 (fun kv x => external_is (fst kv) (snd kv) x) l xs.

(** a constant: a text, a truth value or an integer *)
Inductive constant_is : json -> cval -> Prop :=
| const_text s : constant_is (JStr s) (VStr s)
| const_bool b : constant_is (JBool b) (VBool b)
| const_int z : constant_is (number z) (VInt z).
Definition constants_are (v : json) (rel : str) (shared dev prod : cdict) : Prop :=
  exists d s e p, v = JObj d /\ dget (lit "relpath") d = Some (JStr rel) /\ dget (lit "shared") d = Some (JObj s) /\ dget (lit "dev") d = Some (JObj e) /\ dget (lit "prod") d = Some (JObj p) /\
    entries_are constant_is s shared /\ entries_are constant_is e dev /\ entries_are constant_is p prod.
(** a file below src *)
Definition has_sources (f : fs) : Prop := exists p, dget (lit "src/" ++ p) f <> None.
