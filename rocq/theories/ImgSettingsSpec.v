(** Vocabulary for the image settings. *)
From Verif Require Import Base Graph Html ImgSettings.
From Coq Require Import String ZArith NArith Bool List.
Import ListNotations.
Open Scope list_scope.
Open Scope Z_scope.

(** * Equal up to the order of the dictionaries *)
Definition same_dict {V} (R : V -> V -> Prop) (d d' : list (str * V)) : Prop :=
  dict_wf d /\ dict_wf d' /\ forall k, match dget k d, dget k d' with Some a, Some b => R a b | None, None => True | _, _ => False end.
Definition same_export (e e' : image_export) : Prop := min_area e = min_area e' /\ max_area e = max_area e' /\ preference e = preference e' /\ same_dict eq (kwargs e) (kwargs e').
Definition same_format (f f' : image_format) : Prop := unit_size f = unit_size f' /\ same_dict same_export (exports f) (exports f').
Definition same_settings (s s' : image_settings) : Prop :=
  default_format s = default_format s' /\ maximum s = maximum s' /\ step_text s = step_text s' /\ same_dict same_format (formats s) (formats s').

(** * Different in a single number *)
Definition other_number (a b : Z) : Prop := a <> b /\ Z.abs (a - b) < 2 ^ 64.
Definition changed_at {V} (R : V -> V -> Prop) (d d' : list (str * V)) : Prop :=
  dict_wf d /\ dict_wf d' /\ exists k a b, dget k d = Some a /\ dget k d' = Some b /\ R a b /\ forall m, m <> k -> dget m d = dget m d'.
Inductive export_changed : image_export -> image_export -> Prop :=
| MinChanged a b ma p kw : other_number a b -> export_changed {| min_area := Some a; max_area := ma; preference := p; kwargs := kw |} {| min_area := Some b; max_area := ma; preference := p; kwargs := kw |}
| MaxChanged a b mi p kw : other_number a b -> export_changed {| min_area := mi; max_area := Some a; preference := p; kwargs := kw |} {| min_area := mi; max_area := Some b; preference := p; kwargs := kw |}
| PreferenceChanged a b mi ma kw : other_number a b -> export_changed {| min_area := mi; max_area := ma; preference := a; kwargs := kw |} {| min_area := mi; max_area := ma; preference := b; kwargs := kw |}
| ArgumentChanged mi ma p kw kw' : changed_at (fun v v' => exists a b, v = KInt a /\ v' = KInt b /\ other_number a b) kw kw' ->
    export_changed {| min_area := mi; max_area := ma; preference := p; kwargs := kw |} {| min_area := mi; max_area := ma; preference := p; kwargs := kw' |}.
Inductive format_changed : image_format -> image_format -> Prop :=
| UnitChanged a b ex : other_number a b -> format_changed {| exports := ex; unit_size := a |} {| exports := ex; unit_size := b |}
| ExportChanged u ex ex' : changed_at export_changed ex ex' -> format_changed {| exports := ex; unit_size := u |} {| exports := ex'; unit_size := u |}.
Inductive settings_changed : image_settings -> image_settings -> Prop :=
| MaximumChanged a b fs d t : other_number a b -> settings_changed {| formats := fs; default_format := d; maximum := a; step_text := t |} {| formats := fs; default_format := d; maximum := b; step_text := t |}
| FormatChanged fs fs' d m t : changed_at format_changed fs fs' -> settings_changed {| formats := fs; default_format := d; maximum := m; step_text := t |} {| formats := fs'; default_format := d; maximum := m; step_text := t |}.
(** every argument is a text, a number, a truth value or None *)
Definition plain_settings (s : image_settings) : Prop :=
  forall fn f en e kn v, In (fn, f) (formats s) -> In (en, e) (exports f) -> In (kn, v) (kwargs e) -> v <> KOther.
