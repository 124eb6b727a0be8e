(** The four manipulators of handlers/css.py 23-28 together. *)
From Verif Require Import Base Graph PyPath PyNorm Css CssVersion Builder Handlers OutlineData IconManip Nest Js JsYield JsManip Hot Project.
From Coq Require Import String ZArith NArith Bool List.
Import ListNotations.
Open Scope list_scope.

Section Whole.
Context (K : setting) (sha : str -> str).
Notation ctoken := (token (F := k_float K)).
Notation wstate := ((nstate (F := k_float K) * vstate) * (IconManip.istate * dstate (F := k_float K)))%type.
(** [cfg]: icons.py's settings; [decode] and [lexists]: see OutlineData.v. IconManipulator and
    OutlineImageDataManipulator have their files as dictionaries. *)
Context (cfg : icon_settings) (decode : list N -> str) (lexists : Handlers.fs -> str -> bool).
(** handlers/css.py 23-28 *)
Definition whole_manips (p : str) (s : fs) (scan : bool) : list (manip ctoken wstate) :=
  [lift_fst (lift_fst (nest (k_float_of K) (k_float_str K) (k_high_digit K) (k_int_high K) (k_css K) p s (k_pick K) (k_fuel K) scan));
   lift_snd (lift_fst (icons (k_float_of K) (k_high_digit K) (k_int_high K) sha cfg (k_css K) p scan));
   lift_snd (lift_snd (outline_data decode sha lexists p scan));
   lift_fst (lift_snd (version_urls p s scan))].
End Whole.
