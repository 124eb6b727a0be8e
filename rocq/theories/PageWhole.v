(** The five manipulators of handlers/html.py 38-50 together. *)
From Verif Require Import Base Graph Json PyPath PyNorm Builder Handlers JsYield OutlineData Html ImgSize ImgSettings ImgExport ImgCommand.
From Coq Require Import String ZArith NArith Bool List.
Import ListNotations.
Open Scope list_scope.

Section Whole.
(** see Html.v and ImgCommand.v.  ImagesManipulator has its own dictionary of files. *)
Context (host : option str) (page folder cwd : str) (fragment : str -> list htoken) (show : str -> str).
Context (js_scan css_scan : str -> fs -> res scanned) (js_build css_build : str -> fs -> res (built * fs)).
Context {M : Type} (int_high : str -> option Z) (dims : str -> res (option (Z * Z))) (scan_one : command -> fs -> res (scanned * fs)) (export : command -> fs -> res (M * Handlers.built * fs)) (picture : command -> M -> res (list htoken)).
(** handlers/html.py 38-50 *)
Definition page_whole (scan : bool) : list (manip htoken (hstate * pstate)) :=
  [lift_fst (canonical host page scan);
   lift_fst (link_hash scan);
   lift_snd (images int_high cwd folder page dims scan_one export picture scan);
   lift_fst (outline page js_scan css_scan js_build css_build scan);
   lift_fst (template fragment show)].
End Whole.
