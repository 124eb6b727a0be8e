(** C29 and C30: the pipeline of a script. *)
From Verif Require Import Base Graph PyPath PyNorm Js Builder CssVersion JsYield JsManip JsManipSpec JsManipProofs JsManipMain JsManipExamples.
From Coq Require Import String ZArith NArith Bool List.
Import ListNotations.
Open Scope list_scope.
Open Scope N_scope.

(** A script without imports: processing ends, no token is held back, and the lines
    are changed as [hide_seen_lines] says; if no line is empty that is: each line with
    a hint becomes a comment with its text and nothing else changes. *)
Theorem C29_lines : forall cwd folder script read type_name ts, whole ts -> ~ In JImport ts ->
  exists fuel out b, pump (js_manips cwd folder script read type_name false) fuel ts (new_builder js_init) = Ret (out, b) /\ b_mark b = None /\
    hide_seen_lines true ts out /\ (~ empty_line ts -> hide_lines ts out).
Proof. exact build_lines. Qed.
Print Assumptions C29_lines.
Example C29_lines_ok : whole ex_hint /\ ~ In JImport ex_hint /\ ~ empty_line ex_hint.
Proof. exact (conj ex_hint_whole (conj ex_hint_plain ex_hint_nonempty)). Qed.
(** A hint on the line after an empty line is not seen. *)
Theorem C29_empty_line_refuted : exists cwd folder script read type_name ts fuel out b, whole ts /\ ~ In JImport ts /\
  pump (js_manips cwd folder script read type_name false) fuel ts (new_builder js_init) = Ret (out, b) /\ ~ hide_lines ts out.
Proof. exact (ex_intro _ _ (ex_intro _ _ (ex_intro _ _ (ex_intro _ _ (ex_intro _ _ (match empty_line_hides with ex_intro _ ts (ex_intro _ out (ex_intro _ b H)) => ex_intro _ ts (ex_intro _ 30%nat (ex_intro _ out (ex_intro _ b H))) end)))))). Qed.
Print Assumptions C29_empty_line_refuted.

(** Every script, with or without hints, is processed to its end and no token is held
    back, unless an import of a project file has no hash file. *)
Theorem C30_terminates : forall cwd folder script read type_name ts, whole ts ->
  (exists fuel out b, pump (js_manips cwd folder script read type_name false) fuel ts (new_builder js_init) = Ret (out, b) /\ b_mark b = None) \/
  (exists a body p rest, ts = a ++ JImport :: body ++ JString p :: rest /\ good_import (body ++ JString p :: rest) body p rest /\
     read (hash_file cwd (fst (resolve cwd folder script p))) = None).
Proof.
  exact (fun cwd folder script read type_name ts H => match build_total cwd folder script read type_name ts H with
    | or_introl X => or_introl X
    | or_intror (ex_intro _ a (ex_intro _ body (ex_intro _ p (ex_intro _ rest (conj H1 (conj H2 H3)))))) =>
        or_intror (ex_intro _ a (ex_intro _ body (ex_intro _ p (ex_intro _ rest (conj H1 (conj H2 (version_none cwd folder script read p H3)))))))
    end).
Qed.
Print Assumptions C30_terminates.
(** Without hints: exactly the strings of import statements for local paths without
    query and fragment are replaced, by the rooted path and the version; an import that
    is not understood gets a comment; every other token is kept.  The files reported
    are the ones imported. *)
Theorem C30_edits : forall cwd folder script read type_name ts, whole ts -> available cwd folder script read ts -> (forall v, In (JComment v) ts -> ~ hint_text v) ->
  exists fuel out b, pump (js_manips cwd folder script read type_name false) fuel ts (new_builder js_init) = Ret (out, b) /\ b_mark b = None /\
    edited (fun p => match read (hash_file cwd (fst (resolve cwd folder script p))) with
                     | Some hash => Some (snd (resolve cwd folder script p) ++ lit "?v=" ++ quote_plus hash ++ lit "&pv=1.3.2")
                     | None => None end) false ts out /\
    forall x, In x (i_seen (snd (snd (b_st b)))) <-> imported (fun p => fst (resolve cwd folder script p)) false ts x.
Proof. exact build_edits_text. Qed.
Print Assumptions C30_edits.
Example C30_edits_ok : whole ex_import /\ available (lit "/p") (lit ".") (lit "src/public/a.js") ex_read ex_import /\ (forall v, In (JComment v) ex_import -> ~ hint_text v).
Proof. exact (conj ex_import_whole (conj ex_import_available ex_import_plain)). Qed.
Example C30_edits_text : exists b, pump (js_manips (lit "/p") (lit ".") (lit "src/public/a.js") ex_read (fun _ => []) false) 30 ex_import (new_builder js_init) =
  Ret ([JImport; JSpace [32]; JIdent (lit "c"); JSpace [32]; JFrom; JSpace [32]; JString (lit "/b.js?v=h&pv=1.3.2"); JSemi; JNewline; JEof], b) /\ i_seen (snd (snd (b_st b))) = [lit "src/public/b.js"].
Proof. exact ex_import_out. Qed.
(** Scanning a script always ends and reports exactly the imported files. *)
Theorem C30_scan : forall cwd folder script read type_name ts, whole ts ->
  exists fuel out b, pump (js_manips cwd folder script read type_name true) fuel ts (new_builder js_init) = Ret (out, b) /\ b_mark b = None /\
    forall x, In x (i_seen (snd (snd (b_st b)))) <-> imported (fun p => fst (resolve cwd folder script p)) false ts x.
Proof. exact scan_seen. Qed.
Print Assumptions C30_scan.
Example C30_scan_ok : whole ex_hint.
Proof. exact ex_hint_whole. Qed.
(** With hints the files found by scanning and by building can differ. *)
Theorem C30_children_refuted : exists cwd folder script read type_name ts fuel out b out2 b2,
  pump (js_manips cwd folder script read type_name true) fuel ts (new_builder js_init) = Ret (out, b) /\
  pump (js_manips cwd folder script read type_name false) fuel ts (new_builder js_init) = Ret (out2, b2) /\
  i_seen (snd (snd (b_st b))) <> [] /\ i_seen (snd (snd (b_st b2))) = [].
Proof. exact hinted_import_differs. Qed.
Print Assumptions C30_children_refuted.
