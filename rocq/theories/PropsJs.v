(** C27, C28 and C31: tokenizing and serializing scripts. *)
From Verif Require Import Base Graph Js JsTables JsSpec JsProofs JsRoundSpec JsRound JsExamples.
From Coq Require Import String ZArith NArith Bool List.
Import ListNotations.
Open Scope list_scope.
Open Scope N_scope.

(** Every text is tokenized without an exception, in at most one token per character
    and one eof token. *)
Theorem C27_terminates : forall s, exists ts, js_tokenize s = Ret ts /\ (length ts <= S (length s))%nat.
Proof. exact js_tokenize_total. Qed.
Print Assumptions C27_terminates.
(** The tokens are exactly the ones the lexical rules of [JsSpec] prescribe: they are
    the pieces of the text in order and without gaps. *)
Theorem C27_pieces : forall s ts, js_tokenize s = Ret ts <-> js_spelled ts s.
Proof. exact js_tokenize_iff. Qed.
Print Assumptions C27_pieces.
(** If words and broken strings are written without backslashes and the strings denote
    printable ASCII and simple control characters, then what is written is tokenized
    to the same tokens, up to the text of comments. *)
Theorem C27_same_code : forall ts s, js_spelled_as tame ts s ->
  js_tokenize s = Ret ts /\ exists ts2, js_tokenize (js_serialize_many ts) = Ret ts2 /\ Forall2 same_code ts ts2.
Proof. exact round_trip. Qed.
Print Assumptions C27_same_code.
Example C27_same_code_ok : exists ts, js_spelled_as tame ts script.
Proof. exact script_tame. Qed.
(** A text without strings, backslashes, comments and unusual line terminators is
    written unchanged. *)
Theorem C27_verbatim : forall ts s, bare s -> js_tokenize s = Ret ts -> js_serialize_many ts = s.
Proof. exact bare_copied. Qed.
Print Assumptions C27_verbatim.
Example C27_verbatim_ok : bare (lit "import * as a; b = c / 2;" ++ [10]).
Proof. exact script_bare. Qed.
(** A string with a character outside ASCII comes out as another string. *)
Theorem C27_unicode_refuted : exists v v2, js_tokenize (js_serialize (JString v)) = Ret [JString v2; JEof] /\ v2 <> v.
Proof. exact unicode_string_lost. Qed.
Print Assumptions C27_unicode_refuted.
(** A template literal with two slashes is cut: the text behind them becomes a comment
    that runs past the end of the literal. *)
Theorem C27_template_refuted : exists ts, js_tokenize (lit "`http://a`;") = Ret ts /\ js_serialize_many ts = lit "`http:/*a`;*/".
Proof. exact template_lost. Qed.
Print Assumptions C27_template_refuted.
(** Hexadecimal escapes and line continuations change the string. *)
Theorem C27_escape_refuted : js_tokenize (lit """\x41""") = Ret [JString (lit "x41"); JEof] /\
  exists ts, js_tokenize [34; 97; 92; 10; 98; 34] = Ret ts /\ js_serialize_many ts = lit """a\nb""".
Proof. exact (conj hex_escape_lost continuation_kept). Qed.
Print Assumptions C27_escape_refuted.

(** Whatever the text of a comment and whatever follows, the written comment is one
    comment token and the rest is tokenized as if it stood alone; the text inside has
    no end-of-comment, and is unchanged if it had none. *)
Theorem C28_closed : forall v rest ts, js_tokenize rest = Ret ts ->
  exists w, js_tokenize (js_serialize (JComment v) ++ rest) = Ret (JComment w :: ts) /\
    js_serialize (JComment v) = [47; 42] ++ w ++ [42; 47] /\ no_end w /\ (no_end v -> w = v).
Proof. exact (fun v rest ts H => ex_intro _ (guard v) (conj (comment_closed v rest ts H) (conj eq_refl (conj (guard_safe v) (guard_same v))))). Qed.
Print Assumptions C28_closed.
Example C28_closed_ok : js_tokenize (lit "alert()") = Ret [JIdent (lit "alert"); JInvalid (lit "("); JInvalid (lit ")"); JEof] /\ ~ no_end (lit "*/ alert() /*").
Proof. split; [vm_compute; reflexivity|]. intros H. exact (H [] (lit " alert() /*") eq_refl). Qed.

(** The search finds exactly the members of the tables, raises nothing, for every
    table in increasing order; the two tables are. *)
Theorem C31_search : forall c exact ranges, increasing ranges -> exists b, is_match c exact ranges = Ret b /\ (b = true <-> in_table exact ranges c).
Proof. exact is_match_exact. Qed.
Print Assumptions C31_search.
Theorem C31_id_start : increasing match_ranges_id_start /\ forall c, is_id_start c = true <-> in_table exact_matches_id_start match_ranges_id_start c.
Proof. exact (conj start_increasing is_id_start_iff). Qed.
Print Assumptions C31_id_start.
Theorem C31_id_continue : increasing match_ranges_id_continue /\ forall c, is_id_continue c = true <-> in_table exact_matches_id_continue match_ranges_id_continue c.
Proof. exact (conj continue_increasing is_id_continue_iff). Qed.
Print Assumptions C31_id_continue.
(** The tables are not those of the language: a digit can start an identifier, the
    underscore and the dollar sign cannot. *)
Theorem C31_language_refuted : id_start 49 /\ ~ id_start 95 /\ ~ id_start 36.
Proof. exact digit_starts. Qed.
Print Assumptions C31_language_refuted.
