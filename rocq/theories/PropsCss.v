(** C21-C23 and C55: tokenizing and serializing stylesheets.  [float_of] and
    [float_str] are python's [float] and [str] on floats, [high_digit] and [int_high]
    its [isdigit] and [int] outside ASCII; nothing is assumed of them unless said. *)
From Verif Require Import Base Graph Css CssSpec CssSound CssTerm CssRoundSpec CssRound CssExamples.
From Coq Require Import String ZArith NArith Bool List.
Import ListNotations.
Open Scope list_scope.
Open Scope N_scope.

(** Every stylesheet is tokenized in at most one token per character and one eof
    token.  The run ends with the eof token, which occurs nowhere else, or raises
    TypeError or ValueError. *)
Theorem C21_terminates : forall F (float_of : str -> option F) high_digit int_high s ts o,
  tokenize float_of high_digit int_high s = (ts, o) ->
  (length ts <= S (length s))%nat /\
  match o with
  | None => exists l, ts = l ++ [TEof] /\ ~ In TEof l
  | Some e => (e = TypeError \/ e = ValueError) /\ ~ In TEof ts
  end.
Proof. exact @tokenize_end. Qed.
Print Assumptions C21_terminates.
(** A stylesheet that ends with a newline, has no backslash, whose parentheses are
    closed and whose digits are ASCII raises nothing. *)
Theorem C21_tidy_accepted : forall F (float_of : str -> option F) high_digit int_high,
  (forall p, float_text p -> float_of p <> None) ->
  forall s, tidy high_digit s -> exists ts, tokenize float_of high_digit int_high s = (ts, None).
Proof. exact @tokenize_tidy. Qed.
Print Assumptions C21_tidy_accepted.
Example C21_tidy_ok : tidy no_high tidy_sheet /\ (forall p, float_text p -> ff p <> None).
Proof. exact (conj tidy_sheet_ok ff_ok). Qed.
(** The newline is needed. *)
Theorem C21_end_refuted : forall F (float_of : str -> option F) high_digit int_high s,
  s = lit "a:5" \/ s = lit "#" \/ s = lit "@" -> snd (tokenize float_of high_digit int_high s) = Some TypeError.
Proof. exact @end_raises. Qed.
Print Assumptions C21_end_refuted.

(** Tokens that stand for themselves in front of what follows survive. *)
Theorem C22_round_trip : forall F (float_of : str -> option F) (float_str : F -> str) high_digit int_high ts,
  separable float_of float_str high_digit ts ->
  tokenize float_of high_digit int_high (serialize_many float_str ts) = (ts ++ [TEof], None).
Proof. exact @tokenize_round. Qed.
Print Assumptions C22_round_trip.
Example C22_round_trip_ok : separable ff fs no_high sheet_tokens.
Proof. exact sheet_separable. Qed.
(** A selector such as [.md\:a] loses its backslash and becomes another one. *)
Theorem C22_escape_refuted : forall F (float_of : str -> option F) (float_str : F -> str) high_digit int_high, exists s ts ts2,
  tokenize float_of high_digit int_high s = (ts, None) /\
  tokenize float_of high_digit int_high (serialize_many float_str ts) = (ts2, None) /\ ts2 <> ts.
Proof. exact @escape_lost. Qed.
Print Assumptions C22_escape_refuted.
(** [1e999] becomes an identifier. *)
Theorem C22_inf_refuted : forall F (float_of : str -> option F) (float_str : F -> str) high_digit int_high f, float_str f = lit "inf" ->
  tokenize float_of high_digit int_high (serialize_many float_str [TNumber (NFloat f) true; TSemicolon]) = ([TIdent (lit "inf"); TSemicolon; TEof], None).
Proof. exact @inf_lost. Qed.
Print Assumptions C22_inf_refuted.

(** A string of printable ASCII characters, quotes and backslashes included, is read
    back whatever follows it. *)
Theorem C23_strings : forall F (float_of : str -> option F) (float_str : F -> str) high_digit int_high v ts,
  Forall printable v -> separable float_of float_str high_digit ts ->
  tokenize float_of high_digit int_high (serialize_many float_str (TString v :: ts)) = (TString v :: ts ++ [TEof], None).
Proof. exact (fun F float_of float_str high_digit int_high v ts Hv Hs => tokenize_round float_of float_str high_digit int_high (TString v :: ts) (conj Hv Hs)). Qed.
Print Assumptions C23_strings.
Example C23_strings_ok : Forall printable (lit "it's ""quoted"" \ and )").
Proof. repeat constructor; discriminate. Qed.
Theorem C23_newline_refuted : forall F (float_of : str -> option F) (float_str : F -> str) high_digit int_high, exists v v2,
  tokenize float_of high_digit int_high (serialize_many float_str [TString v]) = ([TString v2; TEof], None) /\ v2 <> v.
Proof. exact @newline_lost. Qed.
Print Assumptions C23_newline_refuted.
Theorem C23_unicode_refuted : forall F (float_of : str -> option F) (float_str : F -> str) high_digit int_high, exists v v2,
  tokenize float_of high_digit int_high (serialize_many float_str [TString v]) = ([TString v2; TEof], None) /\ v2 <> v.
Proof. exact @unicode_lost. Qed.
Print Assumptions C23_unicode_refuted.

(** The tokens are the pieces of the text, in order and without gaps, and each
    spells its piece by the rules of [CssSpec]. *)
Theorem C55_pieces : forall F (float_of : str -> option F) high_digit int_high s ts,
  tokenize float_of high_digit int_high s = (ts, None) -> spelled float_of high_digit int_high ts s.
Proof. exact (fun F float_of high_digit int_high s ts => tokens_sound float_of high_digit int_high (2 + length s) s ts). Qed.
Print Assumptions C55_pieces.
Example C55_pieces_ok : exists ts, tokenize ff no_high no_int tidy_sheet = (ts, None).
Proof. exact (tokenize_tidy ff no_high no_int ff_ok tidy_sheet tidy_sheet_ok). Qed.
(** A piece without a backslash is written as it was, except for numbers, strings,
    urls and constructs cut off by the end of the text. *)
Theorem C55_verbatim : forall F (float_of : str -> option F) (float_str : F -> str) high_digit int_high t p rest,
  denotes float_of high_digit int_high t p rest -> copied t p -> ~ In 92 p -> serialize float_str t = p.
Proof. exact @copied_text. Qed.
Print Assumptions C55_verbatim.
Example C55_verbatim_ok : @denotes str ff no_high no_int (TIdent (lit "a")) (lit "a") [] /\ @copied str (TIdent (lit "a")) (lit "a").
Proof.
  split; [apply DIdent; [discriminate|apply SpChar; [left; left; right; split; discriminate|apply SpNil]]|].
  intros (a & b & c & E & _). discriminate.
Qed.
