(** Concrete cases for the stylesheet theorems, and the cases where the round trip fails. *)
From Verif Require Import Base Graph PyStr Json Css CssSpec CssSound CssRoundSpec CssRound.
From Coq Require Import String ZArith NArith Bool List Lia ZifyN ZifyBool.
Import ListNotations.
Open Scope list_scope.
Open Scope N_scope.

(** floats as their own text, no digits outside ASCII *)
Definition ff (s : str) : option str := Some s.
Definition fs (s : str) : str := s.
Definition no_high (_ : N) : bool := false.
Definition no_int (_ : str) : option Z := None.
Notation tok := (tokenize ff no_high no_int).
Notation ser := (serialize_many fs).

Definition sheet_tokens : list (@token str) :=
  [TDelim (lit "."); TIdent (lit "nav"); TColon; TIdent (lit "hover"); TLCurly; TIdent (lit "color"); TColon; THash true (lit "fff"); TSemicolon;
   TIdent (lit "width"); TColon; TDimension (NInt (-5)) false (lit "px"); TSemicolon; TIdent (lit "top"); TColon; TPercentage (NFloat (lit "1.5")) true; TSemicolon;
   TUrl (lit "/a(.png"); TWhitespace [32]; TNumber (NInt 12) false; TWhitespace [32]; TString (lit "it's"); TRCurly; TWhitespace [10];
   TAt (lit "media"); TWhitespace [32]; TFunction (lit "calc"); TRParen; TLCurly; TRCurly; TComment (lit " a*b ")].
Lemma sheet_text : ser sheet_tokens = lit ".nav:hover{color:#fff;width:-5px;top:1.5%;url(/a\(.png) 12 ""it's""}
@media calc(){}/* a*b */".
Proof. vm_compute. reflexivity. Qed.

Ltac chars := repeat constructor; unfold name_char, name_start, letter, digit, space, printable; lia.
Ltac bad_dec := let X := fresh in intros [X|X]; [unfold digit in X; lia|destruct X; discriminate].
Ltac stop := split; [intros ? ? E; injection E as <- _; unfold name_char, name_start, letter, digit; lia|intros ? ? E; discriminate].
Ltac a_name := split; [chars|do 2 eexists; split; [reflexivity|left; split; [unfold name_start, letter; lia|bad_dec]]].
Ltac no_start := let t := fresh in let E := fresh in intros (t & E); discriminate.
Ltac head_out := let E := fresh in intros ? ? E; injection E as <- _; unfold space, name_char, name_start, letter, digit; lia.
Ltac ends := split; [intros ? ? E; injection E as <- _; bad_dec|split; [intros ? ? E; first [discriminate E|injection E as <- _; bad_dec]|split; [intros ? ? ? E [X|X]; subst; first [discriminate E|injection E as <- _; bad_dec]|intros ? ? ? ? E [X|X]; subst; first [discriminate E|intros [X|X]; subst; discriminate E]]]].
Ltac follows := do 4 eexists; split; [reflexivity|left; unfold name_start, letter; lia].
Ltac one := first [exact I
  | (split; [a_name|split; [stop|split; [no_start|intros (t & E); discriminate]]])
  | (split; [a_name|split; [stop|follows]])
  | (split; [discriminate|split; [chars|head_out]])
  | (split; [discriminate|split; [chars|split; [stop|split; [intros _; follows|intros _; reflexivity]]]])
  | chars ].
Ltac tk tac := split; [match goal with |- fits _ _ _ ?t ?r => let x := eval vm_compute in r in change (fits ff fs no_high t x); let y := eval vm_compute in t in change (fits ff fs no_high y x) end; cbn [fits]; tac|].
Lemma sheet_separable : separable ff fs no_high sheet_tokens.
Proof.
  unfold sheet_tokens. cbn [separable].
  tk ltac:(exists 46; split; [reflexivity|]; split; [unfold delim_char, space, digit, name_start, letter; lia|];
    repeat split; try (intros X; exfalso; discriminate X); try discriminate;
    intros _ (a & b & c & t & E & H); injection E as <- <- <- _; unfold dec, digit, no_high in H; destruct H as [(H & _)|(_ & [H|(_ & H)])]; [lia|lia|discriminate]).
  do 10 tk one.
  tk ltac:(split; [reflexivity|]; split; [chars|]; split; [follows|]; split; [ends|]; split; [discriminate|stop]).
  do 3 tk one.
  tk ltac:(split; [reflexivity|]; split; [reflexivity|]; exists [], [49], [46; 53], []; split; [reflexivity|]; split; [left; reflexivity|]; split; [chars|]; split; [discriminate|]; split; [right; exists [53]; split; [reflexivity|split; [discriminate|chars]]|]; split; [left; reflexivity|left; discriminate]).
  tk one.
  tk ltac:(repeat constructor; first [lia|discriminate]).
  tk one.
  tk ltac:(split; [reflexivity|]; split; [discriminate|]; split; [ends|]; split; [intros (a & b & c & t & E & H); injection E as <- <- <- _; unfold name_start, letter in H; lia|no_start]).
  do 6 tk one.
  tk ltac:(split; [a_name|intros (a & b & c & X & _); discriminate X]).
  do 3 tk one.
  tk ltac:(intros a b E; do 8 (destruct a as [|? a]; [cbn [app] in E; discriminate E|cbn [app] in E; first [injection E as _ E|discriminate E]]); destruct a; discriminate E).
  exact I.
Qed.

Definition tidy_sheet : str := lit "a:hover > b{width:calc(1.5e3px + 4%);color:#fff}/* (x) */
".
Fixpoint closes (s : str) : bool :=
  match s with [] => true | c :: r => (if c =? 40 then existsb (N.eqb 41) r else true) && closes r end.
Lemma closes_spec s : closes s = true -> forall a b, s = a ++ 40 :: b -> In 41 b.
Proof.
  induction s as [|c s IH]; intros H a b E; [destruct a; discriminate|]. cbn [closes] in H. apply andb_prop in H. destruct H as (H1 & H2). destruct a as [|x a]; cbn [app] in E; injection E as -> ->.
  - change (40 =? 40) with true in H1. cbv iota in H1. apply existsb_exists in H1. destruct H1 as (y & Hy & Ey). apply N.eqb_eq in Ey. subst y. exact Hy.
  - eapply IH; [exact H2|reflexivity].
Qed.
Lemma tidy_sheet_ok : tidy no_high tidy_sheet.
Proof.
  split; [right; exists (removelast tidy_sheet); vm_compute; reflexivity|]. split; [vm_compute; intuition discriminate|]. split; [|reflexivity]. apply closes_spec. vm_compute. reflexivity.
Qed.
Lemma ff_ok : forall p, float_text p -> ff p <> None.
Proof. discriminate. Qed.

Section Any.
Context {F : Type} (float_of : str -> option F) (float_str : F -> str) (high_digit : N -> bool) (int_high : str -> option Z).
Notation tokenize := (tokenize float_of high_digit int_high).
Notation serialize_many := (serialize_many float_str).
(** [.md\:a ] comes out as [.md:a ], another selector *)
Lemma escape_lost : exists s ts ts2, tokenize s = (ts, None) /\ tokenize (serialize_many ts) = (ts2, None) /\ ts2 <> ts.
Proof. exists (lit ".md\:a "). do 2 eexists. split; [vm_compute; reflexivity|]. split; [vm_compute; reflexivity|]. discriminate. Qed.
(** an url with a closing parenthesis in it, [url(/a\)b)] *)
Lemma url_broken : exists s ts ts2, tokenize s = (ts, None) /\ tokenize (serialize_many ts) = (ts2, None) /\ ts2 <> ts.
Proof. exists (lit "url(/a\)b) "). do 2 eexists. split; [vm_compute; reflexivity|]. split; [vm_compute; reflexivity|]. discriminate. Qed.
Lemma newline_lost : exists v v2, tokenize (serialize_many [TString v]) = ([TString v2; TEof], None) /\ v2 <> v.
Proof. exists [10], [110]. split; [vm_compute; reflexivity|discriminate]. Qed.
(** e acute and a digit: the digit becomes part of the escape *)
Lemma unicode_lost : exists v v2, tokenize (serialize_many [TString v]) = ([TString v2; TEof], None) /\ v2 <> v.
Proof. exists [233; 49], [3729]. split; [vm_compute; reflexivity|discriminate]. Qed.
(** 1e999 *)
Lemma inf_lost : forall f, float_str f = lit "inf" -> tokenize (serialize_many [TNumber (NFloat f) true; TSemicolon]) = ([TIdent (lit "inf"); TSemicolon; TEof], None).
Proof. intros f E. unfold Css.serialize_many. cbn [flat_map serialize num_str]. rewrite E. vm_compute. reflexivity. Qed.
(** a number at the very end *)
Lemma end_raises : forall s, s = lit "a:5" \/ s = lit "#" \/ s = lit "@" -> snd (tokenize s) = Some TypeError.
Proof. intros s [->|[->| ->]]; vm_compute; reflexivity. Qed.

(** * Pieces that are written as they were read *)
Lemma spells_plain p v : spells p v -> ~ In 92 p -> p = v.
Proof. intros H. induction H; intros N; try reflexivity; [f_equal; apply IHspells; intros X; apply N; right; exact X|exfalso; apply N; cbn; auto]. Qed.
Lemma copied_text t p rest : denotes float_of high_digit int_high t p rest -> copied t p -> ~ In 92 p -> serialize float_str t = p.
Proof.
  intros D C N. destruct D; cbn [serialize copied] in *; try contradiction; try reflexivity; try discriminate; try tauto;
    match goal with H : spells ?p ?v |- _ => rewrite (spells_plain p v H); [reflexivity|intros X; apply N; cbn; auto using in_or_app] end.
Qed.
End Any.
