(** C48: icon commands.  [float_of], [high_digit] and [int_high] stand for python's float()
    and its treatment of digits outside ASCII. *)
From Verif Require Import Base Graph Css CssSpec CssRoundSpec IconParse IconParseSpec IconParseProofs.
From Coq Require Import String ZArith NArith Bool List Lia.
Import ListNotations.
Open Scope list_scope.
Open Scope N_scope.

(** whatever the comment says, reading it ends with a command or with an exception that
    fails the build; a malformed command is never dropped in silence *)
Theorem C48_total : forall F (float_of : str -> option F) high_digit int_high text,
  (exists c, command_of float_of high_digit int_high text = Ret (Some c)) \/
  command_of float_of high_digit int_high text = Raise ValueError \/ command_of float_of high_digit int_high text = Raise TypeError.
Proof. exact @command_total. Qed.
Print Assumptions C48_total.
(** a command that is written with spaces and comments anywhere between its parts is read
    as it is written; anything may follow it *)
Theorem C48_as_written : forall F (float_of : str -> option F) high_digit int_high ts text c own,
  spaced (F := F) ts text -> written own c -> (exists more, ts ++ [IEof] = own ++ more) -> command_of float_of high_digit int_high text = Ret (Some c).
Proof. exact @command_text. Qed.
Print Assumptions C48_as_written.
(** whatever the text, the command found is the one the first tokens write *)
Theorem C48_tokens : forall F (float_of : str -> option F) high_digit int_high text c,
  command_of float_of high_digit int_high text = Ret (Some c) <->
  exists pre rest us, fst (itokenize float_of high_digit int_high text) = pre ++ rest /\ without_blanks (F := F) pre us /\ written us c.
Proof.
  intros. split; [exact (@command_sound F float_of high_digit int_high text c)|].
  intros (pre & rest & us & H & W & C). exact (@command_complete F float_of high_digit int_high text c pre rest us H W C).
Qed.
Print Assumptions C48_tokens.

(** a command with comments, a trailing comma, a repeated button name, and more text *)
Example C48_example : forall F float_of high_digit int_high,
  let text := lit "arrow primary // note
 [""white"", 'grey',] all-sizes{""a"":[""x"",""y"",""z""], ""default"":[""1"",""2"",""3""],""a"":[""p"",""q"",""r""]} and more" in
  command_of (F := F) float_of high_digit int_high text =
    Ret (Some (mkCommand (lit "arrow") (lit "primary") (Some [lit "white"; lit "grey"]) None
      (Buttons (mkSettings (Some (mkSetting (lit "1") (lit "2") (lit "3"))) [(lit "a", mkSetting (lit "p") (lit "q") (lit "r"))])))).
Proof. intros. vm_compute. reflexivity. Qed.
Example C48_example_short : forall F float_of high_digit int_high, command_of (F := F) float_of high_digit int_high (lit "arrow primary all-colors [] no-btn") =
    Ret (Some (mkCommand (lit "arrow") (lit "primary") None (Some []) NoButton)).
Proof. intros. vm_compute. reflexivity. Qed.
(** the hypotheses of C48_as_written hold for a text like that *)
Example C48_example_spaced : forall F float_of high_digit int_high, command_of (F := F) float_of high_digit int_high (lit "arrow primary all-colors[]") =
    Ret (Some (mkCommand (lit "arrow") (lit "primary") None (Some []) DefaultButton)).
Proof.
  intros. eapply (C48_as_written F float_of high_digit int_high [IIdent (lit "arrow"); IIdent (lit "primary"); IIdent (lit "all-colors"); ILSquare; IRSquare]).
  - assert (S : forall v, Forall name_char v -> forall w rest ts, gap w -> (exists a r, v = a :: r /\ name_start a) -> v <> lit "true" -> v <> lit "false" -> v <> lit "null" -> stops rest -> spaced (F := F) ts rest -> spaced (IIdent v :: ts) (w ++ v ++ rest)).
    { intros v Hv w rest ts G A N1 N2 N3 Hs Sp. apply SpacedToken; [exact G|apply TextWord; assumption|intros _; exact Hs|exact Sp]. }
    assert (L : forall v, forallb (fun c => (97 <=? c) && (c <=? 122) || (c =? 45)) v = true -> Forall name_char v).
    { intros v Hv. rewrite forallb_forall in Hv. apply Forall_forall. intros c Hc. specialize (Hv c Hc). apply Bool.orb_true_iff in Hv. destruct Hv as [Hv|Hv].
      - apply Bool.andb_true_iff in Hv. destruct Hv as [H1 H2]. apply N.leb_le in H1, H2. unfold name_char, name_start, letter. lia.
      - apply N.eqb_eq in Hv. subst c. right. right. reflexivity. }
    apply (S (lit "arrow")) with (w := []) (rest := lit " primary all-colors[]"); [apply L; reflexivity|apply GapNil| | | | | |].
    all: try (intros X; discriminate X).
    + exists 97, (lit "rrow"). split; [reflexivity|]. unfold name_start, letter. lia.
    + split; [intros c r [= <- <-] H; unfold name_char, name_start, letter, digit in H; lia|intros c r X; discriminate X].
    + apply (S (lit "primary")) with (w := lit " ") (rest := lit " all-colors[]"); [apply L; reflexivity|apply GapSpace; [right; right; reflexivity|apply GapNil]| | | | | |].
      all: try (intros X; discriminate X).
      * exists 112, (lit "rimary"). split; [reflexivity|]. unfold name_start, letter. lia.
      * split; [intros c r [= <- <-] H; unfold name_char, name_start, letter, digit in H; lia|intros c r X; discriminate X].
      * apply (S (lit "all-colors")) with (w := lit " ") (rest := lit "[]"); [apply L; reflexivity|apply GapSpace; [right; right; reflexivity|apply GapNil]| | | | | |].
        all: try (intros X; discriminate X).
        -- exists 97, (lit "ll-colors"). split; [reflexivity|]. unfold name_start, letter. lia.
        -- split; [intros c r [= <- <-] H; unfold name_char, name_start, letter, digit in H; lia|intros c r X; discriminate X].
        -- apply (SpacedToken [] ILSquare (lit "[") [IRSquare] (lit "]")); [apply GapNil|apply TextLSquare|intros [v X]; discriminate X|].
           apply (SpacedToken [] IRSquare (lit "]") [] []); [apply GapNil|apply TextRSquare|intros [v X]; discriminate X|]. apply SpacedEnd, GapNil.
  - apply (Written (lit "arrow") (lit "primary") [IIdent (lit "all-colors")] None [ILSquare; IRSquare] (Some []) [IEof] DefaultButton); [apply ChoiceAll|apply ChoiceList, ListedEnd|apply WrittenNothing].
  - exists []. reflexivity.
Qed.
