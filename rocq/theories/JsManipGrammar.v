(** The import generator accepts exactly the import statements of [JsManipSpec]. *)
From Verif Require Import Base Graph Js Builder JsYield JsManip JsManipSpec.
From Coq Require Import String ZArith NArith Bool List.
Import ListNotations.
Open Scope list_scope.
Open Scope N_scope.

Lemma alias_iff l : alias l <-> l = [] \/ exists v, l = [JAs; JIdent v].
Proof. split; [intros []; eauto|intros [->|(v & ->)]; constructor]. Qed.
Lemma names_iff l : names l <-> l = [] \/ (exists v r, l = JIdent v :: r /\ names r) \/ (exists v r, l = JIdent v :: JComma :: r /\ names r) \/
  (exists v w r, l = JIdent v :: JAs :: JIdent w :: JComma :: r /\ names r) \/ exists v w, l = [JIdent v; JAs; JIdent w].
Proof. split; [intros []; [left; reflexivity|right; left; eauto|right; right; left; eauto|right; right; right; left; eauto 6|right; right; right; right; eauto]|]. intros [->|[(v & r & -> & H)|[(v & r & -> & H)|[(v & w & r & -> & H)|(v & w & ->)]]]]; constructor; assumption. Qed.
Lemma braces_iff l : braces l <-> exists n, l = JOpen :: n ++ [JClose] /\ names n.
Proof. split; [intros []; eauto|intros (n & -> & H); constructor; assumption]. Qed.
Lemma bindings_iff l : bindings l <-> braces l \/ (exists a, l = JStar :: a /\ alias a) \/ exists a b, l = JStar :: a ++ JComma :: b /\ alias a /\ braces b.
Proof. split; [intros []; eauto 7|]. intros [H|[(a & -> & H)|(a & b & -> & H & H2)]]; [apply BiBraces|apply BiStar|apply BiStarBraces]; assumption. Qed.
Lemma clause_iff l : clause l <-> l = [] \/ (exists v a, l = JIdent v :: a ++ [JFrom] /\ alias a) \/
  (exists v a b, l = JIdent v :: a ++ JComma :: b ++ [JFrom] /\ alias a /\ bindings b) \/ exists b, l = b ++ [JFrom] /\ bindings b.
Proof. split; [intros []; eauto 10|]. intros [->|[(v & a & -> & H)|[(v & a & b & -> & H & H2)|(b & -> & H)]]]; [apply ClPath|apply ClDefault|apply ClDefaultMore|apply ClBindings]; assumption. Qed.

(** what each suspended generator still accepts before the string *)
Definition lang_braces l := exists b, braces b /\ l = b ++ [JFrom].
Definition lang_bindings l := exists b, bindings b /\ l = b ++ [JFrom].
Definition after_alias (more : list jtok -> Prop) l := l = [JFrom] \/ exists l', l = JComma :: l' /\ more l'.
Definition lang (g : igen) (l : list jtok) : Prop :=
  match g with
  | GImport => clause l
  | GDefault => after_alias lang_bindings l \/ exists v l', l = JAs :: JIdent v :: l' /\ after_alias lang_bindings l'
  | GDefaultAs => exists v l', l = JIdent v :: l' /\ after_alias lang_bindings l'
  | GDefaultAlias => after_alias lang_bindings l
  | GDefaultComma => lang_bindings l
  | GStar => after_alias lang_braces l \/ exists v l', l = JAs :: JIdent v :: l' /\ after_alias lang_braces l'
  | GStarAs => exists v l', l = JIdent v :: l' /\ after_alias lang_braces l'
  | GStarAlias => after_alias lang_braces l
  | GStarComma => lang_braces l
  | GOpen => exists n, names n /\ l = n ++ [JClose; JFrom]
  | GName => exists v n, names (JIdent v :: n) /\ l = n ++ [JClose; JFrom]
  | GNameAs => exists v n, names (JIdent v :: JAs :: n) /\ l = n ++ [JClose; JFrom]
  | GNameAlias => exists v w n, names (JIdent v :: JAs :: JIdent w :: n) /\ l = n ++ [JClose; JFrom]
  | GClose => l = [JFrom]
  | GFrom => l = []
  end.

Lemma lang_bindings_iff l : lang_bindings l <-> lang_braces l \/ exists l', l = JStar :: l' /\ lang GStar l'.
Proof.
  unfold lang_bindings. split.
  - intros (b & H & ->). apply bindings_iff in H. destruct H as [H|[(a & -> & H)|(a & c & -> & H & H2)]].
    + left. exists b. auto.
    + right. apply alias_iff in H. destruct H as [->|(v & ->)]; (eexists; split; [reflexivity|]); cbn; [left; left; reflexivity|right; exists v; eexists; split; [reflexivity|left; reflexivity]].
    + right. apply alias_iff in H. assert (HC : after_alias lang_braces (JComma :: c ++ [JFrom])) by (right; eexists; split; [reflexivity|exists c; auto]).
      destruct H as [->|(v & ->)]; (eexists; split; [reflexivity|]); cbn; [left; exact HC|right; exists v; eexists; split; [reflexivity|exact HC]].
  - intros [(b & H & ->)|(l' & -> & H)]; [exists b; split; [apply BiBraces; exact H|reflexivity]|]. cbn in H.
    assert (HA : forall a r, alias a -> after_alias lang_braces r -> exists b, bindings b /\ JStar :: a ++ r = b ++ [JFrom]).
    { intros a r Ha [->|(l2 & -> & b & Hb & ->)]; [exists (JStar :: a); split; [apply BiStar; exact Ha|reflexivity]|].
      exists (JStar :: a ++ JComma :: b). split; [apply BiStarBraces; assumption|]. cbn. rewrite <- app_assoc. reflexivity. }
    destruct H as [H|(v & l2 & -> & H)]; [apply (HA [] l'); [constructor|exact H]|apply (HA [JAs; JIdent v] l2); [constructor|exact H]].
Qed.
Lemma lang_braces_iff l : lang_braces l <-> exists l', l = JOpen :: l' /\ lang GOpen l'.
Proof.
  unfold lang_braces. cbn. split.
  - intros (b & H & ->). apply braces_iff in H. destruct H as (n & -> & H). exists ((n ++ [JClose]) ++ [JFrom]). split; [reflexivity|]. exists n. split; [exact H|]. rewrite <- app_assoc. reflexivity.
  - intros (l' & -> & n & H & ->). exists (JOpen :: n ++ [JClose]). split; [constructor; exact H|]. cbn. rewrite <- app_assoc. reflexivity.
Qed.
Lemma clause_cases l : clause l <-> l = [] \/ lang_bindings l \/ exists v l', l = JIdent v :: l' /\ lang GDefault l'.
Proof.
  rewrite clause_iff. split.
  - intros [->|[(v & a & -> & H)|[(v & a & b & -> & H & H2)|(b & -> & H)]]]; [left; reflexivity| | |right; left; exists b; auto].
    + right; right. exists v. eexists. split; [reflexivity|]. apply alias_iff in H. destruct H as [->|(w & ->)]; cbn; [left; left; reflexivity|right; exists w; eexists; split; [reflexivity|left; reflexivity]].
    + right; right. exists v. eexists. split; [reflexivity|]. assert (HC : after_alias lang_bindings (JComma :: b ++ [JFrom])) by (right; eexists; split; [reflexivity|exists b; auto]).
      apply alias_iff in H. destruct H as [->|(w & ->)]; cbn; [left; exact HC|right; exists w; eexists; split; [reflexivity|exact HC]].
  - intros [->|[(b & H & ->)|(v & l' & -> & H)]]; [left; reflexivity|right; right; right; exists b; auto|]. cbn in H.
    assert (HA : forall a r, alias a -> after_alias lang_bindings r -> (exists v0 a0, JIdent v :: a ++ r = JIdent v0 :: a0 ++ [JFrom] /\ alias a0) \/ (exists v0 a0 b, JIdent v :: a ++ r = JIdent v0 :: a0 ++ JComma :: b ++ [JFrom] /\ alias a0 /\ bindings b)).
    { intros a r Ha [->|(l2 & -> & b & Hb & ->)]; [left; exists v, a; auto|right; exists v, a, b; auto]. }
    right. destruct H as [H|(w & l2 & -> & H)].
    + destruct (HA [] l' AlNone H) as [X|X]; [left; exact X|right; left; exact X].
    + destruct (HA [JAs; JIdent w] l2 (AlSome w) H) as [X|X]; [left; exact X|right; left; exact X].
Qed.
Lemma open_cases l : lang GOpen l <-> (exists l', l = JClose :: l' /\ lang GClose l') \/ exists v l', l = JIdent v :: l' /\ lang GName l'.
Proof.
  cbn. split.
  - intros (n & H & ->). apply names_iff in H. destruct H as [->|[(v & r & -> & H)|[(v & r & -> & H)|[(v & w & r & -> & H)|(v & w & ->)]]]]; [left; exists [JFrom]; split; reflexivity|right; exists v, (r ++ [JClose; JFrom])|right; exists v, ((JComma :: r) ++ [JClose; JFrom])|right; exists v, ((JAs :: JIdent w :: JComma :: r) ++ [JClose; JFrom])|right; exists v, ([JAs; JIdent w] ++ [JClose; JFrom])];
      (split; [reflexivity|]); exists v; [exists r|exists (JComma :: r)|exists (JAs :: JIdent w :: JComma :: r)|exists [JAs; JIdent w]]; (split; [first [apply NmLast|apply NmAlias; assumption|apply NmComma; assumption|apply NmName; assumption]|reflexivity]).
  - intros [(l' & -> & ->)|(v & l' & -> & w & n & H & ->)]; [exists []; split; [constructor|reflexivity]|]. exists (JIdent v :: n). split; [|reflexivity].
    apply names_iff in H. apply names_iff. destruct H as [E|[(v2 & r & E & H)|[(v2 & r & E & H)|[(v2 & w2 & r & E & H)|(v2 & w2 & E)]]]]; [discriminate| | | |]; injection E as -> ->; right; [left|right; left|right; right; left|right; right; right]; eauto 6.
Qed.
Lemma name_cases l : lang GName l <-> lang GOpen l \/ (exists l', l = JComma :: l' /\ lang GOpen l') \/ exists l', l = JAs :: l' /\ lang GNameAs l'.
Proof.
  cbn. split.
  - intros (v & n & H & ->). apply names_iff in H. destruct H as [E|[(v2 & r & E & H)|[(v2 & r & E & H)|[(v2 & w2 & r & E & H)|(v2 & w2 & E)]]]]; [discriminate| | | |]; injection E as -> ->.
    + left. eauto.
    + right; left. exists (r ++ [JClose; JFrom]). split; [reflexivity|]. eauto.
    + right; right. exists ((JIdent w2 :: JComma :: r) ++ [JClose; JFrom]). split; [reflexivity|]. exists v2, (JIdent w2 :: JComma :: r). split; [|reflexivity]. apply NmAlias; assumption.
    + right; right. exists ([JIdent w2] ++ [JClose; JFrom]). split; [reflexivity|]. exists v2, [JIdent w2]. split; [|reflexivity]. apply NmLast.
  - intros [(n & H & ->)|[(l' & -> & n & H & ->)|(l' & -> & v & n & H & ->)]]; [exists [], n|exists [], (JComma :: n)|exists v, (JAs :: n)]; (split; [|reflexivity]); [apply NmName; exact H|apply NmComma; exact H|exact H].
Qed.
Lemma name_as_cases l : lang GNameAs l <-> exists v l', l = JIdent v :: l' /\ lang GNameAlias l'.
Proof.
  cbn. split.
  - intros (v & n & H & ->). apply names_iff in H. destruct H as [E|[(v2 & r & E & H)|[(v2 & r & E & H)|[(v2 & w2 & r & E & H)|(v2 & w2 & E)]]]]; [discriminate| |discriminate| |]; injection E as -> E; [|subst n|subst n].
    + subst r. apply names_iff in H. destruct H as [E|[(? & ? & E & _)|[(? & ? & E & _)|[(? & ? & ? & E & _)|(? & ? & E)]]]]; discriminate.
    + exists w2, ((JComma :: r) ++ [JClose; JFrom]). split; [reflexivity|]. exists v2, w2, (JComma :: r). split; [|reflexivity]. apply NmAlias; assumption.
    + exists w2, ([] ++ [JClose; JFrom]). split; [reflexivity|]. exists v2, w2, []. split; [|reflexivity]. apply NmLast.
  - intros (v & l' & -> & v2 & w & n & H & ->). exists v2, (JIdent v :: n). split; [|reflexivity].
    apply names_iff in H. destruct H as [E|[(? & r & E & H)|[(? & r & E & H)|[(? & ? & r & E & H)|(? & ? & E)]]]]; [discriminate| |discriminate| |]; injection E as -> E.
    + subst r. apply names_iff in H. destruct H as [E|[(? & ? & E & _)|[(? & ? & E & _)|[(? & ? & ? & E & _)|(? & ? & E)]]]]; discriminate.
    + subst. apply NmAlias. assumption.
    + subst. apply NmLast.
Qed.
Lemma name_alias_cases l : lang GNameAlias l <-> (exists l', l = JComma :: l' /\ lang GOpen l') \/ exists l', l = JClose :: l' /\ lang GClose l'.
Proof.
  cbn. split.
  - intros (v & w & n & H & ->). apply names_iff in H. destruct H as [E|[(? & r & E & H)|[(? & r & E & H)|[(? & ? & r & E & H)|(? & ? & E)]]]]; [discriminate| |discriminate| |]; injection E as -> E.
    + subst r. apply names_iff in H. destruct H as [E|[(? & ? & E & _)|[(? & ? & E & _)|[(? & ? & ? & E & _)|(? & ? & E)]]]]; discriminate.
    + subst. left. exists (r ++ [JClose; JFrom]). split; [reflexivity|]. eauto.
    + subst. right. exists [JFrom]. split; reflexivity.
  - intros [(l' & -> & n & H & ->)|(l' & -> & ->)]; exists [], []; [exists (JComma :: n)|exists []]; (split; [|reflexivity]); [apply NmAlias; assumption|apply NmLast].
Qed.

(** one token at a time *)
Ltac cases := repeat match goal with
  | H : _ \/ _ |- _ => destruct H as [H|H]
  | H : _ :: _ = [] |- _ => discriminate H
  | H : _ :: _ = [_] |- _ => injection H; clear H; intros; subst
  | H : exists l', _ :: _ = _ :: l' /\ _ |- _ => let E := fresh in destruct H as (? & E & H); try discriminate E; injection E; clear E; intros; subst
  | H : exists v l', _ :: _ = _ /\ _ |- _ => let E := fresh in destruct H as (? & ? & E & H); try discriminate E; injection E; clear E; intros; subst
  end.
Ltac steps t := destruct t; cbn [at_star at_braces at_from at_name]; let E := fresh in intros E; try discriminate E; injection E as <-; split; let H := fresh in intros H; cases; try assumption; try discriminate; eauto 8.
Lemma lang_step g t g' l : advance g t = Wait g' -> (lang g (t :: l) <-> lang g' l).
Proof.
  destruct g; cbn [advance].
  - change (lang GImport (t :: l)) with (clause (t :: l)). rewrite clause_cases, lang_bindings_iff, lang_braces_iff. steps t.
  - unfold lang at 1, after_alias. steps t; unfold lang, after_alias in *; cases; eauto 8; [destruct H0 as (v & l2 & -> & H0); eauto 8|subst; auto].
  - unfold lang at 1. steps t.
  - unfold lang at 1, after_alias. steps t; unfold lang in *; subst; auto.
  - change (lang GDefaultComma (t :: l)) with (lang_bindings (t :: l)). rewrite lang_bindings_iff, lang_braces_iff. steps t.
  - unfold lang at 1, after_alias. steps t; unfold lang, after_alias in *; cases; eauto 8; [destruct H0 as (v & l2 & -> & H0); eauto 8|subst; auto].
  - unfold lang at 1. steps t.
  - unfold lang at 1, after_alias. steps t; unfold lang in *; subst; auto.
  - change (lang GStarComma (t :: l)) with (lang_braces (t :: l)). rewrite lang_braces_iff. steps t.
  - rewrite open_cases. steps t.
  - rewrite name_cases, open_cases. steps t.
  - rewrite name_as_cases. steps t.
  - rewrite name_alias_cases. steps t.
  - unfold lang at 1. steps t; unfold lang in *; subst; auto.
  - destruct t; intros E; discriminate E.
Qed.
Lemma lang_wait g t l : lang g (t :: l) -> exists g', advance g t = Wait g'.
Proof.
  destruct g; cbn [advance]; intros H.
  - apply clause_cases in H. rewrite lang_bindings_iff, lang_braces_iff in H. destruct t; cases; try discriminate; eexists; reflexivity.
  - unfold lang, after_alias in H. destruct t; cases; try discriminate; eexists; reflexivity.
  - unfold lang in H. destruct t; cases; try discriminate; eexists; reflexivity.
  - unfold lang, after_alias in H. destruct t; cases; try discriminate; eexists; reflexivity.
  - change (lang_bindings (t :: l)) in H. rewrite lang_bindings_iff, lang_braces_iff in H. destruct t; cases; try discriminate; eexists; reflexivity.
  - unfold lang, after_alias in H. destruct t; cases; try discriminate; eexists; reflexivity.
  - unfold lang in H. destruct t; cases; try discriminate; eexists; reflexivity.
  - unfold lang, after_alias in H. destruct t; cases; try discriminate; eexists; reflexivity.
  - change (lang_braces (t :: l)) in H. rewrite lang_braces_iff in H. destruct t; cases; try discriminate; eexists; reflexivity.
  - rewrite open_cases in H. destruct t; cases; try discriminate; eexists; reflexivity.
  - rewrite name_cases, open_cases in H. destruct t; cases; try discriminate; eexists; reflexivity.
  - rewrite name_as_cases in H. destruct t; cases; try discriminate; eexists; reflexivity.
  - rewrite name_alias_cases in H. destruct t; cases; try discriminate; eexists; reflexivity.
  - unfold lang in H. injection H as -> ->. eexists. reflexivity.
  - discriminate H.
Qed.
Lemma lang_end g p : lang g [] -> advance g (JString p) = Import p.
Proof.
  destruct g; cbn [advance]; intros H; try reflexivity; exfalso.
  - unfold lang, after_alias in H. destruct H as [[H|(? & H & _)]|(? & ? & H & _)]; discriminate.
  - destruct H as (? & ? & H & _); discriminate.
  - destruct H as [H|(? & H & _)]; discriminate.
  - destruct H as (b & _ & H). destruct b; discriminate.
  - unfold lang, after_alias in H. destruct H as [[H|(? & H & _)]|(? & ? & H & _)]; discriminate.
  - destruct H as (? & ? & H & _); discriminate.
  - destruct H as [H|(? & H & _)]; discriminate.
  - destruct H as (b & _ & H). destruct b; discriminate.
  - destruct H as (b & _ & H). destruct b; discriminate.
  - destruct H as (? & b & _ & H). destruct b; discriminate.
  - destruct H as (? & b & _ & H). destruct b; discriminate.
  - destruct H as (? & ? & b & _ & H). destruct b; discriminate.
  - discriminate.
Qed.
Lemma import_end g t p : advance g t = Import p -> t = JString p /\ lang g [].
Proof. destruct g, t; cbn; intros H; try discriminate H; injection H as <-; (split; [reflexivity|]); [apply ClPath|reflexivity]. Qed.
Lemma eof_stops g g' : advance g JEof <> Wait g'.
Proof. destruct g; discriminate. Qed.
Lemma string_stops g p g' : advance g (JString p) <> Wait g'.
Proof. destruct g; discriminate. Qed.

(** the tokens up to the one where the generator stops *)
Fixpoint irun (g : igen) (ts : list jtok) : option (list jtok * jtok * list jtok * ioutcome) :=
  match ts with
  | [] => None
  | t :: r =>
      let more g' := match irun g' r with Some (seg, e, rest, o) => Some (t :: seg, e, rest, o) | None => None end in
      if is_blank t then more g
      else match advance g t with Wait g' => more g' | o => Some ([], t, r, o) end
  end.
Lemma is_blank_iff t : is_blank t = true <-> (exists v, t = JSpace v) \/ t = JNewline.
Proof. destruct t; cbn; split; intros H; try discriminate; try reflexivity; eauto; destruct H as [(? & H)|H]; discriminate. Qed.
Lemma is_blank_false t : is_blank t = false <-> (forall v, t <> JSpace v) /\ t <> JNewline.
Proof. destruct t; cbn; split; intros H; try discriminate; try reflexivity; try (split; discriminate); destruct H as (H1 & H2); [exfalso; eapply H1; reflexivity|exfalso; apply H2; reflexivity]. Qed.
Lemma irun_split g ts : forall seg t rest o, irun g ts = Some (seg, t, rest, o) -> ts = seg ++ t :: rest /\ (forall g', o <> Wait g').
Proof.
  revert g. induction ts as [|x r IH]; intros g seg t rest o; cbn [irun]; [discriminate|].
  destruct (is_blank x).
  - destruct (irun g r) as [[[[s e] q] oo]|] eqn:E; [|discriminate]. intros H. injection H as <- -> -> ->. destruct (IH _ _ _ _ _ E) as (-> & H). auto.
  - destruct (advance g x) as [g'|p|h] eqn:A.
    + destruct (irun g' r) as [[[[s e] q] oo]|] eqn:E; [|discriminate]. intros H. injection H as <- -> -> ->. destruct (IH _ _ _ _ _ E) as (-> & H). auto.
    + intros H. injection H as <- -> -> <-. split; [reflexivity|discriminate].
    + intros H. injection H as <- -> -> <-. split; [reflexivity|discriminate].
Qed.
Lemma irun_sound g ts : forall seg t rest p, irun g ts = Some (seg, t, rest, Import p) -> t = JString p /\ exists l, spaces seg l /\ lang g l.
Proof.
  revert g. induction ts as [|x r IH]; intros g seg t rest p; cbn [irun]; [discriminate|].
  destruct (is_blank x) eqn:B.
  - destruct (irun g r) as [[[[s e] q] oo]|] eqn:E; [|discriminate]. intros H. injection H as <- -> -> ->. destruct (IH _ _ _ _ _ E) as (-> & l & Hs & Hl). split; [reflexivity|]. exists l. split; [apply SpSkip; [apply is_blank_iff; exact B|exact Hs]|exact Hl].
  - destruct (advance g x) as [g'|p'|h] eqn:A.
    + destruct (irun g' r) as [[[[s e] q] oo]|] eqn:E; [|discriminate]. intros H. injection H as <- -> -> ->. destruct (IH _ _ _ _ _ E) as (-> & l & Hs & Hl). split; [reflexivity|].
      exists (x :: l). apply is_blank_false in B. split; [apply SpKeep; tauto|]. apply (lang_step _ _ _ _ A). exact Hl.
    + intros H. injection H as <- -> -> <-. apply import_end in A. destruct A as (-> & A). split; [reflexivity|]. exists []. split; [constructor|exact A].
    + intros H. discriminate H.
Qed.
Lemma irun_complete body l : spaces body l -> forall g p rest, lang g l -> irun g (body ++ JString p :: rest) = Some (body, JString p, rest, Import p).
Proof.
  induction 1 as [|t ts l Hb _ IH|t ts l Hn1 Hn2 _ IH]; intros g p rest Hl; cbn [irun app].
  - cbn. rewrite (lang_end _ _ Hl). reflexivity.
  - apply is_blank_iff in Hb. rewrite Hb, (IH _ _ _ Hl). reflexivity.
  - assert (B : is_blank t = false) by (apply is_blank_false; auto). rewrite B. destruct (lang_wait _ _ _ Hl) as (g' & A). rewrite A. rewrite (IH g' p rest); [reflexivity|]. apply (lang_step _ _ _ _ A). exact Hl.
Qed.
Theorem irun_import ts body p rest : irun GImport ts = Some (body, JString p, rest, Import p) <-> import_of ts body p rest.
Proof.
  split.
  - intros H. destruct (irun_split _ _ _ _ _ _ H) as (-> & _). destruct (irun_sound _ _ _ _ _ _ H) as (_ & l & Hs & Hl). split; [reflexivity|]. exists l. split; assumption.
  - intros (-> & l & Hs & Hl). apply (irun_complete _ _ Hs). exact Hl.
Qed.
Lemma irun_total g ts : (exists b, ts = b ++ [JEof]) -> irun g ts <> None.
Proof.
  intros (b & ->). revert g. induction b as [|x r IH]; intros g; cbn [irun app].
  - cbn [is_blank]. pose proof (eof_stops g) as H. destruct (advance g JEof) as [g'|p|h]; [exfalso; eapply H; reflexivity|discriminate|discriminate].
  - specialize (IH g) as IH1. destruct (is_blank x); [destruct (irun g (r ++ [JEof])) as [[[[? ?] ?] ?]|]; [discriminate|contradiction]|].
    destruct (advance g x) as [g'|p|h]; [|discriminate|discriminate]. specialize (IH g'). destruct (irun g' (r ++ [JEof])) as [[[[? ?] ?] ?]|]; [discriminate|contradiction].
Qed.
(** tokens that cannot stand inside an import statement *)
Definition inside (t : jtok) : bool := match t with JOpen | JClose | JStar | JAs | JFrom | JComma | JIdent _ | JSpace _ | JNewline => true | _ => false end.
Lemma irun_inside g ts : forall seg t rest o, irun g ts = Some (seg, t, rest, o) -> forallb inside seg = true.
Proof.
  revert g. induction ts as [|x r IH]; intros g seg t rest o; cbn [irun]; [discriminate|].
  destruct (is_blank x) eqn:B.
  - destruct (irun g r) as [[[[s e] q] oo]|] eqn:E; [|discriminate]. intros H. injection H as <- -> -> ->. cbn. rewrite (IH _ _ _ _ _ E). destruct x; try discriminate; reflexivity.
  - destruct (advance g x) as [g'|p|h] eqn:A; [|intros H; injection H as <- _ _ _; reflexivity..].
    destruct (irun g' r) as [[[[s e] q] oo]|] eqn:E; [|discriminate]. intros H. injection H as <- -> -> ->. cbn. rewrite (IH _ _ _ _ _ E), andb_true_r. destruct x; try reflexivity; destruct g; cbn in A; discriminate A.
Qed.
