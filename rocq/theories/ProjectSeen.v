(** Without type hints, scan and build find the imports of a script. *)
From Verif Require Import Base Graph PyPath PyNorm Js JsSpec JsProofs Builder BuilderProofs CssVersion JsYield JsManip JsManipSpec JsManipProofs JsManipMain Handlers Hot Project ProjectPump ProjectRun.
From Coq Require Import String ZArith NArith Bool List.
Import ListNotations.
Open Scope list_scope.

Lemma denotes_eof t p rest : js_denotes t p rest -> t <> JEof.
Proof. intros H. inversion H; subst; try discriminate. match goal with H : word_token _ _ |- _ => inversion H; subst; discriminate end. Qed.
Lemma tokens_whole text ts : js_tokenize text = Ret ts -> whole ts.
Proof.
  intros H. apply js_tokenize_iff in H. induction H as [|t ts p rest Hp Hd H (b & E & Hb)]; [exists []; split; [reflexivity|intros []]|].
  exists (t :: b). split; [rewrite E; reflexivity|]. intros [X|X]; [exact (denotes_eof _ _ _ Hd X)|contradiction].
Qed.

Section Seen.
Context (K : setting).
Notation cwd := (k_cwd K).
Notation folder := (k_folder K).
Notation type_name := (k_type_name K).
Notation fuel := (k_fuel K).
Lemma run_seen p s text ts out l : js_run K false p s = Some (out, l) -> s p = Some text -> js_tokenize text = Ret ts ->
  (forall v, In (JComment v) ts -> ~ hint_text v) -> forall x, In x l <-> imported (fun i => fst (resolve cwd folder p i)) false ts x.
Proof.
  unfold js_run. intros H Hp Ht Hh. rewrite Hp, Ht in H.
  destruct (pump (js_manips cwd folder p s type_name false) fuel ts (new_builder js_init)) as [[o b]|] eqn:E; [|discriminate]. injection H as <- <-.
  set (s2 := fun x => match s x with None => Some [] | y => y end).
  destruct (js_step cwd folder p s s2 type_name fuel ts o b E) as (b2 & E2 & B2).
  { intros x Hx. unfold s2. assert (R : s (hash_file cwd x) <> None) by exact (proj1 (js_grows cwd folder p s s type_name fuel ts o b E x Hx)).
    destruct (s (hash_file cwd x)); [reflexivity|congruence]. }
  destruct (build_edits cwd folder p s2 type_name ts (tokens_whole _ _ Ht)) as (f3 & o3 & b3 & E3 & _ & _ & S3); [|exact Hh|].
  - intros a body q rest _ _ X. apply version_none in X. unfold s2 in X. destruct (s _) in X; discriminate.
  - pose proof (pump_same _ _ _ _ _ _ _ E2 E3) as X. injection X as -> ->. rewrite <- B2. exact S3.
Qed.
Lemma scan_run_seen p s text ts out l : js_run K true p s = Some (out, l) -> s p = Some text -> js_tokenize text = Ret ts ->
  forall x, In x l <-> imported (fun i => fst (resolve cwd folder p i)) false ts x.
Proof.
  unfold js_run. intros H Hp Ht. rewrite Hp, Ht in H.
  destruct (pump (js_manips cwd folder p s type_name true) fuel ts (new_builder js_init)) as [[o b]|] eqn:E; [|discriminate]. injection H as <- <-.
  destruct (scan_seen cwd folder p s type_name ts (tokens_whole _ _ Ht)) as (f3 & o3 & b3 & E3 & _ & S3).
  pose proof (pump_same _ _ _ _ _ _ _ E E3) as X. injection X as -> ->. exact S3.
Qed.
Lemma imported_target f b ts x : imported f b ts x -> exists p, x = f p.
Proof. induction 1; eauto. Qed.
Lemma run_tokens scan p s out l : js_run K scan p s = Some (out, l) -> exists text ts, s p = Some text /\ js_tokenize text = Ret ts.
Proof. unfold js_run. destruct (s p) as [text|]; [|discriminate]. destruct (js_tokenize text) as [ts|] eqn:E; [|discriminate]. intros _. exists text, ts. auto. Qed.
End Seen.
(** the edited tokens of a completed run *)
Lemma edited_where f v1 v2 b ts out : edited v1 b ts out -> (forall p, imported f b ts (f p) -> v1 p = v2 p) -> edited v2 b ts out.
Proof.
  induction 1 as [b|b t b' ts out H1 H2 H3 IH|ts body p rest new out H1 H2 H3 IH|ts note out H1 H2 IH]; intros E.
  - constructor.
  - eapply EdPass; [exact H1|exact H2|]. apply IH. intros p X. apply E. eapply ImLater; eassumption.
  - eapply EdImport; [exact H1|rewrite <- E; [exact H2|eapply ImHere; exact H1]|]. apply IH. intros x X. apply E. eapply ImAfter; eassumption.
  - eapply EdBad; [exact H1|]. apply IH. intros p X. apply E. eapply ImBad; eassumption.
Qed.
Lemma run_edits cwd folder type_name fuel p s ts out b : pump (js_manips cwd folder p s type_name false) fuel ts (new_builder js_init) = Ret (out, b) -> whole ts -> (forall v, In (JComment v) ts -> ~ hint_text v) ->
  edited (fun i => match s (hash_file cwd (fst (resolve cwd folder p i))) with
                   | Some hash => Some (snd (resolve cwd folder p i) ++ lit "?v=" ++ quote_plus hash ++ lit "&pv=1.3.2")
                   | None => None end) false ts out.
Proof.
  intros E Hw Hh. set (s2 := fun x => match s x with None => Some [] | y => y end).
  assert (R : forall x, In x (i_seen (snd (snd (b_st b)))) -> s2 (hash_file cwd x) = s (hash_file cwd x)).
  { intros x Hx. unfold s2. assert (R : s (hash_file cwd x) <> None) by exact (proj1 (js_grows cwd folder p s s type_name fuel ts out b E x Hx)).
    destruct (s (hash_file cwd x)); [reflexivity|congruence]. }
  destruct (js_step cwd folder p s s2 type_name fuel ts out b E R) as (b2 & E2 & B2).
  destruct (build_edits_text cwd folder p s2 type_name ts Hw) as (f3 & o3 & b3 & E3 & _ & H3 & S3); [|exact Hh|].
  - intros a body q rest _ _ X. apply version_none in X. unfold s2 in X. destruct (s _) in X; discriminate.
  - pose proof (pump_same _ _ _ _ _ _ _ E2 E3) as X. injection X as -> ->. eapply edited_where with (f := fun i => fst (resolve cwd folder p i)); [exact H3|]. intros q Hq. cbn beta. apply S3 in Hq. rewrite B2 in Hq. rewrite (R _ Hq). reflexivity.
Qed.
