(** Concrete scripts for C29 and C30. *)
From Verif Require Import Base Graph PyPath PyNorm Js Builder CssVersion JsYield JsManip JsManipSpec JsManipGrammar JsManipProofs JsManipMain.
From Coq Require Import String ZArith NArith Bool List.
Import ListNotations.
Open Scope list_scope.
Open Scope N_scope.

Definition ex_read (f : str) : option str := if str_eqb f (lit "out/www/b.js.hash") then Some (lit "h") else None.
Notation build_script := (js_manips (lit "/p") (lit ".") (lit "src/public/a.js") ex_read (fun _ => [])).
(** import c from "./b.js"; *)
Definition ex_import : list jtok := [JImport; JSpace [32]; JIdent (lit "c"); JSpace [32]; JFrom; JSpace [32]; JString (lit "./b.js"); JSemi; JNewline; JEof].
Lemma ex_import_whole : whole ex_import.
Proof. exists (removelast ex_import). split; [reflexivity|]. vm_compute. intros H. repeat destruct H as [H|H]; try discriminate H. exact H. Qed.
Lemma ex_import_available : available (lit "/p") (lit ".") (lit "src/public/a.js") ex_read ex_import.
Proof.
  intros a body p rest E _. assert (Hp : p = lit "./b.js").
  { assert (In (JString p) ex_import) by (rewrite E; apply in_or_app; right; right; apply in_or_app; right; left; reflexivity). cbn in H. repeat destruct H as [H|H]; try discriminate H; [injection H as <-; reflexivity|contradiction]. }
  subst p. vm_compute. discriminate.
Qed.
Lemma ex_import_plain : forall v, In (JComment v) ex_import -> ~ hint_text v.
Proof. intros v H. cbn in H. repeat destruct H as [H|H]; try discriminate H. contradiction. Qed.
Lemma ex_import_out : exists b, pump (build_script false) 30 ex_import (new_builder js_init) =
  Ret ([JImport; JSpace [32]; JIdent (lit "c"); JSpace [32]; JFrom; JSpace [32]; JString (lit "/b.js?v=h&pv=1.3.2"); JSemi; JNewline; JEof], b) /\ i_seen (snd (snd (b_st b))) = [lit "src/public/b.js"].
Proof. eexists. split; vm_compute; reflexivity. Qed.

Definition hint : jtok := JComment (lit " @@type-hint").
(** a line with a hint *)
Definition ex_hint : list jtok := [JIdent (lit "f"); JSpace [32]; hint; JNewline; JIdent (lit "g"); JNewline; JEof].
Lemma ex_hint_whole : whole ex_hint.
Proof. exists (removelast ex_hint). split; [reflexivity|]. vm_compute. intros H. repeat destruct H as [H|H]; try discriminate H. exact H. Qed.
Lemma ex_hint_plain : ~ In JImport ex_hint.
Proof. vm_compute. intros H. repeat destruct H as [H|H]; try discriminate H. exact H. Qed.
Lemma ex_hint_nonempty : ~ empty_line ex_hint.
Proof.
  intros (a & rest & E & Ha). destruct Ha as [->|(a0 & ->)]; [discriminate|]. rewrite <- app_assoc in E. cbn [app] in E. unfold ex_hint, hint in E.
  do 7 (destruct a0 as [|? a0]; [discriminate E|cbn [app] in E; apply (f_equal (@tl jtok)) in E; cbn [tl] in E]). destruct a0; discriminate E.
Qed.
Lemma ex_hint_out : exists b, pump (build_script false) 30 ex_hint (new_builder js_init) = Ret ([JComment (lit "f /* @@type-hint*/"); JNewline; JIdent (lit "g"); JNewline; JEof], b).
Proof. eexists. vm_compute. reflexivity. Qed.
(** the same line after an empty line *)
Lemma empty_line_hides : exists ts out b, whole ts /\ ~ In JImport ts /\ pump (build_script false) 30 ts (new_builder js_init) = Ret (out, b) /\ ~ hide_lines ts out.
Proof.
  exists (JNewline :: ex_hint), (JNewline :: ex_hint). eexists. split; [|split; [|split; [vm_compute; reflexivity|]]].
  - exists (JNewline :: removelast ex_hint). split; [reflexivity|]. vm_compute. intros H. repeat destruct H as [H|H]; try discriminate H. exact H.
  - intros [H|H]; [discriminate|exact (ex_hint_plain H)].
  - assert (HI : forall ts out, hide_lines ts out -> forall seg e rest, one_line seg -> line_end e -> ts = seg ++ e :: rest -> (hinted seg -> exists v o, out = JComment v :: e :: o) /\ (~ hinted seg -> exists o, out = seg ++ e :: o /\ hide_lines rest o)).
    { intros ts out H seg e rest H1 H2 E. destruct H as [|s2 e2 r2 o2 H3 H4 H5 H6|s2 e2 r2 o2 H3 H4 H5 H6].
      - destruct seg; discriminate.
      - destruct (line_split_unique _ _ _ _ _ _ H3 H4 H1 H2 E) as (-> & -> & ->). split; [eauto|contradiction].
      - destruct (line_split_unique _ _ _ _ _ _ H3 H4 H1 H2 E) as (-> & -> & ->). split; [contradiction|eauto]. }
    intros H. destruct (HI _ _ H [] JNewline ex_hint) as (_ & H2); [constructor|left; reflexivity|reflexivity|]. destruct H2 as (o & E & H2); [intros (v & [] & _)|]. injection E as <-.
    destruct (HI _ _ H2 [JIdent (lit "f"); JSpace [32]; hint] JNewline [JIdent (lit "g"); JNewline; JEof]) as (H3 & _); [|left; reflexivity|reflexivity|].
    + repeat constructor; intros [X|X]; discriminate.
    + destruct H3 as (v & o & E); [|discriminate]. exists (lit " @@type-hint"). split; [right; right; left; reflexivity|]. exists [32], []. split; [reflexivity|]. split; repeat constructor.
Qed.
(** an import on a line with a hint is a dependency but not a child *)
Lemma hinted_import : exists ts out b out2 b2,
  pump (build_script true) 30 ts (new_builder js_init) = Ret (out, b) /\ pump (build_script false) 30 ts (new_builder js_init) = Ret (out2, b2) /\
  i_seen (snd (snd (b_st b))) = [lit "src/public/b.js"] /\ i_seen (snd (snd (b_st b2))) = [].
Proof. exists [JImport; JSpace [32]; JString (lit "/b.js"); JSpace [32]; hint; JNewline; JEof]. do 4 eexists. split; [vm_compute; reflexivity|]. split; [vm_compute; reflexivity|]. split; vm_compute; reflexivity. Qed.
Lemma hinted_import_differs : exists cwd folder script read type_name ts fuel out b out2 b2,
  pump (js_manips cwd folder script read type_name true) fuel ts (new_builder js_init) = Ret (out, b) /\
  pump (js_manips cwd folder script read type_name false) fuel ts (new_builder js_init) = Ret (out2, b2) /\
  i_seen (snd (snd (b_st b))) <> [] /\ i_seen (snd (snd (b_st b2))) = [].
Proof. destruct hinted_import as (ts & out & b & out2 & b2 & H1 & H2 & H3 & H4). do 5 eexists. exists ts, 30%nat, out, b, out2, b2. split; [exact H1|]. split; [exact H2|]. split; [rewrite H3; discriminate|exact H4]. Qed.
