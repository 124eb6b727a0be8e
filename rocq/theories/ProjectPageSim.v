(** The manipulators of Page.v do what those of Html.v and handlers/html.py do. *)
From Verif Require Import Base Graph Json PyPath PyNorm CssVersion Builder BuilderProofs Handlers JsYield OutlineData Html HtmlSpec HtmlMain HtmlTemplate ImgSize ImgSettings ImgExport ImgCommand Page PageWhole Project ProjectPump ProjectPage ProjectPageSpec.
From Coq Require Import String ZArith NArith Bool List Lia.
Import ListNotations.
Open Scope list_scope.

Definition with_files (f : fs) (s : hstate) : hstate := with_results f (o_seen s) (o_made s) (o_reused s) s.
Section Sim.
Context (host : option str) (p : str) (fragment : str -> list htoken) (show : str -> str) (F : fs) (scan : bool).
Context (js_scan css_scan : str -> fs -> res scanned) (js_build css_build : str -> fs -> res (built * fs)).
Notation read := (fun x => dget x F).
Notation ms := (page_manips host p fragment show read scan).
Notation hs := (manipulators host p fragment show js_scan css_scan js_build css_build scan).
Lemma left_inline t : page_left_out t = false -> inline_script t = None /\ inline_style t = None /\ forall text, t = HComment text -> rule_args false (lit "IMAGE") text = None.
Proof.
  unfold page_left_out. destruct (inline_script t) eqn:E1; [destruct (inline_style t); discriminate|]. destruct (inline_style t) eqn:E2; [discriminate|]. intros H. split; [reflexivity|]. split; [reflexivity|]. intros text ->. destruct (rule_args false (lit "IMAGE") text); [discriminate|reflexivity].
Qed.
Lemma outline_passes t s : page_left_out t = false -> outline_start t s = Ret (false, s).
Proof. intros H. apply left_inline in H. destruct H as (A & B & _). unfold outline_start. rewrite A, B. reflexivity. Qed.
(** the manipulators, one by one *)
Lemma canonical_start_files t s b s' : canonical_start host scan t s = Ret (b, s') -> canonical_start host scan t (with_files F s) = Ret (b, with_files F s').
Proof. unfold canonical_start. destruct (canonical_tag t); [|intros H; injection H as <- <-; reflexivity]. destruct scan; [destruct host; [|discriminate]|]; intros H; injection H as <- <-; reflexivity. Qed.
Lemma canonical_continue_files t s r s' : canonical_continue host p t s = Ret (r, s') -> canonical_continue host p t (with_files F s) = Ret (r, with_files F s').
Proof. unfold canonical_continue. destruct (canonical_tag t) as [[[[? ?] ?] ?]|]; [|discriminate]. intros H. injection H as <- <-. reflexivity. Qed.
Lemma link_start_files t s b s' : link_start scan t s = Ret (b, s') -> link_start scan t (with_files F s) = Ret (b, with_files F s').
Proof. unfold link_start. destruct (link_dependency t) as [[[? ?] ?]|]; intros H; injection H as <- <-; reflexivity. Qed.
Lemma link_continue_files t s r s' : page_link_continue read t s = Ret (r, s') -> link_continue t (with_files F s) = Ret (r, with_files F s').
Proof.
  unfold page_link_continue, link_continue, page_link_file. destruct (link_dependency t) as [[[attr path] attrs]|]; [|discriminate]. cbn [Html.files with_files with_results]. destruct (dget _ F); [|discriminate]. intros H. injection H as <- <-. reflexivity.
Qed.
Lemma stack_files c l s ts s' : handle_stack show c l s = Ret (ts, s') -> handle_stack show c l (with_files F s) = Ret (ts, with_files F s').
Proof.
  unfold handle_stack. cbn [t_frame t_stack with_files with_results]. destruct (if str_eqb c (lit "push") then _ else _); [intros H; injection H as <- <-; reflexivity|]. destruct (str_eqb c (lit "pop")); [destruct (t_stack s); [discriminate|intros H; injection H as <- <-; reflexivity]|].
  destruct (str_eqb c (lit "define")); [destruct l as [|[] [|? [|]]]; intros H; injection H as <- <-; reflexivity|]. destruct (str_eqb c (lit "retrieve")); [|intros H; injection H as <- <-; reflexivity].
  destruct l as [|[|?|?|[|k0 k]|?|?] [|]]; try (intros H; injection H as <- <-; reflexivity). destruct (dget _ _) as [[]|]; try discriminate; intros H; injection H as <- <-; reflexivity.
Qed.
Lemma template_continue_files t s r s' : page_template_continue fragment show read t s = Ret (r, s') -> template_continue fragment show t (with_files F s) = Ret (r, with_files F s').
Proof.
  unfold page_template_continue, template_continue. destruct (stack_command t) as [[c l]|].
  - destruct (handle_stack show c l s) as [[ts s1]|] eqn:E; [|discriminate]. intros H. injection H as <- <-. rewrite (stack_files _ _ _ _ _ E). reflexivity.
  - destruct (template_command t) as [[c l]|]; [|intros H; injection H as <- <-; reflexivity]. unfold page_template, handle_template. cbn [t_frame with_files with_results]. destruct (template_import (t_frame s) c l) as [[path vars]|]; [|intros H; injection H as <- <-; reflexivity].
    change (Html.files (with_templates (set_add path (t_seen (with_files F s))) (with_files F s))) with F. change (Html.files (with_files F s)) with F. destruct (dget path F) as [text|]; [|discriminate]. intros H. injection H as <- <-. reflexivity.
Qed.
Lemma html_sim : follows_one ms hs (fun a b => b = with_files F a).
Proof.
  intros t s s2 r s' -> . unfold page_manips, manipulators. cbn [find_mark start_mark canonical page_links page_guard page_templates link_hash outline template].
  destruct (canonical_start host scan t s) as [[[|] s1]|] eqn:E1; [| |discriminate]; rewrite (canonical_start_files _ _ _ _ E1).
  { intros H. injection H as <- <-. intros r2 s3 Ec. cbn [continue_mark canonical] in Ec. split; [apply canonical_takes in Ec; apply Ec|]. eexists _, _, _. split; [reflexivity|]. split; [apply canonical_continue_files, Ec|reflexivity]. }
  destruct (link_start scan t s1) as [[[|] s2]|] eqn:E2; [| |discriminate]; rewrite (link_start_files _ _ _ _ E2).
  { intros H. injection H as <- <-. intros r2 s3 Ec. cbn [continue_mark page_links] in Ec. split; [apply link_takes in Ec; apply Ec|]. eexists _, _, _. split; [reflexivity|]. split; [apply link_continue_files, Ec|reflexivity]. }
  destruct (page_left_out t) eqn:L; [discriminate|]. rewrite (outline_passes _ _ L). unfold template_start. destruct (match stack_command t with Some _ => _ | None => _ end); intros H; injection H as <- <-; [|eexists; split; reflexivity].
  intros r2 s3 Ec. cbn [continue_mark page_templates] in Ec. split; [apply (template_takes p) in Ec; apply Ec|]. eexists _, _, _. split; [reflexivity|]. split; [apply template_continue_files, Ec|reflexivity].
Qed.
(** together with images *)
Context (folder cwd : str) {M : Type} (int_high : str -> option Z) (dims : str -> res (option (Z * Z))) (scan_one : command -> fs -> res (scanned * fs)) (export : command -> fs -> res (M * Handlers.built * fs)) (picture : command -> M -> res (list htoken)).
Notation ws := (page_whole host p folder cwd fragment show js_scan css_scan js_build css_build int_high dims scan_one export picture scan).
Lemma images_pass t (i : pstate) : page_left_out t = false -> images_start int_high cwd folder p dims scan_one scan t i = Ret (false, i).
Proof.
  intros H. apply left_inline in H. destruct H as (_ & _ & H). unfold images_start, ImgCommand.get_command. destruct t; try reflexivity. rewrite (H _ eq_refl). reflexivity.
Qed.
Lemma whole_sim i : follows_one ms ws (fun a b => b = (with_files F a, i)).
Proof.
  intros t s s2 r s' -> . unfold page_manips, page_whole. cbn [find_mark start_mark canonical page_links page_guard page_templates link_hash outline template images lift_fst lift_snd fst snd].
  destruct (canonical_start host scan t s) as [[[|] s1]|] eqn:E1; [| |discriminate]; rewrite (canonical_start_files _ _ _ _ E1).
  { intros H. injection H as <- <-. intros r2 s3 Ec. cbn [continue_mark canonical] in Ec. split; [apply canonical_takes in Ec; apply Ec|]. eexists _, _, _. split; [reflexivity|]. split; [cbn; rewrite (canonical_continue_files _ _ _ _ Ec); reflexivity|reflexivity]. }
  cbn [fst snd]. destruct (link_start scan t s1) as [[[|] s2]|] eqn:E2; [| |discriminate]; rewrite (link_start_files _ _ _ _ E2).
  { intros H. injection H as <- <-. intros r2 s3 Ec. cbn [continue_mark page_links] in Ec. split; [apply link_takes in Ec; apply Ec|]. eexists _, _, _. split; [reflexivity|]. split; [cbn; rewrite (link_continue_files _ _ _ _ Ec); reflexivity|reflexivity]. }
  cbn [fst snd]. destruct (page_left_out t) eqn:L; [discriminate|]. rewrite (images_pass _ _ L). cbn [fst snd]. rewrite (outline_passes _ _ L). unfold template_start. cbn [fst snd].
  destruct (match stack_command t with Some _ => _ | None => _ end); intros H; injection H as <- <-; [|eexists; split; reflexivity].
  intros r2 s3 Ec. cbn [continue_mark page_templates] in Ec. split; [apply (template_takes p) in Ec; apply Ec|]. eexists _, _, _. split; [reflexivity|]. split; [cbn; rewrite (template_continue_files _ _ _ _ Ec); reflexivity|reflexivity].
Qed.
Lemma html_run f ts out b : pump ms f ts (new_builder (h_init p [])) = Ret (out, b) -> exists b2, pump hs f ts (new_builder (h_init p F)) = Ret (out, b2) /\ b_mark b2 = None /\ b_st b2 = with_files F (b_st b).
Proof. intros H. destruct (pump_one _ _ _ html_sim f ts (new_builder (h_init p [])) (new_builder (h_init p F)) _ _ ltac:(repeat split) H) as (b2 & E & (_ & _ & B1 & B2)). eauto. Qed.
Lemma whole_run i f ts out b : pump ms f ts (new_builder (h_init p [])) = Ret (out, b) -> exists b2, pump ws f ts (new_builder (h_init p F, i)) = Ret (out, b2) /\ b_mark b2 = None /\ b_st b2 = (with_files F (b_st b), i).
Proof. intros H. destruct (pump_one _ _ _ (whole_sim i) f ts (new_builder (h_init p [])) (new_builder (h_init p F, i)) _ _ ltac:(repeat split) H) as (b2 & E & (_ & _ & B1 & B2)). eauto. Qed.
End Sim.
