(** The files that the build of a script or a stylesheet looks at. *)
From Verif Require Import Html Page Base Graph GraphSpec PyStr PyPath PyNorm PyNormProofs PathSpec Css CssVersion Handlers OutlineData IconManip Nest NestSpec Js Builder JsYield JsManip JsManipSpec Hot HotSpec HotResultSpec HotWantSpec Project ProjectSpec ProjectPump ProjectRun ProjectCss ProjectPaths ProjectPage.
From Coq Require Import String ZArith NArith Bool List Lia.
Import ListNotations.
Open Scope list_scope.

(** the generated files that belong to a source *)
Definition has (f o : str) : Prop := source_name f /\ (copy_target f = Some o \/ hash_target f = Some o).
Lemma has_form f o : has f o -> exists q, q <> [] /\ Forall clean q /\ f = lit "src/public/" ++ slash q /\ (forall r, slash q <> r ++ lit ".hash") /\ (o = www (slash q) \/ o = www (slash q ++ lit ".hash")).
Proof.
  intros (Hf & H). destruct (source_targets f Hf) as [(q & Hn & Hq & E & Hh)|(N1 & N2)]; [|rewrite N1, N2 in H; destruct H; discriminate].
  exists q. split; [exact Hn|]. split; [exact Hq|]. split; [exact E|]. split; [exact Hh|]. destruct (below_targets q) as (T1 & T2). rewrite <- E in T1, T2. rewrite T1, T2 in H. destruct H as [H|H]; injection H as <-; auto.
Qed.
Lemma has_one f g o : has f o -> has g o -> f = g.
Proof.
  intros Hf Hg. destruct (has_form f o Hf) as (q & _ & _ & -> & Hh & Eo). destruct (has_form g o Hg) as (q2 & _ & _ & -> & Hh2 & Eo2). f_equal.
  destruct Eo as [Eo|Eo], Eo2 as [Eo2|Eo2]; rewrite Eo in Eo2; apply app_inv_head in Eo2.
  - exact Eo2.
  - destruct (Hh _ Eo2).
  - destruct (Hh2 _ (eq_sym Eo2)).
  - apply app_inv_tail in Eo2. exact Eo2.
Qed.
Section Edit.
Context (c : constants) (K : setting).
Context (Hcwd : starts_with (lit "/") (k_cwd K) = true).
(** the default stylesheet is below src/public *)
Context (Hcss : exists r, k_css K = lit "src/public/" ++ r /\ starts_with (lit "/") r = false).
Notation edit := (edit_file c K false).

Lemma page_shape scan p s out ch rs : page_run K scan p s = Some (out, ch, rs) -> exists ls us, ch = ls ++ us /\ rs = p :: map (fun x => out_file x ++ lit ".hash") ls ++ us /\
  (scan = false -> forall x, In x ls -> exists y, x = lit "src/public/" ++ y /\ out_file x = www y /\ s (www y ++ lit ".hash") <> None) /\ forall x, In x us -> is_out x = false.
Proof.
  unfold page_run. destruct (s p); [|discriminate]. destruct (pump _ _ _ _) as [[o b]|] eqn:E; [|discriminate]. destruct (t_stack (b_st b)); [|discriminate]. destruct (existsb _ (links _) || _) eqn:X; [discriminate|]. intros H. injection H as <- <- <-.
  apply orb_false_iff in X. destruct X as (X1 & X2). exists (links (b_st b)), (t_seen (b_st b)). split; [reflexivity|]. split; [reflexivity|]. apply page_pump_known in E. destruct E as (_ & A & _). split.
  - intros Hs x Hx. destruct (A x Hx) as (path & -> & R). assert (Y : starts_with (lit "/") (join_path (lit "src") [lit "public"; path]) = false).
    { destruct (starts_with (lit "/") (join_path (lit "src") [lit "public"; path])) eqn:Y; [|reflexivity]. assert (T : existsb (starts_with (lit "/")) (links (b_st b)) = true) by (apply existsb_exists; eauto). congruence. }
    destruct (public_join path Y) as (E1 & E2). exists path. rewrite E1. split; [reflexivity|]. split; [apply out_file_text; exact E2|]. specialize (R Hs). unfold page_link_file in R. rewrite www_join, E2 in R. exact R.
  - intros x Hx. destruct (is_out x) eqn:Y; [|reflexivity]. assert (T : existsb is_out (t_seen (b_st b)) = true) by (apply existsb_exists; eauto). congruence.
Qed.
Lemma edit_reads p s out ch rs s2 : edit p s = Some (out, ch, rs) -> (forall x, In x rs -> s2 x = s x) -> edit p s2 = Some (out, ch, rs).
Proof.
  unfold edit_file. destruct (build_with (c_relpath c) p); try discriminate.
  - unfold page_run. intros H Ha. assert (Hp : s2 p = s p). { apply Ha. destruct (s p); [|discriminate]. destruct (pump _ _ _ _) as [[o b]|]; [|discriminate]. destruct (t_stack (b_st b)); [|discriminate]. destruct (existsb _ (links _) || _); [discriminate|]. injection H as _ _ <-. left. reflexivity. }
    rewrite Hp. destruct (s p) as [text|] eqn:Es; [|discriminate]. destruct (pump (page_manips _ _ _ _ s _) _ _ _) as [[o b]|] eqn:E; [|discriminate]. destruct (t_stack (b_st b)) eqn:Et; [|discriminate]. destruct (existsb _ (links _) || _) eqn:X; [discriminate|].
    assert (Hrs : forall x, In x (map (fun x => out_file x ++ lit ".hash") (links (b_st b)) ++ t_seen (b_st b)) -> s2 x = s x) by (injection H as _ _ <-; intros x Hx; apply Ha; right; exact Hx).
    pose proof X as X0. apply orb_false_iff in X0. destruct X0 as (X1 & _). destruct (page_reads _ _ _ _ s s2 false _ _ _ _ _ E) as (b2 & E2 & B2).
    { split; intros x Hx; [|apply Hrs, in_or_app; right; exact Hx]. split; [|apply Hrs, in_or_app; left; apply in_map_iff; eauto]. destruct (starts_with (lit "/") x) eqn:Y; [|reflexivity]. assert (T : existsb (starts_with (lit "/")) (links (b_st b)) = true) by (apply existsb_exists; eauto). congruence. }
    rewrite E2, B2, Et, X. exact H.
  - unfold css_run. intros H Ha. assert (Hp : s2 p = s p). { apply Ha. destruct (s p); [|discriminate]. destruct (tokenize _ _ _ _) as [ts [e|]]; [discriminate|]. destruct (pump _ _ _ _) as [[o b]|]; [|discriminate]. destruct (existsb _ _); [discriminate|]. injection H as _ _ <-. left. reflexivity. }
    rewrite Hp. destruct (s p) eqn:Es; [|discriminate]. destruct (tokenize _ _ _ _) as [ts [e|]]; [discriminate|]. destruct (pump (css_manips K p s false) _ _ _) as [[o b]|] eqn:E; [|discriminate].
    destruct (css_step K p s s2 (eq_trans Hp (eq_sym Es)) _ _ _ _ _ E) as (b2 & E2 & B2).
    { destruct (existsb _ _); [discriminate|]. injection H as _ _ <-. split; intros x Hx; apply Ha; right; apply in_or_app; [left; apply in_map; exact Hx|right; exact Hx]. }
    rewrite E2, B2. exact H.
  - destruct (js_run K false p s) as [[o seen]|] eqn:E; [|discriminate]. intros H. injection H as <- <- <-. intros Ha.
    rewrite (run_reads K p s o seen s2 E); [reflexivity|apply Ha; left; reflexivity|]. intros x Hx. apply Ha. right. apply in_map. exact Hx.
Qed.
Lemma css_shape scan p s out ch rs : css_run K scan p s = Some (out, ch, rs) -> exists ns us, ch = ns ++ us /\ rs = p :: map out_file ns ++ us /\
  (scan = false -> (forall x, In x ns -> (exists y, x = lit "src/public/" ++ y /\ out_file x = www y) /\ s (out_file x) <> None) /\
    forall h, In h us -> s h <> None /\ exists rel, h = join_path (lit "out") [lit "www"; rel ++ lit ".hash"] /\ join_path (lit "src") [lit "public"; rel] <> p).
Proof.
  unfold css_run. destruct (s p); [|discriminate]. destruct (tokenize _ _ _ _) as [ts [e|]]; [discriminate|]. destruct (pump _ _ _ _) as [[o b]|] eqn:E; [|discriminate]. destruct (existsb _ _) eqn:X; [discriminate|]. intros H. injection H as <- <- <-.
  eexists _, _. split; [reflexivity|]. split; [reflexivity|]. intros ->. apply css_pump_reported in E. destruct E as (_ & A & B). split; [|exact B]. intros x Hx. destruct (A x Hx) as (N & R). split; [|exact R].
  assert (Y : starts_with (lit "/") x = false). { destruct (starts_with (lit "/") x) eqn:Y; [|reflexivity]. assert (T : existsb (starts_with (lit "/")) (n_seen (fst (b_st b))) = true) by (apply existsb_exists; eauto). congruence. }
  destruct N as [-> |(y & ->)]; [destruct Hcss as (r & Er & Hr); exists r; rewrite Er; split; [reflexivity|apply out_file_text; exact Hr]|].
  destruct (public_join y Y) as (E1 & E2). exists y. rewrite E1. split; [reflexivity|apply out_file_text; exact E2].
Qed.
Lemma edit_self p s out ch rs : edit p s = Some (out, ch, rs) -> In p rs.
Proof.
  unfold edit_file. destruct (build_with (c_relpath c) p); try discriminate.
  - intros H. destruct (page_shape _ _ _ _ _ _ H) as (ns & us & _ & -> & _). left. reflexivity.
  - intros H. destruct (css_shape _ _ _ _ _ _ H) as (ns & us & _ & -> & _). left. reflexivity.
  - destruct (js_run K false p s) as [[o seen]|] eqn:E; [|discriminate]. intros H. injection H as <- <- <-. left. reflexivity.
Qed.
(** it looks at no other source without reporting it *)
Lemma edit_sources p s out ch rs x : edit p s = Some (out, ch, rs) -> In x rs -> is_out x = false -> x = p \/ In x ch.
Proof.
  unfold edit_file. destruct (build_with (c_relpath c) p); try discriminate.
  - intros H. destruct (page_shape _ _ _ _ _ _ H) as (ns & us & -> & -> & X & _). intros [Hx|Hx] Ho; [auto|right]. apply in_app_or in Hx. apply in_or_app. destruct Hx as [Hx|Hx]; [|right; exact Hx].
    apply in_map_iff in Hx. destruct Hx as (y & <- & Hy). destruct (X eq_refl y Hy) as (z & _ & E & _). rewrite E in Ho. discriminate.
  - intros H. destruct (css_shape _ _ _ _ _ _ H) as (ns & us & -> & -> & X). destruct (X eq_refl) as (A & _). intros [Hx|Hx] Ho; [auto|right]. apply in_app_or in Hx. apply in_or_app. destruct Hx as [Hx|Hx]; [|right; exact Hx].
    apply in_map_iff in Hx. destruct Hx as (y & <- & Hy). destruct (A y Hy) as ((z & _ & E) & _). rewrite E in Ho. discriminate.
  - destruct (js_run K false p s) as [[o seen]|] eqn:E; [|discriminate]. intros H. injection H as <- <- <-. intros [Hx|Hx] Ho; [auto|]. apply in_map_iff in Hx. destruct Hx as (y & <- & _). rewrite hash_is_out in Ho. discriminate.
Qed.
(** for every generated file it looks at, it reports that file, which is not its own, or
    the source of that file *)
Lemma edit_outputs p s out ch rs x : source_name p -> edit p s = Some (out, ch, rs) -> In x rs -> is_out x = true ->
  s x <> None /\ (exists r, x = www r) /\
  (In x ch /\ ~ has p x \/ exists root, In root ch /\ forall f, has f x -> is_out root = false /\ (source_name root -> root = f)).
Proof.
  intros Hp. unfold edit_file. destruct (build_with (c_relpath c) p); try discriminate.
  - intros H. destruct (page_shape _ _ _ _ _ _ H) as (ns & us & -> & -> & X & Y). intros [Hx|Hx] Ho; [subst x; rewrite (source_not_out p Hp) in Ho; discriminate|]. apply in_app_or in Hx. destruct Hx as [Hx|Hx]; [|rewrite (Y x Hx) in Ho; discriminate].
    apply in_map_iff in Hx. destruct Hx as (y & <- & Hy). destruct (X eq_refl y Hy) as (z & E & Eo & R). rewrite Eo. split; [exact R|]. split; [exists (z ++ lit ".hash"); unfold www; rewrite app_assoc; reflexivity|]. right. exists y. split; [apply in_or_app; auto|].
    intros f Hf. split; [rewrite E; reflexivity|]. intros Sy. apply (has_one _ _ (www z ++ lit ".hash")); [|exact Hf]. split; [exact Sy|right]. rewrite E. reflexivity.
  - intros H. destruct (css_shape _ _ _ _ _ _ H) as (ns & us & -> & -> & X). destruct (X eq_refl) as (A & B). intros [Hx|Hx] Ho; [subst x; rewrite (source_not_out p Hp) in Ho; discriminate|]. apply in_app_or in Hx. destruct Hx as [Hx|Hx].
    + apply in_map_iff in Hx. destruct Hx as (y & <- & Hy). destruct (A y Hy) as ((z & E & Eo) & R). split; [exact R|]. split; [eauto|]. right. exists y. split; [apply in_or_app; auto|]. intros f Hf. split; [rewrite E; reflexivity|]. intros Sy. apply (has_one _ _ (out_file y)); [|exact Hf].
      split; [exact Sy|left]. rewrite E in Eo |- *. rewrite Eo. reflexivity.
    + destruct (B x Hx) as (R & rel & E & N). rewrite www_join in E. destruct (starts_with (lit "/") (rel ++ lit ".hash")) eqn:Es; [rewrite E, slash_out in Ho by exact Es; discriminate|]. split; [exact R|]. split; [eauto|]. left. split; [apply in_or_app; auto|].
      intros Hh. destruct (has_form _ _ Hh) as (q & Qn & Qc & Ep & Qh & Eo). rewrite E in Eo. unfold www in Eo. destruct Eo as [Eo|Eo]; apply app_inv_head in Eo; [destruct (Qh _ (eq_sym Eo))|]. apply app_inv_tail in Eo. apply N. rewrite Ep, Eo.
      change (join_path (lit "src") [lit "public"; slash q]) with (join2 (lit "src/public") (slash q)). destruct (slash q) as [|a r] eqn:Eq; [reflexivity|]. unfold join2. destruct rel as [|b rel]; [discriminate|]. pose proof Es as Es2. cbn [app] in Es2. rewrite head_slash in Es2. injection Eo as -> ->. rewrite Es2. reflexivity.
  - destruct (js_run K false p s) as [[o seen]|] eqn:E; [|discriminate]. intros H. injection H as <- <- <-. intros [Hx|Hx] Ho; [subst x; rewrite (source_not_out p Hp) in Ho; discriminate|]. apply in_map_iff in Hx. destruct Hx as (root & <- & Hroot).
    destruct (run_readable K p s o seen E root Hroot) as (Hread & i & Ei). split; [exact Hread|]. split; [rewrite hash_text; eexists; reflexivity|]. right. exists root. split; [exact Hroot|]. intros f Hf.
    destruct (has_form f _ Hf) as (q & Qn & Qc & Ef & Qh & Eo). assert (Erel : relpath (k_cwd K) root public = slash q). { rewrite hash_text in Eo. unfold www in Eo. destruct Eo as [Eo|Eo]; apply app_inv_head in Eo; [destruct (Qh _ (eq_sym Eo))|apply app_inv_tail in Eo; exact Eo]. }
    split; [rewrite Ei in *; eapply root_not_out; eassumption|]. intros Sroot. rewrite (tidy_root (k_cwd K) Hcwd root q Sroot Qn Qc Erel), Ef, below_text by exact Qn. reflexivity.
Qed.
End Edit.
