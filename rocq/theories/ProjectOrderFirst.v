(** Scans find what builds report. *)
From Verif Require Import Base Graph GraphSpec PyStr PyPath PyNorm PathSpec Css Nest NestSpec NestProofs Page Html Js Builder CssVersion JsYield JsManip JsManipSpec Handlers Hot HotSpec HotGraphs HotResultSpec HotResultProofs HotWantSpec HotWantProofs Project ProjectSpec ProjectPaths ProjectEdit ProjectFiles ProjectSeen ProjectMain ProjectOrderFiles ProjectOrderSpec ProjectOrderScan ProjectOrderSheet.
From Coq Require Import String ZArith NArith Bool List Relations Lia.
Import ListNotations.
Open Scope list_scope.

Section Files.
Context (c : constants) (K : setting).
Lemma same_kind f : scan_with (c_relpath c) f = build_with (c_relpath c) f \/ build_with (c_relpath c) f <> Script /\ build_with (c_relpath c) f <> Stylesheet /\ build_with (c_relpath c) f <> Html.
Proof.
  unfold scan_with, build_with. repeat match goal with |- context [if ?b then _ else _] => destruct b end; auto; right; repeat split; discriminate.
Qed.
Lemma edit_found f s s2 o1 ch1 rs1 o2 ch2 rs2 : is_out f = false -> (forall x, is_out x = false -> s2 x = s x) -> simple c K s f ->
  edit_file c K true f s = Some (o1, ch1, rs1) -> edit_file c K false f s2 = Some (o2, ch2, rs2) -> incl ch2 ch1.
Proof.
  intros Hf Hs (S1 & S2) H1 H2. pose proof (Hs f Hf) as Ef. unfold edit_file in *. destruct (build_with (c_relpath c) f) eqn:B; try discriminate.
  - unfold page_run in *. rewrite Ef in H2. destruct (s f) as [text|]; [|discriminate].
    destruct (pump (page_manips (k_host K) f (k_fragment K) (k_show K) s true) _ _ _) as [[p1 b1]|] eqn:P1; [|discriminate]. destruct (pump (page_manips (k_host K) f (k_fragment K) (k_show K) s2 false) _ _ _) as [[p2 b2]|] eqn:P2; [|discriminate].
    destruct (t_stack (b_st b1)); [|discriminate]. destruct (existsb _ (links (b_st b1)) || _); [discriminate|]. injection H1 as _ <- _.
    destruct (t_stack (b_st b2)); [|discriminate]. destruct (existsb _ (links (b_st b2)) || existsb is_out (t_seen (b_st b2))) eqn:X; [discriminate|]. injection H2 as _ <- _. apply orb_false_iff in X. destruct X as (_ & X).
    rewrite (pump_both _ _ _ _ _ _ _ _ _ _ _ _ _ _ P1 P2); [apply incl_refl|]. intros x Hx. apply Hs. destruct (is_out x) eqn:Eo; [|reflexivity]. assert (Y : existsb is_out (t_seen (b_st b2)) = true) by (apply existsb_exists; eauto). congruence.
  - unfold css_run in *. rewrite Ef in H2. destruct (s f) as [text|] eqn:Et; [|discriminate]. destruct (tokenize _ _ _ text) as [ts [err|]] eqn:T; [discriminate|].
    destruct (pump (css_manips K f s true) _ _ _) as [[p1 b1]|] eqn:P1; [|discriminate]. destruct (pump (css_manips K f s2 false) _ _ _) as [[p2 b2]|] eqn:P2; [|discriminate].
    destruct (existsb _ (n_seen (fst (b_st b1)))); [discriminate|]. injection H1 as _ <- _. destruct (existsb _ (n_seen (fst (b_st b2)))); [discriminate|]. injection H2 as _ <- _.
    destruct (pump_sheet K f s s2 _ _ _ _ _ _ _ _ _ _ ltac:(apply Forall_forall; intros t Ht; apply import_none; exact (S2 eq_refl text ts eq_refl T t Ht)) eq_refl P1 P2) as (N & V). rewrite N, V. apply incl_refl.
  - destruct (js_run K true f s) as [[out1 l1]|] eqn:J1; [|discriminate]. destruct (js_run K false f s2) as [[out2 l2]|] eqn:J2; [|discriminate]. injection H1 as _ <- _. injection H2 as _ <- _.
    destruct (run_tokens K _ _ _ _ _ J1) as (text & ts & T1 & T2). intros x Hx. apply (scan_run_seen K f s text ts out1 l1 J1 T1 T2). apply (run_seen K f s2 text ts out2 l2 J2); [congruence|exact T2|exact (S1 eq_refl text ts T1 T2)|exact Hx].
Qed.
Lemma scan_covers f s s2 sc : is_out f = false -> (forall x, is_out x = false -> s2 x = s x) -> simple c K s f -> file_scan c K f s = Some sc -> incl (kids c K f s2) (s_deps sc).
Proof.
  intros Hf Hs Si H. unfold kids. destruct (copy_target f) as [t|] eqn:Et; [|intros x []]. destruct (edit_file c K false f s2) as [[[out ch] rs]|] eqn:E; [|intros x []].
  assert (G : edited_scan c K f s = Some sc).
  { unfold file_scan in H. destruct (same_kind f) as [E0|N]; [rewrite E0 in H|unfold edit_file in E; destruct (build_with (c_relpath c) f); try discriminate; tauto].
    unfold edit_file in E. destruct (build_with (c_relpath c) f); try discriminate; try exact H. unfold page_scan in H. rewrite Et in H. exact H. }
  unfold edited_scan in G. destruct (edit_file c K true f s) as [[[o1 ch1] rs1]|] eqn:E1; [|discriminate]. injection G as <-. cbn [s_deps]. eapply edit_found; eassumption.
Qed.
End Files.
