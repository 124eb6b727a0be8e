(** The handlers of Project.v: when a build succeeds, what it reports, and what the scan predicts. *)
From Verif Require Import Base Graph GraphSpec PyStr PyPath PyNorm PyNormProofs PathSpec Js Builder JsYield JsManip JsManipSpec JsPathProofs Handlers Hot HotSpec HotResultSpec HotResultProofs HotWantSpec HotWantProofs Project ProjectSpec ProjectPaths ProjectEdit ProjectFiles.
From Coq Require Import String ZArith NArith Bool List Relations Lia.
Import ListNotations.
Open Scope list_scope.

Section Files.
Context (sha : str -> str) (c : constants) (dev : bool) (K : setting).
Notation want := (file_want sha c dev K).
Notation build := (file_build sha c dev K).

(** the files which the build of [f] reports *)
Definition kids (f : str) (s : fs) : list str :=
  match copy_target f, edit_file c K false f s with Some _, Some (_, ch, _) => ch | _, _ => [] end.

Lemma make_succeeds write t p s : s p <> None -> exists r, make write t p s = Some r.
Proof. intros H. unfold make. destruct t as [t|]; [|eauto]. destruct (s t); [eauto|]. destruct (s p); [eauto|contradiction]. Qed.
Lemma make_nodup write t p s r : make write t p s = Some r -> NoDup (b_outputs r).
Proof.
  unfold make. destruct t as [t|]; [|intros H; injection H as <-; constructor]. destruct (s t); [intros H; injection H as <-; cbn; repeat constructor; intros []|].
  destruct (s p); [|discriminate]. intros H. injection H as <-. cbn. repeat constructor. intros [].
Qed.
Lemma then_succeeds a s t : apply_build a s t <> None -> exists r, then_ (Some a) s (hash_file_of sha t) = Some r.
Proof. intros H. cbn [then_]. destruct (make_succeeds sha (hash_target t) t (apply_build a s) H) as (b & E). unfold hash_file_of. rewrite E. eauto. Qed.
Lemma then_nodup a s t r : then_ (Some a) s (hash_file_of sha t) = Some r -> b_outputs a = [t] -> (exists x, t = lit "out/www/" ++ x) -> NoDup (b_outputs r).
Proof.
  intros H Ea (x & Et). cbn [then_] in H. destruct (hash_file_of sha t (apply_build a s)) as [b|] eqn:E; [|discriminate]. injection H as <-.
  unfold hash_file_of in E. assert (Eh : hash_target t = Some (t ++ lit ".hash")) by (rewrite Et; apply hash_of_out). rewrite Eh in E. unfold b_outputs in *. cbn [both b_produced b_reused].
  assert (N : t <> t ++ lit ".hash") by (intros X; exact (longer t (eq_sym X))).
  assert (Hb : (map fst (b_produced b) = [t ++ lit ".hash"] /\ b_reused b = []) \/ (b_produced b = [] /\ b_reused b = [t ++ lit ".hash"])).
  { unfold make in E. destruct (apply_build a s (t ++ lit ".hash")); [injection E as <-; auto|]. destruct (apply_build a s t); [|discriminate]. injection E as <-. auto. }
  rewrite map_app. destruct (map fst (b_produced a)) as [|y ys] eqn:Ep.
  - cbn [app] in Ea. rewrite Ea. destruct Hb as [(-> & ->)|(-> & ->)]; cbn; repeat constructor; cbn; intuition congruence.
  - cbn [app] in Ea. injection Ea as -> Er. apply app_eq_nil in Er. destruct Er as (-> & ->). destruct Hb as [(-> & ->)|(-> & ->)]; cbn; repeat constructor; cbn; intuition congruence.
Qed.
Lemma then_kids a s t r : then_ (Some a) s (hash_file_of sha t) = Some r -> b_children r = b_children a.
Proof.
  cbn [then_]. destruct (hash_file_of sha t (apply_build a s)) as [b|] eqn:E; [|discriminate]. intros H. injection H as <-. cbn [both b_children]. unfold hash_file_of in E. apply make_outputs in E. destruct E as (_ & -> & _). apply app_nil_r.
Qed.
(** a build succeeds if what it should write is defined *)
Lemma edited_succeeds f s t out ch rs : copy_target f = Some t -> edit_file c K false f s = Some (out, ch, rs) -> exists r, edited_build sha c K f s = Some r.
Proof.
  intros E Ed. unfold edited_build. rewrite E, Ed. apply then_succeeds. unfold apply_build. cbn. unfold fs_set. rewrite str_eqb_refl. discriminate.
Qed.
Lemma build_succeeds f s rs ws : s f <> None -> want f s = Some (rs, ws) -> exists r, build f s = Some r.
Proof.
  intros Hs. unfold file_want, file_build. destruct (build_with (c_relpath c) f); try discriminate.
  - unfold constants_file_build. destruct (copy_target f) as [t|]; [|discriminate]. intros _. apply then_succeeds. destruct (s t) eqn:Et; unfold apply_build; cbn; [congruence|]. unfold fs_set. rewrite str_eqb_refl. discriminate.
  - unfold page_build. destruct (copy_target f) as [t|] eqn:E; [|eauto]. destruct (edit_file c K false f s) as [[[out ch] rs']|] eqn:Ed; [|discriminate]. intros _. eapply edited_succeeds; eassumption.
  - destruct (copy_target f) as [t|] eqn:E; [|discriminate]. destruct (edit_file c K false f s) as [[[out ch] rs']|] eqn:Ed; [|discriminate]. intros _. eapply edited_succeeds; eassumption.
  - destruct (copy_target f) as [t|] eqn:E; [|discriminate]. destruct (edit_file c K false f s) as [[[out ch] rs']|] eqn:Ed; [|discriminate]. intros _. eapply edited_succeeds; eassumption.
  - intros _. unfold plain_build, then_. destruct (make_succeeds (fun d => d) (copy_target f) f s Hs) as (a & Ea). rewrite Ea. unfold hash_file_of.
    destruct (make_succeeds sha (hash_target f) f (apply_build a s)) as (b & Eb); [|rewrite Eb; eauto]. rewrite apply_other; [exact Hs|]. apply make_outputs in Ea. rewrite (proj1 Ea). intros X. exact (copy_source _ _ X eq_refl).
Qed.
Lemma build_nodup f s r : build f s = Some r -> NoDup (b_outputs r).
Proof.
  unfold file_build. destruct (build_with (c_relpath c) f); try discriminate.
  - unfold constants_file_build. destruct (copy_target f) as [t|] eqn:E; [|discriminate]. destruct (copy_out f t E) as (x & Et & _). intros H. eapply then_nodup; [exact H| |eauto]. destruct (s t); reflexivity.
  - unfold page_build, edited_build. destruct (copy_target f) as [t|] eqn:E; [|intros H; injection H as <-; constructor]. destruct (copy_out f t E) as (x & Et & _). destruct (edit_file c K false f s) as [[[out ch] rs]|]; [|discriminate]. intros H. eapply then_nodup; [exact H|reflexivity|eauto].
  - unfold edited_build. destruct (copy_target f) as [t|] eqn:E; [|discriminate]. destruct (copy_out f t E) as (x & Et & _). destruct (edit_file c K false f s) as [[[out ch] rs]|]; [|discriminate]. intros H. eapply then_nodup; [exact H|reflexivity|eauto].
  - unfold edited_build. destruct (copy_target f) as [t|] eqn:E; [|discriminate]. destruct (copy_out f t E) as (x & Et & _). destruct (edit_file c K false f s) as [[[out ch] rs]|]; [|discriminate]. intros H. eapply then_nodup; [exact H|reflexivity|eauto].
  - unfold plain_build, then_. destruct (make (fun data => data) (copy_target f) f s) as [a|] eqn:Ea; [|discriminate]. destruct (hash_file_of sha f (apply_build a s)) as [b|] eqn:Eb; [|discriminate]. intros H. injection H as <-.
    unfold hash_file_of in Eb. pose proof (make_nodup _ _ _ _ _ Ea) as Na. pose proof (make_nodup _ _ _ _ _ Eb) as Nb. apply make_outputs in Ea. apply make_outputs in Eb. destruct Ea as (A & _). destruct Eb as (B & _).
    assert (Nab : forall o, In o (b_outputs a) -> ~ In o (b_outputs b)).
    { intros o X Y. apply A in X. apply B in Y. pose proof (copy_not_hash f o o X Y) as Z. exact (longer o (eq_sym Z)). }
    revert Na Nb Nab. unfold b_outputs. cbn [both b_produced b_reused]. rewrite map_app. generalize (map fst (b_produced a)) (b_reused a) (map fst (b_produced b)) (b_reused b). clear. intros u v w z Na Nb Nab.
    apply HotSchedProofs.NoDup_app_iff in Na. apply HotSchedProofs.NoDup_app_iff in Nb. destruct Na as (N1 & N2 & N3). destruct Nb as (M1 & M2 & M3).
    assert (Q : forall o, In o u \/ In o v -> ~ (In o w \/ In o z)) by (intros o X Y; apply (Nab o); apply in_or_app; assumption).
    apply HotSchedProofs.NoDup_app_iff. split; [apply HotSchedProofs.NoDup_app_iff; split; [exact N1|split; [exact M1|]]|split; [apply HotSchedProofs.NoDup_app_iff; split; [exact N2|split; [exact M2|]]|]].
    + intros o X Y. apply (Q o); auto.
    + intros o X Y. apply (Q o); auto.
    + intros o X Y. apply in_app_or in X. apply in_app_or in Y. destruct X as [X|X], Y as [Y|Y]; [exact (N3 o X Y)|apply (Q o); auto|apply (Q o); auto|exact (M3 o X Y)].
Qed.
Lemma edit_kind f s : edit_file c K false f s = None \/ build_with (c_relpath c) f = Script \/ build_with (c_relpath c) f = Stylesheet \/ build_with (c_relpath c) f = Html.
Proof. unfold edit_file. destruct (build_with (c_relpath c) f); auto. Qed.
Lemma build_kids f s r : build f s = Some r -> b_children r = kids f s.
Proof.
  unfold kids. unfold file_build. destruct (build_with (c_relpath c) f) eqn:B; try discriminate.
  - assert (X : edit_file c K false f s = None) by (unfold edit_file; rewrite B; reflexivity). rewrite X. unfold constants_file_build. destruct (copy_target f) as [t|] eqn:E; [|discriminate]. intros H. apply then_kids in H. rewrite H. destruct (s t); reflexivity.
  - unfold page_build, edited_build. destruct (copy_target f) as [t|] eqn:E; [|intros H; injection H as <-; reflexivity]. destruct (edit_file c K false f s) as [[[out ch] rs]|]; [|discriminate]. intros H. apply then_kids in H. exact H.
  - unfold edited_build. destruct (copy_target f) as [t|] eqn:E; [|discriminate]. destruct (edit_file c K false f s) as [[[out ch] rs]|]; [|discriminate]. intros H. apply then_kids in H. exact H.
  - unfold edited_build. destruct (copy_target f) as [t|] eqn:E; [|discriminate]. destruct (edit_file c K false f s) as [[[out ch] rs]|]; [|discriminate]. intros H. apply then_kids in H. exact H.
  - assert (X : edit_file c K false f s = None) by (unfold edit_file; rewrite B; reflexivity). rewrite X. unfold plain_build, then_. destruct (make (fun data => data) (copy_target f) f s) as [a|] eqn:Ea; [|discriminate]. destruct (hash_file_of sha f (apply_build a s)) as [b|] eqn:Eb; [|discriminate]. intros H. injection H as <-.
    unfold hash_file_of in Eb. apply make_outputs in Ea. apply make_outputs in Eb. cbn [both b_children]. destruct Ea as (_ & -> & _). destruct Eb as (_ & -> & _). destruct (copy_target f); reflexivity.
Qed.
(** what is looked at: nothing, the file, or what the editor looks at *)
Lemma want_looks f s rs ws : want f s = Some (rs, ws) -> (rs = [] /\ kids f s = []) \/ (rs = [f] /\ kids f s = [] /\ forall s2, kids f s2 = []) \/ exists out, edit_file c K false f s = Some (out, kids f s, rs).
Proof.
  unfold file_want, kids. destruct (build_with (c_relpath c) f) eqn:B; try discriminate.
  - destruct (copy_target f) as [t|]; [|discriminate]. intros H. injection H as <- _. left. split; [reflexivity|]. unfold edit_file. rewrite B. reflexivity.
  - destruct (copy_target f) as [t|]; [|intros H; injection H as <- _; left; auto]. destruct (edit_file c K false f s) as [[[out ch] rs']|]; [|discriminate]. intros H. injection H as <- _. right. right. eauto.
  - destruct (copy_target f) as [t|]; [|discriminate]. destruct (edit_file c K false f s) as [[[out ch] rs']|]; [|discriminate]. intros H. injection H as <- _. right. right. eauto.
  - destruct (copy_target f) as [t|]; [|discriminate]. destruct (edit_file c K false f s) as [[[out ch] rs']|]; [|discriminate]. intros H. injection H as <- _. right. right. eauto.
  - destruct (s f); [|discriminate]. intros H. injection H as <- _. right. left. assert (X : forall s2, edit_file c K false f s2 = None) by (intros s2; unfold edit_file; rewrite B; reflexivity).
    split; [reflexivity|]. split; [rewrite X; destruct (copy_target f); reflexivity|intros s2; rewrite X; destruct (copy_target f); reflexivity].
Qed.
Lemma kids_reads f s rs ws s2 : want f s = Some (rs, ws) -> (forall p, In p rs -> s2 p = s p) -> kids f s2 = kids f s.
Proof.
  intros W H. unfold kids. unfold file_want in W. destruct (build_with (c_relpath c) f) eqn:B; try discriminate.
  - unfold edit_file. rewrite B. reflexivity.
  - destruct (copy_target f) as [t|]; [|reflexivity]. destruct (edit_file c K false f s) as [[[out ch] rs']|] eqn:E; [|discriminate]. injection W as -> _. rewrite (edit_reads c K f s out ch rs s2 E H). reflexivity.
  - destruct (copy_target f) as [t|]; [|reflexivity]. destruct (edit_file c K false f s) as [[[out ch] rs']|] eqn:E; [|discriminate]. injection W as -> _. rewrite (edit_reads c K f s out ch rs s2 E H). reflexivity.
  - destruct (copy_target f) as [t|]; [|reflexivity]. destruct (edit_file c K false f s) as [[[out ch] rs']|] eqn:E; [|discriminate]. injection W as -> _. rewrite (edit_reads c K f s out ch rs s2 E H). reflexivity.
  - unfold edit_file. rewrite B. reflexivity.
Qed.
(** all generated files that belong to a source are wanted, and predicted *)
Lemma want_all f s rs ws o : want f s = Some (rs, ws) -> has f o -> In o (map fst ws).
Proof.
  intros W (Sf & Ho). assert (T : copy_target f <> None /\ forall t, copy_target f = Some t -> o = t \/ o = t ++ lit ".hash").
  { destruct Ho as [Ho|Ho]; [split; [congruence|intros t Et; left; congruence]|]. destruct (source_targets f Sf) as [(q & _ & _ & E & _)|(N1 & N2)]; [|congruence].
    destruct (below_targets q) as (T1 & T2). rewrite <- E in T1, T2. split; [congruence|]. intros t Et. right. rewrite T1 in Et. injection Et as <-. rewrite T2 in Ho. injection Ho as <-. reflexivity. }
  destruct T as (T1 & T2). unfold file_want in W. destruct (build_with (c_relpath c) f); try discriminate.
  - destruct (copy_target f) as [t|]; [|discriminate]. injection W as _ <-. cbn. destruct (T2 t eq_refl); auto.
  - destruct (copy_target f) as [t|]; [|contradiction]. destruct (edit_file c K false f s) as [[[out ch] rs']|]; [|discriminate]. injection W as _ <-. cbn. destruct (T2 t eq_refl); auto.
  - destruct (copy_target f) as [t|]; [|contradiction]. destruct (edit_file c K false f s) as [[[out ch] rs']|]; [|discriminate]. injection W as _ <-. cbn. destruct (T2 t eq_refl); auto.
  - destruct (copy_target f) as [t|]; [|contradiction]. destruct (edit_file c K false f s) as [[[out ch] rs']|]; [|discriminate]. injection W as _ <-. cbn. destruct (T2 t eq_refl); auto.
  - destruct (s f); [|discriminate]. injection W as _ <-. apply with_hash_names. exact Ho.
Qed.
Lemma scan_all f s sc o rs ws s2 : file_scan c K f s = Some sc -> want f s2 = Some (rs, ws) -> has f o -> In o (s_produces sc).
Proof.
  intros Hs W (Sf & Ho). assert (T : In o (produces (copy_scan f) ++ produces (hash_scan f))).
  { apply in_or_app. unfold copy_scan, hash_scan. destruct Ho as [Ho|Ho]; rewrite Ho; cbn; auto. }
  assert (E : edited_scan c K f s = Some sc -> In o (s_produces sc)).
  { unfold edited_scan. destruct (edit_file c K true f s) as [[[x seen] y]|]; [|discriminate]. intros X. injection X as <-. exact T. }
  unfold file_scan in Hs. destruct (scan_with (c_relpath c) f) eqn:B; try discriminate.
  - assert (Ef : f = c_relpath c). { unfold scan_with in B. destruct (str_eqb f (c_relpath c)) eqn:X; [apply str_eqb_eq, X|]. destruct (glue_handles f), (ends_with (lit ".html") f), (ends_with (lit ".css") f), (ends_with (lit ".js") f); discriminate. }
    unfold constants_scan in Hs. rewrite <- Ef, str_eqb_refl in Hs. cbn [negb] in Hs. destruct (copy_target f) as [t|] eqn:Et; [|discriminate]. injection Hs as <-. cbn.
    destruct Ho as [Ho|Ho]; [injection Ho as <-; auto|]. destruct (source_targets f Sf) as [(q & _ & _ & Eq & _)|(N1 & N2)]; [|congruence]. destruct (below_targets q) as (T1 & T2). rewrite <- Eq in T1, T2. rewrite T1 in Et. injection Et as <-. rewrite T2 in Ho. injection Ho as <-. right. left. reflexivity.
  - unfold page_scan in Hs. destruct (copy_target f) eqn:Et; [auto|]. destruct Ho as [Ho|Ho]; [discriminate|]. destruct (source_targets f Sf) as [(q & _ & _ & Eq & _)|(N1 & N2)]; [|congruence]. destruct (below_targets q) as (T1 & T2). rewrite <- Eq in T1. congruence.
  - auto.
  - auto.
  - injection Hs as <-. exact T.
Qed.
End Files.
