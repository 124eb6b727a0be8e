(** The builders leave what should be there. *)
From Verif Require Import Base Graph GraphSpec PyStr PyPath PyNorm PyNormProofs PathSpec Js Builder JsYield JsManip JsManipSpec Handlers Hot HotSpec HotResultSpec HotResultProofs HotWantSpec HotWantProofs Project ProjectSpec ProjectPaths ProjectEdit.
From Coq Require Import String ZArith NArith Bool List Lia.
Import ListNotations.
Open Scope list_scope.

Lemma both_outputs a b o : In o (b_outputs (both a b)) <-> In o (b_outputs a) \/ In o (b_outputs b).
Proof. unfold b_outputs, both. cbn [b_produced b_reused]. rewrite map_app, !in_app_iff. tauto. Qed.
Lemma copy_out p t : copy_target p = Some t -> exists r, t = lit "out/www/" ++ r /\ starts_with (lit "src/public") p = true.
Proof. unfold copy_target. destruct (starts_with (lit "src/public") p) eqn:E; cbn [negb]; [|discriminate]. intros H. injection H as <-. eexists. split; reflexivity. Qed.
Lemma hash_out p t : hash_target p = Some t -> exists r, t = lit "out/www/" ++ r ++ lit ".hash".
Proof. unfold hash_target, hash_target_in. destruct (starts_with (lit "src/public/") p); [intros H; injection H as <-; eexists; reflexivity|]. destruct (starts_with (lit "out/www/") p); [intros H; injection H as <-; eexists; reflexivity|discriminate]. Qed.
Lemma hash_of_out r : hash_target (lit "out/www/" ++ r) = Some ((lit "out/www/" ++ r) ++ lit ".hash").
Proof. reflexivity. Qed.
Lemma longer (t : str) : t ++ lit ".hash" <> t.
Proof. intros H. apply (f_equal (@length N)) in H. rewrite app_length in H. change (length (lit ".hash")) with 5%nat in H. lia. Qed.
Lemma copy_not_hash p t h : copy_target p = Some t -> hash_target p = Some h -> h = t ++ lit ".hash".
Proof.
  unfold copy_target, hash_target, hash_target_in. destruct (starts_with (lit "src/public") p) eqn:E; cbn [negb]; [|discriminate]. intros H. injection H as <-.
  destruct (starts_with (lit "src/public/") p); [intros H; injection H as <-; reflexivity|]. destruct (starts_with (lit "out/www/") p) eqn:E2; [|discriminate].
  apply starts_with_iff in E, E2. destruct E as (r & ->), E2 as (r2 & X). discriminate X.
Qed.
Lemma www_out r : is_out (lit "out/www/" ++ r) = true.
Proof. reflexivity. Qed.
Lemma copy_source p t : copy_target p = Some t -> p <> t.
Proof. intros H E. destruct (copy_out p t H) as (r & -> & S). rewrite E in S. discriminate. Qed.

(** one target *)
Lemma make_outputs write t p s r : make write t p s = Some r -> (forall o, In o (b_outputs r) <-> t = Some o) /\ b_children r = [] /\
  (forall o, In o (b_reused r) -> s o <> None) /\ (forall o c, In (o, c) (b_produced r) -> t = Some o /\ exists data, s p = Some data /\ c = write data).
Proof.
  unfold make. destruct t as [t|].
  - destruct (s t) eqn:E.
    + intros H. injection H as <-. cbn. split; [intros o; split; [intros [->|[]]; reflexivity|intros H; injection H as ->; left; reflexivity]|]. split; [reflexivity|]. split; [intros o [<-|[]]; congruence|intros o x []].
    + destruct (s p) as [data|]; [|discriminate]. intros H. injection H as <-. cbn. split; [intros o; split; [intros [->|[]]; reflexivity|intros H; injection H as ->; left; reflexivity]|]. split; [reflexivity|]. split; [intros o []|].
      intros o x [H|[]]. injection H as <- <-. split; [reflexivity|]. exists data. split; reflexivity.
  - intros H. injection H as <-. cbn. split; [intros o; split; [intros []|discriminate]|]. split; [reflexivity|]. split; [intros o []|intros o x []].
Qed.
Lemma apply_other r s p : ~ In p (b_outputs r) -> apply_build r s p = s p.
Proof. intros H. apply apply_writes_not. intros X. apply H. unfold b_outputs. apply in_or_app. left. exact X. Qed.
Lemma apply_exists r s p : apply_build r s p <> None -> s p <> None \/ In p (map fst (b_produced r)).
Proof.
  intros H. destruct (in_dec str_eq_dec p (map fst (b_produced r))) as [X|X]; [right; exact X|left]. unfold apply_build in H. rewrite apply_writes_not in H by exact X. exact H.
Qed.

Section Files.
Context (sha : str -> str) (c : constants) (dev : bool) (K : setting).
Notation want := (file_want sha c dev K).
Notation build := (file_build sha c dev K).

Lemma with_hash_names p text o : In o (map fst (with_hash sha p text)) <-> copy_target p = Some o \/ hash_target p = Some o.
Proof. unfold with_hash. rewrite map_app, in_app_iff. destruct (copy_target p), (hash_target p); cbn; intuition congruence. Qed.
Lemma with_hash_nodup p text : NoDup (map fst (with_hash sha p text)).
Proof.
  unfold with_hash. destruct (copy_target p) as [t|] eqn:E1, (hash_target p) as [h|] eqn:E2; cbn; repeat constructor; auto. intros [X|[]]. rewrite (copy_not_hash p t h E1 E2) in X. exact (longer t X).
Qed.
Lemma edited_out f s rs ws : match copy_target f, edit_file c K false f s with Some t, Some (out, _, rs) => Some (rs, [(t, out); (t ++ lit ".hash", sha out)]) | _, _ => None end = Some (rs, ws) ->
  NoDup (map fst ws) /\ forall o x, In (o, x) ws -> is_out o = true.
Proof.
  destruct (copy_target f) as [t|] eqn:E; [|discriminate]. destruct (edit_file c K false f s) as [[[out ch] rs']|]; [|discriminate]. intros H. injection H as <- <-.
  destruct (copy_out f t E) as (r & -> & _). split; [repeat constructor; auto; intros [X|[]]; exact (longer _ X)|]. intros o x [X|[X|[]]]; injection X as <- _; reflexivity.
Qed.
Lemma file_outputs_out : outputs_out want.
Proof.
  intros f s rs ws. unfold file_want. destruct (build_with (c_relpath c) f); try discriminate.
  - destruct (copy_target f) as [t|] eqn:E; [|discriminate]. intros H. injection H as <- <-. destruct (copy_out f t E) as (r & -> & _). split; [repeat constructor; auto; intros [X|[]]; exact (longer _ X)|].
    intros o x [X|[X|[]]]; injection X as <- _; reflexivity.
  - destruct (copy_target f) eqn:E; [|intros H; injection H as <- <-; split; [constructor|intros o x []]]. intros H. apply (edited_out f s rs ws). rewrite E. exact H.
  - exact (edited_out f s rs ws).
  - exact (edited_out f s rs ws).
  - destruct (s f) as [text|]; [|discriminate]. intros H. injection H as <- <-. split; [apply with_hash_nodup|]. intros o x X. apply fst_in in X. apply with_hash_names in X. destruct X as [X|X]; [destruct (copy_out _ _ X) as (r & -> & _); reflexivity|destruct (hash_out _ _ X) as (r & ->); reflexivity].
Qed.
Lemma file_reads_only : reads_only want.
Proof.
  intros f s rs ws s2. unfold file_want. destruct (build_with (c_relpath c) f); try discriminate; [auto| | | |].
  - destruct (copy_target f) as [t|]; [|auto]; destruct (edit_file c K false f s) as [[[out ch] rs']|] eqn:E; [|discriminate]; intros H Ha; injection H as <- <-; rewrite (edit_reads c K f s out ch rs' s2 E Ha); reflexivity.
  - destruct (copy_target f) as [t|]; [|discriminate]; destruct (edit_file c K false f s) as [[[out ch] rs']|] eqn:E; [|discriminate]; intros H Ha; injection H as <- <-; rewrite (edit_reads c K f s out ch rs' s2 E Ha); reflexivity.
  - destruct (copy_target f) as [t|]; [|discriminate]; destruct (edit_file c K false f s) as [[[out ch] rs']|] eqn:E; [|discriminate]; intros H Ha; injection H as <- <-; rewrite (edit_reads c K f s out ch rs' s2 E Ha); reflexivity.
  - intros H Ha. assert (X : s2 f = s f) by (apply Ha; destruct (s f); [injection H as <- _; left; reflexivity|discriminate]). rewrite X. exact H.
Qed.
(** the hash file of a file in the out folder *)
Lemma then_hash a s t text r : then_ (Some a) s (hash_file_of sha t) = Some r -> (exists x, t = lit "out/www/" ++ x) -> ~ In (t ++ lit ".hash") (b_outputs a) -> apply_build a s t = Some text ->
  (forall o, In o (b_outputs r) <-> In o (b_outputs a) \/ o = t ++ lit ".hash") /\ b_children r = b_children a /\
  (forall o, In o (b_reused r) -> In o (b_reused a) \/ s o <> None) /\ (forall o d, In (o, d) (b_produced r) -> In (o, d) (b_produced a) \/ (o, d) = (t ++ lit ".hash", sha text)).
Proof.
  intros H (x & Et) Hn Ht. cbn [then_] in H. destruct (hash_file_of sha t (apply_build a s)) as [b|] eqn:E; [|discriminate]. injection H as <-. unfold hash_file_of in E.
  assert (Eh : hash_target t = Some (t ++ lit ".hash")) by (rewrite Et; apply hash_of_out). rewrite Eh in E.
  apply make_outputs in E. destruct E as (E1 & E2 & E3 & E4). split; [intros o; rewrite both_outputs, E1; split; (intros [X|X]; [left; exact X|right]); [injection X as <-; reflexivity|rewrite X; reflexivity]|]. cbn [both b_children b_reused b_produced]. rewrite E2, app_nil_r.
  split; [reflexivity|]. split.
  - intros o X. apply in_app_or in X. destruct X as [X|X]; [left; exact X|right]. assert (Eo : o = t ++ lit ".hash"). { assert (Y : In o (b_outputs b)) by (unfold b_outputs; apply in_or_app; right; exact X). apply E1 in Y. congruence. }
    apply E3 in X. rewrite apply_other in X; [exact X|rewrite Eo; exact Hn].
  - intros o d X. apply in_app_or in X. destruct X as [X|X]; [left; exact X|right]. apply E4 in X. destruct X as (X & data & Y & ->). injection X as <-. rewrite Ht in Y. injection Y as <-. reflexivity.
Qed.
(** without a look at what is there already *)
Lemma then_hash_names a s t r : then_ (Some a) s (hash_file_of sha t) = Some r -> (exists x, t = lit "out/www/" ++ x) ->
  (forall o, In o (b_outputs r) <-> In o (b_outputs a) \/ o = t ++ lit ".hash") /\ (forall o, In o (b_reused r) -> In o (b_reused a) \/ apply_build a s o <> None).
Proof.
  intros H (x & Et). cbn [then_] in H. destruct (hash_file_of sha t (apply_build a s)) as [b|] eqn:E; [|discriminate]. injection H as <-. unfold hash_file_of in E.
  assert (Eh : hash_target t = Some (t ++ lit ".hash")) by (rewrite Et; apply hash_of_out). rewrite Eh in E.
  apply make_outputs in E. destruct E as (E1 & E2 & E3 & E4). split; [intros o; rewrite both_outputs, E1; split; (intros [X|X]; [left; exact X|right]); [injection X as <-; reflexivity|rewrite X; reflexivity]|]. cbn [both b_reused].
  intros o X. apply in_app_or in X. destruct X as [X|X]; [left; exact X|right; apply E3; exact X].
Qed.
Context (Hcss : exists r, k_css K = lit "src/public/" ++ r /\ starts_with (lit "/") r = false).
Lemma edited_follows f s r : edited_build sha c K f s = Some r -> exists rs ws,
  match copy_target f, edit_file c K false f s with Some t, Some (out, _, rs) => Some (rs, [(t, out); (t ++ lit ".hash", sha out)]) | _, _ => None end = Some (rs, ws) /\
  (forall o, In o (b_outputs r) <-> In o (map fst ws)) /\ (forall o, In o (b_reused r) -> s o <> None \/ In o (map fst (b_produced r))) /\
  ((forall o x, In (o, x) ws -> s o = None \/ s o = Some x) -> forall o x, In (o, x) (b_produced r) -> In (o, x) ws) /\
  (forall p, In p rs -> is_out p = false -> p = f \/ In p (b_children r)).
Proof.
  unfold edited_build. destruct (copy_target f) as [t|] eqn:E; [|discriminate]. destruct (edit_file c K false f s) as [[[out ch] rs]|] eqn:Er; [|discriminate]. intros H. destruct (copy_out f t E) as (x & Et & _).
  exists rs, [(t, out); (t ++ lit ".hash", sha out)]. split; [reflexivity|]. set (a := mkBuild ch [(t, out)] []) in H.
  destruct (then_hash a s t out r H) as (Q1 & Q2 & Q3 & Q4); [eauto|cbn; intros [Y|[]]; exact (longer t (eq_sym Y))|unfold apply_build; cbn; unfold fs_set; rewrite str_eqb_refl; reflexivity|].
  split; [intros o; rewrite Q1; cbn; intuition congruence|]. split; [intros o X; left; destruct (Q3 o X) as [[]|Y]; exact Y|].
  split; [intros _ o d X; destruct (Q4 o d X) as [[Y|[]]|Y]; [left; exact Y|right; left; symmetry; exact Y]|].
  intros p X Hp. rewrite Q2. exact (edit_sources c K Hcss f s out ch rs p Er X Hp).
Qed.
Lemma file_follows : follows want build.
Proof.
  intros f s r. unfold file_build, file_want. destruct (build_with (c_relpath c) f); try discriminate.
  - unfold constants_file_build. destruct (copy_target f) as [t|] eqn:E; [|discriminate]. set (text := constants_text (merged c dev)). intros H _. destruct (copy_out f t E) as (x & Et & _).
    exists [], [(t, text); (t ++ lit ".hash", sha text)]. split; [reflexivity|].
    set (a := match s t with Some _ => mkBuild [] [] [t] | None => mkBuild [] [(t, text)] [] end) in H.
    assert (Oa : b_outputs a = [t]) by (unfold a; destruct (s t); reflexivity).
    destruct (then_hash_names a s t r H) as (N1 & N2); [eauto|].
    split; [intros o; rewrite N1, Oa; cbn; intuition congruence|]. split.
    { intros o X. destruct (N2 o X) as [Y|Y]; [left; unfold a in Y; destruct (s t) eqn:Es; cbn in Y; [destruct Y as [<-|[]]; congruence|destruct Y]|].
      apply apply_exists in Y. destruct Y as [Y|Y]; [left; exact Y|right]. unfold then_ in H. destruct (hash_file_of sha t (apply_build a s)); [|discriminate]. injection H as <-. cbn [both b_produced]. rewrite map_app. apply in_or_app. left. exact Y. }
    split; [|intros p []]. intros St o d X.
    assert (Va : apply_build a s t = Some text).
    { unfold a. destruct (s t) eqn:Es; [|cbn; unfold apply_build; cbn; unfold fs_set; rewrite str_eqb_refl; reflexivity]. cbn. destruct (St t text (or_introl eq_refl)); congruence. }
    destruct (then_hash a s t text r H) as (_ & _ & _ & Q); [eauto|rewrite Oa; intros [Y|[]]; exact (longer t (eq_sym Y))|exact Va|].
    destruct (Q o d X) as [Y|Y]; [left; unfold a in Y; destruct (s t); cbn in Y; [destruct Y|destruct Y as [Y|[]]; exact Y]|right; left; symmetry; exact Y].
  - unfold page_build. destruct (copy_target f) as [t|] eqn:E.
    + intros H _. pose proof (edited_follows f s r H) as X. rewrite E in X. exact X.
    + intros H _. injection H as <-. exists [], []. split; [reflexivity|]. split; [reflexivity|]. split; [intros o []|]. split; [intros _ o x []|intros p []].
  - intros H _. exact (edited_follows f s r H).
  - intros H _. exact (edited_follows f s r H).
  - unfold plain_build. intros H Hs. destruct (s f) as [text|] eqn:Es; [|contradiction]. exists [f], (with_hash sha f text). split; [reflexivity|].
    unfold then_ in H. destruct (make (fun data => data) (copy_target f) f s) as [a|] eqn:Ea; [|discriminate]. destruct (hash_file_of sha f (apply_build a s)) as [b|] eqn:Eb; [|discriminate]. injection H as <-.
    apply make_outputs in Ea. destruct Ea as (A1 & A2 & A3 & A4). unfold hash_file_of in Eb. apply make_outputs in Eb. destruct Eb as (B1 & B2 & B3 & B4).
    assert (Sf : apply_build a s f = Some text) by (rewrite apply_other; [exact Es|rewrite A1; intros X; exact (copy_source _ _ X eq_refl)]).
    split; [intros o; rewrite both_outputs, A1, B1, with_hash_names; reflexivity|]. cbn [both b_produced b_reused b_children]. split.
    { intros o X. apply in_app_or in X. destruct X as [X|X]; [left; auto|]. apply B3, apply_exists in X. destruct X as [X|X]; [left; exact X|right; rewrite map_app; apply in_or_app; left; exact X]. }
    split; [|intros p [->|[]] _; left; reflexivity]. intros _ o d X. unfold with_hash. apply in_or_app. apply in_app_or in X. destruct X as [X|X].
    + left. apply A4 in X. destruct X as (-> & data & Y & ->). rewrite Es in Y. injection Y as <-. left. reflexivity.
    + right. apply B4 in X. destruct X as (-> & data & Y & ->). rewrite Sf in Y. injection Y as <-. left. reflexivity.
Qed.
Lemma file_writes_out : writes_out build.
Proof.
  intros f s r o. unfold file_build. destruct (build_with (c_relpath c) f); try discriminate.
  - unfold constants_file_build. destruct (copy_target f) as [t|] eqn:E; [|discriminate]. destruct (copy_out f t E) as (x & Et & _). intros H Ho. apply then_hash_names in H; [|eauto]. apply H in Ho.
    destruct Ho as [Ho|Ho]; [destruct (s t); cbn in Ho; destruct Ho as [<-|[]]; rewrite Et; reflexivity|rewrite Ho, Et; reflexivity].
  - unfold page_build, edited_build; destruct (copy_target f) as [t|] eqn:E; [|intros H; injection H as <-; intros []]; destruct (copy_out f t E) as (x & Et & _); destruct (edit_file c K false f s) as [[[out ch] rs]|]; [|discriminate]; intros H Ho; apply then_hash_names in H; [|eauto]; apply H in Ho;
    destruct Ho as [Ho|Ho]; [cbn in Ho; destruct Ho as [<-|[]]; rewrite Et; reflexivity|rewrite Ho, Et; reflexivity].
  - unfold edited_build; destruct (copy_target f) as [t|] eqn:E; [|discriminate]; destruct (copy_out f t E) as (x & Et & _); destruct (edit_file c K false f s) as [[[out ch] rs]|]; [|discriminate]; intros H Ho; apply then_hash_names in H; [|eauto]; apply H in Ho;
    destruct Ho as [Ho|Ho]; [cbn in Ho; destruct Ho as [<-|[]]; rewrite Et; reflexivity|rewrite Ho, Et; reflexivity].
  - unfold edited_build; destruct (copy_target f) as [t|] eqn:E; [|discriminate]; destruct (copy_out f t E) as (x & Et & _); destruct (edit_file c K false f s) as [[[out ch] rs]|]; [|discriminate]; intros H Ho; apply then_hash_names in H; [|eauto]; apply H in Ho;
    destruct Ho as [Ho|Ho]; [cbn in Ho; destruct Ho as [<-|[]]; rewrite Et; reflexivity|rewrite Ho, Et; reflexivity].
  - unfold plain_build, then_. destruct (make (fun data => data) (copy_target f) f s) as [a|] eqn:Ea; [|discriminate]. destruct (hash_file_of sha f (apply_build a s)) as [b|] eqn:Eb; [|discriminate]. intros H. injection H as <-.
    apply make_outputs in Ea. unfold hash_file_of in Eb. apply make_outputs in Eb. rewrite both_outputs, (proj1 Ea), (proj1 Eb). intros [X|X]; [destruct (copy_out _ _ X) as (x & -> & _); reflexivity|destruct (hash_out _ _ X) as (x & ->); reflexivity].
Qed.
(** the outputs of a source file *)
Lemma owned f s rs ws o : source_name f -> want f s = Some (rs, ws) -> In o (map fst ws) ->
  exists q, q <> [] /\ Forall clean q /\ f = lit "src/public/" ++ slash q /\ (forall r, slash q <> r ++ lit ".hash") /\ (o = lit "out/www/" ++ slash q \/ o = lit "out/www/" ++ slash q ++ lit ".hash").
Proof.
  intros Hf. destruct (source_targets f Hf) as [(q & Hn & Hq & E & Hh)|(N1 & N2)].
  - intros W Ho. exists q. repeat split; try assumption. destruct (below_targets q) as (T1 & T2). rewrite <- E in T1, T2. unfold file_want in W. destruct (build_with (c_relpath c) f); try discriminate.
    + rewrite T1 in W. injection W as <- <-. cbn in Ho. destruct Ho as [<-|[<-|[]]]; auto.
    + rewrite T1 in W. destruct (edit_file c K false f s) as [[[out ch] rs']|]; [|discriminate]. injection W as <- <-. cbn in Ho. destruct Ho as [<-|[<-|[]]]; auto.
    + rewrite T1 in W. destruct (edit_file c K false f s) as [[[out ch] rs']|]; [|discriminate]. injection W as <- <-. cbn in Ho. destruct Ho as [<-|[<-|[]]]; auto.
    + rewrite T1 in W. destruct (edit_file c K false f s) as [[[out ch] rs']|]; [|discriminate]. injection W as <- <-. cbn in Ho. destruct Ho as [<-|[<-|[]]]; auto.
    + destruct (s f) as [text|]; [|discriminate]. injection W as <- <-. apply with_hash_names in Ho. rewrite T1, T2 in Ho. destruct Ho as [Ho|Ho]; injection Ho as <-; auto.
  - unfold file_want. destruct (build_with (c_relpath c) f); try discriminate; rewrite ?N1; try discriminate; [intros H; injection H as <- <-; intros []|]. destruct (s f) as [text|]; [|discriminate]. intros H. injection H as <- <-. rewrite with_hash_names, N1, N2. intros [X|X]; discriminate.
Qed.
Lemma app_same_tail (a b t : str) : a ++ t = b ++ t -> a = b.
Proof. apply app_inv_tail. Qed.
Lemma owner f s rs ws g s2 rs2 ws2 o : source_name f -> source_name g -> want f s = Some (rs, ws) -> want g s2 = Some (rs2, ws2) -> In o (map fst ws) -> In o (map fst ws2) -> f = g.
Proof.
  intros Hf Hg W W2 Ho Ho2. destruct (owned f s rs ws o Hf W Ho) as (q & _ & _ & -> & Hh & Eo). destruct (owned g s2 rs2 ws2 o Hg W2 Ho2) as (q2 & _ & _ & -> & Hh2 & Eo2). f_equal.
  destruct Eo as [Eo|Eo], Eo2 as [Eo2|Eo2]; rewrite Eo in Eo2; apply app_inv_head in Eo2.
  - exact Eo2.
  - destruct (Hh _ Eo2).
  - destruct (Hh2 _ (eq_sym Eo2)).
  - apply app_inv_tail in Eo2. exact Eo2.
Qed.
(** the names do not depend on the state *)
Lemma names_same f s rs ws s2 rs2 ws2 : want f s = Some (rs, ws) -> want f s2 = Some (rs2, ws2) -> map fst ws = map fst ws2.
Proof.
  unfold file_want. destruct (build_with (c_relpath c) f); try discriminate.
  - intros H1 H2. congruence.
  - destruct (copy_target f); [|intros H1 H2; congruence]; destruct (edit_file c K false f s) as [[[out ch] rs']|]; [|discriminate]; destruct (edit_file c K false f s2) as [[[out2 ch2] rs2']|]; [|discriminate]; intros H1 H2; injection H1 as <- <-; injection H2 as <- <-; reflexivity.
  - destruct (copy_target f); [|discriminate]; destruct (edit_file c K false f s) as [[[out ch] rs']|]; [|discriminate]; destruct (edit_file c K false f s2) as [[[out2 ch2] rs2']|]; [|discriminate]; intros H1 H2; injection H1 as <- <-; injection H2 as <- <-; reflexivity.
  - destruct (copy_target f); [|discriminate]; destruct (edit_file c K false f s) as [[[out ch] rs']|]; [|discriminate]; destruct (edit_file c K false f s2) as [[[out2 ch2] rs2']|]; [|discriminate]; intros H1 H2; injection H1 as <- <-; injection H2 as <- <-; reflexivity.
  - destruct (s f); [|discriminate]. destruct (s2 f); [|discriminate]. intros H1 H2. injection H1 as <- <-. injection H2 as <- <-. unfold with_hash. destruct (copy_target f), (hash_target f); reflexivity.
Qed.
Lemma file_names_fixed : names_fixed source_name want.
Proof.
  intros f s rs ws f2 s2 rs2 ws2 o x x2 Hf Hf2 W W2 Ho Ho2 [H|H].
  - exfalso. apply H. eapply owner; [exact Hf|exact Hf2|exact W|exact W2|eapply fst_in; exact Ho|eapply fst_in; exact Ho2].
  - exfalso. apply fst_in in Ho. destruct (owned f s rs ws o Hf W Ho) as (q & _ & _ & _ & _ & [E|E]); destruct H as (y & H); rewrite E in H; discriminate H.
Qed.
End Files.
(** the mode matters only for the constants *)
Lemma mode_same sha c dev dev0 K f s : f <> c_relpath c \/ dev = dev0 -> file_want sha c dev K f s = file_want sha c dev0 K f s.
Proof.
  intros [H| ->]; [|reflexivity]. unfold file_want. destruct (build_with (c_relpath c) f) eqn:E; try reflexivity.
  exfalso. apply H. unfold build_with in E. destruct (str_eqb f (c_relpath c)) eqn:X; [apply str_eqb_eq, X|]. destruct (glue_handles f), (ends_with (lit ".html") f), (ends_with (lit ".css") f), (ends_with (lit ".js") f); discriminate.
Qed.
Lemma mode_names sha c dev dev0 K f s rs ws : file_want sha c dev0 K f s = Some (rs, ws) ->
  exists rs2 ws2, file_want sha c dev K f s = Some (rs2, ws2) /\ map fst ws2 = map fst ws.
Proof.
  unfold file_want. destruct (build_with (c_relpath c) f); try discriminate; [|eauto|eauto|eauto|eauto]. destruct (copy_target f) as [t|]; [|discriminate]. intros H. injection H as <- <-. eexists _, _. split; reflexivity.
Qed.
Lemma file_names_agree sha c dev dev0 K : names_agree source_name (file_want sha c dev K) (file_want sha c dev0 K).
Proof.
  intros f s rs ws f2 s2 rs2 ws2 o x x2 Hf Hf2 W W2 Ho Ho2 H. destruct (mode_names sha c dev dev0 K f2 s2 rs2 ws2 W2) as (rs3 & ws3 & W3 & E). apply fst_in in Ho2. rewrite <- E in Ho2. apply in_fst in Ho2. destruct Ho2 as (x3 & Ho3).
  exfalso. destruct H as [H|(y & H)].
  - apply H. eapply owner; [exact Hf|exact Hf2|exact W|exact W3|eapply fst_in; exact Ho|eapply fst_in; exact Ho3].
  - apply fst_in in Ho. destruct (owned sha c dev K f s rs ws o Hf W Ho) as (q & _ & _ & _ & _ & [X|X]); rewrite X in H; discriminate H.
Qed.
