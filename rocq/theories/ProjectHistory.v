(** What out/www holds at any time. *)
From Verif Require Import Base Graph GraphSpec GraphProofs PyStr PyPath PyNorm PyNormProofs PathSpec Css CssVersion CssVersionSpec Handlers OutlineData IconManip Nest NestSpec Js Builder JsYield JsManip JsManipSpec JsManipMain JsPathProofs Hot HotSpec HotGraphs HotResultSpec HotResultProofs HotWantSpec HotWantProofs Project ProjectSpec ProjectRun ProjectSeen ProjectSheet ProjectPaths ProjectPage ProjectEdit ProjectFiles ProjectMain.
From Coq Require Import String ZArith NArith Bool List Relations Lia.
Import ListNotations.
Open Scope list_scope.

Section History.
Context (sha : str -> str) (c : constants) (dev : bool) (K : setting).
Notation cwd := (k_cwd K).
Notation folder := (k_folder K).
Notation want := (file_want sha c dev K).
Notation hist := (history sha c dev K).

(** what holds of every project that was built *)
Definition good (D O P : graph) (s : fs) : Prop := project_graphs D O P /\ acyclic D /\ correct want D O s /\ all_recorded O s /\ forall f, In f (dkeys D) -> source_name f.
Section State.
Context (D O P : graph) (s : fs) (H : good D O P s).
Lemma history_graphs : project_graphs D O P /\ acyclic D.
Proof. unfold good in H. tauto. Qed.
Lemma history_correct : correct want D O s.
Proof. unfold good in H. tauto. Qed.
Lemma history_all : all_recorded O s.
Proof. unfold good in H. tauto. Qed.
Lemma history_names f : In f (dkeys D) -> source_name f.
Proof. apply H. Qed.

Lemma below r f : In f (dkeys D) -> f = lit "src/public/" ++ r -> copy_target f = Some (www r) /\ hash_target f = Some (www (r ++ lit ".hash")).
Proof. intros _ ->. split; reflexivity. Qed.
(** files that are copied *)
Lemma copies f r : In f (dkeys D) -> f = lit "src/public/" ++ r -> build_with (c_relpath c) f = CopyAndHash -> exists text, s f = Some text /\ s (www r) = Some text /\ s (www (r ++ lit ".hash")) = Some (sha text).
Proof.
  intros Hf E Hb. destruct history_correct as (_ & L). destruct (L f Hf) as (rs & ws & W & _ & B & _). destruct (below r f Hf E) as (T1 & T2). unfold file_want in W. rewrite Hb in W. destruct (s f) as [text|]; [|discriminate].
  injection W as <- <-. exists text. split; [reflexivity|]. unfold with_hash in B. rewrite T1, T2 in B. split; apply B; [left|right; left]; reflexivity.
Qed.
Lemma constants_file f r : In f (dkeys D) -> f = lit "src/public/" ++ r -> f = c_relpath c -> s (www r) = Some (constants_text (merged c dev)) /\ s (www (r ++ lit ".hash")) = Some (sha (constants_text (merged c dev))).
Proof.
  intros Hf E Hb. destruct history_correct as (_ & L). destruct (L f Hf) as (rs & ws & W & _ & B & _). destruct (below r f Hf E) as (T1 & T2). unfold file_want, build_with in W. rewrite Hb, str_eqb_refl, <- Hb, T1 in W.
  injection W as <- <-. split; apply B; [left; reflexivity|right; left]. reflexivity.
Qed.
(** every hash file is the hash of the file beside it *)
Lemma hashes q h : q <> [] -> Forall name q -> s (www (path_text q ++ lit ".hash")) = Some h -> exists body, s (www (path_text q)) = Some body /\ h = sha body /\ In (path_text (lit "src" :: lit "public" :: q)) (dkeys D).
Proof.
  intros Qn Qc Hh. destruct (history_all (path_text q ++ lit ".hash")) as (x & Hx); [congruence|]. destruct history_correct as (L1 & L). pose proof (L1 x _ Hx) as HxD. destruct (L x HxD) as (rs & ws & W & A & B & _).
  apply A in Hx. destruct (owned sha c dev K x s rs ws _ (history_names x HxD) W Hx) as (q2 & Qn2 & Qc2 & Ex & Qh & Eo). unfold www in Eo. rewrite path_slash in *.
  destruct Eo as [Eo|Eo]; apply app_inv_head in Eo; [destruct (Qh _ (eq_sym Eo))|]. apply app_inv_tail in Eo. assert (Eq : q2 = q) by (rewrite <- (comps_slash q2 Qc2), <- (comps_slash q Qc), Eo; reflexivity). subst q2.
  assert (T : forall text, In (www (slash q), text) ws -> In (www (slash q ++ lit ".hash"), sha text) ws -> exists body, s (www (slash q)) = Some body /\ h = sha body /\ In (path_text (lit "src" :: lit "public" :: q)) (dkeys D)).
  { intros text T1 T2. exists text. split; [apply B; exact T1|]. split; [pose proof (B _ _ T2); congruence|]. rewrite path_slash, below_text by exact Qn. rewrite <- Ex. exact HxD. }
  destruct (below (slash q) x HxD Ex) as (T1 & T2). unfold file_want in W. destruct (build_with (c_relpath c) x); try discriminate.
  - rewrite T1 in W. injection W as <- <-. eapply T; [left; reflexivity|right; left; reflexivity].
  - rewrite T1 in W. destruct (edit_file c K false x s) as [[[out seen] rs']|]; [|discriminate]. injection W as <- <-. eapply T; [left; reflexivity|right; left; reflexivity].
  - rewrite T1 in W. destruct (edit_file c K false x s) as [[[out seen] rs']|]; [|discriminate]. injection W as <- <-. eapply T; [left; reflexivity|right; left; reflexivity].
  - rewrite T1 in W. destruct (edit_file c K false x s) as [[[out seen] rs']|]; [|discriminate]. injection W as <- <-. eapply T; [left; reflexivity|right; left; reflexivity].
  - destruct (s x) as [text|]; [|discriminate]. injection W as <- <-. unfold with_hash in T. rewrite T1, T2 in T. eapply T; [left; reflexivity|right; left; reflexivity].
Qed.
(** nothing is missing and nothing else is there *)
Lemma served q : q <> [] -> Forall name q -> In (path_text (lit "src" :: lit "public" :: q)) (dkeys D) -> s (www (path_text q)) <> None /\ s (www (path_text q ++ lit ".hash")) <> None.
Proof.
  intros Qn Qc Hf. rewrite path_slash, below_text, <- path_slash in Hf by exact Qn. set (f := lit "src/public/" ++ path_text q) in *. destruct (build_with (c_relpath c) f) eqn:Eb.
  1: { assert (E : f = c_relpath c). { unfold build_with in Eb. destruct (str_eqb f (c_relpath c)) eqn:E; [apply str_eqb_eq, E|]. destruct (glue_handles f), (ends_with (lit ".html") f), (ends_with (lit ".css") f), (ends_with (lit ".js") f); discriminate. }
       destruct (constants_file f (path_text q) Hf eq_refl E) as (A & B). split; congruence. }
  2: { destruct history_correct as (_ & L). destruct (L f Hf) as (rs & ws & W & _ & B & _). destruct (below _ f Hf eq_refl) as (T1 & _). unfold file_want in W. rewrite Eb, T1 in W.
       destruct (edit_file c K false f s) as [[[o seen] rs']|]; [|discriminate]. injection W as <- <-. pose proof (B _ _ (or_introl eq_refl)) as B1. pose proof (B _ _ (or_intror (or_introl eq_refl))) as B2.
       split; [congruence|]. intros X. pose proof (eq_trans (eq_sym B2) X) as Y. discriminate Y. }
  2: { destruct history_correct as (_ & L). destruct (L f Hf) as (rs & ws & W & _ & B & _). destruct (below _ f Hf eq_refl) as (T1 & _). unfold file_want in W. rewrite Eb, T1 in W.
       destruct (edit_file c K false f s) as [[[o seen] rs']|]; [|discriminate]. injection W as <- <-. pose proof (B _ _ (or_introl eq_refl)) as B1. pose proof (B _ _ (or_intror (or_introl eq_refl))) as B2.
       split; [congruence|]. intros X. pose proof (eq_trans (eq_sym B2) X) as Y. discriminate Y. }
  2: { destruct history_correct as (_ & L). destruct (L f Hf) as (rs & ws & W & _ & B & _). destruct (below _ f Hf eq_refl) as (T1 & _). unfold file_want in W. rewrite Eb, T1 in W.
       destruct (edit_file c K false f s) as [[[o seen] rs']|]; [|discriminate]. injection W as <- <-. pose proof (B _ _ (or_introl eq_refl)) as B1. pose proof (B _ _ (or_intror (or_introl eq_refl))) as B2.
       split; [congruence|]. intros X. pose proof (eq_trans (eq_sym B2) X) as Y. discriminate Y. }
  2: { destruct (copies f (path_text q) Hf eq_refl Eb) as (text & _ & A & B). split; congruence. }
  all: exfalso; destruct history_correct as (_ & L); destruct (L f Hf) as (rs & ws & W & _); unfold file_want in W; rewrite Eb in W; discriminate.
Qed.
Lemma nothing_else r : s (www r) <> None -> exists q, q <> [] /\ Forall name q /\ In (path_text (lit "src" :: lit "public" :: q)) (dkeys D) /\ (r = path_text q \/ r = path_text q ++ lit ".hash").
Proof.
  intros H1. destruct (history_all r H1) as (x & Hx). destruct history_correct as (L1 & L). pose proof (L1 x _ Hx) as HxD. destruct (L x HxD) as (rs & ws & W & A & _). apply A in Hx.
  destruct (owned sha c dev K x s rs ws _ (history_names x HxD) W Hx) as (q & Qn & Qc & Ex & _ & Eo). exists q. split; [exact Qn|]. split; [exact Qc|]. split; [rewrite path_slash, below_text, <- Ex by exact Qn; exact HxD|].
  rewrite path_slash. unfold www in Eo. destruct Eo as [Eo|Eo]; apply app_inv_head in Eo; auto.
Qed.
(** stylesheets *)
Notation rule_of f := (rule_of (k_float_of K) (k_float_str K) (k_high_digit K) (k_int_high K) f s).
Lemma sheets f r : In f (dkeys D) -> f = lit "src/public/" ++ r -> build_with (c_relpath c) f = Stylesheet ->
  exists text ts out, s f = Some text /\ tokenize (k_float_of K) (k_high_digit K) (k_int_high K) text = (ts, None) /\ s (www r) = Some out /\ s (www (r ++ lit ".hash")) = Some (sha out) /\
    ((forall t i, In t ts -> import (k_css K) t i -> NestSpec.readable (k_float_of K) (k_high_digit K) (k_int_high K) f s i) ->
     exists mid res, expanded (rule_of f) (import (k_css K)) ts mid /\ stamped f s false mid res /\ out = serialize_many (k_float_str K) res).
Proof.
  intros Hf E Hb. destruct history_correct as (_ & L). destruct (L f Hf) as (rs & ws & W & _ & B & _). destruct (below r f Hf E) as (T1 & _). unfold file_want, edit_file in W. rewrite Hb, T1 in W.
  destruct (css_run K false f s) as [[[o ch] rs']|] eqn:Er; [|discriminate]. injection W as <- <-. destruct (css_written K f s o ch rs' Er) as (text & ts & A1 & A2 & A3). exists text, ts, o. split; [exact A1|]. split; [exact A2|]. split; [exact (B _ _ (or_introl eq_refl))|]. split; [|exact A3].
  replace (www (r ++ lit ".hash")) with (www r ++ lit ".hash") by (unfold www; rewrite <- app_assoc; reflexivity). exact (B _ _ (or_intror (or_introl eq_refl))).
Qed.
Lemma no_slash q : Forall name q -> starts_with (lit "/") (path_text q) = false.
Proof.
  intros Hn. destruct Hn as [|x q Hx Hq]; [reflexivity|]. destruct x as [|a x]; [destruct (proj1 Hx eq_refl)|]. assert (E : exists y, path_text ((a :: x) :: q) = a :: y) by (destruct q; eexists; reflexivity). destruct E as (y & E). transitivity (starts_with (lit "/") (a :: y)); [f_equal; exact E|].
  rewrite head_slash. apply N.eqb_neq. intros ->. apply (proj2 (proj2 (proj2 Hx))). left. reflexivity.
Qed.
Lemma imported f q selector b : q <> [] -> Forall name q -> (~ exists r, path_text q = r ++ lit ".hash") -> f <> path_text (lit "src" :: lit "public" :: q) -> rule_of f (path_text (lit "src" :: lit "public" :: q), selector) b ->
  exists text ts l prelude, In (path_text (lit "src" :: lit "public" :: q)) (dkeys D) /\ s (www (path_text q)) = Some text /\
    tokenize (k_float_of K) (k_high_digit K) (k_int_high K) text = (ts, None) /\ sheet ts l /\ In (prelude, b) l /\ selector_of (k_float_str K) prelude = selector.
Proof.
  intros Qn Qc Qh Hf (ts & l & pr & (text & A1 & A2 & A3) & A4 & A5). cbn [fst snd] in *. unfold file_of in A1. destruct (str_eqb _ f) eqn:E; [apply str_eqb_eq in E; congruence|].
  rewrite path_slash, below_text, <- path_slash, out_file_text in A1 by (exact Qn || apply no_slash, Qc). exists text, ts, l, pr. split; [|auto 6].
  destruct (nothing_else (path_text q)) as (q2 & Q1 & Q2 & Q3 & Q4); [congruence|]. destruct Q4 as [Q4|Q4]; rewrite !path_slash in *.
  - assert (Eq : q = q2) by (rewrite <- (comps_slash q2 Q2), <- (comps_slash q Qc), Q4; reflexivity). subst q2. exact Q3.
  - destruct Qh. eauto.
Qed.

(** a path that leads to a file *)
Context (Hcwd : starts_with (lit "/") cwd = true).
Lemma leads_resolve dirs fname p q : Forall name (dirs ++ [fname]) -> leads dirs p q ->
  resolve cwd folder (path_text (lit "src" :: lit "public" :: dirs ++ [fname])) p = (path_text (lit "src" :: lit "public" :: q), lit "/" ++ path_text q) /\ Forall name q.
Proof.
  intros Hd (Qn & [(Qc & ->)|(Hr & Hw)]).
  - split; [|exact Qc]. rewrite !path_slash. exact (rooted_target cwd folder q Qn Qc _).
  - assert (Qc : Forall name q) by (eapply walk_clean; [exact Hw|apply Forall_app in Hd; apply Hd]). split; [|exact Qc]. rewrite !path_slash. exact (relative_target cwd folder Hcwd dirs fname p q Hd Hr Hw Qn).
Qed.
Lemma scripts f dirs fname : In f (dkeys D) -> build_with (c_relpath c) f = Script -> f = path_text (lit "src" :: lit "public" :: dirs ++ [fname]) -> Forall name (dirs ++ [fname]) ->
  exists text ts out, s f = Some text /\ js_tokenize text = Ret ts /\ s (www (path_text (dirs ++ [fname]))) = Some (js_serialize_many out) /\
    ((forall v, In (JComment v) ts -> ~ hint_text v) -> exists version, edited version false ts out /\
       forall p q new, version p = Some new -> leads dirs p q -> exists body, s (www (path_text q)) = Some body /\ In (path_text (lit "src" :: lit "public" :: q)) (dkeys D) /\ new = lit "/" ++ path_text q ++ lit "?v=" ++ quote_plus (sha body) ++ lit "&pv=1.3.2").
Proof.
  intros Hf Hb E Hn. destruct history_correct as (_ & L). destruct (L f Hf) as (rs & ws & W & _ & B & _).
  assert (E2 : f = lit "src/public/" ++ path_text (dirs ++ [fname])) by (rewrite E, !path_slash; apply below_text; destruct dirs; discriminate). destruct (below _ f Hf E2) as (T1 & _).
  unfold file_want, edit_file in W. rewrite Hb, T1 in W. destruct (js_run K false f s) as [[o seen]|] eqn:Er; [|discriminate]. injection W as <- <-.
  destruct (run_tokens K false f s o seen Er) as (text & ts & Ef & Ets). pose proof (B _ _ (or_introl eq_refl)) as Bo.
  pose proof Er as Er'. unfold js_run in Er'. rewrite Ef, Ets in Er'. destruct (pump (js_manips cwd folder f s (k_type_name K) false) (k_fuel K) ts (new_builder js_init)) as [[out b]|] eqn:Ep; [|discriminate]. injection Er' as <- <-.
  exists text, ts, out. split; [exact Ef|]. split; [exact Ets|]. split; [exact Bo|]. intros Hh.
  pose proof (run_edits cwd folder (k_type_name K) (k_fuel K) f s ts out b Ep (tokens_whole _ _ Ets) Hh) as Hed. eexists. split; [exact Hed|]. cbn beta. intros p q new Hv Hl. rewrite E in Hv.
  destruct (leads_resolve dirs fname p q Hn Hl) as (R & Qc). rewrite R in Hv. cbn [fst snd] in Hv. destruct Hl as (Qn & _).
  rewrite (target_hash cwd q Hcwd Qc Qn) in Hv. replace (path_text (lit "out" :: lit "www" :: q) ++ lit ".hash") with (www (path_text q ++ lit ".hash")) in Hv by (rewrite !path_slash, !slash_more by (try discriminate; exact Qn); reflexivity).
  destruct (s (www (path_text q ++ lit ".hash"))) as [hash|] eqn:Eh; [|discriminate]. destruct (hashes q hash Qn Qc Eh) as (body & B1 & -> & B2). exists body. split; [exact B1|]. split; [exact B2|]. injection Hv as <-. reflexivity.
Qed.
End State.
(** the same sources, the same folder *)
Lemma same_folder D O P s D2 O2 P2 s2 : good D O P s -> good D2 O2 P2 s2 -> (forall f, In f (dkeys D) <-> In f (dkeys D2)) -> (forall f, In f (dkeys D) -> s f = s2 f) -> forall r, s (www r) = s2 (www r).
Proof.
  intros H H2 Hk Hs r. destruct H as ((W & _) & Hac & Hc & Ha & _), H2 as (_ & _ & Hc2 & Ha2 & _).
  pose proof (correct_unique want D O s D2 O2 s2 (file_reads_only sha c dev K) W Hac Hc Hc2 Hk (fun p X _ => Hs p X)) as U.
  destruct (s (www r)) as [v|] eqn:E.
  - destruct (Ha r) as (f & Hf); [congruence|]. rewrite <- (proj2 (U f (www r)) Hf). symmetry. exact E.
  - destruct (s2 (www r)) as [v|] eqn:E2; [|reflexivity]. destruct (Ha2 r) as (f & Hf); [congruence|]. apply U in Hf. pose proof (proj2 (U f (www r)) Hf). congruence.
Qed.
Context (Hcwd : starts_with (lit "/") cwd = true) (Hcss : exists r, k_css K = lit "src/public/" ++ r /\ starts_with (lit "/") r = false) (stat : fs -> str -> option fsig).
Lemma history_sound D O P s : hist stat D O P s -> good D O P s.
Proof.
  induction 1 as [s Hs|D O P s scans newph changed added deleted s0 e l s1 D1 O1 P1 _ (HG & Hac & Hc & Ha & Hn) Hed HR].
  - assert (W : well_formed empty_graph) by (apply Inv_well_formed, Inv_empty). split.
    { split; [exact W|]. split; [exact W|]. split; [exact W|]. split; intros k []. }
    split; [exact acyclic_empty|]. split; [apply correct_empty|].
    split; [intros r X; rewrite Hs in X; contradiction|intros f []].
  - destruct (graphs_after _ _ _ _ _ _ _ _ _ _ _ _ _ _ _ _ _ HG HR) as (A & B & _). split; [exact A|]. split; [exact B|].
    split; [exact (project_correct sha c dev dev K Hcwd Hcss stat D O P scans newph changed added deleted s0 e l s1 D1 O1 P1 HG HR s Hc Ha Hed (or_introl eq_refl))|]. split; [exact (project_all sha c dev dev K stat D O P scans newph changed added deleted s0 e l s1 D1 O1 P1 HG HR s Hc Ha Hed)|]. intros f Hf. exact (proj1 (known_after sha c dev K stat D O P scans newph changed added deleted s0 e l s1 D1 O1 P1 HG HR s Hed f Hf)).
Qed.
End History.
