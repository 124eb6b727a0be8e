(** Whole passes over a page. *)
From Verif Require Import Base Graph Json PyPath PyNorm CssVersion Builder BuilderSpec BuilderProofs Handlers OutlineData OutlineDataProofs Html HtmlSpec HtmlProofs HtmlRun.
From Coq Require Import String ZArith NArith Bool List Lia ZifyN ZifyBool ZifyNat.
Import ListNotations.
Open Scope list_scope.
Open Scope N_scope.

Definition rep_build (r : built) : report := (children r, produced r, reused r).
Definition rep_scan (r : scanned) : report := (dependencies r, produces r, []).
Section Main.
Context (h relpath p : str) (fragment : str -> list htoken) (show : str -> str).
Context (js_scan css_scan : str -> fs -> res scanned) (js_build css_build : str -> fs -> res (built * fs)).
Notation wr := (wr h p js_scan css_scan js_build css_build).
Notation passes := (passes (Some h) relpath fragment show js_scan css_scan js_build css_build).
Notation page := (page fragment show).
Lemma wr_writes i j f evs out f' rs : wr false i j f evs out f' rs -> exists bs, writes h p js_build css_build i j f evs out f' bs /\ rs = map rep_build bs.
Proof.
  induction 1 as [i j f|i j f t evs out f' rs H (bs & IH & ->)|i j f x evs out f' rs H (bs & IH & ->)|i j f name attrs n t evs out f' rs T H (bs & IH & ->)|i j f t attrs n path t' evs out f' rs T H (bs & IH & ->)
    |i j f attrs text r f2 t evs out f' rs T H (bs & IH & ->)|i j f text r f2 t evs out f' rs T H (bs & IH & ->)|i j f path text evs out f' rs T H (bs & IH & ->)].
  - exists []. split; [constructor|reflexivity].
  - exists bs. split; [constructor; assumption|reflexivity].
  - exists bs. split; [constructor; assumption|reflexivity].
  - exists bs. split; [|reflexivity]. cbn in T. destruct T as (u & attrs' & U & Rt & ->). eapply WrHint; eassumption.
  - exists bs. split; [|reflexivity]. cbn in T. destruct T as (v & G & Nr). eapply WrRef; eassumption.
  - cbn in T. destruct T as (r0 & f1 & v & attrs' & J & -> & M & -> & G & Rt & ->). exists (r0 :: bs). split; [|reflexivity]. eapply WrScript; try eassumption. reflexivity.
  - cbn in T. destruct T as (r0 & f1 & v & J & -> & M & -> & G & ->). exists (r0 :: bs). split; [|reflexivity]. eapply WrStyle; try eassumption. reflexivity.
  - exists bs. split; [constructor; assumption|reflexivity].
Qed.
Lemma writes_wr i j f evs out f' bs : writes h p js_build css_build i j f evs out f' bs -> wr false i j f evs out f' (map rep_build bs).
Proof.
  induction 1 as [i j f|i j f t evs out f' rs H IH|i j f x evs out f' rs H IH|i j f name attrs n u attrs' evs out f' rs U R H IH|i j f t attrs n path v t' evs out f' rs G N H IH
    |i j f attrs text r f1 f2 v attrs' evs out f' rs J M E G R H IH|i j f text r f1 f2 v evs out f' rs J M E G H IH|i j f path text evs out f' rs T H IH]; cbn [map].
  - constructor.
  - constructor; assumption.
  - constructor; assumption.
  - apply wr_hint; [cbn; eauto|exact IH].
  - apply wr_ref; [cbn; eauto|exact IH].
  - apply (wr_script _ _ _ _ _ _ _ i j f attrs text (rep_build r) f2); [|exact IH]. cbn. exists r, f1, v, attrs'. repeat split; try assumption; apply R.
  - apply (wr_style _ _ _ _ _ _ _ i j f text (rep_build r) f2); [|exact IH]. cbn. exists r, f1, v. repeat split; assumption.
  - constructor; assumption.
Qed.
Lemma wr_scans i j f evs out f' rs : wr true i j f evs out f' rs -> exists bs, scans p js_scan css_scan i j f evs out f' bs /\ rs = map rep_scan bs.
Proof.
  induction 1 as [i j f|i j f t evs out f' rs H (bs & IH & ->)|i j f x evs out f' rs H (bs & IH & ->)|i j f name attrs n t evs out f' rs T H (bs & IH & ->)|i j f t attrs n path t' evs out f' rs T H (bs & IH & ->)
    |i j f attrs text r f2 t evs out f' rs T H (bs & IH & ->)|i j f text r f2 t evs out f' rs T H (bs & IH & ->)|i j f path text evs out f' rs T H (bs & IH & ->)].
  - exists []. split; [constructor|reflexivity].
  - exists bs. split; [constructor; assumption|reflexivity].
  - exists bs. split; [constructor; assumption|reflexivity].
  - exists bs. split; [|reflexivity]. cbn in T. subst t. constructor; assumption.
  - exists bs. split; [|reflexivity]. cbn in T. subst t'. constructor; assumption.
  - cbn in T. destruct T as (r0 & attrs' & J & -> & -> & Rt & ->). exists (r0 :: bs). split; [|reflexivity]. eapply ScScript; eassumption.
  - cbn in T. destruct T as (r0 & J & -> & -> & ->). exists (r0 :: bs). split; [|reflexivity]. eapply ScStyle; eassumption.
  - exists bs. split; [constructor; assumption|reflexivity].
Qed.
Lemma scans_wr i j f evs out f' bs : scans p js_scan css_scan i j f evs out f' bs -> wr true i j f evs out f' (map rep_scan bs).
Proof.
  induction 1 as [i j f|i j f t evs out f' rs H IH|i j f x evs out f' rs H IH|i j f name attrs n evs out f' rs H IH|i j f t attrs n path evs out f' rs H IH
    |i j f attrs text r attrs' evs out f' rs J R H IH|i j f text r evs out f' rs J H IH|i j f path text evs out f' rs T H IH]; cbn [map].
  - constructor.
  - constructor; assumption.
  - constructor; assumption.
  - apply wr_hint; [reflexivity|exact IH].
  - apply wr_ref; [reflexivity|exact IH].
  - eapply wr_script; [|exact IH]. cbn. exists r, attrs'. repeat split; try assumption; apply R.
  - eapply wr_style; [|exact IH]. cbn. exists r. repeat split; assumption.
  - constructor; assumption.
Qed.
Lemma passes_rewrites host0 scan f ts out s' : HtmlSpec.passes host0 relpath fragment show js_scan css_scan js_build css_build scan f ts out s' <-> rewrites (manipulators host0 relpath fragment show js_scan css_scan js_build css_build scan) (h_init relpath f) ts out [] s'.
Proof.
  unfold HtmlSpec.passes. pose proof (pump_stream (manipulators host0 relpath fragment show js_scan css_scan js_build css_build scan) (h_init relpath f) ts out s' true) as [P1 P2]. split.
  - intros (fuel & b & A & B & C). destruct P1 as (lost & R & L); [exists fuel, b; tauto|]. rewrite (proj2 L eq_refl) in R. exact R.
  - intros R. destruct P2 as (fuel & b & A & B & C); [exists []; tauto|]. exists fuel, b. tauto.
Qed.
Context (Page : page_file relpath p) (Frag : forall text, Forall tag_ok (fragment text)).
Definition start : frame := {| fr_path := relpath; fr_vars := [] |}.
Lemma in_reports {A} (rs : list A) (rep : A -> report) (g : report -> list str) q : In q (flat_map g (map rep rs)) <-> exists r, In r rs /\ In q (g (rep r)).
Proof. rewrite in_flat_map. split; [intros (x & X & Y); apply in_map_iff in X; destruct X as (r & <- & X); eauto|intros (r & A1 & A2); exists (rep r); split; [apply in_map; exact A1|exact A2]]. Qed.
Theorem build_page f ts out s' : Forall tag_ok ts -> passes false f ts out s' ->
  exists evs rs, page start [] ts evs (t_frame s') (t_stack s') /\ writes h p js_build css_build 0 0 f evs out (files s') rs /\
    (forall q, In q (links s') <-> referred evs q) /\ (forall q, In q (t_seen s') <-> templates evs q) /\
    (forall q, In q (o_seen s') <-> exists r, In r rs /\ In q (children r)) /\ (forall q, In q (o_made s') <-> exists r, In r rs /\ In q (produced r)) /\
    (forall q, In q (o_reused s') <-> exists r, In r rs /\ In q (reused r)).
Proof.
  intros Ok H. apply passes_rewrites in H. destruct (forward h relpath p fragment show js_scan css_scan js_build css_build false Page Frag _ _ _ _ _ H eq_refl Ok 0%nat 0%nat (conj eq_refl (conj eq_refl eq_refl))) as (evs & rs & P & W & T & _).
  apply wr_writes in W. destruct W as (bs & W & ->). exists evs, bs. split; [exact P|]. split; [exact W|]. destruct T as [T1 T2 T3 T4 T5]. cbn [h_init links t_seen o_seen o_made o_reused In] in *.
  split; [intros q; rewrite T1, refs_of_iff; tauto|]. split; [intros q; rewrite T2, temps_of_iff; tauto|]. split; [intros q; rewrite T3, in_reports; cbn; tauto|]. split; [intros q; rewrite T4, in_reports; cbn; tauto|intros q; rewrite T5, in_reports; cbn; tauto].
Qed.
Theorem build_succeeds f ts evs fr st out f' rs : Forall tag_ok ts -> page start [] ts evs fr st -> writes h p js_build css_build 0 0 f evs out f' rs -> exists s', passes false f ts out s' /\ files s' = f'.
Proof.
  intros Ok P W. apply writes_wr in W. destruct (backward h relpath p fragment show js_scan css_scan js_build css_build false Page Frag _ _ _ _ _ _ P Ok 0%nat 0%nat (h_init relpath f) out f' _ eq_refl eq_refl (conj eq_refl (conj eq_refl eq_refl)) W) as (s' & R & _ & _ & F & _).
  exists s'. split; [apply passes_rewrites; exact R|exact F].
Qed.
Theorem scan_page f ts out s' : Forall tag_ok ts -> passes true f ts out s' ->
  exists evs rs, page start [] ts evs (t_frame s') (t_stack s') /\ scans p js_scan css_scan 0 0 f evs out (files s') rs /\
    (forall q, In q (links s') <-> referred evs q) /\ (forall q, In q (t_seen s') <-> templates evs q) /\
    (forall q, In q (o_seen s') <-> exists r, In r rs /\ In q (dependencies r)) /\ (forall q, In q (o_made s') <-> exists r, In r rs /\ In q (produces r)).
Proof.
  intros Ok H. apply passes_rewrites in H. destruct (forward h relpath p fragment show js_scan css_scan js_build css_build true Page Frag _ _ _ _ _ H eq_refl Ok 0%nat 0%nat (conj eq_refl (conj eq_refl eq_refl))) as (evs & rs & P & W & T & _).
  apply wr_scans in W. destruct W as (bs & W & ->). exists evs, bs. split; [exact P|]. split; [exact W|]. destruct T as [T1 T2 T3 T4 T5]. cbn [h_init links t_seen o_seen o_made o_reused In] in *.
  split; [intros q; rewrite T1, refs_of_iff; tauto|]. split; [intros q; rewrite T2, temps_of_iff; tauto|]. split; [intros q; rewrite T3, in_reports; cbn; tauto|intros q; rewrite T4, in_reports; cbn; tauto].
Qed.
Theorem scan_succeeds f ts evs fr st out f' rs : Forall tag_ok ts -> page start [] ts evs fr st -> scans p js_scan css_scan 0 0 f evs out f' rs -> exists s', passes true f ts out s' /\ files s' = f'.
Proof.
  intros Ok P W. apply scans_wr in W. destruct (backward h relpath p fragment show js_scan css_scan js_build css_build true Page Frag _ _ _ _ _ _ P Ok 0%nat 0%nat (h_init relpath f) out f' _ eq_refl eq_refl (conj eq_refl (conj eq_refl eq_refl)) W) as (s' & R & _ & _ & F & _).
  exists s'. split; [apply passes_rewrites; exact R|exact F].
Qed.
(** ** Once is enough *)
Lemma out_ordinary s ts out lost s' : rewrites (manipulators (Some h) relpath fragment show js_scan css_scan js_build css_build false) s ts out lost s' -> Forall ordinary out.
Proof using.
  clear. induction 1 as [s|t s s1 ts out lost s2 D H IH|t m s s1 seg repl s2 ts out lost s3 M R H IH|t m s s1 seg s2 M R]; [constructor| |exact IH|constructor].
  constructor; [|exact IH]. apply find_mark_declined in D. destruct (kinds t) as [O|[(name & attrs & n & Hi & L)|[(attrs & n & path & Rf & Sp)|[(attrs & -> & Sr)|[(attrs & ->)|[(c & l & K)|(c & l & K)]]]]]]; [exact O|exfalso..].
  - rewrite (fm_hint h relpath fragment show js_scan css_scan js_build css_build false _ _ _ _ s Hi L) in D. discriminate.
  - rewrite (fm_ref h relpath fragment show js_scan css_scan js_build css_build false _ _ _ _ s Rf Sp) in D. discriminate.
  - rewrite (fm_script h relpath fragment show js_scan css_scan js_build css_build false _ s Sr) in D. discriminate.
  - rewrite (fm_style h relpath fragment show js_scan css_scan js_build css_build false _ s) in D. discriminate.
  - rewrite (fm_stack h relpath fragment show js_scan css_scan js_build css_build false _ _ _ s K) in D. discriminate.
  - rewrite (fm_template h relpath fragment show js_scan css_scan js_build css_build false _ _ _ s K) in D. discriminate.
Qed.
Theorem built_is_ordinary f ts out s' : passes false f ts out s' -> Forall ordinary out.
Proof using. intros H. apply passes_rewrites in H. exact (out_ordinary _ _ _ _ _ H). Qed.
Lemma ordinary_rewrites scan s out : Forall ordinary out -> rewrites (manipulators (Some h) relpath fragment show js_scan css_scan js_build css_build scan) s out out [] s.
Proof using. clear. induction 1 as [|t out O _ IH]; [constructor|]. apply pass_ordinary; assumption. Qed.
Theorem ordinary_passes scan f out : Forall ordinary out -> passes scan f out out (h_init relpath f).
Proof using. intros O. apply passes_rewrites, ordinary_rewrites, O. Qed.
(** ** Token by token *)
Lemma page_cons_ordinary fr st t ts evs fr' st' : one_by_one t -> page fr st (t :: ts) evs fr' st' -> 
  exists evs1, page fr st ts evs1 fr' st' /\ ((evs = Same t :: evs1 /\ ordinary t) \/ (exists name attrs n, hint t name attrs n /\ local_hint attrs n /\ evs = Hint name attrs n :: evs1) \/ exists attrs n path, reference t attrs n /\ site_path attrs n path /\ evs = Ref t attrs n path :: evs1).
Proof using.
  clear. intros O H.
  assert (NS : (forall attrs, t = HStart (lit "script") attrs -> dget (lit "src") attrs <> None) /\ (forall attrs, t <> HStart (lit "style") attrs) /\ (forall c l, ~ stack_cmd t c l) /\ (forall c l, ~ template_cmd t c l)).
  { destruct O as [(A & B & C & D & E & F)|[(name & attrs & n & Hi & L)|(attrs & n & path & Rf & Sp)]]; [auto| |].
    - destruct Hi; (split; [discriminate|]; split; [discriminate|]; split; intros c l X; inversion X).
    - destruct Rf as [attrs Rl|attrs]; (split; [|split; [discriminate|]; split; intros c l X; inversion X]); [discriminate|]. intros attrs0 [= <-] X. destruct Sp as [Sp _]. congruence. }
  destruct NS as (C & D & E & F).
  inversion H; subst; try (exfalso; match goal with
  | H1 : stack_cmd _ _ _ |- _ => exact (E _ _ H1)
  | H1 : template_cmd _ _ _ |- _ => exact (F _ _ H1)
  | H1 : dget (lit "src") _ = None |- _ => exact (C _ eq_refl H1)
  | _ => exact (D _ eq_refl)
  end); eexists; (split; [eassumption|]); eauto 9.
Qed.
Theorem one_by_one_build f ts out : Forall tag_ok ts -> Forall one_by_one ts -> ((exists s', passes false f ts out s') <-> Forall2 (becomes h p f) ts out).
Proof.
  intros Ok O1. split.
  - intros (s' & H). destruct (build_page _ _ _ _ Ok H) as (evs & rs & P & W & _). clear H. revert W P. generalize (files s'), (t_frame s'), (t_stack s'), start. intros f' fr' st' fr. revert evs out. 
    induction O1 as [|t ts Ot _ IH]; intros evs out W P.
    + inversion P; subst. inversion W; subst. constructor.
    + inversion Ok as [|x y _ Ok']; subst x y. destruct (page_cons_ordinary _ _ _ _ _ _ _ Ot P) as (evs1 & P1 & [(-> & O)|[(name & attrs & n & Hi & L & ->)|(attrs & n & path & Rf & Sp & ->)]]); inversion W; subst.
      * constructor; [apply BecSame; exact O|eapply IH; eassumption].
      * constructor; [eapply BecHint; eassumption|eapply IH; eassumption].
      * constructor; [eapply BecRef; eassumption|eapply IH; eassumption].
  - intros H. assert (X : exists evs, page start [] ts evs start [] /\ writes h p js_build css_build 0 0 f evs out f []).
    { clear Ok O1. induction H as [|t t' ts out B H (evs & P & W)]; [exists []; split; constructor|]. destruct B as [t O|t name attrs n u attrs' Hi L U R|t attrs n path v t' Rf Sp G N].
      - exists (Same t :: evs). split; constructor; assumption.
      - exists (Hint name attrs n :: evs). split; [eapply PgHint; eassumption|eapply WrHint; eassumption].
      - exists (Ref t attrs n path :: evs). split; [eapply PgRef; eassumption|eapply WrRef; eassumption]. }
    destruct X as (evs & P & W). destruct (build_succeeds _ _ _ _ _ _ _ _ Ok P W) as (s' & X & _). exists s'. exact X.
Qed.
End Main.

(** * Pages without templates, scripts and stylesheets *)
Section OneByOne.
Context (h relpath p : str) (fragment : str -> list htoken) (show : str -> str).
Context (js_scan css_scan : str -> fs -> res scanned) (js_build css_build : str -> fs -> res (built * fs)).
Notation passes := (passes (Some h) relpath fragment show js_scan css_scan js_build css_build).
Context (Page : page_file relpath p) (Frag : forall text, Forall tag_ok (fragment text)).
Lemma one_by_one_events ts : Forall one_by_one ts -> forall fr st evs fr' st', page fragment show fr st ts evs fr' st' ->
  forall q, referred evs q <-> exists t attrs n path, In t ts /\ reference t attrs n /\ site_path attrs n path /\ q = in_public path.
Proof using.
  clear. induction 1 as [|t ts Ot _ IH]; intros fr st evs fr' st' P q.
  - inversion P; subst. split; [intros (t & attrs & n & path & [] & _)|intros (t & attrs & n & path & [] & _)].
  - destruct (page_cons_ordinary fragment show _ _ _ _ _ _ _ Ot P) as (evs1 & P1 & X). specialize (IH _ _ _ _ _ P1 q).
    destruct X as [(-> & O)|[(name & attrs & n & Hi & L & ->)|(attrs & n & path & Rf & Sp & ->)]]; unfold referred in *.
    + split.
      * intros (t0 & attrs & n & path & [X|X] & ->); [discriminate|]. destruct (proj1 IH) as (t1 & attrs1 & n1 & path1 & A & B); [eauto 7|]. exists t1, attrs1, n1, path1. split; [right; exact A|exact B].
      * intros (t0 & attrs & n & path & [<- |X] & Rf & Sp & ->); [destruct O as (_ & O & _); destruct (O _ _ _ Rf Sp)|]. destruct (proj2 IH) as (t1 & attrs1 & n1 & path1 & A & B); [eauto 9|]. exists t1, attrs1, n1, path1. split; [right; exact A|exact B].
    + split.
      * intros (t0 & attrs0 & n0 & path & [X|X] & ->); [discriminate|]. destruct (proj1 IH) as (t1 & attrs1 & n1 & path1 & A & B); [eauto 7|]. exists t1, attrs1, n1, path1. split; [right; exact A|exact B].
      * intros (t0 & attrs0 & n0 & path & [<- |X] & Rf & Sp & ->); [|destruct (proj2 IH) as (t1 & attrs1 & n1 & path1 & A & B); [eauto 9|]; exists t1, attrs1, n1, path1; split; [right; exact A|exact B]].
        exfalso. destruct Hi as [a0 H0|a0 H0]; inversion Rf as [a R E|]; subst; destruct R as [R|R]; rewrite H0 in R; discriminate R.
    + split.
      * intros (t0 & attrs0 & n0 & path0 & [X|X] & ->); [injection X as <- <- <- <-; exists t, attrs, n, path; split; [left; reflexivity|auto]|]. destruct (proj1 IH) as (t1 & attrs1 & n1 & path1 & A & B); [eauto 7|]. exists t1, attrs1, n1, path1. split; [right; exact A|exact B].
      * intros (t0 & attrs0 & n0 & path0 & [<- |X] & Rf0 & Sp0 & ->); [|destruct (proj2 IH) as (t1 & attrs1 & n1 & path1 & A & B); [eauto 9|]; exists t1, attrs1, n1, path1; split; [right; exact A|exact B]].
        exists t, attrs, n, path. split; [left; reflexivity|]. destruct Rf; inversion Rf0; subst; destruct Sp as (S1 & _), Sp0 as (S2 & _); congruence.
Qed.
Theorem one_by_one_links scan f ts out s' : Forall tag_ok ts -> Forall one_by_one ts -> passes scan f ts out s' ->
  forall q, In q (links s') <-> exists t attrs n path, In t ts /\ reference t attrs n /\ site_path attrs n path /\ q = in_public path.
Proof.
  intros Ok O H q. destruct scan.
  - destruct (scan_page h relpath p fragment show js_scan css_scan js_build css_build Page Frag _ _ _ _ Ok H) as (evs & rs & P & _ & L & _). rewrite L. exact (one_by_one_events _ O _ _ _ _ _ P q).
  - destruct (build_page h relpath p fragment show js_scan css_scan js_build css_build Page Frag _ _ _ _ Ok H) as (evs & rs & P & _ & L & _). rewrite L. exact (one_by_one_events _ O _ _ _ _ _ P q).
Qed.
Theorem built_again f ts out s' : passes false f ts out s' -> forall scan f2 out2 s2, passes scan f2 out out2 s2 <-> out2 = out /\ s2 = h_init relpath f2.
Proof using.
  intros H scan f2 out2 s2. pose proof (ordinary_passes h relpath fragment show js_scan css_scan js_build css_build scan f2 out (built_is_ordinary h relpath fragment show js_scan css_scan js_build css_build _ _ _ _ H)) as A. split; [|intros [-> ->]; exact A].
  intros B. apply passes_rewrites in A, B. destruct (rewrites_deterministic _ _ _ _ _ _ _ _ _ A B) as (<- & <- & _). auto.
Qed.
End OneByOne.
Section Host.
Context (relpath : str) (fragment : str -> list htoken) (show : str -> str).
Context (js_scan css_scan : str -> fs -> res scanned) (js_build css_build : str -> fs -> res (built * fs)).
Theorem host_missing f a t name attrs n r fuel : Forall ordinary a -> hint t name attrs n -> local_hint attrs n ->
  pump (manipulators None relpath fragment show js_scan css_scan js_build css_build true) (S fuel) (a ++ t :: r) (new_builder (h_init relpath f)) = Raise MissingConfigurationException.
Proof.
  intros O Hi L. unfold new_builder. generalize (h_init relpath f). induction O as [|x a Ox _ IH]; intros s; cbn [app pump handle_token loop b_mark b_st b_out].
  - cbn [find_mark manipulators start_mark canonical]. unfold canonical_start. assert (X : canonical_tag t = Some (name, n, dget n attrs, others n attrs)) by (apply canonical_some; eauto 7). rewrite X. reflexivity.
  - assert (E : find_mark (manipulators None relpath fragment show js_scan css_scan js_build css_build true) x s = Ret (None, s)).
    { apply ordinary_none in Ox. destruct Ox as (A & B & C & D & E & F). unfold manipulators. cbn [find_mark start_mark Html.canonical Html.link_hash Html.outline Html.template].
      unfold canonical_start, link_start, outline_start, template_start. rewrite A. cbn [find_mark]. rewrite B, C, D, E, F. reflexivity. }
    rewrite E. destruct fuel as [|fuel]; cbn [loop consume_tokens b_out b_mark b_st app]; rewrite IH; reflexivity.
Qed.
End Host.

Theorem built_hints : forall h relpath fragment show js_scan css_scan js_build css_build f ts out s', passes (Some h) relpath fragment show js_scan css_scan js_build css_build false f ts out s' ->
  forall t name attrs n, In t out -> hint t name attrs n -> exists u r, dget n attrs = Some u /\ u = lit "http" ++ r.
Proof.
  intros h relpath fragment show js_scan css_scan js_build css_build f ts out s' H t name attrs n Ht Hi. apply built_is_ordinary in H. rewrite Forall_forall in H. destruct (H t Ht) as (A & _). specialize (A _ _ _ Hi).
  destruct (dget n attrs) as [u|] eqn:G; [|exfalso; apply A; intros u r X; congruence]. exists u. destruct (starts_with (lit "http") u) eqn:E.
  - apply starts_with_iff in E. destruct E as [r E]. exists r. auto.
  - exfalso. apply A. intros u0 r X Y. assert (E2 : starts_with (lit "http") u = true) by (apply starts_with_iff; exists r; congruence). congruence.
Qed.
Theorem built_refs : forall h relpath p fragment show js_scan css_scan js_build css_build, page_file relpath p -> (forall text, Forall tag_ok (fragment text)) ->
  forall f ts out s', Forall tag_ok ts -> Forall one_by_one ts -> passes (Some h) relpath fragment show js_scan css_scan js_build css_build false f ts out s' ->
  Forall2 (fun t t' => (forall attrs n path, reference t attrs n -> site_path attrs n path -> exists h, dget (in_output path ++ lit ".hash") f = Some h /\ new_ref t n (version (47 :: path) (strip h)) t') /\
                       (ordinary t -> t' = t)) ts out.
Proof.
  intros h relpath p fragment show js_scan css_scan js_build css_build P Fr f ts out s' Ok O H. pose proof (proj1 (one_by_one_build h relpath p fragment show js_scan css_scan js_build css_build P Fr f ts out Ok O) (ex_intro _ s' H)) as B. clear - B.
  induction B as [|t t' ts out B _ IH]; [constructor|]. constructor; [|exact IH]. destruct B as [t Ot|t name attrs n u attrs' Hi L U R|t attrs n path v t' Rf Sp G N]; (split; [intros attrs0 n0 path0 Rf0 Sp0|intros Ot0]).
  - exfalso. destruct Ot as (_ & X & _). exact (X _ _ _ Rf0 Sp0).
  - reflexivity.
  - exfalso. destruct Hi as [a0 H0|a0 H0]; inversion Rf0 as [a R0 E|]; subst; destruct R0 as [R0|R0]; rewrite H0 in R0; discriminate R0.
  - exfalso. destruct Ot0 as (X & _). exact (X _ _ _ Hi L).
  - assert (n0 = n /\ path0 = path) as [-> ->] by (destruct Rf; inversion Rf0; subst; destruct Sp as (S1 & _), Sp0 as (S2 & _); rewrite S1 in S2; injection S2 as ->; auto). eauto.
  - exfalso. destruct Ot0 as (_ & X & _). exact (X _ _ _ Rf Sp).
Qed.
