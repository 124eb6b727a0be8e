(** Builds of a project keep out/www correct. *)
From Verif Require Import Base Graph GraphSpec GraphProofs PyStr PyPath PyNorm PyNormProofs PathSpec Js Builder JsYield JsManip Handlers Hot HotSpec HotSchedProofs HotGraphs HotGraphsProofs HotResultSpec HotResultProofs HotWantSpec HotWantProofs Cold ColdSpec ColdProofs ColdMain ColdHistory
  Project ProjectSpec ProjectPaths ProjectFiles ProjectMain ProjectHistory ProjectSite.
From Coq Require Import String ZArith NArith Bool List Relations Lia.
Import ListNotations.
Open Scope list_scope.

(** without placeholders there is one round of scans *)
Lemma place_nothing stat batch : forall t, (forall g x, In (g, x) batch -> f_placeholders x = []) -> place_batch stat batch t = Ret t.
Proof.
  induction batch as [|[g x] r IH]; intros t H; [reflexivity|]. cbn [place_batch]. rewrite (H g x (or_introl eq_refl)). cbn [place_all]. apply IH. intros g2 x2 Hi. apply (H g2 x2). right. exact Hi.
Qed.
Lemma scan_rounds scan stat fuel : (forall f s x, scan f s = Some x -> f_placeholders x = []) -> forall t acc t' full, scan_loop scan stat fuel t acc = Ret (t', full) ->
  (forall f x, In (f, x) acc -> scan f (sc_fs t) = Some x) -> sc_fs t' = sc_fs t /\ sc_new t' = sc_new t /\ sc_added t' = sc_added t /\ forall f x, dget f full = Some x -> dget f acc = Some x \/ scan f (sc_fs t) = Some x.
Proof.
  intros Hp. destruct fuel as [|n]; intros t acc t' full H Ha.
  - cbn [scan_loop] in H. destruct (sc_next t); [|discriminate]. injection H as <- <-. auto.
  - cbn [scan_loop] in H. destruct (sc_next t) as [|f0 r0] eqn:E; [injection H as <- <-; auto|]. destruct (scan_batch scan (f0 :: r0) (sc_fs t) []) as [batch|] eqn:Eb; [|discriminate].
    destruct (scan_batch_ok scan stat _ _ _ _ Eb) as (B1 & _ & B3). specialize (B3 (NoDup_nil _)).
    assert (B : forall g x, In (g, x) batch -> scan g (sc_fs t) = Some x).
    { intros g x Hi. assert (X : dget g batch = Some x).
      { clear -B3 Hi. induction batch as [|[k v] r IHb]; [destruct Hi|]. simpl in B3. inversion B3 as [|? ? Hx Hr]; subst. cbn [dget].
        destruct Hi as [[= -> ->]|Hi]; [rewrite str_eqb_refl; reflexivity|]. destruct (str_eqb g k) eqn:E; [|auto]. apply str_eqb_eq in E. subst k. exfalso. apply Hx. apply (in_map fst) in Hi. assumption. }
      destruct (B1 g x X) as [(_ & Y)|Y]; [exact Y|discriminate]. }
    rewrite place_nothing in H by (intros g x Hi; eapply Hp, B, Hi). destruct n; cbn [scan_loop sc_next] in H; injection H as <- <-; cbn [sc_fs sc_new sc_added]; (split; [reflexivity|]); (split; [reflexivity|]); (split; [reflexivity|]);
      intros f x Hf; rewrite dupdate_get in Hf by exact B3; (destruct (dget f batch) as [y|] eqn:Ey; [right; injection Hf as <-; apply B, dget_In, Ey|left; exact Hf]).
Qed.

Section Site.
Context (sha : str -> str) (c : constants) (K : setting) (stat : fs -> str -> option fsig).
Context (Hstat : stat_ok stat) (Hdet : stat_detects stat) (Hconst : in_src (c_relpath c) = true) (Hcwd : starts_with (lit "/") (k_cwd K) = true) (Hcss : exists r, k_css K = lit "src/public/" ++ r /\ starts_with (lit "/") r = false).
Notation want := (fun dev => file_want sha c dev K).
Notation build := (fun dev => file_build sha c dev K).
Notation scan := (scan_no_placeholders c K).
Notation good := (fun dev => good sha c dev K).
Notation site := (site sha c K stat).
Notation builds := (builds sha c K stat).

Definition kept (dev : bool) (last : fs) (p : project) : Prop :=
  good dev (p_D p) (p_O p) (p_P p) last /\ (forall f, In f (dkeys (p_D p)) -> in_src f = true) /\ (forall f, In f (dkeys (p_D p)) -> api_meta (p_D p) f = stat last f) /\
  (forall r, p_fs p (www r) = last (www r)) /\ (In (c_relpath c) (dkeys (p_D p)) -> p_mode p = Some (mode_name dev)).
Lemma good_output dev D O P s f o : good dev D O P s -> depends O f o -> exists r, o = www r.
Proof.
  intros (_ & _ & (L1 & L2) & _ & Hn) H. pose proof (L1 f o H) as Hf. destruct (L2 f Hf) as (rs & ws & W & A & _). apply A in H. destruct (owned sha c dev K f s rs ws o (Hn f Hf) W H) as (q & _ & _ & _ & _ & [E|E]); rewrite E; eexists; reflexivity.
Qed.
Lemma kept_sound dev last p : kept dev last p -> sound_project p.
Proof.
  intros (G & Hs & _). pose proof G as (HG & _). split; [exact HG|]. split; [exact Hs|]. intros f o H. destruct (good_output _ _ _ _ _ f o G H) as (r & ->). reflexivity.
Qed.
Lemma no_placeholders f s x : scan f s = Some x -> f_placeholders x = [].
Proof. unfold scan_no_placeholders. destruct (file_scan c K f s); [|discriminate]. intros H. injection H as <-. reflexivity. Qed.
Lemma placeholders_fine : placeholders_ok scan (c_relpath c).
Proof. intros f s x p d H Hi. rewrite (no_placeholders f s x H) in Hi. destruct Hi. Qed.

(** the same sources and outputs *)
Lemma good_transfer dev dev' D O P s s2 : good dev D O P s -> (forall f, In f (dkeys D) -> s2 f = s f) -> (forall r, s2 (www r) = s (www r)) -> (In (c_relpath c) (dkeys D) -> dev' = dev) -> good dev' D O P s2.
Proof.
  intros G Hs Hw Hm. pose proof G as (HG & Hac & (L1 & L2) & Ha & Hn). split; [exact HG|]. split; [exact Hac|]. split; [|split; [intros r; rewrite Hw; apply Ha|exact Hn]]. split; [exact L1|]. intros f Hf.
  destruct (L2 f Hf) as (rs & ws & W & A & B & C). exists rs, ws. split; [|split; [exact A|split; [|exact C]]].
  - rewrite (mode_same sha c dev' dev K f s2); [|destruct (str_eq_dec f (c_relpath c)) as [E|E]; [right; apply Hm; rewrite <- E; exact Hf|left; exact E]].
    eapply file_reads_only; [exact W|]. intros p Hp. destruct (C p Hp) as (C1 & C2). destruct (is_out p).
    + destruct C2 as (x & _ & Hx); [reflexivity|]. destruct (good_output _ _ _ _ _ x p G Hx) as (r & ->). apply Hw.
    + destruct C1 as [->|Hx]; [reflexivity|apply Hs; exact Hf|]. apply Hs. eapply Inv_ch_closed; [apply Inv_well_formed, HG|apply depends_ch; exact Hx].
  - intros o d Ho. destruct (good_output _ _ _ _ _ f o G) as (r & ->); [apply A; eapply fst_in; exact Ho|]. rewrite Hw. apply B. exact Ho.
Qed.
Lemma kept_step dev last p dev' r p1 : kept dev last p -> (forall f, in_src f = true -> p_fs p f <> None -> source_name f) -> builds dev' p r p1 -> kept dev' (p_fs p1) p1.
Proof.
  intros HK Hnames HB. pose proof (kept_sound _ _ _ HK) as S. destruct HK as (G & Hsrc & M & Q & C).
  destruct (cold_settles (build dev') scan stat (c_relpath c) dev' p Hstat placeholders_fine Hconst (file_writes_out sha c dev' K) S r p1 HB) as (S1 & T1 & T2 & T3).
  split; [|split; [apply S1|split; [exact T2|split; [reflexivity|]]]]. 2: { intros X. rewrite T3. apply T1 in X. destruct (p_fs p1 (c_relpath c)); [reflexivity|tauto]. }
  destruct HB as [files mode1 Hn Hl Hc Hm|files changed added deleted changed1 mode1 fl t full e l fs1 D1 O1 P1 Hn Hl Hc Hm _ Hs Hr].
  - cbn [p_D p_O p_P p_fs] in *. apply (good_transfer dev dev' _ _ _ last); [exact G| |exact Q|].
    { intros f Hf. apply Hdet. rewrite <- (M f Hf), <- (T2 f Hf). reflexivity. }
    intros Hf. destruct (mode_step_cases _ _ _ _ _ _ _ _ _ Hm) as (_ & [(_ & [X|[X|[X|X]]])|(g & d & _ & _ & _ & X & _)]).
    + exfalso. apply T1 in Hf. tauto.
    + rewrite (C Hf) in X. injection X as X. apply mode_name_inj in X. symmetry. exact X.
    + destruct X.
    + destruct X.
    + discriminate X.
  - clear S1 T1 T2 T3. cbn [p_D p_O p_P p_fs] in *. assert (HL : lists (p_fs p) files) by (split; assumption).
    pose proof (classified_files stat p S files changed added deleted HL Hc) as (C1 & C2 & C3 & _).
    destruct (scan_rounds scan stat fl no_placeholders _ _ _ _ Hs) as (F1 & F2 & F3 & F4); [intros f x []|]. cbn [sc_fs sc_new sc_added] in F1, F2, F3, F4.
    assert (Hkeys : forall f, In f (dkeys (scans_of full)) <-> In f (dkeys changed1) \/ In f (dkeys added)).
    { intros f. rewrite scans_of_keys. rewrite (full_keys (build dev') scan stat (c_relpath c) dev' p Hconst S files changed added deleted changed1 mode1 fl t full e l fs1 D1 O1 P1 HL Hc Hm Hs Hr f). rewrite F2, in_app_iff. simpl. tauto. }
    assert (Hthere : forall f, In f (dkeys (scans_of full)) -> In f files).
    { intros f Hf. apply Hkeys in Hf. destruct Hf as [Hf|Hf]; apply In_dkeys_dget in Hf; destruct Hf as (g & Hg).
      - eapply changed1_get; eassumption.
      - eapply added_get; eassumption. }
    assert (Hgone : forall f, In f (dkeys (p_D p)) -> ~ In f deleted -> In f files).
    { intros f Hf Hnd. destruct (in_dec str_eq_dec f files); [assumption|]. exfalso. apply Hnd, C3. split; [apply contains_meta, contains_key; assumption|assumption]. }
    assert (Hed : edits c K (p_D p) (p_O p) (p_P p) (scans_of full) deleted last (p_fs p)).
    { split.
      - destruct G as (_ & _ & _ & _ & Hsn). intros f [Hf|[Hf|Hf]]; [apply Hsn; exact Hf| |].
        + apply Hthere, Hl in Hf. apply Hnames; tauto.
        + apply C3 in Hf. apply Hsn, contains_key, contains_meta. tauto.
      - intros f [Hf|Hf] Hnd; apply Hl; [apply Hgone; assumption|apply Hthere; exact Hf].
      - intros f Hf Hns Hnd. pose proof (Hgone f Hf Hnd) as Y. apply Hdet. rewrite <- (M f Hf). destruct (stat (p_fs p) f) as [sg|] eqn:Es; [|apply Hstat in Es; apply Hl in Y; tauto].
        destruct (api_meta (p_D p) f) as [old|] eqn:Em; [|apply contains_key, contains_meta in Hf; congruence]. destruct (sig_dec old sg) as [->|Hne]; [reflexivity|]. exfalso. apply Hns, Hkeys. left.
        destruct (dget f changed1) as [z|] eqn:Ez; [eapply dget_Some_key; exact Ez|]. exfalso.
        assert (Z : dget f changed = None) by (eapply changed1_none; eassumption). assert (Z2 : dget f changed = Some sg) by (apply C1; eauto). congruence.
      - intros f sc Hi. unfold scans_of in Hi. apply in_map_iff in Hi. destruct Hi as ((g & x) & E & Hi). cbn [fst snd] in E. injection E as -> <-.
        assert (Hx : dget f full = Some x).
        { assert (W : NoDup (dkeys full)) by (eapply sd_wf, scanned; eassumption). clear -W Hi. induction full as [|[k v] r IHb]; [destruct Hi|]. simpl in W. inversion W as [|? ? Hx Hr]; subst. cbn [dget].
          destruct Hi as [[= -> ->]|Hi]; [rewrite str_eqb_refl; reflexivity|]. destruct (str_eqb f k) eqn:E; [|auto]. apply str_eqb_eq in E. subst k. exfalso. apply Hx. apply (in_map fst) in Hi. assumption. }
        destruct (F4 f x Hx) as [X|X]; [discriminate|]. unfold scan_no_placeholders in X. destruct (file_scan c K f (p_fs p)) as [sc|]; [|discriminate]. injection X as <-. reflexivity.
      - intros y. left. apply Q. }
    pose proof G as (HG & _ & Hcor & Hall & _). rewrite F1, F2, F3 in Hr.
    assert (Hmode : dev' = dev \/ (In (c_relpath c) (dkeys (p_D p)) -> In (c_relpath c) (dkeys (scans_of full)) \/ In (c_relpath c) deleted)).
    { destruct (in_dec str_eq_dec (c_relpath c) (dkeys (p_D p))) as [Hf|Hf]; [|right; intros X; contradiction].
      destruct (mode_step_cases _ _ _ _ _ _ _ _ _ Hm) as (_ & [(E & [X|[X|[X|X]]])|(g & d & _ & _ & _ & E & _)]).
      - right. intros _. right. apply C3. split; [apply contains_meta, contains_key; assumption|]. intros Y. apply Hl in Y. tauto.
      - left. rewrite (C Hf) in X. injection X as X. apply mode_name_inj in X. symmetry. exact X.
      - right. intros _. left. apply Hkeys. rewrite E. auto.
      - right. intros _. left. apply Hkeys. auto.
      - right. intros _. left. apply Hkeys. left. rewrite E. apply In_dkeys_dset. auto. }
    destruct (graphs_after _ _ _ _ _ _ _ _ _ _ _ _ _ _ _ _ _ HG Hr) as (A & B & _). split; [exact A|]. split; [exact B|].
    split; [exact (project_correct sha c dev' dev K Hcwd Hcss stat _ _ _ _ _ _ _ _ _ e l fs1 D1 O1 P1 HG Hr last Hcor Hall Hed Hmode)|].
    split; [exact (project_all sha c dev' dev K stat _ _ _ _ _ _ _ _ _ e l fs1 D1 O1 P1 HG Hr last Hcor Hall Hed)|].
    intros f Hf. exact (proj1 (known_after sha c dev' K stat _ _ _ _ _ _ _ _ _ e l fs1 D1 O1 P1 HG Hr last Hed f Hf)).
Qed.
Lemma same_keys (g h : graph) : same_graph g h -> forall k, In k (dkeys g) <-> In k (dkeys h).
Proof. intros H k. rewrite <- !contains_key. rewrite (proj1 (H k)). reflexivity. Qed.
Lemma same_depends g h : same_graph g h -> forall f o, depends g f o <-> depends h f o.
Proof. intros H f o. unfold depends, api_children. rewrite (proj2 (proj2 (proj2 (H f)))). reflexivity. Qed.
Lemma kept_loaded dev last p D O P : kept dev last p -> well_formed D -> well_formed O -> well_formed P -> same_graph D (p_D p) -> same_graph O (p_O p) -> same_graph P (p_P p) -> kept dev last (mkProject (p_fs p) (p_mode p) D O P).
Proof.
  intros ((HG & HA & HC & HR & HN) & S & M & Q & C) W1 W2 W3 E1 E2 E3. pose proof (same_keys _ _ E1) as K1. pose proof (same_keys _ _ E2) as K2. pose proof (same_keys _ _ E3) as K3. pose proof (same_depends _ _ E1) as D1. pose proof (same_depends _ _ E2) as D2.
  destruct HG as (_ & _ & _ & G4 & G5). destruct HC as (C1 & C2). unfold kept. cbn [p_fs p_mode p_D p_O p_P]. split; [|split; [|split; [|split; [exact Q|]]]].
  - split; [split; [exact W1|split; [exact W2|split; [exact W3|split; intros k; [rewrite K1, K2; apply G4|rewrite K3, K1; apply G5]]]]|]. split; [intros a X; apply (HA a); revert X; generalize a at 1 3; intros b X; induction X as [x y X|x y z X1 I1 X2 I2]; [apply t_step, D1; exact X|eapply t_trans; eassumption]|].
    split; [|split; [|intros f; rewrite K1; apply HN]].
    + split; [intros f o; rewrite D2, K1; apply C1|]. intros f. rewrite K1. intros Hf. destruct (C2 f Hf) as (rs & ws & A1 & A2 & A3 & A4). exists rs, ws. split; [exact A1|]. split; [intros o; rewrite D2; apply A2|]. split; [exact A3|].
      intros x Hx. destruct (A4 x Hx) as (B1 & B2). split; [intros Hi; rewrite D1; apply B1; exact Hi|]. intros Hi. destruct (B2 Hi) as (y & B3 & B4). exists y. rewrite D1, D2. auto.
    + intros r Hr. destruct (HR r Hr) as (f & X). exists f. rewrite D2. exact X.
  - intros f. rewrite K1. apply S.
  - intros f. rewrite K1. rewrite (proj1 (proj2 (E1 f))). apply M.
  - rewrite K1. exact C.
Qed.
Lemma site_kept dev last p : site dev last p -> kept dev last p.
Proof.
  induction 1 as [dev s Hs|dev last p s H IH Hs|dev last p dev' r p1 H IH Hn HB|dev last p D O P H IH W1 W2 W3 E1 E2 E3].
  - assert (W : well_formed empty_graph) by (apply Inv_well_formed, Inv_empty). split; [|split; [intros f []|split; [intros f []|split; [reflexivity|intros []]]]]. split.
    { split; [exact W|]. split; [exact W|]. split; [exact W|]. split; intros k []. }
    split; [exact acyclic_empty|]. split; [apply correct_empty|]. split; [intros r X; rewrite Hs in X; contradiction|intros f []].
  - destruct IH as (G & S & M & Q & C). split; [exact G|]. split; [exact S|]. split; [exact M|]. split; [|exact C]. cbn [p_fs]. intros r. rewrite Hs. apply Q.
  - eapply kept_step; eassumption.
  - apply kept_loaded; assumption.
Qed.
Notation just_built := (just_built sha c K stat).
Lemma built_good dev p1 : just_built dev p1 -> good dev (p_D p1) (p_O p1) (p_P p1) (p_fs p1).
Proof. intros (dev0 & last & p & r & H & Hn & HB). apply (kept_step dev0 last p dev r p1); [apply site_kept; exact H|exact Hn|exact HB]. Qed.
Lemma built_settled dev p1 : just_built dev p1 -> sound_project p1 /\ settled stat (c_relpath c) dev p1.
Proof. intros (dev0 & last & p & r & H & Hn & HB). eapply cold_settles; [exact Hstat|exact placeholders_fine|exact Hconst|exact (file_writes_out sha c dev K)|eapply kept_sound, site_kept, H|exact HB]. Qed.
Lemma built_inputs dev p1 : just_built dev p1 -> forall f, In f (dkeys (p_D p1)) <-> in_src f = true /\ p_fs p1 f <> None.
Proof. intros H. apply (built_settled dev p1 H). Qed.
Lemma built_sources dev0 last p dev r p1 : site dev0 last p -> builds dev p r p1 -> forall q, is_out q = false -> p_fs p1 q = p_fs p q.
Proof.
  intros H HB q Hq. pose proof (kept_sound _ _ _ (site_kept _ _ _ H)) as S.
  destruct (cold_keeps_user (build dev) scan stat (c_relpath c) dev p Hconst (file_writes_out sha c dev K) S r p1 HB) as (A & B).
  destruct (p_fs p q) as [v|] eqn:E; [exact (A q v Hq E)|]. destruct (p_fs p1 q) as [v|] eqn:E1; [|reflexivity]. exfalso. destruct (B q v Hq E E1) as (g & x & s & X & Y & _). rewrite (no_placeholders g s x X) in Y. destruct Y.
Qed.
Lemma built_same dev p1 p2 : just_built dev p1 -> just_built dev p2 -> (forall f, in_src f = true -> p_fs p1 f = p_fs p2 f) -> forall r, p_fs p1 (www r) = p_fs p2 (www r).
Proof.
  intros H1 H2 Hs r. apply (same_folder sha c dev K (p_D p1) (p_O p1) (p_P p1) (p_fs p1) (p_D p2) (p_O p2) (p_P p2) (p_fs p2) (built_good dev p1 H1) (built_good dev p2 H2)).
  - intros f. rewrite (built_inputs dev p1 H1), (built_inputs dev p2 H2). split; intros (A & B); (split; [exact A|]); [rewrite <- Hs|rewrite Hs]; assumption.
  - intros f Hf. apply Hs. apply (built_inputs dev p1 H1) in Hf. tauto.
Qed.
Lemma built_twice dev p1 : just_built dev p1 -> (forall files, lists (p_fs p1) files -> builds dev p1 None p1) /\ forall r p2, builds dev p1 r p2 -> r = None /\ p2 = p1.
Proof. intros H. destruct (built_settled dev p1 H) as (S & T). apply settled_nothing; assumption. Qed.
End Site.
