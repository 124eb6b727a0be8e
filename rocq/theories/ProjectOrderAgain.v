(** What was recorded at the last build is what the builds of files that were left alone report again. *)
From Verif Require Import Base Graph GraphSpec GraphProofs PyStr PyPath PyNorm PathSpec Js Builder JsYield JsManip JsManipSpec Handlers Hot HotSpec HotGraphs HotResultSpec HotResultProofs HotWantSpec HotWantProofs
  Cold ColdSpec ColdProofs ColdMain Project ProjectSpec ProjectPaths ProjectEdit ProjectFiles ProjectMain ProjectHistory ProjectSite ProjectSiteProofs ProjectOrderFiles ProjectOrderSpec ProjectOrder ProjectOrderFirst ProjectOrderSite ProjectOrderKids.
From Coq Require Import String ZArith NArith Bool List Relations Lia.
Import ListNotations.
Open Scope list_scope.

Definition kids_recorded (c : constants) (K : setting) (D : graph) (s : fs) : Prop := forall f, In f (dkeys D) -> forall k, In k (kids c K f s) ->
  (is_out k = false -> depends D f k) /\ (is_out k = true -> exists x, has x k /\ (x = f \/ depends D f x)).

Section Again.
Context (sha : str -> str) (c : constants) (dev dev0 : bool) (K : setting).
Notation want := (file_want sha c dev K).
Notation want0 := (file_want sha c dev0 K).
Notation build := (file_build sha c dev K).
Context (Hcwd : starts_with (lit "/") (k_cwd K) = true) (Hcss : exists r, k_css K = lit "src/public/" ++ r /\ starts_with (lit "/") r = false).
Context (stat : fs -> str -> option fsig)
  (D O P : graph) (scans : dict scan_result) (newph : dict str) (changed added_ : dict fsig) (deleted : list str) (fs0 : fs)
  (e1 : env) (l : build_log) (fs1 : fs) (D1 O1 P1 : graph).
Context (HG : project_graphs D O P).
Context (HR : hot_rebuild build stat D O P scans newph changed added_ deleted fs0 e1 l fs1 D1 O1 P1).
Context (fs_old : fs) (Hold : correct want0 D O fs_old) (Hall : all_recorded O fs_old) (Hed : edits c K D O P scans deleted fs_old fs0).
Context (Hmode : dev = dev0 \/ (In (c_relpath c) (dkeys D) -> In (c_relpath c) (dkeys scans) \/ In (c_relpath c) deleted)).
Context (Hrec : kids_recorded c K D fs_old).
Notation hit := (hit D P scans deleted).
Notation after := (graphs_after build stat D O P scans newph changed added_ deleted fs0 e1 l fs1 D1 O1 P1 HG HR).

Lemma scan_out g sc o : In (g, sc) scans -> In o (s_produces sc) -> is_out o = true.
Proof. eapply (sc_out c K D O P scans deleted fs0 fs_old Hed). Qed.
Lemma users_hit f x : depends D f x -> hit x -> hit f.
Proof. intros H (y & Hy & R). exists y. split; [exact Hy|]. eapply rt_trans; [exact R|]. apply rt_step. left. exact H. Qed.
Lemma not_hit_same f : In f (dkeys D) -> ~ hit f -> fs1 f = fs_old f.
Proof.
  intros Hf Hh. assert (Sf : source_name f) by (apply (ed_names _ _ _ _ _ _ _ _ _ Hed); auto).
  rewrite (kept_source sha c dev dev0 K stat D O P scans newph changed added_ deleted fs0 e1 l fs1 D1 O1 P1 HG HR fs_old Hold Hed f (source_not_out f Sf)).
  apply (ed_same _ _ _ _ _ _ _ _ _ Hed); [exact Hf| |]; intros X; apply Hh; exists f; (split; [auto|apply rt_refl]).
Qed.
Lemma recorded_again : kids_recorded c K D1 fs1.
Proof.
  destruct after as ((W1 & _) & _ & _ & _ & K1 & K2 & K3 & _). intros f Hf k Hk. apply K1 in Hf. destruct Hf as (Hf & Hd).
  assert (Hc : hit f \/ ~ hit f).
  { destruct (unfolded build stat D O P scans newph changed added_ deleted fs0 e1 l fs1 D1 O1 P1 HG HR) as (st & _ & _ & _ & S4 & _). destruct (in_dec str_eq_dec f (HotSchedProofs.names l)) as [X|X]; [left|right; intros Y]; [apply S4 in X; tauto|apply X, S4; auto]. }
  destruct Hc as [Hh|Hh].
  - destruct (hit_entry sha c dev K stat D O P scans newph changed added_ deleted fs0 e1 l fs1 D1 O1 P1 HG HR f Hh Hd) as (d & r & Hi).
    destruct (kids_after sha c dev dev0 K Hcwd Hcss stat D O P scans newph changed added_ deleted fs0 e1 l fs1 D1 O1 P1 HG HR fs_old Hold Hall Hed Hmode f d r Hi) as (Ek & _). rewrite <- Ek in Hk.
    destruct (K2 f d r Hi) as (_ & R). destruct (R scan_out) as (R1 & R2 & _). split; intros Eo; [apply R1; assumption|]. destruct (R2 k Hk Eo) as (x & X1 & X2). exists x. split; [|exact X2].
    eapply (kp_has sha c dev0 K D O P scans deleted fs0 HG fs_old Hold Hed); exact X1.
  - destruct Hf as [Hf|Hf]; [contradiction|]. destruct (K3 f) as (E & _); [apply K1; auto|exact Hh|].
    assert (Ed : forall x, depends D1 f x <-> depends D f x) by (intros x; unfold depends; rewrite E; reflexivity).
    destruct Hold as (L1 & L2). destruct (L2 f Hf) as (rs & ws & W & _ & _ & C).
    assert (Ek : kids c K f fs1 = kids c K f fs_old).
    { eapply kids_reads; [exact W|]. intros p Hp. destruct (C p Hp) as (C1 & C2). destruct (is_out p) eqn:Eo.
      - destruct (C2 eq_refl) as (x & X1 & X2). eapply (kept_output sha c dev dev0 K Hcwd Hcss stat D O P scans newph changed added_ deleted fs0 e1 l fs1 D1 O1 P1 HG HR fs_old (conj L1 L2) Hall Hed Hmode); [|exact X2]. intros Hx. apply Hh. eapply users_hit; eassumption.
      - destruct (C1 eq_refl) as [->|X]; [apply not_hit_same; assumption|]. apply not_hit_same; [|intros Y; apply Hh; eapply users_hit; eassumption]. eapply Inv_ch_closed; [apply Inv_well_formed, HG|apply depends_ch; exact X]. }
    rewrite Ek in Hk. destruct (Hrec f Hf k Hk) as (A & B). split; [intros Eo; apply Ed; auto|intros Eo; destruct (B Eo) as (x & X1 & [X2|X2]); exists x; rewrite Ed; auto].
Qed.
(** of a file that was left alone together with the sources it looks at, nothing new is reported *)
Lemma nothing_new f d r : In (f, d, r) l -> In f (dkeys D) -> simple c K fs_old f -> (forall rs ws x, want0 f fs_old = Some (rs, ws) -> In x rs -> is_out x = false -> fs0 x = fs_old x) -> forall x, depends D1 f x -> depends D f x.
Proof.
  intros Hi Hf Hs Hsame x Hx. destruct after as (_ & Hac & _ & _ & K1 & K2 & _). destruct (K2 f d r Hi) as (_ & R). destruct (R scan_out) as (_ & _ & R3).
  destruct (kids_after sha c dev dev0 K Hcwd Hcss stat D O P scans newph changed added_ deleted fs0 e1 l fs1 D1 O1 P1 HG HR fs_old Hold Hall Hed Hmode f d r Hi) as (Ek & _). rewrite Ek in R3.
  assert (Sf : source_name f) by (apply (ed_names _ _ _ _ _ _ _ _ _ Hed); auto). destruct Hold as (L1 & L2). destruct (L2 f Hf) as (rs & ws & W & _).
  assert (Hin : incl (kids c K f fs1) (kids c K f fs_old)).
  { eapply kids_sources; [exact W| |exact (source_not_out f Sf)|exact Hs]. intros y Hy Ho. rewrite (kept_source sha c dev dev0 K stat D O P scans newph changed added_ deleted fs0 e1 l fs1 D1 O1 P1 HG HR fs_old (conj L1 L2) Hed y Ho). eapply Hsame; eassumption. }
  destruct (R3 x Hx) as [(X1 & X2)|(k & X1 & X2 & X3)].
  - apply (Hrec f Hf x); [apply Hin, X1|exact X2].
  - destruct (Hrec f Hf k (Hin k X1)) as (_ & Y). destruct (Y X2) as (y & Y1 & Y2). rewrite (has_one x y k) in Hx |- *; [|eapply (kp_has sha c dev0 K D O P scans deleted fs0 HG fs_old (conj L1 L2) Hed); exact X3|exact Y1|eapply (kp_has sha c dev0 K D O P scans deleted fs0 HG fs_old (conj L1 L2) Hed); exact X3|exact Y1].
    destruct Y2 as [->|Y2]; [|exact Y2]. exfalso. apply (Hac f). apply t_step. exact Hx.
Qed.
End Again.

Section Site.
Context (sha : str -> str) (c : constants) (K : setting) (stat : fs -> str -> option fsig).
Context (Hstat : stat_ok stat) (Hdet : stat_detects stat) (Hconst : in_src (c_relpath c) = true) (Hcwd : starts_with (lit "/") (k_cwd K) = true) (Hcss : exists r, k_css K = lit "src/public/" ++ r /\ starts_with (lit "/") r = false).
Notation site := (site sha c K stat).
Notation builds := (builds sha c K stat).

Lemma site_recorded dev last p : site dev last p -> kids_recorded c K (p_D p) last.
Proof.
  intros H. induction H as [dev s Hs|dev last p s H IH Hw|dev last p dev' r p1 H IH Hn HB|dev last p D O P H IH W1 W2 W3 E1 E2 E3]; [intros f []|exact IH| |intros f Hf k Hk; apply (same_keys _ _ E1) in Hf; cbn [p_D]; destruct (IH f Hf k Hk) as (X & Y); split; [intros Z; apply (same_depends _ _ E1); exact (X Z)|intros Z; destruct (Y Z) as (x & X1 & [X2|X2]); exists x; (split; [exact X1|]); [left; exact X2|right; apply (same_depends _ _ E1); exact X2]]].
  pose proof (site_kept sha c K stat Hstat Hdet Hconst Hcwd Hcss _ _ _ H) as HK. pose proof (kept_step sha c K stat Hstat Hdet Hconst Hcwd Hcss _ _ _ _ _ _ HK Hn HB) as HK1.
  destruct HB as [files mode1 Hn1 Hl Hc Hm|files changed added deleted changed1 mode1 fl t full e1 l fs1 D1 O1 P1 Hn1 Hl Hc Hm Hne Hs Hr].
  - cbn [p_D p_fs] in *. destruct HK as (G & _ & M & Q & _). destruct HK1 as (_ & _ & M1 & _). cbn [p_D p_fs] in *. pose proof G as (HG & _ & (L1 & L2) & _). intros f Hf k Hk. destruct (L2 f Hf) as (rs & ws & W & _ & _ & C). apply (IH f Hf k).
    rewrite <- (kids_reads sha c dev K f last rs ws (p_fs p) W); [exact Hk|]. assert (HS : forall g, In g (dkeys (p_D p)) -> p_fs p g = last g) by (intros g Hg; apply Hdet; rewrite <- (M g Hg), <- (M1 g Hg); reflexivity).
    intros x Hx. destruct (C x Hx) as (C1 & C2). destruct (is_out x).
    + destruct C2 as (y & _ & Hy); [reflexivity|]. destruct (good_output _ _ _ _ _ _ _ _ _ _ G Hy) as (q & ->). apply Q.
    + destruct C1 as [->|Y]; [reflexivity|apply HS; exact Hf|]. apply HS. eapply Inv_ch_closed; [apply Inv_well_formed, HG|apply depends_ch; exact Y].
  - cbn [p_D p_fs] in *. destruct (started sha c K stat Hstat Hdet Hconst dev' dev last p HK Hn files changed added changed1 deleted mode1 fl t full Hn1 Hl Hc Hm Hs) as (A1 & A2 & A3 & A4 & A5 & A6 & A7 & A8). rewrite A1, A2, A3 in Hr.
    destruct HK as ((HG & _ & Hcor & Hall & _) & _). exact (recorded_again sha c dev' dev K Hcwd Hcss stat _ _ _ _ _ _ _ _ _ e1 l fs1 D1 O1 P1 HG Hr last Hcor Hall A7 A8 IH).
Qed.
Theorem rebuilt_foreseen dev0 last p dev w p1 : site dev0 last p -> (forall f, in_src f = true -> p_fs p f <> None -> source_name f) -> builds dev p (Some w) p1 ->
  (forall f, In f (dkeys (run_scans w)) -> simple c K (p_fs p) f) ->
  (forall f, affected (p_D p) (p_P p) (dkeys (run_scans w)) (run_deleted w) f -> ~ In f (dkeys (run_scans w)) -> ~ In f (run_deleted w) ->
     simple c K last f /\ forall rs ws x, file_want sha c dev0 K f last = Some (rs, ws) -> In x rs -> is_out x = false -> p_fs p x = last x) ->
  foreseen (p_D p) (run_scans w) (run_log w) (p_D p1).
Proof.
  intros HS Hnames HB. pose proof (site_kept sha c K stat Hstat Hdet Hconst Hcwd Hcss _ _ _ HS) as HK. pose proof (site_recorded _ _ _ HS) as HRec.
  inversion HB as [|files changed added deleted changed1 mode1 fl t full e1 l fs1 D1 O1 P1 Hn Hl Hc Hm Hne Hs Hr]; subst w p1. cbn [p_fs p_D run_scans run_log run_deleted] in *.
  destruct (started sha c K stat Hstat Hdet Hconst dev dev0 last p HK Hnames files changed added changed1 deleted mode1 fl t full Hn Hl Hc Hm Hs) as (A1 & A2 & A3 & A4 & A5 & A6 & A7 & A8).
  rewrite A1, A2, A3 in Hr. destruct HK as ((HG & _ & Hcor & Hall & _) & _).
  intros HI HU f d r Hi. destruct (entry sha c dev K stat _ _ _ _ _ _ _ _ _ _ _ _ _ _ _ HG Hr f d r Hi) as (Hh & Hd & Hb). split.
  - intros sc Hsc. assert (Hk : In f (dkeys (scans_of full))) by (apply (in_map fst) in Hsc; exact Hsc). rewrite (build_kids sha c dev K f d r Hb). refine (scan_covers c K f (p_fs p) d sc _ _ (HI f Hk) (proj2 (proj1 (A6 f sc) Hsc))).
    + apply source_not_out. apply (ed_names _ _ _ _ _ _ _ _ _ A7). auto.
    + intros x Hx. eapply (source_at sha c dev dev0 K stat); eassumption.
  - intros N. destruct (HU f Hh N Hd) as (U1 & U2).
    assert (Hf : In f (dkeys (p_D p))) by (destruct (hit_known (p_D p) (p_O p) (p_P p) (scans_of full) deleted HG f Hh) as [X|[X|X]]; [exact X|contradiction|contradiction]).
    exact (nothing_new sha c dev dev0 K Hcwd Hcss stat _ _ _ _ _ _ _ _ _ e1 l fs1 D1 O1 P1 HG Hr last Hcor Hall A7 A8 HRec f d r Hi Hf U1 U2).
Qed.
End Site.
