(** C71 for a project under the build command. *)
From Verif Require Import Base Graph GraphSpec GraphProofs PyStr PyPath PyNorm PathSpec Js Builder JsYield JsManip JsManipSpec Handlers Hot HotSpec HotMain HotGraphs HotGraphsProofs HotResultSpec HotResultProofs HotWantSpec HotWantProofs
  Cold ColdSpec ColdProofs ColdMain ColdHistory Project ProjectSpec ProjectPaths ProjectEdit ProjectFiles ProjectMain ProjectHistory ProjectSite ProjectSiteProofs ProjectOrderFiles ProjectOrderSpec ProjectOrder ProjectOrderFirst.
From Coq Require Import String ZArith NArith Bool List Relations Lia.
Import ListNotations.
Open Scope list_scope.

Lemma steps_trans build e a b d : steps build e a b -> steps build e b d -> steps build e a d.
Proof. intros A B. induction B as [|x y z B IH B2]; [exact A|]. eapply steps_step; [apply IH; exact A|exact B2]. Qed.
Lemma NoDup_dget {V} (d : @dict V) f x : NoDup (dkeys d) -> In (f, x) d -> dget f d = Some x.
Proof.
  intros W Hi. induction d as [|[k v] r IHb]; [destruct Hi|]. simpl in W. inversion W as [|? ? Hx Hr]; subst. cbn [dget].
  destruct Hi as [[= -> ->]|Hi]; [rewrite str_eqb_refl; reflexivity|]. destruct (str_eqb f k) eqn:E; [|auto]. apply str_eqb_eq in E. subst k. exfalso. apply Hx. apply (in_map fst) in Hi. assumption.
Qed.
(** which files a round of scans covers *)
Lemma scan_round_keys scan stat fuel t t' full : (forall f s x, scan f s = Some x -> f_placeholders x = []) -> scan_loop scan stat fuel t [] = Ret (t', full) ->
  NoDup (dkeys full) /\ forall f, In f (dkeys full) <-> In f (sc_next t).
Proof.
  intros Hp H. destruct fuel as [|n]; cbn [scan_loop] in H.
  - destruct (sc_next t); [|discriminate]. injection H as <- <-. split; [constructor|reflexivity].
  - destruct (sc_next t) as [|f0 r0] eqn:E; [injection H as <- <-; split; [constructor|reflexivity]|]. destruct (scan_batch scan (f0 :: r0) (sc_fs t) []) as [batch|] eqn:Eb; [|discriminate].
    destruct (scan_batch_ok scan stat _ _ _ _ Eb) as (B1 & B2 & B3). specialize (B3 (NoDup_nil _)).
    rewrite place_nothing in H. 2: { intros g x Hi. apply (NoDup_dget _ _ _ B3) in Hi. destruct (B1 g x Hi) as [(_ & Y)|Y]; [eapply Hp; exact Y|discriminate Y]. }
    assert (X : full = dupdate [] batch) by (destruct n; cbn [scan_loop sc_next] in H; injection H as <- <-; reflexivity). subst full.
    split; [apply dupdate_NoDup; constructor|]. intros f. rewrite dupdate_keys, B2. cbn [dkeys map In]. tauto.
  Unshelve. all: exact scan.
Qed.

Section Site.
Context (sha : str -> str) (c : constants) (K : setting) (stat : fs -> str -> option fsig).
Context (Hstat : stat_ok stat) (Hdet : stat_detects stat) (Hconst : in_src (c_relpath c) = true) (Hcwd : starts_with (lit "/") (k_cwd K) = true) (Hcss : exists r, k_css K = lit "src/public/" ++ r /\ starts_with (lit "/") r = false).
Notation build := (fun dev => file_build sha c dev K).
Notation scan := (scan_no_placeholders c K).
Notation good := (fun dev => good sha c dev K).
Notation builds := (builds sha c K stat).
Notation kept := (kept sha c K stat).
Notation no_placeholders := (no_placeholders c K).
(** the files a build command scans *)
Definition due (dev : bool) (p : project) (f : str) : Prop := in_src f = true /\ p_fs p f <> None /\
  (api_meta (p_D p) f = None \/ (exists old, api_meta (p_D p) f = Some old /\ stat (p_fs p) f <> Some old) \/ (f = c_relpath c /\ p_mode p <> Some (mode_name dev))).
Definition gone (p : project) (f : str) : Prop := api_meta (p_D p) f <> None /\ ~ (in_src f = true /\ p_fs p f <> None).

Section Start.
Context (dev dev0 : bool) (last : fs) (p : project) (HK : kept dev0 last p) (Hnames : forall f, in_src f = true -> p_fs p f <> None -> source_name f).
Context (files : list str) (changed added changed1 : dict fsig) (deleted : list str) (mode1 : option str) (fuel : nat) (t : scanning) (full : dict scan_full).
Context (Hn : NoDup files) (Hl : forall f, In f files <-> in_src f = true /\ p_fs p f <> None)
  (Hc : classify (p_D p) (stat (p_fs p)) files (dkeys (p_D p)) [] [] = Ret (changed, added, deleted))
  (Hm : mode_step (c_relpath c) dev (stat (p_fs p)) (p_fs p) (p_mode p) changed added = Ret (changed1, mode1))
  (Hs : scan_loop scan stat fuel (mkScanning (p_fs p) (dkeys changed1 ++ dkeys added) [] added) [] = Ret (t, full)).
Lemma started : sc_fs t = p_fs p /\ sc_new t = [] /\ sc_added t = added /\ (forall f, In f (dkeys (scans_of full)) <-> due dev p f) /\ (forall f, In f deleted <-> gone p f) /\
  (forall f sc, In (f, sc) (scans_of full) <-> due dev p f /\ file_scan c K f (p_fs p) = Some sc) /\ edits c K (p_D p) (p_O p) (p_P p) (scans_of full) deleted last (p_fs p) /\
  (dev = dev0 \/ (In (c_relpath c) (dkeys (p_D p)) -> In (c_relpath c) (dkeys (scans_of full)) \/ In (c_relpath c) deleted)).
Proof.
  pose proof (kept_sound sha c K stat _ _ _ HK) as S. pose proof HK as (G & Hsrc & M & Q & C). assert (HL : lists (p_fs p) files) by (split; assumption).
  pose proof (classified_files stat p S files changed added deleted HL Hc) as (C1 & C2 & C3 & _).
  destruct (scan_rounds scan stat fuel no_placeholders _ _ _ _ Hs) as (F1 & F2 & F3 & F4); [intros f x []|]. cbn [sc_fs sc_new sc_added] in F1, F2, F3, F4.
  destruct (scan_round_keys _ _ _ _ _ _ no_placeholders Hs) as (W & Wk). cbn [sc_next] in Wk.
  assert (Hkeys : forall f, In f (dkeys (scans_of full)) <-> In f (dkeys changed1) \/ In f (dkeys added)) by (intros f; rewrite scans_of_keys, Wk, in_app_iff; reflexivity).
  assert (Hst : forall f, In f files -> exists g, stat (p_fs p) f = Some g).
  { intros f Hf. destruct (stat (p_fs p) f) as [g|] eqn:E; [eauto|]. apply Hstat in E. apply Hl in Hf. tauto. }
  assert (HU : forall f, In f (dkeys changed) -> In f (dkeys changed1)).
  { intros f Hf. destruct (mode_step_cases _ _ _ _ _ _ _ _ _ Hm) as (_ & [(E & _)|(g & d & _ & _ & _ & E & _)]); rewrite E; [exact Hf|apply In_dkeys_dset; auto]. }
  assert (Hdue : forall f, In f (dkeys (scans_of full)) <-> due dev p f).
  { intros f. rewrite Hkeys. unfold due. split.
    - intros [Hf|Hf].
      + destruct (mode_step_cases _ _ _ _ _ _ _ _ _ Hm) as (_ & [(E & _)|(g & d & M1 & M2 & M3 & E & _)]); rewrite E in Hf; [|apply In_dkeys_dset in Hf; destruct Hf as [->|Hf]].
        * apply In_dkeys_dget in Hf. destruct Hf as (g & Hg). apply C1 in Hg. destruct Hg as (G1 & G2 & old & G3 & G4). apply Hl in G1. split; [tauto|]. split; [tauto|]. right. left. exists old. split; [exact G3|congruence].
        * split; [exact Hconst|]. split; [congruence|]. right. right. auto.
        * apply In_dkeys_dget in Hf. destruct Hf as (g' & Hg). apply C1 in Hg. destruct Hg as (G1 & G2 & old & G3 & G4). apply Hl in G1. split; [tauto|]. split; [tauto|]. right. left. exists old. split; [exact G3|congruence].
      + apply In_dkeys_dget in Hf. destruct Hf as (g & Hg). apply C2 in Hg. destruct Hg as (G1 & G2 & G3). apply Hl in G1. tauto.
    - intros (D1 & D2 & D3). assert (Hf : In f files) by (apply Hl; auto). destruct (Hst f Hf) as (g & Hg). destruct D3 as [D3|[(old & D3 & D4)|(-> & D3)]].
      + right. eapply dget_Some_key, C2. eauto.
      + left. apply HU. eapply dget_Some_key, C1. split; [exact Hf|]. split; [exact Hg|]. exists old. split; [exact D3|intros X; apply D4; rewrite Hg, X; reflexivity].
      + destruct (mode_step_cases _ _ _ _ _ _ _ _ _ Hm) as (_ & [(E & [X|[X|[X|X]]])|(g' & d & _ & _ & _ & E & _)]); [tauto|tauto|left; apply HU; exact X|right; exact X|left; rewrite E; apply In_dkeys_dset; auto]. }
  assert (Hdel : forall f, In f deleted <-> gone p f) by (intros f; rewrite C3, Hl; reflexivity).
  assert (Hsc : forall f sc, In (f, sc) (scans_of full) <-> due dev p f /\ file_scan c K f (p_fs p) = Some sc).
  { assert (Z : forall f sc, In (f, sc) (scans_of full) -> due dev p f /\ file_scan c K f (p_fs p) = Some sc).
    { intros f sc Hi. split; [apply Hdue; apply (in_map fst) in Hi; exact Hi|]. unfold scans_of in Hi. apply in_map_iff in Hi. destruct Hi as ((g & x) & E & Hi). cbn [fst snd] in E. injection E as -> <-.
      pose proof (NoDup_dget _ _ _ W Hi) as Hx. destruct (F4 f x Hx) as [X|X]; [discriminate|]. unfold scan_no_placeholders in X. destruct (file_scan c K f (p_fs p)) as [sc|]; [|discriminate]. injection X as <-. reflexivity. }
    intros f sc. split; [apply Z|]. intros (H1 & H2). apply Hdue in H1. unfold dkeys in H1. apply in_map_iff in H1. destruct H1 as ((g & sc') & E & H1). cbn in E. subst g. pose proof (Z f sc' H1) as (_ & X). rewrite H2 in X. injection X as <-. exact H1. }
  split; [exact F1|]. split; [exact F2|]. split; [exact F3|]. split; [exact Hdue|]. split; [exact Hdel|]. split; [exact Hsc|].
  assert (Hgone : forall f, In f (dkeys (p_D p)) -> ~ In f deleted -> In f files).
  { intros f Hf Hnd. destruct (in_dec str_eq_dec f files); [assumption|]. exfalso. apply Hnd, C3. split; [apply contains_meta, contains_key; assumption|assumption]. }
  split.
  - split.
    + destruct G as (_ & _ & _ & _ & Hsn). intros f [Hf|[Hf|Hf]]; [apply Hsn; exact Hf| |].
      * apply Hdue in Hf. destruct Hf as (D1 & D2 & _). apply Hnames; assumption.
      * apply C3 in Hf. apply Hsn, contains_key, contains_meta. tauto.
    + intros f [Hf|Hf] Hnd; [|apply Hdue in Hf; destruct Hf as (_ & D2 & _); exact D2]. apply Hl, Hgone; assumption.
    + intros f Hf Hns Hnd. pose proof (Hgone f Hf Hnd) as Y. apply Hdet. rewrite <- (M f Hf). destruct (Hst f Y) as (sg & Es). rewrite Es.
      destruct (api_meta (p_D p) f) as [old|] eqn:Em; [|apply contains_key, contains_meta in Hf; congruence]. destruct (sig_dec old sg) as [->|Hne]; [reflexivity|]. exfalso. apply Hns, Hdue. apply Hl in Y. split; [tauto|]. split; [tauto|]. right. left. exists old. split; [exact Em|congruence].
    + intros f sc Hi. apply Hsc. exact Hi.
    + intros y. left. apply Q.
  - destruct (in_dec str_eq_dec (c_relpath c) (dkeys (p_D p))) as [Hf|Hf]; [|right; intros X; contradiction].
    destruct (bool_dec dev dev0) as [E|E]; [left; exact E|right]. intros _. destruct (in_dec str_eq_dec (c_relpath c) deleted) as [Hd|Hd]; [auto|left]. apply Hdue. pose proof (Hgone _ Hf Hd) as Y. apply Hl in Y.
    split; [tauto|]. split; [tauto|]. right. right. split; [reflexivity|]. rewrite (C Hf). intros X. injection X as X. apply mode_name_inj in X. congruence.
Qed.
End Start.

Section Two.
Context (dev dev0 : bool) (last : fs) (p : project) (HK : kept dev0 last p) (Hnames : forall f, in_src f = true -> p_fs p f <> None -> source_name f).
Context (w : run) (p1 : project) (HB : builds dev p (Some w) p1).
Section Runs.
Context (HF : foreseen (p_D p) (run_scans w) (run_log w) (p_D p1)).
Context (files2 order : list str) (e : env) (s : sched) (HW : building (build dev) scan stat (c_relpath c) dev p files2 order e s).
Theorem same_everywhere : (forall x s', ~ step (build dev) e s (Stopped x s')) /\ (forall f d r o, In (f, d, r) (log s) -> In o (b_outputs r) -> disk s o = p_fs p1 o) /\
  exists s', steps (build dev) e s s' /\ finished s' /\ forall q, disk s' q = p_fs p1 q.
Proof.
  inversion HB as [|files changed added deleted changed1 mode1 fl t full e1 l fs1 D1 O1 P1 Hn Hl Hc Hm Hne Hs Hr]; subst w p1.
  destruct HW as [changed2 added2 deleted2 changed12 mode2 fl2 t2 full2 e m s Hn2 Hl2 Hc2 Hm2 Hne2 Hs2 Hp2 Ho1 Ho2 Hst]. cbn [p_fs p_D run_scans run_log] in *.
  destruct (started dev dev0 last p HK Hnames files changed added changed1 deleted mode1 fl t full Hn Hl Hc Hm Hs) as (A1 & A2 & A3 & A4 & A5 & A6 & A7 & A8).
  destruct (started dev dev0 last p HK Hnames files2 changed2 added2 changed12 deleted2 mode2 fl2 t2 full2 Hn2 Hl2 Hc2 Hm2 Hs2) as (B1 & B2 & B3 & B4 & B5 & B6 & _ & _).
  rewrite A1, A2, A3 in Hr. rewrite B1 in Hst. rewrite B2 in Hp2. destruct HK as ((HG & _ & Hcor & Hall & _) & _).
  assert (E1 : forall x, In x (scans_of full2) <-> In x (scans_of full)) by (intros [f sc]; rewrite A6, B6; reflexivity).
  assert (E2 : forall x, In x deleted2 <-> In x deleted) by (intros f; rewrite A5, B5; reflexivity).
  pose proof (fun s (H : steps (build dev) e (init_sched e order m (p_fs p)) s) => order_irrelevant sha c dev dev0 K Hcwd Hcss stat _ _ _ _ _ _ _ _ _ e1 l fs1 D1 O1 P1 HG Hr last Hcor Hall A7 A8 HF _ _ _ E1 E2 (fun x => eq_refl) e m order Hp2 Ho1 Ho2 s) as X.
  split; [intros x s' Hx; eapply X; eassumption|].
  split; [intros f d r o; exact (same_writes sha c dev dev0 K Hcwd Hcss stat _ _ _ _ _ _ _ _ _ e1 l fs1 D1 O1 P1 HG Hr last Hcor Hall A7 A8 HF _ _ _ E1 E2 e m order Hp2 Ho1 Ho2 s f d r o Hst)|].
  destruct (completes sha c dev dev0 K Hcwd Hcss stat _ _ _ _ _ _ _ _ _ e1 l fs1 D1 O1 P1 HG Hr last Hcor Hall A7 A8 HF _ _ _ E1 E2 (fun x => eq_refl) e m order Hp2 Ho1 Ho2 s Hst) as (s3 & Y1 & Y2).
  exists s3. split; [exact Y1|]. split; [exact Y2|]. intros q. 
  refine (end_same sha c dev dev0 K Hcwd Hcss stat _ _ _ _ _ _ _ _ _ e1 l fs1 D1 O1 P1 HG Hr last Hcor Hall A7 A8 HF _ _ _ E1 E2 e m order Hp2 Ho1 Ho2 s3 q _ Y2). eapply steps_trans; eassumption.
Qed.
End Runs.
(** the scans of simple files find everything *)
Theorem scanned_foreseen : (forall f, affected (p_D p) (p_P p) (dkeys (run_scans w)) (run_deleted w) f -> ~ In f (run_deleted w) -> In f (dkeys (run_scans w))) -> (forall f, In f (dkeys (run_scans w)) -> simple c K (p_fs p) f) ->
  foreseen (p_D p) (run_scans w) (run_log w) (p_D p1).
Proof.
  inversion HB as [|files changed added deleted changed1 mode1 fl t full e1 l fs1 D1 O1 P1 Hn Hl Hc Hm Hne Hs Hr]; subst w p1. cbn [p_fs p_D run_scans run_log run_deleted] in *.
  destruct (started dev dev0 last p HK Hnames files changed added changed1 deleted mode1 fl t full Hn Hl Hc Hm Hs) as (A1 & A2 & A3 & A4 & A5 & A6 & A7 & A8).
  rewrite A1, A2, A3 in Hr. destruct HK as ((HG & _ & Hcor & Hall & _) & _).
  intros HS HI f d r Hi. destruct (entry sha c dev K stat _ _ _ _ _ _ _ _ _ _ _ _ _ _ _ HG Hr f d r Hi) as (Hh & Hd & Hb). split; [|intros N; destruct (N (HS f Hh Hd))].
  intros sc Hsc. rewrite (build_kids sha c dev K f d r Hb). refine (scan_covers c K f (p_fs p) d sc _ _ (HI f (HS f Hh Hd)) (proj2 (proj1 (A6 f sc) Hsc))).
  - apply source_not_out. apply (ed_names _ _ _ _ _ _ _ _ _ A7). right. left. apply HS; assumption.
  - intros x Hx. eapply (source_at sha c dev dev0 K stat); eassumption.
Qed.
(** nothing was built before *)
Theorem first_foreseen : dkeys (p_D p) = [] -> (forall f, in_src f = true -> p_fs p f <> None -> simple c K (p_fs p) f) -> foreseen (p_D p) (run_scans w) (run_log w) (p_D p1).
Proof.
  intros HD0 HI. apply scanned_foreseen.
  - intros f (x & Hx & Hr) Hnd. apply clos_rt_rtn1 in Hr. destruct Hr as [|y z Hyz _]; [tauto|]. exfalso. destruct HK as ((HG & _) & _). destruct HG as (W1 & _ & W3 & _ & W5).
    assert (N : forall a b, ~ depends (p_D p) a b). { intros a b H. apply depends_ch in H. assert (X : In b (dkeys (p_D p))) by (eapply Inv_ch_closed; [apply Inv_well_formed; exact W1|exact H]). rewrite HD0 in X. destruct X. }
    assert (N2 : forall a b, ~ depends (p_P p) a b). { intros a b H. apply depends_ch in H. assert (X : In b (dkeys (p_P p))) by (eapply Inv_ch_closed; [apply Inv_well_formed; exact W3|exact H]). apply W5 in X. rewrite HD0 in X. destruct X. }
    destruct Hyz as [H|H]; [eapply N; exact H|eapply N2; exact H].
  - intros f Hf. inversion HB as [|files changed added deleted changed1 mode1 fl t full e1 l fs1 D1 O1 P1 Hn Hl Hc Hm Hne Hs Hr]; subst w p1. cbn [run_scans] in Hf.
    destruct (started dev dev0 last p HK Hnames files changed added changed1 deleted mode1 fl t full Hn Hl Hc Hm Hs) as (_ & _ & _ & A4 & _). apply A4 in Hf. destruct Hf as (X1 & X2 & _). auto.
Qed.
End Two.
End Site.
