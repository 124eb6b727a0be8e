(** A rebuild for a batch of changed files keeps out/www correct, like one of the build command (ProjectSiteProofs.v). *)
From Verif Require Import Base Graph GraphSpec GraphProofs PyStr PyPath PyNorm PyNormProofs PathSpec Js Builder JsYield JsManip Handlers Hot HotSpec HotSchedProofs HotGraphs HotGraphsProofs HotResultSpec HotResultProofs HotWantSpec HotWantProofs Cold ColdSpec ColdProofs ColdMain ColdHistory
  Project ProjectSpec ProjectPaths ProjectFiles ProjectMain ProjectHistory ProjectSite ProjectSiteProofs.
From Coq Require Import String ZArith NArith Bool List Relations Lia.
Import ListNotations.
Open Scope list_scope.

Lemma dict_In {V} (d : @dict V) f x : NoDup (dkeys d) -> In (f, x) d -> dget f d = Some x.
Proof.
  induction d as [|[k v] r IH]; intros W Hi; [destruct Hi|]. simpl in W. inversion W as [|? ? Hx Hr]; subst. cbn [dget].
  destruct Hi as [[= -> ->]|Hi]; [rewrite str_eqb_refl; reflexivity|]. destruct (str_eqb f k) eqn:E; [|auto]. apply str_eqb_eq in E. subst k. exfalso. apply Hx. apply (in_map fst) in Hi. assumption.
Qed.

Section Watch.
Context (sha : str -> str) (c : constants) (K : setting) (stat : fs -> str -> option fsig).
Context (Hstat : stat_ok stat) (Hdet : stat_detects stat) (Hconst : in_src (c_relpath c) = true) (Hcwd : starts_with (lit "/") (k_cwd K) = true) (Hcss : exists r, k_css K = lit "src/public/" ++ r /\ starts_with (lit "/") r = false).
Notation build := (fun dev => file_build sha c dev K).
Notation scan := (scan_no_placeholders c K).
Notation good := (fun dev => good sha c dev K).
Notation builds := (builds sha c K stat).

(** like [kept], but the mode file may be missing, and outputs may be [spoilt] *)
Definition watched (spoilt : str -> Prop) (dev : bool) (last : fs) (p : project) : Prop :=
  good dev (p_D p) (p_O p) (p_P p) last /\ (forall f, In f (dkeys (p_D p)) -> in_src f = true) /\ (forall f, In f (dkeys (p_D p)) -> api_meta (p_D p) f = stat last f) /\
  (forall r, p_fs p (www r) = last (www r) \/ spoilt (www r)) /\ p_mode p <> Some (mode_name (negb dev)).
Definition batched (p : project) (changed added : dict fsig) (deleted : list str) : Prop :=
  (forall f s, dget f changed = Some s -> stat (p_fs p) f = Some s /\ In f (dkeys (p_D p))) /\
  (forall f, In f (dkeys (p_D p)) -> p_fs p f <> None -> dget f changed = None -> api_meta (p_D p) f = stat (p_fs p) f) /\
  (forall f s, dget f added = Some s <-> in_src f = true /\ stat (p_fs p) f = Some s /\ ~ In f (dkeys (p_D p))) /\
  (forall f, In f deleted <-> In f (dkeys (p_D p)) /\ p_fs p f = None) /\ NoDup (dkeys changed) /\ NoDup (dkeys added).

Section Step.
Context (spoilt : str -> Prop) (dev dev' : bool) (last : fs) (p : project) (HW : watched spoilt dev last p) (Hnames : forall f, in_src f = true -> p_fs p f <> None -> source_name f).
Context (changed added : dict fsig) (deleted : list str) (HC : batched p changed added deleted) (Hsp : forall o, spoilt o -> dirtied_output (p_D p) (p_O p) (p_P p) (dkeys changed) deleted o).
Context (changed1 : dict fsig) (mode1 : option str) (fuel : nat) (t : scanning) (full : dict scan_full) (e : env) (l : list (str * fs * build_result)) (fs1 : fs) (D1 O1 P1 : graph).
Context (Hm : mode_step (c_relpath c) dev' (stat (p_fs p)) (p_fs p) (p_mode p) changed added = Ret (changed1, mode1))
  (Hs : scan_loop scan stat fuel (mkScanning (p_fs p) (dkeys changed1 ++ dkeys added) [] added) [] = Ret (t, full))
  (Hr : hot_rebuild (build dev') stat (p_D p) (p_O p) (p_P p) (scans_of full) (sc_new t) changed1 (sc_added t) deleted (sc_fs t) e l fs1 D1 O1 P1).

Lemma w_graphs : project_graphs (p_D p) (p_O p) (p_P p).
Proof. destruct HW as ((G & _) & _). exact G. Qed.
Lemma w_changed f s : dget f changed1 = Some s -> stat (p_fs p) f = Some s /\ in_src f = true.
Proof.
  clear Hr Hs. destruct HC as (C1 & _). destruct HW as (_ & S & _). intros Hf. destruct (mode_step_cases _ _ _ _ _ _ _ _ _ Hm) as (_ & [(-> & _)|(g & d & M1 & M2 & _ & -> & _)]).
  - apply C1 in Hf. split; [tauto|]. apply S. tauto.
  - rewrite dget_dset in Hf. destruct (str_eqb f (c_relpath c)) eqn:E; [|apply C1 in Hf; split; [tauto|apply S; tauto]]. apply str_eqb_eq in E. subst f. injection Hf as <-. auto.
Qed.
Lemma w_unchanged f : dget f changed1 = None -> dget f changed = None.
Proof.
  clear Hr Hs. destruct (mode_step_cases _ _ _ _ _ _ _ _ _ Hm) as (_ & [(-> & _)|(g & d & _ & _ & _ & -> & _)]); [auto|]. rewrite dget_dset. destruct (str_eqb f (c_relpath c)); [discriminate|auto].
Qed.
Lemma w_start : NoDup (dkeys changed1 ++ dkeys added) /\ forall f, In f (dkeys changed1 ++ dkeys added) -> p_fs p f <> None /\ in_src f = true.
Proof.
  clear Hr Hs. destruct HC as (C1 & _ & C2 & _ & N1 & N2). split.
  - apply NoDup_app_iff. split; [|split; [assumption|]].
    + destruct (mode_step_cases _ _ _ _ _ _ _ _ _ Hm) as (_ & [(-> & _)|(g & d & _ & _ & _ & -> & _)]); [assumption|apply NoDup_dset; assumption].
    + intros f Hf Ha. apply In_dkeys_dget in Ha. destruct Ha as (s & Ha). pose proof (dget_Some_key _ _ _ Ha) as Ha'. apply C2 in Ha. destruct Ha as (_ & _ & Ha).
      destruct (mode_step_cases _ _ _ _ _ _ _ _ _ Hm) as (_ & [(E & _)|(g & d & M1 & M2 & M3 & E & M5 & M6)]); rewrite E in Hf.
      * apply In_dkeys_dget in Hf. destruct Hf as (s' & Hf). apply C1 in Hf. tauto.
      * apply In_dkeys_dset in Hf. destruct Hf as [->|Hf]; [contradiction|]. apply In_dkeys_dget in Hf. destruct Hf as (s' & Hf). apply C1 in Hf. tauto.
  - intros f Hf. apply in_app_or in Hf. assert (X : exists s, stat (p_fs p) f = Some s /\ in_src f = true).
    { destruct Hf as [Hf|Hf]; apply In_dkeys_dget in Hf; destruct Hf as (s & Hf); [exists s; apply w_changed; exact Hf|apply C2 in Hf; exists s; tauto]. }
    destruct X as (s & X & Y). split; [|exact Y]. intros Z. apply Hstat in Z. congruence.
Qed.
Lemma w_scanned : sc_fs t = p_fs p /\ sc_new t = [] /\ sc_added t = added /\ NoDup (dkeys full) /\ (forall f, In f (dkeys full) <-> In f (dkeys changed1) \/ In f (dkeys added)) /\ forall f x, dget f full = Some x -> scan f (p_fs p) = Some x.
Proof.
  clear Hr. destruct (scan_rounds scan stat fuel (no_placeholders c K) _ _ _ _ Hs) as (F1 & F2 & F3 & F4); [intros f x []|]. cbn [sc_fs sc_new sc_added] in F1, F2, F3, F4.
  destruct w_start as (A & B). destruct (scan_phase scan stat _ _ _ _ _ _ A (fun f Hf => proj1 (B f Hf)) Hs) as ([Pl Kk Dj Nx W Ex Sc Dn] & En).
  split; [exact F1|]. split; [exact F2|]. split; [exact F3|]. split; [exact W|]. split.
  - intros f. rewrite <- in_app_iff. specialize (Kk f). rewrite F2, En in Kk. simpl in Kk. tauto.
  - intros f x Hf. destruct (F4 f x Hf) as [X|X]; [discriminate|exact X].
Qed.
Lemma w_hot : hot_rebuild (build dev') stat (p_D p) (p_O p) (p_P p) (scans_of full) [] changed1 added deleted (p_fs p) e l fs1 D1 O1 P1.
Proof. destruct w_scanned as (F1 & F2 & F3 & _). rewrite <- F1, <- F2. rewrite F3 in Hr. exact Hr. Qed.
Lemma w_edits : edits c K (p_D p) (p_O p) (p_P p) (scans_of full) deleted last (p_fs p).
Proof.
  destruct HC as (C1 & C4 & C2 & C3 & _). destruct HW as (G & Hsrc & M & Q & C). destruct w_scanned as (F1 & F2 & F3 & F4 & F5 & F6). destruct w_start as (_ & B). pose proof G as (_ & _ & _ & _ & Hsn).
  assert (Hin : forall f, In f (dkeys (scans_of full)) -> p_fs p f <> None /\ in_src f = true) by (intros f Hf; rewrite scans_of_keys in Hf; apply F5 in Hf; apply B, in_app_iff, Hf).
  split.
  - intros f [Hf|[Hf|Hf]]; [apply Hsn; exact Hf|apply Hnames; apply Hin; exact Hf|apply C3 in Hf; apply Hsn; tauto].
  - intros f [Hf|Hf] Hnd; [|apply Hin; exact Hf]. intros X. apply Hnd, C3. auto.
  - intros f Hf Hns Hnd. apply Hdet. rewrite <- (M f Hf). symmetry. apply C4; [exact Hf|intros X; apply Hnd, C3; auto|]. apply w_unchanged.
    destruct (dget f changed1) as [z|] eqn:Ez; [|reflexivity]. exfalso. apply Hns. rewrite scans_of_keys. apply F5. left. eapply dget_Some_key; exact Ez.
  - intros f sc Hi. unfold scans_of in Hi. apply in_map_iff in Hi. destruct Hi as ((g & x) & E & Hi). cbn [fst snd] in E. injection E as -> <-.
    apply dict_In in Hi; [|exact F4]. apply F6 in Hi. unfold scan_no_placeholders in Hi. destruct (file_scan c K f (p_fs p)) as [sc|]; [|discriminate]. injection Hi as <-. reflexivity.
  - intros y. destruct (Q y) as [X|X]; [auto|right]. destruct (Hsp _ X) as (f & (x & Hx & Hrt) & Hd). exists f. split; [|exact Hd]. exists x. split; [|exact Hrt]. destruct Hx as [Hx|Hx]; [left|auto].
    rewrite scans_of_keys. apply F5. left. apply In_dkeys_dget in Hx. destruct Hx as (z & Hx). destruct (dget x changed1) as [z1|] eqn:Ez; [eapply dget_Some_key; exact Ez|]. apply w_unchanged in Ez. congruence.
Qed.
Lemma w_mode : dev' = dev \/ (In (c_relpath c) (dkeys (p_D p)) -> In (c_relpath c) (dkeys (scans_of full)) \/ In (c_relpath c) deleted).
Proof.
  destruct HC as (C1 & _ & C2 & C3 & _). destruct HW as (_ & _ & _ & _ & C). destruct w_scanned as (_ & _ & _ & _ & F5 & _). rewrite scans_of_keys.
  destruct (mode_step_cases _ _ _ _ _ _ _ _ _ Hm) as (_ & [(E & [X|[X|[X|X]]])|(g & d & _ & _ & _ & E & _)]).
  - right. intros Hf. right. apply C3. auto.
  - left. rewrite X in C. destruct dev, dev'; try reflexivity; exfalso; apply C; reflexivity.
  - right. intros _. left. apply F5. rewrite E. auto.
  - right. intros _. left. apply F5. auto.
  - right. intros _. left. apply F5. left. rewrite E. apply In_dkeys_dset. auto.
Qed.
Lemma w_good : good dev' D1 O1 P1 fs1.
Proof.
  destruct HW as (G & _). pose proof G as (HG & _ & Hcor & Hall & _). pose proof w_hot as Hh. pose proof w_edits as Hed.
  destruct (graphs_after _ _ _ _ _ _ _ _ _ _ _ _ _ _ _ _ _ HG Hh) as (A & B & _). split; [exact A|]. split; [exact B|].
  split; [exact (project_correct sha c dev' dev K Hcwd Hcss stat _ _ _ _ _ _ _ _ _ e l fs1 D1 O1 P1 HG Hh last Hcor Hall Hed w_mode)|].
  split; [exact (project_all sha c dev' dev K stat _ _ _ _ _ _ _ _ _ e l fs1 D1 O1 P1 HG Hh last Hcor Hall Hed)|].
  intros f Hf. exact (proj1 (known_after sha c dev' K stat _ _ _ _ _ _ _ _ _ e l fs1 D1 O1 P1 HG Hh last Hed f Hf)).
Qed.
Lemma w_kept q : is_out q = false -> fs1 q = p_fs p q.
Proof.
  intros Hq. destruct HW as (G & _). apply (untouched (build dev') stat _ _ _ _ _ _ _ _ _ _ _ _ _ _ _ w_graphs w_hot).
  - intros (f & _ & Hd). destruct (good_output sha c K _ _ _ _ _ f q G Hd) as (r & ->). discriminate.
  - intros X. apply (written_out (build dev') stat _ _ _ _ _ _ _ _ _ _ _ _ _ _ _ w_graphs w_hot (file_writes_out sha c dev' K)) in X. congruence.
Qed.
Lemma w_inputs f : In f (dkeys D1) <-> in_src f = true /\ fs1 f <> None.
Proof.
  destruct (stored_inputs _ _ _ _ _ _ _ _ _ _ _ _ _ _ _ _ _ w_graphs w_hot) as (Kk & _). rewrite Kk, scans_of_keys. destruct HC as (C1 & C4 & C2 & C3 & _). destruct HW as (_ & Hsrc & _). destruct w_scanned as (_ & _ & _ & _ & F5 & _). destruct w_start as (_ & B).
  split.
  - intros (Hf & Hnd). cut (in_src f = true /\ p_fs p f <> None); [intros (X & Y); split; [exact X|]; rewrite w_kept by (apply in_src_not_out; exact X); exact Y|].
    assert (Hor : In f (dkeys full) \/ In f (dkeys (p_D p))). { destruct Hf as [Hf|Hf]; [|auto]. destruct (affected_known _ _ _ _ _ _ w_graphs Hf) as [X|[X|X]]; [auto|contradiction|auto]. }
    destruct Hor as [X|X]; [apply F5 in X; apply in_app_iff, B in X; tauto|]. split; [apply Hsrc; exact X|]. intros Z. apply Hnd, C3. auto.
  - intros (Hf & He). rewrite w_kept in He by (apply in_src_not_out; exact Hf). split; [|intros X; apply C3 in X; tauto].
    destruct (in_dec str_eq_dec f (dkeys (p_D p))) as [X|X]; [auto|]. left. exists f. split; [|apply rt_refl]. left. apply F5. right. destruct (stat (p_fs p) f) as [s|] eqn:Es; [|apply Hstat in Es; contradiction]. eapply dget_Some_key. apply C2. eauto.
Qed.
Lemma w_sigs f : In f (dkeys D1) -> api_meta D1 f = stat fs1 f.
Proof.
  intros Hf. pose proof Hf as Hf'. apply w_inputs in Hf'. destruct Hf' as (Hsrc & Hex). destruct (stored_inputs _ _ _ _ _ _ _ _ _ _ _ _ _ _ _ _ _ w_graphs w_hot) as (Kk & M).
  destruct HC as (C1 & C4 & C2 & C3 & _). pose proof (w_kept f (in_src_not_out f Hsrc)) as Ek.
  destruct (M f Hf) as (sig & Hd & _ & Hsig). rewrite Hd. symmetry. rewrite (proj1 Hstat fs1 (p_fs p) f Ek).
  destruct Hsig as [X|[(X1 & X)|(X1 & X2 & X)]].
  - apply w_changed in X. tauto.
  - apply C2 in X. tauto.
  - rewrite <- X. symmetry. apply C4; [apply contains_key, contains_meta; congruence|rewrite <- Ek; exact Hex|apply w_unchanged; exact X1].
Qed.
Lemma w_settled : sound_project (mkProject fs1 mode1 D1 O1 P1) /\ settled stat (c_relpath c) dev' (mkProject fs1 mode1 D1 O1 P1).
Proof.
  pose proof w_good as G. split.
  - split; [exact (proj1 G)|]. cbn [p_D p_O]. split; [intros f Hf; apply w_inputs in Hf; tauto|]. intros f o Ho. destruct (good_output sha c K _ _ _ _ _ f o G Ho) as (r & ->). reflexivity.
  - split; [exact w_inputs|]. split; [exact w_sigs|]. cbn [p_mode p_fs]. rewrite (w_kept _ (in_src_not_out _ Hconst)). destruct (mode_step_cases _ _ _ _ _ _ _ _ _ Hm) as (-> & _). reflexivity.
Qed.
Lemma w_watched : watched (fun _ => False) dev' fs1 (mkProject fs1 mode1 D1 O1 P1).
Proof.
  split; [exact w_good|]. split; [intros f Hf; apply w_inputs in Hf; tauto|]. split; [exact w_sigs|]. split; [auto|]. cbn [p_mode].
  destruct (mode_step_cases _ _ _ _ _ _ _ _ _ Hm) as (-> & _). destruct (p_fs p (c_relpath c)); [|discriminate]. destruct dev'; discriminate.
Qed.
End Step.

(** what a cold build finds is such a batch *)
Lemma cold_batched p files changed added deleted : sound_project p -> lists (p_fs p) files -> classify (p_D p) (stat (p_fs p)) files (dkeys (p_D p)) [] [] = Ret (changed, added, deleted) -> batched p changed added deleted.
Proof.
  intros S HL Hc. pose proof (classified_files stat p S files changed added deleted HL Hc) as (C1 & C2 & C3 & N1 & N2 & _). destruct HL as (_ & Hl). destruct S as (_ & Hsrc & _).
  assert (Km : forall f, In f (dkeys (p_D p)) <-> api_meta (p_D p) f <> None) by (intros f; rewrite <- contains_meta, contains_key; reflexivity).
  split; [|split; [|split; [|split; [|split; assumption]]]].
  - intros f s Hf. apply C1 in Hf. destruct Hf as (A & B & old & C & _). split; [exact B|]. apply Km. congruence.
  - intros f Hf Hp Hn. destruct (stat (p_fs p) f) as [s|] eqn:Es; [|apply Hstat in Es; contradiction]. destruct (api_meta (p_D p) f) as [old|] eqn:Em; [|apply Km in Hf; contradiction]. destruct (sig_dec old s) as [->|Hne]; [reflexivity|]. exfalso.
    assert (X : dget f changed = Some s); [|congruence]. apply C1. split; [apply Hl; auto|]. eauto.
  - intros f s. rewrite C2, Hl, Km. split; [intros ((A & B) & C & D); split; [exact A|]; split; [exact C|]; intros X; contradiction|]. intros (A & B & C). split; [split; [exact A|]|split; [exact B|]].
    + intros X. apply Hstat in X. congruence.
    + destruct (api_meta (p_D p) f); [exfalso; apply C; discriminate|reflexivity].
  - intros f. rewrite C3, <- Km, Hl. split; [intros (A & B); split; [exact A|]; destruct (p_fs p f) eqn:E; [exfalso; apply B; split; [apply Hsrc; exact A|congruence]|reflexivity]|intros (A & B); split; [exact A|]; tauto].
Qed.
Lemma watched_sound spoilt dev last p : watched spoilt dev last p -> sound_project p.
Proof. intros (G & Hs & _). split; [exact (proj1 G)|]. split; [exact Hs|]. intros f o H. destruct (good_output sha c K _ _ _ _ _ f o G H) as (r & ->). reflexivity. Qed.
Lemma kept_watched spoilt dev last p : kept sha c K stat dev last p -> settled stat (c_relpath c) dev p -> watched spoilt dev last p.
Proof.
  intros (G & S & M & Q & _) (_ & _ & T). split; [exact G|]. split; [exact S|]. split; [exact M|]. split; [intros r; left; apply Q|]. rewrite T. destruct (p_fs p (c_relpath c)); [|discriminate]. destruct dev; discriminate.
Qed.
(** a build of the command, after a watched rebuild *)
Lemma watched_cold spoilt dev last p dev' r p1 : watched spoilt dev last p -> (forall o, spoilt o -> exists x f, In x (dkeys (p_D p)) /\ p_fs p x <> last x /\ clos_refl_trans str (used_by (p_D p) (p_P p)) x f /\ depends (p_O p) f o) ->
  (forall f, in_src f = true -> p_fs p f <> None -> source_name f) -> builds dev' p r p1 ->
  good dev' (p_D p1) (p_O p1) (p_P p1) (p_fs p1) /\ settled stat (c_relpath c) dev' p1 /\ (forall q, is_out q = false -> p_fs p1 q = p_fs p q).
Proof.
  intros HW Hsp Hn HB. pose proof (watched_sound _ _ _ _ HW) as S.
  destruct (cold_settles (build dev') scan stat (c_relpath c) dev' p Hstat (placeholders_fine c K) Hconst (file_writes_out sha c dev' K) S r p1 HB) as (S1 & T). destruct HB as [files mode1 Hnd Hl Hc Hm|files changed added deleted changed1 mode1 fl t full e l fs1 D1 O1 P1 Hnd Hl Hc Hm _ Hs Hr].
  - split; [|split; [exact T|reflexivity]]. destruct HW as (G & Hsrc & M & Q & C). destruct T as (T1 & T2 & T3). cbn [p_D p_O p_P p_fs] in *. assert (Hsame : forall f, In f (dkeys (p_D p)) -> p_fs p f = last f) by (intros f Hf; apply Hdet; rewrite <- (M f Hf), <- (T2 f Hf); reflexivity).
    apply (good_transfer sha c K dev dev' _ _ _ last); [exact G|exact Hsame|intros y; destruct (Q y) as [X|X]; [exact X|]; destruct (Hsp _ X) as (x & f & Hx & Hd & _); destruct (Hd (Hsame x Hx))|].
    intros Hf. destruct (mode_step_cases _ _ _ _ _ _ _ _ _ Hm) as (_ & [(_ & [X|[X|[X|X]]])|(g & d & _ & _ & _ & X & _)]).
    + exfalso. apply T1 in Hf. tauto.
    + rewrite X in C. destruct dev, dev'; try reflexivity; exfalso; apply C; reflexivity.
    + destruct X.
    + destruct X.
    + discriminate X.
  - pose proof (cold_batched p files changed added deleted S (conj Hnd Hl) Hc) as HC. split; [|split; [exact T|]].
    + assert (Hsp' : forall o, spoilt o -> dirtied_output (p_D p) (p_O p) (p_P p) (dkeys changed) deleted o).
      { intros o Ho. destruct (Hsp o Ho) as (x & f & Hx & Hd & Hrt & Hf). exists f. split; [|exact Hf]. exists x. split; [|exact Hrt]. destruct HC as (_ & C4 & _ & C3 & _). destruct HW as (_ & _ & M & _).
        destruct (dget x changed) as [z|] eqn:Ez; [left; eapply dget_Some_key; exact Ez|right; apply C3; split; [exact Hx|]]. destruct (p_fs p x) as [z|] eqn:Ex; [exfalso|reflexivity]. apply Hd. rewrite <- Ex. apply Hdet. rewrite <- (M x Hx). symmetry. apply C4; [exact Hx|congruence|exact Ez]. }
      exact (w_good _ dev dev' last p HW Hn changed added deleted HC Hsp' changed1 mode1 fl t full e l fs1 D1 O1 P1 Hm Hs Hr).
    + exact (w_kept _ dev dev' last p HW changed added deleted HC changed1 mode1 fl t full e l fs1 D1 O1 P1 Hm Hs Hr).
Qed.
End Watch.
