(** The development server keeps the site that it serves up to date. *)
From Verif Require Import Base Graph GraphSpec GraphProofs GraphMain PyStr PyPath PyNorm PathSpec Json JsonProofs GraphJson GraphJsonProofs Js Builder JsYield JsManip Handlers Hot HotSpec HotSchedProofs HotGraphs HotGraphsProofs HotResultSpec HotResultProofs HotWantSpec HotWantProofs
  Cold ColdSpec ColdProofs ColdMain ColdHistory Project ProjectSpec ProjectPaths ProjectFiles ProjectMain ProjectHistory ProjectSite ProjectSiteProofs DevStart DevStartSpec DevStartProofs DevStartSite FolderSpec FolderProofs Dev DevSpec DevProofs Watch WatchSpec WatchMain.
From Coq Require Import String ZArith NArith Bool List Relations Lia.
Import ListNotations.
Open Scope list_scope.

Lemma signatures_get sig order : forall acc d, signatures sig order acc = Some d -> NoDup (dkeys acc) ->
  NoDup (dkeys d) /\ (forall f, In f order -> sig f <> None) /\ forall f s, dget f d = Some s <-> (In f order /\ sig f = Some s) \/ (~ In f order /\ dget f acc = Some s).
Proof.
  induction order as [|x r IH]; intros acc d H N; cbn [signatures] in H.
  - injection H as <-. split; [exact N|]. split; [intros f []|]. intros f s. simpl. tauto.
  - destruct (sig x) as [g|] eqn:E; [|discriminate]. destruct (IH _ _ H (NoDup_dset _ _ _ N)) as (A & B & C). split; [exact A|]. split; [intros f [<-|Hf]; [congruence|apply B; exact Hf]|].
    intros f s. rewrite C, dget_dset. simpl. destruct (str_eqb f x) eqn:Ef.
    + apply str_eqb_eq in Ef. subst x. destruct (in_dec str_eq_dec f r) as [Hr|Hr]; split; try tauto; intros X.
      * destruct X as [(X & Y)|(X & Y)]; [tauto|]. left. split; [auto|]. rewrite E. exact Y.
      * destruct X as [(X & Y)|(X & Y)]; [|exfalso; apply X; auto]. right. split; [exact Hr|]. rewrite <- E. exact Y.
    + apply str_eqb_neq in Ef. assert (Hne : x <> f) by congruence. tauto.
Qed.
Lemma signatures_some sig order : (forall f, In f order -> sig f <> None) -> forall acc, signatures sig order acc <> None.
Proof.
  induction order as [|x r IH]; intros H acc; cbn [signatures]; [discriminate|]. destruct (sig x) as [g|] eqn:E; [|exfalso; apply (H x); [left; reflexivity|exact E]]. apply IH. intros f Hf. apply H. right. exact Hf.
Qed.
Lemma there_true s f : there s f = true <-> in_src f = true /\ s f <> None.
Proof. unfold there. rewrite andb_true_iff. destruct (s f); intuition congruence. Qed.
Lemma there_ext e (a b : str -> bool) f : (forall x, a x = b x) -> there_after e a f = there_after e b f.
Proof. intros H. destruct e; cbn [there_after]; rewrite ?H; reflexivity. Qed.

Lemma there_about e (a : str -> bool) f : a f = false -> there_after e a f = true -> about e f.
Proof.
  intros H H1. destruct e as [x|x|x|x y]; cbn [there_after about] in *; rewrite H in H1; cbn [andb orb] in H1; try discriminate H1; apply str_eqb_eq in H1; auto.
Qed.

Section Watch.
Context (float_parse : str -> option Z) (float_repr : Z -> str).
Context (Hnum : forall x, is_num (float_repr x)) (Hinv : forall x, float_parse (float_repr x) = Some x).
Context (sha : str -> str) (c : constants) (K : setting) (stat : fs -> str -> option fsig) (debounce : Z).
Context (Hstat : stat_ok stat) (Hdet : stat_detects stat) (Hconst : in_src (c_relpath c) = true) (Hcwd : starts_with (lit "/") (k_cwd K) = true) (Hcss : exists r, k_css K = lit "src/public/" ++ r /\ starts_with (lit "/") r = false).
Notation build := (fun dev => file_build sha c dev K).
Notation scan := (scan_no_placeholders c K).
Notation builds := (builds sha c K stat).
Notation completes := (completes float_parse float_repr build scan stat (c_relpath c)).
Notation raises := (raises float_parse build scan stat (c_relpath c)).
Notation folder := (folder float_parse float_repr sha c K stat).
Notation dev_start := (dev_start float_parse float_repr build scan stat (c_relpath c)).
Notation rebuilds := (rebuilds float_parse float_repr build scan stat (c_relpath c)).
Notation fails_early := (fails_early float_parse scan stat (c_relpath c)).
Notation fails_building := (fails_building float_parse build scan stat (c_relpath c)).
Notation crashes := (crashes float_parse stat).
Notation handed_over := (handed_over float_parse stat).
Notation read_project := (read_project float_parse).
Notation watching := (watching float_parse float_repr sha c K stat debounce).
Notation just_completed := (just_completed float_parse float_repr sha c K stat).
Notation watched := (watched sha c K stat).
Notation batched := (batched stat).
Notation good := (fun dev => ProjectHistory.good sha c dev K).
Notation settled := (settled stat (c_relpath c)).

(** the folder after a completed rebuild *)
Definition complete (d : stored) : Prop := exists p, read_project d = Some p /\ kept sha c K stat true (d_fs d) p /\ spelt p /\ settled true p.
(** outputs that a failed rebuild may have changed: they are made from sources that were touched or deleted *)
Definition spoilt (broken : Prop) (w : world) (p : project) (o : str) : Prop := broken /\ exists x f, at_build w x = true /\ (now_there w x = false \/ touched w x) /\ clos_refl_trans str (used_by (p_D p) (p_P p)) x f /\ depends (p_O p) f o.
(** [broken]: rebuilds may have failed while they built files *)
Definition inv (broken : Prop) (last : fs) (w : world) (h : watcher) (d : stored) : Prop := exists p, read_project d = Some p /\ watched (spoilt broken w p) true last p /\ spelt p /\
  (forall f, In f (dkeys (p_D p)) <-> in_src f = true /\ last f <> None) /\ DevSpec.history debounce w h /\ (forall f, now_there w f = there (d_fs d) f) /\ (forall f, at_build w f = there last f) /\
  (forall f, in_src f = true -> ~ touched w f -> d_fs d f = last f) /\ (~ touched w (c_relpath c) -> p_mode p = if d_fs d (c_relpath c) then Some (mode_name true) else None).

Lemma complete_inv broken d w h : complete d -> DevSpec.history debounce w h -> (forall f, now_there w f = there (d_fs d) f) -> (forall f, at_build w f = there (d_fs d) f) -> inv broken (d_fs d) w h d.
Proof.
  intros (p & R & HK & Hp & T) Hh Hn Ha. destruct (read_fs _ _ _ R) as (Ef & Em). exists p. split; [exact R|]. split; [apply kept_watched; [exact HK|exact T]|]. split; [exact Hp|]. destruct T as (T1 & T2 & T3).
  split; [intros f; rewrite T1, Ef; reflexivity|]. split; [exact Hh|]. split; [exact Hn|]. split; [exact Ha|]. split; [reflexivity|]. intros _. rewrite T3, Ef. reflexivity.
Qed.
(** the graphs are stored *)
Lemma stored_complete p cfg : kept sha c K stat true (p_fs p) p -> spelt p -> settled true p ->
  complete (mkStored cfg (p_fs p) (p_mode p) (Some (store float_repr (p_D p))) (Some (store float_repr (p_O p))) (Some (store float_repr (p_P p)))).
Proof.
  intros HK Hp (T1 & T2 & T3). destruct (proj1 HK) as ((W1 & W2 & W3 & _) & _).
  destruct (stored_same float_parse float_repr Hnum Hinv (p_D p) W1 (fun k X => Hp k (or_introl X))) as (h1 & A1 & A2 & A3). destruct (stored_same float_parse float_repr Hnum Hinv (p_O p) W2 (fun k X => Hp k (or_intror (or_introl X)))) as (h2 & B1 & B2 & B3).
  destruct (stored_same float_parse float_repr Hnum Hinv (p_P p) W3 (fun k X => Hp k (or_intror (or_intror X)))) as (h3 & C1 & C2 & C3).
  exists (mkProject (p_fs p) (p_mode p) h1 h2 h3). split; [unfold DevStart.read_project; cbn [d_D d_O d_P d_fs d_mode]; rewrite A1, B1, C1; reflexivity|]. split; [apply kept_loaded; assumption|].
  split; [intros k; cbn [p_D p_O p_P]; rewrite (same_keys _ _ A3 k), (same_keys _ _ B3 k), (same_keys _ _ C3 k); apply Hp|]. split; [|split]; cbn [p_D p_fs p_mode].
  - intros f. rewrite (same_keys _ _ A3 f). apply T1.
  - intros f. rewrite (same_keys _ _ A3 f), (proj1 (proj2 (A3 f))). apply T2.
  - exact T3.
Qed.
Lemma done_complete d : done float_parse sha c K stat true d -> complete d.
Proof.
  intros HD. destruct (done_settled float_parse sha c K stat Hstat Hdet Hconst Hcwd Hcss true d HD) as (q & R & _ & T). destruct HD as (p1 & q' & _ & _ & R' & S & Hp & _). rewrite R in R'. injection R' as <-.
  exists q. split; [exact R|]. split; [apply (site_kept sha c K stat Hstat Hdet Hconst Hcwd Hcss); exact S|]. split; [exact Hp|exact T].
Qed.
(** what the event handler hands over *)
Lemma inv_batched broken last w h d now b h' p changed added deleted : inv broken last w h d -> take debounce now h = Some (b, h') -> handed_over d b p changed added deleted -> batched p changed added deleted.
Proof.
  intros (p' & R & HW & _ & Hk & Hh & Hn & Ha & Hu & _) Ht (_ & R' & Id & o1 & o2 & I1 & I2 & S1 & S2). rewrite R in R'. injection R' as <-. destruct (read_fs _ _ _ R) as (Ef & _).
  pose proof (batch_right _ _ _ _ _ _ Hh Ht) as HR. destruct (signatures_get _ _ _ _ S1 (NoDup_nil _)) as (N1 & _ & G1). destruct (signatures_get _ _ _ _ S2 (NoDup_nil _)) as (N2 & _ & G2). destruct HW as (G & Hsrc & M & Q & _).
  assert (K1 : forall f, In f (dkeys (p_D p')) <-> at_build w f = true) by (intros f; rewrite Ha, there_true; apply Hk).
  assert (K2 : forall f, in_src f = true /\ p_fs p' f <> None <-> now_there w f = true) by (intros f; rewrite Hn, there_true, Ef; reflexivity).
  split; [|split; [|split; [|split; [|split; assumption]]]].
  - intros f s Hf. apply G1 in Hf. destruct Hf as [(A & B)|(_ & X)]; [|discriminate]. split; [exact B|]. apply K1. apply I1, HR in A. tauto.
  - intros f Hf He Hg. assert (T : ~ touched w f).
    { intros T. assert (X : In f o1) by (apply I1, HR; split; [apply K1; exact Hf|]; split; [apply K2; split; [apply Hsrc; exact Hf|exact He]|exact T]).
      destruct (stat (p_fs p') f) as [s|] eqn:Es; [|apply Hstat in Es; contradiction]. assert (Y : dget f changed = Some s) by (apply G1; auto). congruence. }
    rewrite (M f Hf). apply (proj1 Hstat). symmetry. rewrite Ef. apply Hu; [apply Hsrc; exact Hf|exact T].
  - intros f s. rewrite G2. split.
    + intros [(A & B)|(_ & X)]; [|discriminate]. apply I2, HR in A. destruct A as (A1 & A2). apply K2 in A2. split; [tauto|]. split; [exact B|]. rewrite K1. congruence.
    + intros (A & B & C). left. split; [|exact B]. apply I2, HR. split; [destruct (at_build w f) eqn:E; [apply K1 in E; contradiction|reflexivity]|]. apply K2. split; [exact A|]. intros X. apply Hstat in X. congruence.
  - intros f. rewrite (proj2 Id f). destruct (HR f) as (_ & X & _). rewrite X, <- K1. split.
    + intros (A & B). split; [exact A|]. destruct (p_fs p' f) eqn:E; [|reflexivity]. assert (Y : now_there w f = true) by (apply K2; split; [apply Hsrc; exact A|congruence]). congruence.
    + intros (A & B). split; [exact A|]. destruct (now_there w f) eqn:E; [apply K2 in E; tauto|reflexivity].
Qed.
(** what is spoilt is made again by the next rebuild *)
Lemma inv_spoilt broken last w h d now b h' p changed added deleted : inv broken last w h d -> take debounce now h = Some (b, h') -> handed_over d b p changed added deleted ->
  forall o, spoilt broken w p o -> dirtied_output (p_D p) (p_O p) (p_P p) (dkeys changed) deleted o.
Proof.
  intros (p' & R & _ & _ & _ & Hh & _) Ht (_ & R' & Id & o1 & o2 & I1 & I2 & S1 & S2) o (_ & x & f & X1 & X2 & X3 & X4). exists f. split; [|exact X4]. exists x. split; [|exact X3].
  pose proof (batch_right _ _ _ _ _ _ Hh Ht x) as (_ & HR2 & HR3). destruct (signatures_get _ _ _ _ S1 (NoDup_nil _)) as (_ & Hs & G1). destruct (now_there w x) eqn:E; [left|right; apply Id, HR2; auto].
  assert (Ho : In x o1) by (apply I1, HR3; destruct X2 as [X2|X2]; [congruence|auto]). pose proof (Hs x Ho) as Hx. destruct (stat (p_fs p) x) as [z|] eqn:Ez; [|contradiction]. eapply dget_Some_key. apply G1. left. split; [exact Ho|exact Ez].
Qed.
Lemma nothing_none broken last w h d now : inv broken last w h d -> nothing_since w -> take debounce now h = None.
Proof.
  intros (p & R & HW & _ & Hk & Hh & Hn & Ha & Hu & _) N. destruct (take debounce now h) as [(b & h')|] eqn:Ht; [|reflexivity]. exfalso. pose proof (batch_right _ _ _ _ _ _ Hh Ht) as HR.
  assert (E : forall f, at_build w f = now_there w f).
  { intros f. rewrite Ha, Hn. unfold there. destruct (in_src f) eqn:If; [|reflexivity]. rewrite (Hu f If (N f)). reflexivity. }
  destruct (take_some _ _ _ _ _ Ht) as (-> & _). cbn [b_deleted b_changed b_created] in HR.
  assert (A : deleted h = []) by (destruct (deleted h) as [|f r] eqn:X; [reflexivity|]; destruct (HR f) as (_ & Y & _); destruct (proj1 Y (or_introl eq_refl)) as (Y1 & Y2); rewrite E in Y1; congruence).
  assert (B : changed h = []) by (destruct (changed h) as [|f r] eqn:X; [reflexivity|]; destruct (HR f) as (_ & _ & Y); destruct (proj1 Y (or_introl eq_refl)) as (_ & _ & Y2); destruct (N f Y2)).
  assert (C : created h = []) by (destruct (created h) as [|f r] eqn:X; [reflexivity|]; destruct (HR f) as (Y & _); destruct (proj1 Y (or_introl eq_refl)) as (Y1 & Y2); rewrite E in Y1; congruence).
  unfold take in Ht. rewrite A, B, C in Ht. destruct (unbuildable h); discriminate.
Qed.
(** a completed rebuild *)
Lemma rebuilt_complete broken last w h d now b h' d1 : inv broken last w h d -> named d -> take debounce now h = Some (b, h') -> rebuilds d b d1 -> complete d1 /\ (forall q, is_out q = false -> d_fs d1 q = d_fs d q) /\ d_config d1 = d_config d.
Proof.
  intros HI Hn Ht HR. destruct HR as [p changed added deleted changed1 mode1 fuel t full e l fs1 D1 O1 P1 HH Hm _ Hs Hr]. pose proof (inv_batched _ _ _ _ _ _ _ _ _ _ _ _ HI Ht HH) as HC. pose proof (inv_spoilt _ _ _ _ _ _ _ _ _ _ _ _ HI Ht HH) as Hsp.
  destruct HI as (p' & R & HW & Hp & Hk & _). destruct HH as (_ & R' & _). rewrite R in R'. injection R' as <-. destruct (read_fs _ _ _ R) as (Ef & _).
  assert (Hnames : forall f, in_src f = true -> p_fs p' f <> None -> source_name f) by (rewrite Ef; intros f A B; apply (Hn f A B)).
  pose proof (w_good sha c K stat Hstat Hdet Hconst Hcwd Hcss _ true true last p' HW Hnames changed added deleted HC Hsp changed1 mode1 fuel t full e l fs1 D1 O1 P1 Hm Hs Hr) as G.
  pose proof (w_kept sha c K stat Hstat Hconst _ true true last p' HW changed added deleted HC changed1 mode1 fuel t full e l fs1 D1 O1 P1 Hm Hs Hr) as HF.
  destruct (w_settled sha c K stat Hstat Hdet Hconst Hcwd Hcss _ true true last p' HW Hnames changed added deleted HC Hsp changed1 mode1 fuel t full e l fs1 D1 O1 P1 Hm Hs Hr) as (_ & T).
  pose proof (w_hot sha c K stat Hstat Hconst _ true true last p' HW changed added deleted HC changed1 mode1 fuel t full e l fs1 D1 O1 P1 Hm Hs Hr) as Hh.
  split; [|split; [cbn [d_fs]; rewrite <- Ef; exact HF|reflexivity]].
  apply (stored_complete (mkProject fs1 mode1 D1 O1 P1) (d_config d)); [| |exact T]; destruct T as (T1 & T2 & T3); cbn [p_D p_O p_P p_fs p_mode] in *.
  - split; [exact G|]. split; [intros f Hf; apply T1 in Hf; tauto|]. split; [exact T2|]. split; [reflexivity|]. cbn [p_D p_mode]. intros X. rewrite T3. apply T1 in X. destruct (fs1 (c_relpath c)); [reflexivity|tauto].
  - assert (HD : forall f, In f (dkeys D1) -> os_name f).
    { intros f Hf. apply T1 in Hf. destruct Hf as (A & B). apply (Hn f A). rewrite <- Ef, <- HF; [exact B|]. apply in_src_not_out. exact A. }
    assert (HO : forall f o, depends O1 f o -> os_name o).
    { intros f o Ho. destruct G as (_ & _ & (L1 & L2) & _ & Hsn). pose proof (L1 f o Ho) as Hf. destruct (L2 f Hf) as (rs & ws & W & A & _). apply A in Ho. pose proof (HD f Hf) as X.
      destruct (owned sha c true K f _ rs ws o (Hsn f Hf) W Ho) as (q & _ & _ & E & _ & [->| ->]); rewrite E in X; apply os_app in X; destruct X as (_ & X); rewrite ?os_app; repeat split; try exact X; apply os_ascii; reflexivity. }
    destruct HW as (((W1 & W2 & W3 & _) & _) & _).
    inversion Hh as [? m order s ? inputs ? ? ? Q1 Q2 Q3 Q4 Q5 Q6 Q7 Q8 Q9]; subst. destruct (new_graphs_spec _ _ _ _ _ _ _ _ _ _ _ _ _ (proj2 (Inv_well_formed _) W1) (proj2 (Inv_well_formed _) W2) (proj2 (Inv_well_formed _) W3) Q9) as ((_ & _ & E1 & _) & (_ & _ & E2 & _ & E3) & (_ & _ & E4 & _)).
    intros k [Hx|[Hx|Hx]]; cbn [p_D p_O p_P] in Hx; [apply HD; exact Hx| |apply HD; rewrite E1; apply E4; exact Hx].
    destruct (E3 k Hx) as [X|[X|(f & X & Y)]]; [apply HD; rewrite E1; exact X|apply Hp; auto|]. destruct (E2 f X) as (_ & E & _). rewrite <- E in Y. apply (HO f). apply depends_ch. exact Y.
Qed.
Lemma early_kept d b d1 : fails_early d b d1 -> exists p mode1, read_project d = Some p /\ d1 = mkStored (d_config d) (d_fs d) mode1 (d_D d) (d_O d) (d_P d) /\ mode1 = if d_fs d (c_relpath c) then Some (mode_name true) else None.
Proof.
  intros H. destruct H as [p changed added deleted changed1 mode1 x (_ & R & _) Hm _ _|p changed added deleted changed1 mode1 fuel t full x (_ & R & _) Hm _ Hs _ _]; destruct (read_fs _ _ _ R) as (Ef & _); destruct (mode_step_cases _ _ _ _ _ _ _ _ _ Hm) as (E & _); exists p, mode1; (split; [exact R|]).
  - rewrite <- Ef. auto.
  - destruct (scan_rounds scan stat fuel (no_placeholders c K) _ _ _ _ Hs) as (F1 & _); [intros f y []|]. cbn [sc_fs] in F1. rewrite F1, <- Ef. auto.
Qed.
Lemma read_with d p cfg s mode : read_project d = Some p -> read_project (mkStored cfg s mode (d_D d) (d_O d) (d_P d)) = Some (mkProject s mode (p_D p) (p_O p) (p_P p)).
Proof.
  unfold DevStart.read_project. cbn [d_D d_O d_P d_fs d_mode]. destruct (load_graph _ (d_D d)); [|discriminate]. destruct (load_graph _ (d_O d)); [|discriminate]. destruct (load_graph _ (d_P d)); [|discriminate]. intros R. injection R as <-. reflexivity.
Qed.
(** the ways in which the folder changes *)
Lemma inv_started broken dev0 last0 d0 d now : folder dev0 last0 d0 -> named d0 -> dev_start d0 (Serves d) -> inv broken (d_fs d) (just_built (there (d_fs d))) (new_watcher now) d.
Proof.
  intros HF Hn HS. apply complete_inv; [|apply Start|reflexivity|reflexivity]. apply done_complete. eapply (served_done float_parse float_repr Hnum Hinv sha c K stat Hstat Hdet Hconst Hcwd Hcss); [apply (folder_held float_parse float_repr Hnum Hinv sha c K stat Hstat Hdet Hconst Hcwd Hcss); exact HF|exact Hn|exact HS].
Qed.
Lemma inv_edited broken last w h d e s cfg now : inv broken last w h d -> possible e w -> edited e (d_fs d) s -> inv broken last (after e w) (on_event e now h) (with_files cfg s d).
Proof.
  intros IH Hp He. destruct IH as (p & R & HW & Hs & Hk & Hh & Hn & Ha & Hu & Hm). destruct (read_fs _ _ _ R) as (Ef & Em). exists (mkProject s (p_mode p) (p_D p) (p_O p) (p_P p)). split; [rewrite Em; apply (read_with d p); exact R|].
  destruct HW as (G & S & M & Q & C). split; [split; [exact G|split; [exact S|split; [exact M|split; [|exact C]]]]|].
  { intros r. cbn [p_fs]. replace (s (www r)) with (d_fs d (www r)).
    - destruct (Q r) as [X|(B & x & f & X1 & X2 & X)]; [rewrite <- X, Ef; auto|right]. split; [exact B|]. exists x, f. split; [exact X1|]. split; [|exact X]. cbn [after now_there touched]. destruct (there_after e (now_there w) x) eqn:E; [right|auto]. destruct X2 as [X2|X2]; [right; eapply there_about; eassumption|auto].
    - symmetry. apply (ed_others _ _ _ He); [|right; eexists; reflexivity]. intros X. apply (ed_about _ _ _ He) in X. discriminate. }
  split; [exact Hs|]. split; [exact Hk|]. split; [apply Event; assumption|]. cbn [with_files d_fs after now_there at_build touched]. split; [intros f; rewrite (ed_there _ _ _ He); apply there_ext; exact Hn|]. split; [exact Ha|].
  split; intros; [rewrite (ed_others _ _ _ He); [apply Hu; tauto|tauto|auto]|]. cbn [p_mode]. rewrite (ed_others _ _ _ He); [apply Hm; tauto|tauto|auto].
Qed.
Lemma inv_rebuilt broken last w h d now b h' d1 : inv broken last w h d -> named d -> take debounce now h = Some (b, h') -> rebuilds d b d1 -> inv broken (d_fs d1) (just_built (now_there w)) (succeeded h') d1.
Proof.
  intros IH Hn Ht HR. destruct (rebuilt_complete _ _ _ _ _ _ _ _ _ IH Hn Ht HR) as (HC & HF & _). destruct IH as (p & _ & _ & _ & _ & Hh & Hw & _).
  assert (E : forall f, now_there w f = there (d_fs d1) f). { intros f. rewrite Hw. unfold there. destruct (in_src f) eqn:If; [|reflexivity]. rewrite (HF f (in_src_not_out f If)). reflexivity. }
  apply complete_inv; [exact HC|eapply Success; eassumption|exact E|exact E].
Qed.
(** a rebuild that failed, and left of the site only [spoilt] outputs different *)
Lemma inv_failure broken last w h d now b h' p s : inv broken last w h d -> read_project d = Some p -> take debounce now h = Some (b, h') -> (forall q, is_out q = false -> s q = d_fs d q) ->
  (forall r, s (www r) = d_fs d (www r) \/ spoilt broken w p (www r)) ->
  inv broken last w (failed (now_there w) b h') (mkStored (d_config d) s (if d_fs d (c_relpath c) then Some (mode_name true) else None) (d_D d) (d_O d) (d_P d)).
Proof.
  intros (p' & R & HW & Hs & Hk & Hh & Hw & Ha & Hu & _) R' Ht Hsrc Hsp. rewrite R in R'. injection R' as <-. destruct (read_fs _ _ _ R) as (Ef & _). eexists. split; [apply (read_with d p'); exact R|].
  assert (Es : forall f, in_src f = true -> s f = d_fs d f) by (intros f If; apply Hsrc, in_src_not_out, If).
  destruct HW as (G & S & M & Q & C). split; [split; [exact G|split; [exact S|split; [exact M|split; [|]]]]|].
  { intros r. cbn [p_fs]. destruct (Hsp r) as [->|X]; [|auto]. rewrite <- Ef. apply Q. }
  { cbn [p_mode]. destruct (d_fs d (c_relpath c)); discriminate. }
  split; [exact Hs|]. split; [exact Hk|]. split; [eapply Failure; eassumption|]. cbn [d_fs p_mode]. split; [intros f; rewrite Hw; unfold there; destruct (in_src f) eqn:If; [rewrite (Es f If)|]; reflexivity|]. split; [exact Ha|].
  split; [intros f If T; rewrite (Es f If); apply Hu; assumption|]. intros _. rewrite (Es _ Hconst). reflexivity.
Qed.
Lemma inv_early broken last w h d now b h' d1 : inv broken last w h d -> take debounce now h = Some (b, h') -> fails_early d b d1 -> inv broken last w (failed (now_there w) b h') d1.
Proof.
  intros IH Ht HR. destruct (early_kept _ _ _ HR) as (p & mode1 & R & -> & ->). apply (inv_failure _ _ _ h _ now _ _ p); auto.
Qed.
Theorem watching_inv last w h d : watching last w h d -> inv False last w h d.
Proof.
  induction 1 as [dev0 last0 d0 d now HF Hn HS|last w h d e s cfg now H IH Hp He|last w h d now b h' d1 H IH Hn Ht HR|last w h d now b h' d1 H IH Ht HR];
  [eapply inv_started|apply inv_edited|eapply inv_rebuilt|eapply inv_early]; eassumption.
Qed.

(** * What is served *)
Lemma inv_site last w h d : inv False last w h d -> forall r, d_fs d (www r) = last (www r).
Proof. intros (p & R & (_ & _ & _ & Q & _) & _). destruct (read_fs _ _ _ R) as (Ef & _). rewrite <- Ef. intros r. destruct (Q r) as [X|([] & _)]. exact X. Qed.
Lemma inv_current last w h d : inv False last w h d -> (forall f, in_src f = true -> d_fs d f = last f) -> exists p, read_project d = Some p /\ good true (p_D p) (p_O p) (p_P p) (d_fs d) /\ forall f, In f (dkeys (p_D p)) <-> in_src f = true /\ d_fs d f <> None.
Proof.
  intros HI N. pose proof (inv_site _ _ _ _ HI) as Hs. destruct HI as (p & R & (G & S & _) & _ & Hk & _). exists p. split; [exact R|]. split.
  - apply (good_transfer sha c K true true _ _ _ last); [exact G| |exact Hs|reflexivity]. intros f Hf. apply N, S, Hf.
  - intros f. rewrite Hk. split; intros (A & B); (split; [exact A|]); [rewrite N|rewrite <- N]; assumption.
Qed.
Lemma nothing_sources broken last w h d : inv broken last w h d -> nothing_since w -> forall f, in_src f = true -> d_fs d f = last f.
Proof. intros (p & _ & _ & _ & _ & _ & _ & _ & Hu & _) N f If. apply Hu; [exact If|apply N]. Qed.
Lemma good_same dev D O P s D2 O2 P2 s2 : good dev D O P s -> good dev D2 O2 P2 s2 -> (forall f, In f (dkeys D) <-> in_src f = true /\ s f <> None) -> (forall f, In f (dkeys D2) <-> in_src f = true /\ s2 f <> None) ->
  (forall f, in_src f = true -> s f = s2 f) -> forall r, s (www r) = s2 (www r).
Proof.
  intros G1 G2 K1 K2 E. apply (same_folder sha c dev K D O P s D2 O2 P2 s2 G1 G2).
  - intros f. rewrite K1, K2. split; intros (A & B); (split; [exact A|]); [rewrite <- E|rewrite E]; assumption.
  - intros f Hf. apply E. apply K1 in Hf. tauto.
Qed.
Lemma completed_good dev d : just_completed dev d -> exists D O P, good dev D O P (d_fs d) /\ forall f, In f (dkeys D) <-> in_src f = true /\ d_fs d f <> None.
Proof.
  intros J. destruct (completed_done float_parse float_repr Hnum Hinv sha c K stat Hstat Hdet Hconst Hcwd Hcss dev d J) as (p1 & _ & J1 & <- & _). exists (p_D p1), (p_O p1), (p_P p1). split; [apply (built_good sha c K stat Hstat Hdet Hconst Hcwd Hcss); exact J1|apply (built_inputs sha c K stat Hstat Hdet Hconst Hcwd Hcss dev); exact J1].
Qed.
Lemma inv_same last w h d d2 : inv False last w h d -> (forall f, in_src f = true -> d_fs d f = last f) -> just_completed true d2 -> (forall f, in_src f = true -> d_fs d f = d_fs d2 f) -> forall r, d_fs d (www r) = d_fs d2 (www r).
Proof.
  intros H N J E. destruct (inv_current _ _ _ _ H N) as (p & _ & G & Kp). destruct (completed_good _ _ J) as (D & O & P & G2 & K2). exact (good_same _ _ _ _ _ _ _ _ _ G G2 Kp K2 E).
Qed.
Lemma first_good dev d s r p1 : named d -> emptied d s -> builds dev (unbuilt s) r p1 -> good dev (p_D p1) (p_O p1) (p_P p1) (p_fs p1) /\ (forall f, In f (dkeys (p_D p1)) <-> in_src f = true /\ p_fs p1 f <> None) /\ forall f, in_src f = true -> p_fs p1 f = d_fs d f.
Proof.
  intros Hn He HB.
  assert (Hs : forall f, in_src f = true -> s f = d_fs d f) by (intros f If; apply He, not_below, src_not_below, If).
  assert (S0 : site sha c K stat dev s (unbuilt s)) by (apply site_new; intros x; apply He; eexists; reflexivity).
  assert (J1 : ProjectSite.just_built sha c K stat dev p1) by (exists dev, s, (unbuilt s), r; split; [exact S0|]; split; [|exact HB]; intros f If X; cbn [unbuilt p_fs] in X; rewrite (Hs f If) in X; apply (Hn f If X)).
  split; [apply (built_good sha c K stat Hstat Hdet Hconst Hcwd Hcss); exact J1|]. split; [apply (built_inputs sha c K stat Hstat Hdet Hconst Hcwd Hcss dev); exact J1|]. intros f If. rewrite <- (Hs f If).
  apply (built_sources sha c K stat Hstat Hdet Hconst Hcwd Hcss dev s (unbuilt s) dev r p1 S0 HB). apply in_src_not_out. exact If.
Qed.
Lemma inv_first last w h d s r p1 : inv False last w h d -> (forall f, in_src f = true -> d_fs d f = last f) -> named d -> emptied d s -> builds true (unbuilt s) r p1 -> forall q, d_fs d (www q) = p_fs p1 (www q).
Proof.
  intros H N Hn He HB. destruct (inv_current _ _ _ _ H N) as (p & _ & G & Kp). destruct (first_good _ _ _ _ _ Hn He HB) as (G2 & K2 & E). apply (good_same _ _ _ _ _ _ _ _ _ G G2 Kp K2). intros f If. symmetry. apply E, If.
Qed.
(** * Noticing *)
Lemma inv_noticed broken last w h d now f : inv broken last w h d -> in_src f = true -> d_fs d f <> last f -> unbuildable h = false -> (debounce <= now - last_change h)%Z -> exists b h', take debounce now h = Some (b, h').
Proof.
  intros H If Hf Hu Hd. destruct H as (p & R & _ & _ & _ & Hh & Hn & Ha & Hc & _). pose proof (history_good _ _ _ Hh) as G.
  unfold take. rewrite Hu. assert (E : (now - last_change h <? debounce)%Z = false) by (apply Z.ltb_ge; exact Hd). rewrite E.
  destruct (deleted h) as [|x1 r1] eqn:E1; [|eauto]. destruct (changed h) as [|x2 r2] eqn:E2; [|eauto]. destruct (created h) as [|x3 r3] eqn:E3; [|eauto]. exfalso.
  destruct (G f) as (G1 & G2 & G3). rewrite E1, E2, E3 in *. cbn [In] in *. rewrite Hn, Ha in *. apply Hf. apply Hc; [exact If|]. intros T. unfold there in *. rewrite If in *. cbn [andb] in *.
  destruct (d_fs d f), (last f); tauto.
Qed.
Lemma take_kind broken last w h d now b h' : inv broken last w h d -> take debounce now h = Some (b, h') -> forall f, (In f (b_changed b) \/ In f (b_created b) -> d_fs d f <> None).
Proof.
  intros H Ht f Hf. destruct H as (p & R & _ & _ & _ & Hh & Hn & _). destruct (batch_right _ _ _ _ _ _ Hh Ht f) as (R1 & _ & R3). assert (X : now_there w f = true) by tauto. rewrite Hn in X. apply there_true in X. tauto.
Qed.
Lemma inv_runs broken last w h d now b h' : inv broken last w h d -> d_config d = Configured -> take debounce now h = Some (b, h') -> ~ crashes d b.
Proof.
  intros H Hc Ht HX. pose proof (take_kind _ _ _ _ _ _ _ _ H Ht) as Hk. destruct H as (p & R & _). destruct (read_fs _ _ _ R) as (Ef & _). destruct HX as [X|_ X|p' order _ X Ho Hs]; [congruence|congruence|].
  rewrite R in X. injection X as <-. revert Hs. apply signatures_some. intros f Hf E. apply Hstat in E. rewrite Ef in E. revert E. apply Hk. destruct Ho as [(_ & Ho)|(_ & Ho)]; apply Ho in Hf; auto.
Qed.
(** * The sources *)
Lemma inv_recorded broken last w h d p : inv broken last w h d -> read_project d = Some p -> recorded_in below_out (p_O p).
Proof. intros (p' & R & (G & _) & _) R'. rewrite R in R'. injection R' as <-. intros f o Ho. destruct (good_output sha c K _ _ _ _ _ f o G Ho) as (r & ->). reflexivity. Qed.
Lemma rebuilds_outside broken last w h d b d1 : inv broken last w h d -> rebuilds d b d1 -> forall q, below_out q = false -> d_fs d1 q = d_fs d q.
Proof.
  intros HI HR. destruct HR as [p changed added deleted changed1 mode1 fuel t full e l fs1 D1 O1 P1 (_ & R & _) Hm _ Hs Hr]. cbn [d_fs]. pose proof (inv_recorded _ _ _ _ _ _ HI R) as HO. destruct (read_fs _ _ _ R) as (Ef & _). rewrite <- Ef.
  inversion Hr as [e' m order s fs1' inputs D1' O1' P1' E O2 O3 T1 T2 U I1 I2 G]; subst. destruct (prepare_in _ _ _ _ _ _ _ _ E) as (A & B). apply (scan_fs scan stat (no_placeholders c K)) in Hs. cbn [sc_fs] in Hs.
  destruct (steps_kept below_out _ (writes_below sha c true K) _ _ _ T1) as (K1 & K2). change (outside below_out (p_fs p) fs1). eapply out_trans; [|eapply out_trans; [exact K1|]].
  - rewrite Hs. apply init_outside. intros o Ho. apply A in Ho. destruct Ho as (f & Ho). eapply HO; exact Ho.
  - eapply unlink_outside; [exact U|]. intros o Ho. apply K2 in Ho. cbn [init_sched still_art] in Ho. apply B in Ho. destruct Ho as (f & Ho). eapply HO; exact Ho.
Qed.
Lemma building_outside broken last w h d b d1 : inv broken last w h d -> fails_building d b d1 -> forall q, below_out q = false -> d_fs d1 q = d_fs d q.
Proof.
  intros HI HR. destruct HR as [p changed added deleted changed1 mode1 fuel t full e m order s s1 s2 x (_ & R & _) Hm _ Hs Hp O1 O2 T1 T2 W]. cbn [d_fs]. pose proof (inv_recorded _ _ _ _ _ _ HI R) as HO. destruct (read_fs _ _ _ R) as (Ef & _). rewrite <- Ef.
  destruct (prepare_in _ _ _ _ _ _ _ _ Hp) as (A & _). apply (scan_fs scan stat (no_placeholders c K)) in Hs. cbn [sc_fs] in Hs. change (outside below_out (p_fs p) (disk s2)). eapply out_trans; [|eapply out_trans; [apply (steps_kept below_out _ (writes_below sha c true K) _ _ _ T1)|]].
  - rewrite Hs. apply init_outside. intros o Ho. apply A in Ho. destruct Ho as (f & Ho). eapply HO; exact Ho.
  - assert (E : s1 = s) by (inversion T2; reflexivity). rewrite <- E. eapply (wind_outside below_out build (fun dev => writes_below sha c dev K)). exact W.
Qed.
Lemma inv_kept broken last w h d b d1 : inv broken last w h d -> rebuilds d b d1 \/ fails_early d b d1 \/ fails_building d b d1 -> forall q, ~ in_out q -> d_fs d1 q = d_fs d q.
Proof.
  intros H Hd q Hq. apply not_below in Hq. destruct Hd as [X|[X|X]]; [eapply rebuilds_outside; eassumption| |eapply building_outside; eassumption]. destruct (early_kept _ _ _ X) as (p & mode1 & _ & -> & _). reflexivity.
Qed.
(** * Stopping the server *)
Lemma nothing_settled last w h d : inv False last w h d -> nothing_since w -> exists p, read_project d = Some p /\ sound_project p /\ settled true p.
Proof.
  intros HI N. pose proof (nothing_sources _ _ _ _ _ HI N) as Hs. destruct (inv_current _ _ _ _ HI Hs) as (p & R & _ & Kp). destruct HI as (p' & R' & HW & _ & _ & _ & _ & _ & _ & Hm). rewrite R in R'. injection R' as <-. destruct (read_fs _ _ _ R) as (Ef & _).
  exists p. split; [exact R|]. split; [eapply watched_sound; exact HW|]. split; [rewrite Ef; exact Kp|]. split; [|rewrite Ef; apply Hm, N]. intros f Hf. destruct HW as (_ & S & M & _). rewrite (M f Hf), Ef. apply (proj1 Hstat). symmetry. apply Hs, S, Hf.
Qed.
Lemma inv_left last w h d : inv False last w h d -> nothing_since w -> d_config d = Configured -> (forall d2, completes true d d2 <-> d2 = d) /\ (forall d2, ~ raises true d d2) /\ forall o, dev_start d o <-> o = Serves d.
Proof.
  intros H N Hc. destruct (nothing_settled _ _ _ _ H N) as (q & R & S & T). destruct (read_fs _ _ _ R) as (Ef & Em). destruct (settled_nothing (build true) scan stat (c_relpath c) true Hstat q S T) as (A & B).
  assert (E : d = mkStored (d_config d) (p_fs q) (p_mode q) (d_D d) (d_O d) (d_P d)) by (rewrite Ef, Em; destruct d; reflexivity).
  assert (X1 : completes true d d). { rewrite E at 2. apply (completes_idle _ _ _ _ _ _ _ _ q q Hc R). apply (A (dkeys (p_D q))). split; [apply S|]. apply T. }
  assert (X2 : forall d2, completes true d d2 -> d2 = d). { intros d2 H2. inversion H2 as [p p1 C1 C2 C3|p r p1 C1 C2 C3]; subst; rewrite R in C2; injection C2 as <-; destruct (B _ _ C3) as (X & ->); [symmetry; exact E|discriminate]. }
  assert (X3 : forall d2, ~ raises true d d2). { intros d2 H2. inversion H2 as [C1|C1 C2|p s mode C1 C2 C3]; subst; [congruence|congruence|]. rewrite R in C2. injection C2 as <-. exact (settled_never sha c K stat Hstat _ _ _ _ S T C3). }
  split; [intros d2; split; [apply X2|intros ->; exact X1]|]. split; [exact X3|]. intros o. split; [|intros ->; apply dev_first; exact X1].
  intros Ho. inversion Ho as [X|d2 H1|d2 H1|d2 d3 H1|d2 d3 H1]; subst; [congruence|rewrite (X2 _ H1); reflexivity|..]; destruct (X3 _ H1).
Qed.
(** * Sessions without rebuilds that fail while they build *)
Theorem current_same last w h d d2 : watching last w h d -> (forall f, in_src f = true -> d_fs d f = last f) -> just_completed true d2 -> (forall f, in_src f = true -> d_fs d f = d_fs d2 f) -> forall r, d_fs d (www r) = d_fs d2 (www r).
Proof. intros H. apply watching_inv in H. eapply inv_same. exact H. Qed.
Theorem current_first last w h d s r p1 : watching last w h d -> (forall f, in_src f = true -> d_fs d f = last f) -> named d -> emptied d s -> builds true (unbuilt s) r p1 -> forall q, d_fs d (www q) = p_fs p1 (www q).
Proof. intros H. apply watching_inv in H. eapply inv_first. exact H. Qed.
Theorem noticed last w h d now f : watching last w h d -> in_src f = true -> d_fs d f <> last f -> unbuildable h = false -> (debounce <= now - last_change h)%Z -> exists b h', take debounce now h = Some (b, h').
Proof. intros H. apply watching_inv in H. eapply inv_noticed. exact H. Qed.
Theorem never_crashes last w h d now b h' : watching last w h d -> d_config d = Configured -> take debounce now h = Some (b, h') -> ~ crashes d b.
Proof. intros H. apply watching_inv in H. eapply inv_runs. exact H. Qed.
Theorem sources_kept last w h d b d1 : watching last w h d -> rebuilds d b d1 \/ fails_early d b d1 \/ fails_building d b d1 -> forall q, ~ in_out q -> d_fs d1 q = d_fs d q.
Proof. intros H. apply watching_inv in H. eapply inv_kept. exact H. Qed.
Theorem nothing_left last w h d : watching last w h d -> nothing_since w -> d_config d = Configured -> (forall d2, completes true d d2 <-> d2 = d) /\ (forall d2, ~ raises true d d2) /\ forall o, dev_start d o <-> o = Serves d.
Proof. intros H. apply watching_inv in H. eapply inv_left. exact H. Qed.
Theorem built_after last w h d dev d1 s r p1 : watching last w h d -> named d -> completes dev d d1 -> emptied d s -> builds dev (unbuilt s) r p1 -> forall q, d_fs d1 (www q) = p_fs p1 (www q).
Proof.
  intros H Hn HC He HB. apply watching_inv in H. destruct H as (p & R & HW & _). destruct (read_fs _ _ _ R) as (Ef & _). destruct (first_good _ _ _ _ _ Hn He HB) as (G2 & K2 & E2).
  assert (X : exists r2 p2, builds dev p r2 p2 /\ p_fs p2 = d_fs d1) by (inversion HC as [p' p2 C1 C2 C3|p' r2 p2 C1 C2 C3]; subst; rewrite R in C2; injection C2 as <-; eauto). destruct X as (r2 & p2 & B2 & <-).
  assert (HW' : watched (fun _ => False) true last p) by (destruct HW as (A1 & A2 & A3 & A4 & A5); split; [exact A1|]; split; [exact A2|]; split; [exact A3|]; split; [|exact A5]; intros z; destruct (A4 z) as [X|([] & _)]; auto).
  destruct (watched_cold sha c K stat Hstat Hdet Hconst Hcwd Hcss _ true last p dev r2 p2 HW') as (G1 & (K1 & _) & E1); [intros o []|rewrite Ef; intros f A B; apply (Hn f A B)|exact B2|].
  apply (good_same _ _ _ _ _ _ _ _ _ G1 G2 K1 K2). intros f If. rewrite (E2 f If), <- Ef. apply E1. apply in_src_not_out, If.
Qed.
End Watch.
