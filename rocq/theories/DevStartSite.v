(** The first build of the development server with the handlers of Project.v. *)
From Verif Require Import Base Graph GraphSpec GraphProofs PyStr PyPath PyNorm PathSpec Json JsonProofs JsonTorn GraphJson GraphJsonProofs Js Builder JsYield JsManip JsManipSpec Handlers Hot HotSpec HotGraphs HotResultSpec HotResultProofs HotWantSpec HotWantProofs
  Cold ColdSpec ColdProofs ColdStop Project ProjectSpec ProjectPaths ProjectFiles ProjectSite ProjectSiteProofs ProjectOrderSpec ProjectOrderFirst ProjectOrderSite ProjectOrderStart ProjectSame DevStart DevStartSpec DevStartProofs.
From Coq Require Import String ZArith NArith Bool List Lia.
Import ListNotations.
Open Scope list_scope.

Lemma writes_below sha c dev K : writes_inside below_out (file_build sha c dev K).
Proof.
  intros f s r o. unfold file_build. destruct (build_with (c_relpath c) f); try discriminate.
  - unfold constants_file_build. destruct (copy_target f) as [t|] eqn:E; [|discriminate]. destruct (copy_out f t E) as (x & Et & _). intros H Ho. apply then_hash_names in H; [|eauto]. apply H in Ho.
    destruct Ho as [Ho|Ho]; [destruct (s t); cbn in Ho; destruct Ho as [<-|[]]; rewrite Et; reflexivity|rewrite Ho, Et; reflexivity].
  - unfold page_build, edited_build; destruct (copy_target f) as [t|] eqn:E; [|intros H; injection H as <-; intros []]; destruct (copy_out f t E) as (x & Et & _); destruct (edit_file c K false f s) as [[[out ch] rs]|]; [|discriminate]; intros H Ho; apply then_hash_names in H; [|eauto]; apply H in Ho;
    destruct Ho as [Ho|Ho]; [cbn in Ho; destruct Ho as [<-|[]]; rewrite Et; reflexivity|rewrite Ho, Et; reflexivity].
  - unfold edited_build; destruct (copy_target f) as [t|] eqn:E; [|discriminate]; destruct (copy_out f t E) as (x & Et & _); destruct (edit_file c K false f s) as [[[out ch] rs]|]; [|discriminate]; intros H Ho; apply then_hash_names in H; [|eauto]; apply H in Ho;
    destruct Ho as [Ho|Ho]; [cbn in Ho; destruct Ho as [<-|[]]; rewrite Et; reflexivity|rewrite Ho, Et; reflexivity].
  - unfold edited_build; destruct (copy_target f) as [t|] eqn:E; [|discriminate]; destruct (copy_out f t E) as (x & Et & _); destruct (edit_file c K false f s) as [[[out ch] rs]|]; [|discriminate]; intros H Ho; apply then_hash_names in H; [|eauto]; apply H in Ho;
    destruct Ho as [Ho|Ho]; [cbn in Ho; destruct Ho as [<-|[]]; rewrite Et; reflexivity|rewrite Ho, Et; reflexivity].
  - unfold plain_build, then_. destruct (make (fun data => data) (copy_target f) f s) as [a|] eqn:Ea; [|discriminate]. destruct (hash_file_of sha f (apply_build a s)) as [b|] eqn:Eb; [|discriminate]. intros H. injection H as <-.
    apply make_outputs in Ea. unfold hash_file_of in Eb. apply make_outputs in Eb. rewrite both_outputs, (proj1 Ea), (proj1 Eb). intros [X|X]; [destruct (copy_out _ _ X) as (x & -> & _); reflexivity|destruct (hash_out _ _ X) as (x & ->); reflexivity].
Qed.
Lemma src_not_below f : in_src f = true -> below_out f = false.
Proof. unfold in_src, below_out. intros H. apply starts_with_iff in H. destruct H as (r & ->). reflexivity. Qed.
Lemma www_below r : below_out (www r) = true.
Proof. reflexivity. Qed.

Lemma ds_emptied d : emptied d (d_fs (without_out d)).
Proof. intros q. cbn [without_out d_fs]. split; intros Z; [apply below_in in Z|apply not_below in Z]; rewrite Z; reflexivity. Qed.

Section Site.
Context (float_parse : str -> option Z) (float_repr : Z -> str).
Context (sha : str -> str) (c : constants) (K : setting) (stat : fs -> str -> option fsig).
Context (Hstat : stat_ok stat) (Hdet : stat_detects stat) (Hconst : in_src (c_relpath c) = true) (Hcwd : starts_with (lit "/") (k_cwd K) = true) (Hcss : exists r, k_css K = lit "src/public/" ++ r /\ starts_with (lit "/") r = false).
Notation build := (fun dev => file_build sha c dev K).
Notation scan := (scan_no_placeholders c K).
Notation builds := (builds sha c K stat).
Notation site := (site sha c K stat).
Notation completes := (completes float_parse float_repr build scan stat (c_relpath c)).
Notation raises := (raises float_parse build scan stat (c_relpath c)).
Notation gives_up := (gives_up build scan stat (c_relpath c)).
Notation dev_start := (dev_start float_parse float_repr build scan stat (c_relpath c)).
Notation sane := (sane below_out float_parse).
Notation nph := (no_placeholders c K).
Notation fresh := (fun s => mkProject s None empty_graph empty_graph empty_graph).

Lemma start_kept d o : sane d -> dev_start d o -> forall q, below_out q = false -> d_fs (left_by o) q = d_fs d q.
Proof. intros HS H. exact (start_outside below_out float_parse float_repr build scan stat (c_relpath c) (fun dev => writes_below sha c dev K) nph (fun q X => X) d o HS H). Qed.
Lemma raised_kept dev d d1 : sane d -> raises dev d d1 -> (forall q, below_out q = false -> d_fs d1 q = d_fs d q) /\ d_config d1 = d_config d.
Proof. intros HS H. exact (raises_outside below_out float_parse build scan stat (c_relpath c) (fun dev => writes_below sha c dev K) nph dev d d1 HS H). Qed.
Lemma completed_kept dev d d1 : sane d -> completes dev d d1 -> (forall q, below_out q = false -> d_fs d1 q = d_fs d q) /\ d_config d1 = d_config d.
Proof. intros HS H. exact (completes_outside below_out float_parse float_repr build scan stat (c_relpath c) (fun dev => writes_below sha c dev K) nph dev d d1 HS H). Qed.
(** a build without out folder *)
Lemma fresh_completes dev d d2 : completes dev (without_out d) d2 -> exists r p1, builds dev (fresh (d_fs (without_out d))) r p1 /\ p_fs p1 = d_fs d2 /\ p_mode p1 = d_mode d2.
Proof. intros H. inversion H as [p p1 H0 H1 H2|p r p1 H0 H1 H2]; subst; rewrite without_read in H1; injection H1 as <-; eexists _, _; (split; [exact H2|split; reflexivity]). Qed.
Lemma emptied_builds dev d s r p1 : emptied d s -> builds dev (fresh s) r p1 -> exists r2 p2, builds dev (fresh (d_fs (without_out d))) r2 p2 /\ forall q, p_fs p2 q = p_fs p1 q.
Proof.
  intros He HB. destruct (cold_same (build dev) scan stat (c_relpath c) dev Hstat (build_same sha c K dev) (scan_same c K) nph _ _ _ (d_fs (without_out d)) HB) as (r2 & p2 & B & E & _).
  - intros q. cbn [p_fs without_out d_fs]. destruct (below_out q) eqn:E; [apply He, below_in, E|apply He, not_below, E].
  - exists r2, p2. split; [exact B|]. intros q. rewrite E. reflexivity.
Qed.
Theorem recovered d d2 : sane d -> (forall f, in_src f = true -> d_fs d f <> None -> source_name f) -> dev_start d (Serves d2) -> completes true d d2 \/
  (exists p1, just_built sha c K stat true p1 /\ forall q, d_fs d2 q = p_fs p1 q) .
Proof.
  intros HS Hn H. inversion H as [|d1 H1| |d1 d2' H1 H2|]; subst; [left; exact H1|right]. destruct (raised_kept _ _ _ HS H1) as (A & _). destruct (fresh_completes _ _ _ H2) as (r & p1 & B & E & _).
  exists p1. split; [|intros q; rewrite E; reflexivity]. exists true, (d_fs (without_out d1)), (fresh (d_fs (without_out d1))), r. split; [apply site_new; reflexivity|]. split; [|exact B]. cbn [p_fs without_out d_fs]. intros f If Hf. apply Hn; [exact If|]. rewrite (src_not_below f If) in Hf. rewrite (A f (src_not_below f If)) in Hf. exact Hf.
Qed.

Section Again.
Context (s : fs) (Hnone : forall q, below_out q = true -> s q = None) (Hnames : forall f, in_src f = true -> s f <> None -> source_name f) (Hsimple : forall f, in_src f = true -> s f <> None -> simple c K s f).
Context (dev : bool) (r : option run) (p1 : project) (HB : builds dev (fresh s) r p1).
Lemma new_site : site dev s (fresh s).
Proof. apply site_new. intros x. apply Hnone. reflexivity. Qed.
Notation HK := (site_kept sha c K stat Hstat Hdet Hconst Hcwd Hcss _ _ _ new_site).
Lemma listed files : NoDup files -> (forall f, In f files <-> in_src f = true /\ s f <> None) -> exists changed added deleted, classify empty_graph (stat s) files [] [] [] = Ret (changed, added, deleted) /\ classified empty_graph (stat s) files changed added deleted.
Proof. intros N L. apply (classify_correct empty_graph (stat s) files); [constructor|exact N|]. intros f Hf X. apply Hstat in X. apply L in Hf. tauto. Qed.
Lemma idle_empty p2 : builds dev (fresh s) None p2 -> p_fs p2 = s /\ forall f, in_src f = true -> s f = None.
Proof.
  intros HB2. inversion HB2 as [files0 mode0 N0 L0 C0 M0|]; subst. cbn [p_fs p_mode p_D p_O p_P] in *. split; [reflexivity|]. intros f If. destruct (s f) as [x|] eqn:E; [|reflexivity]. exfalso. destruct (listed files0 N0 L0) as (a & b & d & X & (_ & X2 & _)). change (dkeys empty_graph) with (@nil str) in C0. rewrite C0 in X. injection X as <- <- <-.
  destruct (stat s f) as [g|] eqn:Eg; [|apply Hstat in Eg; congruence]. assert (Y : dget f (@nil (str * fsig)) = Some g) by (apply X2; split; [apply L0; split; [exact If|congruence]|split; [exact Eg|reflexivity]]). discriminate.
Qed.
Lemma none_listed files : (forall f, in_src f = true -> s f = None) -> (forall f, In f files <-> in_src f = true /\ s f <> None) -> files = [].
Proof. intros Hno L. destruct files as [|f l]; [reflexivity|]. destruct (proj1 (L f) (or_introl eq_refl)) as (If & X). elim X. apply Hno. exact If. Qed.
Lemma empty_idle w p2 : (forall f, in_src f = true -> s f = None) -> ~ builds dev (fresh s) (Some w) p2.
Proof.
  intros Hno HB2. inversion HB2 as [|files changed added deleted changed1 mode1 fuel t full e l fs1 D1 O1 P1 N L C M Z S R]; subst; cbn [p_fs p_mode p_D p_O p_P] in *. rewrite (none_listed files Hno L) in C. cbn in C. injection C as <- <- <-. unfold mode_step in M. rewrite (Hno _ Hconst) in M. injection M as <- <-. destruct Z as [Z|[Z|Z]]; apply Z; reflexivity.
Qed.
(** a first build that can complete cannot fail *)
Theorem cannot_fail s' mode : ~ gives_up dev (fresh s) s' mode.
Proof.
  intros HG. pose proof listed as HC.
  destruct r as [w|].
  - assert (HF : foreseen (p_D (fresh s)) (run_scans w) (run_log w) (p_D p1)) by (eapply (first_foreseen sha c K stat Hstat Hdet Hconst dev dev); [exact HK|exact Hnames|exact HB|reflexivity|exact Hsimple]).
    assert (Hstarts : forall files, NoDup files -> (forall f, In f files <-> in_src f = true /\ s f <> None) -> exists e order st, building (build dev) scan stat (c_relpath c) dev (fresh s) files order e st).
    { intros files N L. destruct (starts sha c K stat Hstat Hdet Hconst dev dev s (fresh s) HK Hnames w p1 HB files N L) as (e & _ & X). destruct (X (nodup str_eq_dec (e_orig e))) as (st & Y); [apply NoDup_nodup|intros f; apply nodup_In|]. eauto. }
    destruct HG as [files x N L C|files changed added deleted x N L C M|files changed added deleted changed1 mode1 x N L C M Z S|files changed added deleted changed1 mode1 fuel t full x N L C M Z S Q Qx|files changed added deleted changed1 mode1 fuel t full e m order st s1 s2 x N L C M Z S Q O1 O2 T1 T2 W|files changed added deleted changed1 mode1 fuel t full e m order st gone fs1 N L C M Z S Q O1 O2 T1 T2 U V]; cbn [p_fs p_mode p_D p_O p_P] in *.
    + destruct (HC files N L) as (a & b & d & X & _). change (dkeys empty_graph) with (@nil str) in C. congruence.
    + destruct (Hstarts files N L) as (e & order & st & X). inversion X; subst. cbn [p_fs p_mode p_D p_O p_P] in *. congruence.
    + destruct (Hstarts files N L) as (e & order & st & X). inversion X as [changed2 added2 deleted2 changed3 mode3 fuel t full e' m s' Y1 Y2 Y3 Y4 Y5 Y6 Y7 Y8 Y9 Y10]; subst. cbn [p_fs p_mode p_D p_O p_P] in *. rewrite C in Y3. injection Y3 as <- <- <-. rewrite M in Y4. injection Y4 as <- <-.
      destruct fuel as [|n]; cbn [scan_loop sc_next sc_fs] in Y6; (destruct (dkeys changed1 ++ dkeys added) eqn:E; [cbn in S; discriminate|]); [discriminate|]. rewrite S in Y6. discriminate.
    + destruct (Hstarts files N L) as (e & order & st & X). inversion X as [changed2 added2 deleted2 changed3 mode3 fuel2 t2 full2 e' m s' Y1 Y2 Y3 Y4 Y5 Y6 Y7 Y8 Y9 Y10]; subst. cbn [p_fs p_mode p_D p_O p_P] in *.
      destruct (started sha c K stat Hstat Hdet Hconst dev dev s (fresh s) HK Hnames files changed added changed1 deleted mode1 fuel t full N L C M S) as (A1 & A2 & A3 & A4 & A5 & A6 & _). destruct (started sha c K stat Hstat Hdet Hconst dev dev s (fresh s) HK Hnames files changed2 added2 changed3 deleted2 mode3 fuel2 t2 full2 Y1 Y2 Y3 Y4 Y6) as (B1 & B2 & B3 & B4 & B5 & B6 & _).
      cbn [p_fs p_mode p_D p_O p_P] in *. pose proof HK as ((HG & _) & _). cbn [p_fs p_mode p_D p_O p_P] in HG. assert (E1 : forall x, In x (scans_of full) <-> In x (scans_of full2)) by (intros [f sc]; rewrite A6, B6; reflexivity). assert (E2 : forall x, In x deleted <-> In x deleted2) by (intros f; rewrite A5, B5; reflexivity).
      destruct (prepare_same _ _ _ (scans_of full2) (scans_of full) (sc_new t2) (sc_new t) deleted2 deleted _ HG E1 E2 Y7) as (e2 & m2 & Hp2). rewrite Hp2 in Q. discriminate.
    + eapply (proj1 (same_everywhere sha c K stat Hstat Hdet Hconst Hcwd Hcss dev dev s (fresh s) HK Hnames w p1 HB HF files order e st (under_way (build dev) scan stat (c_relpath c) dev (fresh s) files order changed added deleted changed1 mode1 fuel t full e m st N L C M Z S Q O1 O2 T1))). exact T2.
    + pose proof (site_plain sha c K stat Hstat Hdet Hconst Hcwd Hcss _ _ _ new_site) as HP. pose proof (not_late sha c K stat Hstat Hdet Hconst Hcwd Hcss dev dev s (fresh s) HK Hnames HP w p1 HB HF) as X.
      assert (Xd : e_dirty_out e = [] /\ e_dirty_art e = []). { destruct (prepare_in _ _ _ _ _ _ _ _ Q) as (A & B). split; [destruct (e_dirty_out e) as [|o l]; [reflexivity|destruct (A o (or_introl eq_refl)) as (f & Y); destruct Y]|destruct (e_dirty_art e) as [|o l]; [reflexivity|destruct (B o (or_introl eq_refl)) as (f & Y); destruct Y]]. }
      apply X. refine (too_late (build dev) scan stat (c_relpath c) dev (fresh s) files changed added deleted changed1 mode1 fuel t full e m order st N L C M Z S Q O1 O2 T1 T2 _). destruct V as [(q & rest & E & F)|[(E & [F|F])|(E & inputs & x & V1 & V2 & V3)]].
      * left. rewrite E. clear -U F. revert U. generalize (disk st). induction gone as [|g l IH]; intros d U; cbn [unlink_all app] in *; [injection U as <-; rewrite F; reflexivity|]. destruct (d g); [|reflexivity]. apply IH. exact U.
      * exfalso. apply F. apply Xd.
      * exfalso. apply F. apply Xd.
      * right. subst gone. exists fs1, inputs, x. auto.
  - destruct (idle_empty _ HB) as (_ & Hno).
    destruct HG as [files x N L C|files changed added deleted x N L C M|files changed added deleted changed1 mode1 x N L C M Z S|files changed added deleted changed1 mode1 fuel t full x N L C M Z S Q Qx|files changed added deleted changed1 mode1 fuel t full e m order st s1 s2 x N L C M Z S Q O1 O2 T1 T2 W|files changed added deleted changed1 mode1 fuel t full e m order st gone fs1 N L C M Z S Q O1 O2 T1 T2 U V]; cbn [p_fs p_mode p_D p_O p_P] in *;
      rewrite (none_listed files Hno L) in C; cbn in C; (discriminate C || injection C as <- <- <-); unfold mode_step in M; rewrite (Hno _ Hconst) in M; (discriminate M || injection M as <- <-); destruct Z as [Z|[Z|Z]]; apply Z; reflexivity.
Qed.
Lemma finished_stays bld e s1 s2 : steps bld e s1 s2 -> finished s1 -> s2 = s1.
Proof.
  intros H F. induction H as [x|x s2 s3 H1 IH H2]; [reflexivity|]. rewrite (IH F) in H2. destruct F as (F1 & F2 & F3). exfalso. inversion H2 as [a b P1 P2 E| |a f Q1 Q2|a fs b P1 P2 P3 P4 E|]; subst; [destruct P2; congruence|rewrite F3 in Q1; destruct Q1|congruence].
Qed.
Theorem one_outcome r2 p2 : builds dev (fresh s) r2 p2 -> forall q, p_fs p2 q = p_fs p1 q.
Proof.
  intros HB2. destruct r as [w|].
  - destruct r2 as [w2|]; [|exfalso; destruct (idle_empty _ HB2) as (_ & X); exact (empty_idle _ _ X HB)].
    assert (HF : foreseen (p_D (fresh s)) (run_scans w) (run_log w) (p_D p1)) by (eapply (first_foreseen sha c K stat Hstat Hdet Hconst dev dev); [exact HK|exact Hnames|exact HB|reflexivity|exact Hsimple]).
    inversion HB2 as [|files changed added deleted changed1 mode1 fuel t full e l fs1 D1 O1 P1 N L C M Z S R]; subst w2 p2; cbn [p_fs p_mode p_D p_O p_P] in *. inversion R as [e0 m order st fs1' inputs D1' O1' P1' Q1 Q2 Q3 T1 T2 U I1 I2 G]; subst.
    destruct (proj2 (proj2 (same_everywhere sha c K stat Hstat Hdet Hconst Hcwd Hcss dev dev s (fresh s) HK Hnames w p1 HB HF files order e st (under_way (build dev) scan stat (c_relpath c) dev (fresh s) files order changed added deleted changed1 mode1 fuel t full e m st N L C M Z S Q1 Q2 Q3 T1)))) as (st2 & X1 & X2 & X3).
    rewrite (finished_stays _ _ _ _ X1 T2) in X3. assert (Ea : still_art st = []).
    { destruct (prepare_in _ _ _ _ _ _ _ _ Q1) as (_ & B). destruct (steps_kept below_out _ (writes_below sha c dev K) _ _ _ T1) as (_ & Y). destruct (still_art st) as [|o rest]; [reflexivity|]. destruct (B o (Y o (or_introl eq_refl))) as (f & []). }
    rewrite Ea in U. cbn [unlink_all] in U. injection U as <-. exact X3.
  - destruct (idle_empty _ HB) as (E & Hno). destruct r2 as [w2|]; [elim (empty_idle _ _ Hno HB2)|]. destruct (idle_empty _ HB2) as (E2 & _). rewrite E, E2. reflexivity.
Qed.
End Again.
(** when a first build of the sources can complete, the server is started *)
Theorem served d o r p1 : sane d -> d_config d = Configured -> (forall f, in_src f = true -> d_fs d f <> None -> source_name f /\ simple c K (d_fs d) f) -> builds true (fresh (d_fs (without_out d))) r p1 ->
  dev_start d o -> exists d2, o = Serves d2 /\ (completes true d d2 \/ forall q, d_fs d2 q = p_fs p1 q).
Proof.
  intros HS Hc Hn HB H. assert (Hk : forall d1, raises true d d1 -> same (d_fs (without_out d)) (d_fs (without_out d1))).
  { intros d1 H1 q. cbn [without_out d_fs]. destruct (below_out q) eqn:E; [reflexivity|]. symmetry. apply (raised_kept _ _ _ HS H1). exact E. }
  assert (Hb : forall d1, raises true d d1 -> exists r2 p2, builds true (fresh (d_fs (without_out d1))) r2 p2 /\ same (p_fs p1) (p_fs p2)).
  { intros d1 H1. destruct (cold_same (build true) scan stat (c_relpath c) true Hstat (build_same sha c K true) (scan_same c K) nph _ _ _ _ HB (Hk d1 H1)) as (r2 & p2 & B & E & _). eauto. }
  assert (Hsrc : forall d1, raises true d d1 -> forall f, in_src f = true -> d_fs (without_out d1) f = d_fs d f).
  { intros d1 H1 f If. rewrite <- (Hk d1 H1). cbn [without_out d_fs]. rewrite (src_not_below f If). reflexivity. }
  assert (Hsm : forall d1, raises true d d1 -> forall f, in_src f = true -> d_fs (without_out d1) f <> None -> simple c K (d_fs (without_out d1)) f).
  { intros d1 H1 f If Hf. rewrite (Hsrc d1 H1 f If) in Hf. destruct (Hn f If Hf) as (_ & X). unfold simple in *. rewrite (Hsrc d1 H1 f If). exact X. }
  assert (Hnm : forall d1, raises true d d1 -> forall f, in_src f = true -> d_fs (without_out d1) f <> None -> source_name f).
  { intros d1 H1 f If Hf. rewrite (Hsrc d1 H1 f If) in Hf. apply (Hn f If Hf). }
  assert (Hnone : forall d1 q, below_out q = true -> d_fs (without_out d1) q = None) by (intros d1 q E; cbn [without_out d_fs]; rewrite E; reflexivity).
  inversion H as [Q|d1 H1|d1 H1 H2|d1 d2 H1 H2|d1 d2 H1 H2]; subst.
  - congruence.
  - eauto.
  - exfalso. destruct H2 as (O1 & O2 & O3 & O4 & O5). inversion H1 as [Q|Q R|p s1 mode Q R G]; subst; [congruence|unfold read_project in R; rewrite O3, O4, O5 in R; discriminate R|]. cbn [d_fs d_mode d_D d_O d_P] in O1, O2, O3, O4, O5.
    unfold read_project in R. rewrite O3, O4, O5 in R. cbn [load_graph] in R. injection R as <-. subst mode. assert (Hd : forall q, below_out q = true -> d_fs d q = None).
    { intros q Hq. destruct (d_fs d q) eqn:E; [|reflexivity]. exfalso. refine (gives_up_stays below_out build scan stat (c_relpath c) (fun dev => writes_below sha c dev K) nph true _ _ _ _ G q _ (O1 q Hq)); cbn [p_O p_fs]; [intros f o []|congruence]. }
    apply (gives_up_mode build scan stat (c_relpath c) true _ _ _ eq_refl) in G. cbn [p_fs p_D p_O p_P] in G. assert (Hs : same (d_fs (without_out d)) (d_fs d)) by (intros q; cbn [without_out d_fs]; destruct (below_out q) eqn:E; [symmetry; apply Hd; exact E|reflexivity]).
    destruct (cold_same (build true) scan stat (c_relpath c) true Hstat (build_same sha c K true) (scan_same c K) nph _ _ _ _ HB Hs) as (r2 & p2 & B & _).
    exact (cannot_fail _ Hd (fun f If Hf => proj1 (Hn f If Hf)) (fun f If Hf => proj2 (Hn f If Hf)) true r2 p2 B _ _ G).
  - exists d2. split; [reflexivity|right]. destruct (fresh_completes _ _ _ H2) as (r2 & p2 & B2 & E2 & _). destruct (Hb d1 H1) as (r3 & p3 & B3 & E3). intros q. rewrite <- E2, (E3 q). exact (one_outcome _ (Hnone d1) (Hnm d1 H1) (Hsm d1 H1) true _ _ B3 _ _ B2 q).
  - exfalso. destruct (Hb d1 H1) as (r2 & p2 & B2 & _). inversion H2 as [Q|Q R|p s mode Q R G]; subst; cbn [without_out d_config] in Q; [rewrite (proj2 (raised_kept _ _ _ HS H1)) in Q; congruence|discriminate R|]. rewrite without_read in R. injection R as <-.
    exact (cannot_fail _ (Hnone d1) (Hnm d1 H1) (Hsm d1 H1) true r2 p2 B2 _ _ G).
Qed.
(** after a build that failed there is a second one *)
Theorem again d d1 r p1 : sane d -> d_config d = Configured -> builds true (fresh (d_fs (without_out d))) r p1 -> raises true d d1 -> exists d2, completes true (without_out d1) d2.
Proof.
  intros HS Hc HB H1. assert (Hk : same (d_fs (without_out d)) (d_fs (without_out d1))) by (intros q; cbn [without_out d_fs]; destruct (below_out q) eqn:E; [reflexivity|]; symmetry; apply (raised_kept _ _ _ HS H1); exact E).
  destruct (cold_same (build true) scan stat (c_relpath c) true Hstat (build_same sha c K true) (scan_same c K) nph _ _ _ _ HB Hk) as (r2 & p2 & B & _).
  assert (C : d_config (without_out d1) = Configured) by (cbn [without_out d_config]; rewrite (proj2 (raised_kept _ _ _ HS H1)); exact Hc).
  destruct r2 as [w|]; eexists; [eapply completes_run; [exact C|exact (without_read float_parse d1)|exact B]|eapply completes_idle; [exact C|exact (without_read float_parse d1)|exact B]].
Qed.
(** with a graph file that is cut off it is, and the site is that of a first build *)
Theorem torn_served d r p1 : (forall x, is_num (float_repr x)) -> torn_graphs float_repr d -> d_config d = Configured -> (forall f, in_src f = true -> d_fs d f <> None -> source_name f /\ simple c K (d_fs d) f) -> builds true (fresh (d_fs (without_out d))) r p1 ->
  (exists d2, dev_start d (Serves d2)) /\ forall o, dev_start d o -> exists d2, o = Serves d2 /\ forall q, d_fs d2 q = p_fs p1 q.
Proof.
  intros Hr HT Hc Hn HB. pose proof (torn_unread float_parse float_repr d Hr HT) as HR. assert (HS : sane d) by (intros p X; congruence). split.
  - assert (H : exists d2, completes true (without_out d) d2).
    { destruct r as [w|]; eexists; [eapply completes_run|eapply completes_idle]; [exact Hc|exact (without_read float_parse d)|exact HB|exact Hc|exact (without_read float_parse d)|exact HB]. }
    destruct H as (d2 & H). exists d2. eapply dev_retry; [apply raises_graphs; [exact Hc|exact HR]|exact H].
  - intros o H. destruct (served d o r p1 HS Hc Hn HB H) as (d2 & -> & [X|X]); [|eauto]. exfalso. inversion X; congruence.
Qed.
End Site.
