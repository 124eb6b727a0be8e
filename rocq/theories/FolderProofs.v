(** A folder through commands and edits is a project through builds and edits. *)
From Verif Require Import Base Graph GraphSpec GraphProofs GraphMain PyStr PyPath PyNorm PathSpec Json JsonProofs GraphJson GraphJsonProofs Js Builder JsYield JsManip Handlers Hot HotSpec HotSchedProofs HotGraphs HotGraphsProofs HotResultSpec HotResultProofs HotWantSpec HotWantProofs
  Cold ColdSpec ColdProofs ColdMain ColdHistory Project ProjectSpec ProjectPaths ProjectFiles ProjectMain ProjectSite ProjectSiteProofs DevStart DevStartSpec DevStartProofs DevStartSite FolderSpec.
From Coq Require Import String ZArith NArith Bool List Relations Lia.
Import ListNotations.
Open Scope list_scope.

Lemma os_safe s : os_name s -> json_safe s.
Proof.
  induction s as [|x r IH]; intros H; [exact I|]. inversion H as [|? ? (A & B) C]; subst. cbn [json_safe]. split; [exact A|]. split; [|apply IH; exact C]. destruct r; [exact I|]. rewrite B. discriminate.
Qed.
Lemma os_app a b : os_name (a ++ b) <-> os_name a /\ os_name b.
Proof. unfold os_name. apply Forall_app. Qed.
Lemma os_ascii s : forallb (fun x => (x <? 128)%N) s = true -> os_name s.
Proof.
  intros H. unfold os_name. rewrite Forall_forall. rewrite forallb_forall in H. intros x Hx. apply H in Hx. apply N.ltb_lt in Hx. split; [eapply N.lt_trans; [exact Hx|reflexivity]|]. unfold is_high.
  destruct (55296 <=? x)%N eqn:E; [|reflexivity]. apply N.leb_le in E. lia.
Qed.

Section Folder.
Context (float_parse : str -> option Z) (float_repr : Z -> str).
Context (Hnum : forall x, is_num (float_repr x)) (Hinv : forall x, float_parse (float_repr x) = Some x).
Context (sha : str -> str) (c : constants) (K : setting) (stat : fs -> str -> option fsig).
Context (Hstat : stat_ok stat) (Hdet : stat_detects stat) (Hconst : in_src (c_relpath c) = true) (Hcwd : starts_with (lit "/") (k_cwd K) = true) (Hcss : exists r, k_css K = lit "src/public/" ++ r /\ starts_with (lit "/") r = false).
Notation build := (fun dev => file_build sha c dev K).
Notation scan := (scan_no_placeholders c K).
Notation builds := (builds sha c K stat).
Notation site := (site sha c K stat).
Notation just_built := (just_built sha c K stat).
Notation completes := (completes float_parse float_repr build scan stat (c_relpath c)).
Notation raises := (raises float_parse build scan stat (c_relpath c)).
Notation gives_up := (gives_up build scan stat (c_relpath c)).
Notation dev_start := (dev_start float_parse float_repr build scan stat (c_relpath c)).
Notation sane := (sane below_out float_parse).
Notation folder := (folder float_parse float_repr sha c K stat).
Notation read_project := (read_project float_parse).
Notation kept_all := (site_kept sha c K stat Hstat Hdet Hconst Hcwd Hcss).

Definition spelt (p : project) : Prop := forall k, In k (dkeys (p_D p)) \/ In k (dkeys (p_O p)) \/ In k (dkeys (p_P p)) -> os_name k.
Definition held (dev : bool) (last : fs) (d : stored) : Prop := exists p, read_project d = Some p /\ site dev last p /\ spelt p.

Lemma site_sane dev last d p : read_project d = Some p -> site dev last p -> sane d.
Proof.
  intros R H p' R' f o Ho. rewrite R in R'. injection R' as <-. destruct (kept_all _ _ _ H) as (G & _). destruct (good_output sha c K _ _ _ _ _ f o G Ho) as (r & ->). reflexivity.
Qed.
(** the names in the graphs after a build *)
Lemma spelt_built dev0 last p dev r p1 : site dev0 last p -> spelt p -> (forall f, in_src f = true -> p_fs p f <> None -> source_name f /\ os_name f) -> builds dev p r p1 -> spelt p1.
Proof.
  intros HS Hp Hn HB. assert (Hn1 : forall f, in_src f = true -> p_fs p f <> None -> source_name f) by (intros f A B; apply (Hn f A B)).
  assert (J : just_built dev p1) by (exists dev0, last, p, r; auto). pose proof (built_inputs sha c K stat Hstat Hdet Hconst Hcwd Hcss dev p1 J) as HI. pose proof (built_good sha c K stat Hstat Hdet Hconst Hcwd Hcss dev p1 J) as HG.
  pose proof (built_sources sha c K stat Hstat Hdet Hconst Hcwd Hcss dev0 last p dev r p1 HS HB) as HF.
  assert (HD : forall f, In f (dkeys (p_D p1)) -> os_name f).
  { intros f Hf. apply HI in Hf. destruct Hf as (A & B). apply (Hn f A). rewrite <- HF; [exact B|]. unfold in_src in A. apply starts_with_iff in A. destruct A as (x & ->). reflexivity. }
  assert (HO : forall f o, depends (p_O p1) f o -> os_name o).
  { intros f o Ho. destruct HG as (_ & _ & (L1 & L2) & _ & Hsn). pose proof (L1 f o Ho) as Hf. destruct (L2 f Hf) as (rs & ws & W & A & _). apply A in Ho. pose proof (HD f Hf) as X.
    destruct (owned sha c dev K f _ rs ws o (Hsn f Hf) W Ho) as (q & _ & _ & E & _ & [->| ->]); rewrite E in X; apply os_app in X; destruct X as (_ & X); rewrite ?os_app; repeat split; try exact X; apply os_ascii; reflexivity. }
  destruct HB as [files mode1 N0 L0 C0 M0|files changed added deleted changed1 mode1 fl t full e l fs1 D1 O1 P1 N0 L0 C0 M0 _ S0 R0]; [exact Hp|].
  cbn [p_D p_O p_P p_fs] in *. destruct (proj1 (kept_all _ _ _ HS)) as ((W1 & W2 & W3 & _) & _).
  inversion R0 as [? m order s ? inputs ? ? ? Q1 Q2 Q3 Q4 Q5 Q6 Q7 Q8 Q9]; subst. destruct (new_graphs_spec _ _ _ _ _ _ _ _ _ _ _ _ _ (proj2 (Inv_well_formed _) W1) (proj2 (Inv_well_formed _) W2) (proj2 (Inv_well_formed _) W3) Q9) as ((_ & _ & E1 & _) & (_ & _ & E2 & _ & E3) & (_ & _ & E4 & _)).
  intros k [Hk|[Hk|Hk]]; cbn [p_D p_O p_P] in Hk; [apply HD; exact Hk| |apply HD; rewrite E1; apply E4; exact Hk].
  destruct (E3 k Hk) as [X|[X|(f & X & Y)]]; [apply HD; rewrite E1; exact X|apply Hp; auto|]. destruct (E2 f X) as (_ & E & _). rewrite <- E in Y. apply (HO f). apply depends_ch. exact Y.
Qed.
(** a graph is stored and loaded *)
Lemma stored_same g : well_formed g -> (forall k, In k (dkeys g) -> os_name k) -> exists h, load_graph float_parse (Some (store float_repr g)) = Some h /\ well_formed h /\ same_graph h g.
Proof.
  intros W H. destruct (load_store_same float_repr float_parse g Hnum Hinv W) as (h & A & B & C & _); [|exists h; auto]. intros a Ha. apply os_safe, H, contains_key, Ha.
Qed.
Lemma stored_again dev last p cfg : site dev last p -> spelt p -> exists q, read_project (mkStored cfg (p_fs p) (p_mode p) (Some (store float_repr (p_D p))) (Some (store float_repr (p_O p))) (Some (store float_repr (p_P p)))) = Some q /\
  site dev last q /\ spelt q /\ p_fs q = p_fs p /\ p_mode q = p_mode p /\ same_graph (p_D q) (p_D p).
Proof.
  intros H Hp. destruct (proj1 (kept_all _ _ _ H)) as ((W1 & W2 & W3 & _) & _).
  destruct (stored_same (p_D p) W1 (fun k X => Hp k (or_introl X))) as (h1 & A1 & A2 & A3). destruct (stored_same (p_O p) W2 (fun k X => Hp k (or_intror (or_introl X)))) as (h2 & B1 & B2 & B3). destruct (stored_same (p_P p) W3 (fun k X => Hp k (or_intror (or_intror X)))) as (h3 & C1 & C2 & C3).
  exists (mkProject (p_fs p) (p_mode p) h1 h2 h3). split; [unfold DevStart.read_project; cbn [d_D d_O d_P d_fs d_mode]; rewrite A1, B1, C1; reflexivity|]. split; [apply site_loaded; assumption|]. split; [|auto].
  intros k. cbn [p_D p_O p_P]. rewrite (same_keys _ _ A3 k), (same_keys _ _ B3 k), (same_keys _ _ C3 k). apply Hp.
Qed.
(** a completed command *)
Definition done (dev : bool) (d1 : stored) : Prop := exists p1 q, just_built dev p1 /\ p_fs p1 = d_fs d1 /\ read_project d1 = Some q /\ site dev (d_fs d1) q /\ spelt q /\ p_fs q = p_fs p1 /\ p_mode q = p_mode p1 /\ same_graph (p_D q) (p_D p1).
Lemma completes_done dev0 last d p dev d1 : read_project d = Some p -> site dev0 last p -> spelt p -> named d -> completes dev d d1 -> done dev d1.
Proof.
  intros R HS Hp Hn HC. destruct (read_fs _ _ _ R) as (Ef & Em).
  assert (Hn2 : forall f, in_src f = true -> p_fs p f <> None -> source_name f /\ os_name f) by (rewrite Ef; exact Hn). assert (Hn1 : forall f, in_src f = true -> p_fs p f <> None -> source_name f) by (intros f A B; apply (Hn2 f A B)).
  inversion HC as [p' p1 C1 C2 C3|p' r p1 C1 C2 C3]; subst; rewrite R in C2; injection C2 as <-.
  - exists p1, p1. split; [exists dev0, last, p, None; auto|]. split; [reflexivity|]. split.
    { inversion C3; subst. unfold DevStart.read_project in *. cbn [d_D d_O d_P d_fs d_mode p_fs p_mode]. destruct (load_graph _ (d_D d)); [|discriminate]. destruct (load_graph _ (d_O d)); [|discriminate]. destruct (load_graph _ (d_P d)); [|discriminate]. injection R as <-. reflexivity. }
    split; [exact (site_built _ _ _ _ _ _ _ _ _ _ HS Hn1 C3)|]. split; [exact (spelt_built _ _ _ _ _ _ HS Hp Hn2 C3)|]. repeat split; reflexivity.
  - pose proof (site_built _ _ _ _ _ _ _ _ _ _ HS Hn1 C3) as HS1. pose proof (spelt_built _ _ _ _ _ _ HS Hp Hn2 C3) as Hp1. destruct (stored_again _ _ _ (d_config d) HS1 Hp1) as (q & A1 & A2 & A3 & A4 & A5 & A6).
    exists p1, q. split; [exists dev0, last, p, (Some r); auto|]. split; [reflexivity|]. auto 8.
Qed.
Lemma done_held dev d1 : done dev d1 -> held dev (d_fs d1) d1.
Proof. intros (p1 & q & _ & _ & A & B & C & _). exists q. auto. Qed.
Lemma served_done dev0 last d d1 : held dev0 last d -> named d -> dev_start d (Serves d1) -> done true d1.
Proof.
  intros (p & R & HS & Hp) Hn H. inversion H as [|d1' H1| |d1' d2 H1 H2|]; subst; [eapply completes_done; eassumption|].
  destruct (raised_kept float_parse sha c K stat true d d1' (site_sane _ _ _ _ R HS) H1) as (A & _).
  assert (HS2 : site true (d_fs (without_out d1')) (mkProject (d_fs (without_out d1')) None empty_graph empty_graph empty_graph)) by (apply site_new; reflexivity).
  eapply (completes_done true _ (without_out d1') _ true d1); [apply without_read|exact HS2|intros k [[]|[[]|[]]]| |exact H2]. intros f If Hf. apply Hn; [exact If|]. cbn [without_out d_fs] in Hf. rewrite (src_not_below f If), (A f (src_not_below f If)) in Hf. exact Hf.
Qed.
Theorem folder_held dev last d : folder dev last d -> held dev last d.
Proof.
  induction 1 as [dev s cfg Hs|dev last d s cfg H IH Hs|dev last d dev' d1 H IH Hn HC|dev last d d1 H IH Hn HC].
  - exists (mkProject s None empty_graph empty_graph empty_graph). split; [reflexivity|]. split; [apply site_new; exact Hs|intros k [[]|[[]|[]]]].
  - destruct IH as (p & R & HS & Hp). destruct (read_fs _ _ _ R) as (Ef & Em). exists (mkProject s (p_mode p) (p_D p) (p_O p) (p_P p)). split; [|split; [apply site_edited; [exact HS|rewrite Ef; exact Hs]|exact Hp]].
    unfold DevStart.read_project in *. cbn [with_files d_D d_O d_P d_fs d_mode]. destruct (load_graph _ (d_D d)); [|discriminate]. destruct (load_graph _ (d_O d)); [|discriminate]. destruct (load_graph _ (d_P d)); [|discriminate]. injection R as <-. reflexivity.
  - destruct IH as (p & R & HS & Hp). eapply done_held, completes_done; eassumption.
  - eapply done_held, served_done; eassumption.
Qed.
Theorem completed_done dev d1 : just_completed float_parse float_repr sha c K stat dev d1 -> done dev d1.
Proof.
  intros (dev0 & last & d & H & Hn & [HC|(-> & HC)]); pose proof (folder_held _ _ _ H) as X; [destruct X as (p & R & HS & Hp); eapply completes_done; eassumption|eapply served_done; eassumption].
Qed.
(** nothing to do *)
Lemma done_settled dev d1 : done dev d1 -> exists q, read_project d1 = Some q /\ sound_project q /\ settled stat (c_relpath c) dev q.
Proof.
  intros (p1 & q & J & E & R & S & _ & F & M & G). exists q. split; [exact R|]. split; [eapply kept_sound, kept_all, S|]. destruct (built_settled sha c K stat Hstat Hdet Hconst Hcwd Hcss dev p1 J) as (_ & T1 & T2 & T3). split; [|split].
  - intros f. rewrite (same_keys _ _ G f), F. apply T1.
  - intros f. rewrite (same_keys _ _ G f), F, (proj1 (proj2 (G f))). apply T2.
  - rewrite M, F. exact T3.
Qed.
Lemma settled_never dev p s mode : sound_project p -> settled stat (c_relpath c) dev p -> ~ gives_up dev p s mode.
Proof.
  intros S T H. pose proof (settled_classify (build dev) scan stat (c_relpath c) dev Hstat p S T) as X. pose proof (settled_mode stat (c_relpath c) dev p T) as Y.
  inversion H; subst; match goal with [N : NoDup ?files, L : (forall f, In f ?files <-> _), C : classify _ _ ?files _ _ _ = _ |- _] => rewrite (X files (conj N L)) in C end; try discriminate;
    match goal with [C : Ret ([], [], []) = Ret _ |- _] => injection C as <- <- <- end;
    match goal with [M : mode_step _ _ _ _ _ _ _ = _ |- _] => rewrite Y in M end; try discriminate;
    match goal with [C : Ret ([], _) = Ret _ |- _] => injection C as <- <- end;
    match goal with [Z : [] <> [] \/ _ |- _] => destruct Z as [Z|[Z|Z]]; apply Z; reflexivity end.
Qed.
Theorem done_twice dev d1 : done dev d1 -> d_config d1 = Configured -> completes dev d1 d1 /\ (forall d2, completes dev d1 d2 -> d2 = d1) /\ (forall d2, ~ raises dev d1 d2).
Proof.
  intros HD Hc. destruct (done_settled _ _ HD) as (q & R & S & T). destruct (read_fs _ _ _ R) as (Ef & Em). destruct (settled_nothing (build dev) scan stat (c_relpath c) dev Hstat q S T) as (A & B).
  assert (E : d1 = mkStored (d_config d1) (p_fs q) (p_mode q) (d_D d1) (d_O d1) (d_P d1)) by (rewrite Ef, Em; destruct d1; reflexivity). split; [|split].
  - rewrite E at 2. apply (completes_idle _ _ _ _ _ _ _ _ q q Hc R). apply (A (dkeys (p_D q))). split; [apply S|]. apply T.
  - intros d2 H. inversion H as [p p1 C1 C2 C3|p r p1 C1 C2 C3]; subst; rewrite R in C2; injection C2 as <-; destruct (B _ _ C3) as (X & ->); [symmetry; exact E|discriminate].
  - intros d2 H. inversion H as [C1|C1 C2|p s mode C1 C2 C3]; subst; [congruence|congruence|]. rewrite R in C2. injection C2 as <-. exact (settled_never _ _ _ _ S T C3).
Qed.
Theorem restarted d1 o : done true d1 -> d_config d1 = Configured -> dev_start d1 o <-> o = Serves d1.
Proof.
  intros HD Hc. destruct (done_twice _ _ HD Hc) as (A & B & C). split; [|intros ->; apply dev_first; exact A].
  intros H. inversion H as [X|d2 H1|d2 H1|d2 d3 H1|d2 d3 H1]; subst; [congruence|rewrite (B _ H1); reflexivity|..]; destruct (C _ H1).
Qed.
Theorem done_same dev d1 d2 : done dev d1 -> done dev d2 -> (forall f, in_src f = true -> d_fs d1 f = d_fs d2 f) -> forall r, d_fs d1 (www r) = d_fs d2 (www r).
Proof. intros (p1 & _ & J1 & <- & _) (p2 & _ & J2 & <- & _). exact (built_same sha c K stat Hstat Hdet Hconst Hcwd Hcss dev p1 p2 J1 J2). Qed.
(** the site of a first build *)
Theorem first_same dev d d1 s r p1 : just_completed float_parse float_repr sha c K stat dev d1 -> named d -> emptied d s -> builds dev (unbuilt s) r p1 -> (forall f, in_src f = true -> d_fs d1 f = d_fs d f) -> forall q, d_fs d1 (www q) = p_fs p1 (www q).
Proof.
  intros J Hn He HB Hd. destruct (completed_done _ _ J) as (p2 & _ & J2 & E2 & _). rewrite <- E2.
  assert (Hs : forall f, in_src f = true -> s f = d_fs d f) by (intros f If; apply He, not_below, src_not_below, If).
  assert (S0 : site dev s (unbuilt s)) by (apply site_new; intros x; apply He; eexists; reflexivity).
  assert (J1 : just_built dev p1) by (exists dev, s, (unbuilt s), r; split; [exact S0|]; split; [|exact HB]; intros f If X; cbn [unbuilt p_fs] in X; rewrite (Hs f If) in X; apply (Hn f If X)).
  apply (built_same sha c K stat Hstat Hdet Hconst Hcwd Hcss dev p2 p1 J2 J1). intros f If. rewrite E2, (Hd f If), <- (Hs f If). symmetry. apply (built_sources sha c K stat Hstat Hdet Hconst Hcwd Hcss dev s (unbuilt s) dev r p1 S0 HB). unfold in_src in If. apply starts_with_iff in If. destruct If as (x & ->). reflexivity.
Qed.
End Folder.
