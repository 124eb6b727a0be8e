(** Property C71: the build command and the order in which files are listed and built. *)
From Coq Require Import String ZArith NArith Bool List Relations.
From Verif Require Import Base Graph GraphSpec PyStr PyPath PyNorm PathSpec Json Css NestSpec Html HtmlSpec Js Builder JsYield JsManip JsManipSpec Handlers Hot HotSpec HotGraphs HotResultSpec HotWantSpec Cold ColdSpec ColdExamples
  Project ProjectSpec ProjectExamples ProjectSite ProjectSiteProofs ProjectSiteExamples ColdStop ColdStopRun ProjectPageExamples ProjectOrderSpec ProjectOrderSite ProjectOrderStart ProjectOrderAgain ProjectOrderExamples.
Import ListNotations.
Open Scope list_scope.

Section Order.
Context (sha : str -> str) (c : constants) (K : setting) (stat : fs -> str -> option fsig).
Context (Hstat : stat_ok stat) (Hdet : stat_detects stat) (Hconst : in_src (c_relpath c) = true) (Hcwd : starts_with (lit "/") (k_cwd K) = true) (Hcss : exists r, k_css K = lit "src/public/" ++ r /\ starts_with (lit "/") r = false).
Notation site := (site sha c K stat).
Notation builds := (builds sha c K stat).
Notation building := (fun dev => building (file_build sha c dev K) (scan_no_placeholders c K) stat (c_relpath c) dev).
Notation fails_late := (fun dev => fails_late (file_build sha c dev K) (scan_no_placeholders c K) stat (c_relpath c) dev).
Notation cold_stops := (fun dev => cold_stops (file_build sha c dev K) (scan_no_placeholders c K) stat (c_relpath c) dev).
Notation kept_all := (fun dev last p H => site_kept sha c K stat Hstat Hdet Hconst Hcwd Hcss dev last p H).

(** When a project can be built and what the builds reported was known beforehand, the build
    command cannot fail while it builds files, in whichever order the files are listed and built. *)
Theorem C71_order : forall dev0 last p dev w p1, site dev0 last p -> (forall f, in_src f = true -> p_fs p f <> None -> source_name f) ->
  builds dev p (Some w) p1 -> foreseen (p_D p) (run_scans w) (run_log w) (p_D p1) -> forall x, ~ cold_stops dev p x.
Proof.
  intros dev0 last p dev w p1 HS Hn HB HF x [files changed added deleted changed1 mode1 fuel t full e m order s s' A1 A2 A3 A4 A5 A6 A7 A8 A9 A10 A11].
  refine (proj1 (same_everywhere sha c K stat Hstat Hdet Hconst Hcwd Hcss dev dev0 last p (kept_all _ _ _ HS) Hn w p1 HB HF files order e s _) x s' A11). exact (under_way _ _ _ _ _ _ _ _ changed added deleted changed1 mode1 fuel t full e m s A1 A2 A3 A4 A5 A6 A7 A8 A9 A10).
Qed.
(** At any point of the build every file that was written holds what the other run left in it. *)
Theorem C71_same : forall dev0 last p dev w p1, site dev0 last p -> (forall f, in_src f = true -> p_fs p f <> None -> source_name f) ->
  builds dev p (Some w) p1 -> foreseen (p_D p) (run_scans w) (run_log w) (p_D p1) ->
  forall files order e s, building dev p files order e s -> forall f d r o, In (f, d, r) (log s) -> In o (b_outputs r) -> disk s o = p_fs p1 o.
Proof. intros dev0 last p dev w p1 HS Hn HB HF files order e s HW. exact (proj1 (proj2 (same_everywhere sha c K stat Hstat Hdet Hconst Hcwd Hcss dev dev0 last p (kept_all _ _ _ HS) Hn w p1 HB HF files order e s HW))). Qed.
(** From any point it can go on until all files are built, and then the whole folder is the same. *)
Theorem C71_completes : forall dev0 last p dev w p1, site dev0 last p -> (forall f, in_src f = true -> p_fs p f <> None -> source_name f) ->
  builds dev p (Some w) p1 -> foreseen (p_D p) (run_scans w) (run_log w) (p_D p1) ->
  forall files order e s, building dev p files order e s -> exists s', steps (file_build sha c dev K) e s s' /\ finished s' /\ forall q, disk s' q = p_fs p1 q.
Proof. intros dev0 last p dev w p1 HS Hn HB HF files order e s HW. exact (proj2 (proj2 (same_everywhere sha c K stat Hstat Hdet Hconst Hcwd Hcss dev dev0 last p (kept_all _ _ _ HS) Hn w p1 HB HF files order e s HW))). Qed.
(** When all files are built the command cannot fail any more ... *)
Theorem C71_late : forall dev0 last p dev w p1, site dev0 last p -> (forall f, in_src f = true -> p_fs p f <> None -> source_name f) ->
  builds dev p (Some w) p1 -> foreseen (p_D p) (run_scans w) (run_log w) (p_D p1) -> ~ fails_late dev p.
Proof. intros dev0 last p dev w p1 HS Hn HB HF. exact (not_late sha c K stat Hstat Hdet Hconst Hcwd Hcss dev dev0 last p (kept_all _ _ _ HS) Hn (site_plain sha c K stat Hstat Hdet Hconst Hcwd Hcss _ _ _ HS) w p1 HB HF). Qed.
(** ... and ends with the same folder and mode file, the same known sources, and for each source the
    same dependencies and outputs. *)
Theorem C71_ends : forall dev0 last p dev w p1, site dev0 last p -> (forall f, in_src f = true -> p_fs p f <> None -> source_name f) ->
  builds dev p (Some w) p1 -> foreseen (p_D p) (run_scans w) (run_log w) (p_D p1) ->
  forall files order e s, building dev p files order e s -> finished s -> exists w2 p2, builds dev p (Some w2) p2 /\ run_env w2 = e /\ run_log w2 = log s /\
    (forall q, p_fs p2 q = p_fs p1 q) /\ p_mode p2 = p_mode p1 /\ (forall f, In f (dkeys (p_D p2)) <-> In f (dkeys (p_D p1))) /\
    (forall f x, depends (p_D p2) f x <-> depends (p_D p1) f x) /\ (forall f o, depends (p_O p2) f o <-> depends (p_O p1) f o).
Proof. intros dev0 last p dev w p1 HS Hn HB HF files order e s HW. exact (ends sha c K stat Hstat Hdet Hconst Hcwd Hcss dev dev0 last p (kept_all _ _ _ HS) Hn (site_plain sha c K stat Hstat Hdet Hconst Hcwd Hcss _ _ _ HS) w p1 HB HF files order e s HW). Qed.
(** The command does get to building files, however the sources are listed, and then has the same
    files to build, which may be held in any order. *)
Theorem C71_starts : forall dev0 last p dev w p1, site dev0 last p -> (forall f, in_src f = true -> p_fs p f <> None -> source_name f) -> builds dev p (Some w) p1 ->
  forall files, NoDup files -> (forall f, In f files <-> in_src f = true /\ p_fs p f <> None) -> exists e, (forall f, In f (e_orig e) <-> exists d r, In (f, d, r) (run_log w)) /\
    forall order, NoDup order -> (forall f, In f order <-> In f (e_orig e)) -> exists s, building dev p files order e s.
Proof. intros dev0 last p dev w p1 HS Hn HB. exact (starts sha c K stat Hstat Hdet Hconst dev dev0 last p (kept_all _ _ _ HS) Hn w p1 HB). Qed.
(** Everything is known beforehand when all files to build are new or edited and the scripts have no
    type hints and the stylesheets no imports. *)
Theorem C71_scanned : forall dev0 last p dev w p1, site dev0 last p -> (forall f, in_src f = true -> p_fs p f <> None -> source_name f) ->
  builds dev p (Some w) p1 -> (forall f, affected (p_D p) (p_P p) (dkeys (run_scans w)) (run_deleted w) f -> ~ In f (run_deleted w) -> In f (dkeys (run_scans w))) ->
  (forall f, In f (dkeys (run_scans w)) -> simple c K (p_fs p) f) -> foreseen (p_D p) (run_scans w) (run_log w) (p_D p1).
Proof. intros dev0 last p dev w p1 HS Hn HB. exact (scanned_foreseen sha c K stat Hstat Hdet Hconst dev dev0 last p (kept_all _ _ _ HS) Hn w p1 HB). Qed.
(** Or when, in addition, of each file that is built again though it was not edited, for a file it
    depends on was, the templates were not edited either. *)
Theorem C71_again : forall dev0 last p dev w p1, site dev0 last p -> (forall f, in_src f = true -> p_fs p f <> None -> source_name f) ->
  builds dev p (Some w) p1 -> (forall f, In f (dkeys (run_scans w)) -> simple c K (p_fs p) f) ->
  (forall f, affected (p_D p) (p_P p) (dkeys (run_scans w)) (run_deleted w) f -> ~ In f (dkeys (run_scans w)) -> ~ In f (run_deleted w) ->
     simple c K last f /\ forall rs ws x, file_want sha c dev0 K f last = Some (rs, ws) -> In x rs -> is_out x = false -> p_fs p x = last x) ->
  foreseen (p_D p) (run_scans w) (run_log w) (p_D p1).
Proof. exact (rebuilt_foreseen sha c K stat Hstat Hdet Hconst Hcwd Hcss). Qed.
(** So the first build of a project either cannot complete or cannot fail while it builds files. *)
Theorem C71_first : forall s dev r p1, (forall q, s (www q) = None) -> (forall f, in_src f = true -> s f <> None -> source_name f) -> (forall f, in_src f = true -> s f <> None -> simple c K s f) ->
  builds dev (mkProject s None empty_graph empty_graph empty_graph) (Some r) p1 -> forall x, ~ cold_stops dev (mkProject s None empty_graph empty_graph empty_graph) x.
Proof.
  intros s dev r p1 Hs Hn Hi HB. eapply C71_order; [exact (site_new _ _ _ _ dev s Hs)|exact Hn|exact HB|].
  eapply (first_foreseen sha c K stat Hstat Hdet Hconst dev dev); [apply site_kept; try assumption; exact (site_new _ _ _ _ dev s Hs)|exact Hn|exact HB|reflexivity|exact Hi].
Qed.
End Order.
Print Assumptions C71_order.
Print Assumptions C71_same.
Print Assumptions C71_completes.
Print Assumptions C71_late.
Print Assumptions C71_ends.
Print Assumptions C71_starts.
Print Assumptions C71_scanned.
Print Assumptions C71_again.
Print Assumptions C71_first.

(** The example is that of C70: a page with a stylesheet and a partial, another stylesheet and the
    constants file. The first build and the rebuild after an edit of the stylesheet and the partial
    complete and had everything known beforehand. *)
Example C71_premises : stat_ok w_stat /\ stat_detects w_stat /\ in_src (c_relpath exs_c) = true /\ starts_with (lit "/") (k_cwd pg_K) = true /\ (exists r, k_css pg_K = lit "src/public/" ++ r /\ starts_with (lit "/") r = false) /\
  (forall q, pg_sources (www q) = None) /\ (forall f, in_src f = true -> pg_sources f <> None -> source_name f /\ simple exs_c pg_K pg_sources f) /\
  pgs_site true pg_sources pgs_new /\ pgs_builds false pgs_new (fst pgs_first) (snd pgs_first) /\ pgs_site false (p_fs (snd pgs_first)) pgs_edited /\ (forall f, in_src f = true -> p_fs pgs_edited f <> None -> source_name f) /\ pgs_builds false pgs_edited (fst pgs_second) (snd pgs_second).
Proof.
  split; [exact (proj1 w_stat_ok)|]. split; [exact (proj2 w_stat_ok)|]. split; [reflexivity|]. split; [reflexivity|]. split; [exact pg_css|]. split; [intros q; reflexivity|].
  split; [intros f I Hf; split; [exact (pg_proper _ pg_first_lists f I Hf)|apply og_simple; [reflexivity|exact I|exact Hf]]|]. split; [exact (pg_new_site true)|]. split; [exact pg_first_builds|]. split; [exact pg_edited_site|]. split; [exact (pg_proper _ pg_edited_lists)|exact pg_second_builds].
Qed.
Example C71_foreseen : exists w w2, fst pgs_first = Some w /\ fst pgs_second = Some w2 /\ foreseen (p_D pgs_new) (run_scans w) (run_log w) (p_D (snd pgs_first)) /\ foreseen (p_D pgs_edited) (run_scans w2) (run_log w2) (p_D (snd pgs_second)) /\
  map (fun x => fst (fst x)) (run_log w2) = [pg_nav; pg_main; pg_page] /\ dkeys (run_scans w2) = [pg_main; pg_nav].
Proof.
  exists (og_the (fst pgs_first)), (og_the (fst pgs_second)). split; [apply og_some; vm_compute; reflexivity|]. split; [apply og_some; vm_compute; reflexivity|]. repeat match goal with |- _ /\ _ => split end; try (apply foreseen_b_spec); vm_compute; reflexivity.
Qed.
(** other runs: with the sources listed in the opposite order, and the files built in other orders *)
Example C71_other : exists e s, building (pgs_build false) pgs_scan w_stat (c_relpath exs_c) false pgs_new (rev pg_names) pg_names e s /\ HotSpec.built s = [c_relpath exs_c; pg_nav] /\
  option_map (fun w => map (fun x => fst (fst x)) (run_log w)) (fst pgs_first) = Some [pg_main; pg_extra; pg_nav; c_relpath exs_c; pg_page].
Proof. eexists _, _. split; [eapply (og_sound 6 pgs_new pg_names); [exact pg_first_lists|vm_compute; reflexivity]|]. split; vm_compute; reflexivity. Qed.
Example C71_finished : exists e s, building (pgs_build false) pgs_scan w_stat (c_relpath exs_c) false pgs_new (rev pg_names) pg_names e s /\ finished s /\ HotSpec.built s = [c_relpath exs_c; pg_nav; pg_extra; pg_main; pg_page].
Proof. eexists _, _. split; [eapply (og_sound 20 pgs_new pg_names); [exact pg_first_lists|vm_compute; reflexivity]|]. split; vm_compute; repeat split; reflexivity. Qed.
(** the stylesheet alone is edited: the page, which links to it, is built again and was not edited *)
Example C71_styled : exists w, fst og_restyled = Some w /\ pgs_site false (p_fs (snd pgs_first)) og_styled /\ (forall f, in_src f = true -> p_fs og_styled f <> None -> source_name f) /\ pgs_builds false og_styled (Some w) (snd og_restyled) /\
  (forall f, In f (dkeys (run_scans w)) -> simple exs_c pg_K (p_fs og_styled) f) /\
  (forall f, affected (p_D og_styled) (p_P og_styled) (dkeys (run_scans w)) (run_deleted w) f -> ~ In f (dkeys (run_scans w)) -> ~ In f (run_deleted w) ->
     simple exs_c pg_K (p_fs (snd pgs_first)) f /\ forall rs ws x, file_want ex_sha exs_c false pg_K f (p_fs (snd pgs_first)) = Some (rs, ws) -> In x rs -> is_out x = false -> p_fs og_styled x = p_fs (snd pgs_first) x) /\
  dkeys (run_scans w) = [pg_main] /\ map (fun x => fst (fst x)) (run_log w) = [pg_main; pg_page].
Proof.
  exists (og_the (fst og_restyled)). assert (E : fst og_restyled = Some (og_the (fst og_restyled))) by (apply og_some; vm_compute; reflexivity). split; [exact E|]. split; [exact og_styled_site|]. split; [exact (pg_proper _ og_styled_lists)|]. split; [rewrite <- E; exact og_restyled_builds|].
  assert (Ks : dkeys (run_scans (og_the (fst og_restyled))) = [pg_main]) by (vm_compute; reflexivity). assert (Kd : run_deleted (og_the (fst og_restyled)) = []) by (vm_compute; reflexivity). rewrite Ks, Kd.
  split; [|split; [|split; [reflexivity|vm_compute; reflexivity]]].
  - intros f [<-|[]]. split; [intros Hb; vm_compute in Hb; discriminate Hb|]. intros _ text ts Ht Hts t Hi r. eapply og_plain; [|exact Hi]. unfold og_styled in Ht. cbn [p_fs] in Ht. unfold fs_set in Ht. rewrite str_eqb_refl in Ht. injection Ht as <-. vm_compute in Hts. injection Hts as <-. reflexivity.
  - intros f Ha N _. assert (Hf : In f [pg_main; pg_page]) by (eapply closed_affected; [| | |exact Ha]; [vm_compute; reflexivity|intros x [<-|[]]; left; reflexivity|intros x []]).
    destruct Hf as [<-|[<-|[]]]; [exfalso; apply N; left; reflexivity|]. split; [split; intros Hb; vm_compute in Hb; discriminate Hb|].
    intros rs ws x W Hx Ho. assert (Er : rs = fst (og_want pg_page)) by (unfold og_want; rewrite W; reflexivity). rewrite Er in Hx. assert (Hm : mem pg_main (fst (og_want pg_page)) = false) by (vm_compute; reflexivity). apply mem_false in Hm. assert (Hne : x <> pg_main) by (intros Ex; rewrite Ex in Hx; exact (Hm Hx)).
    unfold og_styled. cbn [p_fs]. unfold fs_set. destruct (str_eqb x pg_main) eqn:Ex; [apply str_eqb_eq in Ex; contradiction|reflexivity].
Qed.
