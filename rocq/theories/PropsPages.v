(** Property C70: the pages served after the build command. *)
From Coq Require Import String ZArith NArith Bool List Relations.
From Verif Require Import Base Graph GraphSpec PyStr PyPath PyNorm PyNormProofs PathSpec Json Css CssVersion IconManip Nest Html HtmlSpec HtmlTemplate HtmlExamples Page PageWhole Js Builder JsYield JsManip JsManipSpec Handlers OutlineData ImgSize ImgSettings ImgExport ImgCommand Hot HotSpec HotGraphs HotResultSpec HotWantSpec Cold ColdSpec ColdExamples
  Project ProjectSpec ProjectPage ProjectEdit ProjectHistory ProjectExamples ProjectSite ProjectSiteProofs ProjectSiteExamples ProjectPageSpec ProjectPageSim ProjectPageMain ColdStop ColdStopRun ProjectPageExamples.
Import ListNotations.
Open Scope list_scope.

Section Pages.
Context (sha : str -> str) (c : constants) (K : setting) (stat : fs -> str -> option fsig).
Context (Hstat : stat_ok stat) (Hdet : stat_detects stat) (Hconst : in_src (c_relpath c) = true) (Hcwd : starts_with (lit "/") (k_cwd K) = true) (Hcss : exists r, k_css K = lit "src/public/" ++ r /\ starts_with (lit "/") r = false).
Context (Hfrag : forall text, Forall tag_ok (k_fragment K text)) (Hdoc : forall text, Forall tag_ok (k_document K text)).
Notation just_built := (just_built sha c K stat).
Notation built_good := (built_good sha c K stat Hstat Hdet Hconst Hcwd Hcss).
Notation built_inputs := (built_inputs sha c K stat Hstat Hdet Hconst Hcwd Hcss).
Notation start f := {| fr_path := f; fr_vars := [] |}.

(** A page is served as its events say: the hints with the host, the references with the version of
    their file and the templates put in as they are now; the version of a file is the hash of what
    is served for it now. *)
Theorem C70_pages : forall dev p, just_built dev p -> forall f r, page_file f r -> p_fs p f <> None -> build_with (c_relpath c) f = Html ->
  exists text evs res fr ver, p_fs p f = Some text /\ page (k_fragment K) (k_show K) (start f) [] (k_document K text) evs fr [] /\ shows (host_text K) r ver (p_fs p) evs res /\
    p_fs p (www (r ++ lit ".html")) = Some (k_write K res ++ [10%N]) /\ p_fs p (www (r ++ lit ".html.hash")) = Some (sha (k_write K res ++ [10%N])) /\
    forall q v, q <> [] -> Forall name q -> ver (path_text q) = Some v ->
      exists body, p_fs p (path_text (lit "src" :: lit "public" :: q)) <> None /\ p_fs p (www (path_text q)) = Some body /\ v = strip (sha body).
Proof.
  intros dev p H f r Hp Hf Hb. assert (I : In f (dkeys (p_D p))). { apply (built_inputs dev p H). split; [|exact Hf]. destruct Hp as (? & ? & _ & _ & _ & _ & ->). reflexivity. }
  assert (E : f = lit "src/public/" ++ (r ++ lit ".html")) by (destruct Hp as (? & ? & _ & _ & _ & _ & E); exact E).
  destruct (history_correct sha c dev K _ _ _ _ (built_good dev p H)) as (_ & L). destruct (L f I) as (rs & ws & W & _ & B & _). destruct (below (p_D p) _ f I E) as (T1 & _). unfold file_want, edit_file in W. rewrite Hb, T1 in W.
  destruct (page_run K false f (p_fs p)) as [[[o ch] rs']|] eqn:Er; [|discriminate]. injection W as <- <-. destruct (page_written K f r (p_fs p) Hp Hfrag Hdoc o ch rs' Er) as (text & evs & res & fr & A1 & A2 & A3 & -> & _).
  exists text, evs, res, fr, (ver_of (p_fs p)). split; [exact A1|]. split; [exact A2|]. split; [exact A3|]. split; [exact (B _ _ (or_introl eq_refl))|]. split.
  - pose proof (B _ _ (or_intror (or_introl eq_refl))) as X. replace (www (r ++ lit ".html.hash")) with (www (r ++ lit ".html") ++ lit ".hash"); [exact X|]. unfold www. rewrite <- !app_assoc. reflexivity.
  - intros q v Qn Qc V. unfold ver_of in V. destruct (p_fs p (www (path_text q ++ lit ".hash"))) as [h|] eqn:Eh; [|discriminate]. injection V as <-. destruct (hashes sha c dev K _ _ _ _ (built_good dev p H) q h Qn Qc Eh) as (body & B1 & -> & B3).
    exists body. split; [apply (built_inputs dev p H), B3|]. split; [exact B1|reflexivity].
Qed.
(** When no file writes the push and pop commands by hand, the templates are put in like calls: with
    their own variables, which end with the template. *)
Theorem C70_templates : (forall text, Forall plain_token (k_fragment K text)) -> (forall text, Forall plain_token (k_document K text)) ->
  forall dev p, just_built dev p -> forall f r, page_file f r -> HtmlSpec.written f -> p_fs p f <> None -> build_with (c_relpath c) f = Html ->
  exists text evs res fr ver, p_fs p f = Some text /\ expand (k_fragment K) (k_show K) (start f) (k_document K text) evs fr /\ shows (host_text K) r ver (p_fs p) evs res /\
    p_fs p (www (r ++ lit ".html")) = Some (k_write K res ++ [10%N]).
Proof.
  intros Pl Pd dev p H f r Hp Hw Hf Hb. destruct (C70_pages dev p H f r Hp Hf Hb) as (text & evs & res & fr & ver & A & B & C & D & _). exists text, evs, res, fr, ver. split; [exact A|]. split; [|auto].
  apply (page_expand _ _ Pl f) in B; [apply B|exact Hw|apply Pd].
Qed.
End Pages.
(** Leaving out inline scripts and stylesheets and images only narrows the pages: when the run
    succeeds, the five manipulators of the handler together, with the files it names, give the same
    text and the same dependencies in both modes, and those two write and find nothing. *)
Theorem C70_whole : forall K scan f s out ch rs, page_run K scan f s = Some (out, ch, rs) ->
  exists files, (forall x, In x rs -> dget x files = s x) /\
  forall folder js_scan css_scan js_build css_build (M : Type) int_high dims scan_one export picture (i : pstate) cwd, exists text fuel res b, s f = Some text /\
    pump (page_whole (M := M) (k_host K) f folder cwd (k_fragment K) (k_show K) js_scan css_scan js_build css_build int_high dims scan_one export picture scan) fuel (k_document K text) (new_builder (h_init f files, i)) = Ret (res, b) /\
    out = k_write K res ++ [10%N] /\ ch = links (fst (b_st b)) ++ t_seen (fst (b_st b)) /\ t_stack (fst (b_st b)) = [] /\ b_mark b = None /\ Html.files (fst (b_st b)) = files /\
    o_seen (fst (b_st b)) = [] /\ o_made (fst (b_st b)) = [] /\ o_reused (fst (b_st b)) = [] /\ snd (b_st b) = i.
Proof.
  intros K scan f s out ch rs H. exists (files_of s rs). split; [intros x; apply files_of_all|]. intros. destruct (page_whole_agrees K scan f s out ch rs H folder js_scan css_scan js_build css_build M int_high dims scan_one export picture i cwd) as (text & res & b & X).
  exists text, (k_fuel K), res, b. exact X.
Qed.
(** Whether a build completes can depend on the order in which the files are built: a page whose
    partial was edited is not scanned again, so it is not known that it now waits for another file.
    One and the same project can be built and fails to be built. *)
Theorem C70_order_refuted : exists sha c K stat dev last p r p1, stat_ok stat /\ stat_detects stat /\ site sha c K stat dev last p /\ (forall f, in_src f = true -> p_fs p f <> None -> source_name f) /\
  builds sha c K stat dev p r p1 /\ cold_stops (file_build sha c dev K) (scan_no_placeholders c K) stat (c_relpath c) dev p RuntimeError.
Proof.
  exists ex_sha, exs_c, pg_K, w_stat, false, (p_fs (snd pgs_first)), pgs_linked, (fst pgs_third), (snd pgs_third). split; [exact (proj1 w_stat_ok)|]. split; [exact (proj2 w_stat_ok)|]. split; [exact pg_linked_site|]. split; [exact (pg_proper _ pg_linked_lists)|].
  split; [exact pg_third_builds|exact pg_stops].
Qed.
Print Assumptions C70_order_refuted.
Print Assumptions C70_pages.
Print Assumptions C70_templates.
Print Assumptions C70_whole.

(** The example: index.html has a canonical link, links to css/main.css and includes the partial
    nav.html. The project is built; then the stylesheet and the partial are edited and it is built
    again: both and the page are built. *)
Example C70_first : pgs_just_built false (snd pgs_first) /\ pgs_just_built false (snd pgs_second).
Proof. exact (conj pg_first_just pg_second_just). Qed.
Example C70_premises : stat_ok w_stat /\ stat_detects w_stat /\ in_src (c_relpath exs_c) = true /\ starts_with (lit "/") (k_cwd pg_K) = true /\ (exists r, k_css pg_K = lit "src/public/" ++ r /\ starts_with (lit "/") r = false) /\
  (forall text, Forall tag_ok (k_fragment pg_K text)) /\ (forall text, Forall tag_ok (k_document pg_K text)) /\ page_file pg_page (lit "index") /\ p_fs (snd pgs_second) pg_page = Some (lit "Hello") /\ build_with (c_relpath exs_c) pg_page = Html.
Proof. split; [exact (proj1 w_stat_ok)|]. split; [exact (proj2 w_stat_ok)|]. split; [reflexivity|]. split; [reflexivity|]. split; [exact pg_css|]. split; [intros; apply pg_tags|]. split; [intros; apply pg_tags|]. split; [exact pg_page_ok|]. split; [vm_compute; reflexivity|reflexivity]. Qed.
Example C70_built : option_map (fun w => map (fun x => fst (fst x)) (run_log w)) (fst pgs_second) = Some [pg_nav; pg_main; pg_page] /\
  p_fs (snd pgs_first) (www (lit "index.html")) = Some (lit "<link href=https://example.com/a rel=canonical><link href=/css/main.css?v=h16&pv=1.3.2 rel=stylesheet><nav>Home menu</nav>Hello" ++ [10%N]) /\
  p_fs (snd pgs_second) (www (lit "index.html")) = Some (lit "<link href=https://example.com/a rel=canonical><link href=/css/main.css?v=h17&pv=1.3.2 rel=stylesheet><nav>Home new menu</nav>Hello" ++ [10%N]) /\
  p_fs (snd pgs_second) (www (lit "nav.html")) = None.
Proof. repeat match goal with |- _ /\ _ => split end; vm_compute; reflexivity. Qed.
Example C70_runs : exists out ch rs, page_run pg_K false pg_page (p_fs (snd pgs_second)) = Some (out, ch, rs) /\ ch = [pg_main; pg_nav].
Proof. eexists _, _, _. split; [vm_compute; reflexivity|reflexivity]. Qed.
Example C70_plain : (forall text, Forall plain_token (k_fragment pg_K text)) /\ (forall text, Forall plain_token (k_document pg_K text)) /\ HtmlSpec.written pg_page.
Proof. split; [intros; unfold pg_K, pg_fragment; cbn [k_fragment]; destruct (str_eqb text _); apply all_plain; reflexivity|]. split; [intros; apply all_plain; vm_compute; reflexivity|]. repeat constructor; discriminate || (intros [A B]; vm_compute in A, B; congruence). Qed.
