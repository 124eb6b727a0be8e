(** C41, C42, C43 and C51: the html pages.  [fragment] stands for the tokens of a template
    file (html5lib), [show] for str() of a JSON number, [js_scan] etc. for the handlers of
    scripts and stylesheets.  The page is [src/public/p.html]. *)
From Verif Require Import Base Graph Json PyPath PyNorm Builder Handlers Html HtmlSpec HtmlMain HtmlTemplate HtmlExamples.
From Coq Require Import String ZArith NArith Bool List Lia.
Import ListNotations.
Open Scope list_scope.
Open Scope N_scope.

(** * C51: inline scripts and stylesheets *)
(** a page that is built is written event by event; the files reported are those that the
    references, the templates and the handlers name *)
Theorem C51_build : forall h relpath p fragment show js_scan css_scan js_build css_build, page_file relpath p -> (forall text, Forall tag_ok (fragment text)) ->
  forall f ts out s', Forall tag_ok ts -> passes (Some h) relpath fragment show js_scan css_scan js_build css_build false f ts out s' ->
  exists evs rs, page fragment show {| fr_path := relpath; fr_vars := [] |} [] ts evs (t_frame s') (t_stack s') /\ writes h p js_build css_build 0 0 f evs out (files s') rs /\
    (forall q, In q (links s') <-> referred evs q) /\ (forall q, In q (t_seen s') <-> templates evs q) /\
    (forall q, In q (o_seen s') <-> exists r, In r rs /\ In q (children r)) /\ (forall q, In q (o_made s') <-> exists r, In r rs /\ In q (produced r)) /\
    (forall q, In q (o_reused s') <-> exists r, In r rs /\ In q (reused r)).
Proof. intros. eapply build_page; eassumption. Qed.
Print Assumptions C51_build.
(** and every page whose events can be written is *)
Theorem C51_build_succeeds : forall h relpath p fragment show js_scan css_scan js_build css_build, page_file relpath p -> (forall text, Forall tag_ok (fragment text)) ->
  forall f ts evs fr st out f' rs, Forall tag_ok ts -> page fragment show {| fr_path := relpath; fr_vars := [] |} [] ts evs fr st -> writes h p js_build css_build 0 0 f evs out f' rs ->
  exists s', passes (Some h) relpath fragment show js_scan css_scan js_build css_build false f ts out s' /\ files s' = f'.
Proof. intros. eapply build_succeeds; eassumption. Qed.
Print Assumptions C51_build_succeeds.
(** the same for scanning *)
Theorem C51_scan : forall h relpath p fragment show js_scan css_scan js_build css_build, page_file relpath p -> (forall text, Forall tag_ok (fragment text)) ->
  forall f ts out s', Forall tag_ok ts -> passes (Some h) relpath fragment show js_scan css_scan js_build css_build true f ts out s' ->
  exists evs rs, page fragment show {| fr_path := relpath; fr_vars := [] |} [] ts evs (t_frame s') (t_stack s') /\ scans p js_scan css_scan 0 0 f evs out (files s') rs /\
    (forall q, In q (links s') <-> referred evs q) /\ (forall q, In q (t_seen s') <-> templates evs q) /\
    (forall q, In q (o_seen s') <-> exists r, In r rs /\ In q (dependencies r)) /\ (forall q, In q (o_made s') <-> exists r, In r rs /\ In q (produces r)).
Proof. intros. eapply scan_page; eassumption. Qed.
Print Assumptions C51_scan.
Theorem C51_scan_succeeds : forall h relpath p fragment show js_scan css_scan js_build css_build, page_file relpath p -> (forall text, Forall tag_ok (fragment text)) ->
  forall f ts evs fr st out f' rs, Forall tag_ok ts -> page fragment show {| fr_path := relpath; fr_vars := [] |} [] ts evs fr st -> scans p js_scan css_scan 0 0 f evs out f' rs ->
  exists s', passes (Some h) relpath fragment show js_scan css_scan js_build css_build true f ts out s' /\ files s' = f'.
Proof. intros. eapply scan_succeeds; eassumption. Qed.
Print Assumptions C51_scan_succeeds.
(** the example: scripts and stylesheets are copied and hashed *)
Example C51_example : page_file x_page (lit "a/index") /\ (forall text, Forall tag_ok (x_fragment text)) /\ Forall tag_ok x_tokens /\
  (exists s', x_passes false x_files x_tokens x_out s' /\ links s' = [lit "src/public/css/main.css"] /\ t_seen s' = [lit "src/partials/head.html"; lit "src/partials/nav.html"] /\
     dget (lit "out/www/js/gen/a/index/1.js") (files s') = Some (lit "run ()") /\ dget (lit "src/public/js/gen/a/index/1.js") (files s') = None) /\
  (exists out s', x_passes true x_files x_tokens out s' /\ links s' = [lit "src/public/css/main.css"] /\ t_seen s' = [lit "src/partials/head.html"; lit "src/partials/nav.html"] /\ In (lit "out/www/js/gen/a/index/1.js") (o_made s')).
Proof. exact (conj x_page_ok (conj x_fragment_ok (conj x_tokens_ok (conj x_build_ok x_scan_ok)))). Qed.
(** a style tag with an attribute is an error *)
Theorem C51_style_refuted : forall scan, x_pump (Some (lit "example.com")) scan 9 [HStart (lit "style") [(lit "media", lit "print")]; HChars (lit "p{}"); HEnd (lit "style")] = Raise TypeError.
Proof. intros [|]; vm_compute; reflexivity. Qed.
Print Assumptions C51_style_refuted.
(** a file of the project that has the name of an outlined script is lost *)
Theorem C51_lost_refuted : exists ts out b, dget (lit "src/public/js/gen/a/index/2.js") x_files = Some (lit "mine") /\
  x_pump (Some (lit "example.com")) true 9 ts = Ret (out, b) /\ dget (lit "src/public/js/gen/a/index/2.js") (files (b_st b)) = None.
Proof. exists [HStart (lit "script") []; HChars (lit "a"); HEnd (lit "script"); HStart (lit "script") []; HChars (lit "b"); HEnd (lit "script")]. eexists. eexists. split; [reflexivity|]. split; [vm_compute; reflexivity|reflexivity]. Qed.
Print Assumptions C51_lost_refuted.
(** data in a script tag is moved to a JavaScript file, where the page cannot find it *)
Theorem C51_data_refuted : exists b, x_pump (Some (lit "example.com")) false 9 [HStart (lit "script") [(lit "type", lit "application/ld+json")]; HChars (lit "{}"); HEnd (lit "script")] =
  Ret ([HStart (lit "script") [(lit "src", lit "/js/gen/a/index/1.js?v=hash-of-%7B%7D&pv=" ++ PROCESSOR_VERSION); (lit "type", lit "application/ld+json")]; HEnd (lit "script")], b).
Proof. eexists. vm_compute. reflexivity. Qed.
Print Assumptions C51_data_refuted.

(** * C41: templates *)
(** if no [push] or [pop] is written by hand, templates are calls: they see the variables
    passed to them, and leave the variables of the page alone *)
Theorem C41_build : forall h relpath p fragment show js_scan css_scan js_build css_build, page_file relpath p -> (forall text, Forall tag_ok (fragment text)) -> written relpath -> (forall text, Forall plain_token (fragment text)) ->
  forall f ts out s', Forall tag_ok ts -> Forall plain_token ts -> passes (Some h) relpath fragment show js_scan css_scan js_build css_build false f ts out s' ->
  exists evs rs, expand fragment show {| fr_path := relpath; fr_vars := [] |} ts evs (t_frame s') /\ t_stack s' = [] /\ writes h p js_build css_build 0 0 f evs out (files s') rs /\ (forall q, In q (t_seen s') <-> templates evs q).
Proof. exact template_build. Qed.
Print Assumptions C41_build.
Theorem C41_build_succeeds : forall h relpath p fragment show js_scan css_scan js_build css_build, page_file relpath p -> (forall text, Forall tag_ok (fragment text)) -> written relpath -> (forall text, Forall plain_token (fragment text)) ->
  forall f ts evs fr out f' rs, Forall tag_ok ts -> Forall plain_token ts -> expand fragment show {| fr_path := relpath; fr_vars := [] |} ts evs fr -> writes h p js_build css_build 0 0 f evs out f' rs ->
  exists s', passes (Some h) relpath fragment show js_scan css_scan js_build css_build false f ts out s' /\ files s' = f'.
Proof. exact template_build_succeeds. Qed.
Print Assumptions C41_build_succeeds.
Theorem C41_scan : forall h relpath p fragment show js_scan css_scan js_build css_build, page_file relpath p -> (forall text, Forall tag_ok (fragment text)) -> written relpath -> (forall text, Forall plain_token (fragment text)) ->
  forall f ts out s', Forall tag_ok ts -> Forall plain_token ts -> passes (Some h) relpath fragment show js_scan css_scan js_build css_build true f ts out s' ->
  exists evs rs, expand fragment show {| fr_path := relpath; fr_vars := [] |} ts evs (t_frame s') /\ t_stack s' = [] /\ scans p js_scan css_scan 0 0 f evs out (files s') rs /\ (forall q, In q (t_seen s') <-> templates evs q).
Proof. exact template_scan. Qed.
Print Assumptions C41_scan.
(** in the example the template [head.html] passes its title on to [nav.html], which has its
    own *)
Example C41_example : page_file x_page (lit "a/index") /\ (forall text, Forall tag_ok (y_fragment text)) /\ written x_page /\ (forall text, Forall plain_token (y_fragment text)) /\ Forall tag_ok x_tokens /\ Forall plain_token x_tokens /\ exists s', y_passes false x_files x_tokens x_out s'.
Proof. exact (conj x_page_ok (conj y_fragment_ok (conj x_page_written (conj y_fragment_plain (conj x_tokens_ok (conj x_tokens_plain y_build_ok)))))). Qed.
(** a template with a [pop] changes the variables of the page *)
Theorem C41_pop_refuted : exists b, x_pump (Some (lit "example.com")) false 20 [HComment (lit "[TEMPLATE: [""/escape.html""]]"); HComment (lit "[STACK: [""retrieve"", ""x""]]")] = Ret ([HChars (lit "leaked")], b).
Proof. eexists. vm_compute. reflexivity. Qed.
Print Assumptions C41_pop_refuted.
(** the path of a template next to the page is taken as a path below the page's file *)
Theorem C41_relative_refuted : dget (lit "src/public/a/b.html") x_files <> None /\ x_pump (Some (lit "example.com")) false 20 [HComment (lit "[TEMPLATE: [""b.html""]]")] = Raise FileNotFoundError /\
  forall path, template_path x_page (lit "b.html") path -> path = lit "src/public/a/index.html/b.html".
Proof. split; [discriminate|]. split; [vm_compute; reflexivity|]. intros path H. inversion H; subst. reflexivity. Qed.
Print Assumptions C41_relative_refuted.
(** a template that includes itself keeps the build from ending *)
Theorem C41_self_refuted : forall scan host fuel, x_pump host scan fuel [x_self] = Raise OutOfFuel.
Proof. exact self_pump. Qed.
Print Assumptions C41_self_refuted.

(** * C42: canonical hints *)
(** in a page of hints, references and other tokens every hint without host gets the host's
    url, every reference without version gets its version, and the rest is kept *)
Theorem C42_tokens : forall h relpath p fragment show js_scan css_scan js_build css_build, page_file relpath p -> (forall text, Forall tag_ok (fragment text)) ->
  forall f ts out, Forall tag_ok ts -> Forall one_by_one ts ->
  ((exists s', passes (Some h) relpath fragment show js_scan css_scan js_build css_build false f ts out s') <-> Forall2 (becomes h p f) ts out).
Proof. intros. apply one_by_one_build; assumption. Qed.
Print Assumptions C42_tokens.
(** what was built has no hint without host, whatever the page *)
Theorem C42_once : forall h relpath fragment show js_scan css_scan js_build css_build f ts out s', passes (Some h) relpath fragment show js_scan css_scan js_build css_build false f ts out s' ->
  forall t name attrs n, In t out -> hint t name attrs n -> exists u r, dget n attrs = Some u /\ u = lit "http" ++ r.
Proof. exact built_hints. Qed.
Print Assumptions C42_once.
(** without a host, a page with such a hint is refused when it is scanned *)
Theorem C42_host : forall relpath fragment show js_scan css_scan js_build css_build f a t name attrs n r fuel, Forall ordinary a -> hint t name attrs n -> local_hint attrs n ->
  pump (manipulators None relpath fragment show js_scan css_scan js_build css_build true) (S fuel) (a ++ t :: r) (new_builder (h_init relpath f)) = Raise MissingConfigurationException.
Proof. exact host_missing. Qed.
Print Assumptions C42_host.
Example C42_example : let ts := firstn 4 x_tokens in Forall tag_ok ts /\ Forall one_by_one ts /\ Forall2 (becomes (lit "example.com") (lit "a/index") x_files) ts (firstn 4 x_out).
Proof. exact x_one_by_one. Qed.
(** a url without leading slash is appended to the host's name *)
Theorem C42_relative_refuted : exists b, x_pump (Some (lit "example.com")) false 9 [HEmpty (lit "link") [(lit "href", lit "about.html"); (lit "rel", lit "canonical")]] =
  Ret ([HEmpty (lit "link") [(lit "href", lit "https://example.comabout.html"); (lit "rel", lit "canonical")]], b).
Proof. eexists. vm_compute. reflexivity. Qed.
Print Assumptions C42_relative_refuted.
(** a page that is built without being scanned, without host, refers to a host None *)
Theorem C42_none_refuted : exists b, x_pump None false 9 [HEmpty (lit "link") [(lit "rel", lit "canonical")]] = Ret ([HEmpty (lit "link") [(lit "href", lit "https://None/a/index.html"); (lit "rel", lit "canonical")]], b).
Proof. eexists. vm_compute. reflexivity. Qed.
Print Assumptions C42_none_refuted.

(** * C43: versions of references *)
(** in a page of hints, references and other tokens every reference to a file of the site
    gets the version of that file; other tokens, and other attributes, are kept *)
Theorem C43_tokens : forall h relpath p fragment show js_scan css_scan js_build css_build, page_file relpath p -> (forall text, Forall tag_ok (fragment text)) ->
  forall f ts out s', Forall tag_ok ts -> Forall one_by_one ts -> passes (Some h) relpath fragment show js_scan css_scan js_build css_build false f ts out s' ->
  Forall2 (fun t t' => (forall attrs n path, reference t attrs n -> site_path attrs n path -> exists h, dget (in_output path ++ lit ".hash") f = Some h /\ new_ref t n (version (47 :: path) (strip h)) t') /\
                       (ordinary t -> t' = t)) ts out.
Proof. exact built_refs. Qed.
Print Assumptions C43_tokens.
(** the files reported, by scanning and by building, are those that the references name *)
Theorem C43_reported : forall h relpath p fragment show js_scan css_scan js_build css_build, page_file relpath p -> (forall text, Forall tag_ok (fragment text)) ->
  forall scan f ts out s', Forall tag_ok ts -> Forall one_by_one ts -> passes (Some h) relpath fragment show js_scan css_scan js_build css_build scan f ts out s' ->
  forall q, In q (links s') <-> exists t attrs n path, In t ts /\ reference t attrs n /\ site_path attrs n path /\ q = in_public path.
Proof. intros. eapply one_by_one_links; eassumption. Qed.
Print Assumptions C43_reported.
(** what was built, whatever the page, is not changed by another pass, which touches no
    file and reports none *)
Theorem C43_once : forall h relpath fragment show js_scan css_scan js_build css_build f ts out s', passes (Some h) relpath fragment show js_scan css_scan js_build css_build false f ts out s' ->
  forall scan f2 out2 s2, passes (Some h) relpath fragment show js_scan css_scan js_build css_build scan f2 out out2 s2 <-> out2 = out /\ s2 = h_init relpath f2.
Proof. exact built_again. Qed.
Print Assumptions C43_once.
(** a script that also has an attribute href loses it *)
Theorem C43_href_refuted : exists b, x_pump (Some (lit "example.com")) false 9 [HStart (lit "script") [(lit "href", lit "x"); (lit "src", lit "/css/main.css")]] =
  Ret ([HStart (lit "script") [(lit "src", lit "/css/main.css?v=abc&pv=" ++ PROCESSOR_VERSION)]], b).
Proof. eexists. vm_compute. reflexivity. Qed.
Print Assumptions C43_href_refuted.
(** a reference to another site that inherits the protocol is taken for a file *)
Theorem C43_protocol_refuted : x_pump (Some (lit "example.com")) false 9 [HStart (lit "script") [(lit "src", lit "//cdn.example.org/x.js")]] = Raise AssertionError /\
  exists out b, x_pump (Some (lit "example.com")) true 9 [HStart (lit "script") [(lit "src", lit "//cdn.example.org/x.js")]] = Ret (out, b) /\ links (b_st b) = [lit "/cdn.example.org/x.js"].
Proof. split; [vm_compute; reflexivity|]. eexists. eexists. split; [vm_compute; reflexivity|reflexivity]. Qed.
Print Assumptions C43_protocol_refuted.
