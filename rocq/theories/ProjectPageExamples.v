(** A small project with a page: built, and built again after an edit of the stylesheet it links
    to and of the partial it includes. *)
From Verif Require Import Base Graph GraphSpec GraphProofs PyStr PyPath PyNorm PathSpec Json Html HtmlSpec HtmlExamples Js Builder JsYield JsManip JsManipSpec Handlers Hot HotSpec HotDrive HotGraphs HotResultSpec HotResultExamples HotWantSpec Cold ColdSpec ColdExamples
  Project ProjectSpec ProjectExamples ProjectSite ProjectSiteProofs ProjectSiteExamples ColdMain ColdStop ColdStopRun.
From Coq Require Import String ZArith NArith Bool List.
Import ListNotations.
Open Scope list_scope.

Definition pg_attr (kv : str * str) : str := lit " " ++ fst kv ++ lit "=" ++ snd kv.
Definition pg_write (ts : list htoken) : str :=
  flat_map (fun t => match t with HStart n l | HEmpty n l => lit "<" ++ n ++ flat_map pg_attr l ++ lit ">" | HEnd n => lit "</" ++ n ++ lit ">" | HChars x | HSpace x => x | HComment x => lit "<!--" ++ x ++ lit "-->" | HOther x => x end) ts.
(** all pages of the example have the same head *)
Definition pg_document (text : str) : list htoken :=
  [HEmpty (lit "link") [(lit "rel", lit "canonical"); (lit "href", lit "/a")]; HEmpty (lit "link") [(lit "rel", lit "stylesheet"); (lit "href", lit "/css/main.css")]; HComment (lit "[TEMPLATE: [""/nav.html"", {""t"": ""Home""}]]"); HChars text].
Definition pg_fragment (text : str) : list htoken :=
  if str_eqb text (lit "LINK") then [HEmpty (lit "link") [(lit "rel", lit "stylesheet"); (lit "href", lit "/css/extra.css")]] else [HStart (lit "nav") []; HComment (lit "[STACK: [""retrieve"", ""t""]]"); HChars text; HEnd (lit "nav")].
Definition pg_K : setting := {| k_cwd := lit "/p"; k_folder := lit "."; k_type_name := fun _ => []; k_fuel := 60; k_float := unit; k_float_of := fun _ => Some tt; k_float_str := fun _ => lit "0.5";
  k_high_digit := fun _ => false; k_int_high := fun _ => None; k_css := lit "src/public/css/main.css"; k_pick := fun _ _ => 0%nat;
  k_host := Some (lit "example.com"); k_document := pg_document; k_fragment := pg_fragment; k_show := fun x => x; k_write := pg_write |}.
Lemma pg_css : exists r, k_css pg_K = lit "src/public/" ++ r /\ starts_with (lit "/") r = false.
Proof. exists (lit "css/main.css"). split; reflexivity. Qed.
Lemma pg_tags text : Forall tag_ok (pg_document text) /\ Forall tag_ok (pg_fragment text).
Proof. unfold pg_document, pg_fragment. split; [|destruct (str_eqb text (lit "LINK"))]; repeat (constructor; [first [exact I|apply attrs_nodup; reflexivity]|]); constructor. Qed.
Definition pg_main := lit "src/public/css/main.css". Definition pg_page := lit "src/public/index.html". Definition pg_nav := lit "src/partials/nav.html". Definition pg_extra := lit "src/public/css/extra.css".
Definition pg_names := [pg_main; pg_extra; pg_nav; pg_page; c_relpath exs_c].
Definition pg_sources : fs := fs_set pg_extra (lit "q { color: red }") (fs_set pg_main (lit "p { color: red }") (fs_set pg_page (lit "Hello") (fs_set pg_nav (lit " menu") (fs_set (c_relpath exs_c) (lit "// constants") (fun _ => None))))).
Definition pg_change (s : fs) : fs := fs_set pg_nav (lit " new menu") (fs_set pg_main (lit "p { color: blue }") s).
Lemma pg_page_ok : page_file pg_page (lit "index").
Proof. exists [], (lit "index"). split; [reflexivity|]. split; [left; reflexivity|]. split; [intros X; repeat (destruct X as [X|X]; [discriminate X|]); exact X|]. split; [exists 105%N; split; [left; reflexivity|discriminate]|reflexivity]. Qed.
Notation pgs_build := (fun dev => file_build ex_sha exs_c dev pg_K).
Notation pgs_scan := (scan_no_placeholders exs_c pg_K).
Notation pgs_site := (site ex_sha exs_c pg_K w_stat).
Notation pgs_builds := (builds ex_sha exs_c pg_K w_stat).
Definition pgs_run (dev : bool) (p : project) (order : list str) : option (option run * project) := run_cold (pgs_build dev) pgs_scan w_stat (c_relpath exs_c) dev 1 60 p pg_names order pg_names.
Definition pgs_run_done (o : option (option run * project)) : bool := match o with Some _ => true | None => false end.
Lemma pgs_done o : pgs_run_done o = true -> o = Some (the o).
Proof. destruct o; [reflexivity|discriminate]. Qed.
Lemma pgs_sound dev p order x : lists (p_fs p) pg_names -> pgs_run dev p order = Some x -> pgs_builds dev p (fst x) (snd x).
Proof. intros HL H. destruct x as [r p1]. unfold pgs_run in H. exact (run_cold_sound _ _ _ _ _ _ _ _ _ _ _ _ _ HL H). Qed.

Definition pgs_new : project := mkProject pg_sources None empty_graph empty_graph empty_graph.
Definition pgs_first := the (pgs_run false pgs_new pg_names).
Definition pgs_edited : project := mkProject (pg_change (p_fs (snd pgs_first))) (p_mode (snd pgs_first)) (p_D (snd pgs_first)) (p_O (snd pgs_first)) (p_P (snd pgs_first)).
Definition pgs_second := the (pgs_run false pgs_edited [pg_nav; pg_main; pg_page]).
Lemma pgs_first_ok : pgs_run false pgs_new pg_names = Some pgs_first.
Proof. apply pgs_done. vm_compute. reflexivity. Qed.
Lemma pgs_second_ok : pgs_run false pgs_edited [pg_nav; pg_main; pg_page] = Some pgs_second.
Proof. apply pgs_done. vm_compute. reflexivity. Qed.
Lemma pg_sources_names f : pg_sources f <> None <-> In f pg_names.
Proof.
  unfold pg_sources, pg_names, fs_set. split.
  - intros H. destruct (str_eqb f pg_extra) eqn:E0; [apply str_eqb_eq in E0; subst; simpl; auto 6|]. destruct (str_eqb f pg_main) eqn:E1; [apply str_eqb_eq in E1; subst; simpl; auto 6|]. destruct (str_eqb f pg_page) eqn:E2; [apply str_eqb_eq in E2; subst; simpl; auto 6|].
    destruct (str_eqb f pg_nav) eqn:E3; [apply str_eqb_eq in E3; subst; simpl; auto 6|]. destruct (str_eqb f (c_relpath exs_c)) eqn:E4; [apply str_eqb_eq in E4; rewrite E4; simpl; auto 6|]. contradiction.
  - intros [<-|[<-|[<-|[<-|[<-|[]]]]]]; vm_compute; discriminate.
Qed.
Lemma pg_nav_source : source_name pg_nav.
Proof.
  split; [right|intros (r & E); assert (X : ends_with (lit ".hash") pg_nav = true) by (apply ends_with_iff; eauto); discriminate X]. exists [lit "partials"; lit "nav.html"]. split; [|split; [reflexivity|]].
  - repeat constructor; apply name_b_spec; reflexivity.
  - intros (r & E). assert (X : starts_with (lit "src/public") pg_nav = true) by (rewrite E; reflexivity). discriminate X.
Qed.
Lemma pg_names_src f : In f pg_names -> in_src f = true /\ source_name f.
Proof. intros [<-|[<-|[<-|[<-|[<-|[]]]]]]; (split; [reflexivity|first [exact pg_nav_source|apply source_b_spec; vm_compute; reflexivity]]). Qed.
Lemma pg_lists s : (forall f, in_src f = true -> s f <> None <-> pg_sources f <> None) -> lists s pg_names.
Proof.
  intros H. split.
  - repeat constructor; vm_compute; intuition discriminate.
  - intros f. rewrite <- pg_sources_names. split.
    + intros X. assert (I : in_src f = true) by (apply pg_names_src, pg_sources_names, X). split; [exact I|]. apply H; assumption.
    + intros (I & X). apply H; assumption.
Qed.
Lemma pg_proper s : lists s pg_names -> forall f, in_src f = true -> s f <> None -> source_name f.
Proof. intros (_ & L) f I X. apply pg_names_src, L. auto. Qed.
Lemma pg_first_lists : lists (p_fs pgs_new) pg_names.
Proof. apply pg_lists. intros f _. reflexivity. Qed.
Lemma pg_new_site dev : pgs_site dev pg_sources pgs_new.
Proof. apply site_new. intros r. reflexivity. Qed.
Lemma pg_first_builds : pgs_builds false pgs_new (fst pgs_first) (snd pgs_first).
Proof. exact (pgs_sound _ _ _ _ pg_first_lists pgs_first_ok). Qed.
Lemma pg_first_site : pgs_site false (p_fs (snd pgs_first)) (snd pgs_first).
Proof. eapply site_built; [exact (pg_new_site true)|exact (pg_proper _ pg_first_lists)|exact pg_first_builds]. Qed.
Lemma pg_edited_site : pgs_site false (p_fs (snd pgs_first)) pgs_edited.
Proof. apply site_edited; [exact pg_first_site|]. intros r. generalize (p_fs (snd pgs_first)). intros s. reflexivity. Qed.
Lemma pg_edited_lists : lists (p_fs pgs_edited) pg_names.
Proof.
  apply pg_lists. intros f I. unfold pgs_edited. cbn [p_fs]. unfold pg_change, fs_set. destruct (str_eqb f pg_nav) eqn:E; [apply str_eqb_eq in E; subst f; split; vm_compute; discriminate|]. destruct (str_eqb f pg_main) eqn:E'; [apply str_eqb_eq in E'; subst f; split; vm_compute; discriminate|].
  rewrite (built_sources ex_sha exs_c pg_K w_stat (proj1 w_stat_ok) (proj2 w_stat_ok) eq_refl eq_refl pg_css true pg_sources pgs_new false _ _ (pg_new_site true) pg_first_builds f (in_src_not_out f I)). reflexivity.
Qed.
Lemma pg_second_builds : pgs_builds false pgs_edited (fst pgs_second) (snd pgs_second).
Proof. exact (pgs_sound _ _ _ _ pg_edited_lists pgs_second_ok). Qed.
Notation pgs_just_built := (just_built ex_sha exs_c pg_K w_stat).
Lemma pg_second_just : pgs_just_built false (snd pgs_second).
Proof. exists false, (p_fs (snd pgs_first)), pgs_edited, (fst pgs_second). split; [exact pg_edited_site|]. split; [exact (pg_proper _ pg_edited_lists)|exact pg_second_builds]. Qed.
Lemma pg_first_just : pgs_just_built false (snd pgs_first).
Proof. exists true, pg_sources, pgs_new, (fst pgs_first). split; [exact (pg_new_site true)|]. split; [exact (pg_proper _ pg_first_lists)|exact pg_first_builds]. Qed.


(** the partial now links to a stylesheet that is also edited *)
Definition pgs_linked : project :=
  mkProject (fs_set pg_nav (lit "LINK") (fs_set pg_extra (lit "q { color: blue }") (p_fs (snd pgs_first)))) (p_mode (snd pgs_first)) (p_D (snd pgs_first)) (p_O (snd pgs_first)) (p_P (snd pgs_first)).
Definition pgs_third := the (pgs_run false pgs_linked [pg_nav; pg_extra; pg_page]).
Lemma pgs_third_ok : pgs_run false pgs_linked [pg_nav; pg_extra; pg_page] = Some pgs_third.
Proof. apply pgs_done. vm_compute. reflexivity. Qed.
Definition pgs_stop : option exn := run_stop (pgs_build false) pgs_scan w_stat (c_relpath exs_c) false 60 pgs_linked pg_names [pg_extra; pg_nav; pg_page].
Lemma pg_linked_site : pgs_site false (p_fs (snd pgs_first)) pgs_linked.
Proof. apply site_edited; [exact pg_first_site|]. intros r. generalize (p_fs (snd pgs_first)). intros s. reflexivity. Qed.
Lemma pg_linked_lists : lists (p_fs pgs_linked) pg_names.
Proof.
  apply pg_lists. intros f I. unfold pgs_linked. cbn [p_fs]. unfold fs_set. destruct (str_eqb f pg_nav) eqn:E; [apply str_eqb_eq in E; subst f; split; vm_compute; discriminate|]. destruct (str_eqb f pg_extra) eqn:E'; [apply str_eqb_eq in E'; subst f; split; vm_compute; discriminate|].
  rewrite (built_sources ex_sha exs_c pg_K w_stat (proj1 w_stat_ok) (proj2 w_stat_ok) eq_refl eq_refl pg_css true pg_sources pgs_new false _ _ (pg_new_site true) pg_first_builds f (in_src_not_out f I)). reflexivity.
Qed.
Lemma pg_third_builds : pgs_builds false pgs_linked (fst pgs_third) (snd pgs_third).
Proof. exact (pgs_sound _ _ _ _ pg_linked_lists pgs_third_ok). Qed.
Lemma pg_stops : cold_stops (pgs_build false) pgs_scan w_stat (c_relpath exs_c) false pgs_linked RuntimeError.
Proof. apply (run_stop_sound _ _ _ _ _ 60 _ pg_names [pg_extra; pg_nav; pg_page]); [exact pg_linked_lists|vm_compute; reflexivity]. Qed.
