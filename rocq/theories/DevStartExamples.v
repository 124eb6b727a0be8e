(** The small project of ProjectPageExamples.v and the development server. *)
From Verif Require Import Base Graph GraphSpec GraphProofs PyStr PyPath PyNorm PathSpec Json JsonProofs GraphJson GraphJsonProofs Octal Css NestSpec Html HtmlSpec HtmlExamples Js Builder JsYield JsManip JsManipSpec Handlers Hot HotSpec HotDrive HotGraphs HotResultSpec HotResultExamples HotWantSpec Cold ColdSpec ColdExamples
  Project ProjectSpec ProjectExamples ProjectSite ProjectSiteProofs ProjectSiteExamples ColdMain ColdStop ColdStopRun ProjectPageExamples ProjectOrderSpec ProjectOrderFirst ProjectOrderSite ProjectOrderStart ProjectOrderExamples DevStart DevStartSpec DevStartProofs DevStartSite.
From Coq Require Import String ZArith NArith Bool List.
Import ListNotations.
Open Scope list_scope.

Notation ds_completes := (completes parse_O print_O pgs_build pgs_scan w_stat (c_relpath exs_c)).
Notation ds_raises := (raises parse_O pgs_build pgs_scan w_stat (c_relpath exs_c)).
Notation ds_start := (dev_start parse_O print_O pgs_build pgs_scan w_stat (c_relpath exs_c)).

(** the folder after a first start *)
Definition ds_first := the (pgs_run true pgs_new pg_names).
Lemma ds_first_ok : pgs_run true pgs_new pg_names = Some ds_first.
Proof. apply pgs_done. vm_compute. reflexivity. Qed.
Lemma ds_first_builds : pgs_builds true pgs_new (fst ds_first) (snd ds_first).
Proof. exact (pgs_sound _ _ _ _ pg_first_lists ds_first_ok). Qed.
Lemma ds_first_site : pgs_site true (p_fs (snd ds_first)) (snd ds_first).
Proof. eapply site_built; [exact (pg_new_site true)|exact (pg_proper _ pg_first_lists)|exact ds_first_builds]. Qed.
Definition ds_text (g : graph) : option str := Some (store print_O g).
Definition ds_tD := ds_text (p_D (snd ds_first)).
Definition ds_tO := ds_text (p_O (snd ds_first)).
Definition ds_tP := ds_text (p_P (snd ds_first)).
Definition ds_folder (s : fs) : stored := mkStored Configured s (p_mode (snd ds_first)) ds_tD ds_tO ds_tP.
Definition ds_read (d : stored) : project := match read_project parse_O d with Some p => p | None => pgs_new end.
Lemma ds_some (o : option project) : match o with Some _ => true | None => false end = true -> o = Some match o with Some p => p | None => pgs_new end.
Proof. destruct o; [reflexivity|discriminate]. Qed.

(** a source of that project, or one that is edited *)
Definition ds_like (s : fs) : Prop := forall f, in_src f = true -> (s f <> None <-> pg_sources f <> None).
Lemma ds_built_kept r p : pgs_builds true pgs_new r p -> forall f, below_out f = false -> p_fs p f = pg_sources f.
Proof.
  intros HB f H. pose (d := mkStored Configured pg_sources None None None None). assert (HS : sane below_out parse_O d) by (intros p0 E; injection E as <-; intros f0 o []).
  assert (X : exists d1, ds_completes true d d1 /\ d_fs d1 = p_fs p) by (destruct r as [w|]; eexists; (split; [first [eapply completes_run; [reflexivity|reflexivity|exact HB]|eapply completes_idle; [reflexivity|reflexivity|exact HB]]|reflexivity])).
  destruct X as (d1 & X & <-). exact (proj1 (completed_kept parse_O print_O ex_sha exs_c pg_K w_stat true d d1 HS X) f H).
Qed.
Lemma ds_kept f : below_out f = false -> p_fs (snd ds_first) f = pg_sources f.
Proof. exact (ds_built_kept _ _ ds_first_builds f). Qed.
Lemma ds_sources_src q : below_out q = true -> pg_sources q = None.
Proof. intros H. destruct (pg_sources q) eqn:E; [|reflexivity]. exfalso. assert (X : In q pg_names) by (apply pg_sources_names; congruence). apply pg_names_src in X. rewrite (src_not_below q (proj1 X)) in H. discriminate. Qed.
(** a first build in a folder with these sources and an emptied out folder *)
Lemma ds_again s s0 x : (forall q, below_out q = false -> s q = s0 q) -> (forall q, below_out q = true -> s0 q = None) -> pgs_builds true (unbuilt s0) (fst x) (snd x) ->
  exists r p1, pgs_builds true (unbuilt (fun q => if below_out q then None else s q)) r p1 /\ forall q, p_fs p1 q = p_fs (snd x) q.
Proof.
  intros H H0 HB. destruct (ProjectSame.cold_same (pgs_build true) pgs_scan w_stat (c_relpath exs_c) true (proj1 w_stat_ok) (ProjectSame.build_same ex_sha exs_c pg_K true) (ProjectSame.scan_same exs_c pg_K) (no_placeholders exs_c pg_K) _ _ _ (fun q => if below_out q then None else s q) HB) as (r & p1 & B & E & _).
  - intros q. cbn [p_fs unbuilt]. destruct (below_out q) eqn:E; [rewrite (H0 q E); reflexivity|rewrite (H q E); reflexivity].
  - exists r, p1. split; [exact B|]. intros q. rewrite E. reflexivity.
Qed.
Lemma ds_simple s : (forall f, in_src f = true -> f <> pg_nav -> f <> pg_extra -> s f = pg_sources f) -> s pg_extra = Some (lit "q { color: red }") \/ s pg_extra = Some (lit "q { color: blue }") ->
  forall f, in_src f = true -> s f <> None -> f <> pg_nav -> simple exs_c pg_K s f.
Proof.
  intros Hs He f I Hf Hn. destruct (str_eqb f pg_extra) eqn:Ex.
  - apply str_eqb_eq in Ex. subst f. split; [intros Hb; vm_compute in Hb; discriminate Hb|]. intros _ text ts Ht Hts t Hi r. destruct He as [He|He]; rewrite He in Ht; injection Ht as <-; (eapply og_plain; [|exact Hi]); vm_compute in Hts; injection Hts as <-; reflexivity.
  - assert (N : f <> pg_extra) by (intros ->; rewrite str_eqb_refl in Ex; discriminate). pose proof (Hs f I Hn N) as E. destruct (og_simple pg_sources f (fun _ _ => eq_refl) I) as (A & B); [rewrite <- E; exact Hf|]. unfold simple. rewrite E. split; [exact A|exact B].
Qed.
Lemma ds_nav s : simple exs_c pg_K s pg_nav.
Proof. split; intros Hb; vm_compute in Hb; discriminate Hb. Qed.

(** the dependency graph is cut off *)
Definition ds_torn : stored := let d := ds_folder (p_fs (snd ds_first)) in mkStored (d_config d) (d_fs d) (d_mode d) (Some (firstn 100 (store print_O (p_D (snd ds_first))))) (d_O d) (d_P d).
Definition safe_b (s : str) : bool := forallb (fun c => N.ltb c 128) s.
Lemma safe_b_spec s : safe_b s = true -> json_safe s.
Proof.
  induction s as [|c r IH]; [intros _; exact I|]. unfold safe_b. cbn [forallb]. rewrite andb_true_iff, N.ltb_lt. intros (A & B). cbn [json_safe]. split; [eapply N.lt_trans; [exact A|reflexivity]|]. split; [|apply IH; exact B].
  destruct r; [trivial|]. intros H. exfalso. unfold is_high in H. apply andb_true_iff in H. destruct H as (H & _). apply N.leb_le in H. apply (N.lt_irrefl c). eapply N.lt_le_trans; [exact A|]. eapply N.le_trans; [|exact H]. discriminate.
Qed.
Lemma ds_not_nil {A} (l : list A) : match l with [] => true | _ => false end = false -> l <> [].
Proof. intros H ->. discriminate. Qed.
Lemma ds_formed dev last p : pgs_site dev last p -> well_formed (p_D p).
Proof. intros H. apply (site_kept ex_sha exs_c pg_K w_stat (proj1 w_stat_ok) (proj2 w_stat_ok) eq_refl eq_refl pg_css) in H. apply kept_sound in H. destruct H as ((W & _) & _). exact W. Qed.
Lemma ds_torn_ok : torn_graphs print_O ds_torn.
Proof.
  left. exists (p_D (snd ds_first)), (firstn 100 (store print_O (p_D (snd ds_first)))), (skipn 100 (store print_O (p_D (snd ds_first)))).
  split; [exact (ds_formed _ _ _ ds_first_site)|]. split.
  - assert (X : forallb safe_b (dkeys (p_D (snd ds_first))) = true) by (vm_compute; reflexivity). intros a Ha. apply dmem_In in Ha. rewrite forallb_forall in X. apply safe_b_spec, X, Ha.
  - split; [symmetry; apply firstn_skipn|]. split; [|reflexivity]. apply ds_not_nil. vm_compute. reflexivity.
Qed.
Lemma ds_torn_simple f : in_src f = true -> d_fs ds_torn f <> None -> source_name f /\ simple exs_c pg_K (d_fs ds_torn) f.
Proof.
  intros I Hf. unfold ds_torn, ds_folder in *; cbn [d_fs] in *. assert (E : p_fs (snd ds_first) f = pg_sources f) by (apply ds_kept, src_not_below, I). split; [apply (pg_proper _ pg_first_lists f I); cbn [pgs_new p_fs]; rewrite <- E; exact Hf|].
  apply og_simple; [|exact I|exact Hf]. intros g Ig. apply ds_kept, src_not_below, Ig.
Qed.
Lemma ds_torn_first : exists r p1, pgs_builds true (unbuilt (d_fs (without_out ds_torn))) r p1 /\ forall q, p_fs p1 q = p_fs (snd ds_first) q.
Proof. exact (ds_again (p_fs (snd ds_first)) pg_sources ds_first ds_kept ds_sources_src ds_first_builds). Qed.

(** the partial now links to a stylesheet that is also edited: the build may stop (C71) *)
Definition ds_link (s : fs) : fs := fs_set pg_nav (lit "LINK") (fs_set pg_extra (lit "q { color: blue }") s).
Definition ds_linked : stored := ds_folder (ds_link (p_fs (snd ds_first))).
Lemma ds_link_other s f : f <> pg_nav -> f <> pg_extra -> ds_link s f = s f.
Proof. intros A B. unfold ds_link, fs_set. destruct (str_eqb f pg_nav) eqn:E; [apply str_eqb_eq in E; contradiction|]. destruct (str_eqb f pg_extra) eqn:E'; [apply str_eqb_eq in E'; contradiction|reflexivity]. Qed.
Lemma ds_link_like s : ds_like s -> ds_like (ds_link s).
Proof.
  intros H f I. unfold ds_link, fs_set. destruct (str_eqb f pg_nav) eqn:E; [apply str_eqb_eq in E; subst f; split; vm_compute; discriminate|]. destruct (str_eqb f pg_extra) eqn:E'; [apply str_eqb_eq in E'; subst f; split; vm_compute; discriminate|]. apply H. exact I.
Qed.
Lemma ds_first_like : ds_like (p_fs (snd ds_first)).
Proof. intros f I. rewrite (ds_kept f (src_not_below f I)). reflexivity. Qed.
Lemma ds_linked_read : read_project parse_O ds_linked = Some (ds_read ds_linked).
Proof. unfold ds_read. apply ds_some. vm_cast_no_check (eq_refl true). Qed.
Lemma ds_read_fs d : read_project parse_O d = Some (ds_read d) -> p_fs (ds_read d) = d_fs d.
Proof. intros H. exact (proj1 (read_fs _ _ _ H)). Qed.
Lemma ds_linked_stops : cold_stops (pgs_build true) pgs_scan w_stat (c_relpath exs_c) true (ds_read ds_linked) RuntimeError.
Proof.
  apply (run_stop_sound _ _ _ _ _ 60 _ pg_names [pg_extra; pg_nav; pg_page]); [|vm_compute; reflexivity]. rewrite (ds_read_fs _ ds_linked_read). apply pg_lists. exact (ds_link_like _ ds_first_like).
Qed.
Lemma ds_linked_raises : exists d1, ds_raises true ds_linked d1.
Proof. destruct (stops_gives_up pgs_build pgs_scan w_stat (c_relpath exs_c) true _ _ ds_linked_stops) as (s & mode & G). eexists. eapply raises_later; [reflexivity|exact ds_linked_read|exact G]. Qed.
Definition out_b (g : graph) : bool := forallb (fun kv => forallb below_out (n_children (snd kv))) g.
Lemma out_b_spec g f o : out_b g = true -> depends g f o -> below_out o = true.
Proof.
  intros H X. unfold out_b in H. rewrite forallb_forall in H. apply depends_ch in X. unfold ch in X. destruct (dget f g) as [n|] eqn:E; [|destruct X]. apply dget_In in E. specialize (H _ E). cbn [snd] in H. rewrite forallb_forall in H. apply H. exact X.
Qed.
Definition ds_load (t : option str) : graph := match load_graph parse_O t with Some g => g | None => empty_graph end.
Lemma ds_out_ok : out_b (ds_load ds_tO) = true.
Proof. vm_cast_no_check (eq_refl true). Qed.
Lemma ds_load_spec t g : load_graph parse_O t = Some g -> ds_load t = g.
Proof. intros H. unfold ds_load. rewrite H. reflexivity. Qed.
Lemma ds_records_of t d : d_O d = t -> out_b (ds_load t) = true -> records_out parse_O d.
Proof. intros E H g f o L X. rewrite E in L. apply ds_load_spec in L. rewrite L in H. apply below_in. exact (out_b_spec _ f o H X). Qed.
Lemma ds_records s : records_out parse_O (ds_folder s).
Proof. exact (ds_records_of ds_tO (ds_folder s) eq_refl ds_out_ok). Qed.
Definition ds_fresh := the (pgs_run true (unbuilt (ds_link pg_sources)) pg_names).
Lemma ds_fresh_ok : pgs_run true (unbuilt (ds_link pg_sources)) pg_names = Some ds_fresh.
Proof. apply pgs_done. vm_compute. reflexivity. Qed.
Lemma ds_fresh_builds : pgs_builds true (unbuilt (ds_link pg_sources)) (fst ds_fresh) (snd ds_fresh).
Proof. refine (pgs_sound _ _ _ _ _ ds_fresh_ok). apply pg_lists. apply ds_link_like. intros f _. reflexivity. Qed.
Lemma ds_linked_simple f : in_src f = true -> d_fs ds_linked f <> None -> source_name f /\ simple exs_c pg_K (d_fs ds_linked) f.
Proof.
  intros I Hf. change (d_fs ds_linked) with (ds_link (p_fs (snd ds_first))) in *. split; [apply (pg_proper _ (pg_lists _ (ds_link_like _ ds_first_like)) f I Hf)|]. destruct (str_eqb f pg_nav) eqn:E; [apply str_eqb_eq in E; subst f; apply ds_nav|].
  apply ds_simple; [|right; reflexivity|exact I|exact Hf|intros ->; rewrite str_eqb_refl in E; discriminate]. intros g Ig A B. rewrite (ds_link_other _ g A B). apply ds_kept, src_not_below, Ig.
Qed.
Lemma ds_linked_first : exists r p1, pgs_builds true (unbuilt (d_fs (without_out ds_linked))) r p1 /\ forall q, p_fs p1 q = p_fs (snd ds_fresh) q.
Proof.
  refine (ds_again (ds_link (p_fs (snd ds_first))) (ds_link pg_sources) ds_fresh _ _ ds_fresh_builds); intros q Hq.
  - unfold ds_link, fs_set. rewrite (ds_kept q Hq). reflexivity.
  - rewrite ds_link_other; [apply ds_sources_src; exact Hq|intros ->; discriminate Hq|intros ->; discriminate Hq].
Qed.

(** a file of the site is damaged, no source is edited *)
Definition ds_main_out := lit "out/www/css/main.css".
Definition ds_stale : stored := ds_folder (fs_set ds_main_out (lit "p {") (p_fs (snd ds_first))).
Lemma ds_stale_read : read_project parse_O ds_stale = Some (ds_read ds_stale).
Proof. unfold ds_read. apply ds_some. vm_cast_no_check (eq_refl true). Qed.
Definition ds_idle (o : option (option run * project)) : bool := match o with Some (None, _) => true | _ => false end.
Lemma ds_idle_spec o : ds_idle o = true -> exists p1, o = Some (None, p1).
Proof. destruct o as [[[w|] p1]|]; try discriminate. eauto. Qed.
Lemma ds_idle_fs dev p p1 : pgs_builds dev p None p1 -> p_fs p1 = p_fs p.
Proof. intros H. inversion H; subst. reflexivity. Qed.
Lemma ds_stale_idle : exists p1, pgs_builds true (ds_read ds_stale) None p1 /\ p_fs p1 = d_fs ds_stale.
Proof.
  assert (L : lists (p_fs (ds_read ds_stale)) pg_names).
  { rewrite (ds_read_fs _ ds_stale_read). apply pg_lists. intros f I. cbn [ds_stale ds_folder d_fs]. unfold fs_set. destruct (str_eqb f ds_main_out) eqn:E; [apply str_eqb_eq in E; subst f; discriminate I|]. apply ds_first_like. exact I. }
  assert (X : ds_idle (pgs_run true (ds_read ds_stale) []) = true) by (vm_cast_no_check (eq_refl true)). apply ds_idle_spec in X. destruct X as (p1 & E).
  exists p1. pose proof (pgs_sound true _ _ (None, p1) L E) as HB. change (pgs_builds true (ds_read ds_stale) None p1) in HB. split; [exact HB|]. rewrite (ds_idle_fs _ _ _ HB). exact (ds_read_fs _ ds_stale_read).
Qed.
Lemma ds_stale_serves : exists d2, ds_start ds_stale (Serves d2) /\ d_fs d2 = d_fs ds_stale.
Proof. destruct ds_stale_idle as (p1 & HB & E). eexists. split; [apply dev_first; eapply completes_idle; [reflexivity|exact ds_stale_read|exact HB]|exact E]. Qed.

(** the output graph has a source among the outputs, and a stylesheet is edited *)
Definition ds_wrong_graph : graph := snd (set_children pg_main [ds_main_out; pg_extra] true (snd (add_file pg_extra 1 1 1 [] (p_O (snd ds_first))))).
Definition ds_wrong : stored := let d := ds_folder (fs_set pg_main (lit "p { color: blue }") (p_fs (snd ds_first))) in mkStored (d_config d) (d_fs d) (d_mode d) (d_D d) (ds_text ds_wrong_graph) (d_P d).
Lemma ds_wrong_read : read_project parse_O ds_wrong = Some (ds_read ds_wrong).
Proof. unfold ds_read. apply ds_some. vm_cast_no_check (eq_refl true). Qed.
Definition ds_lost := the (pgs_run true (ds_read ds_wrong) [pg_main; pg_page]).
Lemma ds_lost_ok : pgs_run true (ds_read ds_wrong) [pg_main; pg_page] = Some ds_lost.
Proof. unfold ds_lost. apply pgs_done. vm_cast_no_check (eq_refl true). Qed.
Definition ds_none (o : option str) : bool := match o with None => true | Some _ => false end.
Lemma ds_none_spec o : ds_none o = true -> o = None.
Proof. destruct o; [discriminate|reflexivity]. Qed.
Lemma ds_gone_ok : p_fs (snd ds_lost) pg_extra = None.
Proof. apply ds_none_spec. vm_cast_no_check (eq_refl true). Qed.
Lemma ds_serves dev0 d p r p1 : dev0 = true -> d_config d = Configured -> read_project parse_O d = Some p -> pgs_builds dev0 p r p1 -> exists d2, ds_start d (Serves d2) /\ d_fs d2 = p_fs p1.
Proof. intros -> C R B. destruct r as [w|]; eexists; (split; [apply dev_first; first [eapply completes_run; [exact C|exact R|exact B]|eapply completes_idle; [exact C|exact R|exact B]]|reflexivity]). Qed.
Lemma ds_wrong_like : ds_like (d_fs ds_wrong).
Proof. intros f I. unfold ds_wrong, ds_folder. cbn [d_fs]. unfold fs_set. destruct (str_eqb f pg_main) eqn:E; [apply str_eqb_eq in E; subst f; split; vm_compute; discriminate|]. apply ds_first_like. exact I. Qed.
Lemma ds_wrong_serves : exists d2, ds_start ds_wrong (Serves d2) /\ d_fs d2 = p_fs (snd ds_lost).
Proof.
  assert (L : lists (p_fs (ds_read ds_wrong)) pg_names) by (rewrite (ds_read_fs _ ds_wrong_read); apply pg_lists; exact ds_wrong_like).
  exact (ds_serves true ds_wrong (ds_read ds_wrong) (fst ds_lost) (snd ds_lost) eq_refl eq_refl ds_wrong_read (pgs_sound true (ds_read ds_wrong) [pg_main; pg_page] ds_lost L ds_lost_ok)).
Qed.
Lemma ds_wrong_lost : exists d2, ds_start ds_wrong (Serves d2) /\ d_fs d2 pg_extra = None.
Proof.
  destruct ds_wrong_serves as (d2 & H & E). exists d2. split; [exact H|]. rewrite E. exact ds_gone_ok.
Qed.
Lemma ds_wrong_extra : d_fs ds_wrong pg_extra <> None.
Proof. apply ds_wrong_like; [reflexivity|]. apply pg_sources_names. right. left. reflexivity. Qed.
Lemma ds_first_just : pgs_just_built true (snd ds_first).
Proof. exists true, pg_sources, pgs_new, (fst ds_first). split; [exact (pg_new_site true)|]. split; [exact (pg_proper _ pg_first_lists)|exact ds_first_builds]. Qed.
Lemma ds_main_text : p_fs (snd ds_first) (www (lit "css/main.css")) = Some (lit "p { color: red }").
Proof. vm_compute. reflexivity. Qed.
