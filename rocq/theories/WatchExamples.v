(** The development server watching the project of DevStartExamples.v. *)
From Verif Require Import Base Graph GraphSpec PyStr PyPath PyNorm PathSpec Json JsonProofs GraphJson Octal Css NestSpec Html HtmlSpec Js Builder JsYield JsManip JsManipSpec Handlers Hot HotSpec HotDrive HotGraphs HotResultSpec HotResultExamples HotWantSpec Cold ColdSpec ColdExamples ColdStopRun
  Project ProjectSpec ProjectExamples ProjectSite ProjectSiteProofs ProjectSiteExamples ProjectPageExamples ProjectOrderSpec DevStart DevStartSpec DevStartProofs DevStartSite DevStartExamples FolderSpec FolderProofs FolderExamples Dev DevSpec Watch WatchSpec.
From Coq Require Import String ZArith NArith Bool List.
Import ListNotations.
Open Scope list_scope.

(** an executable rebuild; the sets are iterated in the order of the lists *)
Section Run.
Context (float_parse : str -> option Z) (float_repr : Z -> str).
Context (build : bool -> str -> fs -> option build_result) (scan : str -> fs -> option scan_full) (stat : fs -> str -> option fsig) (constants : str).
(** the steps before the scans *)
Definition run_examine (d : stored) (b : batch) : option (project * dict fsig * dict fsig * option str) :=
  if nodup_b (b_deleted b) && nodup_b (b_changed b) && nodup_b (b_created b) then
    match d_config d, read_project float_parse d with
    | Configured, Some p =>
        match signatures (stat (p_fs p)) (b_changed b) [], signatures (stat (p_fs p)) (b_created b) [] with
        | Some changed, Some added =>
            match mode_step constants true (stat (p_fs p)) (p_fs p) (p_mode p) changed added with
            | Raise _ => None
            | Ret (changed1, mode1) =>
                match dkeys changed1 ++ dkeys added ++ b_deleted b with
                | [] => None
                | _ => Some (p, changed1, added, mode1)
                end
            end
        | _, _ => None
        end
    | _, _ => None
    end
  else None.
Lemma run_examine_sound d b p changed1 added mode1 : run_examine d b = Some (p, changed1, added, mode1) ->
  exists changed, handed_over float_parse stat d b p changed added (b_deleted b) /\ mode_step constants true (stat (p_fs p)) (p_fs p) (p_mode p) changed added = Ret (changed1, mode1) /\
    (changed1 <> [] \/ added <> [] \/ b_deleted b <> []).
Proof.
  unfold run_examine. destruct (nodup_b (b_deleted b) && nodup_b (b_changed b) && nodup_b (b_created b)) eqn:En; [|discriminate]. apply andb_true_iff in En. destruct En as (En & N3). apply andb_true_iff in En. destruct En as (N1 & N2).
  destruct (d_config d) eqn:Ec; try discriminate. destruct (read_project float_parse d) as [p'|] eqn:Er; [|discriminate]. destruct (signatures (stat (p_fs p')) (b_changed b) []) as [changed|] eqn:S1; [|discriminate]. destruct (signatures (stat (p_fs p')) (b_created b) []) as [added'|] eqn:S2; [|discriminate].
  destruct (mode_step constants true (stat (p_fs p')) (p_fs p') (p_mode p') changed added') as [(changed1', mode1')|] eqn:Em; [|discriminate]. destruct (dkeys changed1' ++ dkeys added' ++ b_deleted b) eqn:Ea; [discriminate|]. intros X. injection X as -> -> -> ->.
  exists changed. split; [|split; [exact Em|]].
  - split; [exact Ec|]. split; [exact Er|]. split; [split; [apply nodup_b_spec; exact N1|reflexivity]|]. exists (b_changed b), (b_created b). split; [split; [apply nodup_b_spec; exact N2|reflexivity]|]. split; [split; [apply nodup_b_spec; exact N3|reflexivity]|]. auto.
  - destruct changed1; [|left; discriminate]. destruct added; [|right; left; discriminate]. destruct (b_deleted b); [discriminate Ea|right; right; discriminate].
Qed.
Definition run_watch (width fuel : nat) (d : stored) (b : batch) (order inputs : list str) : option project :=
  match run_examine d b with
  | Some (p, changed1, added, mode1) =>
      match scan_loop scan stat fuel (mkScanning (p_fs p) (dkeys changed1 ++ dkeys added) [] added) [] with
      | Ret (t, full) =>
          match run_rebuild (build true) stat width fuel (p_D p) (p_O p) (p_P p) (scans_of full) (sc_new t) changed1 (sc_added t) (b_deleted b) (sc_fs t) order inputs with
          | Some oc => Some (mkProject (oc_fs oc) mode1 (oc_D oc) (oc_O oc) (oc_P oc))
          | None => None
          end
      | Raise _ => None
      end
  | None => None
  end.
Lemma run_watch_sound width fuel d b order inputs p1 : run_watch width fuel d b order inputs = Some p1 ->
  rebuilds float_parse float_repr build scan stat constants d b (mkStored (d_config d) (p_fs p1) (p_mode p1) (Some (store float_repr (p_D p1))) (Some (store float_repr (p_O p1))) (Some (store float_repr (p_P p1)))).
Proof.
  unfold run_watch. destruct (run_examine d b) as [(((p, changed1), added), mode1)|] eqn:Es; [|discriminate]. destruct (scan_loop _ _ _ _ _) as [(t, full)|] eqn:El; [|discriminate]. destruct (run_rebuild _ _ _ _ _ _ _ _ _ _ _ _ _ _ _) as [oc|] eqn:Er; [|discriminate]. intros X. injection X as <-. cbn [p_fs p_mode p_D p_O p_P].
  destruct (run_examine_sound _ _ _ _ _ _ Es) as (changed & H1 & H2 & H3). destruct (run_rebuild_sound _ _ _ _ _ _ _ _ _ _ _ _ _ _ _ _ Er) as (HR & _).
  exact (rebuilds_run float_parse float_repr build scan stat constants d b p changed added (b_deleted b) changed1 mode1 fuel t full _ _ _ _ _ _ H1 H2 H3 El HR).
Qed.
(** a rebuild of which a scan fails *)
Definition run_early (d : stored) (b : batch) : option (fs * option str) :=
  match run_examine d b with
  | Some (p, changed1, added, mode1) => match scan_batch scan (dkeys changed1 ++ dkeys added) (p_fs p) [] with Raise _ => Some (p_fs p, mode1) | Ret _ => None end
  | None => None
  end.
Lemma run_early_sound d b s mode1 : run_early d b = Some (s, mode1) -> fails_early float_parse scan stat constants d b (mkStored (d_config d) s mode1 (d_D d) (d_O d) (d_P d)).
Proof.
  unfold run_early. destruct (run_examine d b) as [(((p, changed1), added), mode1')|] eqn:Es; [|discriminate]. destruct (scan_batch _ _ _ _) as [y|x] eqn:El; [discriminate|]. intros X. injection X as <- ->. destruct (run_examine_sound _ _ _ _ _ _ Es) as (changed & H1 & H2 & H3).
  exact (fails_scan float_parse scan stat constants d b p changed added (b_deleted b) changed1 mode1 x H1 H2 H3 El).
Qed.
(** a rebuild of which the scheduling loop stops; nothing that was submitted is left to be built *)
Definition run_fail (fuel : nat) (d : stored) (b : batch) (order : list str) : option (fs * option str) :=
  match run_examine d b with
  | Some (p, changed1, added, mode1) =>
      match scan_loop scan stat fuel (mkScanning (p_fs p) (dkeys changed1 ++ dkeys added) [] added) [] with
      | Raise _ => None
      | Ret (t, full) =>
          match prepare (p_D p) (p_O p) (p_P p) (scans_of full) (sc_new t) (b_deleted b) with
          | Raise _ => None
          | Ret (e, m) =>
              if nodup_b order && same_b order (e_orig e) then
                match drive (build true) e 1 fuel (init_sched e order m (sc_fs t)) with
                | Stopped _ s => if forallb (fun f => dmem f (executed s)) (pending s) then Some (disk s, mode1) else None
                | Running _ => None
                end
              else None
          end
      end
  | None => None
  end.
Lemma run_fail_sound fuel d b order s mode1 : run_fail fuel d b order = Some (s, mode1) ->
  fails_building float_parse build scan stat constants d b (mkStored (d_config d) s mode1 (d_D d) (d_O d) (d_P d)).
Proof.
  unfold run_fail. destruct (run_examine d b) as [(((p, changed1), added), mode1')|] eqn:Es; [|discriminate]. destruct (scan_loop _ _ _ _ _) as [(t, full)|] eqn:El; [|discriminate]. destruct (prepare _ _ _ _ _ _) as [(e, m)|] eqn:Ep; [|discriminate]. destruct (nodup_b order && same_b order (e_orig e)) eqn:Eb; [|discriminate]. apply andb_true_iff in Eb. destruct Eb as (B1 & B2).
  destruct (drive _ _ _ _ _) as [s1|x s1] eqn:Ed; [discriminate|]. destruct (forallb (fun f => dmem f (executed s1)) (pending s1)) eqn:Ef; [|discriminate]. intros X. injection X as <- ->. apply drive_sound in Ed. destruct Ed as (St & Sp).
  destruct (run_examine_sound _ _ _ _ _ _ Es) as (changed & H1 & H2 & H3). rewrite forallb_forall in Ef.
  refine (fails_loop float_parse build scan stat constants d b p changed added (b_deleted b) changed1 mode1 fuel t full e m order s1 s1 s1 x H1 H2 H3 El Ep _ _ St Sp (wound_down build true s1 Ef)).
  - apply nodup_b_spec; exact B1.
  - apply same_b_spec; exact B2.
Qed.
End Run.

Notation wt_watching := (watching parse_O print_O ex_sha exs_c pg_K w_stat 100).
Notation wt_rebuilds := (rebuilds parse_O print_O pgs_build pgs_scan w_stat (c_relpath exs_c)).
Notation wt_fails_early := (fails_early parse_O pgs_scan w_stat (c_relpath exs_c)).
Notation wt_fails_building := (fails_building parse_O pgs_build pgs_scan w_stat (c_relpath exs_c)).
Definition wt_batch (h : watcher) : batch := {| b_deleted := deleted h; b_changed := changed h; b_created := created h |}.
Definition wt_emptied (h : watcher) : watcher := {| deleted := []; changed := []; created := []; unbuildable := unbuildable h; last_change := last_change h |}.
Definition wt_stored (p : project) : stored := mkStored Configured (p_fs p) (p_mode p) (ds_text (p_D p)) (ds_text (p_O p)) (ds_text (p_P p)).
Definition wt_run (d : stored) (b : batch) (order inputs : list str) : option project := run_watch parse_O pgs_build pgs_scan w_stat (c_relpath exs_c) 1 60 d b order inputs.
Definition wt_the (o : option project) : project := match o with Some p => p | None => pgs_new end.
Definition wt_ok (o : option project) : bool := match o with Some _ => true | None => false end.
Definition wt_blue : str := lit "p { color: blue }".
Definition wt_base := d_fs fd_built.
Lemma wt_base_eq f : wt_base f = p_fs (snd ds_first) f.
Proof. reflexivity. Qed.
(** first a stylesheet is edited *)
Definition wt_h0 : watcher := new_watcher 0.
Definition wt_h1 : watcher := on_event (Modified pg_main) 1 wt_h0.
Definition wt_d1 : stored := with_files Configured (fs_set pg_main wt_blue wt_base) fd_built.
Definition wt_p2 := wt_the (wt_run wt_d1 (wt_batch wt_h1) [pg_main; pg_page] pg_names).
Definition wt_d2 := wt_stored wt_p2.
Lemma wt_some o : wt_ok o = true -> o = Some (wt_the o).
Proof. destruct o; [reflexivity|discriminate]. Qed.
Lemma wt_sound d b order inputs : d_config d = Configured -> wt_ok (wt_run d b order inputs) = true -> wt_rebuilds d b (wt_stored (wt_the (wt_run d b order inputs))).
Proof. intros C H. apply wt_some in H. pose proof (run_watch_sound parse_O print_O pgs_build pgs_scan w_stat (c_relpath exs_c) 1 60 d b order inputs _ H) as X. rewrite C in X. exact X. Qed.
(** the events and the files *)
Lemma wt_set e f t s : (e = Modified f /\ s f <> None) \/ (e = Created f /\ s f = None) -> in_src f = true -> edited e s (fs_set f t s).
Proof.
  intros He I. assert (A : forall x, about e x <-> x = f) by (destruct He as [(-> & _)|(-> & _)]; reflexivity). constructor.
  - intros x Hx. apply A in Hx. subst x. exact I.
  - intros x Hx _. unfold fs_set. destruct (str_eqb x f) eqn:E; [apply str_eqb_eq in E; exfalso; apply Hx, A, E|reflexivity].
  - intros x. unfold there, fs_set. destruct He as [(-> & Hs)|(-> & Hs)]; cbn [there_after]; destruct (str_eqb x f) eqn:E; try (rewrite orb_false_r; reflexivity); try reflexivity; apply str_eqb_eq in E; subst x; rewrite I; destruct (s f); try reflexivity; contradiction.
Qed.
Lemma wt_del f s : s f <> None -> in_src f = true -> edited (Deleted f) s (fs_del f s).
Proof.
  intros Hs I. constructor.
  - intros x Hx. cbn [about] in Hx. subst x. exact I.
  - intros x Hx _. unfold fs_del. destruct (str_eqb x f) eqn:E; [apply str_eqb_eq in E; contradiction|reflexivity].
  - intros x. unfold there, fs_del. cbn [there_after]. destruct (str_eqb x f) eqn:E; rewrite ?andb_false_r, ?andb_true_r; reflexivity.
Qed.
#[local] Opaque ds_first fd_built wt_p2 www.
Definition wt_w0 : world := DevSpec.just_built (there wt_base).
Lemma wt_started : wt_watching wt_base wt_w0 wt_h0 fd_built.
Proof. exact (w_started _ _ _ _ _ _ _ true pg_sources fd_new fd_built 0 fd_new_folder fd_new_named (dev_first _ _ _ _ _ _ _ _ fd_built_completes)). Qed.
Lemma wt_there f : In f pg_names -> there wt_base f = true.
Proof. intros H. unfold there. destruct (pg_names_src f H) as (I & _). rewrite I. rewrite wt_base_eq, (ds_kept f (src_not_below f I)). apply pg_sources_names in H. destruct (pg_sources f); [reflexivity|contradiction]. Qed.
Lemma wt_base_some f : In f pg_names -> wt_base f <> None.
Proof. intros H X. apply wt_there in H. unfold there in H. rewrite X, andb_false_r in H. discriminate H. Qed.
Lemma wt_main_in : In pg_main pg_names. Proof. left. reflexivity. Qed.
Lemma wt_nav_in : In pg_nav pg_names. Proof. right. right. left. reflexivity. Qed.
Lemma wt_page_in : In pg_page pg_names. Proof. right. right. right. left. reflexivity. Qed.
Definition wt_w1 : world := after (Modified pg_main) wt_w0.
Lemma wt_edited : wt_watching wt_base wt_w1 wt_h1 wt_d1.
Proof. exact (w_edited _ _ _ _ _ _ _ wt_base wt_w0 wt_h0 fd_built (Modified pg_main) (fs_set pg_main wt_blue wt_base) Configured 1 wt_started (wt_there _ wt_main_in) (wt_set _ _ _ _ (or_introl (conj eq_refl (wt_base_some _ wt_main_in))) eq_refl)). Qed.
Lemma wt_take1 : take 100 200 wt_h1 = Some (wt_batch wt_h1, wt_emptied wt_h1).
Proof. vm_compute. reflexivity. Qed.
Lemma wt_run1_ok : wt_ok (wt_run wt_d1 (wt_batch wt_h1) [pg_main; pg_page] pg_names) = true.
Proof. vm_cast_no_check (eq_refl true). Qed.
Lemma wt_rebuilds1 : wt_rebuilds wt_d1 (wt_batch wt_h1) wt_d2.
Proof. exact (wt_sound wt_d1 (wt_batch wt_h1) [pg_main; pg_page] pg_names eq_refl wt_run1_ok). Qed.
Lemma wt_named s d cfg : (forall f, in_src f = true -> s f <> None -> In f pg_names) -> named (with_files cfg s d).
Proof.
  intros H f I X. specialize (H f I X). split; [apply pg_names_src, H|]. apply os_ascii. pose proof fd_ascii as A. rewrite forallb_forall in A. apply A, H.
Qed.
Lemma wt_base_names f : in_src f = true -> wt_base f <> None -> In f pg_names.
Proof. intros I X. apply pg_sources_names. apply (ds_first_like f I). rewrite <- wt_base_eq. exact X. Qed.
Lemma wt_named1 : named wt_d1.
Proof. apply wt_named. intros f I. unfold fs_set. destruct (str_eqb f pg_main) eqn:E; [intros _; apply str_eqb_eq in E; subst f; exact wt_main_in|apply wt_base_names; exact I]. Qed.
Definition wt_w2 : world := DevSpec.just_built (now_there wt_w1).
Definition wt_h2 : watcher := succeeded (wt_emptied wt_h1).
Lemma wt_rebuilt : wt_watching (d_fs wt_d2) wt_w2 wt_h2 wt_d2.
Proof. exact (w_rebuilt _ _ _ _ _ _ _ _ _ _ _ 200 _ _ _ wt_edited wt_named1 wt_take1 wt_rebuilds1). Qed.
Definition wt_is (o : option str) (t : str) : bool := match o with Some x => str_eqb x t | None => false end.
Lemma wt_is_spec o t : wt_is o t = true -> o = Some t.
Proof. destruct o as [x|]; [|discriminate]. intros H. apply str_eqb_eq in H. subst. reflexivity. Qed.
Lemma wt_main_out1 : d_fs wt_d1 (www (lit "css/main.css")) = Some (lit "p { color: red }").
Proof. apply wt_is_spec. vm_cast_no_check (eq_refl true). Qed.
Lemma wt_main_out2 : d_fs wt_d2 (www (lit "css/main.css")) = Some wt_blue.
Proof. apply wt_is_spec. vm_cast_no_check (eq_refl true). Qed.
Lemma wt_nothing2 : nothing_since wt_w2.
Proof. intros f []. Qed.

(** then the partial is deleted while the page, which includes it, is written again: the page cannot be scanned *)
Definition wt_w3 : world := after (Deleted pg_nav) (after (Modified pg_page) wt_w0).
Definition wt_h3 : watcher := on_event (Deleted pg_nav) 2 (on_event (Modified pg_page) 1 wt_h0).
Definition wt_s3 : fs := fs_del pg_nav (fs_set pg_page (lit "Hello") wt_base).
Definition wt_d3 : stored := with_files Configured wt_s3 fd_built.
Lemma wt_set_some f g t s : s g <> None -> fs_set f t s g <> None.
Proof. unfold fs_set. destruct (str_eqb g f); [discriminate|auto]. Qed.
Lemma wt_unscanned : wt_watching wt_base wt_w3 wt_h3 wt_d3.
Proof.
  refine (w_edited _ _ _ _ _ _ _ wt_base _ _ (with_files Configured (fs_set pg_page (lit "Hello") wt_base) fd_built) (Deleted pg_nav) wt_s3 Configured 2 _ _ _).
  - exact (w_edited _ _ _ _ _ _ _ wt_base wt_w0 wt_h0 fd_built (Modified pg_page) (fs_set pg_page (lit "Hello") wt_base) Configured 1 wt_started (wt_there _ wt_page_in) (wt_set _ _ _ _ (or_introl (conj eq_refl (wt_base_some _ wt_page_in))) eq_refl)).
  - exact (wt_there _ wt_nav_in).
  - apply wt_del; [|reflexivity]. apply wt_set_some, wt_base_some, wt_nav_in.
Qed.
Lemma wt_take3 : take 100 200 wt_h3 = Some (wt_batch wt_h3, wt_emptied wt_h3).
Proof. vm_compute. reflexivity. Qed.
Definition wt_early (o : option (fs * option str)) : bool := match o with Some _ => true | None => false end.
Lemma wt_early_spec o : wt_early o = true -> exists s m, o = Some (s, m).
Proof. destruct o as [(s, m)|]; [eauto|discriminate]. Qed.
Lemma wt_fails3 : exists d4, wt_fails_early wt_d3 (wt_batch wt_h3) d4.
Proof.
  assert (X : wt_early (run_early parse_O pgs_scan w_stat (c_relpath exs_c) wt_d3 (wt_batch wt_h3)) = true) by (vm_cast_no_check (eq_refl true)). apply wt_early_spec in X. destruct X as (s & m & X). eexists. exact (run_early_sound _ _ _ _ _ _ _ _ X).
Qed.

(** a file is added while the partial is missing, so that the build fails; the partial is restored and the file
    replaced *)
Definition wt_logo := lit "src/public/logo.png".
Definition wt_old := lit "old". Definition wt_new := lit "new".
Definition wt_w5 : world := after (Deleted pg_nav) (after (Created wt_logo) wt_w0).
Definition wt_h5 : watcher := on_event (Deleted pg_nav) 2 (on_event (Created wt_logo) 1 wt_h0).
Definition wt_s5 : fs := fs_del pg_nav (fs_set wt_logo wt_old wt_base).
Definition wt_d5 : stored := with_files Configured wt_s5 fd_built.
Lemma wt_base_logo : wt_base wt_logo = None.
Proof. rewrite wt_base_eq, (ds_kept wt_logo eq_refl). reflexivity. Qed.
Lemma wt_there_logo : there wt_base wt_logo = false.
Proof. unfold there. rewrite wt_base_logo. reflexivity. Qed.
Lemma wt_missing : wt_watching wt_base wt_w5 wt_h5 wt_d5.
Proof.
  refine (w_edited _ _ _ _ _ _ _ wt_base _ _ (with_files Configured (fs_set wt_logo wt_old wt_base) fd_built) (Deleted pg_nav) wt_s5 Configured 2 _ _ _).
  - exact (w_edited _ _ _ _ _ _ _ wt_base wt_w0 wt_h0 fd_built (Created wt_logo) (fs_set wt_logo wt_old wt_base) Configured 1 wt_started wt_there_logo (wt_set _ _ _ _ (or_intror (conj eq_refl wt_base_logo)) eq_refl)).
  - cbn [possible after now_there there_after wt_w0 DevSpec.just_built]. apply orb_true_iff. left. exact (wt_there _ wt_nav_in).
  - apply wt_del; [|reflexivity]. apply wt_set_some, wt_base_some, wt_nav_in.
Qed.
Lemma wt_take5 : take 100 200 wt_h5 = Some (wt_batch wt_h5, wt_emptied wt_h5).
Proof. vm_compute. reflexivity. Qed.
Definition wt_run5 := run_fail parse_O pgs_build pgs_scan w_stat (c_relpath exs_c) 60 wt_d5 (wt_batch wt_h5) [wt_logo; pg_page].
Definition wt_r5 : fs * option str := match wt_run5 with Some x => x | None => (wt_base, None) end.
Definition wt_d6 : stored := mkStored Configured (fst wt_r5) (snd wt_r5) (d_D wt_d5) (d_O wt_d5) (d_P wt_d5).
Lemma wt_early_the o (x : fs * option str) : wt_early o = true -> o = Some (fst (match o with Some y => y | None => x end), snd (match o with Some y => y | None => x end)).
Proof. destruct o as [(s, m)|]; [reflexivity|discriminate]. Qed.
Lemma wt_fails5 : wt_fails_building wt_d5 (wt_batch wt_h5) wt_d6.
Proof.
  assert (X : wt_early wt_run5 = true) by (vm_cast_no_check (eq_refl true)). apply (wt_early_the _ (wt_base, None)) in X. exact (run_fail_sound parse_O pgs_build pgs_scan w_stat (c_relpath exs_c) 60 wt_d5 (wt_batch wt_h5) [wt_logo; pg_page] _ _ X).
Qed.
Definition wt_h6 : watcher := failed (now_there wt_w5) (wt_batch wt_h5) (wt_emptied wt_h5).
Definition wt_w8 : world := after (Modified wt_logo) (after (Created pg_nav) wt_w5).
Definition wt_h8 : watcher := on_event (Modified wt_logo) 302 (on_event (Created pg_nav) 301 wt_h6).
#[local] Opaque wt_r5 wt_d6.
Definition wt_s8 : fs := fs_set wt_logo wt_new (fs_set pg_nav (lit " menu") (d_fs wt_d6)).
Definition wt_d8 : stored := with_files Configured wt_s8 wt_d6.
Definition wt_run8 := wt_run wt_d8 (wt_batch wt_h8) [pg_nav; wt_logo; pg_page] (pg_names ++ [wt_logo]).
Definition wt_p9 := wt_the wt_run8.
Definition wt_d9 : stored := wt_stored wt_p9.
Lemma wt_d6_nav : d_fs wt_d6 pg_nav = None.
Proof. apply ds_none_spec. vm_cast_no_check (eq_refl true). Qed.
Lemma wt_d6_logo : d_fs wt_d6 wt_logo = Some wt_old.
Proof. apply wt_is_spec. vm_cast_no_check (eq_refl true). Qed.
Lemma wt_neq (a b : str) : str_eqb a b = false -> a <> b.
Proof. intros H ->. rewrite str_eqb_refl in H. discriminate. Qed.
Lemma wt_edits : edits wt_w5 wt_h6 wt_d6 wt_w8 wt_h8 wt_d8.
Proof.
  refine (edits_one _ _ _ (Created pg_nav) (fs_set pg_nav (lit " menu") (d_fs wt_d6)) Configured 301 _ _ _ _ _ _).
  - vm_compute. reflexivity.
  - apply wt_set; [right; split; [reflexivity|exact wt_d6_nav]|reflexivity].
  - refine (edits_one _ _ _ (Modified wt_logo) wt_s8 Configured 302 _ _ _ _ _ (edits_none _ _ _)).
    + vm_compute. reflexivity.
    + apply (wt_set (Modified wt_logo) wt_logo wt_new (fs_set pg_nav (lit " menu") (d_fs wt_d6))); [left; split; [reflexivity|]|reflexivity]. unfold fs_set. change (str_eqb wt_logo pg_nav) with false. cbv iota. rewrite wt_d6_logo. discriminate.
Qed.
Lemma wt_take8 : take 100 500 wt_h8 = Some (wt_batch wt_h8, wt_emptied wt_h8).
Proof. vm_compute. reflexivity. Qed.
Lemma wt_rebuilds8 : wt_rebuilds wt_d8 (wt_batch wt_h8) wt_d9.
Proof. apply wt_sound; [reflexivity|]. vm_cast_no_check (eq_refl true). Qed.
Lemma wt_new_source : d_fs wt_d9 wt_logo = Some wt_new.
Proof. apply wt_is_spec. vm_cast_no_check (eq_refl true). Qed.
Lemma wt_old_output : d_fs wt_d9 (www (lit "logo.png")) = Some wt_old.
Proof. apply wt_is_spec. vm_cast_no_check (eq_refl true). Qed.
Lemma wt_logo_source : source_name wt_logo.
Proof. apply source_b_spec. vm_compute. reflexivity. Qed.
Lemma wt_named5 : named wt_d5.
Proof.
  intros f I X. assert (Y : f = wt_logo \/ In f pg_names).
  { cbn [wt_d5 with_files d_fs] in X. unfold wt_s5, fs_del in X. destruct (str_eqb f pg_nav); [contradiction|]. unfold fs_set in X. destruct (str_eqb f wt_logo) eqn:E; [left; apply str_eqb_eq; exact E|right; apply wt_base_names; assumption]. }
  destruct Y as [->|Y]; [split; [exact wt_logo_source|apply os_ascii; reflexivity]|]. split; [apply pg_names_src, Y|]. apply os_ascii. pose proof fd_ascii as A. rewrite forallb_forall in A. apply A, Y.
Qed.
