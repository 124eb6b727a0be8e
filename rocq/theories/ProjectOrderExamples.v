(** Examples for C71. *)
From Coq Require Import String ZArith NArith Bool List Relations.
From Verif Require Import Base Graph GraphSpec GraphProofs PyStr PyPath PyNorm PathSpec Json Css NestSpec Html HtmlSpec HtmlExamples Js Builder JsYield JsManip JsManipSpec Handlers Hot HotSpec HotDrive HotGraphs HotResultSpec HotResultExamples HotWantSpec Cold ColdSpec ColdExamples
  Project ProjectSpec ProjectExamples ProjectSite ProjectSiteProofs ProjectSiteExamples ColdMain ColdStop ColdStopRun ProjectPageExamples ProjectOrderSpec.
Import ListNotations.
Open Scope list_scope.

(** An executable check for [building]. *)
Definition run_way (build : str -> fs -> option build_result) (scan : str -> fs -> option scan_full) (stat : fs -> str -> option fsig)
    (constants : str) (dev : bool) (fuel loops : nat) (p : project) (files order : list str) : option (env * sched) :=
  match classify (p_D p) (stat (p_fs p)) files (dkeys (p_D p)) [] [] with
  | Raise _ => None
  | Ret (changed, added, deleted) =>
      match mode_step constants dev (stat (p_fs p)) (p_fs p) (p_mode p) changed added with
      | Raise _ => None
      | Ret (changed1, mode1) =>
          match dkeys changed1 ++ dkeys added ++ deleted with
          | [] => None
          | _ =>
              match scan_loop scan stat fuel (mkScanning (p_fs p) (dkeys changed1 ++ dkeys added) [] added) [] with
              | Raise _ => None
              | Ret (t, full) =>
                  match prepare (p_D p) (p_O p) (p_P p) (scans_of full) (sc_new t) deleted with
                  | Raise _ => None
                  | Ret (e, m) =>
                      if nodup_b order && same_b order (e_orig e) then
                        match drive_late build e loops (init_sched e order m (sc_fs t)) with Stopped _ _ => None | Running s => Some (e, s) end
                      else None
                  end
              end
          end
      end
  end.
Lemma run_way_sound build scan stat constants dev fuel loops p files order e s : lists (p_fs p) files ->
  run_way build scan stat constants dev fuel loops p files order = Some (e, s) -> building build scan stat constants dev p files order e s.
Proof.
  intros (Hn & Hl). unfold run_way. destruct (classify _ _ _ _ _ _) as [[[changed added] deleted]|] eqn:Ec; [|discriminate]. destruct (mode_step _ _ _ _ _ _ _) as [[changed1 mode1]|] eqn:Em; [|discriminate].
  destruct (dkeys changed1 ++ dkeys added ++ deleted) eqn:Ea; [discriminate|]. destruct (scan_loop _ _ _ _ _) as [[t full]|] eqn:El; [|discriminate]. destruct (prepare _ _ _ _ _ _) as [[e0 m]|] eqn:Ep; [|discriminate].
  destruct (nodup_b order && same_b order (e_orig e0)) eqn:Eb; [|discriminate]. apply andb_true_iff in Eb. destruct Eb as [B1 B2]. destruct (drive_late _ _ _ _) as [s'|y s'] eqn:Ed; [|discriminate]. intros X. injection X as <- <-.
  apply drive_late_sound in Ed. eapply under_way; try eassumption.
  - destruct changed1; [|left; discriminate]. destruct added; [|right; left; discriminate]. destruct deleted; [discriminate Ea|right; right; discriminate].
  - apply nodup_b_spec; assumption.
  - apply same_b_spec; assumption.
Qed.
Definition og_files := rev pg_names.
Lemma og_lists s : lists s pg_names -> lists s og_files.
Proof. intros (A & B). split; [unfold og_files; apply NoDup_rev; exact A|]. intros f. unfold og_files. rewrite <- in_rev. apply B. Qed.
(** the first build with the sources listed and built in the opposite order *)
Definition og_run (loops : nat) (p : project) (order : list str) : option (env * sched) := run_way (pgs_build false) pgs_scan w_stat (c_relpath exs_c) false 1 loops p og_files order.
Lemma og_sound loops p order e s : lists (p_fs p) pg_names -> og_run loops p order = Some (e, s) -> building (pgs_build false) pgs_scan w_stat (c_relpath exs_c) false p og_files order e s.
Proof. intros HL H. eapply run_way_sound; [apply og_lists; exact HL|exact H]. Qed.
Definition no_comments (ts : list (token (F := unit))) : bool := forallb (fun t => match t with TComment _ => false | _ => true end) ts.
Lemma og_plain ts t r : no_comments ts = true -> In t ts -> ~ import (k_css pg_K) t r.
Proof. intros H Hi (v & -> & _). unfold no_comments in H. rewrite forallb_forall in H. specialize (H _ Hi). discriminate H. Qed.
Lemma og_simple s f : (forall f, in_src f = true -> s f = pg_sources f) -> in_src f = true -> s f <> None -> simple exs_c pg_K s f.
Proof.
  intros Hs I Hf. rewrite (Hs f I) in Hf. apply pg_sources_names in Hf. split.
  - intros Hb. exfalso. repeat (destruct Hf as [<-|Hf]; [vm_compute in Hb; discriminate Hb|]). exact Hf.
  - intros Hb text ts Ht Hts t Hi r. rewrite (Hs f I) in Ht. eapply og_plain; [|exact Hi]. repeat (destruct Hf as [<-|Hf]; [|]); try (vm_compute in Hb; discriminate Hb); try contradiction Hf.
    + vm_compute in Ht. injection Ht as <-. vm_compute in Hts. injection Hts as <-. reflexivity.
    + vm_compute in Ht. injection Ht as <-. vm_compute in Hts. injection Hts as <-. reflexivity.
Qed.
(** [foreseen], computed *)
Definition foreseen_b (D : graph) (scans : dict scan_result) (l : list (str * fs * build_result)) (D1 : graph) : bool :=
  forallb (fun x => let '(f, d, r) := x in
    forallb (fun kv => negb (str_eqb (fst kv) f) || forallb (fun o => mem o (s_deps (snd kv))) (b_children r)) scans &&
    (mem f (dkeys scans) || forallb (fun x => mem x (api_children D f)) (api_children D1 f))) l.
Lemma foreseen_b_spec D scans l D1 : foreseen_b D scans l D1 = true -> foreseen D scans l D1.
Proof.
  unfold foreseen_b. rewrite forallb_forall. intros H f d r Hi. specialize (H _ Hi). cbn beta iota in H. apply andb_true_iff in H. destruct H as (H1 & H2). split.
  - intros sc Hsc. rewrite forallb_forall in H1. specialize (H1 _ Hsc). cbn [fst snd] in H1. rewrite str_eqb_refl in H1. cbn [negb orb] in H1. rewrite forallb_forall in H1. intros o Ho. apply mem_In, H1, Ho.
  - intros N x Hx. apply orb_true_iff in H2. destruct H2 as [H2|H2]; [apply mem_In in H2; contradiction|]. rewrite forallb_forall in H2. apply mem_In, H2, Hx.
Qed.
Definition og_the (o : option run) : run := match o with Some w => w | None => mkRun [] [] [] (mkEnv empty_graph empty_graph empty_graph [] [] [] [] []) [] end.
Lemma og_some (o : option run) : match o with Some _ => true | None => false end = true -> o = Some (og_the o).
Proof. destruct o; [reflexivity|discriminate]. Qed.
(** a build after an edit of the stylesheet only *)
Definition og_styled : project := mkProject (fs_set pg_main (lit "p { color: blue }") (p_fs (snd pgs_first))) (p_mode (snd pgs_first)) (p_D (snd pgs_first)) (p_O (snd pgs_first)) (p_P (snd pgs_first)).
Definition og_restyled := the (pgs_run false og_styled [pg_main; pg_page]).
Lemma og_restyled_ok : pgs_run false og_styled [pg_main; pg_page] = Some og_restyled.
Proof. apply pgs_done. vm_compute. reflexivity. Qed.
Lemma og_styled_site : pgs_site false (p_fs (snd pgs_first)) og_styled.
Proof. apply site_edited; [exact pg_first_site|]. intros r. generalize (p_fs (snd pgs_first)). intros s. reflexivity. Qed.
Lemma og_styled_same f : in_src f = true -> f <> pg_main -> p_fs og_styled f = pg_sources f.
Proof.
  intros I N. unfold og_styled. cbn [p_fs]. unfold fs_set. destruct (str_eqb f pg_main) eqn:E; [apply str_eqb_eq in E; contradiction|].
  rewrite (built_sources ex_sha exs_c pg_K w_stat (proj1 w_stat_ok) (proj2 w_stat_ok) eq_refl eq_refl pg_css true pg_sources pgs_new false _ _ (pg_new_site true) pg_first_builds f (in_src_not_out f I)). reflexivity.
Qed.
Lemma og_styled_lists : lists (p_fs og_styled) pg_names.
Proof. apply pg_lists. intros f I. destruct (str_eq_dec f pg_main) as [->|N]; [split; vm_compute; discriminate|]. rewrite (og_styled_same f I N). reflexivity. Qed.
Lemma og_restyled_builds : pgs_builds false og_styled (fst og_restyled) (snd og_restyled).
Proof. exact (pgs_sound _ _ _ _ og_styled_lists og_restyled_ok). Qed.
(** a set of files that is closed under use has all affected files *)
Definition closed_b (D P : graph) (l : list str) : bool :=
  forallb (fun f => mem f l || negb (existsb (fun x => mem x l) (api_children D f))) (dkeys D) && forallb (fun f => mem f l || negb (existsb (fun x => mem x l) (api_children P f))) (dkeys P).
Lemma closed_children g l f x : forallb (fun f => mem f l || negb (existsb (fun x => mem x l) (api_children g f))) (dkeys g) = true -> depends g f x -> In x l -> In f l.
Proof.
  rewrite forallb_forall. intros H Hx Hl. assert (Hk : In f (dkeys g)).
  { unfold depends, api_children, get_children in Hx. destruct (dget f g) as [n|] eqn:E; [eapply dget_Some_key; exact E|destruct Hx]. }
  specialize (H f Hk). apply orb_true_iff in H. destruct H as [H|H]; [apply mem_In; exact H|]. apply negb_true_iff in H. assert (Y : existsb (fun x => mem x l) (api_children g f) = true) by (apply existsb_exists; exists x; split; [exact Hx|apply mem_In; exact Hl]). congruence.
Qed.
Lemma closed_affected D P scans deleted l f : closed_b D P l = true -> incl scans l -> incl deleted l -> affected D P scans deleted f -> In f l.
Proof.
  intros Hc H1 H2 (x & Hx & R). apply andb_true_iff in Hc. destruct Hc as (C1 & C2). assert (Hl : In x l) by (destruct Hx as [Hx|Hx]; [apply H1|apply H2]; exact Hx). clear Hx. induction R as [a b [H|H]|a|a b d _ IH1 _ IH2]; [exact (closed_children _ _ _ _ C1 H Hl)|exact (closed_children _ _ _ _ C2 H Hl)|exact Hl|exact (IH2 (IH1 Hl))].
Qed.
Definition og_want (f : str) : list str * list (str * str) := match file_want ex_sha exs_c false pg_K f (p_fs (snd pgs_first)) with Some x => x | None => ([], []) end.
