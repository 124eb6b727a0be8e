(** A small project, built and rebuilt. *)
From Verif Require Import Base Graph GraphSpec GraphProofs PyStr PyPath PyNorm PathSpec Json Js Builder JsYield JsManip JsManipSpec Handlers Hot HotSpec HotDrive HotGraphs HotResultSpec HotResultExamples HotWantSpec Project ProjectSpec.
From Coq Require Import String ZArith NArith Bool List.
Import ListNotations.
Open Scope list_scope.

Definition name_b (x : str) : bool := negb (str_eqb x []) && negb (str_eqb x (lit ".")) && negb (str_eqb x (lit "..")) && negb (existsb (N.eqb 47) x).
Lemma name_b_spec x : name_b x = true -> name x.
Proof.
  unfold name_b. rewrite !andb_true_iff, !negb_true_iff, !str_eqb_neq. intros (((A & B) & C) & D). split; [exact A|]. split; [exact B|]. split; [exact C|].
  intros H. assert (X : existsb (N.eqb 47) x = true) by (apply existsb_exists; exists 47%N; split; [exact H|reflexivity]). congruence.
Qed.
Definition source_b (f : str) : bool :=
  match split_on 47 f with
  | _ :: _ :: q => negb (match q with [] => true | _ => false end) && forallb name_b q && str_eqb f (path_text (lit "src" :: lit "public" :: q)) && negb (ends_with (lit ".hash") f)
  | _ => false
  end.
Lemma source_b_spec f : source_b f = true -> source_name f.
Proof.
  unfold source_b. destruct (split_on 47 f) as [|? [|? q]]; try discriminate. rewrite !andb_true_iff, !negb_true_iff, forallb_forall, str_eqb_eq. intros (((A & B) & C) & D). split.
  - left. exists q. split; [destruct q; discriminate|]. split; [|exact C]. apply Forall_forall. intros x Hx. apply name_b_spec, B, Hx.
  - intros (r & E). rewrite (proj2 (ends_with_iff _ _)) in D by (exists r; exact E). discriminate.
Qed.
Definition scan_eq_dec (a b : scan_result) : {a = b} + {a <> b}.
Proof. decide equality; apply (list_eq_dec str_eq_dec). Defined.
Section Check.
Context (c : constants) (K : setting).
Definition edits_b (D : graph) (scans : dict scan_result) (deleted : list str) (s s0 : fs) : bool :=
  forallb source_b (dkeys D ++ dkeys scans ++ deleted) &&
  forallb (fun f => mem f deleted || match s0 f with Some _ => true | None => false end) (dkeys D ++ dkeys scans) &&
  forallb (fun f => mem f (dkeys scans) || mem f deleted || ostr_eqb (s0 f) (s f)) (dkeys D) &&
  forallb (fun x => match file_scan c K (fst x) s0 with Some sc => if scan_eq_dec sc (snd x) then true else false | None => false end) scans.
Lemma edits_b_spec D scans deleted s s0 : edits_b D scans deleted s s0 = true -> (forall r, s0 (www r) = s (www r)) -> forall O P, edits c K D O P scans deleted s s0.
Proof.
  unfold edits_b. rewrite !andb_true_iff, !forallb_forall. intros (((A & B) & C) & E) Ho O P. split.
  - intros f Hf. apply source_b_spec, A. rewrite !in_app_iff. tauto.
  - intros f Hf Hd X. assert (Y : In f (dkeys D ++ dkeys scans)) by (rewrite in_app_iff; tauto). apply B in Y. rewrite X, orb_false_r in Y. apply Hd, mem_In, Y.
  - intros f Hf Hs Hd. pose proof (C f Hf) as Y. apply mem_false in Hs. apply mem_false in Hd. rewrite Hs, Hd in Y. apply ostr_eqb_eq, Y.
  - intros f sc Hi. pose proof (E _ Hi) as Y. cbn [fst snd] in Y. destruct (file_scan c K f s0) as [sc2|]; [|discriminate]. destruct (scan_eq_dec sc2 sc); congruence.
  - intros r. left. apply Ho.
Qed.
End Check.

(** two scripts, the file of constants and a picture *)
Definition ex_sha (t : str) : str := lit "h" ++ print_Z (Z.of_nat (length t)).
Definition ex_c : constants := {| c_relpath := lit "src/public/constants.js"; c_shared := [(lit "N", VInt 3)]; c_dev := []; c_prod := [] |}.
Definition ex_a := lit "src/public/js/a.js". Definition ex_b := lit "src/public/b.js". Definition ex_logo := lit "src/public/logo.png".
Definition ex_names := [ex_a; ex_b; c_relpath ex_c; ex_logo].
Definition ex_text_a := lit "import { x } from '../b.js';" ++ [10%N] ++ lit "import '/constants.js';" ++ [10%N].
Definition ex_text_b := lit "export const x = 1;" ++ [10%N].
Definition ex_sources : fs := fs_set ex_a ex_text_a (fs_set ex_b ex_text_b (fs_set (c_relpath ex_c) [] (fs_set ex_logo (lit "picture") (fun _ => None)))).
Definition ex_change (s : fs) : fs := fs_set ex_b (ex_text_b ++ lit "// more" ++ [10%N]) s.
Definition ex_K : setting := {| k_cwd := lit "/p"; k_folder := lit "."; k_type_name := fun _ => []; k_fuel := 60; k_float := unit; k_float_of := fun _ => Some tt; k_float_str := fun _ => lit "0.5";
  k_high_digit := fun _ => false; k_int_high := fun _ => None; k_css := lit "src/public/css/main.css"; k_pick := fun _ _ => 0%nat;
  k_host := None; k_document := fun _ => []; k_fragment := fun _ => []; k_show := fun x => x; k_write := fun _ => [] |}.
Lemma ex_css : exists r, k_css ex_K = lit "src/public/" ++ r /\ starts_with (lit "/") r = false.
Proof. exists (lit "css/main.css"). split; reflexivity. Qed.
Notation ex_scan := (file_scan ex_c ex_K).
Notation exp_build := (file_build ex_sha ex_c false ex_K).
Definition exp_scans (l : list str) (s : fs) : dict scan_result := map (fun f => (f, match ex_scan f s with Some sc => sc | None => mkScan [] [] end)) l.
Definition exp_stat (s : fs) (p : str) : option fsig := match s p with Some x => Some (Z.of_nat (length x), 1, 1)%Z | None => None end.
Definition exp_sigs (l : list str) : dict fsig := map (fun f => (f, (1, 2, 3)%Z)) l.
Definition exp_none (s : fs) : outcome := mkOutcome (mkEnv [] [] [] [] [] [] [] []) [] s [] [] [].
Definition exp_clean (s : fs) : option outcome := run_rebuild exp_build exp_stat 2 60 empty_graph empty_graph empty_graph (exp_scans ex_names s) [] [] (exp_sigs ex_names) [] s ex_names ex_names.
Definition exp_first : outcome := match exp_clean ex_sources with Some oc => oc | None => exp_none ex_sources end.
Definition exp_again : option outcome := run_rebuild exp_build exp_stat 1 60 (oc_D exp_first) (oc_O exp_first) (oc_P exp_first) (exp_scans [ex_b] (ex_change (oc_fs exp_first))) [] (exp_sigs [ex_b]) [] []
  (ex_change (oc_fs exp_first)) [ex_b; ex_a] (rev ex_names).
Definition exp_second : outcome := match exp_again with Some oc => oc | None => exp_none ex_sources end.
(** the folder after a killed first build, with the picture edited since *)
Definition exp_killed : fs := fs_set ex_logo (lit "new picture") (match exp_build ex_logo ex_sources with Some r => apply_build r ex_sources | None => ex_sources end).
Definition exp_after : outcome := match exp_clean exp_killed with Some oc => oc | None => exp_none ex_sources end.

Definition done (o : option outcome) : bool := match o with Some _ => true | None => false end.
Lemma done_some o oc0 : done o = true -> o = Some (match o with Some oc => oc | None => oc0 end).
Proof. destruct o; [reflexivity|discriminate]. Qed.
Lemma exp_clean_sound s oc : exp_clean s = Some oc ->
  hot_rebuild exp_build exp_stat empty_graph empty_graph empty_graph (exp_scans ex_names s) [] [] (exp_sigs ex_names) [] s (oc_e oc) (oc_log oc) (oc_fs oc) (oc_D oc) (oc_O oc) (oc_P oc).
Proof. unfold exp_clean. intros H. exact (proj1 (run_rebuild_sound _ _ _ _ _ _ _ _ _ _ _ _ _ _ _ _ H)). Qed.
Lemma exp_again_sound oc : exp_again = Some oc ->
  hot_rebuild exp_build exp_stat (oc_D exp_first) (oc_O exp_first) (oc_P exp_first) (exp_scans [ex_b] (ex_change (oc_fs exp_first))) [] (exp_sigs [ex_b]) [] [] (ex_change (oc_fs exp_first))
    (oc_e oc) (oc_log oc) (oc_fs oc) (oc_D oc) (oc_O oc) (oc_P oc).
Proof. unfold exp_again. intros H. exact (proj1 (run_rebuild_sound _ _ _ _ _ _ _ _ _ _ _ _ _ _ _ _ H)). Qed.
Lemma exp_first_ok : exp_clean ex_sources = Some exp_first.
Proof. apply done_some. vm_compute. reflexivity. Qed.
Lemma exp_second_ok : exp_again = Some exp_second.
Proof. apply done_some. vm_compute. reflexivity. Qed.
Lemma exp_after_ok : exp_clean exp_killed = Some exp_after.
Proof. apply done_some. vm_compute. reflexivity. Qed.
Lemma first_edits : edits ex_c ex_K empty_graph empty_graph empty_graph (exp_scans ex_names ex_sources) [] ex_sources ex_sources.
Proof. apply edits_b_spec; [vm_compute; reflexivity|intros r; reflexivity]. Qed.
Lemma second_edits : edits ex_c ex_K (oc_D exp_first) (oc_O exp_first) (oc_P exp_first) (exp_scans [ex_b] (ex_change (oc_fs exp_first))) [] (oc_fs exp_first) (ex_change (oc_fs exp_first)).
Proof. apply edits_b_spec; [vm_compute; reflexivity|]. intros r. generalize (oc_fs exp_first). intros s. reflexivity. Qed.
Notation ex_history := (history ex_sha ex_c false ex_K exp_stat).
Lemma first_history : ex_history (oc_D exp_first) (oc_O exp_first) (oc_P exp_first) (oc_fs exp_first).
Proof. eapply rebuilt; [apply never_built with (s := ex_sources); intros r; reflexivity|exact first_edits|exact (exp_clean_sound _ _ exp_first_ok)]. Qed.
Lemma second_history : ex_history (oc_D exp_second) (oc_O exp_second) (oc_P exp_second) (oc_fs exp_second).
Proof. eapply rebuilt; [exact first_history|exact second_edits|exact (exp_again_sound _ exp_second_ok)]. Qed.
Lemma exp_killed_how : exists r, exp_build ex_logo ex_sources = Some r /\ forall p, exp_killed p = fs_set ex_logo (lit "new picture") (apply_build r ex_sources) p.
Proof.
  unfold exp_killed. assert (H : match exp_build ex_logo ex_sources with Some _ => true | None => false end = true) by (vm_compute; reflexivity).
  destruct (exp_build ex_logo ex_sources) as [r|]; [|discriminate]. exists r. split; reflexivity.
Qed.
