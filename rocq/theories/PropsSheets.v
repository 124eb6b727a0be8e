(** Property C69: the stylesheets served after the build command. *)
From Coq Require Import String ZArith NArith Bool List Relations.
From Verif Require Import Base Graph GraphSpec PyStr PyPath PyNorm PyNormProofs PathSpec Css CssVersion CssVersionSpec IconManip Nest NestSpec Js Builder JsYield JsManip JsManipSpec Handlers OutlineData Hot HotSpec HotGraphs HotResultSpec HotWantSpec Cold ColdSpec ColdExamples
  Project ProjectSpec ProjectPage ProjectEdit ProjectHistory ProjectExamples ProjectSite ProjectSiteProofs ProjectSiteExamples CssWhole CssWholeProofs ProjectSheetExamples.
Import ListNotations.
Open Scope list_scope.

Section Sheets.
Context (sha : str -> str) (c : constants) (K : setting) (stat : fs -> str -> option fsig).
Context (Hstat : stat_ok stat) (Hdet : stat_detects stat) (Hconst : in_src (c_relpath c) = true) (Hcwd : starts_with (lit "/") (k_cwd K) = true) (Hcss : exists r, k_css K = lit "src/public/" ++ r /\ starts_with (lit "/") r = false).
Notation just_built := (just_built sha c K stat).
Notation built_good := (built_good sha c K stat Hstat Hdet Hconst Hcwd Hcss).
Notation built_inputs := (built_inputs sha c K stat Hstat Hdet Hconst Hcwd Hcss).
Notation rule_of f s := (rule_of (k_float_of K) (k_float_str K) (k_high_digit K) (k_int_high K) f s).
Notation readable f s := (NestSpec.readable (k_float_of K) (k_high_digit K) (k_int_high K) f s).
Notation import := (import (k_css K)).

(** A stylesheet is served with each import replaced by the block of the rule it asks for, as
    it is now in the stylesheet served, and each url followed by what is now the hash. *)
Theorem C69_sheets : forall dev p, just_built dev p -> forall r, p_fs p (lit "src/public/" ++ r) <> None -> build_with (c_relpath c) (lit "src/public/" ++ r) = Stylesheet ->
  let f := lit "src/public/" ++ r in
  exists text ts out, p_fs p f = Some text /\ tokenize (k_float_of K) (k_high_digit K) (k_int_high K) text = (ts, None) /\ p_fs p (www r) = Some out /\ p_fs p (www (r ++ lit ".hash")) = Some (sha out) /\
    ((forall t i, In t ts -> import t i -> readable f (p_fs p) i) ->
     exists mid res, expanded (rule_of f (p_fs p)) import ts mid /\ stamped f (p_fs p) false mid res /\ out = serialize_many (k_float_str K) res).
Proof.
  intros dev p H r Hf Hb f. assert (I : In f (dkeys (p_D p))) by (apply (built_inputs dev p H); split; [reflexivity|exact Hf]).
  destruct (sheets sha c dev K _ _ _ _ (built_good dev p H) f r I eq_refl Hb) as (text & ts & out & A & B & C & D & E). eauto 10.
Qed.
(** The block of an import from another stylesheet comes from the file that is served for a
    stylesheet of the project. *)
Theorem C69_imported : forall dev p, just_built dev p -> forall f q selector b, q <> [] -> Forall name q -> (~ exists r, path_text q = r ++ lit ".hash") -> f <> path_text (lit "src" :: lit "public" :: q) ->
  rule_of f (p_fs p) (path_text (lit "src" :: lit "public" :: q), selector) b ->
  exists text ts l prelude, p_fs p (path_text (lit "src" :: lit "public" :: q)) <> None /\ p_fs p (www (path_text q)) = Some text /\
    tokenize (k_float_of K) (k_high_digit K) (k_int_high K) text = (ts, None) /\ sheet ts l /\ In (prelude, b) l /\ selector_of (k_float_str K) prelude = selector.
Proof.
  intros dev p H f q selector b A B N C D. destruct (imported sha c dev K _ _ _ _ (built_good dev p H) f q selector b A B N C D) as (text & ts & l & pr & I & X). exists text, ts, l, pr. split; [apply (built_inputs dev p H), I|exact X].
Qed.
(** The version in an url of a file is the hash of the file that is served now. *)
Theorem C69_urls : forall dev p, just_built dev p -> forall q new, q <> [] -> Forall name q -> versioned (p_fs p) (lit "/" ++ path_text q) new ->
  exists body, p_fs p (path_text (lit "src" :: lit "public" :: q)) <> None /\ p_fs p (www (path_text q)) = Some body /\ new = lit "/" ++ path_text q ++ lit "?v=" ++ quote_plus (sha body) ++ lit "&pv=1.3.2".
Proof.
  intros dev p H q new A B (rel & h & E & X & ->). injection E as <-. assert (Y : p_fs p (www (path_text q ++ lit ".hash")) = Some h).
  { rewrite www_join in X. destruct (starts_with (lit "/") (path_text q ++ lit ".hash")) eqn:S; [|exact X]. exfalso. pose proof (no_slash q B) as N. destruct (path_text q) as [|a y] eqn:P; [|cbn [app] in S; rewrite head_slash in *; congruence]. discriminate S. }
  destruct (hashes sha c dev K _ _ _ _ (built_good dev p H) q h A B Y) as (body & B1 & -> & B3). exists body. split; [apply (built_inputs dev p H), B3|]. split; [exact B1|]. rewrite <- app_assoc. reflexivity.
Qed.
End Sheets.
(** Leaving out icons and data images only narrows the stylesheets: when the run succeeds, the
    four manipulators of the handler together give the same text and the same dependencies in
    both modes, and those two find and write nothing. *)
Theorem C69_whole : forall K sha cfg decode lexists scan p s out ch rs fl1 fl2, css_run K scan p s = Some (out, ch, rs) ->
  exists text ts fuel res b, s p = Some text /\ tokenize (k_float_of K) (k_high_digit K) (k_int_high K) text = (ts, None) /\
    pump (whole_manips K sha cfg decode lexists p s scan) fuel ts (new_builder ((nest_init, v_init), (i_init fl1, d_init fl2))) = Ret (res, b) /\
    out = serialize_many (k_float_str K) res /\ ch = n_seen (fst (fst (b_st b))) ++ v_seen (snd (fst (b_st b))) /\ snd (b_st b) = (i_init fl1, d_init fl2).
Proof. exact whole_css. Qed.
Print Assumptions C69_whole.
Print Assumptions C69_sheets.
Print Assumptions C69_imported.
Print Assumptions C69_urls.

(** The example: page.css imports a rule of css/main.css that has an url of a picture. The
    project is built; then the picture is edited and it is built again: the picture, main.css
    and page.css are built. *)
Example C69_first : shs_just_built false (snd shs_first) /\ shs_just_built false (snd shs_second).
Proof. exact (conj sh_first_just sh_second_just). Qed.
Example C69_premises : stat_ok w_stat /\ stat_detects w_stat /\ in_src (c_relpath exs_c) = true /\ starts_with (lit "/") (k_cwd ex_K) = true /\ (exists r, k_css ex_K = lit "src/public/" ++ r /\ starts_with (lit "/") r = false) /\
  p_fs (snd shs_second) sh_page = Some sh_text_page /\ build_with (c_relpath exs_c) sh_page = Stylesheet.
Proof. split; [exact (proj1 w_stat_ok)|]. split; [exact (proj2 w_stat_ok)|]. split; [reflexivity|]. split; [reflexivity|]. split; [exact ex_css|]. split; [vm_compute; reflexivity|reflexivity]. Qed.
Example C69_built : option_map (fun w => map (fun x => fst (fst x)) (run_log w)) (fst shs_second) = Some [sh_logo; sh_main; sh_page] /\
  p_fs (snd shs_first) (www (lit "page.css")) = Some (lit ".big {" ++ [10%N] ++ lit "  background: url(/img/logo.png?v=h7&pv=1.3.2); color: red" ++ [10%N] ++ lit "  width: 10px" ++ [10%N] ++ lit "}" ++ [10%N]) /\
  p_fs (snd shs_second) (www (lit "page.css")) = Some (lit ".big {" ++ [10%N] ++ lit "  background: url(/img/logo.png?v=h11&pv=1.3.2); color: red" ++ [10%N] ++ lit "  width: 10px" ++ [10%N] ++ lit "}" ++ [10%N]) /\
  p_fs (snd shs_second) (www (lit "css/main.css")) = Some (lit ".btn { background: url(/img/logo.png?v=h11&pv=1.3.2); color: red }" ++ [10%N]).
Proof. repeat match goal with |- _ /\ _ => split end; vm_compute; reflexivity. Qed.
Example C69_runs : exists out ch rs, css_run ex_K false sh_page (p_fs (snd shs_second)) = Some (out, ch, rs) /\ ch = [sh_main].
Proof. eexists _, _, _. split; [vm_compute; reflexivity|reflexivity]. Qed.
