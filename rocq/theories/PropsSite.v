(** Property C68: what is served after the build command, in either mode. *)
From Coq Require Import String ZArith NArith Bool List Relations.
From Verif Require Import Base Graph GraphSpec PyStr PyPath PyNorm PathSpec Js Builder CssVersion JsYield JsManip JsManipSpec Handlers Hot HotSpec HotGraphs HotResultSpec HotWantSpec Cold ColdSpec ColdExamples
  Project ProjectSpec ProjectHistory ProjectExamples ProjectSite ProjectSiteProofs ProjectSiteExamples.
Import ListNotations.
Open Scope list_scope.

Section Site.
Context (sha : str -> str) (c : constants) (K : setting) (stat : fs -> str -> option fsig).
Context (Hstat : stat_ok stat) (Hdet : stat_detects stat) (Hconst : in_src (c_relpath c) = true) (Hcwd : starts_with (lit "/") (k_cwd K) = true) (Hcss : exists r, k_css K = lit "src/public/" ++ r /\ starts_with (lit "/") r = false).
Notation just_built := (just_built sha c K stat).
Notation site := (site sha c K stat).
Notation builds := (builds sha c K stat).
Notation built_good := (built_good sha c K stat Hstat Hdet Hconst Hcwd Hcss).
Notation built_inputs := (built_inputs sha c K stat Hstat Hdet Hconst Hcwd Hcss).

(** After a build every recorded output is there with the contents wanted in the mode of this
    build, and the recorded inputs are the files of the source folder. *)
Theorem C68_correct : forall dev p, just_built dev p -> correct (file_want sha c dev K) (p_D p) (p_O p) (p_fs p) /\
  forall f, In f (dkeys (p_D p)) <-> in_src f = true /\ p_fs p f <> None.
Proof. exact (fun dev p H => conj (proj1 (proj2 (proj2 (built_good dev p H)))) (built_inputs dev p H)). Qed.
(** The folder served depends on the mode of the last build and on the sources alone: earlier
    builds, edits and modes make no difference, so it is that of a clean build. *)
Theorem C68_clean : forall dev p p2, just_built dev p -> just_built dev p2 -> (forall f, in_src f = true -> p_fs p f = p_fs p2 f) -> forall r, p_fs p (www r) = p_fs p2 (www r).
Proof. exact (built_same sha c K stat Hstat Hdet Hconst Hcwd Hcss). Qed.
(** Each file that is copied is served as it is. *)
Theorem C68_copied : forall dev p, just_built dev p -> forall r text, p_fs p (lit "src/public/" ++ r) = Some text -> build_with (c_relpath c) (lit "src/public/" ++ r) = CopyAndHash ->
  p_fs p (www r) = Some text /\ p_fs p (www (r ++ lit ".hash")) = Some (sha text).
Proof.
  intros dev p H r text Hf Hb. assert (I : In (lit "src/public/" ++ r) (dkeys (p_D p))) by (apply (built_inputs dev p H); split; [reflexivity|congruence]).
  destruct (copies sha c dev K _ _ _ _ (built_good dev p H) _ r I eq_refl Hb) as (t & A & B). rewrite Hf in A. injection A as <-. exact B.
Qed.
(** The constants served are those of the mode of the last build. *)
Theorem C68_constants : forall dev p, just_built dev p -> forall r, c_relpath c = lit "src/public/" ++ r -> p_fs p (c_relpath c) <> None ->
  p_fs p (www r) = Some (constants_text (merged c dev)) /\ p_fs p (www (r ++ lit ".hash")) = Some (sha (constants_text (merged c dev))).
Proof. exact (fun dev p H r E X => constants_file sha c dev K _ _ _ _ (built_good dev p H) (c_relpath c) r (proj2 (built_inputs dev p H _) (conj Hconst X)) E eq_refl). Qed.
Theorem C68_hashes : forall dev p, just_built dev p -> forall q h, q <> [] -> Forall name q -> p_fs p (www (path_text q ++ lit ".hash")) = Some h ->
  exists body, p_fs p (www (path_text q)) = Some body /\ h = sha body.
Proof. intros dev p H q h A B C. destruct (hashes sha c dev K _ _ _ _ (built_good dev p H) q h A B C) as (body & X & Y & _). eauto. Qed.
(** Every import of a script points to the version of the imported file that is served. *)
Theorem C68_scripts : forall dev p, just_built dev p -> forall f dirs fname, p_fs p f <> None -> build_with (c_relpath c) f = Script ->
  f = path_text (lit "src" :: lit "public" :: dirs ++ [fname]) -> Forall name (dirs ++ [fname]) ->
  exists text ts out, p_fs p f = Some text /\ js_tokenize text = Ret ts /\ p_fs p (www (path_text (dirs ++ [fname]))) = Some (js_serialize_many out) /\
    ((forall v, In (JComment v) ts -> ~ hint_text v) -> exists version, edited version false ts out /\
       forall x q new, version x = Some new -> leads dirs x q -> exists body, p_fs p (www (path_text q)) = Some body /\ p_fs p (path_text (lit "src" :: lit "public" :: q)) <> None /\
         new = lit "/" ++ path_text q ++ lit "?v=" ++ quote_plus (sha body) ++ lit "&pv=1.3.2").
Proof.
  intros dev p H f dirs fname Hf Hb E Hn. destruct (scripts sha c dev K _ _ _ _ (built_good dev p H) Hcwd f dirs fname) as (text & ts & out & A & B & C & D); try assumption.
  { apply (built_inputs dev p H). split; [|exact Hf]. rewrite E. reflexivity. }
  exists text, ts, out. split; [exact A|]. split; [exact B|]. split; [exact C|]. intros Hh. destruct (D Hh) as (version & V & W). exists version. split; [exact V|]. intros x q new X1 X2. destruct (W x q new X1 X2) as (body & Y1 & Y2 & Y3).
  exists body. split; [exact Y1|]. split; [apply (built_inputs dev p H), Y2|exact Y3].
Qed.
(** Everything below src/public is served with a hash file, and nothing else is. *)
Theorem C68_served : forall dev p, just_built dev p -> forall q, q <> [] -> Forall name q -> p_fs p (path_text (lit "src" :: lit "public" :: q)) <> None ->
  p_fs p (www (path_text q)) <> None /\ p_fs p (www (path_text q ++ lit ".hash")) <> None.
Proof. exact (fun dev p H q A B X => served sha c dev K _ _ _ _ (built_good dev p H) q A B (proj2 (built_inputs dev p H (path_text (lit "src" :: lit "public" :: q))) (conj eq_refl X))). Qed.
Theorem C68_nothing_else : forall dev p, just_built dev p -> forall r, p_fs p (www r) <> None ->
  exists q, q <> [] /\ Forall name q /\ p_fs p (path_text (lit "src" :: lit "public" :: q)) <> None /\ (r = path_text q \/ r = path_text q ++ lit ".hash").
Proof.
  intros dev p H r X. destruct (nothing_else sha c dev K _ _ _ _ (built_good dev p H) r X) as (q & A & B & C & D). exists q. split; [exact A|]. split; [exact B|]. split; [apply (built_inputs dev p H), C|exact D].
Qed.
(** A build changes nothing outside the out folder, and a second one finds nothing to do. *)
Theorem C68_sources : forall dev0 last p dev r p1, site dev0 last p -> builds dev p r p1 -> forall q, is_out q = false -> p_fs p1 q = p_fs p q.
Proof. exact (built_sources sha c K stat Hstat Hdet Hconst Hcwd Hcss). Qed.
Theorem C68_twice : forall dev p, just_built dev p -> (forall files, lists (p_fs p) files -> builds dev p None p) /\ forall r p2, builds dev p r p2 -> r = None /\ p2 = p.
Proof. exact (built_twice sha c K stat Hstat Hdet Hconst Hcwd Hcss). Qed.
End Site.
Print Assumptions C68_correct.
Print Assumptions C68_clean.
Print Assumptions C68_copied.
Print Assumptions C68_constants.
Print Assumptions C68_hashes.
Print Assumptions C68_scripts.
Print Assumptions C68_served.
Print Assumptions C68_nothing_else.
Print Assumptions C68_sources.
Print Assumptions C68_twice.

(** The example: built for production; then b.js is edited and the project is built for
    development. The constants, b.js and a.js, which imports both, are built again. *)
Example C68_first : exs_just_built false (snd exs_first) /\ exs_just_built true (snd exs_second).
Proof. exact (conj first_just second_just). Qed.
Example C68_premises : stat_ok w_stat /\ stat_detects w_stat /\ in_src (c_relpath exs_c) = true /\ starts_with (lit "/") (k_cwd ex_K) = true /\ (exists r, k_css ex_K = lit "src/public/" ++ r /\ starts_with (lit "/") r = false) /\ lists (p_fs exs_edited) ex_names.
Proof. exact (conj (proj1 w_stat_ok) (conj (proj2 w_stat_ok) (conj eq_refl (conj eq_refl (conj ex_css edited_lists))))). Qed.
Example C68_built : option_map (fun w => map (fun x => fst (fst x)) (run_log w)) (fst exs_second) = Some [c_relpath exs_c; ex_b; ex_a] /\
  p_fs (snd exs_first) (www (lit "constants.js")) = Some (lit "export const N = 40;" ++ [10%N]) /\
  p_fs (snd exs_second) (www (lit "constants.js")) = Some (lit "export const N = 3;" ++ [10%N]) /\
  p_fs (snd exs_first) (www (lit "js/a.js")) = Some (lit "import { x } from ""/b.js?v=h20&pv=1.3.2"";" ++ [10%N] ++ lit "import ""/constants.js?v=h21&pv=1.3.2"";" ++ [10%N]) /\
  p_fs (snd exs_second) (www (lit "js/a.js")) = Some (lit "import { x } from ""/b.js?v=h30&pv=1.3.2"";" ++ [10%N] ++ lit "import ""/constants.js?v=h20&pv=1.3.2"";" ++ [10%N]) /\
  p_fs (snd exs_second) ex_logo <> None /\ build_with (c_relpath exs_c) ex_logo = CopyAndHash /\ build_with (c_relpath exs_c) ex_a = Script /\
  js_tokenize ex_text_a <> Raise OutOfFuel.
Proof. repeat match goal with |- _ /\ _ => split end; vm_compute; try reflexivity; discriminate. Qed.
