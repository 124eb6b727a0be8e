(** Property C67: what out/www holds after any number of edits and rebuilds. *)
From Coq Require Import String ZArith NArith Bool List Relations.
From Verif Require Import Base Graph GraphSpec PyStr PyPath PyNorm PathSpec Js Builder CssVersion JsYield JsManip JsManipSpec Handlers Hot HotSpec HotGraphs HotResultSpec HotResultExamples HotWantSpec HotWantProofs
  Project ProjectSpec ProjectHistory ProjectHandlers ProjectExamples.
Import ListNotations.
Open Scope list_scope.

(** Whatever the handlers: if they report what they look at and write what is wanted, a rebuild
    keeps a correct folder correct, even though files that exist are not written again. *)
Theorem C67_general : forall want build stat D O P scans newph changed added deleted fs0 e l fs1 D1 O1 P1, project_graphs D O P ->
  hot_rebuild build stat D O P scans newph changed added deleted fs0 e l fs1 D1 O1 P1 ->
  forall fs_old (F : str -> Prop), (forall f, In f (dkeys D) \/ affected D P (dkeys scans) deleted f -> F f) ->
  reads_only want -> outputs_out want -> names_fixed F want -> follows want build -> writes_out build ->
  correct want D O fs_old -> as_recorded D O P (dkeys scans) deleted fs_old fs0 l -> orderly want D O P scans deleted l D1 O1 -> correct want D1 O1 fs1.
Proof. exact still_correct. Qed.
Print Assumptions C67_general.

Section Project.
Context (sha : str -> str) (c : constants) (dev : bool) (K : setting) (stat : fs -> str -> option fsig).
Context (Hcwd : starts_with (lit "/") (k_cwd K) = true) (Hcss : exists r, k_css K = lit "src/public/" ++ r /\ starts_with (lit "/") r = false).
Notation hist := (history sha c dev K stat).

(** Projects of scripts, constants, stylesheets without icons and data images, and files that are
    copied. Every output recorded for an input
    is there with the contents wanted, and no others are recorded. *)
Theorem C67_project : forall D O P s, hist D O P s -> project_graphs D O P /\ acyclic D /\ correct (file_want sha c dev K) D O s.
Proof. exact (fun D O P s H => let '(conj a (conj b (conj d _))) := history_sound sha c dev K Hcwd Hcss stat D O P s H in conj a (conj b d)). Qed.
(** The folder depends only on the sources: not on the order of edits and rebuilds, so that it is
    what a clean build of the same sources gives. *)
Theorem C67_clean : forall D O P s D2 O2 P2 s2, hist D O P s -> hist D2 O2 P2 s2 -> (forall f, In f (dkeys D) <-> In f (dkeys D2)) -> (forall f, In f (dkeys D) -> s f = s2 f) ->
  forall r, s (www r) = s2 (www r).
Proof. exact (fun D O P s D2 O2 P2 s2 H H2 => same_folder sha c dev K D O P s D2 O2 P2 s2 (history_sound sha c dev K Hcwd Hcss stat D O P s H) (history_sound sha c dev K Hcwd Hcss stat D2 O2 P2 s2 H2)). Qed.
Theorem C67_copied : forall D O P s, hist D O P s -> forall f r, In f (dkeys D) -> f = lit "src/public/" ++ r -> build_with (c_relpath c) f = CopyAndHash ->
  exists text, s f = Some text /\ s (www r) = Some text /\ s (www (r ++ lit ".hash")) = Some (sha text).
Proof. exact (fun D O P s H => copies sha c dev K D O P s (history_sound sha c dev K Hcwd Hcss stat D O P s H)). Qed.
Theorem C67_constants : forall D O P s, hist D O P s -> forall f r, In f (dkeys D) -> f = lit "src/public/" ++ r -> f = c_relpath c ->
  s (www r) = Some (constants_text (merged c dev)) /\ s (www (r ++ lit ".hash")) = Some (sha (constants_text (merged c dev))).
Proof. exact (fun D O P s H => constants_file sha c dev K D O P s (history_sound sha c dev K Hcwd Hcss stat D O P s H)). Qed.
(** Every hash file is the hash of what is served beside it. *)
Theorem C67_hashes : forall D O P s, hist D O P s -> forall q h, q <> [] -> Forall name q -> s (www (path_text q ++ lit ".hash")) = Some h ->
  exists body, s (www (path_text q)) = Some body /\ h = sha body /\ In (path_text (lit "src" :: lit "public" :: q)) (dkeys D).
Proof. exact (fun D O P s H => hashes sha c dev K D O P s (history_sound sha c dev K Hcwd Hcss stat D O P s H)). Qed.
(** A script is served with its imports pointing to the version served now. *)
Theorem C67_scripts : forall D O P s, hist D O P s -> forall f dirs fname, In f (dkeys D) -> build_with (c_relpath c) f = Script ->
  f = path_text (lit "src" :: lit "public" :: dirs ++ [fname]) -> Forall name (dirs ++ [fname]) ->
  exists text ts out, s f = Some text /\ js_tokenize text = Ret ts /\ s (www (path_text (dirs ++ [fname]))) = Some (js_serialize_many out) /\
    ((forall v, In (JComment v) ts -> ~ hint_text v) -> exists version, edited version false ts out /\
       forall p q new, version p = Some new -> leads dirs p q -> exists body, s (www (path_text q)) = Some body /\ In (path_text (lit "src" :: lit "public" :: q)) (dkeys D) /\
         new = lit "/" ++ path_text q ++ lit "?v=" ++ quote_plus (sha body) ++ lit "&pv=1.3.2").
Proof. exact (fun D O P s H => scripts sha c dev K D O P s (history_sound sha c dev K Hcwd Hcss stat D O P s H) Hcwd). Qed.
(** Every input below src/public is served, with a hash file, and nothing else is in out/www. *)
Theorem C67_served : forall D O P s, hist D O P s -> forall q, q <> [] -> Forall name q -> In (path_text (lit "src" :: lit "public" :: q)) (dkeys D) ->
  s (www (path_text q)) <> None /\ s (www (path_text q ++ lit ".hash")) <> None.
Proof. exact (fun D O P s H => served sha c dev K D O P s (history_sound sha c dev K Hcwd Hcss stat D O P s H)). Qed.
Theorem C67_nothing_else : forall D O P s, hist D O P s -> forall r, s (www r) <> None ->
  exists q, q <> [] /\ Forall name q /\ In (path_text (lit "src" :: lit "public" :: q)) (dkeys D) /\ (r = path_text q \/ r = path_text q ++ lit ".hash").
Proof. exact (fun D O P s H => nothing_else sha c dev K D O P s (history_sound sha c dev K Hcwd Hcss stat D O P s H)). Qed.
End Project.
Print Assumptions C67_project.
Print Assumptions C67_clean.
Print Assumptions C67_copied.
Print Assumptions C67_constants.
Print Assumptions C67_hashes.
Print Assumptions C67_scripts.
Print Assumptions C67_served.
Print Assumptions C67_nothing_else.

(** The example: a.js imports b.js and the constants; everything is built, b.js edited, and the
    project rebuilt. Only b.js and a.js are built again. *)
Example C67_first : ex_history (oc_D exp_first) (oc_O exp_first) (oc_P exp_first) (oc_fs exp_first).
Proof. exact first_history. Qed.
Example C67_second : ex_history (oc_D exp_second) (oc_O exp_second) (oc_P exp_second) (oc_fs exp_second).
Proof. exact second_history. Qed.
Example C67_built : map (fun x => fst (fst x)) (oc_log exp_second) = [ex_b; ex_a] /\
  oc_fs exp_first (www (lit "js/a.js")) = Some (lit "import { x } from ""/b.js?v=h20&pv=1.3.2"";" ++ [10%N] ++ lit "import ""/constants.js?v=h20&pv=1.3.2"";" ++ [10%N]) /\
  oc_fs exp_second (www (lit "js/a.js")) = Some (lit "import { x } from ""/b.js?v=h30&pv=1.3.2"";" ++ [10%N] ++ lit "import ""/constants.js?v=h20&pv=1.3.2"";" ++ [10%N]) /\
  oc_fs exp_second (www (lit "b.js.hash")) = Some (lit "h30") /\ In ex_a (dkeys (oc_D exp_second)) /\ In ex_logo (dkeys (oc_D exp_second)) /\
  build_with (c_relpath ex_c) ex_a = Script /\ build_with (c_relpath ex_c) ex_logo = CopyAndHash.
Proof. repeat match goal with |- _ /\ _ => split end; vm_compute; tauto. Qed.
Example C67_leads : leads [lit "js"] (lit "../b.js") [lit "b.js"] /\ leads [lit "js"] (lit "/constants.js") [lit "constants.js"] /\ starts_with (lit "/") (lit "/p") = true.
Proof.
  split; [|split; [|reflexivity]].
  - split; [discriminate|]. right. split; [reflexivity|]. apply (WalkUp [] (lit "js")). apply WalkInto; [apply name_b_spec; reflexivity|]. apply WalkEnd.
  - split; [discriminate|]. left. split; [|reflexivity]. repeat constructor. all: apply name_b_spec; reflexivity.
Qed.

(** A build that is killed leaves files which no graph mentions. If their sources are edited
    before the next build, they are served as they are. *)
Theorem C67_killed_refuted : exists e l s1 D1 O1 P1, hot_rebuild exp_build exp_stat empty_graph empty_graph empty_graph (exp_scans ex_names exp_killed) [] [] (exp_sigs ex_names) [] exp_killed e l s1 D1 O1 P1 /\
  (exists r, exp_build ex_logo ex_sources = Some r /\ forall p, exp_killed p = fs_set ex_logo (lit "new picture") (apply_build r ex_sources) p) /\
  s1 ex_logo = Some (lit "new picture") /\ s1 (www (lit "logo.png")) = Some (lit "picture").
Proof.
  exists (oc_e exp_after), (oc_log exp_after), (oc_fs exp_after), (oc_D exp_after), (oc_O exp_after), (oc_P exp_after).
  split; [exact (exp_clean_sound _ _ exp_after_ok)|]. split; [exact exp_killed_how|split; vm_compute; reflexivity].
Qed.
Print Assumptions C67_killed_refuted.

(** The builds used here are those of C53-C55. *)
Theorem C67_handlers : forall sha c dev, (forall p F, same_result F (plain_build sha p (fun x => dget x F)) (copy_and_hash_build sha p F)) /\
  forall F, same_result F (constants_file_build sha c dev (c_relpath c) (fun x => dget x F)) (constants_build sha c dev (c_relpath c) F).
Proof. exact (fun sha c dev => conj (plain_same sha) (constants_same sha c dev)). Qed.
Print Assumptions C67_handlers.
Example C67_handlers_ok : exists h F, copy_and_hash_build ex_sha ex_logo [(ex_logo, lit "picture")] = Ret (h, F) /\ Handlers.produced h = [www (lit "logo.png"); www (lit "logo.png.hash")].
Proof. eexists _, _. split; [vm_compute; reflexivity|reflexivity]. Qed.
