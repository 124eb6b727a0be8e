(** C56: the target of an import does not depend on how its path is written. *)
From Verif Require Import Base Graph PyStr PyPath PyNorm Js Builder JsYield JsManip PathSpec JsPathProofs.
From Coq Require Import String ZArith NArith Bool List.
Import ListNotations.
Open Scope list_scope.
Open Scope N_scope.

(** A script in any folder below src/public imports by a relative path; following the
    path from the folder of the script leads to the file [there] without leaving
    src/public.  Then the dependency and the url are those of [there], the same as for
    the rooted spelling in any other script. *)
Theorem C56_same_target : forall cwd folder dirs script p there, starts_with [47] cwd = true -> Forall name (dirs ++ [script]) -> starts_with [47] p = false ->
  walk dirs (split_on 47 p) there -> there <> [] -> forall other,
  resolve cwd folder (path_text (lit "src" :: lit "public" :: dirs ++ [script])) p = (path_text (lit "src" :: lit "public" :: there), [47] ++ path_text there) /\
  resolve cwd folder other ([47] ++ path_text there) = (path_text (lit "src" :: lit "public" :: there), [47] ++ path_text there).
Proof. exact same_target. Qed.
Print Assumptions C56_same_target.
Example C56_same_target_ok : Forall name [lit "a"; lit "b"; lit "c.js"] /\ starts_with [47] (lit ".././x//y.js") = false /\ walk [lit "a"; lit "b"] (split_on 47 (lit ".././x//y.js")) [lit "a"; lit "x"; lit "y.js"].
Proof.
  assert (Hn : forall c, c <> [] -> c <> lit "." -> c <> lit ".." -> forallb (fun x => negb (x =? 47)) c = true -> name c).
  { intros c H1 H2 H3 H4. repeat (split; [assumption|]). intros H. rewrite forallb_forall in H4. specialize (H4 _ H). rewrite N.eqb_refl in H4. discriminate. }
  split; [repeat constructor; apply Hn; (discriminate || reflexivity)|]. split; [reflexivity|].
  change (split_on 47 (lit ".././x//y.js")) with [lit ".."; lit "."; lit "x"; []; lit "y.js"].
  apply (WalkUp [lit "a"]). apply WalkDot. apply WalkInto; [apply Hn; (discriminate || reflexivity)|]. apply WalkEmpty. apply WalkInto; [apply Hn; (discriminate || reflexivity)|]. apply WalkEnd.
Qed.
Example C56_same_target_text : resolve (lit "/home/me") (lit "../p") (lit "src/public/a/b/c.js") (lit ".././x//y.js") = (lit "src/public/a/x/y.js", lit "/a/x/y.js").
Proof. vm_compute. reflexivity. Qed.
(** The version of a file below src/public is read from its hash file in out/www. *)
Theorem C56_hash_file : forall cwd there, starts_with [47] cwd = true -> Forall name there -> there <> [] ->
  hash_file cwd (path_text (lit "src" :: lit "public" :: there)) = path_text (lit "out" :: lit "www" :: there) ++ lit ".hash".
Proof. exact target_hash. Qed.
Print Assumptions C56_hash_file.
Example C56_hash_file_text : hash_file (lit "/home/me") (lit "src/public/a/x/y.js") = lit "out/www/a/x/y.js.hash".
Proof. vm_compute. reflexivity. Qed.
(** A protocol-relative url is taken for a project file: the build fails. *)
Theorem C56_external_refuted : forall cwd folder script type_name, exists rest,
  pump (js_manips cwd folder script (fun _ => None) type_name false) 10 [JImport; JString (lit "//cdn/x.js"); JEof] (new_builder js_init) = Raise FileNotFoundError /\
  resolve cwd folder script (lit "//cdn/x.js") = (lit "/cdn/x.js", rest).
Proof. exact (fun cwd folder script type_name => ex_intro _ (lit "//cdn/x.js") (conj eq_refl eq_refl)). Qed.
Print Assumptions C56_external_refuted.
