(** Vocabulary for C67: what the out folder of a project should hold. *)
From Verif Require Import Base Graph GraphSpec PyStr PyPath PyNorm PathSpec Js Builder JsYield JsManip JsManipSpec Handlers Hot HotSpec HotGraphs HotResultSpec HotWantSpec Project.
From Coq Require Import String ZArith NArith Bool List.
Import ListNotations.
Open Scope list_scope.

(** * Files of a project *)
(** the names of files below src/public, and of other files below src *)
Definition below_public (f : str) : Prop := exists q, q <> [] /\ Forall name q /\ f = path_text (lit "src" :: lit "public" :: q).
Definition beside_public (f : str) : Prop := exists q, Forall name q /\ f = path_text (lit "src" :: q) /\ ~ exists r, f = lit "src/public" ++ r.
Definition source_name (f : str) : Prop := (below_public f \/ beside_public f) /\ ~ exists r, f = r ++ lit ".hash".

Section Want.
Context (sha : str -> str) (c : constants) (dev : bool) (K : setting).
(** * What should be in the out folder *)
(** a file of src/public has a file of the same name in out/www, and one with its hash *)
Definition with_hash (p text : str) : list (str * str) :=
  match copy_target p with Some t => [(t, text)] | None => [] end ++ match hash_target p with Some t => [(t, sha text)] | None => [] end.
(** The contents are: for the constants the declarations; for a script, a stylesheet or a page the
    edited one, which depends on the hash files of what is named in it, on the imported stylesheets
    and on the templates; for other files the file.  Html files that are not below src/public have
    no outputs. *)
Definition file_want : wants := fun p s =>
  match build_with (c_relpath c) p with
  | JsConstants => match copy_target p with
                   | Some t => Some ([], [(t, constants_text (merged c dev)); (t ++ lit ".hash", sha (constants_text (merged c dev)))])
                   | None => None
                   end
  | Script | Stylesheet =>
      match copy_target p, edit_file c K false p s with
      | Some t, Some (out, _, rs) => Some (rs, [(t, out); (t ++ lit ".hash", sha out)])
      | _, _ => None
      end
  | Html =>
      match copy_target p with
      | None => Some ([], [])
      | Some t => match edit_file c K false p s with Some (out, _, rs) => Some (rs, [(t, out); (t ++ lit ".hash", sha out)]) | None => None end
      end
  | CopyAndHash => match s p with Some text => Some ([p], with_hash p text) | None => None end
  | _ => None
  end.

(** * A project over time *)
Definition www (r : str) : str := lit "out/www/" ++ r.
(** everything in out/www is recorded as the output of some file *)
Definition all_recorded (O : graph) (s : fs) : Prop := forall r, s (www r) <> None -> exists f, depends O f (www r).
(** Between the last rebuild, which left [s], and the next, which finds [s0], sources were
    edited: the inputs have the names of source files and exist, unless deleted; those that are
    not scanned are as they were; the scans are those of the files found; nobody changed out/www, except outputs that the next rebuild makes anew (a rebuild that did not complete may have done so). *)
Record edits (D O P : graph) (scans : dict scan_result) (deleted : list str) (s s0 : fs) : Prop := {
  ed_names : forall f, In f (dkeys D) \/ In f (dkeys scans) \/ In f deleted -> source_name f;
  ed_there : forall f, In f (dkeys D) \/ In f (dkeys scans) -> ~ In f deleted -> s0 f <> None;
  ed_same : forall f, In f (dkeys D) -> ~ In f (dkeys scans) -> ~ In f deleted -> s0 f = s f;
  ed_scans : forall f sc, In (f, sc) scans -> file_scan c K f s0 = Some sc;
  ed_out : forall r, s0 (www r) = s (www r) \/ dirtied_output D O P (dkeys scans) deleted (www r) }.
(** The states a project can be in: at first nothing was built; then edits and completed
    rebuilds in turn. *)
Inductive history (stat : fs -> str -> option fsig) : graph -> graph -> graph -> fs -> Prop :=
| never_built s : (forall r, s (www r) = None) -> history stat empty_graph empty_graph empty_graph s
| rebuilt D O P s scans newph changed added deleted s0 e l s1 D1 O1 P1 : history stat D O P s -> edits D O P scans deleted s s0 ->
    hot_rebuild (file_build sha c dev K) stat D O P scans newph changed added deleted s0 e l s1 D1 O1 P1 -> history stat D1 O1 P1 s1.
End Want.
(** a path in an import of a script in the folder [dirs] of src/public leads to the file [q] of it *)
Definition leads (dirs : list str) (p : str) (q : list str) : Prop :=
  q <> [] /\ ((Forall name q /\ p = lit "/" ++ path_text q) \/ (starts_with (lit "/") p = false /\ walk dirs (split_on 47 p) q)).
