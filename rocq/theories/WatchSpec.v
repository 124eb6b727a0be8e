(** Vocabulary for C74: the development server watching a project. *)
From Verif Require Import Base Graph GraphSpec PyStr PyPath PyNorm PathSpec Json JsonProofs GraphJson Js Builder JsYield JsManip Handlers Hot HotSpec HotGraphs HotResultSpec HotWantSpec Cold ColdSpec Project ProjectSpec ProjectSite DevStart DevStartSpec FolderSpec Dev DevSpec Watch.
From Coq Require Import String ZArith NArith Bool List.
Import ListNotations.
Open Scope list_scope.

(** which sources there are *)
Definition there (s : fs) (f : str) : bool := in_src f && match s f with Some _ => true | None => false end.
(** [edited e s s1]: the sources are changed from [s] to [s1], and the event [e] tells of it; files that are neither
    sources nor in the out folder may change as well. An event need not mean that the contents change. *)
Record edited (e : event) (s s1 : fs) : Prop := {
  ed_about : forall f, about e f -> in_src f = true;
  ed_others : forall f, ~ about e f -> in_src f = true \/ in_out f -> s1 f = s f;
  ed_there : forall f, there s1 f = there_after e (there s) f }.

Section Watching.
Context (float_parse : str -> option Z) (float_repr : Z -> str).
Context (sha : str -> str) (c : constants) (K : setting) (stat : fs -> str -> option fsig) (debounce : Z).
Notation dev_start := (dev_start float_parse float_repr (fun dev => file_build sha c dev K) (scan_no_placeholders c K) stat (c_relpath c)).
Notation rebuilds := (rebuilds float_parse float_repr (fun dev => file_build sha c dev K) (scan_no_placeholders c K) stat (c_relpath c)).
Notation fails_early := (fails_early float_parse (scan_no_placeholders c K) stat (c_relpath c)).
Notation folder := (folder float_parse float_repr sha c K stat).

(** [watching last w h d]: the development server is running; [d] is the folder, [h] the state of the event
    handler, [last] the files after the last completed rebuild, and [w] what happened since then. The server
    was started in the folder of a project (C73). Edits, and rebuilds that complete or fail before they
    build anything, happen one after the other: no edit falls into a rebuild, nor a rebuild between an
    edit and its event. *)
Inductive watching : fs -> world -> watcher -> stored -> Prop :=
| w_started dev0 last0 d0 d now : folder dev0 last0 d0 -> named d0 -> dev_start d0 (Serves d) -> watching (d_fs d) (just_built (there (d_fs d))) (new_watcher now) d
| w_edited last w h d e s cfg now : watching last w h d -> possible e w -> edited e (d_fs d) s -> watching last (after e w) (on_event e now h) (with_files cfg s d)
| w_rebuilt last w h d now b h' d1 : watching last w h d -> named d -> take debounce now h = Some (b, h') -> rebuilds d b d1 -> watching (d_fs d1) (just_built (now_there w)) (succeeded h') d1
| w_failed last w h d now b h' d1 : watching last w h d -> take debounce now h = Some (b, h') -> fails_early d b d1 -> watching last w (failed (now_there w) b h') d1.
(** some edits with their events *)
Inductive edits : world -> watcher -> stored -> world -> watcher -> stored -> Prop :=
| edits_none w h d : edits w h d w h d
| edits_one w h d e s cfg now w1 h1 d1 : possible e w -> edited e (d_fs d) s -> edits (after e w) (on_event e now h) (with_files cfg s d) w1 h1 d1 -> edits w h d w1 h1 d1.
(** nothing happened to the sources since the last completed rebuild *)
Definition nothing_since (w : world) : Prop := forall f, ~ touched w f.
End Watching.
