(** Vocabulary for C75: sessions of the development server in which rebuilds fail while they build files. *)
From Verif Require Import Base Graph GraphSpec PyStr PyPath PyNorm PathSpec Json JsonProofs GraphJson Js Builder JsYield JsManip Handlers Hot HotSpec HotGraphs HotResultSpec HotWantSpec Cold ColdSpec Project ProjectSpec ProjectSite DevStart DevStartSpec FolderSpec Dev DevSpec Watch WatchSpec.
From Coq Require Import String ZArith NArith Bool List.
Import ListNotations.
Open Scope list_scope.

Section Session.
Context (float_parse : str -> option Z) (float_repr : Z -> str).
Context (sha : str -> str) (c : constants) (K : setting) (stat : fs -> str -> option fsig) (debounce : Z).
Notation dev_start := (dev_start float_parse float_repr (fun dev => file_build sha c dev K) (scan_no_placeholders c K) stat (c_relpath c)).
Notation rebuilds := (rebuilds float_parse float_repr (fun dev => file_build sha c dev K) (scan_no_placeholders c K) stat (c_relpath c)).
Notation fails_early := (fails_early float_parse (scan_no_placeholders c K) stat (c_relpath c)).
Notation fails_building := (fails_building float_parse (fun dev => file_build sha c dev K) (scan_no_placeholders c K) stat (c_relpath c)).
Notation folder := (folder float_parse float_repr sha c K stat).

(** [session last w h d]: as [watching] (C74), but rebuilds may also fail after they built some of the files, if no
    source of their batch was added since the last completed rebuild. *)
Inductive session : fs -> world -> watcher -> stored -> Prop :=
| s_started dev0 last0 d0 d now : folder dev0 last0 d0 -> named d0 -> dev_start d0 (Serves d) -> session (d_fs d) (just_built (there (d_fs d))) (new_watcher now) d
| s_edited last w h d e s cfg now : session last w h d -> possible e w -> edited e (d_fs d) s -> session last (after e w) (on_event e now h) (with_files cfg s d)
| s_rebuilt last w h d now b h' d1 : session last w h d -> named d -> take debounce now h = Some (b, h') -> rebuilds d b d1 -> session (d_fs d1) (just_built (now_there w)) (succeeded h') d1
| s_failed last w h d now b h' d1 : session last w h d -> take debounce now h = Some (b, h') -> fails_early d b d1 -> session last w (failed (now_there w) b h') d1
| s_broke last w h d now b h' d1 : session last w h d -> take debounce now h = Some (b, h') -> b_created b = [] -> fails_building d b d1 -> session last w (failed (now_there w) b h') d1.
(** the sources that events told of since the last completed rebuild are different now *)
Definition really_edited (last : fs) (w : world) (d : stored) : Prop := forall f, in_src f = true -> touched w f -> d_fs d f <> last f.
End Session.
