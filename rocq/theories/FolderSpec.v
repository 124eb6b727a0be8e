(** Vocabulary for C73: the folder of a project through commands and edits, with the graphs as texts. *)
From Verif Require Import Base Graph GraphSpec PyStr PyPath PyNorm PathSpec Json JsonProofs GraphJson Js Builder JsYield JsManip Handlers Hot HotSpec HotGraphs HotResultSpec HotWantSpec Cold ColdSpec Project ProjectSpec ProjectSite DevStart.
From Coq Require Import String ZArith NArith Bool List.
Import ListNotations.
Open Scope list_scope.

(** a text that python may get as the name of a file: bytes that are not UTF-8 become low surrogates
    (the surrogateescape error handler), and high ones never occur *)
Definition os_name (s : str) : Prop := Forall (fun x => (x < 1114112)%N /\ is_high x = false) s.
(** the names of the sources when a command starts *)
Definition named (d : stored) : Prop := forall f, in_src f = true -> d_fs d f <> None -> source_name f /\ os_name f.
(** the same project with other files and another vanillaplusjs.json *)
Definition with_files (cfg : config) (s : fs) (d : stored) : stored := mkStored cfg s (d_mode d) (d_D d) (d_O d) (d_P d).

Section Folder.
Context (float_parse : str -> option Z) (float_repr : Z -> str).
Context (sha : str -> str) (c : constants) (K : setting) (stat : fs -> str -> option fsig).
Notation completes := (completes float_parse float_repr (fun dev => file_build sha c dev K) (scan_no_placeholders c K) stat (c_relpath c)).
Notation dev_start := (dev_start float_parse float_repr (fun dev => file_build sha c dev K) (scan_no_placeholders c K) stat (c_relpath c)).
(** [folder dev last d]: [d] is the folder of a project after some commands and edits; the last command was in
    mode [dev] and left the files [last]. At first there is no out folder; then anything but the out folder
    may be edited, builds may complete, and the development server may be started. *)
Inductive folder : bool -> fs -> stored -> Prop :=
| folder_new dev s cfg : (forall r, s (www r) = None) -> folder dev s (mkStored cfg s None None None None)
| folder_edited dev last d s cfg : folder dev last d -> (forall r, s (www r) = d_fs d (www r)) -> folder dev last (with_files cfg s d)
| folder_built dev last d dev' d1 : folder dev last d -> named d -> completes dev' d d1 -> folder dev' (d_fs d1) d1
| folder_served dev last d d1 : folder dev last d -> named d -> dev_start d (Serves d1) -> folder true (d_fs d1) d1.
(** a folder that a command has just completed in mode [dev] *)
Definition just_completed (dev : bool) (d1 : stored) : Prop :=
  exists dev0 last d, folder dev0 last d /\ named d /\ (completes dev d d1 \/ dev = true /\ dev_start d (Serves d1)).
End Folder.
