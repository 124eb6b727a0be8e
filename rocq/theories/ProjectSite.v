(** Vocabulary for C68: a project under the build command. *)
From Verif Require Import Base Graph GraphSpec PyStr PyPath PyNorm PathSpec Js Builder JsYield JsManip Handlers Hot HotSpec HotGraphs HotResultSpec HotWantSpec Cold ColdSpec Project ProjectSpec.
From Coq Require Import String ZArith NArith Bool List.
Import ListNotations.
Open Scope list_scope.

Section Site.
Context (sha : str -> str) (c : constants) (K : setting) (stat : fs -> str -> option fsig).
(** handlers/js_constants.py:54-61, js.py:32-63, css.py:41-63, copy.py:18-33, hash.py:27-44: scan_file, none of
    which returns placeholders *)
Definition scan_no_placeholders (p : str) (s : fs) : option scan_full := option_map (fun sc => mkFull sc []) (file_scan c K p s).
(** build/cold_incremental_rebuild.py:25-112 with these handlers: [vanillajsplus build], with or
    without [--dev] *)
Definition builds (dev : bool) : project -> option run -> project -> Prop :=
  cold_build (file_build sha c dev K) scan_no_placeholders stat (c_relpath c) dev.
(** [site dev last p]: [p] is a project after some edits and completed builds, of which the last was
    in mode [dev] and left the folder [last]. At first there is no out folder; then anything but
    out/www may be edited, and all sources have proper names when a build starts. Between builds the
    graphs may be stored and loaded (C06), or otherwise replaced by equal ones. *)
Inductive site : bool -> fs -> project -> Prop :=
| site_new dev s : (forall r, s (www r) = None) -> site dev s (mkProject s None empty_graph empty_graph empty_graph)
| site_edited dev last p s : site dev last p -> (forall r, s (www r) = p_fs p (www r)) -> site dev last (mkProject s (p_mode p) (p_D p) (p_O p) (p_P p))
| site_built dev last p dev' r p1 : site dev last p -> (forall f, in_src f = true -> p_fs p f <> None -> source_name f) -> builds dev' p r p1 -> site dev' (p_fs p1) p1
| site_loaded dev last p D O P : site dev last p -> well_formed D -> well_formed O -> well_formed P -> same_graph D (p_D p) -> same_graph O (p_O p) -> same_graph P (p_P p) -> site dev last (mkProject (p_fs p) (p_mode p) D O P).
(** a project that has just been built in mode [dev] *)
Definition just_built (dev : bool) (p1 : project) : Prop := exists dev0 last p r, site dev0 last p /\ (forall f, in_src f = true -> p_fs p f <> None -> source_name f) /\ builds dev p r p1.
End Site.
