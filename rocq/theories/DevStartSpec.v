(** What is said about the first build of the development server. *)
From Verif Require Import Base Graph GraphSpec Json JsonProofs GraphJson Hot Cold DevStart.
From Coq Require Import String ZArith NArith Bool List.
Import ListNotations.
Open Scope list_scope.

(** the names of the files in the out folder *)
Definition in_out (q : str) : Prop := exists r, q = lit "out/" ++ r.
(** the files of a folder of which the out folder is removed *)
Definition emptied (d : stored) (s : fs) : Prop := forall q, (in_out q -> s q = None) /\ (~ in_out q -> s q = d_fs d q).
(** the outputs that the stored output graph has for the sources, if it can be read, are below out *)
Definition records_out (float_parse : str -> option Z) (d : stored) : Prop :=
  forall g f o, load_graph float_parse (d_O d) = Some g -> depends g f o -> in_out o.
(** a stored graph of which the end is missing (more than white space) *)
Definition cut_off (float_repr : Z -> str) (text : option str) : Prop :=
  exists g p q, well_formed g /\ (forall a, contains g a = true -> json_safe a) /\ store float_repr g = p ++ q /\ skip_ws q <> [] /\ text = Some p.
(** one of the graph files of a folder is cut off, as when a build was killed while it stored them *)
Definition torn_graphs (float_repr : Z -> str) (d : stored) : Prop := cut_off float_repr (d_D d) \/ cut_off float_repr (d_O d) \/ cut_off float_repr (d_P d).
(** a project that was never built *)
Definition unbuilt (s : fs) : project := mkProject s None empty_graph empty_graph empty_graph.
