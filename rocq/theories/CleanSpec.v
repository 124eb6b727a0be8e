(** Vocabulary for C46. *)
From Verif Require Import Base Graph GraphJson GraphSpec Clean.
From Coq Require Import String ZArith NArith Bool List.
Import ListNotations.
Open Scope list_scope.
Open Scope N_scope.

Definition below (folder p : str) : Prop := p = folder \/ exists r, p = folder ++ lit "/" ++ r.
(** the stored graph records that some file generated [p] *)
Definition generated (float_parse : str -> option Z) (f : fs) (p : str) : Prop :=
  exists text g, dget (lit "out/placeholder_graph.json") f = Some text /\ load float_parse text = Some g /\ api_parents g p <> [].
(** the first valid answer is yes *)
Definition answers_yes (answers : list str) : Prop :=
  exists pre a post, answers = pre ++ a :: post /\ In a [lit "y"; lit "Y"] /\ forall b, In b pre -> ~ In b [lit "y"; lit "Y"; lit "n"; lit "N"].
