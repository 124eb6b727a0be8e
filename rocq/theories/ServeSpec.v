(** What is said about [run] and [dev --watch], apart from the model. *)
From Verif Require Import Serve.
From Coq Require Import List.
Import ListNotations.

(** A round: each thread gets at least one turn, in any order and with anything else in between. *)
Definition round (l : list happening) : Prop := In Main l /\ In Server l /\ In Uvicorn l.
Definition ended (s : state) : Prop := exists r, s_main s = Ended r.
(** The command is on its way out: the folder it was called in must be the working directory again. *)
Definition leaving (s : state) : Prop := exists r, s_main s = Leave r \/ s_main s = Ended r.
(** No interrupt, no dying observer, no failing rebuild. *)
Definition undisturbed (l : list happening) : Prop := ~ In Interrupt l /\ ~ In ObserverDies l /\ ~ In RebuildRaises l.
