(** Vocabulary for C44 and C45: the files, as somebody watching the disk sees them. *)
From Verif Require Import Base Dev.
From Coq Require Import ZArith NArith Bool List.
Import ListNotations.
Open Scope list_scope.

(** the files at the time of the last successful build, the files now, and the files
    written, created, deleted or moved since that build *)
Record world := { at_build : str -> bool; now_there : str -> bool; touched : str -> Prop }.
Definition just_built (files : str -> bool) : world := {| at_build := files; now_there := files; touched := fun _ => False |}.
(** which events can happen; a move onto an existing file is excluded *)
Definition possible (e : event) (w : world) : Prop :=
  match e with
  | Modified p | Deleted p => now_there w p = true
  | Created p => now_there w p = false
  | Moved p q => now_there w p = true /\ now_there w q = false
  end.
Definition about (e : event) (x : str) : Prop :=
  match e with Modified p | Deleted p | Created p => x = p | Moved p q => x = p \/ x = q end.
Definition there_after (e : event) (there : str -> bool) (x : str) : bool :=
  match e with
  | Modified _ => there x
  | Deleted p => there x && negb (str_eqb x p)
  | Created p => there x || str_eqb x p
  | Moved p q => (there x && negb (str_eqb x p)) || str_eqb x q
  end.
Definition after (e : event) (w : world) : world :=
  {| at_build := at_build w; now_there := there_after e (now_there w); touched := fun x => touched w x \/ about e x |}.
(** the right classification of every file with respect to the last build *)
Definition right (w : world) (deleted changed created : list str) : Prop := forall x,
  (In x created <-> at_build w x = false /\ now_there w x = true) /\
  (In x deleted <-> at_build w x = true /\ now_there w x = false) /\
  (In x changed <-> at_build w x = true /\ now_there w x = true /\ touched w x).
(** all histories of events and rebuilds, where no event falls into a failing rebuild *)
Inductive history (debounce : Z) : world -> watcher -> Prop :=
| Start files now : history debounce (just_built files) (new_watcher now)
| Event w h e now : history debounce w h -> possible e w -> history debounce (after e w) (on_event e now h)
| Success w h now b h' : history debounce w h -> take debounce now h = Some (b, h') -> history debounce (just_built (now_there w)) (succeeded h')
| Failure w h now b h' : history debounce w h -> take debounce now h = Some (b, h') -> history debounce w (failed (now_there w) b h').
