(** runners/dev.py 162-362: DevEventHandler.

    Sets are lists; only membership matters.  Each locked region is one step, so the
    events of the observer thread fall between steps.  Events for directories are
    ignored by the code and left out.  Times are numbers of any unit. *)
From Verif Require Import Base.
From Coq Require Import ZArith NArith Bool List.
Import ListNotations.
Open Scope list_scope.

Definition sadd (x : str) (l : list str) : list str := if mem x l then l else l ++ [x].
(** [discard]; the code tests membership before [remove] *)
Definition sdel (x : str) (l : list str) : list str := filter (fun y => negb (str_eqb x y)) l.

(** 169-191 *)
Record watcher := { deleted : list str; changed : list str; created : list str; unbuildable : bool; last_change : Z }.
(** 169-191: the watcher is made after the first build *)
Definition new_watcher (now : Z) : watcher := {| deleted := []; changed := []; created := []; unbuildable := false; last_change := now |}.

Inductive event := Modified (p : str) | Created (p : str) | Deleted (p : str) | Moved (p q : str).
(** 319-326 *)
Definition on_modified (p : str) (now : Z) (w : watcher) : watcher :=
  {| deleted := deleted w; changed := if negb (mem p (created w)) then sadd p (changed w) else changed w; created := created w;
     unbuildable := false; last_change := now |}.
(** 328-338 *)
Definition on_created (p : str) (now : Z) (w : watcher) : watcher :=
  if mem p (deleted w) then
    {| deleted := sdel p (deleted w); changed := sadd p (changed w); created := created w; unbuildable := false; last_change := now |}
  else {| deleted := deleted w; changed := changed w; created := sadd p (created w); unbuildable := false; last_change := now |}.
(** 340-352 *)
Definition on_deleted (p : str) (now : Z) (w : watcher) : watcher :=
  if mem p (changed w) then
    {| deleted := sadd p (deleted w); changed := sdel p (changed w); created := created w; unbuildable := false; last_change := now |}
  else if mem p (created w) then
    {| deleted := deleted w; changed := changed w; created := sdel p (created w); unbuildable := false; last_change := now |}
  else {| deleted := sadd p (deleted w); changed := changed w; created := created w; unbuildable := false; last_change := now |}.
(** 354-359 *)
Definition on_event (e : event) (now : Z) (w : watcher) : watcher :=
  match e with
  | Modified p => on_modified p now w
  | Created p => on_created p now w
  | Deleted p => on_deleted p now w
  | Moved p q => on_created q now (on_deleted p now w)
  end.

(** the three sets handed to the rebuild *)
Record batch := { b_deleted : list str; b_changed : list str; b_created : list str }.
(** 193-215: [None] when the method returns without rebuilding *)
Definition take (debounce now : Z) (w : watcher) : option (batch * watcher) :=
  if unbuildable w then None
  else match deleted w, changed w, created w with
       | [], [], [] => None
       | _, _, _ =>
           if (now - last_change w <? debounce)%Z then None
           else Some ({| b_deleted := deleted w; b_changed := changed w; b_created := created w |},
                      {| deleted := []; changed := []; created := []; unbuildable := unbuildable w; last_change := last_change w |})
       end.
(** 289-290: the rebuild succeeded *)
Definition succeeded (w : watcher) : watcher :=
  {| deleted := deleted w; changed := changed w; created := created w; unbuildable := false; last_change := last_change w |}.
(** 294-299 *)
Definition retry_changed (exists_ : str -> bool) (w : watcher) (p : str) : watcher :=
  if exists_ p then
    {| deleted := sdel p (deleted w); changed := if negb (mem p (created w)) then sadd p (changed w) else changed w; created := created w;
       unbuildable := unbuildable w; last_change := last_change w |}
  else w.
(** 300-305 *)
Definition retry_created (exists_ : str -> bool) (w : watcher) (p : str) : watcher :=
  if exists_ p then
    {| deleted := sdel p (deleted w); changed := changed w; created := if negb (mem p (changed w)) then sadd p (created w) else created w;
       unbuildable := unbuildable w; last_change := last_change w |}
  else w.
(** 306-312 *)
Definition retry_deleted (exists_ : str -> bool) (w : watcher) (p : str) : watcher :=
  if negb (exists_ p) then
    {| deleted := sadd p (deleted w); changed := sdel p (changed w); created := sdel p (created w); unbuildable := unbuildable w; last_change := last_change w |}
  else w.
(** 291-313: the rebuild raised; [exists_] is os.path.lexists *)
Definition failed (exists_ : str -> bool) (b : batch) (w : watcher) : watcher :=
  let w := fold_left (retry_changed exists_) (b_changed b) w in
  let w := fold_left (retry_created exists_) (b_created b) w in
  let w := fold_left (retry_deleted exists_) (b_deleted b) w in
  {| deleted := deleted w; changed := changed w; created := created w; unbuildable := true; last_change := last_change w |}.
