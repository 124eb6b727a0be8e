(** build/html/manips/images/metadata.py 220-380: which folder of artifacts an image goes to. *)
From Verif Require Import Base Graph Json PyPath PyNorm OutlineData ImgExport.
From Coq Require Import String ZArith NArith Bool List.
Import ListNotations.
Open Scope list_scope.
Open Scope Z_scope.

(** * One process *)
Section Target.
(** [T]: ImageTargetSettings (90-105), with its equality; a placeholder or metadata file is
    taken with what loading it gives *)
Context {T : Type} (teqb : T -> T -> bool).
(** what an entry of "artifacts/<image>" is: a folder with or without metadata.json and
    placeholder.json, or a file *)
Record entry := { is_dir : bool; e_metadata : option (metadata T); e_placeholder : option T }.
(** the folder: counter.txt, and the entries in the order of [os.scandir] *)
Record folder := { counter : option str; entries : list (str * entry) }.

(** int(entry.name): base 10; blanks and underscores, which python accepts, are refused *)
Definition int_of (s : str) : res Z := match parse_Z s with Some z => Ret z | None => Raise ValueError end.
(** 269-325.  Line 309 subscripts a dataclass, as an argument of the debug log. *)
Fixpoint look (settings_hash : Z) (contents_hash : str) (target : T) (l : list (str * entry)) : res (option Z) :=
  match l with
  | [] => Ret None
  | (name, e) :: r =>
      if negb (is_dir e) then look settings_hash contents_hash target r
      else match e_metadata e with
      | None =>
          match e_placeholder e with
          | Some p => if teqb p target then match int_of name with Ret z => Ret (Some z) | Raise x => Raise x end else look settings_hash contents_hash target r
          | None => look settings_hash contents_hash target r
          end
      | Some m =>
          if negb (m_settings_hash m =? settings_hash) then look settings_hash contents_hash target r
          else if negb (str_eqb (m_contents_hash m) contents_hash) then Raise TypeError
          else if negb (teqb (m_target m) target) then look settings_hash contents_hash target r
          else match int_of name with Ret z => Ret (Some z) | Raise x => Raise x end
      end
  end.
(** 246-266: [image]: the source is there; a missing folder is [None] *)
Definition get_target (image : bool) (settings_hash : res Z) (contents_hash : str) (target : T) (f : option folder) : res (option Z) :=
  if negb image then Ret None
  else match f with
  | None => Ret None
  | Some f => match settings_hash with Raise e => Raise e | Ret h => look h contents_hash target (entries f) end
  end.
(** 343-366; the new folder comes last in the list, wherever [os.scandir] will have it *)
Definition reserve_target (target : T) (f : option folder) : res (Z * folder) :=
  let f := match f with None => {| counter := None; entries := [] |} | Some f => f end in
  match (match counter f with None => Ret 0 | Some s => int_of s end) with
  | Raise e => Raise e
  | Ret c =>
      let c := c + 1 in
      let old := match dget (print_Z c) (entries f) with Some e => e_metadata e | None => None end in
      Ret (c, {| counter := Some (print_Z c); entries := dset (print_Z c) {| is_dir := true; e_metadata := old; e_placeholder := Some target |} (entries f) |})
  end.
(** 369-380 *)
Definition get_or_reserve_target (image : bool) (settings_hash : res Z) (contents_hash : str) (target : T) (f : option folder) : res (Z * option folder) :=
  match get_target image settings_hash contents_hash target f with
  | Raise e => Raise e
  | Ret (Some z) => Ret (z, f)
  | Ret None => match reserve_target target f with Raise e => Raise e | Ret (z, f) => Ret (z, Some f) end
  end.
End Target.
Arguments entry : clear implicits.
Arguments folder : clear implicits.

(** * Any number of processes
    Each calls [get_or_reserve_target] for the same image.  A step is one access to the file
    system, or taking or releasing the lock. *)
Section Race.
Context {T : Type} (teqb : T -> T -> bool).
Inductive pc :=
| Looking                (** 269-274, between two entries *)
| Locking (id : Z)       (** 280-282: waiting for the lock *)
| Checking (id : Z)      (** 283-289, with the lock *)
| Reserving              (** 348: waiting for the lock *)
| Locked                 (** 349-353 *)
| Counted (c : Z)        (** 355: counter.txt has been read *)
| Truncated (c : Z)      (** 357: opened for writing, hence empty *)
| Written (c : Z)        (** 358 *)
| Made (c : Z)           (** 362 *)
| Placed (c : Z)         (** 364 *)
| Found (id : Z)         (** [get_target] has returned an id *)
| Reserved (id : Z)      (** [reserve_target] has returned an id *)
| Dead.                  (** an exception, or killed *)
(** [count]: counter.txt, [Some None] when empty.  [placeholders]: the folders there are, with
    their placeholder.json.  [metas] are the folders with metadata.json: none is written
    while files are scanned. *)
Record state := { lock : option nat; count : option (option Z); placeholders : list (Z * option T); procs : nat -> pc }.
Context (target : nat -> T) (settings_hash : Z) (contents_hash : str) (metas : Z -> option (metadata T)).

Fixpoint zget (k : Z) (l : list (Z * option T)) : option (option T) := match l with [] => None | (k', v) :: r => if k =? k' then Some v else zget k r end.
Fixpoint zset (k : Z) (v : option T) (l : list (Z * option T)) : list (Z * option T) :=
  match l with [] => [(k, v)] | (k', v') :: r => if k =? k' then (k', v) :: r else (k', v') :: zset k v r end.
Definition goto (p : nat) (c : pc) (s : state) : state := {| lock := lock s; count := count s; placeholders := placeholders s; procs := fun q => if Nat.eqb q p then c else procs s q |}.
Definition with_lock (l : option nat) (s : state) : state := {| lock := l; count := count s; placeholders := placeholders s; procs := procs s |}.
Definition with_count (c : option (option Z)) (s : state) : state := {| lock := lock s; count := c; placeholders := placeholders s; procs := procs s |}.
Definition with_placeholders (l : list (Z * option T)) (s : state) : state := {| lock := lock s; count := count s; placeholders := l; procs := procs s |}.
(** what lines 292-323 make of a folder with metadata *)
Definition judge (m : metadata T) (t : T) (id : Z) : pc :=
  if negb (m_settings_hash m =? settings_hash) then Looking
  else if negb (str_eqb (m_contents_hash m) contents_hash) then Dead
  else if negb (teqb (m_target m) t) then Looking
  else Found id.
(** [os.scandir] may or may not show folders made meanwhile, in any order: [get_target] is
    allowed to look at any folder that is there, and to stop at any time.  Killing a process
    frees the lock. *)
Inductive step : state -> state -> Prop :=
| SMeta p id m s : procs s p = Looking -> zget id (placeholders s) <> None -> metas id = Some m -> step s (goto p (judge m (target p) id) s)
| SNoMeta p id s : procs s p = Looking -> zget id (placeholders s) <> None -> metas id = None -> step s (goto p (Locking id) s)
| SNone p s : procs s p = Looking -> step s (goto p Reserving s)
| SLockC p id s : procs s p = Locking id -> lock s = None -> step s (goto p (Checking id) (with_lock (Some p) s))
| SCheckYes p id t s : procs s p = Checking id -> zget id (placeholders s) = Some (Some t) -> teqb t (target p) = true -> step s (goto p (Found id) (with_lock None s))
| SCheckNo p id s : procs s p = Checking id -> match zget id (placeholders s) with Some (Some t) => teqb t (target p) = false | _ => True end -> step s (goto p Looking (with_lock None s))
| SLock p s : procs s p = Reserving -> lock s = None -> step s (goto p Locked (with_lock (Some p) s))
| SRead p n s : procs s p = Locked -> match count s with None => n = 0 | Some (Some k) => n = k | Some None => False end -> step s (goto p (Counted (n + 1)) s)
| SReadEmpty p s : procs s p = Locked -> count s = Some None -> step s (goto p Dead (with_lock None s))
| STruncate p c s : procs s p = Counted c -> step s (goto p (Truncated c) (with_count (Some None) s))
| SWrite p c s : procs s p = Truncated c -> step s (goto p (Written c) (with_count (Some (Some c)) s))
| SMake p c s : procs s p = Written c -> step s (goto p (Made c) (with_placeholders (match zget c (placeholders s) with None => zset c None (placeholders s) | Some _ => placeholders s end) s))
| SPlace p c s : procs s p = Made c -> step s (goto p (Placed c) (with_placeholders (zset c (Some (target p)) (placeholders s)) s))
| SUnlock p c s : procs s p = Placed c -> step s (goto p (Reserved c) (with_lock None s))
| SKill p s : (forall id, procs s p <> Found id /\ procs s p <> Reserved id) -> step s (goto p Dead (with_lock (match lock s with Some q => if Nat.eqb q p then None else Some q | None => None end) s)).
Inductive steps : state -> state -> Prop :=
| Done s : steps s s
| Then s s' s'' : steps s s' -> step s' s'' -> steps s s''.
End Race.
