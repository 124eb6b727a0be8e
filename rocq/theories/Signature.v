(** build/file_signature.py: the signature of a file, on a file system with inodes, links and a clock, and what
    users and editors do to it between two builds. *)
From Verif Require Import Base.
From Coq Require Import String ZArith NArith Bool List.
Import ListNotations.
Open Scope list_scope.

(** what an inode holds: contents, or the path a symbolic link points to *)
Inductive kind := Data (c : str) | Points (q : str).
(** the names in the folder of the project, the inodes with the time of their last change, and the clock, as coarse as
    st_mtime shows it *)
Record disk := mkDisk { d_names : str -> option N; d_inodes : N -> option (kind * N); d_clock : N }.
Definition set {A} (eqb : A -> A -> bool) {B} (k : A) (v : B) (m : A -> B) : A -> B := fun x => if eqb x k then v else m x.
Definition size_of (k : kind) : nat := match k with Data c => length c | Points q => length q end.
(** what is at the path: os.lstat does not follow a link *)
Definition lstat (s : disk) (p : str) : option (kind * N * N) :=
  match d_names s p with None => None | Some i => match d_inodes s i with None => None | Some (k, m) => Some (k, m, i) end end.
(** file_signature.py:5-32 *)
Record sig := mkSig { mtime : N; filesize : nat; inode : N }.
(** file_signature.py:34-54; [None]: FileNotFoundError; [inodes]: the system has inodes (45-48) *)
Definition get_file_signature (inodes : bool) (s : disk) (p : str) : option sig :=
  match lstat s p with None => None | Some (k, m, i) => Some (mkSig m (size_of k) (if inodes then i else 0%N)) end.
(** open(p).read(), which follows links, [fuel] of them at most *)
Fixpoint contents (fuel : nat) (s : disk) (p : str) : option str :=
  match fuel with
  | O => None
  | S n => match lstat s p with Some (Data c, _, _) => Some c | Some (Points q, _, _) => contents n s q | None => None end
  end.

(** One change to the disk. [c]: writing and creating happens when the clock shows a later time than [c]. [moves]: files
    may also be renamed (which replaces what was there) and get second names. The number of an inode may be used again
    once no name has it. *)
Inductive change (c : N) (moves : bool) (s : disk) : disk -> Prop :=
| tick n : (d_clock s <= n)%N -> change c moves s (mkDisk (d_names s) (d_inodes s) n)
| write p i x m y : (c < d_clock s)%N -> d_names s p = Some i -> d_inodes s i = Some (Data x, m) -> change c moves s (mkDisk (d_names s) (set N.eqb i (Some (Data y, d_clock s)) (d_inodes s)) (d_clock s))
| create p i k : (c < d_clock s)%N -> d_names s p = None -> d_inodes s i = None -> change c moves s (mkDisk (set str_eqb p (Some i) (d_names s)) (set N.eqb i (Some (k, d_clock s)) (d_inodes s)) (d_clock s))
| remove p : change c moves s (mkDisk (set str_eqb p None (d_names s)) (d_inodes s) (d_clock s))
| free i : (forall p, d_names s p <> Some i) -> change c moves s (mkDisk (d_names s) (set N.eqb i None (d_inodes s)) (d_clock s))
| rename p q i : moves = true -> d_names s p = Some i -> p <> q -> change c moves s (mkDisk (set str_eqb p None (set str_eqb q (Some i) (d_names s))) (d_inodes s) (d_clock s))
| link p q i : moves = true -> d_names s p = Some i -> d_names s q = None -> change c moves s (mkDisk (set str_eqb q (Some i) (d_names s)) (d_inodes s) (d_clock s)).
Inductive changes (c : N) (moves : bool) : disk -> disk -> Prop :=
| no_change s : changes c moves s s
| one_more s s1 s2 : changes c moves s s1 -> change c moves s1 s2 -> changes c moves s s2.
(** os.utime, and tools that keep the times of files, such as [cp -p] onto an existing file *)
Definition set_time (i m : N) (s : disk) : disk := mkDisk (d_names s) (set N.eqb i (match d_inodes s i with Some (k, _) => Some (k, m) | None => None end) (d_inodes s)) (d_clock s).
