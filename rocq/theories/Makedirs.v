(** build/ioutil.py:193-228 ([makedirs_safely]), with the os.makedirs of the standard library that it calls, in
    any number of workers at once: each makes the folder of its output and then writes the output
    (html/manipulate_and_serialize.py:32-33, handlers/js_constants.py, copy.py, hash.py and others). One system call is one step;
    the steps of the workers are interleaved in any way. Paths are relative to the folder of the project, which
    exists; their parts are not empty and not [.]. *)
From Verif Require Import Base Graph PyPath PyNorm Prune.
From Coq Require Import String ZArith NArith Bool List.
Import ListNotations.
Open Scope list_scope.

(** FileExistsError, FileNotFoundError, NotADirectoryError, IsADirectoryError, PermissionError *)
Inductive os_error := EEXIST | ENOENT | ENOTDIR | EISDIR | EACCES.
Definition is_dir (d : str) (t : tree) : bool := mem d (t_dirs t).
Definition is_there (x : str) (t : tree) : bool := mem x (t_dirs t) || mem x (t_files t).
(** the system call mkdir *)
Definition mkdir (d : str) (t : tree) : os_error + tree :=
  match d with
  | [] => inl ENOENT
  | _ =>
      if is_there d t then inl EEXIST
      else if str_eqb (dirname d) [] || is_dir (dirname d) t then inr (mkTree (t_files t) (d :: t_dirs t))
      else if is_there (dirname d) t then inl ENOTDIR else inl ENOENT
  end.

(** where a worker is: [i] is the attempt (207: [for i in range(5)]), [name] the argument of the innermost call of
    os.makedirs, [rest] those of the calls around it *)
Inductive place :=
| Stat (i : nat)                                              (* 212: os.stat(path) *)
| Look (i : nat) (name : str) (rest : list str)               (* os.makedirs: path.exists(head) *)
| Make (i : nat) (name : str) (rest : list str)               (* os.makedirs: mkdir(name) *)
| Check (i : nat) (name : str) (rest : list str) (x : os_error) (* os.makedirs: mkdir raised, path.isdir(name) *)
| Write                                                       (* the folder is made: open(outfile, "w") *)
| Done
| Failed (x : os_error).
(** a call of os.makedirs returns: to 224 ([return]), or to the call around it, which goes on with its mkdir *)
Definition returned (i : nat) (rest : list str) : place := match rest with [] => Write | n :: r => Make i n r end.
(** a call of os.makedirs raises: the call around it catches FileExistsError; 225-228: PermissionError starts the next
    attempt, except in the last *)
Definition raised (i : nat) (rest : list str) (x : os_error) : place :=
  match rest, x with
  | n :: r, EEXIST => Make i n r
  | _, EACCES => if Nat.eqb i 4 then Failed EACCES else Stat (S i)
  | _, _ => Failed x
  end.
(** the next step of the worker for the output [f]; [denied]: the system call is refused for lack of permission, which
    path.exists and path.isdir report as False. Simplifications: os.stat below a file is taken for missing, and
    the mkdir that follows fails with NotADirectoryError; opening the output is not denied. *)
Definition act (denied : bool) (f : str) (t : tree) (p : place) : option (tree * place) :=
  match p with
  | Stat i =>
      if denied then Some (t, Look i (dirname f) [])                       (* 219-220 *)
      else if is_dir (dirname f) t then Some (t, Write)                    (* 213-215 *)
      else if is_there (dirname f) t then Some (t, Failed EEXIST)          (* 216 *)
      else Some (t, Look i (dirname f) [])                                 (* 217-218 *)
  | Look i name rest =>
      match dirname name with
      | [] => Some (t, Make i name rest)
      | head => if negb denied && is_there head t then Some (t, Make i name rest) else Some (t, Look i head (name :: rest))
      end
  | Make i name rest =>
      if denied then Some (t, Check i name rest EACCES)
      else match mkdir name t with inl x => Some (t, Check i name rest x) | inr t1 => Some (t1, returned i rest) end
  | Check i name rest x => if negb denied && is_dir name t then Some (t, returned i rest) else Some (t, raised i rest x)
  | Write =>
      if is_dir f t then Some (t, Failed EISDIR)
      else if is_dir (dirname f) t then Some (mkTree (if mem f (t_files t) then t_files t else f :: t_files t) (t_dirs t), Done)
      else Some (t, Failed ENOENT)
  | Done | Failed _ => None
  end.

Fixpoint set_nth {A} (k : nat) (x : A) (l : list A) : list A :=
  match l, k with [], _ => [] | _ :: r, O => x :: r | y :: r, S j => y :: set_nth j x r end.
(** [runs t0 ps0 log t ps]: the workers [ps0] (output and place), started on the tree [t0], came to [t] and [ps]; the
    log says, latest first, which worker made a step from where, and whether it was refused *)
Inductive runs (t0 : tree) (ps0 : list (str * place)) : list (nat * place * bool) -> tree -> list (str * place) -> Prop :=
| runs_start : runs t0 ps0 [] t0 ps0
| runs_step log t ps k f p denied t1 p1 :
    runs t0 ps0 log t ps -> nth_error ps k = Some (f, p) -> act denied f t p = Some (t1, p1) ->
    runs t0 ps0 ((k, p, denied) :: log) t1 (set_nth k (f, p1) ps).
