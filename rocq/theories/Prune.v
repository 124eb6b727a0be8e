(** build/hot_incremental_rebuild.py:253-267 and 456-466: the folders that a rebuild removes. The file system is
    a list of files and a list of folders, with paths relative to the folder of the project; the contents of
    the files do not matter here. Simplification: there is no file where a folder is expected. *)
From Verif Require Import Base Graph PyPath PyNorm.
From Coq Require Import String ZArith NArith Bool List Sorting.Sorted.
Import ListNotations.
Open Scope list_scope.

Record tree := mkTree { t_files : list str; t_dirs : list str }.

(** 255-258: [while folder != "": possibly_empty_folders.add(folder); folder = os.path.dirname(folder)]; [None]: the
    loop does not end within [fuel] rounds *)
Fixpoint folders_up (fuel : nat) (folder : str) : option (list str) :=
  match fuel with
  | O => None
  | S k => match folder with [] => Some [] | _ => match folders_up k (dirname folder) with None => None | Some l => Some (folder :: l) end end
  end.
(** 253-258: the set [possibly_empty_folders] *)
Fixpoint possibly_empty (removed : list str) : option (list str) :=
  match removed with
  | [] => Some []
  | f :: r => match folders_up (S (length f)) (dirname f), possibly_empty r with Some a, Some b => Some (a ++ b) | _, _ => None end
  end.
(** 260-267 (a missing file is only reported) and 455-457 (there the file exists, Hot.v [unlink_all]) *)
Definition unlinked (l : list str) (t : tree) : tree := mkTree (filter (fun f => negb (mem f l)) (t_files t)) (t_dirs t).
(** ioutil.py:193-228 and the handlers: a file is written after the folders around it were made *)
Definition write_file (f : str) (t : tree) : option tree :=
  match folders_up (S (length f)) (dirname f) with
  | None => None
  | Some l => Some (mkTree (if mem f (t_files t) then t_files t else f :: t_files t) (filter (fun d => negb (mem d (t_dirs t))) l ++ t_dirs t))
  end.
Fixpoint write_files (l : list str) (t : tree) : option tree :=
  match l with [] => Some t | f :: r => match write_file f t with None => None | Some t1 => write_files r t1 end end.
(** 461-463: the folder has any contents *)
Definition has_contents (d : str) (t : tree) : bool := existsb (fun x => str_eqb (dirname x) d) (t_files t ++ t_dirs t).
(** 459-466, the body of the loop: [os.scandir] raises if there is no such folder *)
Definition prune_one (d : str) (t : tree) : res tree :=
  if mem d (t_dirs t) then Ret (if has_contents d t then t else mkTree (t_files t) (filter (fun x => negb (str_eqb x d)) (t_dirs t)))
  else Raise FileNotFoundError.
(** 459-466 *)
Fixpoint prune (order : list str) (t : tree) : res tree :=
  match order with [] => Ret t | d :: r => match prune_one d t with Raise e => Raise e | Ret t1 => prune r t1 end end.
(** [rebuild_tree outs arts written still t r]: a rebuild, as far as folders are concerned: [outs] and [arts] are the
    outputs and the artifacts that are dirty (253-254), [written] the files that the builds write, in any order, [still]
    the artifacts that no build produced again (455). The set is sorted by the length of the paths, the
    longest first (459); paths of the same length are in any order. *)
Inductive rebuild_tree (outs arts written still : list str) (t : tree) : res tree -> Prop :=
| pruned cand order t1 :
    possibly_empty (outs ++ arts) = Some cand ->
    write_files written (unlinked outs t) = Some t1 ->
    NoDup order -> (forall d, In d order <-> In d cand) -> StronglySorted (fun a b => (length b <= length a)%nat) order ->
    rebuild_tree outs arts written still t (prune order (unlinked still t1)).
