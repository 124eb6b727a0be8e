(** Model of /repo/vanillaplusjs/build/hot_incremental_rebuild.py from the end
    of the scan phase on (lines 166-608). *)
From Verif Require Import Base Graph.
From Coq Require Import String ZArith Bool List.
Import ListNotations.
Open Scope list_scope.

(** The project folder: file contents by path relative to the folder.
    Directories are not modelled. *)
Definition fs := str -> option str.
Definition fs_set (p c : str) (s : fs) : fs := fun q => if str_eqb q p then Some c else s q.
Definition fs_del (p : str) (s : fs) : fs := fun q => if str_eqb q p then None else s q.

(** scan_file_result.py:5-31 (placeholders are handled before this phase) *)
Record scan_result := mkScan { s_deps : list str; s_produces : list str }.

(** build_file_result.py:5-23.  The produced files carry the contents the
    builder wrote.  Simplification: a builder writes exactly the files it
    reports as produced. *)
Record build_result := mkBuild { b_children : list str; b_produced : list (str * str); b_reused : list str }.
Definition b_outputs (r : build_result) : list str := map fst (b_produced r) ++ b_reused r.

(** the effect of a build on the folder *)
Definition apply_writes (ws : list (str * str)) (s : fs) : fs :=
  fold_left (fun s w => fs_set (fst w) (snd w) s) ws s.
Definition apply_build (r : build_result) (s : fs) : fs := apply_writes (b_produced r) s.

(** 182-184, 398 *)
Definition is_out (p : str) : bool := starts_with (lit "out") p || starts_with (lit "artifacts") p.

(** python set.add *)
Definition set_add (x : str) (l : list str) : list str := if mem x l then l else l ++ [x].

(** 170-173: which scanned file intends to produce an output *)
Definition produces_mapping (scans : dict scan_result) : dict str :=
  fold_left (fun m kv => fold_left (fun m o => dset o (fst kv) m) (s_produces (snd kv)) m) scans [].

(** 197-205: the first producer which has not been deleted *)
Fixpoint first_alive (ps deleted : list str) : option str :=
  match ps with
  | [] => None
  | p :: r => if mem p deleted then first_alive r deleted else Some p
  end.

(** 178-205: the loop over the dependencies of one scanned file.  The set
    [new_dependencies] is kept as a list without repetitions. *)
Fixpoint reinterpret_deps (O : graph) (deleted : list str) (deps : list str) (m : dict str) (acc : list str)
  : res (dict str * list str) :=
  match deps with
  | [] => Ret (m, acc)
  | d :: r =>
      if negb (is_out d) then reinterpret_deps O deleted r m (set_add d acc)
      else match dget d m with
           | Some f => reinterpret_deps O deleted r m (set_add f acc)
           | None =>
               match get_parents O d with
               | Raise _ => Raise ValueError
               | Ret ps =>
                   match first_alive ps deleted with
                   | Some p => reinterpret_deps O deleted r (dset d p m) (set_add p acc)
                   | None => Raise ValueError
                   end
               end
           end
  end.

(** 175-208: all scanned files; [discard] removes the file itself *)
Fixpoint reinterpret_scans (O : graph) (deleted : list str) (scans : dict scan_result) (m : dict str)
  : res (dict str * dict scan_result) :=
  match scans with
  | [] => Ret (m, [])
  | (f, sc) :: r =>
      match reinterpret_deps O deleted (s_deps sc) m [] with
      | Raise e => Raise e
      | Ret (m1, ds) =>
          match reinterpret_scans O deleted r m1 with
          | Raise e => Raise e
          | Ret (m2, r2) => Ret (m2, (f, mkScan (remove_all f ds) (s_produces sc)) :: r2)
          end
      end
  end.

(** [graph.get_parents(f)] guarded by [f in graph] *)
Definition parents_in (g : graph) (f : str) : list str :=
  match get_parents g f with Ret l => l | Raise _ => [] end.
Definition children_in (g : graph) (f : str) : list str :=
  match get_children g f with Ret l => l | Raise _ => [] end.

(** 222-225, 228-231: mark the parents that are not marked yet *)
Fixpoint push_new (ps files stack : list str) : list str * list str :=
  match ps with
  | [] => (files, stack)
  | p :: r => if mem p files then push_new r files stack else push_new r (files ++ [p]) (p :: stack)
  end.

(** 233-238 *)
Definition add_dirty (cs : list str) (outs arts : list str) : list str * list str :=
  fold_left (fun '(outs, arts) c =>
    if starts_with (lit "artifacts") c then (outs, set_add c arts) else (set_add c outs, arts)) cs (outs, arts).

(** 218-238: [while stack].  The head of the list is the top of the stack.
    [None]: loop bound of the model exceeded. *)
Fixpoint dirty_loop (fuel : nat) (D O P : graph) (files stack outs arts : list str)
  : option (list str * list str * list str) :=
  match fuel with
  | 0 => None
  | S fuel' =>
      match stack with
      | [] => Some (files, outs, arts)
      | f :: rest =>
          let '(files1, stack1) := push_new (parents_in D f) files rest in
          let '(files2, stack2) := push_new (parents_in P f) files1 stack1 in
          let '(outs1, arts1) := add_dirty (children_in O f) outs arts in
          dirty_loop fuel' D O P files2 stack2 outs1 arts1
      end
  end.

(** 205-213: initialisation (a file may be pushed twice if it occurs both in
    the scan results and in deleted_files) *)
Definition init_stack (scanned deleted : list str) : list str := rev (scanned ++ deleted).
Definition init_files (scanned deleted : list str) : list str :=
  fold_left (fun l f => set_add f l) (scanned ++ deleted) [].

(** 201-242: files to rebuild (including deleted ones), dirtied outputs,
    dirtied artifacts *)
Definition dirty (D O P : graph) (scanned deleted : list str) : option (list str * list str * list str) :=
  dirty_loop (S (length scanned + length deleted + length D + length P)) D O P
    (init_files scanned deleted) (init_stack scanned deleted) [] [].

(** * The scheduler, lines 268-451 *)

(** What is fixed during the scheduling loop. *)
Record env := mkEnv {
  e_D : graph; e_O : graph; e_P : graph;      (* old dependency, output, placeholder graphs *)
  e_scans : dict scan_result;                 (* updated_children, reinterpreted *)
  e_new_placeholders : dict str;              (* placeholder -> generator *)
  e_orig : list str;                          (* original_files_to_rebuild *)
  e_dirty_out : list str;                     (* dirtied_outputs *)
  e_dirty_art : list str                      (* dirtied_artifacts *)
}.

(** 166-266: everything between the scan phase and the scheduling loop: the
    fixed part of the loop's state and out_dependencies_mapping *)
Definition prepare (D O P : graph) (scans : dict scan_result) (new_placeholders : dict str) (deleted : list str)
  : res (env * dict str) :=
  match reinterpret_scans O deleted scans (produces_mapping scans) with
  | Raise x => Raise x
  | Ret (m, scans') =>
      match dirty D O P (dkeys scans) deleted with
      | None => Raise OutOfFuel
      | Some (files, outs, arts) =>
          Ret (mkEnv D O P scans' new_placeholders (filter (fun f => negb (mem f deleted)) files) outs arts, m)
      end
  end.

(** 275-293 get_file_depends_on *)
Definition depends_on (e : env) (f : str) : res (list str) :=
  match dget f (e_scans e) with
  | Some sc =>
      match dget f (e_new_placeholders e) with
      | Some gen => Ret (s_deps sc ++ [gen])
      | None => Ret (s_deps sc ++ parents_in (e_P e) f)
      end
  | None =>
      match get_children (e_D e) f with
      | Raise x => Raise x
      | Ret cs => Ret (cs ++ parents_in (e_P e) f)
      end
  end.

(** 295-301 get_file_creates *)
Definition creates (e : env) (f : str) : list str :=
  match dget f (e_scans e) with
  | Some sc => s_produces sc
  | None => children_in (e_O e) f
  end.

Inductive phase := Scheduling | Waiting.

(** The mutable state of the loop.  [executed] holds the results of workers
    that have finished but whose future has not been looked at ([None]: the
    build raised).  [log] is a ghost: for every finished build the folder it
    ran in and its result, oldest first. *)
Record sched := mkSched {
  s_phase : phase;
  todo : list str;                            (* files_to_rebuild *)
  pending : list str;                         (* keys of pending_results *)
  executed : dict (option build_result);
  results : dict build_result;                (* updated_results *)
  still_out : list str;                       (* still_dirty_outputs *)
  pend_out : list str;                        (* pending_dirty_outputs *)
  still_art : list str;                       (* still_dirty_artifacts *)
  pend_art : list str;                        (* pending_artifacts *)
  mapping : dict str;                         (* out_dependencies_mapping *)
  disk : fs;
  log : list (str * fs * build_result)
}.

(** 310-323: all dependencies built? *)
Definition deps_built (e : env) (res : dict build_result) (deps : list str) : bool :=
  forallb (fun c => negb (negb (dmem c res) && mem c (e_orig e))) deps.

(** 338-342 *)
Definition mark_outputs (e : env) (still_out : list str) (cs : list str) (po pa : list str) : list str * list str :=
  fold_left (fun '(po, pa) o =>
    if mem o still_out then (set_add o po, pa)
    else if mem o (e_dirty_art e) then (po, set_add o pa)
    else (po, pa)) cs (po, pa).

(** 304-342: one pass over files_to_rebuild *)
Fixpoint pass (e : env) (res0 : dict build_result) (still_out : list str) (files : list str) (po pa ready : list str)
  : res (list str * list str * list str) :=
  match files with
  | [] => Ret (ready, po, pa)
  | f :: r =>
      match depends_on e f with
      | Raise x => Raise x
      | Ret deps =>
          if negb (deps_built e res0 deps) then pass e res0 still_out r po pa ready
          else if existsb (fun o => mem o po || mem o pa) (creates e f) then pass e res0 still_out r po pa ready
          else let '(po1, pa1) := mark_outputs e still_out (creates e f) po pa in
               pass e res0 still_out r po1 pa1 (ready ++ [f])
      end
  end.

(** 354-358: submit; [files_to_rebuild.remove] on a list without repetitions *)
Definition remove_files (fs l : list str) : list str := filter (fun f => negb (mem f fs)) l.

(** 385-418: the search through the old graphs for the producer of [child] *)
Fixpoint search_push (cs seen stack : list str) : list str * list str :=
  match cs with
  | [] => (seen, stack)
  | c :: r => if mem c seen then search_push r seen stack else search_push r (c :: seen) (c :: stack)
  end.
Fixpoint search_producer (fuel : nat) (D O : graph) (child : str) (stack seen : list str) : res (option str) :=
  match fuel with
  | 0 => Raise OutOfFuel
  | S fuel' =>
      match stack with
      | [] => Ret None
      | f :: rest =>
          match get_children O f with
          | Raise x => Raise x
          | Ret outs =>
              if mem child outs then Ret (Some f)
              else match get_children D f with
                   | Raise x => Raise x
                   | Ret cs => let '(seen1, stack1) := search_push cs seen rest in
                               search_producer fuel' D O child stack1 seen1
                   end
          end
      end
  end.

(** 374-424: the children as reported by the builder, with files of the out
    folder replaced by the file that produces them *)
Fixpoint reinterpret_children (e : env) (f : str) (cs : list str) (m : dict str) (acc : list str)
  : res (dict str * list str) :=
  match cs with
  | [] => Ret (m, acc)
  | c :: r =>
      match dget c m with
      | Some x => reinterpret_children e f r m (if str_eqb x f then acc else acc ++ [x])
      | None =>
          if is_out c then
            if dmem f (e_scans e) then Raise ValueError
            else match search_producer (S (S (length (e_D e)))) (e_D e) (e_O e) c [f] [] with
                 | Raise x => Raise x
                 | Ret None => Raise ValueError
                 | Ret (Some x) => reinterpret_children e f r (dset c x m) (if str_eqb x f then acc else acc ++ [x])
                 end
          else reinterpret_children e f r m (acc ++ [c])
      end
  end.

(** python set.remove *)
Definition sremove (x : str) (l : list str) : res (list str) :=
  if mem x l then Ret (remove_all x l) else Raise KeyError.

(** 429-442 and 443-451: both loops do the same to the four sets *)
Definition settle_one (e : env) (o : str) (sets : list str * list str * list str * list str)
  : res (list str * list str * list str * list str) :=
  let '(so, po, sa, pa) := sets in
  if mem o so then match sremove o po with Ret po1 => Ret (remove_all o so, po1, sa, pa) | Raise x => Raise x end
  else if mem o sa then match sremove o pa with Ret pa1 => Ret (so, po, remove_all o sa, pa1) | Raise x => Raise x end
  else if mem o (e_dirty_art e) then match sremove o pa with Ret pa1 => Ret (so, po, sa, pa1) | Raise x => Raise x end
  else Ret sets.
Fixpoint settle (e : env) (os : list str) (sets : list str * list str * list str * list str)
  : res (list str * list str * list str * list str) :=
  match os with
  | [] => Ret sets
  | o :: r => match settle_one e o sets with Ret s1 => settle e r s1 | Raise x => Raise x end
  end.

(** 366-451: one completed future *)
Definition collect_one (e : env) (f : str) (s : sched) : res sched :=
  match dget f (executed s) with
  | None => Raise AssertionError (* excluded by [step]: the future is done *)
  | Some None => Raise RuntimeError (* future.result() re-raises *)
  | Some (Some r) =>
      match reinterpret_children e f (b_children r) (mapping s) [] with
      | Raise x => Raise x
      | Ret (m1, cs) =>
          match settle e (map fst (b_produced r) ++ b_reused r) (still_out s, pend_out s, still_art s, pend_art s) with
          | Raise x => Raise x
          | Ret (so, po, sa, pa) =>
              Ret (mkSched (s_phase s) (todo s) (remove_all f (pending s)) (executed s)
                     (dset f (mkBuild cs (b_produced r) (b_reused r)) (results s)) so po sa pa m1 (disk s) (log s))
          end
      end
  end.
Fixpoint collect (e : env) (fs : list str) (s : sched) : res sched :=
  match fs with
  | [] => Ret s
  | f :: r => match collect_one e f s with Ret s1 => collect e r s1 | Raise x => Raise x end
  end.

Definition with_phase (p : phase) (s : sched) : sched :=
  mkSched p (todo s) (pending s) (executed s) (results s) (still_out s) (pend_out s) (still_art s) (pend_art s)
    (mapping s) (disk s) (log s).

(** 303-358: the body of the loop up to [asyncio.wait] *)
Definition schedule (e : env) (s : sched) : res sched :=
  match pass e (results s) (still_out s) (todo s) (pend_out s) (pend_art s) [] with
  | Raise x => Raise x
  | Ret (ready, po, pa) =>
      match ready, pending s with
      | [], [] => Raise CyclicDependencyException
      | _, _ => Ret (mkSched Waiting (remove_files ready (todo s)) (pending s ++ ready) (executed s) (results s)
                       (still_out s) po (still_art s) pa (mapping s) (disk s) (log s))
      end
  end.

Section Builders.
(** build_file: reads the folder, may raise ([None]) *)
Context (build : str -> fs -> option build_result).

(** A worker process builds [f].  Simplification: reading its inputs and
    writing its outputs is one atomic step. *)
Definition execute (f : str) (s : sched) : sched :=
  match build f (disk s) with
  | None => mkSched (s_phase s) (todo s) (pending s) (dset f None (executed s)) (results s) (still_out s) (pend_out s)
              (still_art s) (pend_art s) (mapping s) (disk s) (log s)
  | Some r => mkSched (s_phase s) (todo s) (pending s) (dset f (Some r) (executed s)) (results s) (still_out s) (pend_out s)
                (still_art s) (pend_art s) (mapping s) (apply_build r (disk s)) (log s ++ [(f, disk s, r)])
  end.

(** [a] is a sublist of [b] (same order) *)
Inductive sublist : list str -> list str -> Prop :=
| sub_nil l : sublist [] l
| sub_take x a b : sublist a b -> sublist (x :: a) (x :: b)
| sub_skip x a b : sublist a b -> sublist a (x :: b).

Inductive state := Running (s : sched) | Stopped (x : exn) (s : sched).

(** All interleavings of the main process with the workers.  [step_collect]:
    [asyncio.wait] returned because some future is done; which of the finished
    workers' futures are seen as done is arbitrary. *)
Inductive step (e : env) : sched -> state -> Prop :=
| step_schedule s s' : s_phase s = Scheduling -> (todo s <> [] \/ pending s <> []) ->
    schedule e s = Ret s' -> step e s (Running s')
| step_schedule_fail s x : s_phase s = Scheduling -> (todo s <> [] \/ pending s <> []) ->
    schedule e s = Raise x -> step e s (Stopped x s)
| step_execute s f : In f (pending s) -> dmem f (executed s) = false -> step e s (Running (execute f s))
| step_collect s fs s' : s_phase s = Waiting -> fs <> [] -> sublist fs (pending s) ->
    (forall f, In f fs -> dmem f (executed s) = true) ->
    collect e fs s = Ret s' -> step e s (Running (with_phase Scheduling s'))
| step_collect_fail s fs x : s_phase s = Waiting -> fs <> [] -> sublist fs (pending s) ->
    (forall f, In f fs -> dmem f (executed s) = true) ->
    collect e fs s = Raise x -> step e s (Stopped x s).

Inductive steps (e : env) : sched -> sched -> Prop :=
| steps_refl s : steps e s s
| steps_step s s1 s2 : steps e s s1 -> step e s1 (Running s2) -> steps e s s2.

(** the loop has ended normally *)
Definition finished (s : sched) : Prop := s_phase s = Scheduling /\ todo s = [] /\ pending s = [].

(** 260-275: the initial state; [order] is the iteration order of the set of
    files to rebuild *)
Definition init_sched (e : env) (order : list str) (m : dict str) (s0 : fs) : sched :=
  mkSched Scheduling order [] [] [] (e_dirty_out e) [] (e_dirty_art e) [] m
    (fold_left (fun s p => fs_del p s) (e_dirty_out e) s0) [].

(** 455-457 (FileNotFoundError if the artifact is missing) *)
Fixpoint unlink_all (ps : list str) (s : fs) : option fs :=
  match ps with
  | [] => Some s
  | p :: r => match s p with None => None | Some _ => unlink_all r (fs_del p s) end
  end.
End Builders.
