(** Model of /repo/vanillaplusjs/build/cold_incremental_rebuild.py lines 66-112
    and of /repo/vanillaplusjs/build/hot_incremental_rebuild.py lines 90-164:
    classification of the source files, the constants mode file and the scan
    phase. *)
From Verif Require Import Base Graph Hot HotGraphs.
From Coq Require Import String ZArith Bool List.
Import ListNotations.
Open Scope list_scope.

(** build_context.py:147-150: the listing of the src folder.  Simplification:
    paths use "/" (os.path.sep of the modelled platform). *)
Definition in_src (p : str) : bool := starts_with (lit "src/") p.

(** cold_incremental_rebuild.py:74-95; [files] is what os.walk yields, [sig]
    is get_file_signature *)
Fixpoint classify (D : graph) (sig : str -> option fsig) (files deleted : list str) (changed added : dict fsig)
  : res (dict fsig * dict fsig * list str) :=
  match files with
  | [] => Ret (changed, added, deleted)
  | f :: r =>
      match sig f with
      | None => Raise FileNotFoundError
      | Some (size, mtime, inode) =>
          if contains D f then
            match sremove f deleted with
            | Raise x => Raise x
            | Ret deleted1 =>
                if check_file D f size mtime inode then classify D sig r deleted1 changed added
                else classify D sig r deleted1 (dset f (size, mtime, inode) changed) added
            end
          else classify D sig r deleted changed (dset f (size, mtime, inode) added)
      end
  end.

Definition opt_str_eqb (a b : option str) : bool :=
  match a, b with Some x, Some y => str_eqb x y | None, None => true | _, _ => false end.
Definition mode_name (dev : bool) : str := if dev then lit "dev" else lit "prod".

(** hot_incremental_rebuild.py:90-121; [mode] is the contents of
    out/js_constants_mode.txt.  Returns changed_files and the new contents. *)
Definition mode_step (constants : str) (dev : bool) (sig : str -> option fsig) (s : fs) (mode : option str) (changed added : dict fsig)
  : res (dict fsig * option str) :=
  match s constants with
  | None => Ret (changed, None)
  | Some _ =>
      if opt_str_eqb mode (Some (mode_name dev)) then Ret (changed, mode)
      else if negb (dmem constants changed) && negb (dmem constants added) then
             match sig constants with
             | None => Raise FileNotFoundError
             | Some g => Ret (dset constants g changed, Some (mode_name dev))
             end
           else Ret (changed, Some (mode_name dev))
  end.

(** scan_file_result.py:5-31 with the placeholders (None = empty) *)
Record scan_full := mkFull { f_scan : scan_result; f_placeholders : dict str }.

Section Scan.
(** scan_file: reads the folder, may raise ([None]) *)
Context (scan : str -> fs -> option scan_full) (stat : fs -> str -> option fsig).

(** 614-643 scan_files: [dict(zip(files, results))].  The scans of one batch
    run concurrently but none of them writes. *)
Fixpoint scan_batch (files : list str) (s : fs) (acc : dict scan_full) : res (dict scan_full) :=
  match files with
  | [] => Ret acc
  | f :: r => match scan f s with None => Raise RuntimeError | Some x => scan_batch r s (dset f x acc) end
  end.

(** the loop variables of 128-164 *)
Record scanning := mkScanning { sc_fs : fs; sc_next : list str; sc_new : dict str; sc_added : dict fsig }.

(** 143-164: one placeholder of one scanned file.  Directories are not
    modelled: the folder of the placeholder is taken to exist. *)
Definition place_one (gen : str) (pc : str * str) (t : scanning) : res scanning :=
  let '(p, c) := pc in
  match sc_fs t p with
  | Some _ => Ret t
  | None =>
      let s1 := fs_set p c (sc_fs t) in
      match stat s1 p with
      | None => Raise FileNotFoundError
      | Some g => Ret (mkScanning s1 (sc_next t ++ [p]) (dset p gen (sc_new t)) (dset p g (sc_added t)))
      end
  end.
Fixpoint place_all (gen : str) (pcs : dict str) (t : scanning) : res scanning :=
  match pcs with
  | [] => Ret t
  | pc :: r => match place_one gen pc t with Raise x => Raise x | Ret t1 => place_all gen r t1 end
  end.
(** 139-164 *)
Fixpoint place_batch (batch : dict scan_full) (t : scanning) : res scanning :=
  match batch with
  | [] => Ret t
  | (f, x) :: r => match place_all f (f_placeholders x) t with Raise y => Raise y | Ret t1 => place_batch r t1 end
  end.

(** dict.update *)
Definition dupdate {V} (d e : @dict V) : @dict V := fold_left (fun d kv => dset (fst kv) (snd kv) d) e d.

(** 128-164: the scan loop; [fuel] bounds the number of rounds *)
Fixpoint scan_loop (fuel : nat) (t : scanning) (scans : dict scan_full) : res (scanning * dict scan_full) :=
  match sc_next t with
  | [] => Ret (t, scans)
  | files =>
      match fuel with
      | 0 => Raise OutOfFuel
      | S n =>
          match scan_batch files (sc_fs t) [] with
          | Raise x => Raise x
          | Ret batch =>
              match place_batch batch (mkScanning (sc_fs t) [] (sc_new t) (sc_added t)) with
              | Raise x => Raise x
              | Ret t1 => scan_loop n t1 (dupdate scans batch)
              end
          end
      end
  end.
End Scan.

(** Everything a build reads and writes: the folder, the mode file and the
    three graph files (under out; kept apart from the other files). *)
Record project := mkProject { p_fs : fs; p_mode : option str; p_D : graph; p_O : graph; p_P : graph }.

Definition scans_of (full : dict scan_full) : dict scan_result := map (fun kv => (fst kv, f_scan (snd kv))) full.

(** What a rebuild worked on: the scans, the placeholders written, the deleted
    files, what the scheduling loop started from, the ghost log of the builds. *)
Record run := mkRun { run_scans : dict scan_result; run_new : dict str; run_deleted : list str; run_env : env; run_log : list (str * fs * build_result) }.

(** A successful cold build (cold_incremental_rebuild.py:25-112 without the
    check of external files, modelled in External.v).  The middle argument
    is [None] when there was nothing to do. *)
Inductive cold_build (build : str -> fs -> option build_result) (scan : str -> fs -> option scan_full) (stat : fs -> str -> option fsig)
    (constants : str) (dev : bool) (p : project) : option run -> project -> Prop :=
| cold_nothing files mode1 :
    NoDup files -> (forall f, In f files <-> in_src f = true /\ p_fs p f <> None) ->
    classify (p_D p) (stat (p_fs p)) files (dkeys (p_D p)) [] [] = Ret ([], [], []) ->
    mode_step constants dev (stat (p_fs p)) (p_fs p) (p_mode p) [] [] = Ret ([], mode1) ->
    cold_build build scan stat constants dev p None (mkProject (p_fs p) mode1 (p_D p) (p_O p) (p_P p))
| cold_hot files changed added deleted changed1 mode1 fuel t full e l fs1 D1 O1 P1 :
    NoDup files -> (forall f, In f files <-> in_src f = true /\ p_fs p f <> None) ->
    classify (p_D p) (stat (p_fs p)) files (dkeys (p_D p)) [] [] = Ret (changed, added, deleted) ->
    mode_step constants dev (stat (p_fs p)) (p_fs p) (p_mode p) changed added = Ret (changed1, mode1) ->
    (changed1 <> [] \/ added <> [] \/ deleted <> []) ->
    scan_loop scan stat fuel (mkScanning (p_fs p) (dkeys changed1 ++ dkeys added) [] added) [] = Ret (t, full) ->
    hot_rebuild build stat (p_D p) (p_O p) (p_P p) (scans_of full) (sc_new t) changed1 (sc_added t) deleted (sc_fs t) e l fs1 D1 O1 P1 ->
    cold_build build scan stat constants dev p (Some (mkRun (scans_of full) (sc_new t) deleted e l)) (mkProject fs1 mode1 D1 O1 P1).
