(** Model of /repo/vanillaplusjs/build/cold_incremental_rebuild.py lines 115-294:
    external files.  A file's contents are its bytes. *)
From Verif Require Import Base PyStr Hot HotGraphs.
From Coq Require Import String ZArith Bool List.
Import ListNotations.
Open Scope list_scope.

(** exceptions the code raises, besides those of python *)
Inductive xexn := Py (e : exn) | AttributeError | IntegrityMismatch | DownloadFailed.
Inductive xres (A : Type) := XRet (a : A) | XRaise (e : xexn).
Arguments XRet {A} _. Arguments XRaise {A} _.

(** build_context.py:12-34 *)
Record external := mkExternal { x_relpath : str; x_url : str; x_integrity : str }.
(** build_context.py:37-61, without the repeated relpath *)
Record recorded := mkRecorded { k_integrity : str; k_sig : fsig }.

(** dataclass equality of signatures, file_signature.py:5-22 *)
Definition fsig_eqb (a b : fsig) : bool :=
  let '(a1, a2, a3) := a in let '(b1, b2, b3) := b in Z.eqb a1 b1 && Z.eqb a2 b2 && Z.eqb a3 b3.

(** build_context.py:220-230; a value is (relpath if present, url, integrity).
    os.path.sep is "/". *)
Definition load_external_files (data : @dict (option str * str * str)) : @dict external :=
  fold_left (fun acc kv => let '(key, (rel, url, integrity)) := kv in
    let relpath := match rel with Some p => p | None => key end in dset relpath (mkExternal relpath url integrity) acc) data [].

Section External.
(** [hash t]: base64 of the digest of some bytes with hashlib's algorithm [t],
    [None] if hashlib has no such attribute.  Simplification: attributes of
    hashlib that are not algorithms are taken not to exist. *)
Context (hash : str -> option (str -> str)).
(** get_file_signature; [None] is FileNotFoundError *)
Context (stat : fs -> str -> option fsig).

(** 269-294.  The file is read in one step: no other process writes it. *)
Definition ensure_integrity (s : fs) (path integrity : str) : xres unit :=
  match split_on 45 integrity with
  | [t; expected] =>
      match hash t with
      | None => XRaise AttributeError
      | Some digest =>
          match s path with
          | None => XRaise (Py FileNotFoundError)
          | Some c =>
              if is_ascii expected then
                if str_eqb expected (digest c) then XRet tt else XRaise IntegrityMismatch
              else XRaise (Py UnicodeError)
          end
      end
  | _ => XRaise (Py ValueError)
  end.

(** 191-217 *)
Definition skippable (s : fs) (state : @dict recorded) (x : external) : bool :=
  match dget (x_relpath x) state with
  | None => false
  | Some old =>
      if str_eqb (k_integrity old) (x_integrity x) then
        match stat s (x_relpath x) with
        | None => false
        | Some g => fsig_eqb g (k_sig old)
        end
      else false
  end.

(** 220-266: the states of one handler process.  Each step is one effect on
    the folder.  Directories are not modelled. *)
Inductive phase :=
| PCheck (* 231-238 *)
| PGet (* 247-248 *)
| POpen (* 249 *)
| PWrite (* 250-251 *)
| PVerify (* 253 *)
| PUnlink (* 254-257 *)
| PRename (* 261 *)
| PFinally (r : xres unit) (* 263-266 *)
| PDone (r : xres unit).

Inductive handle_step (x : external) (temp : str) : phase -> fs -> phase -> fs -> Prop :=
| hs_ok s : ensure_integrity s (x_relpath x) (x_integrity x) = XRet tt -> handle_step x temp PCheck s (PDone (XRet tt)) s
| hs_stale s e : ensure_integrity s (x_relpath x) (x_integrity x) = XRaise e -> (e = Py FileNotFoundError \/ e = IntegrityMismatch) ->
    handle_step x temp PCheck s PGet s
| hs_broken s e : ensure_integrity s (x_relpath x) (x_integrity x) = XRaise e -> e <> Py FileNotFoundError -> e <> IntegrityMismatch ->
    handle_step x temp PCheck s (PDone (XRaise e)) s
| hs_response s : handle_step x temp PGet s POpen s
| hs_no_response s : handle_step x temp PGet s (PFinally (XRaise DownloadFailed)) s
| hs_open s : handle_step x temp POpen s PWrite (fs_set temp [] s)
| hs_chunk s chunk c : s temp = Some c -> handle_step x temp PWrite s PWrite (fs_set temp (c ++ chunk) s)
| hs_end s : handle_step x temp PWrite s PVerify s
| hs_aborted s : handle_step x temp PWrite s (PFinally (XRaise DownloadFailed)) s
| hs_verified s : ensure_integrity s temp (x_integrity x) = XRet tt -> handle_step x temp PVerify s PUnlink s
| hs_mismatch s e : ensure_integrity s temp (x_integrity x) = XRaise e -> handle_step x temp PVerify s (PFinally (XRaise e)) s
| hs_unlink s : handle_step x temp PUnlink s PRename (fs_del (x_relpath x) s)
| hs_rename s c : s temp = Some c -> handle_step x temp PRename s (PFinally (XRet tt)) (fs_set (x_relpath x) c (fs_del temp s))
| hs_lost s : s temp = None -> handle_step x temp PRename s (PFinally (XRaise (Py FileNotFoundError))) s
| hs_clean s r : handle_step x temp (PFinally r) s (PDone r) (fs_del temp s).

(** 143-162: the pool of handler processes over one folder *)
Record proc := mkProc { pr_x : external; pr_temp : str; pr_phase : phase }.
Inductive pool_step : list proc * fs -> list proc * fs -> Prop :=
| pool_one before x temp ph after s ph' s' : handle_step x temp ph s ph' s' ->
    pool_step (before ++ mkProc x temp ph :: after, s) (before ++ mkProc x temp ph' :: after, s').
Inductive pool_steps : list proc * fs -> list proc * fs -> Prop :=
| ps_refl a : pool_steps a a
| ps_step a b c : pool_steps a b -> pool_step b c -> pool_steps a c.

(** 134-137 *)
Fixpoint remove_old (cfg : @dict external) (keys : list str) (s : fs) : xres unit * fs :=
  match keys with
  | [] => (XRet tt, s)
  | k :: r =>
      if dmem k cfg then remove_old cfg r s
      else match s k with
           | None => (XRaise (Py FileNotFoundError), s)
           | Some _ => remove_old cfg r (fs_del k s)
           end
  end.

(** 145-152: what is kept of the state, and the files to handle *)
Definition kept_state (s : fs) (state : @dict recorded) (xs : list external) : @dict recorded :=
  fold_left (fun acc x => if skippable s state x then match dget (x_relpath x) state with Some k => dset (x_relpath x) k acc | None => acc end else acc) xs [].
Definition to_handle (s : fs) (state : @dict recorded) (xs : list external) : list external :=
  filter (fun x => negb (skippable s state x)) xs.

(** 167-168 *)
Fixpoint first_error (ps : list proc) : option xexn :=
  match ps with
  | [] => None
  | p :: r => match pr_phase p with PDone (XRaise e) => Some e | _ => first_error r end
  end.
(** 170-183 *)
Fixpoint add_states (s : fs) (xs : list external) (acc : @dict recorded) : xres (@dict recorded) :=
  match xs with
  | [] => XRet acc
  | x :: r =>
      if dmem (x_relpath x) acc then add_states s r acc
      else match stat s (x_relpath x) with
           | None => XRaise (Py FileNotFoundError)
           | Some g => add_states s r (dset (x_relpath x) (mkRecorded (x_integrity x) g) acc)
           end
  end.

(** the folder and the state file (None: missing) *)
Record ext_world := mkExt { w_fs : fs; w_state : option (@dict recorded) }.
Definition old_state (w : ext_world) : @dict recorded := match w_state w with Some d => d | None => [] end.

(** 115-188.  [check_files cfg w ps r w']: a run with the handler processes
    [ps] (in their final phases) ends with [r].  Temporary names
    (secrets.token_urlsafe) are arbitrary but new and distinct. *)
Definition fresh (cfg : @dict external) (s : fs) (temps : list str) : Prop :=
  NoDup temps /\ forall t, In t temps -> s t = None /\ ~ In t (dkeys cfg).
Definition start (xs : list external) (temps : list str) : list proc := map (fun xt => mkProc (fst xt) (snd xt) PCheck) (combine xs temps).
Inductive check_files (cfg : @dict external) (w : ext_world) : list proc -> xres unit -> ext_world -> Prop :=
| cf_empty : cfg = [] -> check_files cfg w [] (XRet tt) w
| cf_missing s1 e : cfg <> [] -> remove_old cfg (dkeys (old_state w)) (w_fs w) = (XRaise e, s1) -> check_files cfg w [] (XRaise e) (mkExt s1 (w_state w))
| cf_idle s1 : cfg <> [] -> remove_old cfg (dkeys (old_state w)) (w_fs w) = (XRet tt, s1) ->
    to_handle s1 (old_state w) (map snd cfg) = [] -> check_files cfg w [] (XRet tt) (mkExt s1 (w_state w))
| cf_failed s1 temps ps s2 e : cfg <> [] -> remove_old cfg (dkeys (old_state w)) (w_fs w) = (XRet tt, s1) ->
    to_handle s1 (old_state w) (map snd cfg) <> [] -> fresh cfg s1 temps -> length temps = length (to_handle s1 (old_state w) (map snd cfg)) ->
    pool_steps (start (to_handle s1 (old_state w) (map snd cfg)) temps, s1) (ps, s2) -> (forall p, In p ps -> exists r, pr_phase p = PDone r) ->
    first_error ps = Some e -> check_files cfg w ps (XRaise e) (mkExt s2 (w_state w))
| cf_done s1 temps ps s2 state : cfg <> [] -> remove_old cfg (dkeys (old_state w)) (w_fs w) = (XRet tt, s1) ->
    to_handle s1 (old_state w) (map snd cfg) <> [] -> fresh cfg s1 temps -> length temps = length (to_handle s1 (old_state w) (map snd cfg)) ->
    pool_steps (start (to_handle s1 (old_state w) (map snd cfg)) temps, s1) (ps, s2) -> (forall p, In p ps -> exists r, pr_phase p = PDone r) ->
    first_error ps = None -> add_states s2 (map snd cfg) (kept_state s1 (old_state w) (map snd cfg)) = XRet state ->
    check_files cfg w ps (XRet tt) (mkExt s2 (Some state))
| cf_vanished s1 temps ps s2 e : cfg <> [] -> remove_old cfg (dkeys (old_state w)) (w_fs w) = (XRet tt, s1) ->
    to_handle s1 (old_state w) (map snd cfg) <> [] -> fresh cfg s1 temps -> length temps = length (to_handle s1 (old_state w) (map snd cfg)) ->
    pool_steps (start (to_handle s1 (old_state w) (map snd cfg)) temps, s1) (ps, s2) -> (forall p, In p ps -> exists r, pr_phase p = PDone r) ->
    first_error ps = None -> add_states s2 (map snd cfg) (kept_state s1 (old_state w) (map snd cfg)) = XRaise e ->
    check_files cfg w ps (XRaise e) (mkExt s2 (w_state w)).
End External.
