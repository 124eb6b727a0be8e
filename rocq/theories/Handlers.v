(** build/handlers/copy.py, hash.py, copy_and_hash.py, js_constants.py, the dispatch of
    build/scan_file.py and build/build_file.py, and build_context.py 233-253.

    The file system is a dictionary from paths relative to [context.folder] to contents;
    [os.path.join(context.folder, p)] is therefore [p].  A symlink (copy.py 45-49) is a
    file with the contents of its target, as seen right after the build.  [makedirs] is
    assumed to succeed.  [os.path.sep] is "/". *)
From Verif Require Import Base Graph Json PyStr PyPath Css.
From Coq Require Import String ZArith NArith Bool List.
Import ListNotations.
Open Scope list_scope.
Open Scope N_scope.

Definition fs := list (str * str).
(** scan_file_result.py and build_file_result.py, without placeholders *)
Record scanned := { dependencies : list str; produces : list str }.
Record built := { children : list str; produced : list str; reused : list str }.

(** copy.py 13-24 *)
Definition copy_target (p : str) : option str :=
  let rel_public_folder := lit "src/public" in
  if negb (starts_with rel_public_folder p) then None
  else Some (lit "out/www/" ++ skipn (length rel_public_folder + 1) p).
(** hash.py 17-36 *)
Fixpoint hash_target_in (parents : list str) (p : str) : option str :=
  match parents with
  | [] => None
  | parent :: r => if starts_with parent p then Some (lit "out/www/" ++ skipn (length parent) p ++ lit ".hash") else hash_target_in r p
  end.
Definition hash_target : str -> option str := hash_target_in [lit "src/public/"; lit "out/www/"].
(** copy.py 27-32 and hash.py 39-44 *)
Definition scan_target (t : option str) : scanned :=
  match t with None => {| dependencies := []; produces := [] |} | Some t => {| dependencies := []; produces := [t] |} end.
(** copy.py 35-58 and hash.py 47-64 differ only in what is written *)
Definition build_target (write : str -> str) (t : option str) (p : str) (f : fs) : res (built * fs) :=
  match t with
  | None => Ret ({| children := []; produced := []; reused := [] |}, f)
  | Some t =>
      if dmem t f then Ret ({| children := []; produced := []; reused := [t] |}, f)
      else match dget p f with
           | None => Raise FileNotFoundError
           | Some data => Ret ({| children := []; produced := [t]; reused := [] |}, dset t (write data) f)
           end
  end.
Definition copy_scan (p : str) : scanned := scan_target (copy_target p).
Definition hash_scan (p : str) : scanned := scan_target (hash_target p).

Section Sha.
(** hash.py 67-72: sha256 in url-safe base64 *)
Context (sha : str -> str).
Definition copy_build (p : str) (f : fs) : res (built * fs) := build_target (fun data => data) (copy_target p) p f.
Definition hash_build (p : str) (f : fs) : res (built * fs) := build_target sha (hash_target p) p f.
(** copy_and_hash.py 9-16 *)
Definition copy_and_hash_scan (p : str) : scanned :=
  let c := copy_scan p in let h := hash_scan p in
  {| dependencies := dependencies c ++ dependencies h; produces := produces c ++ produces h |}.
(** copy_and_hash.py 19-27 *)
Definition copy_and_hash_build (p : str) (f : fs) : res (built * fs) :=
  match copy_build p f with
  | Raise e => Raise e
  | Ret (c, f) =>
      match hash_build p f with
      | Raise e => Raise e
      | Ret (h, f) => Ret ({| children := children c ++ children h; produced := produced c ++ produced h; reused := reused c ++ reused h |}, f)
      end
  end.

(** * js_constants.py *)
(** a value of the configuration; [VOther] is any other value, with its [str] (a float)
    or [repr] (null, lists, dictionaries) *)
Inductive cval := VStr (s : str) | VBool (b : bool) | VInt (z : Z) | VOther (text : str).
(** 63-76 *)
Definition jsify (v : cval) : str :=
  match v with
  | VStr s => auto_quote s
  | VBool true => lit "true"
  | VBool false => lit "false"
  | VInt z => print_Z z
  | VOther text => text
  end.
Definition cdict := list (str * cval).
(** build_context.py: JSConstants *)
Record constants := { c_relpath : str; c_shared : cdict; c_dev : cdict; c_prod : cdict }.
(** build_context.py 233-243; [env] is os.environ *)
Fixpoint replace_envvars (env : str -> option str) (data : cdict) (result : cdict) : res cdict :=
  match data with
  | [] => Ret result
  | (k, v) :: r =>
      match v with
      | VStr s =>
          if starts_with (lit "env://") s then
            match env (skipn 6 s) with None => Raise KeyError | Some x => replace_envvars env r (dset k (VStr x) result) end
          else replace_envvars env r (dset k v result)
      | _ => replace_envvars env r (dset k v result)
      end
  end.
(** build_context.py 246-253, the four entries being present *)
Definition load_constants (env : str -> option str) (relpath : str) (shared dev prod : cdict) : res constants :=
  match replace_envvars env shared [] with
  | Raise e => Raise e
  | Ret s => match replace_envvars env dev [] with
             | Raise e => Raise e
             | Ret d => match replace_envvars env prod [] with
                        | Raise e => Raise e
                        | Ret p => Ret {| c_relpath := relpath; c_shared := s; c_dev := d; c_prod := p |}
                        end
             end
  end.
(** [d.update(e)] *)
Definition dupdate (d e : cdict) : cdict := fold_left (fun d kv => dset (fst kv) (snd kv) d) e d.
(** 40-44 *)
Definition merged (c : constants) (dev : bool) : cdict := dupdate (c_shared c) (if dev then c_dev c else c_prod c).
(** 47-51 *)
Definition constants_text (l : cdict) : str :=
  match l with
  | [] => [10]
  | _ => flat_map (fun kv => lit "export const " ++ fst kv ++ lit " = " ++ jsify (snd kv) ++ lit ";" ++ [10]) l
  end.
(** 14-22 *)
Definition constants_scan (c : constants) (p : str) : res scanned :=
  if negb (str_eqb p (c_relpath c)) then Ret {| dependencies := []; produces := [] |}
  else match copy_target p with
       | None => Raise AssertionError
       | Some t => Ret {| dependencies := []; produces := [t; t ++ lit ".hash"] |}
       end.
(** 25-60; sets are lists without repetition, [os.path.join] with None raises TypeError *)
Definition constants_build (c : constants) (dev : bool) (p : str) (f : fs) : res (built * fs) :=
  if negb (str_eqb p (c_relpath c)) then Ret ({| children := []; produced := []; reused := [] |}, f)
  else match copy_target p with
       | None => Raise TypeError
       | Some t =>
           let '(made, used, f) := if dmem t f then ([], [t], f) else ([t], [], dset t (constants_text (merged c dev)) f) in
           match hash_build t f with
           | Raise e => Raise e
           | Ret (h, f) => Ret ({| children := children h; produced := made ++ produced h; reused := used ++ reused h |}, f)
           end
       end.
End Sha.

(** * Dispatch *)
Inductive which := JsConstants | ImageGlue | Html | Stylesheet | Script | CopyAndHash.
(** image_glue.py 104-118 *)
Definition glue_handles (p : str) : bool :=
  starts_with (join2 (lit "src") (lit "public")) p && (ends_with (lit ".images.json") p || ends_with (lit ".images.js") p).
(** scan_file.py 28-39 *)
Definition scan_with (constants_relpath p : str) : which :=
  if str_eqb p constants_relpath then JsConstants
  else if glue_handles p then ImageGlue
  else if ends_with (lit ".html") p then Html
  else if ends_with (lit ".css") p then Stylesheet
  else if ends_with (lit ".js") p then Script
  else CopyAndHash.
(** build_file.py 35-50 *)
Definition build_with (constants_relpath p : str) : which :=
  if str_eqb p constants_relpath then JsConstants
  else if glue_handles p then ImageGlue
  else if ends_with (lit ".html") p then Html
  else if ends_with (lit ".css") p then Stylesheet
  else if ends_with (lit ".js") p then Script
  else CopyAndHash.
