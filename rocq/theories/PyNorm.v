(** Parts of python's posixpath and str (standard library, not in /repo) that the
    code relies on: normpath, abspath, relpath, dirname, basename, strip. *)
From Verif Require Import Base PyStr PyPath.
From Coq Require Import String ZArith NArith Bool List.
Import ListNotations.
Open Scope list_scope.
Open Scope N_scope.

(** the characters for which [str.isspace] holds *)
Definition py_space (c : N) : bool :=
  ((9 <=? c) && (c <=? 13)) || ((28 <=? c) && (c <=? 32)) || (c =? 133) || (c =? 160) || (c =? 5760)
  || ((8192 <=? c) && (c <=? 8202)) || (c =? 8232) || (c =? 8233) || (c =? 8239) || (c =? 8287) || (c =? 12288).
Fixpoint lstrip (s : str) : str := match s with c :: r => if py_space c then lstrip r else s | [] => [] end.
(** [str.strip] *)
Definition strip (s : str) : str := rev (lstrip (rev (lstrip s))).

Definition dot : str := [46].
Definition dotdot : str := [46; 46].
(** posixpath.normpath: one step of its loop over the components; the list is reversed *)
Definition norm_step (rooted : bool) (acc : list str) (comp : str) : list str :=
  if str_eqb comp [] || str_eqb comp dot then acc
  else if negb (str_eqb comp dotdot) || (negb rooted && match acc with [] => true | _ => false end)
          || match acc with c :: _ => str_eqb c dotdot | [] => false end
  then comp :: acc
  else tl acc.
Definition norm_comps (rooted : bool) (comps : list str) : list str := rev (fold_left (norm_step rooted) comps []).
Definition normpath (p : str) : str :=
  match p with
  | [] => dot
  | _ =>
      let slashes := if starts_with [47; 47] p && negb (starts_with [47; 47; 47] p) then [47; 47] else if starts_with [47] p then [47] else [] in
      let r := slashes ++ join [47] (norm_comps (match slashes with [] => false | _ => true end) (split_on 47 p)) in
      match r with [] => dot | _ => r end
  end.
(** posixpath.abspath, [cwd] being os.getcwd() *)
Definition abspath (cwd p : str) : str := normpath (if starts_with [47] p then p else join2 cwd p).
(** the components used by posixpath.relpath *)
Definition comps (p : str) : list str := filter (fun c => negb (str_eqb c [])) (split_on 47 p).
Fixpoint drop_common (a b : list str) : list str * list str :=
  match a, b with x :: r, y :: q => if str_eqb x y then drop_common r q else (a, b) | _, _ => (a, b) end.
(** posixpath.relpath(path, start) for a nonempty path (an empty one raises ValueError) *)
Definition relpath (cwd path start : str) : str :=
  let '(s, p) := drop_common (comps (abspath cwd start)) (comps (abspath cwd path)) in
  match map (fun _ => dotdot) s ++ p with [] => dot | a :: l => join_path a l end.
(** the position after the last slash: [dirname] and [basename] *)
Fixpoint cut_last (s : str) : str * str :=
  match s with
  | [] => ([], [])
  | c :: r => let '(h, b) := cut_last r in
              match h with
              | [] => if c =? 47 then ([c], b) else ([], c :: b)
              | _ => (c :: h, b)
              end
  end.
Fixpoint rstrip_slash (s : str) : str := match s with [] => [] | c :: r => match rstrip_slash r with [] => if c =? 47 then [] else [c] | r' => c :: r' end end.
Definition dirname (p : str) : str :=
  let h := fst (cut_last p) in if forallb (N.eqb 47) h then h else rstrip_slash h.
Definition basename (p : str) : str := snd (cut_last p).
