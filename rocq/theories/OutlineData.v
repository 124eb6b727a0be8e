(** Model of /repo/vanillaplusjs/build/css/manips/outline_image_data.py, and of
    urllib.parse.unquote and posixpath.splitext (standard library).

    The file system is that of [Handlers].  [d_seen] is [dependencies] in scan mode and
    [children] in build mode, [d_made] is [produces] or [produced]. *)
From Verif Require Import Base Graph Json PyPath PyNorm Css CssVersion Builder Handlers.
From Coq Require Import String ZArith NArith Bool List.
Import ListNotations.
Open Scope list_scope.
Open Scope N_scope.

(** * urllib.parse.unquote *)
Definition hex_val (c : N) : option N :=
  if (48 <=? c) && (c <=? 57) then Some (c - 48) else if (65 <=? c) && (c <=? 70) then Some (c - 55) else if (97 <=? c) && (c <=? 102) then Some (c - 87) else None.
(** unquote_to_bytes, on ASCII text *)
Fixpoint unquote_to_bytes (s : str) : list N :=
  match s with
  | [] => []
  | c :: t =>
      if c =? 37 then
        match t with
        | a :: b :: r => match hex_val a, hex_val b with Some x, Some y => 16 * x + y :: unquote_to_bytes r | _, _ => c :: unquote_to_bytes t end
        | _ => c :: unquote_to_bytes t
        end
      else c :: unquote_to_bytes t
  end.
Section Unquote.
(** bytes.decode("utf-8", "replace") *)
Context (decode : list N -> str).
(** the runs of ASCII characters are decoded, one by one *)
Fixpoint unquote_runs (run s : str) : str :=
  let flush := match run with [] => [] | _ => decode (unquote_to_bytes run) end in
  match s with
  | [] => flush
  | c :: r => if c <? 128 then unquote_runs (run ++ [c]) r else flush ++ c :: unquote_runs [] r
  end.
Definition unquote (s : str) : str := if existsb (N.eqb 37) s then unquote_runs [] s else s.
End Unquote.

(** posixpath.splitext(p)[0] *)
Fixpoint before_last_dot (s : str) : option str :=
  match s with [] => None | c :: r => match before_last_dot r with Some p => Some (c :: p) | None => if c =? 46 then Some [] else None end end.
Definition splitext_root (p : str) : str :=
  let '(h, b) := cut_last p in
  match before_last_dot b with Some pre => if forallb (N.eqb 46) pre then p else h ++ pre | None => p end.

(** 14-16: the regular expression, as the type and the data *)
Fixpoint cut_type (s : str) : option (str * str) :=
  match s with
  | [] => None
  | c :: r => if (c =? 59) || (c =? 44) then Some ([], r) else match cut_type r with Some (t, d) => Some (c :: t, d) | None => None end
  end.
Definition image_data (v : str) : option (str * str) :=
  let pre := lit "data:image/" in
  if starts_with pre v then
    match cut_type (skipn (length pre) v) with
    | Some (t, d) => match t, d with [], _ | _, [] => None | _, _ => if existsb (N.eqb 34) d then None else Some (t, d) end
    | None => None
    end
  else None.
(** image_type.split("+", 1)[0] *)
Fixpoint before_plus (s : str) : str := match s with [] => [] | c :: r => if c =? 43 then [] else c :: before_plus r end.
(** 51-57 *)
Definition path_in_gen (relpath : str) : str :=
  let p := splitext_root relpath in
  if starts_with (lit "src/public") p then skipn (length (lit "src/public") + 1) p else p.
Definition image_out_folder (relpath : str) : str := join_path (lit "out") [lit "www"; lit "img"; lit "gen"; path_in_gen relpath].
(** 110-112 *)
Definition image_path (relpath : str) (count : N) (image_type : str) : str :=
  join2 (image_out_folder relpath) (print_N count ++ lit "." ++ before_plus image_type).

Section Outline.
Context {F : Type}.
Notation token := (@token F).
(** [lexists f p]: line 137 looks [p] up in the working directory of the process;
    [f] is the project folder *)
Context (decode : list N -> str) (sha : str -> str) (lexists : fs -> str -> bool) (relpath : str).
(** 28-49; [d_stack]: the token that the mark holds, if it waits for the string *)
Record dstate := { d_seen : list str; d_made : list str; d_reused : list str; d_by_data : list (str * str); d_count : N; d_skip : bool; d_stack : option token; d_files : fs }.
(** 61-71 *)
Definition d_start (t : token) (s : dstate) : res (bool * dstate) :=
  match t with
  | TFunction n =>
      if negb (str_eqb n (lit "url")) then Ret (false, s)
      else if d_skip s then Ret (false, {| d_seen := d_seen s; d_made := d_made s; d_reused := d_reused s; d_by_data := d_by_data s; d_count := d_count s; d_skip := false; d_stack := d_stack s; d_files := d_files s |})
      else Ret (true, {| d_seen := d_seen s; d_made := d_made s; d_reused := d_reused s; d_by_data := d_by_data s; d_count := d_count s; d_skip := d_skip s; d_stack := None; d_files := d_files s |})
  | _ => Ret (false, s)
  end.
(** 92-97 and 100-105: everything is put back *)
Definition give_back (ts : list token) (s : dstate) : res (option (list token) * dstate) :=
  Ret (Some ts, {| d_seen := d_seen s; d_made := d_made s; d_reused := d_reused s; d_by_data := d_by_data s; d_count := d_count s; d_skip := true; d_stack := None; d_files := d_files s |}).
(** the dictionaries' update *)
Definition set_update (l s : list str) : list str := fold_left (fun s x => set_add x s) l s.
(** 136-149: the file is written, unless it is there *)
Definition write_image (path data : str) (s : dstate) : res dstate :=
  let '(made, used, f) := if lexists (d_files s) path then (d_made s, set_add path (d_reused s), d_files s)
                          else (set_add path (d_made s), d_reused s, dset path (unquote decode data) (d_files s)) in
  match hash_build sha path f with
  | Raise e => Raise e
  | Ret (h, f) =>
      Ret {| d_seen := set_update (children h) (d_seen s); d_made := set_update (produced h) made; d_reused := set_update (reused h) used;
             d_by_data := d_by_data s; d_count := d_count s; d_skip := d_skip s; d_stack := d_stack s; d_files := f |}
  end.
(** 73-159; [scan]: the mode *)
Definition d_continue (scan : bool) (t : token) (s : dstate) : res (option (list token) * dstate) :=
  match d_stack s with
  | None =>
      match t with
      | TFunction n =>
          if str_eqb n (lit "url")
          then Ret (None, {| d_seen := d_seen s; d_made := d_made s; d_reused := d_reused s; d_by_data := d_by_data s; d_count := d_count s; d_skip := d_skip s; d_stack := Some t; d_files := d_files s |})
          else Raise AssertionError
      | _ => Raise AssertionError
      end
  | Some first =>
      match t with
      | TString v =>
          match image_data v with
          | None => give_back [first; t] s
          | Some (ty, data) =>
              (* 108-115 *)
              let '(path, fresh, count, by_data) :=
                match dget data (d_by_data s) with
                | Some p => (p, false, d_count s, d_by_data s)
                | None => let p := image_path relpath (d_count s + 1) ty in (p, true, d_count s + 1, dset data p (d_by_data s))
                end in
              (* 117-128 *)
              let s := {| d_seen := d_seen s; d_made := d_made s; d_reused := d_reused s; d_by_data := by_data; d_count := count; d_skip := true; d_stack := None; d_files := d_files s |} in
              let web := skipn (length (lit "out/www")) path in
              if scan then
                (* 130-134 *)
                let h := hash_scan path in
                Ret (Some [first; TString web],
                  if fresh then {| d_seen := set_update (dependencies h) (d_seen s); d_made := set_update (produces h) (set_add path (d_made s)); d_reused := d_reused s;
                                   d_by_data := by_data; d_count := count; d_skip := true; d_stack := None; d_files := d_files s |} else s)
              else
                match (if fresh then write_image path data s else Ret s) with
                | Raise e => Raise e
                | Ret s =>
                    (* 151-158 *)
                    match dget (path ++ lit ".hash") (d_files s) with
                    | None => Raise FileNotFoundError
                    | Some hash => Ret (Some [first; TString (web ++ lit "?" ++ urlencode [(lit "v", hash); (lit "pv", PROCESSOR_VERSION)])], s)
                    end
                end
          end
      | _ => give_back [first; t] s
      end
  end.
Definition outline_data (scan : bool) : manip token dstate := {| start_mark := d_start; continue_mark := d_continue scan |}.
Definition d_init (f : fs) : dstate := {| d_seen := []; d_made := []; d_reused := []; d_by_data := []; d_count := 0; d_skip := false; d_stack := None; d_files := f |}.
End Outline.
