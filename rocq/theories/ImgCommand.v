(** build/html/manips/images/command.py (whole file), and manip.py 32-67 and 117-151: which
    comments of a page are commands, and what a page becomes.

    Simplifications: python's limit on the digits of an [int] (4300) and its recursion limit
    are not modelled.  A page is processed by [ImagesManipulator] alone. *)
From Verif Require Import Base Graph Json PyStr PyPath PyNorm Builder Handlers Html ImgSize ImgSettings ImgExport.
From Coq Require Import String ZArith NArith Bool List.
Import ListNotations.
Open Scope list_scope.
Open Scope N_scope.

(** * Python's built-ins *)
(** a word and what follows it *)
Fixpoint word (s : str) : str * str :=
  match s with
  | [] => ([], [])
  | c :: r => if py_space c then ([], s) else let '(a, b) := word r in (c :: a, b)
  end.
(** [s.split(maxsplit=n)] *)
Fixpoint split_words (n : nat) (s : str) : list str :=
  match lstrip s with
  | [] => []
  | t => match n with O => [t] | S n => fst (word t) :: split_words n (snd (word t)) end
  end.
(** [int(s)] for the digits of [s]: an underscore must be between digits *)
Fixpoint int_digits (s : str) (last : bool) (acc : N) : option N :=
  match s with
  | [] => if last then Some acc else None
  | c :: r => if is_digit c then int_digits r true (acc * 10 + (c - 48)) else if (c =? 95) && last then int_digits r false acc else None
  end.
(** [int(s)] for a word; [int_high]: of one with characters that are not ASCII *)
Definition py_int (int_high : str -> option Z) (s : str) : option Z :=
  if forallb (fun c => c <? 128) s then
    match s with
    | c :: r =>
        if c =? 43 then option_map Z.of_N (int_digits r false 0)
        else if c =? 45 then option_map (fun n => - Z.of_N n)%Z (int_digits r false 0)
        else option_map Z.of_N (int_digits s false 0)
    | [] => None
    end
  else int_high s.

(** * command.py *)
(** 15-45; the crop style is always "cover" *)
Record command := { c_path : str; c_width : Z; c_height : Z; c_args : list (str * json); c_lazy : bool }.
(** 139-150: the text up to the first closing brace and the rest *)
Fixpoint cut_brace (s : str) : option (str * str) :=
  match s with
  | [] => None
  | c :: r => if c =? 125 then Some ([c], r) else match cut_brace r with Some (a, b) => Some (c :: a, b) | None => None end
  end.
(** 129-164: the crop arguments, and [lazy] *)
Definition parse_crop (s : str) : res (list (str * json) * bool) :=
  match s with
  | b :: r =>
      if negb (b =? 123) then Raise ValueError
      else match cut_brace r with
      | None => Raise ValueError
      | Some (a, rest) =>
          match option_map jnorm (json_load (b :: a)) with
          | Some (JObj l) => Ret (l, match rest with c :: _ => if c =? 32 then str_eqb rest (lit "lazy") else true | [] => true end)
          | _ => Raise ValueError
          end
      end
  | [] => Raise ValueError
  end.
(** 66-170 *)
Definition parse_command (int_high : str -> option Z) (args : str) : res command :=
  match args with [] => Raise ValueError | _ =>
  match split_words 4 args with
  | path :: w :: more =>
      match py_int int_high w with None => Raise ValueError | Some w =>
      match more with
      | [] => Raise ValueError
      | h :: more =>
          match py_int int_high h with None => Raise ValueError | Some h =>
          let cmd l z := {| c_path := path; c_width := w; c_height := h; c_args := l; c_lazy := z |} in
          match more with
          | [] => Ret (cmd [] true)
          | crop :: more =>
              if negb (str_eqb crop (lit "cover")) then Raise ValueError
              else match more with
              | [] => Ret (cmd [] true)
              | s :: _ => match parse_crop s with Raise e => Raise e | Ret (l, z) => Ret (cmd l z) end
              end
          end end
      end end
  | _ => Raise ValueError
  end end.

(** metadata.py 54-87: CropSettingsCover called with the arguments by name; the types of the values are not checked *)
Definition crop_names : list (str * json) :=
  [(lit "pre_top_crop", JNum (lit "0")); (lit "pre_left_crop", JNum (lit "0")); (lit "pre_right_crop", JNum (lit "0")); (lit "pre_bottom_crop", JNum (lit "0"));
   (lit "crop_left_percentage", JNum (lit "0.5")); (lit "crop_top_percentage", JNum (lit "0.5"))].
Definition crop_settings (args : list (str * json)) : res (list (str * json)) :=
  if negb (forallb (fun e => dmem (fst e) crop_names) args) then Raise TypeError
  else Ret (map (fun e => (fst e, match dget (fst e) args with Some v => v | None => snd e end)) crop_names).

Section Page.
(** the working directory, [context.folder] and the page *)
Context (int_high : str -> option Z) (cwd folder page : str).
(** 47-63 *)
Definition source_path (p : str) : str :=
  if starts_with [47] p then join_path (lit "src") [lit "public"; tl p]
  else relpath cwd (abspath cwd (join2 (dirname (join2 folder page)) p)) folder.

(** [dims]: the width and height of an image; [None] is UnidentifiedImageError *)
Context (dims : str -> res (option (Z * Z))).
(** 173-196 *)
Definition validate (c : command) (f : fs) : res bool :=
  let p := source_path (c_path c) in
  if negb (starts_with (lit "src/public") p) then Ret false
  else match dget p f with
  | None => Ret false
  | Some image =>
      match dims image with
      | Raise e => Raise e
      | Ret None => Ret false
      | Ret (Some (w, h)) => Ret (negb ((w <? c_width c) || (h <? c_height c))%Z)
      end
  end.
(** manip.py 117-138 *)
Definition get_command (t : htoken) (f : fs) : res (option command) :=
  match t with
  | HComment s =>
      match rule_args false (lit "IMAGE") s with
      | None => Ret None
      | Some args =>
          match parse_command int_high args with
          | Raise e => Raise e
          | Ret c => match validate c f with Raise e => Raise e | Ret b => Ret (if b then Some c else None) end
          end
      end
  | _ => Ret None
  end.

(** * manip.py *)
(** [scan]: scan_command with the reservation of a folder; [export]: export_command; [show]: the
    elements made from its metadata (68-115) *)
Context {M : Type} (scan_one : command -> fs -> res (scanned * fs)) (export : command -> fs -> res (M * Handlers.built * fs)) (show : command -> M -> res (list htoken)).
(** 32-46, and the files; [seen]: dependencies or children, [made]: produces or produced *)
Record pstate := { p_files : fs; p_seen : list str; p_made : list str; p_reused : list str }.
Definition add_all (l : list str) (s : list str) : list str := fold_left (fun s x => if mem x s then s else s ++ [x]) l s.
(** 48-61 *)
Definition images_start (scan : bool) (t : htoken) (s : pstate) : res (bool * pstate) :=
  match get_command t (p_files s) with
  | Raise e => Raise e
  | Ret None => Ret (false, s)
  | Ret (Some c) =>
      if scan then
        match scan_one c (p_files s) with
        | Raise e => Raise e
        | Ret (sc, f) => Ret (false, {| p_files := f; p_seen := add_all (dependencies sc) (p_seen s); p_made := add_all (produces sc) (p_made s); p_reused := p_reused s |})
        end
      else Ret (true, s)
  end.
(** 63-115 *)
Definition images_continue (t : htoken) (s : pstate) : res (option (list htoken) * pstate) :=
  match get_command t (p_files s) with
  | Raise e => Raise e
  | Ret None => Raise AssertionError
  | Ret (Some c) =>
      match export c (p_files s) with
      | Raise e => Raise e
      | Ret (m, b, f) =>
          match show c m with
          | Raise e => Raise e
          | Ret l => Ret (Some l, {| p_files := f; p_seen := add_all (children b) (p_seen s); p_made := add_all (produced b) (p_made s); p_reused := add_all (reused b) (p_reused s) |})
          end
      end
  end.
Definition images (scan : bool) : manip htoken pstate := {| start_mark := images_start scan; continue_mark := images_continue |}.
End Page.
