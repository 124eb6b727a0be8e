(** build/handlers/image_glue.py: images.json files, from which modules about exported images
    are made.

    Paths are relative to [context.folder], as in Handlers.v.  Simplifications: numbers of a
    json text that are no integers are compared exactly, "NaN" and "Infinity" are no numbers,
    and a size given as [true] is 1 (python would write it as "true" again).  A folder does
    not pass for an image.  Warnings are not modelled. *)
From Verif Require Import Base Graph Json PyStr PyPath Handlers Html ImgSize ImgSettings ImgExport ImgCommand ImgPage.
From Coq Require Import String ZArith NArith QArith Bool List.
Import ListNotations.
Open Scope list_scope.
Open Scope Z_scope.

(** * json.dump(..., sort_keys=True) *)
Fixpoint insert_pair (x : str * json) (l : list (str * json)) : list (str * json) :=
  match l with [] => [x] | y :: r => if str_leb (fst x) (fst y) then x :: l else y :: insert_pair x r end.
Definition sort_pairs (l : list (str * json)) : list (str * json) := fold_right insert_pair [] l.
Fixpoint sort_keys (v : json) : json :=
  match v with
  | JList l => JList (map sort_keys l)
  | JObj l => JObj (sort_pairs (map (fun kv => (fst kv, sort_keys (snd kv))) l))
  | _ => v
  end.

Section Check.
(** [num]: the number that a json text of one stands for; [dims]: as in ImgCommand.v *)
Context (num : str -> Q) (dims : str -> res (option (Z * Z))).
(** a value that [isinstance(v, int)] accepts *)
Definition as_int (v : option json) : option Z :=
  match v with Some (JBool b) => Some (if b then 1 else 0) | Some (JNum raw) => parse_Z raw | _ => None end.
(** a value in a comparison with a number *)
Definition as_number (v : json) : res Q := match v with JNum raw => Ret (num raw) | JBool b => Ret (if b then 1 else 0)%Q | _ => Raise TypeError end.
Definition setting (d : list (str * json)) (k : str) (default : Q) : res Q := match dget k d with None => Ret default | Some v => as_number v end.
(** 336-344 *)
Fixpoint no_negative (d : list (str * json)) (ks : list str) : res bool :=
  match ks with
  | [] => Ret true
  | k :: r => match setting d k 0 with Raise e => Raise e | Ret q => if negb (Qle_bool 0 q) then Ret false else no_negative d r end
  end.
(** 346, 351 *)
Definition share (d : list (str * json)) (k : str) : res bool := match setting d k (1 # 2) with Raise e => Raise e | Ret q => Ret (Qle_bool 0 q && Qle_bool q 1) end.
(** 357-367: [a], [b]: the names of the two settings *)
Definition room (d : list (str * json)) (size : Z) (a b : str) : res Q :=
  match setting d a 0 with Raise e => Raise e | Ret x => match setting d b 0 with Raise e => Raise e | Ret y => Ret (inject_Z size - x - y)%Q end end.
(** 324-374 *)
Definition check_crop (d : list (str * json)) (iw ih w h : Z) : res bool :=
  if negb (forallb (fun e => dmem (fst e) crop_names) d) then Ret false else
  match no_negative d [lit "pre_top_crop"; lit "pre_left_crop"; lit "pre_right_crop"; lit "pre_bottom_crop"] with Raise e => Raise e | Ret false => Ret false | Ret true =>
  match share d (lit "crop_left_percentage") with Raise e => Raise e | Ret false => Ret false | Ret true =>
  match share d (lit "crop_top_percentage") with Raise e => Raise e | Ret false => Ret false | Ret true =>
  match room d iw (lit "pre_left_crop") (lit "pre_right_crop") with Raise e => Raise e | Ret x =>
  match room d ih (lit "pre_top_crop") (lit "pre_bottom_crop") with Raise e => Raise e | Ret y =>
    Ret (Qle_bool (inject_Z w) x && Qle_bool (inject_Z h) y) end end end end end.
(** 305-308: the width, if it is acceptable for an image of width [limit] *)
Definition check_size (v : option json) (limit : Z) : option Z :=
  match as_int v with None => None | Some z => if (z <=? 0) || (limit <? z) then None else Some z end.
(** 278-374 *)
Definition check_image (v : json) (f : fs) : res bool :=
  match v with
  | JObj d =>
      match dget (lit "path") d with
      | Some (JStr path) =>
          if negb (starts_with (lit "/") path) then Ret false
          else match dget (join_path (lit "src") [lit "public"; tl path]) f with
          | None => Ret false
          | Some image =>
              match dims image with
              | Raise e => Raise e
              | Ret None => Ret false
              | Ret (Some (iw, ih)) =>
                  match check_size (dget (lit "width") d) iw with None => Ret false | Some w =>
                  match check_size (dget (lit "height") d) ih with None => Ret false | Some h =>
                  match dget (lit "crop_style") d with
                  | Some (JStr s) => if negb (str_eqb s (lit "cover")) then Ret false else match dget (lit "crop_settings") d with None => check_crop [] iw ih w h | Some (JObj c) => check_crop c iw ih w h | Some _ => Ret false end
                  | Some _ => Ret false
                  | None => match dget (lit "crop_settings") d with None => check_crop [] iw ih w h | Some (JObj c) => check_crop c iw ih w h | Some _ => Ret false end
                  end end end
              end
          end
      | _ => Ret false
      end
  | _ => Ret false
  end.
Fixpoint check_images (l : list (str * json)) (f : fs) : res bool :=
  match l with [] => Ret true | (_, v) :: r => match check_image v f with Raise e => Raise e | Ret false => Ret false | Ret true => check_images r f end end.
(** 266-376 *)
Definition check_json (data : json) (f : fs) : res bool := match data with JObj l => check_images l f | _ => Ret false end.
End Check.

(** 158-165 and 207-214, after the check.  "lazy" is not used.  Arguments that are no
    dictionary raise TypeError later, in CropSettingsCover( ** args), with the same effect. *)
Definition command_of (v : json) : res command :=
  match v with
  | JObj d =>
      match dget (lit "path") d, as_int (dget (lit "width") d), as_int (dget (lit "height") d) with
      | Some (JStr p), Some w, Some h =>
          match dget (lit "crop_arguments") d with
          | None => Ret {| c_path := p; c_width := w; c_height := h; c_args := []; c_lazy := true |}
          | Some (JObj a) => Ret {| c_path := p; c_width := w; c_height := h; c_args := a; c_lazy := true |}
          | Some _ => Raise TypeError
          end
      | _, _, _ => Raise KeyError
      end
  | _ => Raise TypeError
  end.
(** 138-142 and 193-197 *)
Definition name_of (p : str) : str := let rel := skipn 11 p in firstn (length rel - 12) rel ++ lit ".images.js".
Definition module_path (p : str) : str := join_path (lit "out") [lit "www"; name_of p].
Definition placeholder_of (p : str) : str := join_path (lit "src") [lit "public"; name_of p].

(** 221-247: what is written about an image; [os.path.sep] is "/" *)
Definition output_json (o : output) : json :=
  JObj [(lit "width", JNum (print_Z (o_width o))); (lit "height", JNum (print_Z (o_height o))); (lit "url", JStr (lit "/" ++ o_relpath o)); (lit "choice", JStr (o_choice o))].
Definition image_json (m : metadata target) : json :=
  let '(w, h, crop) := m_target m in
  JObj [(lit "target", JObj [
    (lit "settings", JObj [(lit "width", JNum (print_Z w)); (lit "height", JNum (print_Z h)); (lit "crop", JStr (lit "cover")); (lit "crop_settings", JObj crop)]);
    (lit "outputs", JObj (map (fun x => (fst x, JList (map output_json (snd x)))) (m_outputs m)))])].
(** 251-253 *)
Definition module_text (l : list (str * metadata target)) : str :=
  lit "export default " ++ dump (sort_keys (JObj (map (fun x => (fst x, image_json (snd x))) l))) ++ lit ";" ++ [10%N].

Section Glue.
Context (num : str -> Q) (dims : str -> res (option (Z * Z))) (sha : str -> str).
(** [scan_one], [export_one]: scan_command and export_command, see ImgPage.v *)
Context (scan_one : command -> fs -> res (scanned * fs)) (export_one : command -> fs -> res (metadata target * Handlers.built * fs)).
(** [auto]: context.auto_generate_images_js_placeholders; [text]: PLACEHOLDER_FILE;
    [in_cwd]: [os.path.exists] of a path relative to the working directory (151) *)
Context (auto : bool) (text : str) (in_cwd : str -> bool).

(** 132-136 and 187-191: the images of an acceptable file *)
Definition glue_read (p : str) (f : fs) : res (option (list (str * json))) :=
  match dget p f with
  | None => Raise FileNotFoundError
  | Some s =>
      match option_map jnorm (json_load s) with
      | None => Raise ValueError
      | Some data =>
          match check_json num dims data f, data with
          | Raise e, _ => Raise e
          | Ret true, JObj l => Ret (Some l)
          | Ret _, _ => Ret None
          end
      end
  end.
(** 129, 184 *)
Definition glue_skips (p : str) : bool := negb (glue_handles p) || ends_with (lit ".images.js") p.
(** 157-170: what the commands report, in their order *)
Fixpoint scan_all (l : list (str * json)) (f : fs) : res (list scanned * fs) :=
  match l with
  | [] => Ret ([], f)
  | (_, v) :: r =>
      match command_of v with Raise e => Raise e | Ret c =>
      match scan_one c f with Raise e => Raise e | Ret (s, f) =>
      match scan_all r f with Raise e => Raise e | Ret (ss, f) => Ret (s :: ss, f) end end end
  end.
(** 206-247 *)
Fixpoint export_all (l : list (str * json)) (f : fs) : res (list (str * metadata target * Handlers.built) * fs) :=
  match l with
  | [] => Ret ([], f)
  | (name, v) :: r =>
      match command_of v with Raise e => Raise e | Ret c =>
      match export_one c f with Raise e => Raise e | Ret (m, b, f) =>
      match export_all r f with Raise e => Raise e | Ret (ms, f) => Ret ((name, m, b) :: ms, f) end end end
  end.
(** [set.update], repeatedly *)
Definition gather (ls : list (list str)) : list str := fold_left (fun s l => add_all l s) ls [].
(** 125-179; the last component: the placeholders *)
Definition glue_scan (p : str) (f : fs) : res (scanned * list (str * str) * fs) :=
  let nothing := ({| dependencies := []; produces := [] |}, []) in
  if glue_skips p then Ret (nothing, f)
  else match glue_read p f with
  | Raise e => Raise e
  | Ret None => Ret (nothing, f)
  | Ret (Some l) =>
      match scan_all l f with
      | Raise e => Raise e
      | Ret (ss, f) =>
          let h := hash_scan (module_path p) in
          Ret ({| dependencies := gather (map dependencies ss ++ [dependencies h]); produces := gather ([module_path p] :: map produces ss ++ [produces h]) |},
               (if auto && negb (in_cwd (placeholder_of p)) then [(placeholder_of p, text)] else []), f)
      end
  end.
(** 182-263 *)
Definition glue_build (p : str) (f : fs) : res (Handlers.built * fs) :=
  let nothing := {| children := []; produced := []; reused := [] |} in
  if glue_skips p then Ret (nothing, f)
  else match glue_read p f with
  | Raise e => Raise e
  | Ret None => Ret (nothing, f)
  | Ret (Some l) =>
      match export_all l f with
      | Raise e => Raise e
      | Ret (ms, f) =>
          match hash_build sha (module_path p) (dset (module_path p) (module_text (map fst ms)) f) with
          | Raise e => Raise e
          | Ret (h, f) =>
              let bs := map snd ms in
              Ret ({| children := gather (map children bs ++ [children h]); produced := gather (map produced bs ++ [[module_path p]; produced h]); reused := gather (map reused bs ++ [reused h]) |}, f)
          end
      end
  end.
End Glue.
