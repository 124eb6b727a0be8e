(** build/html/manips/images/metadata.py 106-217, 280-290 and 364, exporter.py 109-113 and
    308-315: the records of exported and of reserved images, as text. *)
From Verif Require Import Base Graph Json JsonPretty PyPath Handlers Html ImgExport ImgCommand ImgPage ImgTarget.
From Coq Require Import String ZArith NArith Bool List.
Import ListNotations.
Open Scope list_scope.
Open Scope Z_scope.

(** * Writing *)
Definition num (z : Z) : json := JNum (print_Z z).
(** [dataclasses.asdict] of ImageTargetSettings (90-105); numbers are kept as they were written *)
Definition target_json (t : target) : json :=
  JObj [(lit "width", num (fst (fst t))); (lit "height", num (snd (fst t))); (lit "crop", JStr (lit "cover")); (lit "crop_settings", JObj (snd t))].
(** [dataclasses.asdict] of ImageTargetOutput (124-142); on posix [replace] (216) changes nothing *)
Definition output_json (o : output) : json :=
  JObj [(lit "width", num (o_width o)); (lit "height", num (o_height o)); (lit "relpath", JStr (o_relpath o)); (lit "choice", JStr (o_choice o))].
(** 210-217 *)
Definition store_metadata (m : metadata target) : json :=
  JObj [(lit "settings_hash", num (m_settings_hash m));
        (lit "source", JObj [(lit "path", JStr (m_source m)); (lit "width", num (m_width m)); (lit "height", num (m_height m)); (lit "contents_hash", JStr (m_contents_hash m))]);
        (lit "target", JObj [(lit "settings", target_json (m_target m)); (lit "outputs", JObj (map (fun kv => (fst kv, JList (map output_json (snd kv)))) (m_outputs m)))])].
(** exporter.py 315 *)
Definition store_text (m : metadata target) : str := pretty 0 (store_metadata m).
(** metadata.py 364 *)
Definition placeholder_text (t : target) : str := dump (target_json t).

(** * Reading *)
(** [v[k]]; a string, list, number, boolean or None has no such item *)
Definition item (k : str) (v : json) : res json :=
  match v with JObj l => match dget k l with Some x => Ret x | None => Raise KeyError end | _ => Raise TypeError end.
(** Python keeps whatever it finds.  Here numbers are integers, and the values that are neither
    changed nor compared until they are used are what they should be: a file with another one
    is outside the model, [OutOfFuel]. *)
Definition as_int (v : json) : res Z := match v with JNum raw => match parse_Z raw with Some z => Ret z | None => Raise OutOfFuel end | _ => Raise OutOfFuel end.
Definition as_str (v : json) : res str := match v with JStr s => Ret s | _ => Raise OutOfFuel end.
(** [v.replace("/", os.path.sep)] on posix *)
Definition replaced (v : json) : res str := match v with JStr s => Ret s | _ => Raise AttributeError end.
Definition bind {A B} (a : res A) (k : A -> res B) : res B := match a with Raise e => Raise e | Ret x => k x end.
Fixpoint traverse {A B} (f : A -> res B) (l : list A) : res (list B) :=
  match l with [] => Ret [] | x :: r => bind (f x) (fun y => bind (traverse f r) (fun l => Ret (y :: l))) end.
Definition is_cover (v : json) : res unit := match v with JStr s => if str_eqb s (lit "cover") then Ret tt else Raise OutOfFuel | _ => Raise OutOfFuel end.
(** 108-121; the six names are read one by one *)
Definition load_image_target_settings (v : json) : res target :=
  bind (bind (item (lit "width") v) as_int) (fun w =>
  bind (bind (item (lit "height") v) as_int) (fun h =>
  bind (bind (item (lit "crop") v) is_cover) (fun _ =>
  bind (traverse (fun k => bind (item (lit "crop_settings") v) (fun c => bind (item (fst k) c) (fun x => Ret (fst k, x)))) crop_names) (fun crop =>
  Ret (w, h, crop))))).
(** 195-200 *)
Definition load_output (v : json) : res output :=
  bind (bind (item (lit "width") v) as_int) (fun w =>
  bind (bind (item (lit "height") v) as_int) (fun h =>
  bind (bind (item (lit "relpath") v) replaced) (fun r =>
  bind (bind (item (lit "choice") v) as_str) (fun c =>
  Ret {| o_width := w; o_height := h; o_relpath := r; o_choice := c |})))).
(** 194-202: the elements of a list; an object has keys and a string characters, which have no items *)
Definition load_outputs (v : json) : res (list output) :=
  match v with JList l => traverse load_output l | JObj [] | JStr [] => Ret [] | _ => Raise TypeError end.
(** 179-207 *)
Definition load_metadata (v : json) : res (metadata target) :=
  bind (bind (item (lit "settings_hash") v) as_int) (fun hash =>
  bind (bind (bind (item (lit "source") v) (item (lit "path"))) replaced) (fun path =>
  bind (bind (bind (item (lit "source") v) (item (lit "width"))) as_int) (fun w =>
  bind (bind (bind (item (lit "source") v) (item (lit "height"))) as_int) (fun h =>
  bind (bind (bind (item (lit "source") v) (item (lit "contents_hash"))) as_str) (fun ch =>
  bind (bind (bind (item (lit "target") v) (item (lit "settings"))) load_image_target_settings) (fun t =>
  bind (bind (bind (item (lit "target") v) (item (lit "outputs"))) (fun o =>
    match o with JObj l => traverse (fun kv => bind (load_outputs (snd kv)) (fun x => Ret (fst kv, x))) l | _ => Raise AttributeError end)) (fun outputs =>
  Ret {| m_settings_hash := hash; m_source := path; m_width := w; m_height := h; m_contents_hash := ch; m_target := t; m_outputs := outputs |}))))))).
(** json.load; the last of several values for a key counts *)
Definition json_file (s : str) : res json := match json_load s with Some v => Ret (jnorm v) | None => Raise ValueError end.
(** exporter.py 112-113, metadata.py 293 *)
Definition load_text (s : str) : res (metadata target) := bind (json_file s) load_metadata.
(** metadata.py 284-287 *)
Definition load_placeholder (s : str) : res target := bind (json_file s) load_image_target_settings.

(** * Equality of target settings
    Numbers are compared as they are written: [1], [1.0] and [true], which python takes for
    equal, are different. *)
Fixpoint json_eqb (a b : json) : bool :=
  match a, b with
  | JNull, JNull => true
  | JBool x, JBool y => Bool.eqb x y
  | JNum x, JNum y | JStr x, JStr y => str_eqb x y
  | JList l, JList m => (fix all (l m : list json) : bool := match l, m with [], [] => true | x :: l, y :: m => json_eqb x y && all l m | _, _ => false end) l m
  | JObj l, JObj m => (fix all (l m : list (str * json)) : bool := match l, m with [], [] => true | (k, x) :: l, (k', y) :: m => str_eqb k k' && (json_eqb x y && all l m) | _, _ => false end) l m
  | _, _ => false
  end.
Definition target_eqb (a b : target) : bool := (fst (fst a) =? fst (fst b)) && (snd (fst a) =? snd (fst b)) && json_eqb (JObj (snd a)) (JObj (snd b)).

(** * Looking for a folder, and reserving one (metadata.py 220-380), on files *)
Section Disk.
(** [scandir]: the order of [os.scandir]; [hash]: calculate_hash (handlers/hash.py) *)
Context (scandir : list str -> list str) (hash : str -> str) (settings_hash : res Z).
Fixpoint strip (p s : str) : option str :=
  match p, s with [], _ => Some s | a :: p, b :: s => if (a =? b)%N then strip p s else None | _, _ => None end.
Fixpoint component (s : str) : str := match s with [] => [] | c :: r => if (c =? 47)%N then [] else c :: component r end.
(** a folder is there if a file is in it: empty folders are not modelled *)
Definition has_folder (d : str) (f : fs) : bool := existsb (starts_with (d ++ lit "/")) (dkeys f).
(** the names in a folder; none is empty *)
Definition names_in (d : str) (f : fs) : list str :=
  nodup (list_eq_dec N.eq_dec) (flat_map (fun p => match strip (d ++ lit "/") p with Some r => match component r with [] => [] | n => [n] end | None => [] end) (dkeys f)).
(** [fasteners.InterProcessLock] makes its file *)
Definition touch (p : str) (f : fs) : fs := if dmem p f then f else dset p [] f.
(** 269-325; with debug logging that subscripts a dataclass in 309 *)
Fixpoint find_in (rel : str) (sh : Z) (ch : str) (t : target) (names : list str) (f : fs) : res (option Z * fs) :=
  match names with
  | [] => Ret (None, f)
  | name :: r =>
      let path := join2 (source_art rel) name in
      if negb (has_folder path f) then find_in rel sh ch t r f
      else match dget (join2 path (lit "metadata.json")) f with
      | None =>
          let f := touch (lock_path rel) f in
          match dget (join2 path (lit "placeholder.json")) f with
          | None => find_in rel sh ch t r f
          | Some text =>
              match load_placeholder text with
              | Raise e => Raise e
              | Ret p => if target_eqb p t then match int_of name with Ret z => Ret (Some z, f) | Raise x => Raise x end else find_in rel sh ch t r f
              end
          end
      | Some text =>
          match load_text text with
          | Raise e => Raise e
          | Ret m =>
              if negb (m_settings_hash m =? sh) then find_in rel sh ch t r f
              else if negb (str_eqb (m_contents_hash m) ch) then Raise TypeError
              else if negb (target_eqb (m_target m) t) then find_in rel sh ch t r f
              else match int_of name with Ret z => Ret (Some z, f) | Raise x => Raise x end
          end
      end
  end.
(** 246-269 *)
Definition get_target (rel : str) (t : target) (f : fs) : res (option Z * fs) :=
  match dget (lit "src/public/" ++ rel) f with
  | None => Ret (None, f)
  | Some image =>
      if negb (has_folder (source_art rel) f) then Ret (None, f)
      else
        let ch := match dget (lit "out/www/" ++ rel ++ lit ".hash") f with Some h => h | None => hash image end in
        match settings_hash with Raise e => Raise e | Ret sh => find_in rel sh ch t (scandir (names_in (source_art rel) f)) f end
  end.
(** 342-366 *)
Definition reserve_target (rel : str) (t : target) (f : fs) : res (Z * fs) :=
  let f := touch (lock_path rel) f in
  match (match dget (counter_path rel) f with None => Ret 0 | Some s => int_of s end) with
  | Raise e => Raise e
  | Ret c => Ret (c + 1, dset (placeholder_path rel (c + 1)) (placeholder_text t) (dset (counter_path rel) (print_Z (c + 1)) f))
  end.
(** 369-380 *)
Definition get_or_reserve_target (rel : str) (t : target) (f : fs) : res (Z * fs) :=
  match get_target rel t f with
  | Raise e => Raise e
  | Ret (Some z, f) => Ret (z, f)
  | Ret (None, f) => reserve_target rel t f
  end.
End Disk.
