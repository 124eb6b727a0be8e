(** build/html/manips/images/exporter.py, scanner.py, and the picture element of manip.py.

    Paths are relative to [context.folder], as in Handlers.v; a symlink is a file with the
    contents of its target, and a dangling one is no file.  Lines 270-273 and 279 turn a
    path into a relative one with os.path.relpath, which also removes "." and ".." parts:
    the paths here are taken to have none.  [makedirs_safely] is assumed to succeed. *)
From Verif Require Import Base Graph Json PyStr PyPath PyNorm Css Handlers Html OutlineData ImgSize ImgSettings.
From Coq Require Import String ZArith NArith Bool List.
Import ListNotations.
Open Scope list_scope.
Open Scope Z_scope.

(** f"{out_width}x{out_height}-{export_name}.{format_name}" *)
Definition temp_name (w h : Z) (export format : str) : str := print_Z w ++ lit "x" ++ print_Z h ++ lit "-" ++ export ++ lit "." ++ format.
(** 253: f"{out_width}x{out_height}.{format_name}" *)
Definition final_name (w h : Z) (format : str) : str := print_Z w ++ lit "x" ++ print_Z h ++ lit "." ++ format.
(** metadata.py 124-142 *)
Record output := { o_width : Z; o_height : Z; o_relpath : str; o_choice : str }.
(** os.remove *)
Definition remove_file (p : str) (f : fs) : res fs := if dmem p f then Ret (ddel p f) else Raise FileNotFoundError.
(** os.rename *)
Definition rename (a b : str) (f : fs) : res fs := match dget a f with None => Raise FileNotFoundError | Some d => Ret (dset b d (ddel a f)) end.
(** a call of [produce_image] in the pool: the file it writes, and its result *)
Definition job : Type := str * res str.
(** the files once the calls have ended in the order of [l] *)
Definition run_jobs (l : list job) (f : fs) : fs := fold_left (fun f (j : job) => match snd j with Ret d => dset (fst j) d f | Raise _ => f end) l f.
(** 208-211 *)
Fixpoint first_exception (l : list job) : option exn :=
  match l with [] => None | (_, Raise e) :: _ => Some e | (_, Ret _) :: r => first_exception r end.
Record best := { b_export : image_export; b_name : str; b_size : Z; b_path : str }.

Section Export.
(** [encode width height format kwargs]: what [produce_image] (324-369) saves.
    [art], [out]: the two target folders; [sub]: [os.path.relpath(art, "artifacts")] *)
Context (symlinks : bool) (encode : Z -> Z -> str -> list (str * kval) -> res str) (art out sub : str) (formats : list (str * image_format)).

(** 186-205 *)
Definition format_jobs (w h : Z) (f : str * image_format) : list job :=
  flat_map (fun e => if applies_to (snd e) w h then [(join2 art (temp_name w h (fst e) (fst f)), encode w h (fst f) (kwargs (snd e)))] else []) (exports (snd f)).
(** 181-205 *)
Definition jobs (sizes : list (Z * Z)) : list job := flat_map (fun s => flat_map (format_jobs (fst s) (snd s)) formats) sizes.

(** 221-248 *)
Fixpoint choose (w h : Z) (name : str) (fmt : image_format) (l : list (str * image_export)) (b : option best) (f : fs) : res (option best * fs) :=
  match l with
  | [] => Ret (b, f)
  | (n, e) :: r =>
      if negb (applies_to e w h) then choose w h name fmt r b f
      else
        let export_path := join2 art (temp_name w h n name) in
        match dget export_path f with
        | None => Raise FileNotFoundError
        | Some data =>
            let export_size := Z.of_nat (length data) in
            let this := Some {| b_export := e; b_name := n; b_size := export_size; b_path := export_path |} in
            match b with
            | None => choose w h name fmt r this f
            | Some o =>
                if 0 <? compare_in_format fmt (b_export o) (b_size o) e export_size
                then match remove_file (b_path o) f with Raise x => Raise x | Ret f => choose w h name fmt r this f end
                else match remove_file export_path f with Raise x => Raise x | Ret f => choose w h name fmt r b f end
            end
        end
  end.

(** [outputs] and [produced] (178, 153-158) as they grow, and the files *)
Record progress := { outputs : list (str * list output); made : list str; files : fs }.
(** 287-296: os.symlink onto an existing file fails, shutil.copy overwrites it *)
Definition link (from to : str) (f : fs) : res fs :=
  if symlinks then (if dmem to f then Raise FileExistsError else match dget from f with None => Ret f | Some d => Ret (dset to d f) end)
  else match dget from f with None => Raise FileNotFoundError | Some d => Ret (dset to d f) end.
(** 217-298 *)
Definition export_one (w h : Z) (fm : str * image_format) (s : progress) : res progress :=
  let name := fst fm in
  match choose w h name (snd fm) (exports (snd fm)) None (files s) with
  | Raise e => Raise e
  | Ret (None, f) => Ret {| outputs := outputs s; made := made s; files := f |}
  | Ret (Some b, f) =>
      let desired_path := join2 art (final_name w h name) in
      match rename (b_path b) desired_path f with
      | Raise e => Raise e
      | Ret f =>
          let output_list := match dget name (outputs s) with None => [] | Some l => l end in
          let outputs := dset name (output_list ++ [{| o_width := w; o_height := h; o_relpath := join2 sub (final_name w h name); o_choice := b_name b |}]) (outputs s) in
          let out_path := join2 out (final_name w h name) in
          match link desired_path out_path f with
          | Raise e => Raise e
          | Ret f => Ret {| outputs := outputs; made := made s ++ [desired_path; out_path]; files := f |}
          end
      end
  end.
(** 216 *)
Fixpoint export_formats (w h : Z) (l : list (str * image_format)) (s : progress) : res progress :=
  match l with [] => Ret s | fm :: r => match export_one w h fm s with Raise e => Raise e | Ret s => export_formats w h r s end end.
(** 213-215 *)
Fixpoint export_sizes (l : list (Z * Z)) (s : progress) : res progress :=
  match l with [] => Ret s | (w, h) :: r => match export_formats w h formats s with Raise e => Raise e | Ret s => export_sizes r s end end.
(** 178-298; [order]: the order in which the processes of the pool finish *)
Definition export_images (order : list job -> list job) (sizes : list (Z * Z)) (produced : list str) (f : fs) : res progress :=
  match first_exception (jobs sizes) with
  | Some e => Raise e
  | None => export_sizes sizes {| outputs := []; made := produced; files := run_jobs (order (jobs sizes)) f |}
  end.
End Export.

(** metadata.py 160-176, with the source of 38-52; [T]: ImageTargetSettings, 90-105 *)
Record metadata {T : Type} := { m_settings_hash : Z; m_source : str; m_width : Z; m_height : Z; m_contents_hash : str; m_target : T; m_outputs : list (str * list output) }.
Arguments metadata : clear implicits.

Section Command.
(** [store], [load]: [json.dump(store_metadata(...))] and [load_metadata(json.load(...))];
    [dims]: the width and height of an image, as [Image.open] finds them in the file;
    [encode image] : [produce_image] on an image and a target *)
Context {T : Type} (store : metadata T -> str) (load : str -> res (metadata T)) (dims : str -> res (Z * Z)).
Context (symlinks : bool) (encode : str -> T -> Z -> Z -> str -> list (str * kval) -> res str) (settings : image_settings) (step : dec) (order : list job -> list job) (fuel : nat).

(** the paths of 75-86 and 94-96, scanner.py 43-54 *)
Definition source_art (rel : str) : str := join2 (lit "artifacts") (splitext_root rel).
Definition target_art (rel : str) (id : Z) : str := join2 (source_art rel) (print_Z id).
Definition target_out (rel : str) (id : Z) : str := join_path (lit "out") [lit "www"; splitext_root rel; print_Z id].
Definition lock_path (rel : str) : str := join_path (lit "out") [lit "locks"; splitext_root rel; lit "reserve_target.lock"].
Definition metadata_path (rel : str) (id : Z) : str := join2 (target_art rel id) (lit "metadata.json").
Definition placeholder_path (rel : str) (id : Z) : str := join2 (target_art rel id) (lit "placeholder.json").
Definition counter_path (rel : str) : str := join2 (source_art rel) (lit "counter.txt").

(** 117-138: the outputs of one format, then all of them *)
Fixpoint reuse_outputs (l : list output) (first : bool) (p r : list str) (f : fs) : res (bool * list str * list str * fs) :=
  match l with
  | [] => Ret (first, p, r, f)
  | o :: l =>
      let artifact := join2 (lit "artifacts") (o_relpath o) in
      let out_file := join_path (lit "out") [lit "www"; o_relpath o] in
      if dmem out_file f then reuse_outputs l false p (r ++ [artifact; out_file]) f
      else match link symlinks artifact out_file f with Raise e => Raise e | Ret f => reuse_outputs l first (p ++ [out_file]) (r ++ [artifact]) f end
  end.
(** 97-151 *)
Definition reuse (rel : str) (id : Z) (text : str) (f : fs) : res (metadata T * built * fs) :=
  match load text with
  | Raise e => Raise e
  | Ret m =>
      match reuse_outputs (flat_map snd (m_outputs m)) true [] [metadata_path rel id; counter_path rel; placeholder_path rel id] f with
      | Raise e => Raise e
      | Ret (first, p, r, f) =>
          let c := [lit "src/public/" ++ rel] in
          if first then Ret (m, {| children := c; produced := p ++ [lock_path rel]; reused := r |}, (if dmem (lock_path rel) f then f else dset (lock_path rel) [] f))
          else Ret (m, {| children := c; produced := p; reused := r ++ [lock_path rel] |}, f)
      end
  end.
(** 40-321; [id]: what [get_target] returns.  A [yield_sizes] that never ends is OutOfFuel.
    The image is opened before its hash is read (160-169). *)
Definition export_command (rel : str) (id : option Z) (target : T) (width height : Z) (f : fs) : res (metadata T * built * fs) :=
  match id with
  | None => Raise AssertionError
  | Some id =>
      match dget (metadata_path rel id) f with
      | Some text => reuse rel id text f
      | None =>
          let produced := [metadata_path rel id; counter_path rel; placeholder_path rel id; lock_path rel] in
          match dget (lit "src/public/" ++ rel) f with None => Raise FileNotFoundError | Some image =>
          match dims image with Raise e => Raise e | Ret (iw, ih) =>
          match dget (lit "out/www/" ++ rel ++ lit ".hash") f with None => Raise FileNotFoundError | Some contents_hash =>
          match hash_image_settings settings with Raise e => Raise e | Ret hash =>
          match yield_sizes (maximum settings) step iw ih width height fuel with None => Raise OutOfFuel | Some sizes =>
          match export_images symlinks (encode image target) (target_art rel id) (target_out rel id) (join2 (splitext_root rel) (print_Z id)) (formats settings) order sizes produced f with
          | Raise e => Raise e
          | Ret s =>
              let m := {| m_settings_hash := hash; m_source := lit "src/public/" ++ rel; m_width := iw; m_height := ih; m_contents_hash := contents_hash; m_target := target; m_outputs := outputs s |} in
              Ret (m, {| children := [lit "src/public/" ++ rel]; Handlers.produced := made s; reused := [] |}, dset (metadata_path rel id) (store m) (files s))
          end end end end end end
      end
  end.

(** scanner.py 42-87; [id]: what [get_or_reserve_target] returns *)
Definition scan_command (rel : str) (id : Z) (width height : Z) (f : fs) : res scanned :=
  match dget (lit "src/public/" ++ rel) f with None => Raise FileNotFoundError | Some image =>
  match dims image with Raise e => Raise e | Ret (iw, ih) =>
  match yield_sizes (maximum settings) step iw ih width height fuel with None => Raise OutOfFuel | Some sizes =>
    Ret {| dependencies := [lit "src/public/" ++ rel];
           produces := [metadata_path rel id; counter_path rel; placeholder_path rel id; lock_path rel] ++
             flat_map (fun s => flat_map (fun fm => [join2 (target_art rel id) (final_name (fst s) (snd s) (fst fm)); join2 (target_out rel id) (final_name (fst s) (snd s) (fst fm))]) (formats settings)) sizes |}
  end end end.

(** manip.py 81-84 and 106-109 *)
Definition srcset (l : list output) : str := PyStr.join (lit ", ") (map (fun o => lit "/" ++ o_relpath o ++ lit " " ++ print_Z (o_width o) ++ lit "w") l).
(** manip.py 68-115.  [next] on a generator without a match raises StopIteration (92). *)
Definition picture (width height : Z) (lazy : bool) (m : metadata T) : res (list htoken) :=
  match dget (default_format settings) (m_outputs m) with
  | None => Raise KeyError
  | Some l =>
      match find (fun o => (o_width o =? width) && (o_height o =? height)) l with
      | None => Raise StopIteration
      | Some o =>
          Ret ([HStart (lit "picture") []] ++
               flat_map (fun x => if str_eqb (fst x) (default_format settings) then [] else [HEmpty (lit "source") [(lit "srcset", srcset (snd x))]]) (m_outputs m) ++
               [HEmpty (lit "img") ([(lit "width", print_Z width); (lit "height", print_Z height); (lit "src", lit "/" ++ o_relpath o); (lit "srcset", srcset l)] ++
                                    (if lazy then [(lit "loading", lit "lazy")] else []));
                HEnd (lit "picture")])
      end
  end.
End Command.
