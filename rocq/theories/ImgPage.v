(** build/html/manips/images: a page, with the scanner and exporter of ImgExport.v. *)
From Verif Require Import Base Graph Json PyStr PyPath PyNorm Builder Handlers Html OutlineData ImgSize ImgSettings ImgExport ImgCommand.
From Coq Require Import String ZArith NArith Bool List.
Import ListNotations.
Open Scope list_scope.
Open Scope Z_scope.

(** metadata.py 90-105: width, height and crop settings; the style is always "cover" *)
Definition target : Type := Z * Z * list (str * json).
Section Page.
Context (int_high : str -> option Z) (cwd folder page : str) (dims : str -> res (option (Z * Z))).
Context (store : metadata target -> str) (load : str -> res (metadata target)) (symlinks : bool) (encode : str -> target -> Z -> Z -> str -> list (str * kval) -> res str) (settings : image_settings) (step : dec) (order : list job -> list job) (fuel : nat).
(** [reserve], [find_target]: get_or_reserve_target and get_target, see ImgTarget.v; what they
    do to files is left open *)
Context (reserve : str -> target -> fs -> res (Z * fs)) (find_target : str -> target -> fs -> res (option Z * fs)).
(** opening an image in exporter.py and scanner.py; RuntimeError stands for UnidentifiedImageError *)
Definition must_open (image : str) : res (Z * Z) := match dims image with Raise e => Raise e | Ret None => Raise RuntimeError | Ret (Some d) => Ret d end.
(** exporter.py 55-60, scanner.py 32-37 *)
Definition public_path (c : command) : str := skipn 11 (source_path cwd folder page (c_path c)).
(** exporter.py 62-68, scanner.py 39-45 *)
Definition target_of (c : command) : res target := match crop_settings (c_args c) with Raise e => Raise e | Ret l => Ret (c_width c, c_height c, l) end.
(** scanner.py 32-92 *)
Definition scan_one (c : command) (f : fs) : res (scanned * fs) :=
  match target_of c with Raise e => Raise e | Ret t =>
  match reserve (public_path c) t f with Raise e => Raise e | Ret (id, f) =>
  match scan_command must_open settings step fuel (public_path c) id (c_width c) (c_height c) f with Raise e => Raise e | Ret sc => Ret (sc, f) end end end.
(** exporter.py 55-321 *)
Definition export_one (c : command) (f : fs) : res (metadata target * Handlers.built * fs) :=
  match target_of c with Raise e => Raise e | Ret t =>
  match find_target (public_path c) t f with Raise e => Raise e | Ret (id, f) =>
    export_command store load must_open symlinks encode settings step order fuel (public_path c) id t (c_width c) (c_height c) f end end.
(** manip.py 68-115 *)
Definition show_one (c : command) (m : metadata target) : res (list htoken) := picture settings (c_width c) (c_height c) (c_lazy c) m.
(** manip.py, with html/manipulate_and_serialize.py *)
Definition page_images (scan : bool) : manip htoken pstate := images int_high cwd folder page dims scan_one export_one show_one scan.
Definition new_page (f : fs) : builder htoken pstate := new_builder {| p_files := f; p_seen := []; p_made := []; p_reused := [] |}.
End Page.
