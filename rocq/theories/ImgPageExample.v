(** Image commands: a page to try the theorems on. *)
From Coq Require Import String ZArith NArith Bool List Permutation.
From Verif Require Import Base Graph Json PyStr PyPath PyNorm Builder Handlers Html ImgSize ImgSettings ImgExport ImgExportSpec ImgCommand ImgPage ImgCommandSpec ImgBuildExample.
Import ListNotations.
Open Scope list_scope.
Open Scope Z_scope.

Definition px_int (s : str) : option Z := None.
Definition px_dims (image : str) : res (option (Z * Z)) := Ret (if str_eqb image (lit "png") then Some (500, 400) else None).
Definition px_encode (image : str) (t : target) (w h : Z) (name : str) (k : list (str * kval)) : res str := ex_encode image 0 w h name k.
Definition px_reserve (rel : str) (t : target) (f : fs) : res (Z * fs) := Ret (1, f).
Definition px_find (rel : str) (t : target) (f : fs) : res (option Z * fs) := Ret (Some 1, f).
Definition px_page : str := lit "src/public/a/b.html".
Definition px_images (scan : bool) : manip htoken pstate :=
  page_images px_int (lit "/home") (lit "/site") px_page px_dims (fun _ => lit "{}") (fun _ => Raise ValueError) true px_encode ex_settings ex_step (fun l => rev l) 20 px_reserve px_find scan.
Definition px_command (c : command) : htoken -> fs -> Prop := fun t f => image_command px_int (lit "/home") (lit "/site") px_page px_dims t f c.
Definition px_text : str := lit " [IMAGE: ../img/a.png 101 90 cover {""pre_top_crop"": 5}] ".
Definition px_cmd : command := {| c_path := lit "../img/a.png"; c_width := 101; c_height := 90; c_args := [(lit "pre_top_crop", JNum (lit "5"))]; c_lazy := true |}.
Definition px_tokens : list htoken := [HStart (lit "p") []; HComment px_text; HEnd (lit "p")].
Definition px_pump (scan : bool) : res (list htoken * builder htoken pstate) := pump [px_images scan] 40 px_tokens (new_page ex_files).
