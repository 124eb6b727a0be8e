(** Vocabulary for the image commands of a page. *)
From Verif Require Import Base Graph Json PyStr PyPath Handlers Html OutlineData ImgSize ImgSettings ImgExport ImgExportSpec.
From Coq Require Import String ZArith NArith Bool List.
Import ListNotations.
Open Scope list_scope.

(** ** What a browser makes of a srcset (HTML standard, "parse a srcset attribute", without
    the parentheses in descriptors): the urls with their descriptors *)
Definition blank (c : N) : bool := ((c =? 9) || (c =? 10) || (c =? 12) || (c =? 13) || (c =? 32))%N.
Fixpoint skip (p : N -> bool) (s : str) : str := match s with c :: r => if p c then skip p r else s | [] => [] end.
Fixpoint upto (p : N -> bool) (s : str) : str * str := match s with [] => ([], []) | c :: r => if p c then ([], s) else let (a, b) := upto p r in (c :: a, b) end.
Definition trim (p : N -> bool) (s : str) : str := rev (skip p (rev s)).
Definition comma (c : N) : bool := (c =? 44)%N.
Fixpoint read_srcset (fuel : nat) (s : str) : list (str * str) :=
  match fuel with
  | O => []
  | S k =>
      match skip (fun c => blank c || comma c) s with
      | [] => []
      | s =>
          let (url, r) := upto blank s in
          if comma (last url 0%N) then (trim comma url, []) :: read_srcset k r
          else let (d, r) := upto comma r in (url, trim blank (skip blank d)) :: read_srcset k r
      end
  end.
Definition candidates (s : str) : list (str * str) := read_srcset (S (length s)) s.

Open Scope Z_scope.
(** "img/a" for "img/a.png": not empty, relative, and not a folder *)
Definition usable (rel : str) : Prop := (exists c r, splitext_root rel = c :: r /\ c <> 47%N) /\ last (splitext_root rel) 0%N <> 47%N.
Definition unblank (s : str) : Prop := Forall (fun c => blank c = false) s.
(** the address of an exported image *)
Definition address (rel : str) (id w h : Z) (format : str) : str := splitext_root rel ++ lit "/" ++ print_Z id ++ lit "/" ++ print_Z w ++ lit "x" ++ print_Z h ++ lit "." ++ format.
(** the configured formats have names that are fine in a srcset *)
Definition named_well (settings : image_settings) : Prop := forall name fm, In (name, fm) (formats settings) -> unblank name /\ ~ In 44%N name.

Section Build.
Context {T : Type} (dims : str -> res (Z * Z)) (symlinks : bool) (encode : str -> T -> Z -> Z -> str -> list (str * kval) -> res str) (settings : image_settings) (step : dec) (order : list job -> list job) (fuel : nat).
(** image [rel] of size [iw] x [ih] can be exported in [sizes] to folder [id], for the first time *)
Record exporting (f : fs) (rel : str) (id : Z) (target : T) (w h : Z) (image : str) (iw ih : Z) (sizes : list (Z * Z)) : Prop := {
  x_usable : usable rel;
  x_id : 0 < id;
  x_image : dget (lit "src/public/" ++ rel) f = Some image;
  x_dims : dims image = Ret (iw, ih);
  x_sizes : yield_sizes (maximum settings) step iw ih w h fuel = Some sizes;
  x_new : dget (metadata_path rel id) f = None;
  x_formats : good_formats (formats settings);
  x_order : any_order order;
  x_good : good_sizes sizes;
  x_wf : dict_wf f;
  x_encodes : encodes (encode image target) (formats settings) sizes;
  x_free : free symlinks (target_out rel id) (formats settings) sizes f
}.
End Build.
(** the sizes of a format that some export is meant for *)
Definition chooses (keep : Z * Z -> bool) (fm : image_format) : Prop := forall w h, keep (w, h) = true <-> served fm w h.
(** a url of a srcset, with its width *)
Definition url_of (rel : str) (id : Z) (name : str) (x : Z * Z) : str * str := (lit "/" ++ address rel id (fst x) (snd x) name, print_Z (fst x) ++ lit "w").
(** the source element for a format: its srcset lists the sizes some export is meant for *)
Definition source_for (rel : str) (id : Z) (sizes : list (Z * Z)) (name : str) (fm : image_format) (t : htoken) : Prop :=
  exists s, t = HEmpty (lit "source") [(lit "srcset", s)] /\ forall keep, chooses keep fm -> candidates s = map (url_of rel id name) (filter keep sizes).
