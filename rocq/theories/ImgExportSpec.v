(** Vocabulary for exported images. *)
From Verif Require Import Base Graph Json PyPath Handlers ImgSize ImgSettings ImgExport.
From Coq Require Import String ZArith NArith Bool List Permutation.
Import ListNotations.
Open Scope list_scope.
Open Scope Z_scope.

(** an export is meant for images of this area *)
Definition applicable (e : image_export) (w h : Z) : Prop := (forall m, min_area e = Some m -> m <= w * h) /\ (forall m, max_area e = Some m -> w * h <= m).
(** some export of the format is meant for images of this area *)
Definition served (fm : image_format) (w h : Z) : Prop := exists n e, In (n, e) (exports fm) /\ applicable e w h.
(** export [e] with contents [d] is at least as good as [e'] with contents [d']: its size per
    preference is not larger, where files smaller than the unit size count as that size *)
Definition no_worse (unit : Z) (e : image_export) (d : str) (e' : image_export) (d' : str) : Prop :=
  Z.max (Z.of_nat (length d)) unit * preference e' <= Z.max (Z.of_nat (length d')) unit * preference e.
(** the configured formats: dictionaries, the names of formats without dots, preferences positive *)
Definition good_formats (formats : list (str * image_format)) : Prop :=
  dict_wf formats /\ forall name fm, In (name, fm) formats -> ~ In 46%N name /\ dict_wf (exports fm) /\ forall n e, In (n, e) (exports fm) -> 0 < preference e.
(** sizes of images, each once *)
Definition good_sizes (sizes : list (Z * Z)) : Prop := NoDup sizes /\ Forall (fun s => 0 < fst s /\ 0 < snd s) sizes.
(** the folders of an image in artifacts and in out *)
Definition apart (art out : str) : Prop := starts_with (lit "artifacts") art = true /\ starts_with (lit "out") out = true.
(** the file kept in folder [dir] for a size and format, and the one of a single export *)
Definition kept_file (dir : str) (w h : Z) (format : str) : str := join2 dir (final_name w h format).
Definition trial_file (dir : str) (w h : Z) (export format : str) : str := join2 dir (temp_name w h export format).
(** every order in which the processes of the pool may finish *)
Definition any_order (order : list job -> list job) : Prop := forall l, Permutation l (order l).
(** encoding never fails for what is exported *)
Definition encodes (encode : Z -> Z -> str -> list (str * kval) -> res str) (formats : list (str * image_format)) (sizes : list (Z * Z)) : Prop :=
  forall w h name fm n e, In (w, h) sizes -> In (name, fm) formats -> In (n, e) (exports fm) -> applicable e w h -> exists d, encode w h name (kwargs e) = Ret d.
(** a symbolic link is not made where a file is *)
Definition free (symlinks : bool) (out : str) (formats : list (str * image_format)) (sizes : list (Z * Z)) (f : fs) : Prop :=
  symlinks = true -> forall w h name fm, In (w, h) sizes -> In (name, fm) formats -> dget (kept_file out w h name) f = None.
(** the outputs recorded for a format *)
Definition recorded (name : str) (s : progress) : list output := match dget name (outputs s) with None => [] | Some l => l end.
(** the same formats, with their exports listed in another order *)
Definition reordered (fs fs' : list (str * image_format)) : Prop :=
  Forall2 (fun f f' => fst f = fst f' /\ unit_size (snd f) = unit_size (snd f') /\ Permutation (exports (snd f)) (exports (snd f'))) fs fs'.
