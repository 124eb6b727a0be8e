(** C37 (continued), C60, C61, C62: the image commands of a page.
    [exporting … f rel id target w h image iw ih sizes]: with the files [f], the image [rel]
    can be exported for the first time, in [sizes], to folder [id] (ImgBuildSpec.v). *)
From Verif Require Import Base Graph Json PyStr PyPath Handlers Html OutlineData ImgSize ImgSizeSpec ImgSettings ImgExport ImgExportSpec ImgBuildSpec ImgBuildMain ImgBuildReuse ImgBuildExample.
From Coq Require Import String ZArith NArith Bool List Lia.
Import ListNotations.
Open Scope list_scope.
Open Scope Z_scope.

(** the sizes of C37_exact are sizes of images, each once, if a step is at least a pixel *)
Theorem C37_distinct : forall c k dw dh n, 0 < c -> 0 <= k -> 0 < dw -> 0 < dh -> 10 ^ k <= dw * c \/ 10 ^ k <= dh * c -> good_sizes (map (fun i => (ith c k dw i, ith c k dh i)) (seq 0 n)).
Proof. exact sizes_distinct. Qed.
Print Assumptions C37_distinct.
Example C37_distinct_case : 10 ^ 1 <= 101 * 5. Proof. vm_compute. discriminate. Qed.

(** * C60: scanning announces what building does *)
(** the dependencies are the children, and nothing is produced that was not announced *)
Theorem C60_announced : forall T (store : metadata T -> str) load dims symlinks encode settings step order fuel rel id target w h f f' sc m b f2,
  scan_command dims settings step fuel rel id w h f = Ret sc -> dget (lit "src/public/" ++ rel) f' = dget (lit "src/public/" ++ rel) f -> dget (metadata_path rel id) f' = None ->
  export_command store load dims symlinks encode settings step order fuel rel (Some id) target w h f' = Ret (m, b, f2) ->
  children b = dependencies sc /\ reused b = [] /\ forall p, In p (produced b) -> In p (produces sc).
Proof. intros T store load dims symlinks encode settings step order fuel rel id target w h f f' sc m b f2. exact (predicted store load dims symlinks encode settings step order fuel rel id target w h f f' sc m b f2). Qed.
Print Assumptions C60_announced.

(** if every format has an export for every size, all that was announced is produced *)
Theorem C60_exact : forall T (store : metadata T -> str) load dims symlinks encode settings step order fuel f rel id target w h image iw ih sizes f0 sc m b f2,
  exporting dims symlinks encode settings step order fuel f rel id target w h image iw ih sizes ->
  scan_command dims settings step fuel rel id w h f0 = Ret sc -> dget (lit "src/public/" ++ rel) f0 = Some image ->
  export_command store load dims symlinks encode settings step order fuel rel (Some id) target w h f = Ret (m, b, f2) ->
  (forall a c name fm, In (a, c) sizes -> In (name, fm) (formats settings) -> served fm a c) -> forall p, In p (produces sc) <-> In p (produced b).
Proof. intros T store load dims symlinks encode settings step order fuel f rel id target w h image iw ih sizes f0 sc m b f2 X. exact (exact_scan store load dims symlinks encode settings step order fuel f rel id target w h image iw ih sizes X f0 sc m b f2). Qed.
Print Assumptions C60_exact.

(** the export succeeds *)
Theorem C60_succeeds : forall T (store : metadata T -> str) load dims symlinks encode settings step order fuel f rel id target w h image iw ih sizes,
  exporting dims symlinks encode settings step order fuel f rel id target w h image iw ih sizes ->
  dget (lit "out/www/" ++ rel ++ lit ".hash") f <> None -> (exists hash, hash_image_settings settings = Ret hash) ->
  exists m b f2, export_command store load dims symlinks encode settings step order fuel rel (Some id) target w h f = Ret (m, b, f2).
Proof. intros T store load dims symlinks encode settings step order fuel f rel id target w h image iw ih sizes X. exact (succeeds store load dims symlinks encode settings step order fuel f rel id target w h image iw ih sizes X). Qed.
Print Assumptions C60_succeeds.

(** and the files it reports, apart from those scanning made, are there, the same in
    artifacts and in out *)
Theorem C60_present : forall T (store : metadata T -> str) load dims symlinks encode settings step order fuel f rel id target w h image iw ih sizes m b f2,
  exporting dims symlinks encode settings step order fuel f rel id target w h image iw ih sizes ->
  export_command store load dims symlinks encode settings step order fuel rel (Some id) target w h f = Ret (m, b, f2) ->
  (forall p, In p (produced b) -> In p [counter_path rel; placeholder_path rel id; lock_path rel] \/ dget p f2 <> None) /\
  (forall a c name fm, In (a, c) sizes -> In (name, fm) (formats settings) -> served fm a c ->
     exists d, dget (lit "artifacts/" ++ address rel id a c name) f2 = Some d /\ dget (lit "out/www/" ++ address rel id a c name) f2 = Some d).
Proof. intros T store load dims symlinks encode settings step order fuel f rel id target w h image iw ih sizes m b f2 X. exact (present store load dims symlinks encode settings step order fuel f rel id target w h image iw ih sizes X m b f2). Qed.
Print Assumptions C60_present.

Example C60_case : exporting ex_dims true ex_encode ex_settings ex_step (fun l => rev l) 20 ex_files (lit "img/a.png") 1 0 101 90 (lit "png") 500 400 ex_sizes /\
  (exists hash, hash_image_settings ex_settings = Ret hash) /\ dget (lit "out/www/img/a.png.hash") ex_files <> None /\
  (exists sc, scan_command ex_dims ex_settings ex_step 20 (lit "img/a.png") 1 101 90 ex_files = Ret sc /\ length (produces sc) = 16%nat) /\
  exists m b f2, export_command ex_store (fun _ => Raise ValueError) ex_dims true ex_encode ex_settings ex_step (fun l => rev l) 20 (lit "img/a.png") (Some 1) 0 101 90 ex_files = Ret (m, b, f2) /\ length (produced b) = 12%nat.
Proof. split; [exact ex_exporting|]. split; [eexists; vm_compute; reflexivity|]. split; [discriminate|]. split; [eexists; split; vm_compute; reflexivity|]. eexists; eexists; eexists; split; vm_compute; reflexivity. Qed.

(** * C61: the picture element *)
(** The img has the size asked for, and shows the exported image of that size; its srcset
    lists, for a browser, exactly the exported images of the default format with their widths;
    there is a source for each other format that has images, and it lists them. *)
Theorem C61_picture : forall T (store : metadata T -> str) load dims symlinks encode settings step order fuel f rel id target w h image iw ih sizes m b f2 fm lazy,
  exporting dims symlinks encode settings step order fuel f rel id target w h image iw ih sizes -> named_well settings -> unblank (splitext_root rel) ->
  export_command store load dims symlinks encode settings step order fuel rel (Some id) target w h f = Ret (m, b, f2) -> In (w, h) sizes -> In (default_format settings, fm) (formats settings) -> served fm w h ->
  exists sources s, picture settings w h lazy m =
    Ret ([HStart (lit "picture") []] ++ sources ++
         [HEmpty (lit "img") ([(lit "width", print_Z w); (lit "height", print_Z h); (lit "src", lit "/" ++ address rel id w h (default_format settings)); (lit "srcset", s)] ++ (if lazy then [(lit "loading", lit "lazy")] else []));
          HEnd (lit "picture")]) /\
    (forall keep, chooses keep fm -> candidates s = map (url_of rel id (default_format settings)) (filter keep sizes)) /\
    (forall t, In t sources -> exists name fm', In (name, fm') (formats settings) /\ name <> default_format settings /\ source_for rel id sizes name fm' t) /\
    (forall name fm' a c, In (name, fm') (formats settings) -> name <> default_format settings -> In (a, c) sizes -> served fm' a c -> exists t, In t sources /\ source_for rel id sizes name fm' t).
Proof. intros T store load dims symlinks encode settings step order fuel f rel id target w h image iw ih sizes m b f2 fm lazy X NW UB. exact (picture_ok store load dims symlinks encode settings step order fuel f rel id target w h image iw ih sizes X NW UB m b f2 fm lazy). Qed.
Print Assumptions C61_picture.

(** without an export of the default format for the size asked for, building fails *)
Theorem C61_missing : forall T (store : metadata T -> str) load dims symlinks encode settings step order fuel f rel id target w h image iw ih sizes m b f2 lazy,
  exporting dims symlinks encode settings step order fuel f rel id target w h image iw ih sizes ->
  export_command store load dims symlinks encode settings step order fuel rel (Some id) target w h f = Ret (m, b, f2) -> (forall fm, In (default_format settings, fm) (formats settings) -> ~ served fm w h) ->
  picture settings w h lazy m = Raise KeyError \/ picture settings w h lazy m = Raise StopIteration.
Proof. intros T store load dims symlinks encode settings step order fuel f rel id target w h image iw ih sizes m b f2 lazy X. exact (picture_missing store load dims symlinks encode settings step order fuel f rel id target w h image iw ih sizes X m b f2 lazy). Qed.
Print Assumptions C61_missing.

Example C61_case : named_well ex_settings /\ unblank (splitext_root (lit "img/a.png")) /\ In (101, 90) ex_sizes /\
  (exists fm, In (default_format ex_settings, fm) (formats ex_settings) /\ served fm 101 90) /\
  exists m b f2, export_command ex_store (fun _ => Raise ValueError) ex_dims true ex_encode ex_settings ex_step (fun l => rev l) 20 (lit "img/a.png") (Some 1) 0 101 90 ex_files = Ret (m, b, f2) /\
    picture ex_settings 101 90 true m = Ret [HStart (lit "picture") []; HEmpty (lit "source") [(lit "srcset", lit "/img/a/1/101x90.webp 101w, /img/a/1/151x135.webp 151w, /img/a/1/202x180.webp 202w")];
      HEmpty (lit "img") [(lit "width", lit "101"); (lit "height", lit "90"); (lit "src", lit "/img/a/1/101x90.jpeg"); (lit "srcset", lit "/img/a/1/101x90.jpeg 101w"); (lit "loading", lit "lazy")]; HEnd (lit "picture")].
Proof.
  split; [intros name fm [E|[E|[]]]; injection E as <- <-; (split; [unfold unblank; repeat constructor|intros X; repeat (destruct X as [X|X]; [discriminate X|]); exact X])|]. split; [unfold unblank; repeat constructor|]. split; [left; reflexivity|]. split.
  - eexists. split; [right; left; reflexivity|]. eexists. eexists. split; [left; reflexivity|]. split; intros x E; [discriminate E|injection E as <-; vm_compute; discriminate].
  - eexists; eexists; eexists; split; vm_compute; reflexivity.
Qed.

(** A blank in the name of the image breaks the srcset: addresses are not quoted. *)
Theorem C61_blank_refuted : candidates (srcset [{| o_width := 10; o_height := 10; o_relpath := address (lit "img/my cat.png") 1 10 10 (lit "jpeg"); o_choice := [] |}]) = [(lit "/img/my", lit "cat/1/10x10.jpeg 10w")].
Proof. vm_compute. reflexivity. Qed.
Print Assumptions C61_blank_refuted.

(** * C62: an image is exported once *)
(** With the metadata and the artifacts of an export, whatever happened to out, the same
    metadata is found; the same files are reported; what is missing in out is put back from
    the artifacts; nothing else changes but the lock file. *)
Theorem C62_again : forall T (store : metadata T -> str) load dims symlinks encode settings step order fuel f rel id target w h image iw ih sizes m b f2 target' w' h' f3,
  exporting dims symlinks encode settings step order fuel f rel id target w h image iw ih sizes ->
  export_command store load dims symlinks encode settings step order fuel rel (Some id) target w h f = Ret (m, b, f2) -> load (store m) = Ret m ->
  (forall p, starts_with (lit "artifacts/") p = true -> dget p f3 = dget p f2) ->
  exists b' f4, export_command store load dims symlinks encode settings step order fuel rel (Some id) target' w' h' f3 = Ret (m, b', f4) /\ children b' = children b /\
    (forall q, In q (produced b') \/ In q (reused b') <-> In q (produced b)) /\
    (forall q, In q (produced b') -> q = lock_path rel \/ dget q f3 = None) /\
    (forall a c name fm, In (a, c) sizes -> In (name, fm) (formats settings) -> served fm a c ->
       dget (lit "out/www/" ++ address rel id a c name) f4 = match dget (lit "out/www/" ++ address rel id a c name) f3 with Some d => Some d | None => dget (lit "artifacts/" ++ address rel id a c name) f3 end) /\
    (forall q, q <> lock_path rel -> (forall a c name fm, In (a, c) sizes -> In (name, fm) (formats settings) -> served fm a c -> q <> lit "out/www/" ++ address rel id a c name) -> dget q f4 = dget q f3) /\
    ((forall a c name fm, In (a, c) sizes -> In (name, fm) (formats settings) -> served fm a c -> dget (lit "out/www/" ++ address rel id a c name) f3 <> None) ->
     (exists a c name fm, In (a, c) sizes /\ In (name, fm) (formats settings) /\ served fm a c) -> produced b' = [] /\ f4 = f3).
Proof. intros T store load dims symlinks encode settings step order fuel f rel id target w h image iw ih sizes m b f2 target' w' h' f3 X E L. exact (again_ok store load dims symlinks encode settings step order fuel f rel id target w h image iw ih sizes X m b f2 E L target' w' h' f3). Qed.
Print Assumptions C62_again.

(** Its last part applies when building again directly. *)
Theorem C62_idle : forall T (store : metadata T -> str) load dims symlinks encode settings step order fuel f rel id target w h image iw ih sizes m b f2,
  exporting dims symlinks encode settings step order fuel f rel id target w h image iw ih sizes ->
  export_command store load dims symlinks encode settings step order fuel rel (Some id) target w h f = Ret (m, b, f2) -> load (store m) = Ret m ->
  (exists a c name fm, In (a, c) sizes /\ In (name, fm) (formats settings) /\ served fm a c) ->
  exists b', export_command store load dims symlinks encode settings step order fuel rel (Some id) target w h f2 = Ret (m, b', f2) /\ produced b' = [] /\ (forall q, In q (reused b') <-> In q (produced b)).
Proof. intros T store load dims symlinks encode settings step order fuel f rel id target w h image iw ih sizes m b f2 X. exact (idle store load dims symlinks encode settings step order fuel f rel id target w h image iw ih sizes X m b f2). Qed.
Print Assumptions C62_idle.

Example C62_case : exists m b f2 b' f4, export_command ex_store (fun _ => Ret m) ex_dims true ex_encode ex_settings ex_step (fun l => rev l) 20 (lit "img/a.png") (Some 1) 0 101 90 ex_files = Ret (m, b, f2) /\
  export_command ex_store (fun _ => Ret m) ex_dims true ex_encode ex_settings ex_step (fun l => rev l) 20 (lit "img/a.png") (Some 1) 0 101 90 (ddel (lit "out/www/img/a/1/101x90.jpeg") f2) = Ret (m, b', f4) /\
  produced b' = [lit "out/www/img/a/1/101x90.jpeg"] /\ dget (lit "out/www/img/a/1/101x90.jpeg") f4 = Some (repeat 7%N 6).
Proof. eexists; eexists; eexists; eexists; eexists. split; [vm_compute; reflexivity|]. split; [vm_compute; reflexivity|]. split; vm_compute; reflexivity. Qed.
