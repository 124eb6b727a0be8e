(** C64: what is recorded about an image is found again.
    [store_text], [load_text]: metadata.json as written and read; [placeholder_text],
    [load_placeholder]: placeholder.json (ImgMeta.v).  [untouched … f0]: the image is in [f0] and
    was never scanned.  [history … f f']: from [f], any number of scans and builds of pages with
    the image, and anything else that leaves the records and the image alone, leads to [f']. *)
From Coq Require Import String ZArith NArith Bool List Lia.
From Verif Require Import Base Graph Json JsonProofs JsonLoadProofs PyStr PyPath Handlers Html OutlineData ImgSize ImgSizeSpec ImgSettings ImgExport ImgExportSpec ImgBuildSpec ImgBuildMain ImgBuildReuse ImgBuildExample ImgCommand ImgPage ImgMeta ImgMetaSpec ImgMetaProofs ImgMetaExport ImgDiskSpec ImgDiskMain ImgDiskExample.
Import ListNotations.
Open Scope list_scope.
Open Scope Z_scope.

(** * Reading what was written *)
Theorem C64_record : forall m, recordable m -> load_text (store_text m) = Ret m.
Proof. exact record_read. Qed.
Print Assumptions C64_record.
Theorem C64_placeholder : forall t, crop_fit (snd t) -> load_placeholder (placeholder_text t) = Ret t.
Proof. exact placeholder_read. Qed.
Print Assumptions C64_placeholder.
(** every first export is recordable: of the size asked for, under the settings, of the image *)
Theorem C64_recordable : forall (store : metadata target -> str) load dims symlinks encode settings step order fuel rel id t w h f m b f2,
  dget (metadata_path rel id) f = None -> export_command store load dims symlinks encode settings step order fuel rel (Some id) t w h f = Ret (m, b, f2) ->
  json_safe rel -> safe_settings settings -> crop_fit (snd t) -> (forall hash, dget (lit "out/www/" ++ rel ++ lit ".hash") f = Some hash -> json_safe hash) ->
  recordable m /\ m_target m = t /\ hash_image_settings settings = Ret (m_settings_hash m) /\ dget (lit "out/www/" ++ rel ++ lit ".hash") f = Some (m_contents_hash m) /\ m_source m = lit "src/public/" ++ rel.
Proof. intros store load dims symlinks encode settings step order fuel rel id t w h f m b f2 N E A B C D. destruct (exported_recordable store load dims symlinks encode settings step order fuel rel id t w h f m b f2 N E A B C D) as (R1 & R2 & R3 & R4 & R5 & _). auto 8. Qed.
Print Assumptions C64_recordable.
(** the crop settings of every command of a page are such *)
Theorem C64_command : forall int_high args c l, Forall scalar args -> parse_command int_high args = Ret c -> crop_settings (c_args c) = Ret l -> crop_fit l.
Proof. intros int_high args c l F P. exact (kept_args (c_args c) l (command_kept int_high args c F P)). Qed.
Print Assumptions C64_command.
Example C64_command_case : exists c l, parse_command (fun _ => None) (lit "a.png 101 90 cover {""pre_top_crop"": 5}") = Ret c /\ crop_settings (c_args c) = Ret l /\ l = dk_crop.
Proof. eexists; eexists; split; [vm_compute; reflexivity|]. split; vm_compute; reflexivity. Qed.

(** * C62 with these files: no assumption about reading remains *)
Theorem C64_again : forall dims symlinks encode settings step order fuel f rel id target w h image iw ih sizes m b f2 target' w' h' f3,
  exporting dims symlinks encode settings step order fuel f rel id target w h image iw ih sizes -> json_safe rel -> safe_settings settings -> crop_fit (snd target) -> (forall hash, dget (lit "out/www/" ++ rel ++ lit ".hash") f = Some hash -> json_safe hash) ->
  export_command store_text load_text dims symlinks encode settings step order fuel rel (Some id) target w h f = Ret (m, b, f2) ->
  (forall p, starts_with (lit "artifacts/") p = true -> dget p f3 = dget p f2) ->
  exists b' f4, export_command store_text load_text dims symlinks encode settings step order fuel rel (Some id) target' w' h' f3 = Ret (m, b', f4) /\ children b' = children b /\
    (forall q, In q (produced b') \/ In q (reused b') <-> In q (produced b)) /\
    (forall a c name fm, In (a, c) sizes -> In (name, fm) (formats settings) -> served fm a c ->
       dget (lit "out/www/" ++ address rel id a c name) f4 = match dget (lit "out/www/" ++ address rel id a c name) f3 with Some d => Some d | None => dget (lit "artifacts/" ++ address rel id a c name) f3 end).
Proof.
  intros dims symlinks encode settings step order fuel f rel id t w h image iw ih sizes m b f2 t' w' h' f3 X A B C D E F.
  destruct (exported_recordable store_text load_text dims symlinks encode settings step order fuel rel id t w h f m b f2 (x_new _ _ _ _ _ _ _ _ _ _ _ _ _ _ _ _ _ X) E A B C D) as (R & _).
  destruct (again_ok store_text load_text dims symlinks encode settings step order fuel f rel id t w h image iw ih sizes X m b f2 E (record_read m R) t' w' h' f3 F) as (b' & f4 & G1 & G2 & G3 & _ & G5 & _). exists b', f4. auto.
Qed.
Print Assumptions C64_again.

(** * Over time *)
Section Time.
Context (hash : str -> str) (dims : str -> res (Z * Z)) (symlinks : bool) (encode : str -> target -> Z -> Z -> str -> list (str * kval) -> res str) (settings : image_settings) (step : dec) (fuel : nat) (rel : str) (f0 : fs).
Notation history := (history hash dims symlinks encode settings step fuel rel).
Notation get_or_reserve scandir := (get_or_reserve_target scandir hash (hash_image_settings settings) rel).
Notation get scandir := (get_target scandir hash (hash_image_settings settings) rel).
Notation export order := (export_command store_text load_text dims symlinks encode settings step order fuel rel).
(** scanning always finds or reserves a number *)
Theorem C64_scan : untouched hash settings rel f0 -> forall f scandir t, history f0 f -> lists scandir -> crop_fit (snd t) -> exists id f', get_or_reserve scandir t f = Ret (id, f') /\ 0 < id.
Proof. exact (scan_works hash dims symlinks encode settings step fuel rel f0). Qed.
(** and the same number ever after, in whatever order folders are listed *)
Theorem C64_stable : untouched hash settings rel f0 -> forall scandir scandir' t id f f1 f2, lists scandir -> lists scandir' -> crop_fit (snd t) ->
  history f0 f -> get_or_reserve scandir t f = Ret (id, f1) -> history f1 f2 -> exists f3, get scandir' t f2 = Ret (Some id, f3) /\ get_or_reserve scandir' t f2 = Ret (id, f3).
Proof. exact (found_again hash dims symlinks encode settings step fuel rel f0). Qed.
(** different crops and sizes get different numbers *)
Theorem C64_distinct : untouched hash settings rel f0 -> forall scandir scandir' t t' id id' f f1 f2 f3, lists scandir -> lists scandir' -> crop_fit (snd t) -> crop_fit (snd t') ->
  history f0 f -> get_or_reserve scandir t f = Ret (id, f1) -> history f1 f2 -> get_or_reserve scandir' t' f2 = Ret (id', f3) -> t <> t' -> id <> id'.
Proof. exact (apart_numbers hash dims symlinks encode settings step fuel rel f0). Qed.
(** a build after a build finds its record *)
Theorem C64_once : untouched hash settings rel f0 -> forall scandir scandir' order order' t w h w' h' id f f1 m b f2 f3 id' f4 m' b' f5,
  lists scandir -> lists scandir' -> any_order order -> any_order order' -> crop_fit (snd t) -> history f0 f ->
  get scandir t f = Ret (id, f1) -> export order id t w h f1 = Ret (m, b, f2) -> history f2 f3 ->
  get scandir' t f3 = Ret (id', f4) -> export order' id' t w' h' f4 = Ret (m', b', f5) -> id' = id /\ m' = m /\ m_target m = t.
Proof. exact (build_once hash dims symlinks encode settings step fuel rel f0). Qed.
(** and a build after a scan uses the number announced, so that C60 applies: without an earlier
    export, what is produced was announced *)
Theorem C64_announced : untouched hash settings rel f0 -> forall scandir scandir' order t w h id f f1 sc f2 id' f3 m b f4,
  lists scandir -> lists scandir' -> crop_fit (snd t) -> history f0 f ->
  get_or_reserve scandir t f = Ret (id, f1) -> scan_command dims settings step fuel rel id w h f1 = Ret sc -> history f1 f2 ->
  get scandir' t f2 = Ret (id', f3) -> dget (lit "src/public/" ++ rel) f3 = dget (lit "src/public/" ++ rel) f1 -> dget (metadata_path rel id) f3 = None ->
  export order id' t w h f3 = Ret (m, b, f4) -> children b = dependencies sc /\ reused b = [] /\ forall p, In p (produced b) -> In p (produces sc).
Proof.
  intros Un scandir scandir' order t w h id f f1 sc f2 id' f3 m b f4 L L' C H E S H2 G I N B. destruct (found_again hash dims symlinks encode settings step fuel rel f0 Un scandir scandir' t id f f1 f2 L L' C H E H2) as (g & G' & _). assert (id' = Some id) as -> by congruence.
  exact (predicted store_text load_text dims symlinks encode settings step order fuel rel id t w h f1 f3 sc m b f4 S I N B).
Qed.
End Time.
Print Assumptions C64_scan.
Print Assumptions C64_stable.
Print Assumptions C64_distinct.
Print Assumptions C64_once.
Print Assumptions C64_announced.
(** two crops of an image, scanned, found, exported, found again and built again *)
Example C64_case : untouched dk_hash ex_settings dk_rel dk_files /\ crop_fit (snd dk_target) /\ crop_fit (snd dk_target2) /\ dk_target <> dk_target2 /\ dk_check = true.
Proof. split; [exact dk_untouched|]. pose proof dk_fit as (A & B & C). split; [exact A|]. split; [exact B|]. split; [exact C|]. vm_compute. reflexivity. Qed.

(** looking up and reserving leave the sources alone, as C59_agree asks *)
Theorem C64_sources : forall scandir hash settings rel t (f f' : fs), usable rel ->
  (forall id, get_or_reserve_target scandir hash settings rel t f = Ret (id, f') -> forall p, dget (lit "src/" ++ p) f' = dget (lit "src/" ++ p) f) /\
  (forall id, get_target scandir hash settings rel t f = Ret (id, f') -> forall p, dget (lit "src/" ++ p) f' = dget (lit "src/" ++ p) f).
Proof. intros scandir hash settings rel t f f' U. split; intros id E; [exact (lookup_sources scandir hash settings rel t f id f' U E)|exact (get_sources scandir hash settings rel t f id f' U E)]. Qed.
Print Assumptions C64_sources.

(** * Interrupted writes *)
(** A record or placeholder cut short anywhere is refused, *)
Theorem C64_torn : forall m t p q, q <> [] -> (recordable m -> store_text m = p ++ q -> load_text p = Raise ValueError) /\ (crop_fit (snd t) -> placeholder_text t = p ++ q -> load_placeholder p = Raise ValueError).
Proof. intros m t p q N. split; [intros R E; exact (record_torn m p q R E N)|intros R E; exact (placeholder_torn t p q R E N)]. Qed.
Print Assumptions C64_torn.
(** and such a placeholder stops the search for any other crop or size: no number is ever
    reserved again for the image until the folder is removed by hand. *)
Theorem C64_torn_stops : forall scandir hash settings rel t (f : fs) name p q t', usable rel -> lists scandir -> dget (lit "src/public/" ++ rel) f <> None -> ~ In 47%N name -> name <> [] -> crop_fit (snd t') ->
  dget (lit "artifacts/" ++ splitext_root rel ++ lit "/" ++ name ++ lit "/metadata.json") f = None ->
  dget (lit "artifacts/" ++ splitext_root rel ++ lit "/" ++ name ++ lit "/placeholder.json") f = Some p -> placeholder_text t' = p ++ q -> q <> [] ->
  forall f', get_target scandir hash settings rel t f <> Ret (None, f').
Proof. exact torn_stops. Qed.
Print Assumptions C64_torn_stops.
Example C64_torn_case : exists p q, placeholder_text dk_target = p ++ q /\ q <> [] /\ dk_reserve dk_target2 (dset (lit "artifacts/img/a/1/placeholder.json") p dk_files) = Raise ValueError.
Proof. exists (firstn 20 (placeholder_text dk_target)), (skipn 20 (placeholder_text dk_target)). split; [symmetry; apply firstn_skipn|]. split; [vm_compute; discriminate|]. vm_compute. reflexivity. Qed.

(** * Changes *)
(** A record of an earlier version of the image, under the same settings, stops it as well. *)
Theorem C64_edited_stops : forall scandir hash sh ch rel t (f : fs) name m, usable rel -> lists scandir -> contents_hash hash rel f = Some ch -> ~ In 47%N name -> name <> [] ->
  dget (lit "artifacts/" ++ splitext_root rel ++ lit "/" ++ name ++ lit "/metadata.json") f = Some (store_text m) -> recordable m -> m_settings_hash m = sh -> m_contents_hash m <> ch ->
  forall f', get_target scandir hash (Ret sh) rel t f <> Ret (None, f').
Proof. exact edited_stops. Qed.
Print Assumptions C64_edited_stops.
Example C64_edited_case : exists f1 m b f2, dk_reserve dk_target dk_files = Ret (1, f1) /\ dk_export (Some 1) dk_target f1 = Ret (m, b, f2) /\ dk_reserve dk_target (dset (lit "out/www/img/a.png.hash") (lit "new") f2) = Raise TypeError.
Proof. eexists; eexists; eexists; eexists. split; [vm_compute; reflexivity|]. split; [vm_compute; reflexivity|]. vm_compute. reflexivity. Qed.
(** If the settings change while pages are scanned and built, numbers are not stable: after a
    change that was scanned and undone, the number depends on the order of the listing. *)
Theorem C64_settings_refuted : exists f g h, dk_undone = Ret f /\ get_target (fun l => l) dk_hash (hash_image_settings ex_settings) dk_rel dk_target f = Ret (Some 1, g) /\ get_target (fun l => rev l) dk_hash (hash_image_settings ex_settings) dk_rel dk_target f = Ret (Some 2, h).
Proof. exact dk_order. Qed.
Print Assumptions C64_settings_refuted.
