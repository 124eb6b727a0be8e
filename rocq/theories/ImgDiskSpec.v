(** Vocabulary for what happens to the folder of an image. *)
From Verif Require Import Base Graph Json JsonProofs PyPath Handlers OutlineData ImgSize ImgSettings ImgSettingsSpec ImgExport ImgExportSpec ImgBuildSpec ImgCommand ImgPage ImgMeta ImgMetaSpec.
From Coq Require Import String ZArith NArith Bool List Permutation.
Import ListNotations.
Open Scope list_scope.
Open Scope Z_scope.

(** a file with a record: the counter, or what is known about a numbered folder *)
Inductive record_file (rel : str) : str -> Prop :=
| RCounter : record_file rel (lit "artifacts/" ++ splitext_root rel ++ lit "/counter.txt")
| RMetadata name : ~ In 47%N name -> record_file rel (lit "artifacts/" ++ splitext_root rel ++ lit "/" ++ name ++ lit "/metadata.json")
| RPlaceholder name : ~ In 47%N name -> record_file rel (lit "artifacts/" ++ splitext_root rel ++ lit "/" ++ name ++ lit "/placeholder.json").
(** the hash of the image: as found in out, or computed *)
Definition contents_hash (hash : str -> str) (rel : str) (f : fs) : option str :=
  match dget (lit "src/public/" ++ rel) f with None => None | Some image => Some (match dget (lit "out/www/" ++ rel ++ lit ".hash") f with Some h => h | None => hash image end) end.
(** [os.scandir] lists in any order *)
Definition lists (scandir : list str -> list str) : Prop := forall l, Permutation l (scandir l).

Section History.
Context (hash : str -> str) (dims : str -> res (Z * Z)) (symlinks : bool) (encode : str -> target -> Z -> Z -> str -> list (str * kval) -> res str) (settings : image_settings) (step : dec) (fuel : nat) (rel : str).
(** What may happen while the image and the settings stay as they are: a page with the image is
    scanned; a page is built; anything else happens to any other files, such as an interrupted
    export, another image, or cleaning. *)
Inductive happens : fs -> fs -> Prop :=
| Scans scandir t id f f' : lists scandir -> crop_fit (snd t) -> get_or_reserve_target scandir hash (hash_image_settings settings) rel t f = Ret (id, f') -> happens f f'
| Builds scandir order t w h id f f1 m b f' : lists scandir -> any_order order -> crop_fit (snd t) -> get_target scandir hash (hash_image_settings settings) rel t f = Ret (id, f1) ->
    export_command store_text load_text dims symlinks encode settings step order fuel rel id t w h f1 = Ret (m, b, f') -> happens f f'
| Other f f' : (forall p, record_file rel p -> dget p f' = dget p f) -> contents_hash hash rel f' = contents_hash hash rel f -> happens f f'.
Inductive history : fs -> fs -> Prop :=
| Nothing f : history f f
| More f f' f'' : history f f' -> happens f' f'' -> history f f''.
(** an image that was never exported, with names that can be written as text *)
Record untouched (f : fs) : Prop := {
  u_usable : usable rel;
  u_rel : json_safe rel;
  u_settings : safe_settings settings;
  u_plain : plain_settings settings;
  u_hash : exists h, contents_hash hash rel f = Some h /\ json_safe h;
  u_none : forall p, record_file rel p -> dget p f = None
}.
End History.
