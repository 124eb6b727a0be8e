(** Vocabulary for the records of images. *)
From Verif Require Import Base Graph Json JsonProofs Html HtmlTemplate ImgSettings ImgExport ImgCommand ImgPage.
From Coq Require Import String ZArith NArith Bool List.
Import ListNotations.
Open Scope list_scope.

(** the six crop settings, in order, with values json can hold ([kept]: HtmlTemplate.v; no
    character above U+10FFFF, no surrogates that would merge, no key twice) *)
Definition crop_fit (l : list (str * json)) : Prop :=
  map fst l = [lit "pre_top_crop"; lit "pre_left_crop"; lit "pre_right_crop"; lit "pre_bottom_crop"; lit "crop_left_percentage"; lit "crop_top_percentage"] /\
  Forall (fun kv => kept (snd kv)) l.
(** a record of an exported image, with names that can be written as text *)
Record recordable (m : metadata target) : Prop := {
  rc_source : json_safe (m_source m);
  rc_hash : json_safe (m_contents_hash m);
  rc_crop : crop_fit (snd (m_target m));
  rc_formats : NoDup (map fst (m_outputs m));
  rc_outputs : forall name l o, In (name, l) (m_outputs m) -> json_safe name /\ (In o l -> json_safe (o_relpath o) /\ json_safe (o_choice o))
}.
(** names of formats and of their exports that can be written as text *)
Definition safe_settings (s : image_settings) : Prop := forall name fm, In (name, fm) (formats s) -> json_safe name /\ forall n e, In (n, e) (exports fm) -> json_safe n.
