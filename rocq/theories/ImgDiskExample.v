(** An image with two sizes, scanned and built: for the examples of C64. *)
From Verif Require Import Base Graph Json JsonProofs HtmlTemplate PyPath Handlers OutlineData ImgSize ImgSettings ImgSettingsSpec ImgExport ImgExportSpec ImgBuildSpec ImgBuildExample ImgCommand ImgPage ImgTarget ImgMeta ImgMetaSpec ImgMetaProofs ImgMetaExport ImgDiskSpec.
From Coq Require Import String ZArith NArith Bool List Lia Permutation.
Import ListNotations.
Open Scope list_scope.
Open Scope Z_scope.
Definition dk_rel : str := lit "img/a.png".
Definition dk_hash (s : str) : str := lit "h".
Definition dk_encode (image : str) (t : target) (w h : Z) (name : str) (k : list (str * kval)) : res str := ex_encode image 0 w h name k.
Definition dk_files : fs := [(lit "src/public/img/a.png", lit "png"); (lit "out/www/img/a.png.hash", lit "h")].
Definition dk_crop : list (str * json) := match crop_settings [(lit "pre_top_crop", JNum (lit "5"))] with Ret l => l | Raise _ => [] end.
Definition dk_crop2 : list (str * json) := match crop_settings [] with Ret l => l | Raise _ => [] end.
Definition dk_target : target := (101, 90, dk_crop).
Definition dk_target2 : target := (101, 90, dk_crop2).
Definition dk_reserve (t : target) (f : fs) : res (Z * fs) := get_or_reserve_target (fun l => rev l) dk_hash (hash_image_settings ex_settings) dk_rel t f.
Definition dk_get (t : target) (f : fs) : res (option Z * fs) := get_target (fun l => l) dk_hash (hash_image_settings ex_settings) dk_rel t f.
Definition dk_export (id : option Z) (t : target) (f : fs) := export_command store_text load_text ex_dims true dk_encode ex_settings ex_step (fun l => rev l) 20 dk_rel id t 101 90 f.
Lemma dk_fit : crop_fit dk_crop /\ crop_fit dk_crop2 /\ dk_target <> dk_target2.
Proof.
  split; [|split].
  - apply (kept_args [(lit "pre_top_crop", JNum (lit "5"))]); [apply Forall_cons; [exact (kept_num 5)|apply Forall_nil]|vm_compute; reflexivity].
  - apply (kept_args []); [apply Forall_nil|vm_compute; reflexivity].
  - intros E. apply target_eqb_eq in E. vm_compute in E. discriminate E.
Qed.
Lemma dk_untouched : untouched dk_hash ex_settings dk_rel dk_files.
Proof.
  constructor.
  - split; [exists 105%N; eexists; split; [vm_compute; reflexivity|discriminate]|vm_compute; discriminate].
  - apply safe_lit; reflexivity.
  - intros name fm [E|[E|[]]]; injection E as <- <-; (split; [apply safe_lit; reflexivity|]); cbn [exports]; intros n e I; repeat (destruct I as [I|I]; [injection I as <- _; apply safe_lit; reflexivity|]); destruct I.
  - intros fn fm en e kn v I J K. destruct I as [I|[I|[]]]; injection I as <- <-; cbn [exports] in J; repeat (destruct J as [J|J]; [injection J as <- <-; cbn [kwargs ex_export] in K; destruct K as [K|[]]; injection K as <- <-; discriminate|]); destruct J.
  - exists (lit "h"). split; [reflexivity|apply safe_lit; reflexivity].
  - intros p R. destruct R; reflexivity.
Qed.
Definition dk_check : bool :=
  match dk_reserve dk_target dk_files with
  | Ret (1, f1) =>
      match dk_reserve dk_target2 f1 with
      | Ret (2, f2) =>
          match dk_get dk_target f2 with
          | Ret (Some 1, f3) =>
              match dk_export (Some 1) dk_target f3 with
              | Ret (m, _, f4) => match dk_get dk_target f4, dk_reserve dk_target2 f4 with Ret (Some 1, f5), Ret (2, _) => match dk_export (Some 1) dk_target f5 with Ret (m', _, _) => (length (m_outputs m) =? 2)%nat && str_eqb (store_text m) (store_text m') | _ => false end | _, _ => false end
              | _ => false end
          | _ => false end
      | _ => false end
  | _ => false end.
(** the settings are changed, the page is scanned, and the change is undone *)
Definition dk_settings : image_settings := {| formats := formats ex_settings; default_format := default_format ex_settings; maximum := 3; step_text := step_text ex_settings |}.
Definition dk_undone : res fs :=
  match dk_reserve dk_target dk_files with Raise e => Raise e | Ret (id, f1) =>
  match dk_export (Some id) dk_target f1 with Raise e => Raise e | Ret (_, _, f2) =>
  match get_or_reserve_target (fun l => rev l) dk_hash (hash_image_settings dk_settings) dk_rel dk_target f2 with Raise e => Raise e | Ret (_, f3) => Ret f3 end end end.
Lemma dk_order : exists f g h, dk_undone = Ret f /\ get_target (fun l => l) dk_hash (hash_image_settings ex_settings) dk_rel dk_target f = Ret (Some 1, g) /\ get_target (fun l => rev l) dk_hash (hash_image_settings ex_settings) dk_rel dk_target f = Ret (Some 2, h).
Proof. eexists. eexists. eexists. split; [vm_compute; reflexivity|]. split; vm_compute; reflexivity. Qed.
