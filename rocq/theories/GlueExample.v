(** images.json: a file to try the theorems on. *)
From Coq Require Import String ZArith NArith QArith Bool List Permutation.
From Verif Require Import Base Graph Json JsonProofs JsonReads PyStr PyPath PyNorm Builder Handlers Html HtmlTemplate ImgSize ImgSettings ImgExport ImgExportSpec ImgCommand ImgPage ImgCommandSpec ImgBuildExample ImgPageExample Glue GlueSpec.
Import ListNotations.
Open Scope list_scope.
Open Scope Z_scope.

Definition gx_num (s : str) : Q := match parse_Z s with Some z => inject_Z z | None => (1 # 2)%Q end.
Definition gx_sha (s : str) : str := print_Z (Z.of_nat (length s)).
(** a folder for each size *)
Definition gx_find (rel : str) (t : target) (f : fs) : res (option Z * fs) := Ret (Some (fst (fst t)), f).
Definition gx_reserve (rel : str) (t : target) (f : fs) : res (Z * fs) := Ret (fst (fst t), f).
Definition gx_p : str := lit "src/public/" ++ lit "js/admin" ++ lit ".images.json".
Definition gx_scan_one : command -> fs -> res (scanned * fs) := ImgPage.scan_one (lit "/home") (lit "/site") gx_p px_dims ex_settings ex_step 20 gx_reserve.
Definition gx_export_one : command -> fs -> res (metadata target * Handlers.built * fs) :=
  ImgPage.export_one (lit "/home") (lit "/site") gx_p px_dims (fun _ => lit "{}") (fun _ => Raise ValueError) true px_encode ex_settings ex_step (fun l => rev l) 20 gx_find.
Definition gx_scan (in_cwd : str -> bool) : str -> fs -> res (scanned * list (str * str) * fs) := glue_scan gx_num px_dims gx_scan_one true (lit "export default {};") in_cwd.
Definition gx_build : str -> fs -> res (Handlers.built * fs) := glue_build gx_num px_dims gx_sha gx_export_one.
Definition gx_text : str := lit "{""logo"": {""path"": ""/img/a.png"", ""width"": 101, ""height"": 90}, ""banner"": {""path"": ""/img/a.png"", ""width"": 200, ""height"": 150, ""crop_style"": ""cover"", ""crop_arguments"": {""pre_top_crop"": 5}}}".
Definition gx_with (text : str) : fs := dset gx_p text ex_files.
Definition gx_files : fs := gx_with gx_text.
Definition gx_list : list (str * json) :=
  [(lit "logo", JObj [(lit "path", JStr (lit "/img/a.png")); (lit "width", JNum (lit "101")); (lit "height", JNum (lit "90"))]);
   (lit "banner", JObj [(lit "path", JStr (lit "/img/a.png")); (lit "width", JNum (lit "200")); (lit "height", JNum (lit "150")); (lit "crop_style", JStr (lit "cover")); (lit "crop_arguments", JObj [(lit "pre_top_crop", JNum (lit "5"))])])].
Lemma gx_expressible : exists c m b f1, stands_for (snd (nth 1 gx_list ([], JNull))) c /\ gx_export_one c gx_files = Ret (m, b, f1) /\ expressible m.
Proof.
  exists {| c_path := lit "/img/a.png"; c_width := 200; c_height := 150; c_args := [(lit "pre_top_crop", JNum (lit "5"))]; c_lazy := true |}. eexists. eexists. eexists. split; [|split; [vm_compute; reflexivity|]].
  - eapply StandsFor; [reflexivity|reflexivity|apply WholeNumber; reflexivity|reflexivity|apply WholeNumber; reflexivity|right; reflexivity].
  - constructor; cbn [m_target m_outputs fst snd map].
    + repeat (apply NoDup_cons; [intros X; repeat (destruct X as [X|X]; [discriminate X|]); exact X|]). apply NoDup_nil.
    + intros k v I. repeat (destruct I as [I|I]; [injection I as <- <-; split; [apply HtmlTemplate.safe_lit; vm_compute; reflexivity|vm_compute; reflexivity]|]). destruct I.
    + repeat (apply NoDup_cons; [intros X; repeat (destruct X as [X|X]; [discriminate X|]); exact X|]). apply NoDup_nil.
    + intros k v I. repeat (destruct I as [I|I]; [injection I as <- _; apply HtmlTemplate.safe_lit; vm_compute; reflexivity|]). destruct I.
    + intros k v o I J. repeat (destruct I as [I|I]; [injection I as _ <-; repeat (destruct J as [J|J]; [subst o; cbn [o_relpath o_choice]; split; apply HtmlTemplate.safe_lit; vm_compute; reflexivity|]); destruct J|]). destruct I.
Qed.
Lemma gx_scalar s : forallb (fun c => c <? 128)%N s = true -> Forall scalar s.
Proof. intros H. apply Forall_forall. intros c I. rewrite forallb_forall in H. specialize (H c I). apply N.ltb_lt in H. split; [|intros [A _]]; [eapply N.lt_trans; [exact H|reflexivity]|]. apply (N.lt_irrefl c). eapply N.lt_le_trans; [exact H|]. eapply N.le_trans; [|exact A]. discriminate. Qed.
