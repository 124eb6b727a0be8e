(** C59: the image commands of a page: how they are written, which image they mean, and what
    they do to the page.  ImgCommandSpec.v: [written] (the text of a command), [image_command]
    (a comment with a command and a fitting image), [image_ignored] (any other token),
    [pictures] and [surveyed] (what a page becomes). *)
From Coq Require Import String ZArith NArith Bool List Permutation.
From Verif Require Import Base Graph Json PyStr PyPath PyNorm PathSpec Builder Handlers Html ImgSize ImgSettings ImgExport ImgExportSpec ImgCommand ImgPage ImgCommandSpec ImgCommandProofs ImgSource ImgPageProofs ImgPageMain ImgBuildExample ImgPageExample.
Import ListNotations.
Open Scope list_scope.
Open Scope Z_scope.

(** * The text of a command *)
Theorem C59_parse : forall int_high args c, parse_command int_high args = Ret c <-> written int_high args c.
Proof. exact parse_command_iff. Qed.
Print Assumptions C59_parse.
Theorem C59_total : forall int_high args, (exists c, parse_command int_high args = Ret c) \/ parse_command int_high args = Raise ValueError.
Proof. exact parse_command_total. Qed.
Print Assumptions C59_total.
Example C59_parse_case : parse_command px_int (lit "../img/a.png 101 90 cover {""pre_top_crop"": 5}") = Ret px_cmd. Proof. vm_compute. reflexivity. Qed.
Example C59_total_case : parse_command px_int (lit "../img/a.png 101px 90") = Raise ValueError. Proof. vm_compute. reflexivity. Qed.

(** the crop arguments are names of crop settings; those not given have their defaults *)
Theorem C59_crop : forall args l, crop_settings args = Ret l <->
  (forall k v, In (k, v) args -> In k [lit "pre_top_crop"; lit "pre_left_crop"; lit "pre_right_crop"; lit "pre_bottom_crop"; lit "crop_left_percentage"; lit "crop_top_percentage"]) /\
  Forall2 (fun x (e : str * json) => snd e = match dget (fst e) args with Some v => v | None => snd x end /\ fst e = fst x)
    [(lit "pre_top_crop", JNum (lit "0")); (lit "pre_left_crop", JNum (lit "0")); (lit "pre_right_crop", JNum (lit "0")); (lit "pre_bottom_crop", JNum (lit "0"));
     (lit "crop_left_percentage", JNum (lit "0.5")); (lit "crop_top_percentage", JNum (lit "0.5"))] l.
Proof. exact crop_settings_iff. Qed.
Print Assumptions C59_crop.
Theorem C59_crop_total : forall args, (exists l, crop_settings args = Ret l) \/ crop_settings args = Raise TypeError.
Proof. exact crop_settings_total. Qed.
Print Assumptions C59_crop_total.
Example C59_crop_case : exists l, crop_settings (c_args px_cmd) = Ret l /\ dget (lit "pre_top_crop") l = Some (JNum (lit "5")). Proof. eexists. split; vm_compute; reflexivity. Qed.

(** * Which image *)
(** A path is followed from the folder of the page, "/" is src/public, whatever the working
    directory and the folder of the project. *)
Theorem C59_source : forall cwd folder dirs fname p q, starts_with [47%N] cwd = true -> Forall name (dirs ++ [fname]) -> starts_with [47%N] p = false -> walk dirs (split_on 47%N p) q -> q <> [] ->
  forall other, source_path cwd folder (path_text (lit "src" :: lit "public" :: dirs ++ [fname])) p = path_text (lit "src" :: lit "public" :: q) /\
  source_path cwd folder other ([47%N] ++ path_text q) = path_text (lit "src" :: lit "public" :: q).
Proof. exact source_target. Qed.
Print Assumptions C59_source.
Example C59_source_case : walk [lit "a"] (split_on 47%N (lit "../img/a.png")) [lit "img"; lit "a.png"] /\ path_text (lit "src" :: lit "public" :: [lit "a"] ++ [lit "b.html"]) = px_page.
Proof. split; [|reflexivity]. apply (WalkUp []). apply (WalkInto []); [repeat split; try discriminate; intros X; repeat (destruct X as [X|X]; [discriminate X|]); exact X|]. apply (WalkInto [lit "img"]); [repeat split; try discriminate; intros X; repeat (destruct X as [X|X]; [discriminate X|]); exact X|]. constructor. Qed.

(** * Which comments *)
Section Comments.
Context (int_high : str -> option Z) (cwd folder page : str) (dims : str -> res (option (Z * Z))).
Notation command_of := (ImgCommand.get_command int_high cwd folder page dims).
Theorem C59_command : forall t f c, command_of t f = Ret (Some c) <-> image_command int_high cwd folder page dims t f c.
Proof. exact (command_iff int_high cwd folder page dims). Qed.
Theorem C59_ignored : forall t f, command_of t f = Ret None <-> image_ignored int_high cwd folder page dims t f.
Proof. exact (ignored_iff int_high cwd folder page dims). Qed.
(** anything else stops the build *)
Theorem C59_fails : forall t f e, command_of t f = Raise e <-> exists args, image_comment t args /\
  ((e = ValueError /\ forall c, ~ written int_high args c) \/
   exists c image, written int_high args c /\ public_source cwd folder page c /\ dget (source_path cwd folder page (c_path c)) f = Some image /\ dims image = Raise e).
Proof. exact (command_fails int_high cwd folder page dims). Qed.
End Comments.
Print Assumptions C59_command.
Print Assumptions C59_ignored.
Print Assumptions C59_fails.
Example C59_command_case : image_command px_int (lit "/home") (lit "/site") px_page px_dims (HComment px_text) ex_files px_cmd. Proof. apply command_iff. vm_compute. reflexivity. Qed.
Example C59_fails_case : ImgCommand.get_command px_int (lit "/home") (lit "/site") px_page px_dims (HComment (lit "[IMAGE: /img/a.png]")) ex_files = Raise ValueError. Proof. vm_compute. reflexivity. Qed.

(** * Pages *)
Section Pages.
Context (int_high : str -> option Z) (cwd folder page : str) (dims : str -> res (option (Z * Z))).
Context (store : metadata target -> str) (load : str -> res (metadata target)) (symlinks : bool) (encode : str -> target -> Z -> Z -> str -> list (str * kval) -> res str) (settings : image_settings) (step : dec) (order : list job -> list job) (fuel : nat).
Context (reserve : str -> target -> fs -> res (Z * fs)) (find_target : str -> target -> fs -> res (option Z * fs)).
Notation m scan := (page_images int_high cwd folder page dims store load symlinks encode settings step order fuel reserve find_target scan).
Notation built := (pictures (image_command int_high cwd folder page dims) (image_ignored int_high cwd folder page dims) (ImgPage.export_one cwd folder page dims store load symlinks encode settings step order fuel find_target) (fun c m => picture settings (c_width c) (c_height c) (c_lazy c) m)).
Notation found := (surveyed (image_command int_high cwd folder page dims) (image_ignored int_high cwd folder page dims) (scan_one cwd folder page dims settings step fuel reserve)).

(** The export of a command: that of the image at its path, in its size and with its crop
    settings, to the folder found for these. *)
Theorem C59_export : forall c f rel l id f1, source_path cwd folder page (c_path c) = lit "src/public/" ++ rel -> crop_settings (c_args c) = Ret l -> find_target rel (c_width c, c_height c, l) f = Ret (id, f1) ->
  ImgPage.export_one cwd folder page dims store load symlinks encode settings step order fuel find_target c f =
  export_command store load (must_open dims) symlinks encode settings step order fuel rel id (c_width c, c_height c, l) (c_width c) (c_height c) f1.
Proof. exact (export_one_is cwd folder page dims store load symlinks encode settings step order fuel find_target). Qed.
Theorem C59_announce : forall c f rel l id f1, source_path cwd folder page (c_path c) = lit "src/public/" ++ rel -> crop_settings (c_args c) = Ret l -> reserve rel (c_width c, c_height c, l) f = Ret (id, f1) ->
  forall sc f', scan_one cwd folder page dims settings step fuel reserve c f = Ret (sc, f') <-> scan_command (must_open dims) settings step fuel rel id (c_width c) (c_height c) f1 = Ret sc /\ f' = f1.
Proof. exact (scan_one_is cwd folder page dims settings step fuel reserve). Qed.
(** Building: the commands are replaced by picture elements, one after the other, nothing else
    changes, and what the exports report is reported for the page. *)
Theorem C59_build : forall ts f k out b, pump [m false] k ts (new_page f) = Ret (out, b) -> exists bs, built f ts out (p_files (b_st b)) bs /\
  union (map Handlers.children bs) (p_seen (b_st b)) /\ union (map Handlers.produced bs) (p_made (b_st b)) /\ union (map Handlers.reused bs) (p_reused (b_st b)).
Proof. intros ts f k out b H. apply built_page in H; [|exact (show_plain settings)]. destruct H as (bs & H & E). exists bs. split; [exact H|]. rewrite E. split; [apply adds_union|]. split; apply adds_union. Qed.
(** such a page is built *)
Theorem C59_built : forall ts f out f' bs, built f ts out f' bs -> exists k b, pump [m false] k ts (new_page f) = Ret (out, b) /\ p_files (b_st b) = f'.
Proof.
  intros ts f out f' bs H. destruct (page_built int_high cwd folder page dims (scan_one cwd folder page dims settings step fuel reserve) _ _ (show_plain settings) ts f out f' bs _ eq_refl H) as (k & b & P & E). exists k, b. split; [exact P|]. rewrite E. reflexivity.
Qed.
(** Scanning leaves the page as it is. *)
Theorem C59_scan : forall ts f k out b, pump [m true] k ts (new_page f) = Ret (out, b) -> out = ts /\ exists bs, found f ts (p_files (b_st b)) bs /\
  union (map dependencies bs) (p_seen (b_st b)) /\ union (map produces bs) (p_made (b_st b)).
Proof. intros ts f k out b H. apply scanned_page in H. destruct H as (-> & bs & H & E). split; [reflexivity|]. exists bs. split; [exact H|]. rewrite E. split; apply adds_union. Qed.
Theorem C59_scanned : forall ts f f' bs, found f ts f' bs -> exists k b, pump [m true] k ts (new_page f) = Ret (ts, b) /\ p_files (b_st b) = f'.
Proof.
  intros ts f f' bs H. destruct (page_scanned int_high cwd folder page dims _ (ImgPage.export_one cwd folder page dims store load symlinks encode settings step order fuel find_target) (show_one settings) ts f f' bs H) as (k & b & P & E). exists k, b. split; [exact P|]. rewrite E. reflexivity.
Qed.
(** With the same images, scanning and building find the same ones: the dependencies are the
    children, in the same order.  Neither touches a source file. *)
Theorem C59_agree : any_order order -> (forall rel t f id f', reserve rel t f = Ret (id, f') -> same_sources f f') -> (forall rel t f id f', find_target rel t f = Ret (id, f') -> same_sources f f') ->
  forall ts f g k1 out1 b1 k2 out2 b2, same_sources f g -> pump [m true] k1 ts (new_page f) = Ret (out1, b1) -> pump [m false] k2 ts (new_page g) = Ret (out2, b2) ->
  p_seen (b_st b1) = p_seen (b_st b2) /\ same_sources f (p_files (b_st b1)) /\ same_sources g (p_files (b_st b2)).
Proof. intros A R F ts f g k1 out1 b1 k2 out2 b2. exact (page_agree int_high cwd folder page dims store load symlinks encode settings step order fuel reserve find_target A R F ts f g k1 out1 b1 k2 out2 b2). Qed.
End Pages.
Print Assumptions C59_export.
Print Assumptions C59_announce.
Print Assumptions C59_build.
Print Assumptions C59_built.
Print Assumptions C59_scan.
Print Assumptions C59_scanned.
Print Assumptions C59_agree.
Example C59_export_case : source_path (lit "/home") (lit "/site") px_page (c_path px_cmd) = lit "src/public/" ++ lit "img/a.png". Proof. vm_compute. reflexivity. Qed.
Example C59_build_case : exists out b, px_pump false = Ret (out, b) /\ length out = 6%nat /\ p_seen (b_st b) = [lit "src/public/img/a.png"]. Proof. eexists. eexists. split; [vm_compute; reflexivity|]. split; vm_compute; reflexivity. Qed.
Example C59_scan_case : exists out b, px_pump true = Ret (out, b) /\ p_seen (b_st b) = [lit "src/public/img/a.png"] /\ length (p_made (b_st b)) = 16%nat. Proof. eexists. eexists. split; [vm_compute; reflexivity|]. split; vm_compute; reflexivity. Qed.
Example C59_agree_case : any_order (fun l : list job => rev l) /\ (forall rel t f id f', px_reserve rel t f = Ret (id, f') -> same_sources f f') /\ (forall rel t f id f', px_find rel t f = Ret (id, f') -> same_sources f f').
Proof. split; [intros l; apply Permutation_rev|]. split; intros rel t f id f' H; injection H as _ <-; intros p; reflexivity. Qed.

(** * What does not hold *)
(** the documented "lazy" after the crop arguments makes an image load eagerly, and so does a
    blank before the bracket *)
Theorem C59_lazy_refuted : (exists c, parse_command px_int (lit "/img/a.png 25 50 cover {} lazy") = Ret c /\ c_lazy c = false) /\ (exists c, parse_command px_int (lit "/img/a.png 25 50 cover {} ") = Ret c /\ c_lazy c = false) /\
  (exists c, parse_command px_int (lit "/img/a.png 25 50 cover {}eager") = Ret c /\ c_lazy c = true).
Proof. split; [|split]; eexists; split; vm_compute; reflexivity. Qed.
Print Assumptions C59_lazy_refuted.
(** the optional parts cannot be left out one by one *)
Theorem C59_optional_refuted : parse_command px_int (lit "/img/a.png 25 50 cover lazy") = Raise ValueError /\ parse_command px_int (lit "/img/a.png 25 50 lazy") = Raise ValueError /\ parse_command px_int (lit "/img/a.png 25 50 {}") = Raise ValueError.
Proof. split; [|split]; vm_compute; reflexivity. Qed.
Print Assumptions C59_optional_refuted.
(** the example in the documentation does not work *)
Theorem C59_example_refuted : exists c, parse_command px_int (lit "/img/test.jpg 25 50 cover {""min_top_crop"": 5} lazy") = Ret c /\ crop_settings (c_args c) = Raise TypeError.
Proof. eexists. split; vm_compute; reflexivity. Qed.
Print Assumptions C59_example_refuted.
(** json with a brace in it is refused *)
Theorem C59_brace_refuted : json_load (lit "{""a"": {}}") = Some (JObj [(lit "a", JObj [])]) /\ parse_command px_int (lit "/img/a.png 25 50 cover {""a"": {}}") = Raise ValueError.
Proof. split; vm_compute; reflexivity. Qed.
Print Assumptions C59_brace_refuted.
(** sizes that no image has are accepted *)
Theorem C59_positive_refuted : exists t c, image_command px_int (lit "/home") (lit "/site") px_page px_dims t ex_files c /\ c_width c = -5 /\ c_height c = 0.
Proof. exists (HComment (lit "[IMAGE: /img/a.png -5 0]")). eexists. split; [apply command_iff; vm_compute; reflexivity|]. split; reflexivity. Qed.
Print Assumptions C59_positive_refuted.
(** an image next to src/public passes for one in it, and then another one is exported *)
Theorem C59_public_refuted : exists t f c, image_command px_int (lit "/home") (lit "/site") px_page px_dims t f c /\ source_path (lit "/home") (lit "/site") px_page (c_path c) = lit "src/publicity/a.png" /\
  public_path (lit "/home") (lit "/site") px_page c = lit "ty/a.png".
Proof. exists (HComment (lit "[IMAGE: ../../publicity/a.png 20 30]")), [(lit "src/publicity/a.png", lit "png")]. eexists. split; [apply command_iff; vm_compute; reflexivity|]. split; vm_compute; reflexivity. Qed.
Print Assumptions C59_public_refuted.
(** a command on two lines, or with a misspelt path, stays in the page as a comment *)
Theorem C59_silent_refuted : let nl := [10%N] in image_ignored px_int (lit "/home") (lit "/site") px_page px_dims (HComment (lit "[IMAGE: /img/a.png" ++ nl ++ lit "20 30]")) ex_files /\
  image_ignored px_int (lit "/home") (lit "/site") px_page px_dims (HComment (lit "[IMAGE: /img/b.png 20 30]")) ex_files.
Proof. split; apply ignored_iff; vm_compute; reflexivity. Qed.
Print Assumptions C59_silent_refuted.
