(** C63: images.json files and the modules made from them.  GlueSpec.v: [acceptable] (an entry
    of such a file), [stands_for] (its command), [carried] and [surveys] (the commands are
    carried out, or scanned, one after the other), [shows_image] (what a module says about an
    image).  [rel]: the path of the file below src/public, without ".images.json". *)
From Coq Require Import String ZArith NArith QArith Bool List Permutation.
From Verif Require Import Base Graph Json JsonProofs JsonReads PyStr PyPath PyNorm Handlers Html OutlineData ImgSize ImgSettings ImgExport ImgExportSpec ImgCommand ImgCommandSpec ImgPage Glue GlueSpec GlueJson GlueProofs GlueMain GluePresent GlueAgree ImgBuildExample ImgPageExample GlueExample.
Import ListNotations.
Open Scope list_scope.
Open Scope Z_scope.

Section Any.
Context (num : str -> Q) (dims : str -> res (option (Z * Z))) (sha : str -> str).
Context (scan_one : command -> fs -> res (scanned * fs)) (export_one : command -> fs -> res (metadata target * Handlers.built * fs)).
Context (auto : bool) (text : str) (in_cwd : str -> bool).
Notation scan := (glue_scan num dims scan_one auto text in_cwd).
Notation build := (glue_build num dims sha export_one).
Notation file rel := (lit "src/public/" ++ rel ++ lit ".images.json").
Notation module rel := (lit "out/www/" ++ rel ++ lit ".images.js").

(** * Which files *)
(** a file is used if it is a json object, all entries of which are acceptable *)
Theorem C63_used : forall p f l, glue_read num dims p f = Ret (Some l) <-> exists s v, dget p f = Some s /\ json_load s = Some v /\ jnorm v = JObj l /\ Forall (fun x => acceptable num dims f (snd x)) l.
Proof. exact (read_some num dims). Qed.
(** a file with an entry that is not has no effect *)
Theorem C63_refused : forall p f s v, (forall image e, dims image <> Raise e) -> dget p f = Some s -> json_load s = Some v ->
  (forall l k d, jnorm v = JObj l -> In (k, JObj d) l -> dget (lit "crop_settings") d = None) -> (forall l, jnorm v = JObj l -> ~ Forall (fun x => acceptable num dims f (snd x)) l) ->
  scan p f = Ret ({| dependencies := []; produces := [] |}, [], f) /\ build p f = Ret ({| children := []; produced := []; reused := [] |}, f).
Proof. intros p f s v D E V N A. exact (nothing num dims sha scan_one export_one auto text in_cwd p f (or_introl (read_refused num dims p f s v D E V N A))). Qed.
(** neither have placeholders *)
Theorem C63_placeholder : forall p f, ends_with (lit ".images.js") p = true ->
  scan p f = Ret ({| dependencies := []; produces := [] |}, [], f) /\ build p f = Ret ({| children := []; produced := []; reused := [] |}, f).
Proof. intros p f H. exact (nothing num dims sha scan_one export_one auto text in_cwd p f (or_intror H)). Qed.
Theorem C63_unreadable : forall rel f s, dget (file rel) f = Some s -> json_load s = None -> scan (file rel) f = Raise ValueError /\ build (file rel) f = Raise ValueError.
Proof. exact (unreadable num dims sha scan_one export_one auto text in_cwd). Qed.

(** * Building *)
(** The commands of the entries are carried out in order; then the module is written, and its
    hash if there is none yet; nothing else changes; what the exports report is reported. *)
Theorem C63_build : forall rel f b f2 l, starts_with (lit "/") rel = false -> glue_read num dims (file rel) f = Ret (Some l) -> build (file rel) f = Ret (b, f2) ->
  exists f1 rs, carried export_one f l f1 rs /\ let t := module_text (map (fun r => (r_name r, r_meta r)) rs) in
    dget (module rel) f2 = Some t /\
    dget (module rel ++ lit ".hash") f2 = match dget (module rel ++ lit ".hash") f1 with Some h => Some h | None => Some (sha t) end /\
    (forall q, q <> module rel -> q <> module rel ++ lit ".hash" -> dget q f2 = dget q f1) /\
    union (map (fun r => children (r_built r)) rs) (children b) /\
    (forall q, In q (produced b) <-> q = module rel \/ q = module rel ++ lit ".hash" /\ dget q f1 = None \/ exists r, In r rs /\ In q (produced (r_built r))) /\
    (forall q, In q (reused b) <-> q = module rel ++ lit ".hash" /\ dget q f1 <> None \/ exists r, In r rs /\ In q (reused (r_built r))) /\ NoDup (produced b) /\ NoDup (reused b).
Proof.
  intros rel f b f2 l R G B. destruct (build_sound num dims sha export_one rel f b f2 l R G B) as (f1 & rs & C & H). exists f1, rs. split; [exact C|]. assert (E : map fst (map told rs) = map (fun r => (r_name r, r_meta r)) rs) by (rewrite map_map; reflexivity). rewrite E in H. rewrite <- !app_assoc in *. exact H.
Qed.
(** it is built, if the commands can be carried out *)
Theorem C63_built : forall rel f f1 l rs, glue_read num dims (file rel) f = Ret (Some l) -> carried export_one f l f1 rs -> exists b f2, build (file rel) f = Ret (b, f2).
Proof. exact (build_complete num dims sha export_one). Qed.

(** * The module *)
(** It is "export default", a json text, and a semicolon.  The text has the names of the file,
    and under each what is known about the image. *)
Theorem C63_module : forall rel f b f2 s v l, starts_with (lit "/") rel = false -> dget (file rel) f = Some s -> Forall scalar s -> json_load s = Some v -> jnorm v = JObj l ->
  Forall (fun x => acceptable num dims f (snd x)) l -> build (file rel) f = Ret (b, f2) ->
  exists f1 rs, carried export_one f l f1 rs /\ ((forall r, In r rs -> expressible (r_meta r)) ->
  exists t m, dget (module rel) f2 = Some (lit "export default " ++ t ++ lit ";" ++ [10%N]) /\ json_load t = Some m /\ keys_are m (map fst l) /\
    forall r, In r rs -> exists x, field [r_name r] m x /\ shows_image (r_meta r) x).
Proof. exact (file_module num dims sha export_one). Qed.
(** the order of the entries makes no difference *)
Theorem C63_order : forall l l', NoDup (map fst l) -> Permutation l l' -> module_text l = module_text l'.
Proof. exact module_order. Qed.

(** * Scanning *)
Theorem C63_scan : forall rel f sc ph f1 l, starts_with (lit "/") rel = false -> glue_read num dims (file rel) f = Ret (Some l) -> scan (file rel) f = Ret (sc, ph, f1) ->
  exists ss, surveys scan_one f l f1 ss /\ union (map dependencies ss) (dependencies sc) /\ union ([module rel; module rel ++ lit ".hash"] :: map produces ss) (produces sc) /\
    ph = (if auto && negb (in_cwd (lit "src/public/" ++ rel ++ lit ".images.js")) then [(lit "src/public/" ++ rel ++ lit ".images.js", text)] else []).
Proof. intros rel f sc ph f1 l R G S. destruct (scan_iff num dims scan_one auto text in_cwd rel f sc ph f1 l R G S) as (ss & H). exists ss. rewrite <- !app_assoc in *. exact H. Qed.
Theorem C63_scanned : forall rel f f1 l ss, glue_read num dims (file rel) f = Ret (Some l) -> surveys scan_one f l f1 ss -> exists sc ph, scan (file rel) f = Ret (sc, ph, f1).
Proof. exact (scan_complete num dims scan_one auto text in_cwd). Qed.
End Any.
Print Assumptions C63_used.
Print Assumptions C63_refused.
Print Assumptions C63_placeholder.
Print Assumptions C63_unreadable.
Print Assumptions C63_build.
Print Assumptions C63_built.
Print Assumptions C63_module.
Print Assumptions C63_order.
Print Assumptions C63_scan.
Print Assumptions C63_scanned.
Example C63_used_case : glue_read gx_num px_dims gx_p gx_files = Ret (Some gx_list). Proof. vm_compute. reflexivity. Qed.
Example C63_build_case : exists b f2, gx_build gx_p gx_files = Ret (b, f2) /\ length (produced b) = 22%nat /\ dget (lit "out/www/js/admin.images.js.hash") f2 = Some (lit "1125").
Proof. eexists. eexists. split; [vm_compute; reflexivity|]. split; vm_compute; reflexivity. Qed.
Example C63_scan_case : exists sc f1, gx_scan (fun _ => false) gx_p gx_files = Ret (sc, [(lit "src/public/js/admin.images.js", lit "export default {};")], f1) /\ dependencies sc = [lit "src/public/img/a.png"].
Proof. eexists. eexists. split; vm_compute; reflexivity. Qed.
(** the module of the file has both images *)
Example C63_module_case : Forall scalar gx_text /\ exists c m b f1, stands_for (snd (nth 1 gx_list ([], JNull))) c /\ gx_export_one c gx_files = Ret (m, b, f1) /\ expressible m.
Proof. split; [apply gx_scalar; vm_compute; reflexivity|exact gx_expressible]. Qed.
Example C63_unreadable_case : gx_build gx_p (gx_with (lit "{")) = Raise ValueError. Proof. vm_compute. reflexivity. Qed.

(** * The images *)
Section Images.
Context (cwd folder page : str) (num : str -> Q) (dims : str -> res (option (Z * Z))) (sha : str -> str).
Context (store : metadata target -> str) (load : str -> res (metadata target)) (symlinks : bool) (encode : str -> target -> Z -> Z -> str -> list (str * kval) -> res str) (settings : image_settings) (step : dec) (order : list job -> list job) (fuel : nat).
Context (reserve : str -> target -> fs -> res (Z * fs)) (find_target : str -> target -> fs -> res (option Z * fs)).
Context (auto : bool) (text : str) (in_cwd : str -> bool).
Notation export_one := (ImgPage.export_one cwd folder page dims store load symlinks encode settings step order fuel find_target).
Notation scan := (glue_scan num dims (ImgPage.scan_one cwd folder page dims settings step fuel reserve) auto text in_cwd).
Notation build := (glue_build num dims sha export_one).
Notation file rel := (lit "src/public/" ++ rel ++ lit ".images.json").
Notation module rel := (lit "out/www/" ++ rel ++ lit ".images.js").

(** Every url of the module is that of a file in out/www.  (Images exported before must still
    have their files in artifacts.) *)
Theorem C63_present : (forall rel t f id f', find_target rel t f = Ret (id, f') -> forall q, dget q f <> None -> dget q f' <> None) ->
  forall rel f b f2 l, starts_with (lit "/") rel = false -> glue_read num dims (file rel) f = Ret (Some l) -> build (file rel) f = Ret (b, f2) ->
  (forall k d path, In (k, JObj d) l -> dget (lit "path") d = Some (JStr path) -> starts_with (lit "//") path = false) ->
  exists f1 rs, carried export_one f l f1 rs /\ dget (module rel) f2 = Some (module_text (map (fun r => (r_name r, r_meta r)) rs)) /\
  ((forall r name outs o, In r rs -> Handlers.reused (r_built r) <> [] -> In (name, outs) (m_outputs (r_meta r)) -> In o outs ->
      starts_with (lit "/") (o_relpath o) = false /\ (symlinks = true -> dget (lit "artifacts/" ++ o_relpath o) (r_before r) <> None)) ->
   forall r name outs o, In r rs -> In (name, outs) (m_outputs (r_meta r)) -> In o outs -> dget (lit "out/www/" ++ o_relpath o) f2 <> None).
Proof.
  intros KF rel f b f2 l R G B A. destruct (named_there cwd folder page num dims sha store load symlinks encode settings step order fuel find_target rel f b f2 l KF R G B) as (f1 & rs & C & M & H). exists f1, rs. split; [exact C|]. rewrite map_map in M. split; [exact M|]. exact (H A).
Qed.
(** With the same inputs, scanning and building find the same images, and agree about the
    module.  Neither touches a source file. *)
Theorem C63_agree : any_order order -> (forall rel t f id f', reserve rel t f = Ret (id, f') -> same_sources f f') -> (forall rel t f id f', find_target rel t f = Ret (id, f') -> same_sources f f') ->
  forall rel f g sc ph f1 b g1, starts_with (lit "/") rel = false -> same_inputs f g -> scan (file rel) f = Ret (sc, ph, f1) -> build (file rel) g = Ret (b, g1) ->
  (forall q, In q (dependencies sc) <-> In q (children b)) /\ (In (module rel) (produces sc) <-> In (module rel) (produced b)) /\
  (In (module rel ++ lit ".hash") (produces sc) -> In (module rel ++ lit ".hash") (produced b) \/ In (module rel ++ lit ".hash") (reused b)) /\
  same_sources f f1 /\ same_sources g g1.
Proof.
  intros A R F rel f g sc ph f1 b g1 Rl S SC B. pose proof (agree cwd folder page num dims sha store load symlinks encode settings step order fuel reserve find_target auto text in_cwd rel f g sc ph f1 b g1 A R F Rl S SC B) as H. cbv zeta in H. rewrite <- !app_assoc in *. exact H.
Qed.
End Images.
Print Assumptions C63_present.
Print Assumptions C63_agree.
Example C63_present_case : (forall rel t f id f', gx_find rel t f = Ret (id, f') -> forall q, dget q f <> None -> dget q f' <> None) /\
  (forall k d path, In (k, JObj d) gx_list -> dget (lit "path") d = Some (JStr path) -> starts_with (lit "//") path = false).
Proof. split; [intros rel t f id f' H q Q; injection H as _ <-; exact Q|]. intros k d path [E|[E|[]]] P; injection E as _ <-; injection P as <-; reflexivity. Qed.
Example C63_agree_case : any_order (fun l : list job => rev l) /\ (forall rel t f id f', gx_reserve rel t f = Ret (id, f') -> same_sources f f') /\ (forall rel t f id f', gx_find rel t f = Ret (id, f') -> same_sources f f').
Proof. split; [intros l; apply Permutation_rev|]. split; intros rel t f id f' H; injection H as _ <-; intros p; reflexivity. Qed.

(** * Findings *)
Definition gx_one (rest : string) : fs := gx_with (lit "{""a"": {""path"": ""/img/a.png"", " ++ lit rest ++ lit "}}").
(** "crop_arguments" are used, but it is "crop_settings" that are checked: arguments that no
    image can be cropped by pass, those that are no crop settings stop the build *)
Theorem C63_crop_refuted :
  (exists l, glue_read gx_num px_dims gx_p (gx_one """width"": 101, ""height"": 90, ""crop_arguments"": {""pre_top_crop"": 1000}") = Ret (Some l)) /\
  (exists l, glue_read gx_num px_dims gx_p (gx_one """width"": 101, ""height"": 90, ""crop_arguments"": {""top"": 5}") = Ret (Some l)) /\
  gx_scan (fun _ => false) gx_p (gx_one """width"": 101, ""height"": 90, ""crop_arguments"": {""top"": 5}") = Raise TypeError /\
  gx_build gx_p (gx_one """width"": 101, ""height"": 90, ""crop_arguments"": {""top"": 5}") = Raise TypeError /\
  glue_read gx_num px_dims gx_p (gx_one """width"": 101, ""height"": 90, ""crop_settings"": {""pre_top_crop"": 1000}") = Ret None.
Proof. split; [eexists; vm_compute; reflexivity|]. split; [eexists; vm_compute; reflexivity|]. split; [vm_compute; reflexivity|]. split; vm_compute; reflexivity. Qed.
Print Assumptions C63_crop_refuted.
(** a crop setting that is no number stops the build instead of being refused *)
Theorem C63_total_refuted : gx_build gx_p (gx_one """width"": 101, ""height"": 90, ""crop_settings"": {""pre_top_crop"": ""5""}") = Raise TypeError.
Proof. vm_compute. reflexivity. Qed.
Print Assumptions C63_total_refuted.
(** [true] is a size *)
Theorem C63_bool_refuted : exists l, glue_read gx_num px_dims gx_p (gx_one """width"": true, ""height"": 90") = Ret (Some l).
Proof. eexists. vm_compute. reflexivity. Qed.
Print Assumptions C63_bool_refuted.
(** one bad entry, here an image that is too small, and no module is made for the others *)
Theorem C63_silent_refuted : gx_build gx_p (gx_with (lit "{""a"": {""path"": ""/img/a.png"", ""width"": 101, ""height"": 90}, ""b"": {""path"": ""/img/a.png"", ""width"": 501, ""height"": 90}}")) =
  Ret ({| children := []; produced := []; reused := [] |}, gx_with (lit "{""a"": {""path"": ""/img/a.png"", ""width"": 101, ""height"": 90}, ""b"": {""path"": ""/img/a.png"", ""width"": 501, ""height"": 90}}")).
Proof. vm_compute. reflexivity. Qed.
Print Assumptions C63_silent_refuted.
(** whether a placeholder is there is asked in the working directory, not in the project: one
    that is there is made again *)
Theorem C63_placeholder_refuted : exists sc f1, dget (lit "src/public/js/admin.images.js") (dset (lit "src/public/js/admin.images.js") (lit "mine") gx_files) = Some (lit "mine") /\
  gx_scan (fun _ => false) gx_p (dset (lit "src/public/js/admin.images.js") (lit "mine") gx_files) = Ret (sc, [(lit "src/public/js/admin.images.js", lit "export default {};")], f1).
Proof. eexists. eexists. split; vm_compute; reflexivity. Qed.
Print Assumptions C63_placeholder_refuted.
(** the hash of an old module stays, though the module is written again *)
Theorem C63_hash_refuted : exists b f2 t, gx_build gx_p (dset (lit "out/www/js/admin.images.js.hash") (lit "old") gx_files) = Ret (b, f2) /\
  dget (lit "out/www/js/admin.images.js") f2 = Some t /\ dget (lit "out/www/js/admin.images.js.hash") f2 = Some (lit "old") /\ gx_sha t <> lit "old".
Proof. eexists. eexists. eexists. split; [vm_compute; reflexivity|]. split; [vm_compute; reflexivity|]. split; [vm_compute; reflexivity|]. vm_compute. discriminate. Qed.
Print Assumptions C63_hash_refuted.
