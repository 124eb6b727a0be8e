(** The theorems about the image commands of a page. *)
From Verif Require Import Base Graph Json JsonProofs PyStr PyPath Handlers Html OutlineData IconManipProofs ImgSize ImgSettings ImgExport ImgExportSpec ImgExportProofs ImgExportRun ImgExportMain ImgBuildSpec ImgBuildProofs.
From Coq Require Import String ZArith NArith Bool List Lia Permutation.
Import ListNotations.
Open Scope list_scope.
Open Scope Z_scope.

Lemma In_dset_inv {A} k (v : A) d k' v' : In (k', v') (dset k v d) -> (k' = k /\ v' = v) \/ In (k', v') d.
Proof.
  induction d as [|[a b] d IH]; cbn [dset]; [intros [E|[]]; left; split; congruence|]. destruct (str_eqb k a) eqn:E.
  - apply str_eqb_eq in E. subst a. intros [X|X]; [left; split; congruence|right; right; exact X].
  - intros [X|X]; [right; left; exact X|]. destruct (IH X) as [Y|Y]; [left; exact Y|right; right; exact Y].
Qed.
Section Any.
Context (symlinks : bool) (encode : Z -> Z -> str -> list (str * kval) -> res str) (art out sub : str) (fms : list (str * image_format)).
Definition kept_of (w h : Z) (fm : str * image_format) (p : str) : Prop := p = kept_file art w h (fst fm) \/ p = kept_file out w h (fst fm).
Definition sound (s : progress) : Prop := dict_wf (outputs s) /\ forall name l, In (name, l) (outputs s) -> l <> [].
Lemma one_made w h fm s s' : export_one symlinks art out sub w h fm s = Ret s' -> (forall p, In p (made s') -> In p (made s) \/ kept_of w h fm p) /\ (sound s -> sound s').
Proof using.
  unfold export_one. destruct (choose art w h (fst fm) (snd fm) (exports (snd fm)) None (files s)) as [[[b|] f]|e]; [|intros X; apply Ret_inj in X; subst s'; split; [auto|intros H; exact H]|discriminate].
  destruct (rename (b_path b) (join2 art (final_name w h (fst fm))) f) as [f'|e]; [|discriminate]. destruct (link symlinks (join2 art (final_name w h (fst fm))) (join2 out (final_name w h (fst fm))) f') as [f''|e]; [|discriminate]. intros X. apply Ret_inj in X. subst s'. cbn [made outputs]. split.
  - intros p I. apply in_app_iff in I. destruct I as [I|[I|[I|[]]]]; [left; exact I|right; left; symmetry; exact I|right; right; symmetry; exact I].
  - intros [W N]. split; [apply dict_wf_dset; exact W|]. cbn [outputs]. intros name l I. apply In_dset_inv in I. destruct I as [[-> ->]|I]; [|exact (N name l I)]. intros Y. apply app_eq_nil in Y. destruct Y as [_ Y]. discriminate Y.
Qed.
Lemma formats_made w h l : forall s s', export_formats symlinks art out sub w h l s = Ret s' -> (forall p, In p (made s') -> In p (made s) \/ exists fm, In fm l /\ kept_of w h fm p) /\ (sound s -> sound s').
Proof using.
  induction l as [|fm l IH]; intros s s' E; cbn [export_formats] in E; [apply Ret_inj in E; subst s'; auto|]. destruct (export_one symlinks art out sub w h fm s) as [s1|e] eqn:O; [|discriminate E]. destruct (one_made _ _ _ _ _ O) as [A1 A2]. destruct (IH _ _ E) as [B1 B2]. split; [|auto]. intros p I. destruct (B1 p I) as [J|(x & X & J)]; [|right; exists x; split; [right; exact X|exact J]]. destruct (A1 p J) as [K|K]; [left; exact K|right; exists fm; split; [left; reflexivity|exact K]].
Qed.
Lemma sizes_made l : forall s s', export_sizes symlinks art out sub fms l s = Ret s' -> (forall p, In p (made s') -> In p (made s) \/ exists w h fm, In (w, h) l /\ In fm fms /\ kept_of w h fm p) /\ (sound s -> sound s').
Proof using.
  induction l as [|[w h] l IH]; intros s s' E; cbn [export_sizes] in E; [apply Ret_inj in E; subst s'; auto|]. destruct (export_formats symlinks art out sub w h fms s) as [s1|e] eqn:O; [|discriminate E]. destruct (formats_made _ _ _ _ _ O) as [A1 A2]. destruct (IH _ _ E) as [B1 B2]. split; [|auto]. intros p I. destruct (B1 p I) as [J|(w' & h' & x & X & J)]; [|right; exists w', h', x; split; [right; exact X|exact J]]. destruct (A1 p J) as [K|(fm & F & K)]; [left; exact K|right; exists w, h, fm; split; [left; reflexivity|auto]].
Qed.
Lemma images_made order sizes produced f s : export_images symlinks encode art out sub fms order sizes produced f = Ret s -> (forall p, In p (made s) -> In p produced \/ exists w h fm, In (w, h) sizes /\ In fm fms /\ kept_of w h fm p) /\ sound s.
Proof using.
  unfold export_images. destruct (first_exception (jobs encode art fms sizes)); [discriminate|]. intros E. apply sizes_made in E. destruct E as [A B]. split; [exact A|]. apply B. split; [constructor|intros name l []].
Qed.
End Any.

Section Build.
Context {T : Type} (store : metadata T -> str) (load : str -> res (metadata T)) (dims : str -> res (Z * Z)) (symlinks : bool) (encode : str -> T -> Z -> Z -> str -> list (str * kval) -> res str) (settings : image_settings) (step : dec) (order : list job -> list job) (fuel : nat).
Notation export_command := (export_command store load dims symlinks encode settings step order fuel).
Notation scan_command := (scan_command dims settings step fuel).
Notation fixed rel id := [metadata_path rel id; counter_path rel; placeholder_path rel id; lock_path rel].
Notation images rel id target image sizes := (export_images symlinks (encode image target) (target_art rel id) (target_out rel id) (join2 (splitext_root rel) (print_Z id)) (formats settings) order sizes (fixed rel id)).
Lemma export_fresh rel id target w h f m b f2 : dget (metadata_path rel id) f = None -> export_command rel (Some id) target w h f = Ret (m, b, f2) ->
  exists image iw ih hash ch sizes s, dget (lit "src/public/" ++ rel) f = Some image /\ dims image = Ret (iw, ih) /\ yield_sizes (maximum settings) step iw ih w h fuel = Some sizes /\ images rel id target image sizes f = Ret s /\
    m = {| m_settings_hash := hash; m_source := lit "src/public/" ++ rel; m_width := iw; m_height := ih; m_contents_hash := ch; m_target := target; m_outputs := outputs s |} /\
    b = {| children := [lit "src/public/" ++ rel]; Handlers.produced := made s; reused := [] |} /\ f2 = dset (metadata_path rel id) (store m) (files s).
Proof using.
  intros N E. unfold ImgExport.export_command in E. rewrite N in E. destruct (dget (lit "src/public/" ++ rel) f) as [image|] eqn:E1; [|discriminate E]. destruct (dims image) as [[iw ih]|] eqn:E2; [|discriminate E]. destruct (dget (lit "out/www/" ++ rel ++ lit ".hash") f) as [ch|] eqn:E3; [|discriminate E]. destruct (hash_image_settings settings) as [hash|] eqn:E4; [|discriminate E]. destruct (yield_sizes (maximum settings) step iw ih w h fuel) as [sizes|] eqn:E5; [|discriminate E].
  destruct (images rel id target image sizes f) as [s|] eqn:E6; [|discriminate E]. apply Ret_inj in E. assert (m = {| m_settings_hash := hash; m_source := lit "src/public/" ++ rel; m_width := iw; m_height := ih; m_contents_hash := ch; m_target := target; m_outputs := outputs s |}) as Em by congruence. exists image, iw, ih, hash, ch, sizes, s. split; [reflexivity|]. split; [exact E2|]. split; [exact E5|]. split; [exact E6|]. split; [exact Em|]. subst m. split; congruence.
Qed.
Lemma scanned_eq rel id w h f sc : scan_command rel id w h f = Ret sc -> exists image iw ih sizes, dget (lit "src/public/" ++ rel) f = Some image /\ dims image = Ret (iw, ih) /\ yield_sizes (maximum settings) step iw ih w h fuel = Some sizes /\ dependencies sc = [lit "src/public/" ++ rel] /\
  forall p, In p (produces sc) <-> In p (fixed rel id) \/ exists w h fm, In (w, h) sizes /\ In fm (formats settings) /\ kept_of (target_art rel id) (target_out rel id) w h fm p.
Proof using.
  unfold ImgExport.scan_command. intros E. destruct (dget (lit "src/public/" ++ rel) f) as [image|] eqn:E1; [|discriminate E]. destruct (dims image) as [[iw ih]|] eqn:E2; [|discriminate E]. destruct (yield_sizes (maximum settings) step iw ih w h fuel) as [sizes|] eqn:E5; [|discriminate E]. apply Ret_inj in E. subst sc. exists image, iw, ih, sizes. split; [reflexivity|]. split; [exact E2|]. split; [exact E5|]. split; [reflexivity|]. intros p. cbn [produces]. rewrite in_app_iff. apply or_iff_compat_l. rewrite in_flat_map. split.
  - intros ([a c] & I & J). apply in_flat_map in J. destruct J as (fm & J & K). exists a, c, fm. split; [exact I|]. split; [exact J|]. destruct K as [K|[K|[]]]; [left|right]; symmetry; exact K.
  - intros (a & c & fm & I & J & K). exists (a, c). split; [exact I|]. apply in_flat_map. exists fm. split; [exact J|]. destruct K as [->| ->]; [left|right; left]; reflexivity.
Qed.
Lemma predicted rel id target w h f f' sc m b f2 : scan_command rel id w h f = Ret sc -> dget (lit "src/public/" ++ rel) f' = dget (lit "src/public/" ++ rel) f -> dget (metadata_path rel id) f' = None -> export_command rel (Some id) target w h f' = Ret (m, b, f2) ->
  children b = dependencies sc /\ reused b = [] /\ forall p, In p (Handlers.produced b) -> In p (produces sc).
Proof using.
  intros Sc Im N Ex. destruct (scanned_eq _ _ _ _ _ _ Sc) as (image & iw & ih & sizes & A1 & A2 & A3 & A4 & A5). destruct (export_fresh _ _ _ _ _ _ _ _ _ N Ex) as (image' & iw' & ih' & hash & ch & sizes' & s & B1 & B2 & B3 & B4 & _ & -> & _). cbn [children reused Handlers.produced]. split; [symmetry; exact A4|]. split; [reflexivity|].
  assert (image' = image) by congruence. subst image'. assert (iw' = iw /\ ih' = ih) as [-> ->] by (split; congruence). assert (sizes' = sizes) by congruence. subst sizes'. intros p I. apply A5. exact (proj1 (images_made _ _ _ _ _ _ _ _ _ _ _ B4) p I).
Qed.

Section Good.
Context (f : fs) (rel : str) (id : Z) (target : T) (w h : Z) (image : str) (iw ih : Z) (sizes : list (Z * Z)).
Context (X : exporting dims symlinks encode settings step order fuel f rel id target w h image iw ih sizes).
Notation addr := (address rel id).
Lemma succeeds : dget (lit "out/www/" ++ rel ++ lit ".hash") f <> None -> (exists hash, hash_image_settings settings = Ret hash) -> exists m b f2, export_command rel (Some id) target w h f = Ret (m, b, f2).
Proof using X.
  intros H (hash & S). destruct X as [x_usable0 x_id0 x_image0 x_dims0 x_sizes0 x_new0 x_formats0 x_order0 x_good0 x_wf0 x_encodes0 x_free0]. unfold ImgExport.export_command. rewrite x_new0, x_image0, x_dims0, S, x_sizes0. destruct (dget (lit "out/www/" ++ rel ++ lit ".hash") f) as [ch|]; [|contradiction]. destruct (images_done symlinks (encode image target) (target_art rel id) (target_out rel id) (join2 (splitext_root rel) (print_Z id)) (formats settings) order sizes (fixed rel id) f) as [s Es]; try assumption; [apply apart_paths; assumption|]. rewrite Es. eauto.
Qed.
Lemma size_pos a c : In (a, c) sizes -> 0 < a /\ 0 < c.
Proof using X. intros I. destruct (x_good _ _ _ _ _ _ _ _ _ _ _ _ _ _ _ _ _ X) as [_ F]. rewrite Forall_forall in F. exact (F _ I). Qed.
Lemma run_images m b f2 : export_command rel (Some id) target w h f = Ret (m, b, f2) -> exists s, images rel id target image sizes f = Ret s /\ m_outputs m = outputs s /\ Handlers.produced b = made s /\ f2 = dset (metadata_path rel id) (store m) (files s) /\ children b = [lit "src/public/" ++ rel] /\ reused b = [] /\ m_target m = target.
Proof using X.
  intros E. destruct (export_fresh _ _ _ _ _ _ _ _ _ (x_new _ _ _ _ _ _ _ _ _ _ _ _ _ _ _ _ _ X) E) as (image' & iw' & ih' & hash & ch & sizes' & s & B1 & B2 & B3 & B4 & B5 & B6 & B7). destruct X as [x_usable0 x_id0 x_image0 x_dims0 x_sizes0 x_new0 x_formats0 x_order0 x_good0 x_wf0 x_encodes0 x_free0]. assert (image' = image) by congruence. subst image'. assert (iw' = iw /\ ih' = ih) as [-> ->] by (split; congruence). assert (sizes' = sizes) by congruence. subst sizes'. exists s. subst m b. repeat split; assumption || reflexivity.
Qed.
Lemma meta_other a c n : 0 < a -> metadata_path rel id <> kept_file (target_art rel id) a c n /\ metadata_path rel id <> kept_file (target_out rel id) a c n.
Proof using X.
  destruct X as [U I _ _ _ _ _ _ _ _ _ _]. intros Pa. assert (R : relative (lit "metadata.json")) by (eexists; eexists; split; [reflexivity|discriminate]). pose proof (final_rel a c n Pa) as R'. split; intros E.
  - apply join2_inj in E; [|exact R|exact R']. destruct (proj2 (print_pos a Pa)) as (d & r & Ed & D). unfold final_name in E. rewrite Ed in E. change (lit "metadata.json") with (109%N :: lit "etadata.json") in E. injection E as E _. subst d. discriminate D.
  - exact (apart_join _ _ _ _ (apart_paths rel id U I) R R' E).
Qed.
Lemma listed m b f2 : export_command rel (Some id) target w h f = Ret (m, b, f2) ->
  (forall p, In p (Handlers.produced b) <-> In p (fixed rel id) \/ exists a c name fm, In (a, c) sizes /\ In (name, fm) (formats settings) /\ served fm a c /\ (p = lit "artifacts/" ++ addr a c name \/ p = lit "out/www/" ++ addr a c name)) /\
  (forall name fm keep, In (name, fm) (formats settings) -> chooses keep fm -> map (fun o => (o_width o, o_height o, o_relpath o)) (match dget name (m_outputs m) with Some l => l | None => [] end) = map (fun x => (fst x, snd x, addr (fst x) (snd x) name)) (filter keep sizes)) /\
  (forall name l, In (name, l) (m_outputs m) -> l <> [] /\ In name (map fst (formats settings))) /\ dict_wf (m_outputs m) /\
  (forall a c name fm, In (a, c) sizes -> In (name, fm) (formats settings) -> served fm a c -> exists d, dget (lit "artifacts/" ++ addr a c name) f2 = Some d /\ dget (lit "out/www/" ++ addr a c name) f2 = Some d) /\
  dget (metadata_path rel id) f2 = Some (store m).
Proof using X.
  intros E. destruct (run_images _ _ _ E) as (s & R & Mo & -> & -> & _). pose proof X as X'. destruct X' as [x_usable0 x_id0 x_image0 x_dims0 x_sizes0 x_new0 x_formats0 x_order0 x_good0 x_wf0 x_encodes0 x_free0]. pose proof (apart_paths rel id x_usable0 x_id0) as Ap.
  destruct (images_listed symlinks (encode image target) _ _ _ _ _ _ _ _ Ap x_formats0 x_order0 x_good0 x_wf0 x_encodes0 x_free0 s R) as (L1 & L2 & L3). pose proof (images_best symlinks (encode image target) _ _ _ _ _ _ _ _ Ap x_formats0 x_order0 x_good0 x_wf0 x_encodes0 x_free0 s R) as Be. destruct (images_made _ _ _ _ _ _ _ _ _ _ _ R) as [_ [So1 So2]]. rewrite Mo. split; [|split; [|split; [|split; [exact So1|split]]]].
  - intros p. rewrite L1. apply or_iff_compat_l. split; intros (a & c & name & fm & I1 & I2 & I3 & I4); exists a, c, name, fm; (split; [exact I1|]); (split; [exact I2|]); (split; [exact I3|]); pose proof (proj1 (size_pos a c I1)) as Pa.
    + rewrite (art_file rel id x_usable0 x_id0 a c name Pa), (out_file rel id x_usable0 x_id0 a c name Pa) in I4. exact I4.
    + rewrite (art_file rel id x_usable0 x_id0 a c name Pa), (out_file rel id x_usable0 x_id0 a c name Pa). exact I4.
  - intros name fm keep I K. etransitivity; [exact (L2 name fm keep I K)|]. apply map_ext_in. intros [a c] J. apply filter_In in J. cbn [fst snd]. rewrite (sub_file rel id x_usable0 x_id0 a c name (proj1 (size_pos a c (proj1 J)))). reflexivity.
  - intros name l I. pose proof (So2 name l I) as N. split; [exact N|]. destruct (in_dec (list_eq_dec N.eq_dec) name (map fst (formats settings))) as [Y|Y]; [exact Y|]. apply L3 in Y. unfold recorded in Y. rewrite (In_dget _ _ _ So1 I) in Y. contradiction.
  - intros a c name fm I1 I2 I3. destruct (Be a c name fm I1 I2 I3) as (n & e & d & _ & _ & _ & K1 & K2 & _). exists d. pose proof (proj1 (size_pos a c I1)) as Pa. destruct (meta_other a c name Pa) as [M1 M2]. rewrite <- (art_file rel id x_usable0 x_id0 a c name Pa), <- (out_file rel id x_usable0 x_id0 a c name Pa). rewrite (Base.dget_dset_other _ _ _ _ M1), (Base.dget_dset_other _ _ _ _ M2). auto.
  - apply dget_dset_same.
Qed.
Lemma exact_scan f0 sc m b f2 : scan_command rel id w h f0 = Ret sc -> dget (lit "src/public/" ++ rel) f0 = Some image -> export_command rel (Some id) target w h f = Ret (m, b, f2) ->
  (forall a c name fm, In (a, c) sizes -> In (name, fm) (formats settings) -> served fm a c) -> forall p, In p (produces sc) <-> In p (Handlers.produced b).
Proof using X.
  intros Sc Im E S p. destruct (scanned_eq _ _ _ _ _ _ Sc) as (image' & iw' & ih' & sizes' & A1 & A2 & A3 & A4 & A5). pose proof X as X'. destruct X' as [x_usable0 x_id0 x_image0 x_dims0 x_sizes0 x_new0 x_formats0 x_order0 x_good0 x_wf0 x_encodes0 x_free0]. assert (image' = image) by congruence. subst image'. assert (iw' = iw /\ ih' = ih) as [-> ->] by (split; congruence). assert (sizes' = sizes) by congruence. subst sizes'.
  rewrite A5, (proj1 (listed _ _ _ E)). apply or_iff_compat_l. split.
  - intros (a & c & [name fm] & I1 & I2 & K). exists a, c, name, fm. split; [exact I1|]. split; [exact I2|]. split; [exact (S a c name fm I1 I2)|]. unfold kept_of in K. cbn [fst] in K. pose proof (proj1 (size_pos a c I1)) as Pa. rewrite (art_file rel id x_usable0 x_id0 a c name Pa), (out_file rel id x_usable0 x_id0 a c name Pa) in K. exact K.
  - intros (a & c & name & fm & I1 & I2 & _ & K). exists a, c, (name, fm). split; [exact I1|]. split; [exact I2|]. unfold kept_of. cbn [fst]. pose proof (proj1 (size_pos a c I1)) as Pa. rewrite (art_file rel id x_usable0 x_id0 a c name Pa), (out_file rel id x_usable0 x_id0 a c name Pa). exact K.
Qed.

Lemma present m b f2 : export_command rel (Some id) target w h f = Ret (m, b, f2) ->
  (forall p, In p (Handlers.produced b) -> In p [counter_path rel; placeholder_path rel id; lock_path rel] \/ dget p f2 <> None) /\
  (forall a c name fm, In (a, c) sizes -> In (name, fm) (formats settings) -> served fm a c ->
     exists d, dget (lit "artifacts/" ++ addr a c name) f2 = Some d /\ dget (lit "out/www/" ++ addr a c name) f2 = Some d).
Proof using X.
  intros E. destruct (listed _ _ _ E) as (L1 & _ & _ & _ & L5 & L6). split; [|exact L5]. intros p I. apply L1 in I. destruct I as [[<-|I]|(a & c & name & fm & K1 & K2 & K3 & K4)]; [right; rewrite L6; discriminate|left; exact I|]. destruct (L5 a c name fm K1 K2 K3) as (d & D1 & D2). right. destruct K4 as [->| ->]; [rewrite D1|rewrite D2]; discriminate.
Qed.

(** * The picture *)
Notation picture := (picture settings).
Context (NW : named_well settings) (UB : unblank (splitext_root rel)).
Notation url_of := (url_of rel id).
Lemma unblank_forallb s : unblank s -> forallb (fun c => negb (blank c)) s = true.
Proof using. intros U. apply forallb_forall. intros c I. unfold unblank in U. rewrite Forall_forall in U. rewrite (U c I). reflexivity. Qed.
Lemma digits_unblank z : 0 < z -> forallb (fun c => negb (blank c)) (print_Z z) = true.
Proof using. intros P. destruct (print_pos z P) as [D _]. apply forallb_forall. intros c I. unfold digital in D. rewrite Forall_forall in D. rewrite (proj1 (digit_plain c (D c I))). reflexivity. Qed.
Lemma entry_good name a c : In name (map fst (formats settings)) -> 0 < a -> 0 < c -> entry_ok (addr a c name, a).
Proof using X NW UB.
  intros I Pa Pc. apply in_map_iff in I. destruct I as ([n fm] & E & I). cbn [fst] in E. subst n. destruct (NW name fm I) as [U1 U2]. pose proof (x_id _ _ _ _ _ _ _ _ _ _ _ _ _ _ _ _ _ X) as Pid. split; [|split; [|exact Pa]]; cbn [fst]; unfold address.
  - rewrite !forallb_app. rewrite (unblank_forallb _ UB), (unblank_forallb _ U1), (digits_unblank id Pid), (digits_unblank a Pa), (digits_unblank c Pc). reflexivity.
  - rewrite !app_assoc. destruct name as [|x name]; [rewrite app_nil_r; rewrite last_app by discriminate; reflexivity|]. rewrite last_app by discriminate. destruct (comma (last (x :: name) 0%N)) eqn:C; [|reflexivity]. unfold comma in C. apply N.eqb_eq in C. exfalso. apply U2. rewrite <- C.
    assert (G : forall (l : str) d, l <> [] -> In (last l d) l). { induction l as [|y l IH]; [contradiction|]. intros d _. destruct l as [|z l]; [left; reflexivity|]. right. apply (IH d). discriminate. } apply G. discriminate.
Qed.
Lemma srcset_text (l : list output) : srcset l = join (lit ", ") (map entry_text (map (fun o => (o_relpath o, o_width o)) l)).
Proof using. unfold srcset. rewrite map_map. reflexivity. Qed.
Lemma srcset_read name fm keep l : In (name, fm) (formats settings) -> map (fun o => (o_width o, o_height o, o_relpath o)) l = map (fun x => (fst x, snd x, addr (fst x) (snd x) name)) (filter keep sizes) -> candidates (srcset l) = map (url_of name) (filter keep sizes).
Proof using X NW UB.
  intros I E. rewrite srcset_text.
  assert (M : map (fun o => (o_relpath o, o_width o)) l = map (fun x => (addr (fst x) (snd x) name, fst x)) (filter keep sizes)).
  { transitivity (map (fun t : Z * Z * str => (snd t, fst (fst t))) (map (fun o => (o_width o, o_height o, o_relpath o)) l)); [rewrite map_map; reflexivity|]. rewrite E, map_map. reflexivity. }
  rewrite M, candidates_ok, map_map; [reflexivity|]. apply Forall_forall. intros e J. apply in_map_iff in J. destruct J as ([a c] & <- & J). apply filter_In in J. destruct (size_pos a c (proj1 J)) as [Pa Pc]. cbn [fst snd]. apply entry_good; [apply (in_map fst) in I; exact I|exact Pa|exact Pc].
Qed.
Definition keeps (fm : image_format) (x : Z * Z) : bool := has (x, ([], fm)).
Lemma keeps_ok fm : chooses (keeps fm) fm. Proof using. intros a c. unfold keeps. apply has_served. Qed.
Notation source_for := (source_for rel id sizes).
Lemma filter_ext_keep (k k' : Z * Z -> bool) fm : chooses k fm -> chooses k' fm -> filter k sizes = filter k' sizes.
Proof using. intros A B. apply filter_ext. intros [a c]. destruct (k (a, c)) eqn:E, (k' (a, c)) eqn:E'; try reflexivity; exfalso; [apply A, B in E|apply B, A in E']; congruence. Qed.
Lemma picture_ok m b f2 fm lazy : export_command rel (Some id) target w h f = Ret (m, b, f2) -> In (w, h) sizes -> In (default_format settings, fm) (formats settings) -> served fm w h ->
  exists sources s, picture w h lazy m = Ret ([HStart (lit "picture") []] ++ sources ++ [HEmpty (lit "img") ([(lit "width", print_Z w); (lit "height", print_Z h); (lit "src", lit "/" ++ addr w h (default_format settings)); (lit "srcset", s)] ++ (if lazy then [(lit "loading", lit "lazy")] else [])); HEnd (lit "picture")]) /\
    (forall keep, chooses keep fm -> candidates s = map (url_of (default_format settings)) (filter keep sizes)) /\
    (forall t, In t sources -> exists name fm', In (name, fm') (formats settings) /\ name <> default_format settings /\ source_for name fm' t) /\
    (forall name fm' a c, In (name, fm') (formats settings) -> name <> default_format settings -> In (a, c) sizes -> served fm' a c -> exists t, In t sources /\ source_for name fm' t).
Proof using X NW UB.
  intros E Iw Df Sv. destruct (listed _ _ _ E) as (_ & L2 & L3 & L4 & _).
  assert (Src : forall name fm' l, In (name, fm') (formats settings) -> dget name (m_outputs m) = Some l -> forall keep, chooses keep fm' -> candidates (srcset l) = map (url_of name) (filter keep sizes)).
  { intros name fm' l I D keep K. apply (srcset_read name fm' keep l I). specialize (L2 name fm' keep I K). rewrite D in L2. exact L2. }
  assert (Has : forall name fm' a c, In (name, fm') (formats settings) -> In (a, c) sizes -> served fm' a c -> exists l o, dget name (m_outputs m) = Some l /\ In o l /\ o_width o = a /\ o_height o = c).
  { intros name fm' a c I J V. specialize (L2 name fm' (keeps fm') I (keeps_ok fm')). assert (K : In (a, c, addr a c name) (map (fun x => (fst x, snd x, addr (fst x) (snd x) name)) (filter (keeps fm') sizes))) by (apply in_map_iff; exists (a, c); split; [reflexivity|]; apply filter_In; split; [exact J|apply keeps_ok; exact V]). rewrite <- L2 in K. apply in_map_iff in K. destruct K as (o & Eo & K). destruct (dget name (m_outputs m)) as [l|]; [|destruct K]. exists l, o. split; [reflexivity|]. split; [exact K|]. split; congruence. }
  destruct (Has _ _ _ _ Df Iw Sv) as (l & o & Dl & Io & Ow & Oh). unfold ImgExport.picture. rewrite Dl. destruct (find (fun o => (o_width o =? w) && (o_height o =? h)) l) as [o'|] eqn:Fo; [|exfalso; pose proof (find_none _ _ Fo o Io) as Z; cbn beta in Z; rewrite Ow, Oh, !Z.eqb_refl in Z; discriminate Z].
  apply find_some in Fo. destruct Fo as [Io' Fo]. apply andb_prop in Fo. destruct Fo as [F1 F2]. apply Z.eqb_eq in F1, F2.
  assert (Ro : o_relpath o' = addr w h (default_format settings)).
  { pose proof (L2 _ _ (keeps fm) Df (keeps_ok fm)) as M. rewrite Dl in M. assert (K : In (o_width o', o_height o', o_relpath o') (map (fun o => (o_width o, o_height o, o_relpath o)) l)) by (apply in_map_iff; exists o'; auto). rewrite M in K. apply in_map_iff in K. destruct K as ([a c] & Ea & _). cbn [fst snd] in Ea. congruence. }
  rewrite Ro. eexists. exists (srcset l). split; [reflexivity|]. split; [exact (Src _ _ _ Df Dl)|]. split.
  - intros t It. apply in_flat_map in It. destruct It as ([name l'] & I1 & I2). cbn [fst snd] in I2. destruct (str_eqb name (default_format settings)) eqn:Ne; [destruct I2|]. apply str_eqb_neq in Ne. destruct I2 as [<-|[]]. destruct (L3 _ _ I1) as [_ If]. apply in_map_iff in If. destruct If as ([n fm'] & En & If). cbn [fst] in En. subst n. exists name, fm'. split; [exact If|]. split; [exact Ne|]. eexists. split; [reflexivity|]. apply (Src name fm' l' If). apply In_dget; assumption.
  - intros name fm' a c I Ne J V. destruct (Has name fm' a c I J V) as (l' & _ & Dl' & _). exists (HEmpty (lit "source") [(lit "srcset", srcset l')]). split.
    + apply in_flat_map. exists (name, l'). split; [apply dget_In; exact Dl'|]. cbn [fst snd]. apply str_eqb_neq in Ne. rewrite Ne. left. reflexivity.
    + eexists. split; [reflexivity|]. exact (Src name fm' l' I Dl').
Qed.
Lemma picture_missing m b f2 lazy : export_command rel (Some id) target w h f = Ret (m, b, f2) -> (forall fm, In (default_format settings, fm) (formats settings) -> ~ served fm w h) -> picture w h lazy m = Raise KeyError \/ picture w h lazy m = Raise StopIteration.
Proof using X.
  intros E N. destruct (listed _ _ _ E) as (_ & L2 & L3 & L4 & _). unfold ImgExport.picture. destruct (dget (default_format settings) (m_outputs m)) as [l|] eqn:D; [|left; reflexivity]. right. destruct (find (fun o => (o_width o =? w) && (o_height o =? h)) l) as [o|] eqn:Fo; [|reflexivity]. exfalso. apply find_some in Fo. destruct Fo as [Io Fo]. apply andb_prop in Fo. destruct Fo as [F1 F2]. apply Z.eqb_eq in F1, F2.
  destruct (L3 _ _ (dget_In _ _ _ D)) as [_ If]. apply in_map_iff in If. destruct If as ([n fm] & En & If). cbn [fst] in En. subst n. specialize (L2 _ fm (keeps fm) If (keeps_ok fm)). rewrite D in L2. assert (K : In (o_width o, o_height o, o_relpath o) (map (fun o => (o_width o, o_height o, o_relpath o)) l)) by (apply in_map_iff; exists o; auto). rewrite L2 in K. apply in_map_iff in K. destruct K as ([a c] & Ea & K). cbn [fst snd] in Ea. apply filter_In in K. apply (N fm If). apply (keeps_ok fm). assert (a = w /\ c = h) as [-> ->] by (split; congruence). apply K.
Qed.
End Good.
End Build.
