(** What stays true of the folder of an image, whatever happens. *)
From Verif Require Import Base Graph Json JsonProofs PyPath Handlers OutlineData ImgSize ImgSettings ImgSettingsSpec ImgSettingsProofs ImgExport ImgExportSpec ImgBuildSpec ImgCommand ImgPage ImgTarget ImgMeta ImgMetaSpec ImgMetaProofs ImgMetaExport ImgDiskSpec ImgDiskProofs.
From Coq Require Import String ZArith NArith Bool List Lia Permutation.
Import ListNotations.
Open Scope list_scope.
Open Scope Z_scope.

Section Main.
Context (hash : str -> str) (dims : str -> res (Z * Z)) (symlinks : bool) (encode : str -> target -> Z -> Z -> str -> list (str * kval) -> res str) (settings : image_settings) (step : dec) (fuel : nat) (rel : str).
Notation happens := (happens hash dims symlinks encode settings step fuel rel).
Notation history := (history hash dims symlinks encode settings step fuel rel).
Section Known.
Context (U : usable rel) (Sr : json_safe rel) (Ss : safe_settings settings) (sh : Z) (ch : str) (Hs : hash_image_settings settings = Ret sh) (Sc : json_safe ch).
Lemma happens_spec f f' : happens f f' -> inv hash rel sh ch f -> inv hash rel sh ch f' /\ grows rel sh ch f f'.
Proof using U Sr Ss Hs Sc.
  intros H I. destruct H as [scandir t id f f' Ls C E|scandir order t w h id f f1 m b f' Ls Or C E B|f f' A H].
  - destruct (get_or_reserve_spec hash settings rel U sh ch Hs scandir t f Ls C I) as (id' & g & E' & _ & I' & G & _). rewrite E in E'. assert (g = f') by congruence. subst g. auto.
  - destruct (get_spec hash settings rel U sh ch Hs scandir t f Ls C I) as (r & g & E' & T & R). rewrite E in E'. assert (g = f1 /\ r = id) as [-> ->] by (split; congruence). destruct (touched_all hash rel U sh ch f f1 T I) as (I1 & G1 & A1). destruct id as [id|]; [|discriminate B].
    destruct R as [_ M]. apply (agree_matches rel sh ch _ _ _ _ A1 (print_slash id)) in M. destruct (build_spec hash settings rel U Sr Ss sh ch Hs Sc dims symlinks encode step order fuel Or id t w h f1 m b f' C I1 M B) as (I' & G' & _). split; [exact I'|]. exact (grows_trans _ _ _ _ _ _ G1 G').
  - split; [exact (agree_inv hash rel sh ch f f' A H I)|exact (agree_grows rel sh ch f f' A)].
Qed.
Lemma history_spec f f' : history f f' -> inv hash rel sh ch f -> inv hash rel sh ch f' /\ grows rel sh ch f f'.
Proof using U Sr Ss Hs Sc.
  intros H I. induction H as [f|f f1 f2 H IH S]; [split; [exact I|apply grows_refl]|]. destruct (IH I) as [I1 G1]. destruct (happens_spec f1 f2 S I1) as [I2 G2]. split; [exact I2|exact (grows_trans _ _ _ _ _ _ G1 G2)].
Qed.
End Known.
Lemma start f : untouched hash settings rel f -> exists sh ch, hash_image_settings settings = Ret sh /\ json_safe ch /\ inv hash rel sh ch f.
Proof.
  intros [U1 U2 U3 U4 (ch & U5 & U6) U7]. destruct (settings_defined settings U4) as [sh Hs]. exists sh, ch. split; [exact Hs|]. split; [exact U6|].
  assert (Nm : forall name, ~ In 47%N name -> dget (mp rel name) f = None) by (intros name N; apply U7; exact (RMetadata rel name N)).
  assert (Np : forall name, ~ In 47%N name -> dget (pp rel name) f = None) by (intros name N; apply U7; exact (RPlaceholder rel name N)).
  constructor; [exact U5| | | |].
  - exists 0. split; [lia|]. split; [right; split; [apply U7; exact (RCounter rel)|reflexivity]|]. intros name N [X|X]; exfalso; apply X; [exact (Nm name N)|exact (Np name N)].
  - intros name text N X. rewrite (Nm name N) in X. discriminate X.
  - intros name text N X. rewrite (Np name N) in X. discriminate X.
  - intros t a b _ Na _ M. exfalso. unfold matches in M. rewrite (Nm a Na), (Np a Na) in M. discriminate M.
Qed.

Context (f0 : fs) (Un : untouched hash settings rel f0).
Notation get_or_reserve scandir := (get_or_reserve_target scandir hash (hash_image_settings settings) rel).
Notation get scandir := (get_target scandir hash (hash_image_settings settings) rel).
Notation export order := (export_command store_text load_text dims symlinks encode settings step order fuel rel).
(** the lookup never fails, and after it the size has a number *)
Theorem scan_works f scandir t : history f0 f -> lists scandir -> crop_fit (snd t) -> exists id f', get_or_reserve scandir t f = Ret (id, f') /\ 0 < id.
Proof using Un.
  intros H Ls C. destruct (start f0 Un) as (sh & ch & Hs & Sc & I0). destruct Un as [U Sr Ss _ _ _]. destruct (history_spec U Sr Ss sh ch Hs Sc f0 f H I0) as [I _].
  destruct (get_or_reserve_spec hash settings rel U sh ch Hs scandir t f Ls C I) as (id & f' & E & P & _). exists id, f'. auto.
Qed.
Theorem found_again scandir scandir' t id f f1 f2 : lists scandir -> lists scandir' -> crop_fit (snd t) -> history f0 f -> get_or_reserve scandir t f = Ret (id, f1) -> history f1 f2 ->
  exists f3, get scandir' t f2 = Ret (Some id, f3) /\ get_or_reserve scandir' t f2 = Ret (id, f3).
Proof using Un.
  intros Ls Ls' C H E H2. destruct (start f0 Un) as (sh & ch & Hs & Sc & I0). destruct Un as [U Sr Ss _ _ _]. destruct (history_spec U Sr Ss sh ch Hs Sc f0 f H I0) as [I _].
  destruct (get_or_reserve_spec hash settings rel U sh ch Hs scandir t f Ls C I) as (id' & g & E' & P & I1 & _ & M). rewrite E in E'. assert (id' = id /\ g = f1) as [-> ->] by (split; congruence).
  destruct (history_spec U Sr Ss sh ch Hs Sc f1 f2 H2 I1) as [I2 G2]. apply (proj1 G2 t _ C (print_slash id)) in M.
  destruct (get_spec hash settings rel U sh ch Hs scandir' t f2 Ls' C I2) as (r & f3 & E3 & _ & R). exists f3. destruct r as [z|]; [|exfalso; exact (R _ (print_slash id) (print_nil id) M)]. destruct R as [_ R]. pose proof (i_uniq _ _ _ _ _ I2 t _ _ C (print_slash z) (print_slash id) R M) as Q. apply print_inj in Q. subst z. split; [exact E3|]. unfold get_or_reserve_target. rewrite E3. reflexivity.
Qed.
Theorem apart_numbers scandir scandir' t t' id id' f f1 f2 f3 : lists scandir -> lists scandir' -> crop_fit (snd t) -> crop_fit (snd t') -> history f0 f -> get_or_reserve scandir t f = Ret (id, f1) -> history f1 f2 -> get_or_reserve scandir' t' f2 = Ret (id', f3) -> t <> t' -> id <> id'.
Proof using Un.
  intros Ls Ls' C C' H E H2 E2 N <-. destruct (start f0 Un) as (sh & ch & Hs & Sc & I0). destruct Un as [U Sr Ss _ _ _]. destruct (history_spec U Sr Ss sh ch Hs Sc f0 f H I0) as [I _].
  destruct (get_or_reserve_spec hash settings rel U sh ch Hs scandir t f Ls C I) as (i & g & E' & P & I1 & _ & M). rewrite E in E'. assert (i = id /\ g = f1) as [-> ->] by (split; congruence).
  destruct (history_spec U Sr Ss sh ch Hs Sc f1 f2 H2 I1) as [I2 G2]. apply (proj1 G2 t _ C (print_slash id)) in M.
  destruct (get_or_reserve_spec hash settings rel U sh ch Hs scandir' t' f2 Ls' C' I2) as (i' & g' & E3 & _ & I3 & G3 & M'). rewrite E2 in E3. assert (i' = id /\ g' = f3) as [-> ->] by (split; congruence). apply (proj1 G3 t _ C (print_slash id)) in M.
  unfold matches in M, M'. destruct (dget (mp rel (print_Z id)) f3) as [text|].
  - destruct M as (m & G & -> & T). destruct M' as (m' & G' & Q & T'). apply store_inj in Q; [|exact (proj1 G)|exact (proj1 G')]. congruence.
  - apply N. apply (place_inj _ _ C C'). congruence.
Qed.
Theorem build_once scandir scandir' order order' t w h w' h' id f f1 m b f2 f3 id' f4 m' b' f5 :
  lists scandir -> lists scandir' -> any_order order -> any_order order' -> crop_fit (snd t) -> history f0 f ->
  get scandir t f = Ret (id, f1) -> export order id t w h f1 = Ret (m, b, f2) -> history f2 f3 ->
  get scandir' t f3 = Ret (id', f4) -> export order' id' t w' h' f4 = Ret (m', b', f5) -> id' = id /\ m' = m /\ m_target m = t.
Proof using Un.
  intros Ls Ls' Or Or' C H E B H2 E2 B2. destruct (start f0 Un) as (sh & ch & Hs & Sc & I0). destruct Un as [U Sr Ss _ _ _]. destruct (history_spec U Sr Ss sh ch Hs Sc f0 f H I0) as [I _].
  destruct (get_spec hash settings rel U sh ch Hs scandir t f Ls C I) as (r & g & E' & T & R). rewrite E in E'. assert (g = f1 /\ r = id) as [-> ->] by (split; congruence). destruct (touched_all hash rel U sh ch f f1 T I) as (I1 & _ & A1). destruct id as [id|]; [|discriminate B]. destruct R as [_ M]. apply (agree_matches rel sh ch _ _ _ _ A1 (print_slash id)) in M.
  destruct (build_spec hash settings rel U Sr Ss sh ch Hs Sc dims symlinks encode step order fuel Or id t w h f1 m b f2 C I1 M B) as (I2 & G2 & Gm & Tm & K). apply (proj1 G2 t _ C (print_slash id)) in M.
  destruct (history_spec U Sr Ss sh ch Hs Sc f2 f3 H2 I2) as [I3 G3]. apply (proj1 G3 t _ C (print_slash id)) in M. apply (proj2 G3 _ _ (print_slash id)) in K.
  destruct (get_spec hash settings rel U sh ch Hs scandir' t f3 Ls' C I3) as (r4 & g4 & E4 & T' & R). rewrite E2 in E4. assert (g4 = f4 /\ r4 = id') as [-> ->] by (split; congruence). destruct (touched_all hash rel U sh ch f3 f4 T' I3) as (I4 & _ & A4). destruct id' as [z|]; [|discriminate B2]. destruct R as [_ R]. pose proof (i_uniq _ _ _ _ _ I3 t _ _ C (print_slash z) (print_slash id) R M) as Q. apply print_inj in Q. subst z.
  rewrite <- (agree_mp rel _ _ _ A4 (print_slash id)) in K. apply (agree_matches rel sh ch _ _ _ _ A4 (print_slash id)) in R.
  destruct (build_spec hash settings rel U Sr Ss sh ch Hs Sc dims symlinks encode step order' fuel Or' id t w' h' f4 m' b' f5 C I4 R B2) as (I5 & G5 & Gm' & _ & K'). apply (proj2 G5 _ _ (print_slash id)) in K. split; [reflexivity|]. split; [|exact Tm]. apply store_inj; [exact (proj1 Gm')|exact (proj1 Gm)|congruence].
Qed.
End Main.

(** * Files cut short *)
Lemma find_none rel sh ch t names : forall f f' name, find_in rel sh ch t names f = Ret (None, f') -> In name names -> usable rel -> has_folder (join2 (source_art rel) name) f = true -> ~ In 47%N name -> name <> [] ->
  match dget (mp rel name) f with Some text => exists m, load_text text = Ret m /\ (m_settings_hash m = sh -> m_contents_hash m = ch) | None => forall text, dget (pp rel name) f = Some text -> exists p, load_placeholder text = Ret p end.
Proof.
  intros f f' name E I U. revert f f' E I. induction names as [|n names IH]; intros f f' E I Hf S N; [destruct I|]. cbn [find_in] in E. cbv zeta in E.
  assert (K : forall g, g = f \/ g = touch (lock_path rel) f -> dget (mp rel name) g = dget (mp rel name) f /\ dget (pp rel name) g = dget (pp rel name) f /\ has_folder (join2 (source_art rel) name) g = true).
  { intros g [->| ->]; [auto|]. split; [apply touch_other; apply lock_art; exact U|]. split; [apply touch_other; apply lock_art; exact U|]. rewrite (entry_eq rel U name N S) in *. rewrite <- app_assoc in *. rewrite (folder_touch rel U). exact Hf. }
  assert (Next : forall g, g = f \/ g = touch (lock_path rel) f -> find_in rel sh ch t names g = Ret (None, f') -> In name names -> match dget (mp rel name) f with Some text => exists m, load_text text = Ret m /\ (m_settings_hash m = sh -> m_contents_hash m = ch) | None => forall text, dget (pp rel name) f = Some text -> exists p, load_placeholder text = Ret p end).
  { intros g G Eg Ig. destruct (K g G) as (K1 & K2 & K3). pose proof (IH g f' Eg Ig K3 S N) as X. rewrite K1, K2 in X. exact X. }
  destruct I as [->|I].
  - rewrite Hf in E. cbn [negb] in E. rewrite (mp_eq rel U name N S), (pp_eq rel U name N S) in E. destruct (dget (mp rel name) f) as [text|] eqn:Em.
    + destruct (load_text text) as [m|e] eqn:L; [|discriminate E]. exists m. split; [reflexivity|]. intros Hq. rewrite Hq, Z.eqb_refl in E. cbn [negb] in E. destruct (str_eqb (m_contents_hash m) ch) eqn:Q; [apply str_eqb_eq; exact Q|discriminate E].
    + intros text X. rewrite (touch_other _ (pp rel name) f (lock_art rel U _)), X in E. destruct (load_placeholder text) as [p|e] eqn:L; [exists p; reflexivity|discriminate E].
  - destruct (has_folder (join2 (source_art rel) n) f); cbn [negb] in E; [|exact (Next f (or_introl eq_refl) E I)]. destruct (dget (join2 (join2 (source_art rel) n) (lit "metadata.json")) f) as [text|].
    + destruct (load_text text) as [m|e]; [|discriminate E]. destruct (negb (m_settings_hash m =? sh)); [exact (Next f (or_introl eq_refl) E I)|]. destruct (negb (str_eqb (m_contents_hash m) ch)); [discriminate E|]. destruct (negb (target_eqb (m_target m) t)); [exact (Next f (or_introl eq_refl) E I)|]. destruct (int_of n); discriminate E.
    + destruct (dget (join2 (join2 (source_art rel) n) (lit "placeholder.json")) (touch (lock_path rel) f)) as [text|]; [|exact (Next _ (or_intror eq_refl) E I)]. destruct (load_placeholder text) as [p|e]; [|discriminate E]. destruct (target_eqb p t); [destruct (int_of n); discriminate E|]. exact (Next _ (or_intror eq_refl) E I).
Qed.
(** a number whose placeholder was cut short stops every lookup that would reserve a number *)
Theorem torn_stops scandir hash settings rel t (f : fs) name p q t' : usable rel -> lists scandir -> dget (lit "src/public/" ++ rel) f <> None -> ~ In 47%N name -> name <> [] -> crop_fit (snd t') ->
  dget (lit "artifacts/" ++ splitext_root rel ++ lit "/" ++ name ++ lit "/metadata.json") f = None ->
  dget (lit "artifacts/" ++ splitext_root rel ++ lit "/" ++ name ++ lit "/placeholder.json") f = Some p -> placeholder_text t' = p ++ q -> q <> [] ->
  forall f', get_target scandir hash settings rel t f <> Ret (None, f').
Proof.
  intros U Ls Im S N C Dm Dp Q Nq f' E. unfold get_target in E. destruct (dget (lit "src/public/" ++ rel) f) as [image|] eqn:Ei; [|contradiction].
  assert (Hd : exists r, dget ((lit "artifacts/" ++ splitext_root rel) ++ lit "/" ++ name ++ lit "/" ++ r) f <> None) by (exists (lit "placeholder.json"); rewrite <- app_assoc; change (lit "/" ++ lit "placeholder.json") with (lit "/placeholder.json"); rewrite Dp; discriminate). destruct Hd as [r Hd].
  assert (H1 : has_folder (lit "artifacts/" ++ splitext_root rel) f = true) by (apply has_folder_iff; eexists; exact Hd).
  rewrite (art_eq rel U), H1 in E. cbn [negb] in E. cbv zeta in E. destruct settings as [sh|e]; [|discriminate E].
  assert (I : In name (scandir (names_in (lit "artifacts/" ++ splitext_root rel) f))).
  { apply (Permutation_in _ (Ls _)). apply names_in_iff. split; [exact N|]. exists (name ++ lit "/" ++ r). split; [symmetry; exact (component_app name r S)|exact Hd]. }
  pose proof (find_none rel sh _ t _ f f' name E I U) as X. rewrite (entry_eq rel U name N S) in X. fold (mp rel name) in Dm. fold (pp rel name) in Dp. rewrite Dm, Dp in X. destruct (X ltac:(apply has_folder_iff; exists r; rewrite <- !app_assoc in *; exact Hd) S N p eq_refl) as [p' L]. rewrite (placeholder_torn t' p q C Q Nq) in L. discriminate L.
Qed.

(** so does a record of an earlier version of the image under the same settings *)
Theorem edited_stops scandir hash sh ch rel t (f : fs) name m : usable rel -> lists scandir -> contents_hash hash rel f = Some ch -> ~ In 47%N name -> name <> [] ->
  dget (lit "artifacts/" ++ splitext_root rel ++ lit "/" ++ name ++ lit "/metadata.json") f = Some (store_text m) -> recordable m -> m_settings_hash m = sh -> m_contents_hash m <> ch ->
  forall f', get_target scandir hash (Ret sh) rel t f <> Ret (None, f').
Proof.
  intros U Ls Ch S N Dm R Hs Hc f' E. unfold get_target in E. cbv zeta in E. unfold contents_hash in Ch. destruct (dget (lit "src/public/" ++ rel) f) as [image|]; [|discriminate Ch]. assert (Q : match dget (lit "out/www/" ++ rel ++ lit ".hash") f with Some h => h | None => hash image end = ch) by congruence. rewrite Q in E.
  assert (Hd : exists r, dget ((lit "artifacts/" ++ splitext_root rel) ++ lit "/" ++ name ++ lit "/" ++ r) f <> None) by (exists (lit "metadata.json"); rewrite <- app_assoc; change (lit "/" ++ lit "metadata.json") with (lit "/metadata.json"); rewrite Dm; discriminate). destruct Hd as [r Hd].
  assert (H1 : has_folder (lit "artifacts/" ++ splitext_root rel) f = true) by (apply has_folder_iff; eexists; exact Hd). rewrite (art_eq rel U), H1 in E. cbn [negb] in E.
  assert (I : In name (scandir (names_in (lit "artifacts/" ++ splitext_root rel) f))).
  { apply (Permutation_in _ (Ls _)). apply names_in_iff. split; [exact N|]. exists (name ++ lit "/" ++ r). split; [symmetry; exact (component_app name r S)|exact Hd]. }
  pose proof (find_none rel sh _ t _ f f' name E I U) as X. rewrite (entry_eq rel U name N S) in X. fold (mp rel name) in Dm. rewrite Dm in X. destruct (X ltac:(apply has_folder_iff; exists r; rewrite <- !app_assoc in *; exact Hd) S N) as (m' & L & K). rewrite (record_read m R) in L. assert (m' = m) by congruence. subst m'. exact (Hc (K Hs)).
Qed.

(** * Looking leaves the sources alone *)
Lemma find_touched rel sh ch t names : forall f r f', find_in rel sh ch t names f = Ret (r, f') -> touched rel f f'.
Proof.
  assert (St : forall f, touched rel f f) by (left; reflexivity).
  assert (Tr : forall f f', touched rel (touch (lock_path rel) f) f' -> touched rel f f') by (intros f f' [->| ->]; right; [reflexivity|apply touch_twice]).
  induction names as [|n names IH]; intros f r f' E; cbn [find_in] in E; [assert (f' = f) as -> by congruence; apply St|]. cbv zeta in E.
  destruct (negb _); [exact (IH _ _ _ E)|]. destruct (dget _ f) as [text|].
  - destruct (load_text text) as [m|]; [|discriminate E]. destruct (negb _); [exact (IH _ _ _ E)|]. destruct (negb _); [discriminate E|]. destruct (negb _); [exact (IH _ _ _ E)|]. destruct (int_of n); [|discriminate E]. assert (f' = f) as -> by congruence. apply St.
  - apply Tr. destruct (dget _ (touch _ f)) as [text|]; [|exact (IH _ _ _ E)]. destruct (load_placeholder text) as [p|]; [|discriminate E]. destruct (target_eqb p t); [|exact (IH _ _ _ E)]. destruct (int_of n); [|discriminate E]. assert (f' = touch (lock_path rel) f) as -> by congruence. apply St.
Qed.
Lemma get_sources scandir hash settings rel t (f : fs) r f' : usable rel -> get_target scandir hash settings rel t f = Ret (r, f') -> forall p, dget (lit "src/" ++ p) f' = dget (lit "src/" ++ p) f.
Proof.
  intros U E p. assert (T : touched rel f f').
  { unfold get_target in E. cbv zeta in E. destruct (dget (lit "src/public/" ++ rel) f); [|left; congruence]. destruct (negb _); [left; congruence|]. destruct settings as [sh|]; [|discriminate E]. exact (find_touched _ _ _ _ _ _ _ _ E). }
  destruct T as [->| ->]; [reflexivity|]. apply touch_other. rewrite (lock_eq rel U). discriminate.
Qed.
Theorem lookup_sources scandir hash settings rel t (f : fs) id f' : usable rel -> get_or_reserve_target scandir hash settings rel t f = Ret (id, f') -> forall p, dget (lit "src/" ++ p) f' = dget (lit "src/" ++ p) f.
Proof.
  intros U E p. unfold get_or_reserve_target in E. destruct (get_target scandir hash settings rel t f) as [[[z|] g]|] eqn:G; [| |discriminate E].
  - assert (f' = g) as -> by congruence. exact (get_sources _ _ _ _ _ _ _ _ U G p).
  - rewrite <- (get_sources _ _ _ _ _ _ _ _ U G p). unfold reserve_target in E. cbv zeta in E. destruct (match dget (counter_path rel) (touch (lock_path rel) g) with None => Ret 0 | Some s => int_of s end) as [c|]; [|discriminate E]. apply IconManipProofs.Ret_inj in E. assert (f' = dset (placeholder_path rel (c + 1)) (placeholder_text t) (dset (counter_path rel) (print_Z (c + 1)) (touch (lock_path rel) g))) as -> by congruence.
    rewrite (pp_id rel U), (cp_eq rel U), !Base.dget_dset_other by discriminate. apply touch_other. rewrite (lock_eq rel U). discriminate.
Qed.
