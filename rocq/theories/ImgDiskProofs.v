(** Folders of images over time. *)
From Verif Require Import Base Graph Json JsonProofs JsonLoadProofs PyStr PyPath PyNorm Handlers Html HtmlTemplate OutlineData IconManipProofs ImgSize ImgSettings ImgSettingsSpec ImgSettingsProofs ImgExport ImgExportSpec ImgExportProofs ImgBuildSpec ImgBuildProofs ImgBuildMain ImgCommand ImgPage ImgTarget ImgTargetProofs ImgMeta ImgMetaSpec ImgMetaProofs ImgMetaExport ImgDiskSpec GlueAgree.
From Coq Require Import String ZArith NArith Bool List Lia Permutation.
Import ListNotations.
Open Scope list_scope.
Open Scope Z_scope.

(** * Folders *)
Lemma key_iff {A} p (f : list (str * A)) : In p (dkeys f) <-> dget p f <> None.
Proof.
  induction f as [|[k v] f IH]; [split; [intros []|intros X; exfalso; apply X; reflexivity]|]. cbn [dkeys map fst In dget]. destruct (str_eqb p k) eqn:E; [apply str_eqb_eq in E; subst k; split; [discriminate|auto]|]. apply str_eqb_neq in E. unfold dkeys in IH. rewrite <- IH. split; [intros [X|X]; [congruence|exact X]|auto].
Qed.
Lemma has_folder_iff d f : has_folder d f = true <-> exists r, dget (d ++ lit "/" ++ r) f <> None.
Proof.
  unfold has_folder. rewrite existsb_exists. split.
  - intros (p & I & S). apply starts_with_iff in S. destruct S as [r ->]. exists r. rewrite <- app_assoc in I. apply key_iff. exact I.
  - intros (r & X). exists (d ++ lit "/" ++ r). split; [apply key_iff; exact X|]. apply starts_with_iff. exists r. rewrite <- app_assoc. reflexivity.
Qed.
Lemma strip_iff p : forall s r, strip p s = Some r <-> s = p ++ r.
Proof.
  induction p as [|a p IH]; intros s r; cbn [strip app]; [split; congruence|]. destruct s as [|b s]; [split; discriminate|]. destruct (N.eqb_spec a b) as [->|N]; [rewrite IH; split; congruence|split; congruence].
Qed.
Lemma component_slash s : ~ In 47%N (component s).
Proof. induction s as [|c s IH]; [intros []|]. cbn [component]. destruct (N.eqb_spec c 47) as [->|N]; [intros []|]. intros [X|X]; [exact (N X)|exact (IH X)]. Qed.
Lemma component_app a b : ~ In 47%N a -> component (a ++ 47%N :: b) = a.
Proof. induction a as [|c a IH]; intros N; [reflexivity|]. cbn [app component]. destruct (N.eqb_spec c 47) as [->|X]; [exfalso; apply N; left; reflexivity|]. rewrite IH; [reflexivity|]. intros Y. apply N. right. exact Y. Qed.
Lemma names_in_iff d f name : In name (names_in d f) <-> name <> [] /\ exists r, name = component r /\ dget (d ++ lit "/" ++ r) f <> None.
Proof.
  unfold names_in. rewrite nodup_In, in_flat_map. split.
  - intros (p & I & X). destruct (strip (d ++ lit "/") p) as [r|] eqn:S; [|destruct X]. apply strip_iff in S. subst p. destruct (component r) as [|c n] eqn:C; [destruct X|]. destruct X as [<-|[]]. split; [discriminate|]. exists r. split; [congruence|]. rewrite <- app_assoc in I. apply key_iff. exact I.
  - intros (N & r & -> & X). exists (d ++ lit "/" ++ r). split; [apply key_iff; exact X|]. assert (S : strip (d ++ lit "/") (d ++ lit "/" ++ r) = Some r) by (apply strip_iff; rewrite <- app_assoc; reflexivity). rewrite S. destruct (component r); [contradiction|]. left. reflexivity.
Qed.
Lemma touch_other p q f : p <> q -> dget q (touch p f) = dget q f.
Proof. intros N. unfold touch. destruct (dmem p f); [reflexivity|]. apply Base.dget_dset_other. exact N. Qed.
Lemma touch_twice p f : touch p (touch p f) = touch p f.
Proof.
  unfold touch at 1. destruct (dmem p (touch p f)) eqn:E; [reflexivity|]. exfalso. unfold touch in E. destruct (dmem p f) eqn:M; [congruence|]. unfold dmem in E. rewrite Base.dget_dset_same in E. discriminate E.
Qed.
Lemma before_dot_dot s : forall p, before_last_dot s = Some p -> exists t, s = p ++ 46%N :: t.
Proof. induction s as [|c s IH]; [discriminate|]. intros p. cbn [before_last_dot]. destruct (before_last_dot s) as [q|]; [intros H; injection H as <-; destruct (IH q eq_refl) as [t ->]; exists t; reflexivity|]. destruct (N.eqb_spec c 46) as [->|]; [|discriminate]. intros H. injection H as <-. exists s. reflexivity. Qed.
Lemma splitext_dot s : s = splitext_root s \/ exists t, s = splitext_root s ++ 46%N :: t.
Proof.
  unfold splitext_root. pose proof (cut_last_whole s) as W. destruct (cut_last s) as [h b]. cbn [fst snd] in W. destruct (before_last_dot b) as [p|] eqn:B; [|left; reflexivity]. destruct (forallb (N.eqb 46) p); [left; reflexivity|]. apply before_dot_dot in B. destruct B as [t ->]. right. exists t. rewrite <- app_assoc. symmetry. exact W.
Qed.
Lemma print_head z : exists c r, print_Z z = c :: r /\ (is_digit c = true \/ c = 45%N).
Proof.
  destruct z as [|p|p]; [exists 48%N, []; split; [reflexivity|left; reflexivity]| |].
  - destruct (proj2 (print_pos (Zpos p) eq_refl)) as (c & r & E & D). exists c, r. auto.
  - cbn [print_Z]. eexists. eexists. split; [reflexivity|right; reflexivity].
Qed.
Lemma print_slash z : ~ In 47%N (print_Z z).
Proof.
  assert (G : forall n, ~ In 47%N (print_N n)). { intros n X. destruct (print_N_spec n) as (ds & E & _ & F & _). rewrite E in X. rewrite Forall_forall in F. apply F in X. discriminate X. }
  destruct z as [|p|p]; cbn [print_Z]; [apply (G 0%N)|apply G|]. intros [X|X]; [discriminate X|exact (G _ X)].
Qed.

Section Disk.
Context (hash : str -> str) (settings : image_settings) (rel : str).
Context (U : usable rel) (Sr : json_safe rel) (Ss : safe_settings settings) (sh : Z) (ch : str) (Hs : hash_image_settings settings = Ret sh) (Sc : json_safe ch).
Notation root := (splitext_root rel).
Definition mp (name : str) : str := lit "artifacts/" ++ root ++ lit "/" ++ name ++ lit "/metadata.json".
Definition pp (name : str) : str := lit "artifacts/" ++ root ++ lit "/" ++ name ++ lit "/placeholder.json".
Definition cp : str := lit "artifacts/" ++ root ++ lit "/counter.txt".
Notation D := (lit "artifacts/" ++ root).
Lemma art_eq : source_art rel = D.
Proof using U. unfold source_art. rewrite join2_file; [reflexivity|discriminate|discriminate|exact (proj1 U)]. Qed.
Lemma D_nil : D <> []. Proof using. discriminate. Qed.
Lemma D_last : last D 0%N <> 47%N.
Proof using U. rewrite last_app; [exact (proj2 U)|]. destruct U as [(c & r & E & _) _]. rewrite E. discriminate. Qed.
Lemma entry_eq name : name <> [] -> ~ In 47%N name -> join2 (source_art rel) name = D ++ lit "/" ++ name.
Proof using U. intros N S. rewrite art_eq. apply join2_file; [exact D_nil|exact D_last|]. destruct name as [|c r]; [contradiction|]. exists c, r. split; [reflexivity|]. intros ->. apply S. left. reflexivity. Qed.
Lemma file_eq name x : name <> [] -> ~ In 47%N name -> (exists c r, x = c :: r /\ c <> 47%N) -> join2 (join2 (source_art rel) name) x = lit "artifacts/" ++ root ++ lit "/" ++ name ++ lit "/" ++ x.
Proof using U.
  intros N S X. rewrite (entry_eq name N S), join2_file; [rewrite <- !app_assoc; reflexivity|discriminate| |exact X]. rewrite app_assoc, last_app by exact N. intros L. apply S. rewrite <- L. clear - N. induction name as [|c r IH]; [contradiction|]. destruct r as [|d r]; [left; reflexivity|]. right. apply IH. discriminate.
Qed.
Lemma mp_eq name : name <> [] -> ~ In 47%N name -> join2 (join2 (source_art rel) name) (lit "metadata.json") = mp name.
Proof using U. intros N S. apply file_eq; [exact N|exact S|]. eexists; eexists; split; [reflexivity|discriminate]. Qed.
Lemma pp_eq name : name <> [] -> ~ In 47%N name -> join2 (join2 (source_art rel) name) (lit "placeholder.json") = pp name.
Proof using U. intros N S. apply file_eq; [exact N|exact S|]. eexists; eexists; split; [reflexivity|discriminate]. Qed.
Lemma print_nil z : print_Z z <> []. Proof using. destruct (print_head z) as (c & r & E & _). rewrite E. discriminate. Qed.
Lemma mp_id z : metadata_path rel z = mp (print_Z z). Proof using U. exact (mp_eq _ (print_nil z) (print_slash z)). Qed.
Lemma pp_id z : placeholder_path rel z = pp (print_Z z). Proof using U. exact (pp_eq _ (print_nil z) (print_slash z)). Qed.
Lemma cp_eq : counter_path rel = cp.
Proof using U. unfold counter_path. rewrite art_eq, join2_file; [unfold cp; rewrite <- app_assoc; reflexivity|exact D_nil|exact D_last|]. eexists; eexists; split; [reflexivity|discriminate]. Qed.
Lemma mp_inj a b : mp a = mp b -> a = b.
Proof using. unfold mp. intros E. apply app_inv_head in E. apply app_inv_head in E. apply app_inv_head in E. apply app_inv_tail in E. exact E. Qed.
Lemma pp_inj a b : pp a = pp b -> a = b.
Proof using. unfold pp. intros E. apply app_inv_head in E. apply app_inv_head in E. apply app_inv_head in E. apply app_inv_tail in E. exact E. Qed.
Definition tail5 (s : str) : N := nth 5 (rev s) 0%N.
Lemma mp_tail a : tail5 (mp a) = 97%N. Proof using. unfold tail5, mp. rewrite !rev_app_distr. reflexivity. Qed.
Lemma pp_tail a : tail5 (pp a) = 114%N. Proof using. unfold tail5, pp. rewrite !rev_app_distr. reflexivity. Qed.
Lemma cp_tail : tail5 cp = 101%N. Proof using. unfold tail5, cp. rewrite !rev_app_distr. reflexivity. Qed.
Lemma mp_pp a b : mp a <> pp b. Proof using. intros E. apply (f_equal tail5) in E. rewrite mp_tail, pp_tail in E. discriminate E. Qed.
Lemma mp_cp a : mp a <> cp. Proof using. intros E. apply (f_equal tail5) in E. rewrite mp_tail, cp_tail in E. discriminate E. Qed.
Lemma pp_cp a : pp a <> cp. Proof using. intros E. apply (f_equal tail5) in E. rewrite pp_tail, cp_tail in E. discriminate E. Qed.
Lemma lock_eq : lock_path rel = lit "out/locks/" ++ root ++ lit "/reserve_target.lock".
Proof using U.
  destruct U as [U1 U2]. unfold lock_path, join_path. cbn [fold_left]. rewrite (join2_file (lit "out") (lit "locks")); [|discriminate|discriminate|eexists; eexists; split; [reflexivity|discriminate]]. rewrite (join2_file _ root); [|discriminate|discriminate|exact U1]. rewrite join2_file; [rewrite <- !app_assoc; reflexivity|discriminate| |eexists; eexists; split; [reflexivity|discriminate]].
  rewrite !app_assoc, last_app; [exact U2|]. destruct U1 as (c & r & E & _). rewrite E. discriminate.
Qed.
Lemma lock_art p : lock_path rel <> lit "artifacts/" ++ p. Proof using U. rewrite lock_eq. discriminate. Qed.
Lemma lock_src p : lock_path rel <> lit "src/public/" ++ p. Proof using U. rewrite lock_eq. discriminate. Qed.
Lemma lock_www p : lock_path rel <> lit "out/www/" ++ p. Proof using U. rewrite lock_eq. discriminate. Qed.

(** * The invariant *)
Definition good (m : metadata target) : Prop :=
  recordable m /\ m_settings_hash m = sh /\ m_contents_hash m = ch /\ forall name l o, In (name, l) (m_outputs m) -> In o l -> exists x, o_relpath o = root ++ lit "/" ++ x.
Definition matches (t : target) (f : fs) (name : str) : Prop :=
  match dget (mp name) f with
  | Some text => exists m, good m /\ text = store_text m /\ m_target m = t
  | None => dget (pp name) f = Some (placeholder_text t)
  end.
Record inv (f : fs) : Prop := {
  i_hash : contents_hash hash rel f = Some ch;
  i_count : exists n, 0 <= n /\ (dget cp f = Some (print_Z n) \/ (dget cp f = None /\ n = 0)) /\
    forall name, ~ In 47%N name -> dget (mp name) f <> None \/ dget (pp name) f <> None -> exists z, 0 < z <= n /\ name = print_Z z;
  i_meta : forall name text, ~ In 47%N name -> dget (mp name) f = Some text -> exists m, text = store_text m /\ good m;
  i_place : forall name text, ~ In 47%N name -> dget (pp name) f = Some text -> exists t, text = placeholder_text t /\ crop_fit (snd t);
  i_uniq : forall t name name', crop_fit (snd t) -> ~ In 47%N name -> ~ In 47%N name' -> matches t f name -> matches t f name' -> name = name'
}.
Definition agree (f f' : fs) : Prop := forall p, record_file rel p -> dget p f' = dget p f.
Lemma agree_mp f f' name : agree f f' -> ~ In 47%N name -> dget (mp name) f' = dget (mp name) f. Proof using. intros A N. apply A. exact (RMetadata rel name N). Qed.
Lemma agree_pp f f' name : agree f f' -> ~ In 47%N name -> dget (pp name) f' = dget (pp name) f. Proof using. intros A N. apply A. exact (RPlaceholder rel name N). Qed.
Lemma agree_cp f f' : agree f f' -> dget cp f' = dget cp f. Proof using. intros A. apply A. exact (RCounter rel). Qed.
Lemma agree_matches f f' t name : agree f f' -> ~ In 47%N name -> (matches t f' name <-> matches t f name).
Proof using. intros A N. unfold matches. rewrite (agree_mp _ _ _ A N), (agree_pp _ _ _ A N). reflexivity. Qed.
Lemma agree_inv f f' : agree f f' -> contents_hash hash rel f' = contents_hash hash rel f -> inv f -> inv f'.
Proof using.
  intros A H [I1 (n & P & C & B) I3 I4 I5]. constructor.
  - rewrite H. exact I1.
  - exists n. split; [exact P|]. rewrite (agree_cp _ _ A). split; [exact C|]. intros name N. rewrite (agree_mp _ _ _ A N), (agree_pp _ _ _ A N). exact (B name N).
  - intros name text N. rewrite (agree_mp _ _ _ A N). exact (I3 name text N).
  - intros name text N. rewrite (agree_pp _ _ _ A N). exact (I4 name text N).
  - intros t a b F Na Nb Ma Mb. apply (agree_matches _ _ _ _ A Na) in Ma. apply (agree_matches _ _ _ _ A Nb) in Mb. exact (I5 t a b F Na Nb Ma Mb).
Qed.
Lemma touch_agree f : agree f (touch (lock_path rel) f).
Proof using U. intros p R. apply touch_other. destruct R; apply lock_art. Qed.
Lemma touch_hash f : contents_hash hash rel (touch (lock_path rel) f) = contents_hash hash rel f.
Proof using U. unfold contents_hash. rewrite (touch_other _ _ _ (lock_src rel)), (touch_other _ _ _ (lock_www (rel ++ lit ".hash"))). reflexivity. Qed.
Lemma store_inj m m' : recordable m -> recordable m' -> store_text m = store_text m' -> m = m'.
Proof using. intros R R' E. apply record_read in R, R'. congruence. Qed.
Lemma place_inj t t' : crop_fit (snd t) -> crop_fit (snd t') -> placeholder_text t = placeholder_text t' -> t = t'.
Proof using. intros R R' E. apply placeholder_read in R, R'. congruence. Qed.

(** * Looking *)
Definition touched (f f' : fs) : Prop := f' = f \/ f' = touch (lock_path rel) f.
Lemma folder_touch d f : has_folder (lit "artifacts/" ++ d) (touch (lock_path rel) f) = has_folder (lit "artifacts/" ++ d) f.
Proof using U.
  apply eq_true_iff_eq. rewrite !has_folder_iff. split; intros (r & X); exists r; (rewrite touch_other in * by (rewrite <- app_assoc; apply lock_art)); exact X.
Qed.
Lemma int_name z : int_of (print_Z z) = Ret z. Proof using. apply int_print. Qed.
Lemma find_spec t names : crop_fit (snd t) -> forall f, inv f -> (forall name, In name names -> name <> [] /\ ~ In 47%N name) ->
  exists r f', find_in rel sh ch t names f = Ret (r, f') /\ touched f f' /\
    match r with
    | Some z => 0 < z /\ In (print_Z z) names /\ matches t f (print_Z z)
    | None => forall name, In name names -> has_folder (D ++ lit "/" ++ name) f = true -> ~ matches t f name
    end.
Proof using U.
  intros C. induction names as [|name names IH]; intros f I L; [exists None, f; split; [reflexivity|]; split; [left; reflexivity|intros name []]|].
  destruct (L name (or_introl eq_refl)) as [N S]. assert (L' : forall name, In name names -> name <> [] /\ ~ In 47%N name) by (intros x X; apply L; right; exact X). cbn [find_in]. cbv zeta. rewrite (mp_eq name N S), (pp_eq name N S), (entry_eq name N S).
  assert (Next : forall g, touched f g -> (has_folder (D ++ lit "/" ++ name) f = true -> ~ matches t f name) -> exists r f', find_in rel sh ch t names g = Ret (r, f') /\ touched f f' /\
     match r with Some z => 0 < z /\ In (print_Z z) (name :: names) /\ matches t f (print_Z z) | None => forall x, In x (name :: names) -> has_folder (D ++ lit "/" ++ x) f = true -> ~ matches t f x end).
  { intros g T M. assert (Ig : inv g) by (destruct T as [->| ->]; [exact I|exact (agree_inv _ _ (touch_agree f) (touch_hash f) I)]). destruct (IH g Ig L') as (r & f' & E & T' & R). exists r, f'. split; [exact E|]. split.
    - destruct T as [->| ->]; [exact T'|]. right. destruct T' as [->| ->]; [reflexivity|apply touch_twice].
    - assert (Mg : forall x, ~ In 47%N x -> (matches t g x <-> matches t f x)) by (intros x X; destruct T as [->| ->]; [reflexivity|apply agree_matches; [apply touch_agree|exact X]]).
      destruct r as [z|].
      + destruct R as (R1 & R2 & R3). split; [exact R1|]. split; [right; exact R2|]. apply (Mg _ (print_slash z)). exact R3.
      + intros x [<-|X] H; [exact (M H)|]. rewrite <- (Mg x (proj2 (L' x X))). apply (R x X). destruct T as [->| ->]; [exact H|]. rewrite <- app_assoc in H |- *. rewrite folder_touch. exact H. }
  destruct (has_folder (D ++ lit "/" ++ name) f) eqn:Hf; cbn [negb]; [|apply Next; [left; reflexivity|discriminate]].
  destruct (dget (mp name) f) as [text|] eqn:Em.
  - destruct (i_meta f I name text S Em) as (m & -> & G). pose proof G as (G1 & G2 & G3 & _). rewrite (record_read m G1), G2, G3, Z.eqb_refl, str_eqb_refl. cbn [negb]. destruct (target_eqb (m_target m) t) eqn:T; cbn [negb].
    + apply target_eqb_eq in T. destruct (i_count f I) as (n & _ & _ & B). destruct (B name S) as (z & Pz & ->); [left; rewrite Em; discriminate|]. rewrite int_name. exists (Some z), f. split; [reflexivity|]. split; [left; reflexivity|]. split; [lia|]. split; [left; reflexivity|]. unfold matches. rewrite Em. exists m. auto.
    + apply Next; [left; reflexivity|]. intros _ M. unfold matches in M. rewrite Em in M. destruct M as (m' & (R' & _) & E & T'). apply (store_inj _ _ G1 R') in E. subst m'. assert (X : target_eqb (m_target m) t = true) by (apply target_eqb_eq; exact T'). congruence.
  - assert (Ep : dget (pp name) (touch (lock_path rel) f) = dget (pp name) f) by (apply touch_other; apply lock_art). rewrite Ep. destruct (dget (pp name) f) as [text|] eqn:Eq.
    + destruct (i_place f I name text S Eq) as (t' & -> & C'). rewrite (placeholder_read t' C'). destruct (target_eqb t' t) eqn:T.
      * apply target_eqb_eq in T. subst t'. destruct (i_count f I) as (n & _ & _ & B). destruct (B name S) as (z & Pz & ->); [right; rewrite Eq; discriminate|]. rewrite int_name. eexists (Some z), _. split; [reflexivity|]. split; [right; reflexivity|]. split; [lia|]. split; [left; reflexivity|]. unfold matches. rewrite Em. exact Eq.
      * apply Next; [right; reflexivity|]. intros _ M. unfold matches in M. rewrite Em, Eq in M. assert (E : placeholder_text t' = placeholder_text t) by congruence. apply (place_inj _ _ C' C) in E. subst t'. assert (X : target_eqb t t = true) by (apply target_eqb_eq; reflexivity). congruence.
    + apply Next; [right; reflexivity|]. intros _ M. unfold matches in M. rewrite Em, Eq in M. discriminate M.
Qed.
Lemma matches_folder t f name : matches t f name -> has_folder (D ++ lit "/" ++ name) f = true /\ has_folder D f = true /\ (~ In 47%N name -> name <> [] -> In name (names_in D f)).
Proof using.
  intros M. assert (X : exists r, dget (D ++ lit "/" ++ name ++ lit "/" ++ r) f <> None).
  { unfold matches in M. destruct (dget (mp name) f) as [text|] eqn:E; [exists (lit "metadata.json"); unfold mp in E; rewrite <- app_assoc; change (lit "/" ++ lit "metadata.json") with (lit "/metadata.json"); rewrite E; discriminate|]. exists (lit "placeholder.json"). unfold pp in M. rewrite <- app_assoc. change (lit "/" ++ lit "placeholder.json") with (lit "/placeholder.json"). rewrite M. discriminate. }
  destruct X as (r & X). split; [apply has_folder_iff; exists r; rewrite <- !app_assoc in *; exact X|]. split; [apply has_folder_iff; exists (name ++ lit "/" ++ r); exact X|].
  intros S N. apply names_in_iff. split; [exact N|]. exists (name ++ lit "/" ++ r). split; [symmetry; exact (component_app name r S)|exact X].
Qed.
Lemma get_spec scandir t f : lists scandir -> crop_fit (snd t) -> inv f -> exists r f', get_target scandir hash (hash_image_settings settings) rel t f = Ret (r, f') /\ touched f f' /\
  match r with Some z => 0 < z /\ matches t f (print_Z z) | None => forall name, ~ In 47%N name -> name <> [] -> ~ matches t f name end.
Proof using U Hs.
  intros Ls C I. unfold get_target. pose proof (i_hash f I) as H. unfold contents_hash in H. destruct (dget (lit "src/public/" ++ rel) f) as [image|]; [|discriminate H]. rewrite art_eq. destruct (has_folder D f) eqn:Hf; cbn [negb].
  - rewrite Hs. cbv zeta. apply (f_equal (fun o => match o with Some x => x | None => ch end)) in H. cbv beta iota in H. rewrite H. destruct (find_spec t (scandir (names_in D f)) C f I) as (r & f' & E & T & R).
    + intros name X. apply (Permutation_in _ (Permutation_sym (Ls _))) in X. apply names_in_iff in X. destruct X as (N & r & -> & _). split; [exact N|apply component_slash].
    + exists r, f'. split; [exact E|]. split; [exact T|]. destruct r as [z|]; [split; apply R|]. intros name S N M. destruct (matches_folder t f name M) as (M1 & _ & M3). exact (R name (Permutation_in _ (Ls _) (M3 S N)) M1 M).
  - exists None, f. split; [reflexivity|]. split; [left; reflexivity|]. intros name _ _ M. destruct (matches_folder t f name M) as (_ & M2 & _). congruence.
Qed.
Lemma print_inj z z' : print_Z z = print_Z z' -> z = z'.
Proof using. intros E. pose proof (int_name z) as A. rewrite E, int_name in A. congruence. Qed.

(** * What happens keeps what is known *)
Definition grows (f f' : fs) : Prop :=
  (forall t name, crop_fit (snd t) -> ~ In 47%N name -> matches t f name -> matches t f' name) /\
  (forall name text, ~ In 47%N name -> dget (mp name) f = Some text -> dget (mp name) f' = Some text).
Lemma grows_refl f : grows f f. Proof using. split; auto. Qed.
Lemma grows_trans f g h : grows f g -> grows g h -> grows f h. Proof using. intros [A B] [A' B']. split; auto. Qed.
Lemma agree_grows f f' : agree f f' -> grows f f'.
Proof using. intros A. split; [intros t name _ N M; apply (agree_matches _ _ _ _ A N); exact M|intros name text N E; rewrite (agree_mp _ _ _ A N); exact E]. Qed.
Lemma touched_all f f' : touched f f' -> inv f -> inv f' /\ grows f f' /\ agree f f'.
Proof using U.
  intros [->| ->] I; [split; [exact I|split; [apply grows_refl|intros p _; reflexivity]]|]. split; [exact (agree_inv _ _ (touch_agree f) (touch_hash f) I)|]. split; [apply agree_grows|]; apply touch_agree.
Qed.
Lemma reserve_spec t f : crop_fit (snd t) -> inv f -> (forall name, ~ In 47%N name -> name <> [] -> ~ matches t f name) ->
  exists id f', reserve_target rel t f = Ret (id, f') /\ 0 < id /\ inv f' /\ grows f f' /\ matches t f' (print_Z id).
Proof using U.
  intros C I0 M. unfold reserve_target. cbv zeta. pose proof (touched_all _ _ (or_intror eq_refl) I0) as (I & _ & A). set (g := touch (lock_path rel) f) in *.
  assert (Mg : forall name, ~ In 47%N name -> name <> [] -> ~ matches t g name) by (intros name S N X; apply (agree_matches _ _ _ _ A S) in X; exact (M name S N X)).
  pose proof (agree_grows _ _ A) as Gr. clearbody g. rewrite cp_eq. destruct I as [I1 (n & P & Cn & B) I3 I4 I5].
  assert (En : match dget cp g with Some s => int_of s | None => Ret 0 end = Ret n) by (destruct Cn as [->|[-> ->]]; [apply int_name|reflexivity]). rewrite En. clear En. exists (n + 1). eexists. split; [reflexivity|]. split; [lia|]. rewrite pp_id. set (k := print_Z (n + 1)). set (f' := dset _ _ _).
  assert (Sk : ~ In 47%N k) by apply print_slash.
  assert (Fm : forall name, dget (mp name) f' = dget (mp name) g) by (intros name; unfold f'; rewrite Base.dget_dset_other by (intros X; exact (mp_pp _ _ (eq_sym X))); rewrite Base.dget_dset_other by (intros X; exact (mp_cp _ (eq_sym X))); reflexivity).
  assert (Fp : forall name, dget (pp name) f' = if str_eqb name k then Some (placeholder_text t) else dget (pp name) g).
  { intros name. unfold f'. destruct (str_eqb name k) eqn:E; [apply str_eqb_eq in E; subst name; apply Base.dget_dset_same|]. apply str_eqb_neq in E. rewrite Base.dget_dset_other by (intros X; apply E; symmetry; exact (pp_inj _ _ X)). rewrite Base.dget_dset_other by (intros X; exact (pp_cp _ (eq_sym X))). reflexivity. }
  assert (Fc : dget cp f' = Some (print_Z (n + 1))) by (unfold f'; rewrite Base.dget_dset_other by apply pp_cp; apply Base.dget_dset_same).
  assert (New : dget (mp k) g = None /\ dget (pp k) g = None).
  { assert (X : ~ (dget (mp k) g <> None \/ dget (pp k) g <> None)). { intros X. destruct (B k Sk X) as (z & Z1 & Z2). unfold k in Z2. apply print_inj in Z2. lia. } split; [destruct (dget (mp k) g)|destruct (dget (pp k) g)]; try reflexivity; exfalso; apply X; [left|right]; discriminate. }
  assert (Mk : forall t', matches t' f' k <-> placeholder_text t' = placeholder_text t).
  { intros t'. unfold matches. rewrite Fm, (proj1 New), Fp, str_eqb_refl. split; congruence. }
  assert (Mo : forall t' name, name <> k -> (matches t' f' name <-> matches t' g name)).
  { intros t' name N. unfold matches. rewrite Fm, Fp. apply str_eqb_neq in N. rewrite N. reflexivity. }
  split; [|split].
  - constructor.
    + rewrite <- I1. unfold contents_hash, f'. rewrite !Base.dget_dset_other by discriminate. reflexivity.
    + exists (n + 1). split; [lia|]. split; [left; exact Fc|]. intros name S X. destruct (list_eq_dec N.eq_dec name k) as [->|N]; [exists (n + 1); split; [lia|reflexivity]|]. rewrite Fm, Fp in X. apply str_eqb_neq in N. rewrite N in X. destruct (B name S X) as (z & Z1 & Z2). exists z. split; [lia|exact Z2].
    + intros name text S E. rewrite Fm in E. exact (I3 name text S E).
    + intros name text S E. rewrite Fp in E. destruct (str_eqb name k); [exists t; split; [congruence|exact C]|exact (I4 name text S E)].
    + intros t' a b C' Sa Sb Ma Mb. destruct (list_eq_dec N.eq_dec a k) as [->|Na], (list_eq_dec N.eq_dec b k) as [->|Nb]; [reflexivity| | |].
      * exfalso. apply Mk in Ma. apply (place_inj _ _ C' C) in Ma. subst t'. apply (Mo t b Nb) in Mb. destruct b as [|c b]; [|exact (Mg _ Sb ltac:(discriminate) Mb)]. assert (X : dget (mp []) g <> None \/ dget (pp []) g <> None) by (unfold matches in Mb; destruct (dget (mp []) g); [left; discriminate|right; rewrite Mb; discriminate]). destruct (B [] Sb X) as (z & _ & Z). symmetry in Z. exact (print_nil z Z).
      * exfalso. apply Mk in Mb. apply (place_inj _ _ C' C) in Mb. subst t'. apply (Mo t a Na) in Ma. destruct a as [|c a]; [|exact (Mg _ Sa ltac:(discriminate) Ma)]. assert (X : dget (mp []) g <> None \/ dget (pp []) g <> None) by (unfold matches in Ma; destruct (dget (mp []) g); [left; discriminate|right; rewrite Ma; discriminate]). destruct (B [] Sa X) as (z & _ & Z). symmetry in Z. exact (print_nil z Z).
      * apply (Mo t' a Na) in Ma. apply (Mo t' b Nb) in Mb. exact (I5 t' a b C' Sa Sb Ma Mb).
  - eapply grows_trans; [exact Gr|]. split.
    + intros t' name _ S X. destruct (list_eq_dec N.eq_dec name k) as [->|N]; [|apply (Mo t' name N); exact X]. exfalso. unfold matches in X. rewrite (proj1 New), (proj2 New) in X. discriminate X.
    + intros name text S E. rewrite Fm. exact E.
  - apply Mk. reflexivity.
Qed.
Lemma get_or_reserve_spec scandir t f : lists scandir -> crop_fit (snd t) -> inv f -> exists id f', get_or_reserve_target scandir hash (hash_image_settings settings) rel t f = Ret (id, f') /\ 0 < id /\ inv f' /\ grows f f' /\ matches t f' (print_Z id).
Proof using U Hs.
  intros Ls C I. unfold get_or_reserve_target. destruct (get_spec scandir t f Ls C I) as (r & f1 & E & T & R). rewrite E. destruct (touched_all _ _ T I) as (I1 & G1 & A1). destruct r as [z|].
  - destruct R as [P M]. exists z, f1. split; [reflexivity|]. split; [exact P|]. split; [exact I1|]. split; [exact G1|]. apply (agree_matches _ _ _ _ A1 (print_slash z)). exact M.
  - destruct (reserve_spec t f1 C I1) as (id & f' & E' & P & I' & G' & M'); [intros name S N X; apply (agree_matches _ _ _ _ A1 S) in X; exact (R name S N X)|]. exists id, f'. split; [exact E'|]. split; [exact P|]. split; [exact I'|]. split; [exact (grows_trans _ _ _ G1 G')|exact M'].
Qed.
End Disk.

(** * What a build that reuses returns *)
Lemma reuse_inv {T} (store : metadata T -> str) (load : str -> res (metadata T)) dims symlinks encode settings step order fuel rel id (t : T) w h f text m0 m b f' :
  dget (metadata_path rel id) f = Some text -> load text = Ret m0 -> export_command store load dims symlinks encode settings step order fuel rel (Some id) t w h f = Ret (m, b, f') ->
  exists p0 r0 first p r g, reuse_outputs symlinks (flat_map snd (m_outputs m0)) true p0 r0 f = Ret (first, p, r, g) /\ m = m0 /\ (f' = g \/ f' = touch (lock_path rel) g).
Proof.
  intros D L E. unfold export_command in E. rewrite D in E. unfold reuse in E. rewrite L in E. exists [], [metadata_path rel id; counter_path rel; placeholder_path rel id].
  destruct (reuse_outputs symlinks (flat_map snd (m_outputs m0)) true [] [metadata_path rel id; counter_path rel; placeholder_path rel id] f) as [[[[first p] r] g]|]; [|discriminate E]. exists first, p, r, g. split; [reflexivity|]. unfold touch.
  destruct first; apply Ret_inj in E; [destruct (dmem (lock_path rel) g); cbv beta iota in E|]; (split; [congruence|]); [left|right|left]; congruence.
Qed.

(** * Building *)
Section Builds.
Context (hash : str -> str) (settings : image_settings) (rel : str).
Context (U : usable rel) (Sr : json_safe rel) (Ss : safe_settings settings) (sh : Z) (ch : str) (Hs : hash_image_settings settings = Ret sh) (Sc : json_safe ch).
Notation root := (splitext_root rel).
Notation inv := (inv hash rel sh ch).
Notation good := (good rel sh ch).
Notation matches := (matches rel sh ch).
Notation grows := (grows rel sh ch).
Notation mp := (mp rel).
Notation pp := (pp rel).
Notation cp := (cp rel).
Lemma hash_file x : lit "out/www/" ++ rel ++ lit ".hash" <> lit "out/www/" ++ root ++ lit "/" ++ x.
Proof using.
  intros E. apply app_inv_head in E. destruct (splitext_dot rel) as [R|[t R]]; rewrite R in E at 1; [|rewrite <- app_assoc in E]; apply app_inv_head in E; discriminate E.
Qed.
Lemma www_eq x : join_path (lit "out") [lit "www"; root ++ lit "/" ++ x] = lit "out/www/" ++ root ++ lit "/" ++ x.
Proof using U.
  destruct U as [(c & r & E & N) _]. unfold join_path. cbn [fold_left]. rewrite (join2_file (lit "out") (lit "www")); [|discriminate|discriminate|eexists; eexists; split; [reflexivity|discriminate]]. rewrite join2_file; [reflexivity|discriminate|discriminate|]. rewrite E. exists c. eexists. split; [reflexivity|exact N].
Qed.
Lemma link_other symlinks a b f f' q : link symlinks a b f = Ret f' -> b <> q -> dget q f' = dget q f.
Proof using. unfold link. intros E N. destruct symlinks; [destruct (dmem b f); [discriminate E|]; destruct (dget a f)|destruct (dget a f); [|discriminate E]]; apply Ret_inj in E; subst f'; try reflexivity; apply Base.dget_dset_other; exact N. Qed.
Lemma reuse_other symlinks l : (forall o, In o l -> exists x, o_relpath o = root ++ lit "/" ++ x) -> forall first p r f first' p' r' f', reuse_outputs symlinks l first p r f = Ret (first', p', r', f') ->
  forall q, (forall x, q <> lit "out/www/" ++ root ++ lit "/" ++ x) -> dget q f' = dget q f.
Proof using U.
  induction l as [|o l IH]; intros R first p r f first' p' r' f' E q Q; cbn [reuse_outputs] in E; [apply Ret_inj in E; congruence|]. assert (R' : forall o, In o l -> exists x, o_relpath o = root ++ lit "/" ++ x) by (intros x X; apply R; right; exact X).
  cbv zeta in E. destruct (R o (or_introl eq_refl)) as [x X]. rewrite X, www_eq in E. destruct (dmem _ f); [exact (IH R' _ _ _ _ _ _ _ _ E q Q)|]. destruct (link symlinks _ _ f) as [g|e] eqn:L; [|discriminate E]. rewrite (IH R' _ _ _ _ _ _ _ _ E q Q). apply (link_other _ _ _ _ _ _ L). intros Y. exact (Q x (eq_sym Y)).
Qed.
Lemma not_record p x : record_file rel p -> p <> lit "out/" ++ x. Proof using. intros []; discriminate. Qed.
Lemma not_www p x : record_file rel p -> p <> lit "out/www/" ++ x. Proof using. intros []; discriminate. Qed.
Lemma inside_art id w x : join2 (target_art rel id) (print_Z w ++ lit "x" ++ x) = lit "artifacts/" ++ root ++ lit "/" ++ print_Z id ++ lit "/" ++ print_Z w ++ lit "x" ++ x.
Proof using U.
  unfold target_art. rewrite file_eq; [reflexivity|exact U|apply print_nil|apply print_slash|]. destruct (print_head w) as (c & r & E & N). rewrite E. exists c. eexists. split; [reflexivity|]. destruct N as [N| ->]; [|discriminate]. intros ->. discriminate N.
Qed.
Lemma inside_out id w x : join2 (target_out rel id) (print_Z w ++ lit "x" ++ x) = lit "out/www/" ++ root ++ lit "/" ++ print_Z id ++ lit "/" ++ print_Z w ++ lit "x" ++ x.
Proof using U.
  destruct U as [U1 U2]. unfold target_out, join_path. cbn [fold_left]. rewrite (join2_file (lit "out") (lit "www")); [|discriminate|discriminate|eexists; eexists; split; [reflexivity|discriminate]]. rewrite (join2_file _ root); [|discriminate|discriminate|exact U1].
  assert (Nr : root <> []) by (destruct U1 as (c & r & E & _); rewrite E; discriminate).
  rewrite (join2_file _ (print_Z id)); [|discriminate|rewrite !app_assoc, last_app; [exact U2|exact Nr]|].
  - rewrite join2_file; [rewrite <- !app_assoc; reflexivity|discriminate| |].
    + rewrite !app_assoc, last_app by apply print_nil. intros L. apply (print_slash id). rewrite <- L. pose proof (print_nil id) as X. clear - X. induction (print_Z id) as [|c r IH]; [contradiction|]. destruct r as [|d r]; [left; reflexivity|]. right. apply IH. discriminate.
    + destruct (print_head w) as (c & r & E & N). rewrite E. exists c. eexists. split; [reflexivity|]. destruct N as [N| ->]; [|discriminate]. intros ->. discriminate N.
  - destruct (print_head id) as (c & r & E & N). rewrite E. exists c, r. split; [reflexivity|]. destruct N as [N| ->]; [|discriminate]. intros ->. discriminate N.
Qed.
Lemma first_slash a b x y : ~ In 47%N a -> ~ In 47%N b -> a ++ 47%N :: x = b ++ 47%N :: y -> a = b /\ x = y.
Proof using.
  intros A B E. pose proof (component_app a x A) as X. rewrite E, (component_app b y B) in X. subst b. split; [reflexivity|]. apply app_inv_head in E. congruence.
Qed.
Lemma no_inside p id : record_file rel p -> ~ inside (target_art rel id) p /\ ~ inside (target_out rel id) p.
Proof using U.
  intros R. split; intros (w & x & E); [rewrite inside_art in E|rewrite inside_out in E; revert E; apply (not_record p (lit "www/" ++ _) R)].
  destruct (print_head w) as (c & r & Ew & N). rewrite Ew in E. assert (Nc : c <> 109%N /\ c <> 112%N) by (destruct N as [N| ->]; [split; intros ->; discriminate N|split; discriminate]).
  destruct R as [|name S|name S]; apply app_inv_head in E; apply app_inv_head in E.
  - assert (I : In 47%N (lit "counter.txt")). { change (lit "/counter.txt") with (lit "/" ++ lit "counter.txt") in E. apply app_inv_head in E. rewrite E. apply in_or_app. right. left. reflexivity. } vm_compute in I. repeat (destruct I as [I|I]; [discriminate I|]). exact I.
  - apply app_inv_head in E. apply (first_slash name (print_Z id)) in E; [|exact S|apply print_slash]. destruct E as [_ E]. injection E as E _. destruct Nc as [Nc1 Nc2]. congruence.
  - apply app_inv_head in E. apply (first_slash name (print_Z id)) in E; [|exact S|apply print_slash]. destruct E as [_ E]. injection E as E _. destruct Nc as [Nc1 Nc2]. congruence.
Qed.
Context (dims : str -> res (Z * Z)) (symlinks : bool) (encode : str -> target -> Z -> Z -> str -> list (str * kval) -> res str) (step : dec) (order : list job -> list job) (fuel : nat) (Or : any_order order).
Lemma reuse_spec id t w h f m m0 b f' : inv f -> dget (mp (print_Z id)) f = Some (store_text m0) -> good m0 -> m_target m0 = t -> export_command store_text load_text dims symlinks encode settings step order fuel rel (Some id) t w h f = Ret (m, b, f') ->
  inv f' /\ grows f f' /\ good m /\ m_target m = t /\ dget (mp (print_Z id)) f' = Some (store_text m).
Proof using U.
  intros I Em G T E. pose proof (print_slash id) as Sk.
  destruct (reuse_inv _ _ _ _ _ _ _ _ _ _ _ _ _ _ _ _ m0 _ _ _ (eq_trans (f_equal (fun p => dget p f) (mp_id rel U id)) Em) (record_read m0 (proj1 G)) E) as (p0 & r0 & first & p & r & g & R & -> & X). clear E.
  assert (F : forall q, (forall x, q <> lit "out/www/" ++ root ++ lit "/" ++ x) -> dget q g = dget q f).
  { apply (reuse_other symlinks (flat_map snd (m_outputs m0))) with (2 := R). intros o O. apply in_flat_map in O. destruct O as ([n l] & O1 & O2). exact (proj2 (proj2 (proj2 G)) n l o O1 O2). }
  assert (A : agree rel f g) by (intros q Q; apply F; intros x; exact (not_www q _ Q)).
  assert (Hg : contents_hash hash rel g = contents_hash hash rel f) by (unfold contents_hash; rewrite (F (lit "src/public/" ++ rel)) by discriminate; rewrite (F _ hash_file); reflexivity).
  pose proof (agree_inv hash rel sh ch _ _ A Hg I) as Ig. pose proof (agree_grows rel sh ch _ _ A) as Gg. destruct (touched_all hash rel U sh ch g f' X Ig) as (I' & G' & A').
  split; [exact I'|]. split; [exact (grows_trans _ _ _ _ _ _ Gg G')|]. split; [exact G|]. split; [exact T|]. rewrite (agree_mp _ _ _ _ A' Sk), (agree_mp _ _ _ _ A Sk). exact Em.
Qed.
Lemma fresh_spec id t w h f m b f' : crop_fit (snd t) -> inv f -> dget (mp (print_Z id)) f = None -> dget (pp (print_Z id)) f = Some (placeholder_text t) -> export_command store_text load_text dims symlinks encode settings step order fuel rel (Some id) t w h f = Ret (m, b, f') ->
  inv f' /\ grows f f' /\ good m /\ m_target m = t /\ dget (mp (print_Z id)) f' = Some (store_text m).
Proof using U Sr Ss Hs Sc Or.
  intros C I Em M E. pose proof (print_slash id) as Sk.
  pose proof E as E0. assert (N : dget (metadata_path rel id) f = None) by (rewrite (mp_id rel U); exact Em).
  assert (Ch : forall x, dget (lit "out/www/" ++ rel ++ lit ".hash") f = Some x -> x = ch) by (intros x X; pose proof (i_hash _ _ _ _ _ I) as H; unfold contents_hash in H; rewrite X in H; destruct (dget (lit "src/public/" ++ rel) f); [congruence|discriminate H]).
  destruct (exported_recordable _ _ _ _ _ _ _ _ _ _ _ _ _ _ _ _ _ _ N E0 Sr Ss C) as (R1 & R2 & R3 & R4 & _ & R6); [intros x X; apply Ch in X; subst x; exact Sc|].
  assert (G : good m).
  { split; [exact R1|]. split; [congruence|]. split; [exact (Ch _ R4)|]. intros name l o O1 O2. destruct (R6 name l o O1 O2) as (w0 & h0 & n & ->). destruct U as [U1 U2]. assert (Nr : root <> []) by (destruct U1 as (c & r & Ec & _); rewrite Ec; discriminate). exists (print_Z id ++ lit "/" ++ final_name w0 h0 n).
    rewrite (join2_file root (print_Z id)); [|exact Nr|exact U2|destruct (print_head id) as (c & r & Ec & Nc); rewrite Ec; exists c, r; split; [reflexivity|]; destruct Nc as [Nc| ->]; [intros ->; discriminate Nc|discriminate]].
    rewrite join2_file; [rewrite <- !app_assoc; reflexivity|destruct root; discriminate| |].
    - rewrite !app_assoc, last_app by apply print_nil. intros L. apply (print_slash id). rewrite <- L. pose proof (print_nil id) as X. clear - X. induction (print_Z id) as [|c r IH]; [contradiction|]. destruct r as [|d r]; [left; reflexivity|]. right. apply IH. discriminate.
    - unfold final_name. destruct (print_head w0) as (c & r & Ec & Nc). rewrite Ec. exists c. eexists. split; [reflexivity|]. destruct Nc as [Nc| ->]; [intros ->; discriminate Nc|discriminate]. }
  assert (X : exists s, f' = dset (mp (print_Z id)) (store_text m) s /\ same_files (target_art rel id) (target_out rel id) f s).
  { unfold export_command in E. rewrite N in E. cbv zeta in E. destruct (dget (lit "src/public/" ++ rel) f) as [image|]; [|discriminate E]. destruct (dims image) as [[iw ih]|]; [|discriminate E]. destruct (dget (lit "out/www/" ++ rel ++ lit ".hash") f) as [c|]; [|discriminate E]. rewrite Hs in E. destruct (yield_sizes _ _ _ _ _ _ _) as [sizes|]; [|discriminate E]. destruct (export_images _ _ _ _ _ _ _ _ _ _) as [s|] eqn:S; [|discriminate E]. exists (files s). split; [rewrite <- (mp_id rel U); apply Ret_inj in E; congruence|]. exact (images_same _ _ _ _ _ _ _ _ _ _ _ Or S). }
  destruct X as (g & -> & F). rename g into s.
  assert (As : agree rel f s) by (intros q Q; destruct (no_inside q id Q) as [Q1 Q2]; exact (F q Q1 Q2)).
  assert (Hg : contents_hash hash rel s = contents_hash hash rel f).
  { unfold contents_hash. rewrite (F (lit "src/public/" ++ rel)), (F (lit "out/www/" ++ rel ++ lit ".hash")); [reflexivity| | | |]; intros (w0 & x & X); first [rewrite inside_art in X|rewrite inside_out in X]; try discriminate X. exact (hash_file _ X). }
  pose proof (agree_inv hash rel sh ch _ _ As Hg I) as [J1 (n & P & Cn & B) J3 J4 J5]. set (k := print_Z id) in *. set (f' := dset (mp k) (store_text m) s).
  assert (Ms : dget (mp k) s = None) by (rewrite (agree_mp _ _ _ _ As Sk); exact Em). assert (Ps : dget (pp k) s = Some (placeholder_text t)) by (rewrite (agree_pp _ _ _ _ As Sk); exact M).
  assert (Fm : forall name, dget (mp name) f' = if str_eqb name k then Some (store_text m) else dget (mp name) s).
  { intros name. unfold f'. destruct (str_eqb name k) eqn:Q; [apply str_eqb_eq in Q; subst name; apply Base.dget_dset_same|]. apply str_eqb_neq in Q. apply Base.dget_dset_other. intros X. apply Q. symmetry. exact (mp_inj _ _ _ X). }
  assert (Fp : forall name, dget (pp name) f' = dget (pp name) s) by (intros name; apply Base.dget_dset_other; apply mp_pp).
  assert (Fc : dget cp f' = dget cp s) by (apply Base.dget_dset_other; apply mp_cp).
  assert (Mo : forall t' name, crop_fit (snd t') -> (matches t' f' name <-> matches t' s name)).
  { intros t' name C'. unfold ImgDiskProofs.matches. rewrite Fm, Fp. destruct (str_eqb name k) eqn:Q; [|reflexivity]. apply str_eqb_eq in Q. subst name. rewrite Ms, Ps. split.
    - intros (m' & G' & Q & T). apply store_inj in Q; [|exact R1|exact (proj1 G')]. subst m'. congruence.
    - intros Q. exists m. split; [exact G|]. split; [reflexivity|]. rewrite R2. apply (place_inj _ _ C C'). congruence. }
  split; [|split; [|split; [exact G|split; [exact R2|unfold f'; apply Base.dget_dset_same]]]].
  + constructor.
    * rewrite <- J1. unfold contents_hash, f'. rewrite !Base.dget_dset_other by discriminate. reflexivity.
    * exists n. split; [exact P|]. rewrite Fc. split; [exact Cn|]. intros name S X. rewrite Fm, Fp in X. destruct (str_eqb name k) eqn:Q; [|exact (B name S X)]. apply str_eqb_eq in Q. subst name. apply (B k Sk). right. rewrite Ps. discriminate.
    * intros name text S X. rewrite Fm in X. destruct (str_eqb name k); [exists m; split; [congruence|exact G]|exact (J3 name text S X)].
    * intros name text S X. rewrite Fp in X. exact (J4 name text S X).
    * intros t' a c C' Sa Sc' Ma Mc. apply (Mo t' a C') in Ma. apply (Mo t' c C') in Mc. exact (J5 t' a c C' Sa Sc' Ma Mc).
  + eapply grows_trans; [exact (agree_grows rel sh ch _ _ As)|]. split.
    * intros t' name C' S X. apply (Mo t' name C'). exact X.
    * intros name text S X. rewrite Fm. destruct (str_eqb name k) eqn:Q; [|exact X]. apply str_eqb_eq in Q. subst name. congruence.
Qed.
Lemma build_spec id t w h f m b f' : crop_fit (snd t) -> inv f -> matches t f (print_Z id) -> export_command store_text load_text dims symlinks encode settings step order fuel rel (Some id) t w h f = Ret (m, b, f') ->
  inv f' /\ grows f f' /\ good m /\ m_target m = t /\ dget (mp (print_Z id)) f' = Some (store_text m).
Proof using U Sr Ss Hs Sc Or.
  intros C I M E. unfold ImgDiskProofs.matches in M. destruct (dget (mp (print_Z id)) f) as [text|] eqn:Em; [|exact (fresh_spec id t w h f m b f' C I Em M E)]. destruct M as (m0 & G & -> & T). exact (reuse_spec id t w h f m m0 b f' I Em G T E).
Qed.
End Builds.
