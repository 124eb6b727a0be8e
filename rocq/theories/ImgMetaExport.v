(** What an export records can be recorded. *)
From Verif Require Import Base Graph Json JsonProofs JsonLoadProofs PyStr PyPath PyNorm Handlers Html HtmlTemplate OutlineData ImgSize ImgSettings IconManipProofs ImgExport ImgExportSpec ImgExportProofs ImgBuildMain ImgCommand ImgPage ImgTarget ImgMeta ImgMetaSpec ImgMetaProofs GlueAgree.
From Coq Require Import String ZArith NArith Bool List Lia Permutation.
Import ListNotations.
Open Scope list_scope.

Definition low (s : str) : Prop := Forall (fun c => (c < 55296)%N) s.
Lemma low_app a b : low a -> json_safe b -> json_safe (a ++ b).
Proof.
  intros A B. induction A as [|c a C A IH]; [exact B|]. cbn [app json_safe]. split; [lia|]. split; [|exact IH]. destruct (a ++ b); [exact I|]. intros H. exfalso. unfold is_high in H. apply andb_prop in H. destruct H as [H _]. apply N.leb_le in H. lia.
Qed.
Lemma low_print z : low (print_Z z).
Proof.
  assert (G : forall n, low (print_N n)). { intros n. destruct (print_N_spec n) as (ds & E & _ & F & _). rewrite E. eapply Forall_impl; [|exact F]. intros c D. unfold is_digit in D. apply andb_prop in D. destruct D as [_ D]. apply N.leb_le in D. lia. }
  destruct z as [|p|p]; cbn [print_Z]; [apply (G 0%N)|apply G|]. apply Forall_cons; [reflexivity|apply G].
Qed.
Lemma safe_final w h n : json_safe n -> json_safe (final_name w h n).
Proof. intros S. unfold final_name. apply low_app; [apply low_print|]. apply low_app; [repeat constructor|]. apply low_app; [apply low_print|]. apply low_app; [repeat constructor|exact S]. Qed.
Lemma safe_print z : json_safe (print_Z z).
Proof. rewrite <- (app_nil_r (print_Z z)). apply low_app; [apply low_print|exact I]. Qed.
Lemma safe_prefix a b : json_safe (a ++ b) -> json_safe a.
Proof. induction a as [|c a IH]; [intros _; exact I|]. cbn [app json_safe]. intros (A & B & C). split; [exact A|]. split; [|exact (IH C)]. destruct a; [exact I|exact B]. Qed.
Lemma safe_root rel : json_safe rel -> json_safe (splitext_root rel).
Proof. intros S. destruct (splitext_prefix rel) as [t E]. rewrite E in S. exact (safe_prefix _ _ S). Qed.

Section Any.
Context (symlinks : bool) (encode : Z -> Z -> str -> list (str * kval) -> res str) (art out sub : str) (fms : list (str * image_format)).
Context (Sn : json_safe sub) (Sf : forall name fm, In (name, fm) fms -> json_safe name /\ forall n e, In (n, e) (exports fm) -> json_safe n).
Lemma choose_name w h name fmt l : forall b f b' f', (forall n e, In (n, e) l -> json_safe n) -> (forall x, b = Some x -> json_safe (b_name x)) -> choose art w h name fmt l b f = Ret (Some b', f') -> json_safe (b_name b').
Proof using.
  induction l as [|[n e] l IH]; intros b f b' f' L B E; cbn [choose] in E; [apply (B b'); congruence|]. assert (L' : forall n e, In (n, e) l -> json_safe n) by (intros; eapply L; right; eassumption).
  destruct (negb (applies_to e w h)); [exact (IH _ _ _ _ L' B E)|]. destruct (dget (join2 art (temp_name w h n name)) f); [|discriminate E]. cbv zeta in E.
  assert (N : forall x p s, Some {| b_export := e; b_name := n; b_size := s; b_path := p |} = Some x -> json_safe (b_name x)) by (intros x p z X; injection X as <-; exact (L n e (or_introl eq_refl))).
  destruct b as [o|]; [|eapply IH; [exact L'|intros x; apply N|exact E]]. destruct (0 <? _)%Z; (match type of E with context [match ?x with _ => _ end] => destruct x; [|discriminate E] end); eapply IH; try exact E; try exact L'; [intros x; apply N|exact B].
Qed.
Definition good_outputs (l : list (str * list output)) : Prop := forall name x, In (name, x) l -> json_safe name /\ Forall (fun o => (json_safe (o_relpath o) /\ exists w h n, o_relpath o = join2 sub (final_name w h n)) /\ json_safe (o_choice o)) x.
Lemma one_good w h fm s s' : In fm fms -> ImgExport.export_one symlinks art out sub w h fm s = Ret s' -> good_outputs (outputs s) -> good_outputs (outputs s').
Proof using Sn Sf.
  intros I. destruct fm as [name fm]. destruct (Sf name fm I) as [S1 S2]. unfold ImgExport.export_one. cbn [fst snd]. destruct (choose art w h name fm (exports fm) None (files s)) as [[[b|] f]|e] eqn:C; [|intros X; apply Ret_inj in X; subst s'; auto|discriminate].
  destruct (rename (b_path b) (join2 art (final_name w h name)) f) as [f'|e]; [|discriminate]. destruct (link symlinks (join2 art (final_name w h name)) (join2 out (final_name w h name)) f') as [f''|e]; [|discriminate]. intros X G. apply Ret_inj in X. subst s'. cbn [outputs]. intros k x J. apply In_dset_inv in J. destruct J as [[-> ->]|J]; [|exact (G k x J)]. split; [exact S1|]. apply Forall_app. split.
  - destruct (dget name (outputs s)) as [l|] eqn:D; [|constructor]. exact (proj2 (G name l (dget_In _ _ _ D))).
  - apply Forall_cons; [|constructor]. cbn [o_relpath o_choice]. split; [split; [apply safe_join; [exact Sn|exact (safe_final w h name S1)]|exists w, h, name; reflexivity]|]. eapply choose_name; [exact S2| |exact C]. discriminate.
Qed.
Lemma formats_good w h l : forall s s', (forall fm, In fm l -> In fm fms) -> export_formats symlinks art out sub w h l s = Ret s' -> good_outputs (outputs s) -> good_outputs (outputs s').
Proof using Sn Sf.
  induction l as [|fm l IH]; intros s s' L E G; cbn [export_formats] in E; [apply Ret_inj in E; subst s'; exact G|]. destruct (ImgExport.export_one symlinks art out sub w h fm s) as [s1|e] eqn:O; [|discriminate E]. apply (IH s1 s' (fun x I => L x (or_intror I)) E). exact (one_good _ _ _ _ _ (L fm (or_introl eq_refl)) O G).
Qed.
Lemma sizes_good l : forall s s', export_sizes symlinks art out sub fms l s = Ret s' -> good_outputs (outputs s) -> good_outputs (outputs s').
Proof using Sn Sf.
  induction l as [|[w h] l IH]; intros s s' E G; cbn [export_sizes] in E; [apply Ret_inj in E; subst s'; exact G|]. destruct (export_formats symlinks art out sub w h fms s) as [s1|e] eqn:O; [|discriminate E]. apply (IH s1 s' E). exact (formats_good _ _ _ _ _ (fun x I => I) O G).
Qed.
(** * The files an export touches *)
Definition inside (d q : str) : Prop := exists w x, q = join2 d (print_Z w ++ lit "x" ++ x).
Definition same_files (f g : fs) : Prop := forall q, ~ inside art q -> ~ inside out q -> dget q g = dget q f.
Lemma same_refl f : same_files f f. Proof using. intros q _ _. reflexivity. Qed.
Lemma same_trans f g h : same_files f g -> same_files g h -> same_files f h. Proof using. intros A B q X Y. rewrite (B q X Y). exact (A q X Y). Qed.
Lemma inside_temp w h e n d : inside d (join2 d (temp_name w h e n)). Proof using. exists w. eexists. reflexivity. Qed.
Lemma inside_final w h n d : inside d (join2 d (final_name w h n)). Proof using. exists w. eexists. reflexivity. Qed.
Lemma same_dset k v f : inside art k \/ inside out k -> same_files f (dset k v f).
Proof using. intros K q A B. apply Base.dget_dset_other. intros <-. destruct K as [K|K]; [exact (A K)|exact (B K)]. Qed.
Lemma same_ddel k f : inside art k -> same_files f (ddel k f).
Proof using. 
  intros K q A B. assert (N : q <> k) by (intros ->; contradiction). clear A B K. induction f as [|[a b] f IH]; [reflexivity|]. cbn [ddel dget]. destruct (str_eqb k a) eqn:E.
  - apply str_eqb_eq in E. subst a. destruct (str_eqb q k) eqn:X; [apply str_eqb_eq in X; contradiction|reflexivity].
  - cbn [dget]. rewrite IH. reflexivity.
Qed.
Lemma choose_same w h name fmt l : forall b f b' f', (forall x, b = Some x -> inside art (b_path x)) -> choose art w h name fmt l b f = Ret (b', f') -> same_files f f' /\ forall x, b' = Some x -> inside art (b_path x).
Proof using.
  induction l as [|[n e] l IH]; intros b f b' f' B E; cbn [choose] in E; [apply Ret_inj in E; assert (b' = b /\ f' = f) as [-> ->] by (split; congruence); split; [apply same_refl|exact B]|].
  destruct (negb (applies_to e w h)); [exact (IH _ _ _ _ B E)|]. destruct (dget (join2 art (temp_name w h n name)) f); [|discriminate E]. cbv zeta in E. set (this := Some _) in E.
  assert (N : forall x, this = Some x -> inside art (b_path x)) by (intros x X; injection X as <-; apply inside_temp). clearbody this.
  destruct b as [o|]; [|exact (IH _ _ _ _ N E)]. destruct (0 <? _)%Z.
  - unfold remove_file in E. destruct (dmem (b_path o) f); [|discriminate E]. destruct (IH _ _ _ _ N E) as [A C]. split; [|exact C]. eapply same_trans; [|exact A]. apply same_ddel. exact (B o eq_refl).
  - unfold remove_file in E. destruct (dmem (join2 art (temp_name w h n name)) f); [|discriminate E]. destruct (IH _ _ _ _ B E) as [A C]. split; [|exact C]. eapply same_trans; [|exact A]. apply same_ddel. apply inside_temp.
Qed.
Lemma one_same w h fm s s' : ImgExport.export_one symlinks art out sub w h fm s = Ret s' -> same_files (files s) (files s').
Proof using.
  destruct fm as [name fm]. unfold ImgExport.export_one. cbn [fst snd]. destruct (choose art w h name fm (exports fm) None (files s)) as [[b f]|e] eqn:C; [|discriminate]. apply choose_same in C; [|discriminate]. destruct C as [C1 C2]. destruct b as [b|]; [|intros X; apply Ret_inj in X; subst s'; exact C1].
  unfold rename. destruct (dget (b_path b) f) as [d|]; [|discriminate]. set (f1 := dset _ d _). assert (S1 : same_files f f1) by (eapply same_trans; [apply same_ddel; exact (C2 b eq_refl)|apply same_dset; left; apply inside_final]). clearbody f1.
  unfold link. intros X. assert (Y : same_files f1 (files s') ).
  { destruct symlinks.
    - destruct (dmem (join2 out (final_name w h name)) f1); [discriminate X|]. destruct (dget (join2 art (final_name w h name)) f1); apply Ret_inj in X; subst s'; cbn [files]; [apply same_dset; right; apply inside_final|apply same_refl].
    - destruct (dget (join2 art (final_name w h name)) f1); [|discriminate X]. apply Ret_inj in X; subst s'; cbn [files]. apply same_dset; right; apply inside_final. }
  eapply same_trans; [exact C1|]. eapply same_trans; [exact S1|exact Y].
Qed.
Lemma formats_same w h l : forall s s', export_formats symlinks art out sub w h l s = Ret s' -> same_files (files s) (files s').
Proof using.
  induction l as [|fm l IH]; intros s s' E; cbn [export_formats] in E; [apply Ret_inj in E; subst s'; apply same_refl|]. destruct (ImgExport.export_one symlinks art out sub w h fm s) as [s1|e] eqn:O; [|discriminate E]. eapply same_trans; [exact (one_same _ _ _ _ _ O)|exact (IH _ _ E)].
Qed.
Lemma sizes_same l : forall s s', export_sizes symlinks art out sub fms l s = Ret s' -> same_files (files s) (files s').
Proof using.
  induction l as [|[w h] l IH]; intros s s' E; cbn [export_sizes] in E; [apply Ret_inj in E; subst s'; apply same_refl|]. destruct (export_formats symlinks art out sub w h fms s) as [s1|e] eqn:O; [|discriminate E]. eapply same_trans; [exact (formats_same _ _ _ _ _ O)|exact (IH _ _ E)].
Qed.
Lemma run_same l : (forall j, In j l -> inside art (fst j)) -> forall f, same_files f (run_jobs l f).
Proof using.
  unfold run_jobs. induction l as [|[p r] l IH]; intros J f; [apply same_refl|]. cbn [fold_left fst snd]. eapply same_trans; [|apply IH; intros j I; apply J; right; exact I]. destruct r; [|apply same_refl]. apply same_dset. left. exact (J _ (or_introl eq_refl)).
Qed.
Lemma images_same order sizes p f s : any_order order -> export_images symlinks encode art out sub fms order sizes p f = Ret s -> same_files f (files s).
Proof using.
  intros A. unfold export_images. destruct (first_exception (jobs encode art fms sizes)); [discriminate|]. intros E. apply sizes_same in E. cbn [files] in E. eapply same_trans; [|exact E]. apply run_same. intros j I. apply (Permutation_in _ (Permutation_sym (A _))) in I. unfold jobs in I. apply in_flat_map in I. destruct I as ([w h] & _ & I). apply in_flat_map in I. destruct I as (fm & _ & I). unfold format_jobs in I. apply in_flat_map in I. destruct I as (e & _ & I). destruct (applies_to _ _ _); [|destruct I]. destruct I as [<-|[]]. apply inside_temp.
Qed.
Lemma images_good order sizes p f s : export_images symlinks encode art out sub fms order sizes p f = Ret s -> good_outputs (outputs s).
Proof using Sn Sf. unfold export_images. destruct (first_exception (jobs encode art fms sizes)); [discriminate|]. intros E. apply (sizes_good _ _ _ E). intros name x []. Qed.
End Any.

Section Build.
Context (store : metadata target -> str) (load : str -> res (metadata target)) (dims : str -> res (Z * Z)) (symlinks : bool) (encode : str -> target -> Z -> Z -> str -> list (str * kval) -> res str) (settings : image_settings) (step : dec) (order : list job -> list job) (fuel : nat).
Theorem exported_recordable rel id t w h f m b f2 : dget (metadata_path rel id) f = None -> export_command store load dims symlinks encode settings step order fuel rel (Some id) t w h f = Ret (m, b, f2) ->
  json_safe rel -> safe_settings settings -> crop_fit (snd t) -> (forall hash, dget (lit "out/www/" ++ rel ++ lit ".hash") f = Some hash -> json_safe hash) -> recordable m /\ m_target m = t /\ hash_image_settings settings = Ret (m_settings_hash m) /\ dget (lit "out/www/" ++ rel ++ lit ".hash") f = Some (m_contents_hash m) /\ m_source m = lit "src/public/" ++ rel /\
  forall name l o, In (name, l) (m_outputs m) -> In o l -> exists w h n, o_relpath o = join2 (join2 (splitext_root rel) (print_Z id)) (final_name w h n).
Proof using.
  intros N E Sr Ss C Sh. unfold export_command in E. rewrite N in E. destruct (dget (lit "src/public/" ++ rel) f) as [image|]; [|discriminate E]. destruct (dims image) as [[iw ih]|]; [|discriminate E]. destruct (dget (lit "out/www/" ++ rel ++ lit ".hash") f) as [ch|] eqn:Ch; [|discriminate E]. destruct (hash_image_settings settings) as [hash|] eqn:Hs; [|discriminate E]. destruct (yield_sizes (maximum settings) step iw ih w h fuel) as [sizes|]; [|discriminate E].
  match type of E with context [match ?x with _ => _ end] => destruct x as [s|] eqn:Im; [|discriminate E] end. apply Ret_inj in E.
  assert (Em : m = {| m_settings_hash := hash; m_source := lit "src/public/" ++ rel; m_width := iw; m_height := ih; m_contents_hash := ch; m_target := t; m_outputs := outputs s |}) by congruence. clear E. subst m. cbn [m_target m_settings_hash m_contents_hash m_source m_outputs].
  pose proof (images_good symlinks (encode image t) _ _ _ (formats settings) (safe_join _ _ (safe_root rel Sr) (safe_print id)) Ss order sizes _ _ s Im) as G. destruct (images_made _ _ _ _ _ _ _ _ _ _ _ Im) as [_ [W _]].
  split; [|split; [reflexivity|split; [reflexivity|split; [reflexivity|split; [reflexivity|]]]]]; [|intros name l o I J; destruct (G name l I) as [_ G2]; rewrite Forall_forall in G2; apply (G2 o J)].
  constructor; cbn [m_source m_contents_hash m_target m_outputs]; [apply low_app; [repeat constructor|exact Sr]|exact (Sh ch eq_refl)|exact C|exact W|].
  intros name l o I. destruct (G name l I) as [G1 G2]. split; [exact G1|]. intros J. rewrite Forall_forall in G2. destruct (G2 o J) as [[X _] Y]. auto.
Qed.
End Build.

(** * The crop settings of a command *)
Lemma kept_args args l : Forall (fun kv => kept (snd kv)) args -> crop_settings args = Ret l -> crop_fit l.
Proof.
  intros F. unfold crop_settings. destruct (negb _); [discriminate|]. intros E. apply Ret_inj in E. subst l. split; [reflexivity|]. apply Forall_forall. intros kv I. apply in_map_iff in I. destruct I as ([k d] & <- & I). cbn [fst snd]. destruct (dget k args) as [v|] eqn:D.
  - apply dget_In in D. rewrite Forall_forall in F. exact (F _ D).
  - repeat (destruct I as [I|I]; [injection I as <- <-; split; reflexivity|]). destruct I.
Qed.
Lemma scalar_word s : Forall scalar s -> Forall scalar (fst (word s)) /\ Forall scalar (snd (word s)).
Proof. induction s as [|c s IH]; [split; constructor|]. intros F. inversion F; subst. cbn [word]. destruct (py_space c); [split; [constructor|exact F]|]. destruct (IH H2) as [A B]. destruct (word s). cbn [fst snd] in *. split; [constructor; assumption|exact B]. Qed.
Lemma scalar_lstrip s : Forall scalar s -> Forall scalar (lstrip s).
Proof. induction s as [|c s IH]; [auto|]. intros F. cbn [lstrip]. destruct (py_space c); [inversion F; auto|exact F]. Qed.
Lemma scalar_split n : forall s x, Forall scalar s -> In x (split_words n s) -> Forall scalar x.
Proof.
  induction n as [|n IH]; intros s x F I; cbn [split_words] in I; apply scalar_lstrip in F; destruct (lstrip s) as [|c r].
  - destruct I.
  - destruct I as [<-|[]]. exact F.
  - destruct I.
  - destruct I as [<-|I]; [exact (proj1 (scalar_word (c :: r) F))|]. exact (IH _ _ (proj2 (scalar_word _ F)) I).
Qed.
Lemma scalar_brace s : forall a r, Forall scalar s -> cut_brace s = Some (a, r) -> Forall scalar a.
Proof. induction s as [|c s IH]; intros a r F E; [discriminate E|]. inversion F; subst. cbn [cut_brace] in E. destruct (c =? 125)%N; [injection E as <- <-; constructor; [assumption|constructor]|]. destruct (cut_brace s) as [[x y]|] eqn:C; [|discriminate E]. injection E as <- <-. constructor; [assumption|]. exact (IH _ _ H2 eq_refl). Qed.
Theorem command_kept int_high args c : Forall scalar args -> parse_command int_high args = Ret c -> Forall (fun kv => kept (snd kv)) (c_args c).
Proof.
  intros F. unfold parse_command. destruct args as [|a0 args]; [discriminate|]. set (ws := split_words 4 (a0 :: args)). assert (G : forall x, In x ws -> Forall scalar x) by (intros x I; exact (scalar_split _ _ _ F I)). clearbody ws.
  destruct ws as [|p [|w more]]; try discriminate. destruct (py_int int_high w) as [wz|]; [|discriminate]. destruct more as [|h more]; [discriminate|]. destruct (py_int int_high h) as [hz|]; [|discriminate]. destruct more as [|crop more]; [intros E; apply Ret_inj in E; subst c; constructor|]. destruct (negb (str_eqb crop (lit "cover"))); [discriminate|]. destruct more as [|s more]; [intros E; apply Ret_inj in E; subst c; constructor|].
  destruct (parse_crop s) as [[l z]|e] eqn:P; [|discriminate]. intros E. apply Ret_inj in E. subst c. cbn [c_args]. assert (Fs : Forall scalar s) by (apply G; do 4 right; left; reflexivity). unfold parse_crop in P. destruct s as [|b s]; [discriminate P|]. destruct (negb (b =? 123)%N); [discriminate P|]. destruct (cut_brace s) as [[a rest]|] eqn:Cb; [|discriminate P].
  inversion Fs; subst. pose proof (scalar_brace _ _ _ H2 Cb) as Fa. destruct (json_load (b :: a)) as [v|] eqn:J; [|discriminate P]. cbn [option_map] in P. pose proof (load_kept (b :: a) v (Forall_cons _ H1 Fa) J) as K. destruct (jnorm v) as [| | | |l0|l0]; try discriminate P. apply Ret_inj in P. assert (l0 = l) by congruence. subst l0. apply kept_obj in K. destruct K as [_ K]. eapply Forall_impl; [|exact K]. intros kv [_ X]. exact X.
Qed.
