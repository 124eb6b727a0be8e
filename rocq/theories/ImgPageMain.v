(** Scanning and building the image commands of a page: the source files are left alone, and
    both report the same images. *)
From Verif Require Import Base Graph Json PyStr PyPath PyNorm Builder Handlers Html OutlineData ImgSize ImgSettings ImgExport ImgExportSpec ImgCommand ImgPage ImgCommandSpec ImgCommandProofs ImgPageProofs.
From Coq Require Import String ZArith NArith Bool List Lia Permutation.
Import ListNotations.
Open Scope list_scope.

Definition outside (p : str) : Prop := exists c r, p = c :: r /\ (c = 97 \/ c = 111 \/ c = 47)%N.
Lemma outside_join a b : outside a -> outside (join2 a b).
Proof.
  intros (c & r & -> & H). unfold join2. destruct b as [|d b]; [|destruct (N.eqb d 47) eqn:E].
  - destruct (_ =? _)%N; [exists c, r|exists c, (r ++ [47%N])]; (split; [reflexivity|exact H]).
  - apply N.eqb_eq in E. subst d. exists 47%N, b. auto.
  - destruct (last (c :: r) 0 =? 47)%N; [exists c, (r ++ d :: b)|exists c, (r ++ [47%N] ++ d :: b)]; (split; [reflexivity|exact H]).
Qed.
Lemma outside_art rel id : outside (target_art rel id). Proof. unfold target_art, source_art. apply outside_join, outside_join. exists 97%N. eexists. split; [reflexivity|auto]. Qed.
Lemma outside_out rel id : outside (target_out rel id). Proof. unfold target_out, join_path. cbn [fold_left]. apply outside_join, outside_join, outside_join. exists 111%N. eexists. split; [reflexivity|auto]. Qed.
Lemma outside_src p q : outside p -> str_eqb (lit "src/" ++ q) p = false.
Proof. intros (c & r & -> & H). apply str_eqb_neq. intros X. injection X as X _. lia. Qed.
Lemma ddel_other {V} k k' (d : list (str * V)) : str_eqb k' k = false -> dget k' (ddel k d) = dget k' d.
Proof. intros E. induction d as [|[a v] d IH]; [reflexivity|]. cbn [ddel dget]. destruct (str_eqb k a) eqn:K; [apply str_eqb_eq in K; subst a; cbn [dget]; rewrite E; reflexivity|]. cbn [dget]. destruct (str_eqb k' a); [reflexivity|exact IH]. Qed.
Lemma keeps_set p d f : outside p -> same_sources f (dset p d f).
Proof. intros O q. rewrite Base.dget_dset, (outside_src p q O). reflexivity. Qed.
Lemma keeps_del p f : outside p -> same_sources f (ddel p f).
Proof. intros O q. symmetry. apply ddel_other. apply outside_src. exact O. Qed.
Lemma same_trans f g h : same_sources f g -> same_sources g h -> same_sources f h. Proof. intros A B p. rewrite A. apply B. Qed.
Lemma same_refl f : same_sources f f. Proof. intros p. reflexivity. Qed.
Lemma remove_keeps p f f' : outside p -> remove_file p f = Ret f' -> same_sources f f'.
Proof. intros O. unfold remove_file. destruct (dmem p f); [|discriminate]. intros H. injection H as <-. apply keeps_del. exact O. Qed.
Lemma link_keeps sy a b f f' : outside b -> link sy a b f = Ret f' -> same_sources f f'.
Proof. intros O. unfold link. destruct sy; [destruct (dmem b f); [discriminate|]|]; destruct (dget a f); try discriminate; intros H; injection H as <-; try apply same_refl; apply keeps_set; exact O. Qed.
Section Export.
Context (symlinks : bool) (encode : Z -> Z -> str -> list (str * kval) -> res str) (art out sub : str) (formats : list (str * image_format)) (A : outside art) (O : outside out).
Lemma choose_keeps w h name fmt l : forall b f b' f', (forall x, b = Some x -> outside (b_path x)) -> choose art w h name fmt l b f = Ret (b', f') -> same_sources f f' /\ forall x, b' = Some x -> outside (b_path x).
Proof.
  induction l as [|[n e] l IH]; intros b f b' f' B H; cbn [choose] in H; [injection H as <- <-; split; [apply same_refl|exact B]|]. destruct (negb (applies_to e w h)); [exact (IH _ _ _ _ B H)|]. destruct (dget _ f) as [d|]; [|discriminate]. cbv zeta in H.
  assert (P : outside (join2 art (temp_name w h n name))) by (apply outside_join; exact A). destruct b as [o|].
  - destruct (0 <? _)%Z; (destruct (remove_file _ f) as [f1|] eqn:R; [|discriminate]); (apply remove_keeps in R; [|first [exact P|exact (B _ eq_refl)]]); apply IH in H; try (destruct H as [H1 H2]; split; [exact (same_trans _ _ _ R H1)|exact H2]); try exact B. intros x X. injection X as <-. exact P.
  - apply IH in H; [exact H|]. intros x X. injection X as <-. exact P.
Qed.
Lemma export_one_keeps w h fm s s' : ImgExport.export_one symlinks art out sub w h fm s = Ret s' -> same_sources (files s) (files s').
Proof.
  unfold ImgExport.export_one. destruct (choose art w h (fst fm) (snd fm) (exports (snd fm)) None (files s)) as [[[b|] f]|] eqn:C; [| |discriminate].
  - apply choose_keeps in C; [|discriminate]. destruct C as [C B]. destruct (rename _ _ f) as [f1|] eqn:R; [|discriminate]. destruct (link _ _ _ f1) as [f2|] eqn:L; [|discriminate]. intros H. injection H as <-. cbn [files]. apply link_keeps in L; [|apply outside_join; exact O]. unfold rename in R. destruct (dget _ f); [|discriminate]. injection R as <-.
    eapply same_trans; [exact C|]. eapply same_trans; [|exact L]. eapply same_trans; [apply keeps_del; exact (B _ eq_refl)|]. apply keeps_set. apply outside_join. exact A.
  - apply choose_keeps in C; [|discriminate]. destruct C as [C B]. intros H. injection H as <-. exact C.
Qed.
Lemma export_formats_keeps w h l : forall s s', export_formats symlinks art out sub w h l s = Ret s' -> same_sources (files s) (files s').
Proof. induction l as [|fm l IH]; intros s s' H; cbn [export_formats] in H; [injection H as <-; apply same_refl|]. destruct (ImgExport.export_one symlinks art out sub w h fm s) as [s1|] eqn:E; [|discriminate]. eapply same_trans; [exact (export_one_keeps _ _ _ _ _ E)|exact (IH _ _ H)]. Qed.
Lemma export_sizes_keeps l : forall s s', export_sizes symlinks art out sub formats l s = Ret s' -> same_sources (files s) (files s').
Proof. induction l as [|[w h] l IH]; intros s s' H; cbn [export_sizes] in H; [injection H as <-; apply same_refl|]. destruct (export_formats symlinks art out sub w h formats s) as [s1|] eqn:E; [|discriminate]. eapply same_trans; [exact (export_formats_keeps _ _ _ _ _ E)|exact (IH _ _ H)]. Qed.
Lemma jobs_outside sizes : Forall (fun j : job => outside (fst j)) (jobs encode art formats sizes).
Proof.
  apply Forall_forall. intros j J. unfold jobs in J. apply in_flat_map in J. destruct J as (x & _ & J). apply in_flat_map in J. destruct J as (fm & _ & J). unfold format_jobs in J. apply in_flat_map in J. destruct J as (e & _ & J). destruct (applies_to _ _ _); [|destruct J]. destruct J as [<-|[]]. cbn [fst]. apply outside_join. exact A.
Qed.
Lemma run_jobs_keeps l : Forall (fun j : job => outside (fst j)) l -> forall f, same_sources f (run_jobs l f).
Proof. unfold run_jobs. induction 1 as [|j l J _ IH]; intros f; cbn [fold_left]; [apply same_refl|]. eapply same_trans; [|apply IH]. destruct (snd j); [apply keeps_set; exact J|apply same_refl]. Qed.
Lemma export_images_keeps order sizes p f s : any_order order -> export_images symlinks encode art out sub formats order sizes p f = Ret s -> same_sources f (files s).
Proof.
  intros P. unfold export_images. destruct (first_exception _); [discriminate|]. intros H. apply export_sizes_keeps in H. cbn [files] in H. eapply same_trans; [|exact H]. apply run_jobs_keeps. eapply Permutation_Forall; [apply P|]. apply jobs_outside.
Qed.
End Export.
Section Page.
Context (int_high : str -> option Z) (cwd folder page : str) (dims : str -> res (option (Z * Z))).
Context (store : metadata target -> str) (load : str -> res (metadata target)) (symlinks : bool) (encode : str -> target -> Z -> Z -> str -> list (str * kval) -> res str) (settings : image_settings) (step : dec) (order : list job -> list job) (fuel : nat).
Context (reserve : str -> target -> fs -> res (Z * fs)) (find_target : str -> target -> fs -> res (option Z * fs)).
Context (AO : any_order order) (KR : forall rel t f id f', reserve rel t f = Ret (id, f') -> same_sources f f') (KF : forall rel t f id f', find_target rel t f = Ret (id, f') -> same_sources f f').
Notation scan_one := (ImgPage.scan_one cwd folder page dims settings step fuel reserve).
Notation export_one := (ImgPage.export_one cwd folder page dims store load symlinks encode settings step order fuel find_target).
Notation show_one := (ImgPage.show_one settings).
Lemma reuse_keeps l : forall first p r f x, reuse_outputs symlinks l first p r f = Ret x -> same_sources f (snd x).
Proof.
  induction l as [|o l IH]; intros first p r f x H; cbn [reuse_outputs] in H; [injection H as <-; apply same_refl|]. destruct (dmem _ f); [exact (IH _ _ _ _ _ H)|]. destruct (link _ _ _ f) as [f1|] eqn:L; [|discriminate]. eapply same_trans; [|exact (IH _ _ _ _ _ H)]. eapply link_keeps; [|exact L]. unfold join_path. cbn [fold_left]. apply outside_join, outside_join. exists 111%N. eexists. split; [reflexivity|auto].
Qed.
Lemma export_keeps c f x b f' : export_one c f = Ret (x, b, f') -> same_sources f f'.
Proof.
  unfold ImgPage.export_one. destruct (target_of c) as [t|]; [|discriminate]. destruct (find_target _ t f) as [[id f1]|] eqn:F; [|discriminate]. apply KF in F. intros H. eapply same_trans; [exact F|]. clear F. unfold export_command in H. destruct id as [id|]; [|discriminate].
  destruct (dget (metadata_path _ id) f1) as [text|].
  - unfold reuse in H. destruct (load text) as [m|]; [|discriminate]. destruct (reuse_outputs _ _ _ _ _ f1) as [[[[first p] r] f2]|] eqn:R; [|discriminate]. apply reuse_keeps in R. cbn [snd] in R. destruct first; injection H as <- <- <-; [|exact R]. destruct (dmem _ f2); [exact R|]. eapply same_trans; [exact R|]. apply keeps_set. unfold lock_path, join_path. cbn [fold_left]. apply outside_join, outside_join, outside_join. exists 111%N. eexists. split; [reflexivity|auto].
  - cbv zeta in H. destruct (dget _ f1) as [image|]; [|discriminate]. destruct (must_open dims image) as [[iw ih]|]; [|discriminate]. destruct (dget _ f1) as [ch|]; [|discriminate]. destruct (hash_image_settings settings) as [hash|]; [|discriminate]. destruct (yield_sizes _ _ _ _ _ _ _) as [sizes|]; [|discriminate].
    destruct (export_images _ _ _ _ _ _ _ _ _ f1) as [s|] eqn:E; [|discriminate]. apply export_images_keeps in E; [|apply outside_art|apply outside_out|exact AO]. injection H as <- <- <-. eapply same_trans; [exact E|]. apply keeps_set. unfold metadata_path. apply outside_join, outside_art.
Qed.
Lemma scan_keeps c f b f' : scan_one c f = Ret (b, f') -> same_sources f f'.
Proof. unfold ImgPage.scan_one. destruct (target_of c) as [t|]; [|discriminate]. destruct (reserve _ t f) as [[id f1]|] eqn:F; [|discriminate]. destruct (scan_command _ _ _ _ _ _ _ _ f1); [|discriminate]. intros H. injection H as <- <-. exact (KR _ _ _ _ _ F). Qed.
Lemma scan_dependencies c f b f' : scan_one c f = Ret (b, f') -> dependencies b = [lit "src/public/" ++ public_path cwd folder page c].
Proof. unfold ImgPage.scan_one. destruct (target_of c) as [t|]; [|discriminate]. destruct (reserve _ t f) as [[id f1]|] eqn:F; [|discriminate]. unfold scan_command. destruct (dget _ f1) as [image|]; [|discriminate]. destruct (must_open dims image) as [[iw ih]|]; [|discriminate]. destruct (yield_sizes _ _ _ _ _ _ _) as [sizes|]; [|discriminate]. intros H. injection H as <- <-. reflexivity. Qed.
Lemma export_children c f x b f' : export_one c f = Ret (x, b, f') -> Handlers.children b = [lit "src/public/" ++ public_path cwd folder page c].
Proof.
  unfold ImgPage.export_one. destruct (target_of c) as [t|]; [|discriminate]. destruct (find_target _ t f) as [[id f1]|]; [|discriminate]. intros H. unfold export_command in H. destruct id as [id|]; [|discriminate].
  destruct (dget (metadata_path _ id) f1) as [text|].
  - unfold reuse in H. destruct (load text) as [m|]; [|discriminate]. destruct (reuse_outputs _ _ _ _ _ f1) as [[[[first p] r] f2]|]; [|discriminate]. destruct first; injection H as <- <- <-; reflexivity.
  - cbv zeta in H. destruct (dget _ f1) as [image|]; [|discriminate]. destruct (must_open dims image) as [[iw ih]|]; [|discriminate]. destruct (dget _ f1) as [ch|]; [|discriminate]. destruct (hash_image_settings settings) as [hash|]; [|discriminate]. destruct (yield_sizes _ _ _ _ _ _ _) as [sizes|]; [|discriminate].
    destruct (export_images _ _ _ _ _ _ _ _ _ f1) as [s|]; [|discriminate]. injection H as <- <- <-. reflexivity.
Qed.
Lemma show_plain c m l : show_one c m = Ret l -> Forall plain_html l.
Proof.
  unfold ImgPage.show_one, picture. destruct (dget _ _) as [o|]; [|discriminate]. destruct (find _ o); [|discriminate]. intros H. injection H as <-. repeat (apply Forall_cons || apply Forall_app; try split); try (intros s X; discriminate X); try apply Forall_nil.
  apply Forall_forall. intros t T. apply in_flat_map in T. destruct T as (x & _ & T). destruct (str_eqb _ _); [destruct T|]. destruct T as [<-|[]]. intros s X. discriminate X.
Qed.
Lemma export_one_is c f rel l id f1 : source_path cwd folder page (c_path c) = lit "src/public/" ++ rel -> crop_settings (c_args c) = Ret l -> find_target rel (c_width c, c_height c, l) f = Ret (id, f1) ->
  export_one c f = export_command store load (must_open dims) symlinks encode settings step order fuel rel id (c_width c, c_height c, l) (c_width c) (c_height c) f1.
Proof. intros S L F. unfold ImgPage.export_one, target_of, public_path. rewrite L, S. change (skipn 11 (lit "src/public/" ++ rel)) with rel. rewrite F. reflexivity. Qed.
Lemma scan_one_is c f rel l id f1 : source_path cwd folder page (c_path c) = lit "src/public/" ++ rel -> crop_settings (c_args c) = Ret l -> reserve rel (c_width c, c_height c, l) f = Ret (id, f1) ->
  forall sc f', scan_one c f = Ret (sc, f') <-> scan_command (must_open dims) settings step fuel rel id (c_width c) (c_height c) f1 = Ret sc /\ f' = f1.
Proof. intros S L F sc f'. unfold ImgPage.scan_one, target_of, public_path. rewrite L, S. change (skipn 11 (lit "src/public/" ++ rel)) with rel. rewrite F. destruct (scan_command _ _ _ _ _ _ _ _ f1); split; [intros H; injection H as -> ->; auto|intros [H ->]; congruence|discriminate|intros [H _]; discriminate]. Qed.
Theorem page_agree ts f g fuel1 out1 b1 fuel2 out2 b2 : same_sources f g ->
  pump [page_images int_high cwd folder page dims store load symlinks encode settings step order fuel reserve find_target true] fuel1 ts (new_page f) = Ret (out1, b1) ->
  pump [page_images int_high cwd folder page dims store load symlinks encode settings step order fuel reserve find_target false] fuel2 ts (new_page g) = Ret (out2, b2) ->
  p_seen (b_st b1) = p_seen (b_st b2) /\ same_sources f (p_files (b_st b1)) /\ same_sources g (p_files (b_st b2)).
Proof.
  intros S H1 H2. apply scanned_page in H1. destruct H1 as (-> & scs & H1 & E1). apply built_page in H2; [|exact show_plain]. destruct H2 as (bs & H2 & E2). split; [|split].
  - rewrite E1, E2. cbn [p_seen after_scan after_build]. f_equal. pose proof (survey_pictures _ _ _ _ _ _ _ _ scan_keeps export_keeps _ _ _ _ H1 _ _ _ _ S H2) as F. clear - F. induction F as [|sc b scs bs (t & c & f1 & f2 & g1 & g2 & x & _ & _ & _ & _ & _ & A & B) _ IH]; [reflexivity|]. cbn [map]. rewrite IH, (scan_dependencies _ _ _ _ A), (export_children _ _ _ _ _ B). reflexivity.
  - clear - H1 KR. induction H1 as [f|t f ts f' bs O _ IH|t c b f f1 ts f' bs C E _ IH]; [apply same_refl|exact IH|]. eapply same_trans; [exact (scan_keeps _ _ _ _ E)|exact IH].
  - clear - H2 KF AO. induction H2 as [f|t f ts out f' bs O _ IH|t c x b l f f1 ts out f' bs C E S _ IH]; [apply same_refl|exact IH|]. eapply same_trans; [exact (export_keeps _ _ _ _ _ E)|exact IH].
Qed.
End Page.
