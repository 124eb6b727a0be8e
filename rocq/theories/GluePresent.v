(** images.json: the files a module names are there, and scanning and building report the same
    images. *)
From Verif Require Import Base Graph Json JsonProofs PyStr PyPath PyNorm Handlers Html OutlineData ImgSize ImgSettings ImgExport ImgExportSpec ImgCommand ImgCommandSpec ImgPage ImgPageProofs ImgPageMain Glue GlueSpec GlueJson GlueProofs GlueMain.
From Coq Require Import String ZArith NArith QArith Bool List Lia Permutation.
Import ListNotations.
Open Scope list_scope.
Open Scope Z_scope.

Definition mono (f g : fs) : Prop := forall q, dget q f <> None -> dget q g <> None.
(** files in folders that begin with "o" stay *)
Definition stays (f g : fs) : Prop := forall q, dget (111%N :: q) f <> None -> dget (111%N :: q) g <> None.
Definition relative (s : str) : Prop := starts_with (lit "/") s = false.
Definition headed (c : N) (p : str) : Prop := exists r, p = c :: r.
Lemma mono_stays f g : mono f g -> stays f g. Proof. intros M q. apply M. Qed.
Lemma mono_refl f : mono f f. Proof. intros q H. exact H. Qed.
Lemma mono_trans f g h : mono f g -> mono g h -> mono f h. Proof. intros A B q Q. apply B, A, Q. Qed.
Lemma stays_refl f : stays f f. Proof. intros q H. exact H. Qed.
Lemma stays_trans f g h : stays f g -> stays g h -> stays f h. Proof. intros A B q Q. apply B, A, Q. Qed.
Lemma mono_set p d f : mono f (dset p d f).
Proof. intros q Q. rewrite Base.dget_dset. destruct (str_eqb q p); [discriminate|exact Q]. Qed.
Lemma stays_del p f : headed 97%N p -> stays f (ddel p f).
Proof. intros [r ->] q Q. rewrite ddel_other; [exact Q|]. apply str_eqb_neq. intros X. discriminate X. Qed.
Lemma relative_head c s : c <> 47%N -> relative (c :: s).
Proof. intros N. unfold relative. destruct (starts_with (lit "/") (c :: s)) eqn:E; [|reflexivity]. apply starts_with_iff in E. destruct E as [r E]. injection E as -> _. contradiction. Qed.
Lemma join2_headed c a b : headed c a -> relative b -> headed c (join2 a b).
Proof.
  intros [r ->] R. unfold join2. destruct b as [|d b]; [destruct (_ =? _)%N; eexists; reflexivity|]. destruct (d =? 47)%N eqn:E; [apply N.eqb_eq in E; subst d; discriminate R|]. destruct (last (c :: r) 0 =? 47)%N; eexists; reflexivity.
Qed.
Lemma digit_head z : exists c s, print_Z z = c :: s /\ c <> 47%N.
Proof.
  destruct z as [|p|p]; cbn [print_Z]; [exists 48%N, []; split; [reflexivity|discriminate]| |exists 45%N; eexists; split; [reflexivity|discriminate]].
  destruct (print_N_head (Npos p)) as (c & r & -> & D). exists c, r. split; [reflexivity|]. intros ->. discriminate D.
Qed.
Lemma relative_print z s : relative (print_Z z ++ s).
Proof. destruct (digit_head z) as (c & r & -> & N). apply (relative_head c (r ++ s)). exact N. Qed.
Lemma relative_print1 z : relative (print_Z z). Proof. rewrite <- (app_nil_r (print_Z z)). apply relative_print. Qed.
Lemma print_nonempty z : print_Z z <> []. Proof. destruct (digit_head z) as (c & r & -> & N). discriminate. Qed.
Lemma last_app_cons (p : str) x a : last (p ++ x :: a) 0%N = last (x :: a) 0%N.
Proof. induction p as [|y p IH]; [reflexivity|]. cbn [app]. rewrite <- IH. destruct (p ++ x :: a) eqn:E; [destruct p; discriminate E|reflexivity]. Qed.
Lemma www_join a b : b <> [] -> relative b -> join2 (lit "out/www/" ++ a) b = lit "out/www/" ++ join2 a b.
Proof.
  intros N R. unfold join2. destruct b as [|d b]; [contradiction|]. destruct (d =? 47)%N eqn:E; [apply N.eqb_eq in E; subst d; discriminate R|].
  assert (X : exists c r, lit "out/www/" ++ a = c :: r) by (eexists; eexists; reflexivity). destruct X as (c & r & X). rewrite X. rewrite <- X. destruct a as [|x a]; [reflexivity|]. rewrite (last_app_cons (lit "out/www/") x a). destruct (last (x :: a) 0 =? 47)%N; rewrite <- !app_assoc; reflexivity.
Qed.

Section Images.
Context (symlinks : bool) (encode : Z -> Z -> str -> list (str * kval) -> res str) (art out sub : str) (formats : list (str * image_format)) (HA : headed 97%N art) (HO : headed 111%N out).
Lemma choose_stays w h name fmt l : forall b f b' f', (forall x, b = Some x -> headed 97%N (b_path x)) -> choose art w h name fmt l b f = Ret (b', f') -> stays f f' /\ forall x, b' = Some x -> headed 97%N (b_path x).
Proof.
  induction l as [|[n e] l IH]; intros b f b' f' B H; cbn [choose] in H; [injection H as <- <-; split; [apply stays_refl|exact B]|]. destruct (negb (applies_to e w h)); [exact (IH _ _ _ _ B H)|]. destruct (dget _ f) as [d|]; [|discriminate]. cbv zeta in H.
  assert (P : headed 97%N (join2 art (temp_name w h n name))) by (apply join2_headed; [exact HA|apply relative_print]).
  assert (Rm : forall p g g', headed 97%N p -> remove_file p g = Ret g' -> stays g g') by (intros p g g' Hp; unfold remove_file; destruct (dmem p g); [|discriminate]; intros X; injection X as <-; apply stays_del; exact Hp).
  destruct b as [o|].
  - destruct (0 <? _)%Z; (destruct (remove_file _ f) as [f1|] eqn:R; [|discriminate]); (apply Rm in R; [|first [exact P|exact (B _ eq_refl)]]); apply IH in H; try (split; [exact (stays_trans _ _ _ R (proj1 H))|exact (proj2 H)]); try exact B. intros x X. injection X as <-. exact P.
  - apply IH in H; [exact H|]. intros x X. injection X as <-. exact P.
Qed.
(** every file recorded is in [out] *)
Definition there (s : progress) : Prop := forall name l o, In (name, l) (outputs s) -> In o l -> exists z r, o_relpath o = join2 sub (print_Z z ++ r) /\ dget (join2 out (print_Z z ++ r)) (files s) <> None.
Lemma out_headed z r : exists q, join2 out (print_Z z ++ r) = 111%N :: q.
Proof. apply (join2_headed 111%N out); [exact HO|apply relative_print]. Qed.
Lemma In_dset {V} (k : str) (v : V) d k' v' : In (k', v') (dset k v d) -> (k' = k /\ v' = v) \/ In (k', v') d.
Proof. induction d as [|[a w] d IH]; cbn [dset]; [intros [H|[]]; injection H as <- <-; auto|]. destruct (str_eqb k a) eqn:E; intros [H|H]; [injection H as <- <-; apply str_eqb_eq in E; subst; auto|right; right; exact H|right; left; exact H|]. destruct (IH H) as [X|X]; [auto|right; right; exact X]. Qed.
Lemma export_one_there w h fm s s' : there s -> ImgExport.export_one symlinks art out sub w h fm s = Ret s' -> there s' /\ stays (files s) (files s').
Proof.
  intros T. unfold ImgExport.export_one. destruct (choose art w h (fst fm) (snd fm) (exports (snd fm)) None (files s)) as [[[b|] f]|] eqn:C; [| |discriminate].
  - apply choose_stays in C; [|discriminate]. destruct C as [C B]. destruct (rename _ _ f) as [f1|] eqn:R; [|discriminate]. destruct (link _ _ _ f1) as [f2|] eqn:L; [|discriminate]. intros H. injection H as <-. cbn [files outputs].
    unfold rename in R. destruct (dget (b_path b) f) as [d|]; [|discriminate]. injection R as <-.
    assert (S1 : stays f (dset (join2 art (final_name w h (fst fm))) d (ddel (b_path b) f))) by (eapply stays_trans; [apply stays_del; exact (B _ eq_refl)|apply mono_stays, mono_set]).
    assert (E : f2 = dset (join2 out (final_name w h (fst fm))) d (dset (join2 art (final_name w h (fst fm))) d (ddel (b_path b) f))).
    { unfold link in L. rewrite dget_dset_same in L. destruct symlinks; [destruct (dmem _ _); [discriminate|]|]; injection L as <-; reflexivity. }
    assert (S2 : stays (files s) f2) by (rewrite E; eapply stays_trans; [exact C|]; eapply stays_trans; [exact S1|apply mono_stays, mono_set]).
    split; [|exact S2]. intros name l o I J. cbn [outputs files] in *. apply In_dset in I. destruct I as [[-> ->]|I].
    + apply in_app_or in J. destruct J as [J|[<-|[]]].
      * destruct (dget (fst fm) (outputs s)) as [l0|] eqn:G; [|destruct J]. apply dget_In in G. destruct (T _ _ _ G J) as (z & r & P & Q). exists z, r. split; [exact P|]. destruct (out_headed z r) as [q Eq]. rewrite Eq in *. apply S2. exact Q.
      * cbn [o_relpath]. exists w. eexists. split; [reflexivity|]. rewrite E. unfold final_name at 1. rewrite dget_dset_same. discriminate.
    + destruct (T _ _ _ I J) as (z & r & P & Q). exists z, r. split; [exact P|]. destruct (out_headed z r) as [q Eq]. rewrite Eq in *. apply S2. exact Q.
  - apply choose_stays in C; [|discriminate]. destruct C as [C B]. intros H. injection H as <-. cbn [files]. split; [|exact C]. intros name l o I J. cbn [outputs files] in *. destruct (T _ _ _ I J) as (z & r & P & Q). exists z, r. split; [exact P|]. destruct (out_headed z r) as [q Eq]. rewrite Eq in *. apply C. exact Q.
Qed.
Lemma export_formats_there w h l : forall s s', there s -> export_formats symlinks art out sub w h l s = Ret s' -> there s' /\ stays (files s) (files s').
Proof. induction l as [|fm l IH]; intros s s' T H; cbn [export_formats] in H; [injection H as <-; split; [exact T|apply stays_refl]|]. destruct (ImgExport.export_one symlinks art out sub w h fm s) as [s1|] eqn:E; [|discriminate]. apply export_one_there in E; [|exact T]. destruct E as [T1 E]. destruct (IH _ _ T1 H) as [T2 F]. split; [exact T2|exact (stays_trans _ _ _ E F)]. Qed.
Lemma export_sizes_there l : forall s s', there s -> export_sizes symlinks art out sub formats l s = Ret s' -> there s' /\ stays (files s) (files s').
Proof. induction l as [|[w h] l IH]; intros s s' T H; cbn [export_sizes] in H; [injection H as <-; split; [exact T|apply stays_refl]|]. destruct (export_formats symlinks art out sub w h formats s) as [s1|] eqn:E; [|discriminate]. apply export_formats_there in E; [|exact T]. destruct E as [T1 E]. destruct (IH _ _ T1 H) as [T2 F]. split; [exact T2|exact (stays_trans _ _ _ E F)]. Qed.
Lemma run_jobs_mono l : forall f, mono f (run_jobs l f).
Proof. unfold run_jobs. induction l as [|j l IH]; intros f; cbn [fold_left]; [apply mono_refl|]. eapply mono_trans; [|apply IH]. destruct (snd j); [apply mono_set|apply mono_refl]. Qed.
Lemma export_images_there order sizes p f s : export_images symlinks encode art out sub formats order sizes p f = Ret s -> there s /\ stays f (files s).
Proof.
  unfold export_images. destruct (first_exception _); [discriminate|]. intros H. apply export_sizes_there in H; [|intros name l o []]. destruct H as [T S]. split; [exact T|]. cbn [files] in S. eapply stays_trans; [apply mono_stays, run_jobs_mono|exact S].
Qed.
End Images.

(** * A command *)
Section Command.
Context (store : metadata target -> str) (load : str -> res (metadata target)) (dims : str -> res (Z * Z)) (symlinks : bool) (encode : str -> target -> Z -> Z -> str -> list (str * kval) -> res str) (settings : image_settings) (step : dec) (order : list job -> list job) (fuel : nat).
Lemma link_mono a b f f' : link symlinks a b f = Ret f' -> mono f f'.
Proof. unfold link. destruct symlinks; [destruct (dmem b f); [discriminate|]|]; destruct (dget a f); try discriminate; intros H; injection H as <-; try apply mono_refl; apply mono_set. Qed.
Lemma out_file o : relative (o_relpath o) -> join_path (lit "out") [lit "www"; o_relpath o] = lit "out/www/" ++ o_relpath o.
Proof. intros R. unfold join_path. cbn [fold_left]. change (join2 (lit "out") (lit "www")) with (lit "out/www"). rewrite join2_rel; [reflexivity|exact R|discriminate|discriminate]. Qed.
Lemma reuse_there l : forall first p r f x, (forall o, In o l -> relative (o_relpath o) /\ (symlinks = true -> dget (join2 (lit "artifacts") (o_relpath o)) f <> None)) -> reuse_outputs symlinks l first p r f = Ret x ->
  mono f (snd x) /\ forall o, In o l -> dget (lit "out/www/" ++ o_relpath o) (snd x) <> None.
Proof.
  induction l as [|o l IH]; intros first p r f x A H; cbn [reuse_outputs] in H; [injection H as <-; split; [apply mono_refl|intros o []]|]. destruct (A o (or_introl eq_refl)) as [R1 R2]. rewrite (out_file o R1) in H. destruct (dmem (lit "out/www/" ++ o_relpath o) f) eqn:D.
  - apply IH in H; [|intros o' I; apply A; right; exact I]. destruct H as [M H]. split; [exact M|]. intros o' [<-|I]; [apply M; intros X; unfold dmem in D; rewrite X in D; discriminate D|exact (H o' I)].
  - destruct (link _ _ _ f) as [f1|] eqn:L; [|discriminate]. pose proof (link_mono _ _ _ _ L) as M1. apply IH in H; [|intros o' I; destruct (A o' (or_intror I)) as [B1 B2]; split; [exact B1|intros S; apply M1; exact (B2 S)]]. destruct H as [M H]. split; [exact (mono_trans _ _ _ M1 M)|]. intros o' [<-|I]; [|exact (H o' I)]. apply M.
    unfold link in L. destruct symlinks.
    + rewrite D in L. destruct (dget (join2 _ _) f) as [d|] eqn:G; [|exfalso; exact (R2 eq_refl eq_refl)]. injection L as <-. rewrite dget_dset_same. discriminate.
    + destruct (dget (join2 _ _) f) as [d|]; [|discriminate]. injection L as <-. rewrite dget_dset_same. discriminate.
Qed.
Lemma export_there rel id t w h f m b f2 : relative (splitext_root rel) ->
  (Handlers.reused b <> [] -> forall name l o, In (name, l) (m_outputs m) -> In o l -> relative (o_relpath o) /\ (symlinks = true -> dget (join2 (lit "artifacts") (o_relpath o)) f <> None)) ->
  export_command store load dims symlinks encode settings step order fuel rel id t w h f = Ret (m, b, f2) ->
  stays f f2 /\ forall name l o, In (name, l) (m_outputs m) -> In o l -> dget (lit "out/www/" ++ o_relpath o) f2 <> None.
Proof.
  intros R A H. unfold export_command in H. destruct id as [id|]; [|discriminate]. destruct (dget (metadata_path rel id) f) as [text|].
  - unfold reuse in H. destruct (load text) as [m'|]; [|discriminate]. destruct (reuse_outputs _ _ _ _ _ f) as [[[[first p] r] f1]|] eqn:U; [|discriminate].
    assert (K : m' = m /\ Handlers.reused b <> [] /\ mono f1 f2).
    { assert (Rn : exists y, In y r). { clear - U. assert (G : forall l first0 p0 r0 g x, reuse_outputs symlinks l first0 p0 r0 g = Ret x -> (exists y, In y r0) -> exists y, In y (snd (fst x))). { induction l as [|o l IH]; intros first0 p0 r0 g x H Y; cbn [reuse_outputs] in H; [injection H as <-; exact Y|]. destruct (dmem _ g); [apply IH in H; [exact H|]; destruct Y as [y Y]; exists y; apply in_or_app; left; exact Y|]. destruct (link _ _ _ g); [|discriminate]. apply IH in H; [exact H|]. destruct Y as [y Y]; exists y; apply in_or_app; left; exact Y. } apply G in U; [exact U|]. exists (metadata_path rel id). left. reflexivity. }
      destruct Rn as [y Rn]. destruct first; injection H as <- <- <-; (split; [reflexivity|]); (split; [cbn [Handlers.reused]; intros X; first [rewrite X in Rn; destruct Rn|destruct r; [destruct Rn|discriminate X]]|]).
      - destruct (dmem _ f1); [apply mono_refl|apply mono_set].
      - apply mono_refl. }
    destruct K as (-> & K & M2). apply reuse_there in U; [|intros o I; apply in_flat_map in I; destruct I as ([name l] & I & J); exact (A K name l o I J)]. cbn [snd] in U. destruct U as [M1 U]. split; [apply mono_stays; exact (mono_trans _ _ _ M1 M2)|]. intros name l o I J. apply M2, U. apply in_flat_map. exists (name, l). auto.
  - cbv zeta in H. destruct (dget (lit "src/public/" ++ rel) f) as [image|]; [|discriminate]. destruct (dims image) as [[iw ih]|]; [|discriminate]. destruct (dget (lit "out/www/" ++ rel ++ lit ".hash") f) as [ch|]; [|discriminate]. destruct (hash_image_settings settings) as [hash|]; [|discriminate]. destruct (yield_sizes _ _ _ _ _ _ _) as [sizes|]; [|discriminate].
    destruct (export_images _ _ _ _ _ _ _ _ _ f) as [s|] eqn:E; [|discriminate].
    assert (HO : target_out rel id = lit "out/www/" ++ join2 (splitext_root rel) (print_Z id)).
    { unfold target_out, join_path. cbn [fold_left]. change (join2 (lit "out") (lit "www")) with (lit "out/www"). rewrite (join2_rel (lit "out/www") (splitext_root rel) R); [|discriminate|discriminate]. exact (www_join (splitext_root rel) (print_Z id) (print_nonempty id) (relative_print1 id)). }
    apply export_images_there in E; [|unfold target_art, source_art; apply join2_headed; [apply join2_headed; [eexists; reflexivity|exact R]|apply relative_print1]|rewrite HO; eexists; reflexivity]. destruct E as [T S]. injection H as <- <- <-. cbn [m_outputs]. split; [eapply stays_trans; [exact S|apply mono_stays, mono_set]|].
    intros name l o I J. apply mono_set. destruct (T _ _ _ I J) as (z & r & P & Q). rewrite P. rewrite HO in Q. rewrite www_join in Q; [exact Q| |apply relative_print]. destruct (print_Z z) eqn:Z; [exfalso; exact (print_nonempty z Z)|discriminate].
Qed.
End Command.

(** * A file *)
Section File.
Context (cwd folder page : str) (num : str -> Q) (dims : str -> res (option (Z * Z))) (sha : str -> str).
Context (store : metadata target -> str) (load : str -> res (metadata target)) (symlinks : bool) (encode : str -> target -> Z -> Z -> str -> list (str * kval) -> res str) (settings : image_settings) (step : dec) (order : list job -> list job) (fuel : nat).
Context (reserve : str -> target -> fs -> res (Z * fs)) (find_target : str -> target -> fs -> res (option Z * fs)).
Notation scan_one := (ImgPage.scan_one cwd folder page dims settings step fuel reserve).
Notation export_one := (ImgPage.export_one cwd folder page dims store load symlinks encode settings step order fuel find_target).
Lemma carried_there : (forall rel t f id f', find_target rel t f = Ret (id, f') -> mono f f') ->
  forall f l f' rs, carried export_one f l f' rs ->
  (forall r, In r rs -> relative (splitext_root (public_path cwd folder page (r_command r)))) ->
  (forall r name outs o, In r rs -> Handlers.reused (r_built r) <> [] -> In (name, outs) (m_outputs (r_meta r)) -> In o outs -> relative (o_relpath o) /\ (symlinks = true -> dget (join2 (lit "artifacts") (o_relpath o)) (r_before r) <> None)) ->
  stays f f' /\ forall r name outs o, In r rs -> In (name, outs) (m_outputs (r_meta r)) -> In o outs -> dget (lit "out/www/" ++ o_relpath o) f' <> None.
Proof.
  intros KF f l f' rs H. induction H as [f|name v c m b f f1 l f' rs C L E _ IH]; intros R A; [split; [apply stays_refl|intros r name outs o []]|].
  assert (X : stays f f1 /\ forall name l o, In (name, l) (m_outputs m) -> In o l -> dget (lit "out/www/" ++ o_relpath o) f1 <> None).
  { unfold ImgPage.export_one in E. destruct (target_of c) as [t|]; [|discriminate]. destruct (find_target _ t f) as [[id f0]|] eqn:F; [|discriminate]. apply KF in F. apply export_there in E.
    - destruct E as [S E]. split; [eapply stays_trans; [apply mono_stays; exact F|exact S]|exact E].
    - exact (R _ (or_introl eq_refl)).
    - intros Ne name0 l0 o I J. destruct (A _ name0 l0 o (or_introl eq_refl) Ne I J) as [A1 A2]. split; [exact A1|intros S; apply F; exact (A2 S)]. }
  destruct X as [S1 P1]. destruct IH as [S2 P2]; [intros r I; apply R; right; exact I|intros r n outs o I; apply (A r n outs o); right; exact I|]. split; [exact (stays_trans _ _ _ S1 S2)|]. intros r n outs o [<-|I] J K; [|exact (P2 r n outs o I J K)]. apply S2. exact (P1 n outs o J K).
Qed.
Lemma surveys_carried f l f' ss : any_order order -> (forall rel t f id f', reserve rel t f = Ret (id, f') -> same_sources f f') -> (forall rel t f id f', find_target rel t f = Ret (id, f') -> same_sources f f') ->
  surveys scan_one f l f' ss -> forall g g' rs, carried export_one g l g' rs -> map dependencies ss = map (fun r => Handlers.children (r_built r)) rs /\ same_sources f f' /\ same_sources g g'.
Proof.
  intros AO KR KF H. induction H as [f|name v c s f f1 l f' ss C L E _ IH]; intros g g' rs B; inversion B as [|name' v' c' m b g0 g1 l' g2 rs' C' L' E' B']; subst; [split; [reflexivity|split; apply same_refl]|].
  apply stands_command_of in C; [|exact L]. apply stands_command_of in C'; [|exact L']. assert (c' = c) by congruence. subst c'. destruct (IH _ _ _ B') as (D & S1 & S2). split; [|split].
  - cbn [map r_built]. rewrite D, (scan_dependencies cwd folder page dims settings step fuel reserve c f s f1 E). erewrite export_children by exact E'. reflexivity.
  - eapply same_trans; [|exact S1]. eapply scan_keeps; [exact KR|exact E].
  - eapply same_trans; [|exact S2]. eapply export_keeps; [exact AO|exact KF|exact E'].
Qed.
End File.
