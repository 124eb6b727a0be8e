(** images.json: scanning and building report the same images. *)
From Verif Require Import Base Graph Json JsonProofs JsonReads PyStr PyPath PyNorm Handlers Html OutlineData ImgSize ImgSettings ImgExport ImgExportSpec ImgCommand ImgCommandSpec ImgPage ImgPageProofs ImgPageMain Glue GlueSpec GlueJson GlueProofs GlueMain GluePresent.
From Coq Require Import String ZArith NArith QArith Bool List Lia Permutation.
Import ListNotations.
Open Scope list_scope.
Open Scope Z_scope.

Lemma source_place path : (exists r, join_path (lit "src") [lit "public"; path] = lit "src/" ++ r) \/ exists r, join_path (lit "src") [lit "public"; path] = 47%N :: r.
Proof.
  unfold join_path. cbn [fold_left]. change (join2 (lit "src") (lit "public")) with (lit "src/public"). destruct path as [|c s]; [left; exists (lit "public/"); reflexivity|]. unfold join2. destruct (c =? 47)%N eqn:C; [right; apply N.eqb_eq in C; subst c; exists s; reflexivity|]. left. exists (lit "public/" ++ c :: s). reflexivity.
Qed.
Section Same.
Context (num : str -> Q) (dims : str -> res (option (Z * Z))) (f g : fs).
Context (S : same_inputs f g).
Lemma place_same path : dget (join_path (lit "src") [lit "public"; path]) f = dget (join_path (lit "src") [lit "public"; path]) g.
Proof. destruct (source_place path) as [[r ->]|[r ->]]; [apply S; left; exists r; reflexivity|apply S; right; exists r; reflexivity]. Qed.
Lemma check_image_same v : check_image num dims v f = check_image num dims v g.
Proof. unfold check_image. destruct v; try reflexivity. destruct (dget (lit "path") l) as [x|]; [|reflexivity]. destruct x; try reflexivity. rewrite place_same. reflexivity. Qed.
Lemma check_images_same l : check_images num dims l f = check_images num dims l g.
Proof. induction l as [|[k v] l IH]; [reflexivity|]. cbn [check_images]. rewrite check_image_same, IH. reflexivity. Qed.
Lemma read_same rel : glue_read num dims (lit "src/" ++ rel) f = glue_read num dims (lit "src/" ++ rel) g.
Proof. unfold glue_read. rewrite (S (lit "src/" ++ rel)) by (left; exists rel; reflexivity). destruct (dget (lit "src/" ++ rel) g); [|reflexivity]. destruct (option_map jnorm (json_load s)) as [v|]; [|reflexivity]. unfold check_json. destruct v; try reflexivity. rewrite check_images_same. reflexivity. Qed.
End Same.

Lemma cut_last_whole s : fst (cut_last s) ++ snd (cut_last s) = s.
Proof. induction s as [|c s IH]; [reflexivity|]. cbn [cut_last]. destruct (cut_last s) as [h b]. cbn [fst snd] in IH. destruct h as [|x h]; [destruct (c =? 47)%N|]; cbn [fst snd app]; rewrite <- IH; reflexivity. Qed.
Lemma before_dot s : forall p, before_last_dot s = Some p -> exists t, s = p ++ t.
Proof. induction s as [|c s IH]; [discriminate|]. intros p. cbn [before_last_dot]. destruct (before_last_dot s) as [q|]; [intros H; injection H as <-; destruct (IH q eq_refl) as [t ->]; exists t; reflexivity|]. destruct (c =? 46)%N; [|discriminate]. intros H. injection H as <-. exists (c :: s). reflexivity. Qed.
Lemma splitext_prefix s : exists t, s = splitext_root s ++ t.
Proof.
  unfold splitext_root. pose proof (cut_last_whole s) as W. destruct (cut_last s) as [h b]. cbn [fst snd] in W. destruct (before_last_dot b) as [p|] eqn:B; [|exists []; rewrite app_nil_r; reflexivity]. destruct (forallb (N.eqb 46) p); [exists []; rewrite app_nil_r; reflexivity|]. apply before_dot in B. destruct B as [t ->]. exists t. rewrite <- app_assoc. symmetry. exact W.
Qed.
Section Agree.
Context (cwd folder page : str) (num : str -> Q) (dims : str -> res (option (Z * Z))) (sha : str -> str).
Context (store : metadata target -> str) (load : str -> res (metadata target)) (symlinks : bool) (encode : str -> target -> Z -> Z -> str -> list (str * kval) -> res str) (settings : image_settings) (step : dec) (order : list job -> list job) (fuel : nat).
Context (reserve : str -> target -> fs -> res (Z * fs)) (find_target : str -> target -> fs -> res (option Z * fs)).
Context (auto : bool) (text : str) (in_cwd : str -> bool).
Notation scan := (glue_scan num dims (ImgPage.scan_one cwd folder page dims settings step fuel reserve) auto text in_cwd).
Notation build := (glue_build num dims sha (ImgPage.export_one cwd folder page dims store load symlinks encode settings step order fuel find_target)).
Theorem agree rel f g sc ph f1 b g1 : any_order order -> (forall rel t f id f', reserve rel t f = Ret (id, f') -> same_sources f f') -> (forall rel t f id f', find_target rel t f = Ret (id, f') -> same_sources f f') ->
  starts_with (lit "/") rel = false -> same_inputs f g -> let p := lit "src/public/" ++ rel ++ lit ".images.json" in let out := lit "out/www/" ++ rel ++ lit ".images.js" in
  scan p f = Ret (sc, ph, f1) -> build p g = Ret (b, g1) ->
  (forall q, In q (dependencies sc) <-> In q (children b)) /\ (In out (produces sc) <-> In out (produced b)) /\ (In (out ++ lit ".hash") (produces sc) -> In (out ++ lit ".hash") (produced b) \/ In (out ++ lit ".hash") (reused b)) /\
  same_sources f f1 /\ same_sources g g1.
Proof.
  intros AO KR KF R S p out SC B. assert (G : glue_read num dims p f = glue_read num dims p g) by (exact (read_same num dims f g S (lit "public/" ++ rel ++ lit ".images.json"))).
  destruct (glue_read num dims p f) as [[l|]|e] eqn:G1.
  - pose proof (scan_iff num dims _ auto text in_cwd rel f sc ph f1 l R G1 SC) as (ss & SS & D & P & _). symmetry in G. pose proof (build_sound num dims sha _ rel g b g1 l R G B) as (g0 & rs & C & M & H & O & CH & PR & RE & _).
    destruct (surveys_carried cwd folder page dims store load symlinks encode settings step order fuel reserve find_target _ _ _ _ AO KR KF SS _ _ _ C) as (E & S1 & S2).
    split; [intros q; rewrite (proj2 D q), (proj2 CH q), E; reflexivity|]. split; [|split; [|split; [exact S1|]]].
    + split; intros _; [apply PR; left; reflexivity|]. apply (proj2 P). eexists. split; [left; reflexivity|left; reflexivity].
    + intros _. destruct (dget (out ++ lit ".hash") g0) eqn:X; [right; apply RE; left; split; [reflexivity|fold out; congruence]|left; apply PR; right; left; split; [reflexivity|exact X]].
    + intros q. rewrite (S2 q). symmetry. apply O; intros X; discriminate X.
  - symmetry in G. destruct (nothing num dims sha (ImgPage.scan_one cwd folder page dims settings step fuel reserve) (ImgPage.export_one cwd folder page dims store load symlinks encode settings step order fuel find_target) auto text in_cwd p f (or_introl G1)) as [N _].
    destruct (nothing num dims sha (ImgPage.scan_one cwd folder page dims settings step fuel reserve) (ImgPage.export_one cwd folder page dims store load symlinks encode settings step order fuel find_target) auto text in_cwd p g (or_introl G)) as [_ N'].
    rewrite N in SC. rewrite N' in B. injection SC as <- <- <-. injection B as <- <-. cbn [dependencies children produces produced reused]. split; [reflexivity|]. split; [reflexivity|]. split; [intros []|]. split; apply same_refl.
  - exfalso. unfold glue_scan in SC. rewrite (handled rel : glue_skips p = false), G1 in SC. discriminate.
Qed.
Lemma carried_commands (export : command -> fs -> res (metadata target * Handlers.built * fs)) f l f' rs : carried export f l f' rs -> forall r, In r rs -> exists k d, In (k, JObj d) l /\ dget (lit "path") d = Some (JStr (c_path (r_command r))).
Proof.
  induction 1 as [f|name v c m b f f1 l f' rs C L E _ IH]; intros r I; [destruct I|]. destruct I as [<-|I].
  - destruct C as [d path vw w vh h args lazy P _ _ _ _ _]. exists name, d. split; [left; reflexivity|exact P].
  - destruct (IH r I) as (k & d & J & P). exists k, d. split; [right; exact J|exact P].
Qed.
Lemma relative_public c s : c_path c = 47%N :: s -> starts_with (lit "/") s = false -> relative (splitext_root (public_path cwd folder page c)).
Proof.
  intros E R. assert (P : public_path cwd folder page c = s).
  { unfold public_path. rewrite E. unfold source_path. change (starts_with [47%N] (47%N :: s)) with true. cbv iota. cbn [tl]. unfold join_path. cbn [fold_left]. change (join2 (lit "src") (lit "public")) with (lit "src/public"). rewrite join2_rel; [reflexivity|exact R|discriminate|discriminate]. }
  rewrite P. destruct (splitext_prefix s) as [t T]. unfold relative. destruct (splitext_root s) as [|x r]; [reflexivity|]. rewrite T in R. exact R.
Qed.
(** the files named by the module *)
Theorem named_there rel f b f2 l : (forall rel t f id f', find_target rel t f = Ret (id, f') -> forall q, dget q f <> None -> dget q f' <> None) ->
  starts_with (lit "/") rel = false -> let p := lit "src/public/" ++ rel ++ lit ".images.json" in
  glue_read num dims p f = Ret (Some l) -> build p f = Ret (b, f2) ->
  exists f1 rs, carried (ImgPage.export_one cwd folder page dims store load symlinks encode settings step order fuel find_target) f l f1 rs /\
  dget (lit "out/www/" ++ rel ++ lit ".images.js") f2 = Some (module_text (map fst (map told rs))) /\
  ((forall k d path, In (k, JObj d) l -> dget (lit "path") d = Some (JStr path) -> starts_with (lit "//") path = false) ->
   (forall r name outs o, In r rs -> Handlers.reused (r_built r) <> [] -> In (name, outs) (m_outputs (r_meta r)) -> In o outs ->
      starts_with (lit "/") (o_relpath o) = false /\ (symlinks = true -> dget (lit "artifacts/" ++ o_relpath o) (r_before r) <> None)) ->
   forall r name outs o, In r rs -> In (name, outs) (m_outputs (r_meta r)) -> In o outs -> dget (lit "out/www/" ++ o_relpath o) f2 <> None).
Proof.
  intros KF R p G B. destruct (build_sound num dims sha _ rel f b f2 l R G B) as (f1 & rs & C & M & H & O & _). exists f1, rs. split; [exact C|]. split; [exact M|]. intros A1 A2 r name outs o I J K.
  destruct (carried_there cwd folder page dims store load symlinks encode settings step order fuel find_target KF f l f1 rs C) as [_ T].
  - intros r0 I0. destruct (carried_commands _ _ _ _ _ C r0 I0) as (k & d & Id & P0). pose proof (A1 k d _ Id P0) as R0. destruct (proj1 (read_some num dims p f l) G) as (_ & _ & _ & _ & _ & AC). rewrite Forall_forall in AC. specialize (AC _ Id). cbn [snd] in AC. inversion AC as [d' path image iw ih vw w vh h X]; subst. assert (Y : c_path (r_command r0) = 47%N :: path) by congruence. apply (relative_public _ path Y). rewrite Y in R0. exact R0.
  - intros r0 n0 l0 o0 I0 U0 J0 K0. destruct (A2 r0 n0 l0 o0 I0 U0 J0 K0) as [B1 B2]. split; [exact B1|]. intros SY. specialize (B2 SY). replace (join2 (lit "artifacts") (o_relpath o0)) with (lit "artifacts/" ++ o_relpath o0); [exact B2|]. unfold join2. destruct (o_relpath o0) as [|c s]; [reflexivity|]. destruct (c =? 47)%N eqn:E; [|reflexivity]. apply N.eqb_eq in E. subst c. discriminate B1.
  - specialize (T r name outs o I J K). destruct (str_eqb (lit "out/www/" ++ o_relpath o) (lit "out/www/" ++ rel ++ lit ".images.js")) eqn:E1; [apply str_eqb_eq in E1; rewrite E1, M; discriminate|]. apply str_eqb_neq in E1.
    destruct (str_eqb (lit "out/www/" ++ o_relpath o) ((lit "out/www/" ++ rel ++ lit ".images.js") ++ lit ".hash")) eqn:E2; [apply str_eqb_eq in E2; rewrite E2, H; destruct (dget _ f1); discriminate|]. apply str_eqb_neq in E2. rewrite (O _ E1 E2). exact T.
Qed.
End Agree.
(** * The module of a file *)
Lemma norm_names v l : jnorm v = JObj l -> NoDup (map fst l).
Proof.
  destruct v as [| | | | |d]; try discriminate. cbn [jnorm]. intros H. injection H as <-. assert (K : forall x : list (str * json), dict_wf x -> dict_wf (fold_left (fun d kv => dset (fst kv) (jnorm (snd kv)) d) d x)).
  { induction d as [|kv d IH]; intros x W; [exact W|]. cbn [fold_left]. apply IH. apply dict_wf_dset. exact W. }
  apply (K []). constructor.
Qed.
Theorem file_names s v l : Forall scalar s -> json_load s = Some v -> jnorm v = JObj l -> NoDup (map fst l) /\ Forall json_safe (map fst l).
Proof.
  intros S L J. split; [exact (norm_names v l J)|]. pose proof (norm_ok v (load_ok s v S L)) as O. rewrite J in O. apply ok_obj in O. apply Forall_map. eapply Forall_impl; [|exact O]. intros x [A _]. exact A.
Qed.
Theorem file_module num dims sha export_one rel f b f2 s v l : starts_with (lit "/") rel = false -> let p := lit "src/public/" ++ rel ++ lit ".images.json" in
  dget p f = Some s -> Forall scalar s -> json_load s = Some v -> jnorm v = JObj l -> Forall (fun x => acceptable num dims f (snd x)) l -> glue_build num dims sha export_one p f = Ret (b, f2) ->
  exists f1 rs, carried export_one f l f1 rs /\ ((forall r, In r rs -> expressible (r_meta r)) ->
  exists t m, dget (lit "out/www/" ++ rel ++ lit ".images.js") f2 = Some (lit "export default " ++ t ++ lit ";" ++ [10%N]) /\ json_load t = Some m /\ keys_are m (map fst l) /\
    forall r, In r rs -> exists x, field [r_name r] m x /\ shows_image (r_meta r) x).
Proof.
  intros R p D S L J A B. assert (G : glue_read num dims p f = Ret (Some l)) by (apply read_some; exists s, v; auto). destruct (build_sound num dims sha export_one rel f b f2 l R G B) as (f1 & rs & C & M & _). exists f1, rs. split; [exact C|]. intros E.
  destruct (file_names s v l S L J) as [N1 N2]. assert (NM : map fst (map fst (map told rs)) = map fst l) by (rewrite !map_map; exact (carried_names _ _ _ _ _ C)).
  destruct (module_reads (map fst (map told rs))) as (t & m & T & LM & K & X).
  - rewrite NM. exact N1.
  - rewrite <- NM in N2. rewrite Forall_map in N2. rewrite Forall_forall in N2. apply Forall_forall. intros x I. split; [exact (N2 x I)|]. rewrite map_map in I. apply in_map_iff in I. destruct I as (r & <- & I). exact (E r I).
  - exists t, m. rewrite T in M. split; [exact M|]. split; [exact LM|]. rewrite NM in K. split; [exact K|]. intros r I. apply (X (r_name r) (r_meta r)). rewrite map_map. apply in_map_iff. exists r. split; [reflexivity|exact I].
Qed.
