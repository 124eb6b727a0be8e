(** A rebuild that can complete does not fail in another order. *)
From Verif Require Import Base Graph GraphSpec GraphProofs PyStr PyPath PyNorm PyNormProofs PathSpec Js Builder JsYield JsManip JsManipSpec JsPathProofs Handlers Hot HotSpec HotSchedProofs HotSchedMain HotTermProofs HotMain HotGraphs HotGraphsProofs HotResultSpec HotResultProofs HotGraphsTotal HotSelf HotWantSpec HotWantProofs Project ProjectSpec ProjectPaths ProjectEdit ProjectFiles ProjectMain ProjectOrderFiles ProjectOrderSpec.
From Coq Require Import String ZArith NArith Bool List Relations Lia.
Import ListNotations.
Open Scope list_scope.

(** ** the dependencies of the scans *)
Definition mgrows (m m' : dict str) : Prop := forall k x, dget k m = Some x -> dget k m' = Some x.
Lemma mgrows_set m k x : dget k m = None -> mgrows m (dset k x m).
Proof. intros H j y Hj. rewrite dget_dset. destruct (str_eqb j k) eqn:E; [|exact Hj]. apply str_eqb_eq in E. congruence. Qed.
Lemma reinterpret_deps_all O deleted deps : forall m acc m' acc', reinterpret_deps O deleted deps m acc = Ret (m', acc') ->
  mgrows m m' /\ (forall x, In x acc -> In x acc') /\ forall d, In d deps -> (is_out d = false -> In d acc') /\ (is_out d = true -> exists x, dget d m' = Some x /\ In x acc').
Proof.
  assert (A1 : forall x y (l : list str), In x (set_add y l) <-> x = y \/ In x l).
  { intros x y l. unfold set_add. destruct (mem y l) eqn:E; [|rewrite in_app_iff; cbn; intuition congruence]. apply mem_In in E. split; [auto|intros [->|H]; assumption]. }
  induction deps as [|d r IH]; intros m acc m' acc' H; cbn [reinterpret_deps] in H.
  - injection H as <- <-. split; [intros k x Hk; exact Hk|]. split; [auto|intros d []].
  - destruct (is_out d) eqn:Eo; cbn [negb] in H.
    + assert (G : exists x m1, mgrows m m1 /\ dget d m1 = Some x /\ reinterpret_deps O deleted r m1 (set_add x acc) = Ret (m', acc')).
      { destruct (dget d m) as [x|] eqn:E; [exists x, m; split; [intros k y Hk; exact Hk|auto]|]. destruct (get_parents O d) as [ps|]; [|discriminate]. destruct (first_alive ps deleted) as [x|]; [|discriminate].
        exists x, (dset d x m). split; [apply mgrows_set; exact E|]. split; [|exact H]. rewrite dget_dset, str_eqb_refl. reflexivity. }
      destruct G as (x & m1 & G1 & G2 & G3). destruct (IH _ _ _ _ G3) as (I1 & I2 & I3). split; [intros k y Hk; apply I1, G1, Hk|]. split; [intros y Hy; apply I2, A1; auto|].
      intros d0 [<-|Hd]; [|auto]. split; [congruence|]. intros _. exists x. split; [apply I1, G2|apply I2, A1; auto].
    + destruct (IH _ _ _ _ H) as (I1 & I2 & I3). split; [exact I1|]. split; [intros y Hy; apply I2, A1; auto|]. intros d0 [<-|Hd]; [|auto]. split; [|congruence]. intros _. apply I2, A1. auto.
Qed.
Lemma reinterpret_deps_only O deleted deps : forall m acc m' acc', reinterpret_deps O deleted deps m acc = Ret (m', acc') ->
  forall x, In x acc' -> In x acc \/ exists d, In d deps /\ (is_out d = false /\ x = d \/ is_out d = true /\ dget d m' = Some x).
Proof.
  assert (A1 : forall x y (l : list str), In x (set_add y l) <-> x = y \/ In x l).
  { intros x y l. unfold set_add. destruct (mem y l) eqn:E; [|rewrite in_app_iff; cbn; intuition congruence]. apply mem_In in E. split; [auto|intros [->|H]; assumption]. }
  induction deps as [|d r IH]; intros m acc m' acc' H x Hx; cbn [reinterpret_deps] in H.
  - injection H as <- <-. auto.
  - destruct (is_out d) eqn:Eo; cbn [negb] in H.
    + assert (G : exists x m1, dget d m1 = Some x /\ reinterpret_deps O deleted r m1 (set_add x acc) = Ret (m', acc')).
      { destruct (dget d m) as [y|] eqn:E; [exists y, m; auto|]. destruct (get_parents O d) as [ps|]; [|discriminate]. destruct (first_alive ps deleted) as [y|]; [|discriminate].
        exists y, (dset d y m). split; [|exact H]. rewrite dget_dset, str_eqb_refl. reflexivity. }
      destruct G as (y & m1 & G2 & G3). destruct (IH _ _ _ _ G3 x Hx) as [I|(d0 & I & J)]; [apply A1 in I; destruct I as [->|I]; [|auto]|right; exists d0; cbn; auto].
      right. exists d. split; [left; reflexivity|]. right. split; [exact Eo|]. destruct (reinterpret_deps_all _ _ _ _ _ _ _ G3) as (M & _). apply M, G2.
    + destruct (IH _ _ _ _ H x Hx) as [I|(d0 & I & J)]; [apply A1 in I; destruct I as [->|I]; [|auto]|right; exists d0; cbn; auto].
      right. exists d. split; [left; reflexivity|]. auto.
Qed.
Lemma remove_all_In (x f : str) l : In x (remove_all f l) <-> In x l /\ x <> f.
Proof.
  unfold remove_all. rewrite filter_In. split; intros (H1 & H2); (split; [exact H1|]).
  - intros ->. rewrite str_eqb_refl in H2. discriminate.
  - destruct (str_eqb x f) eqn:E; [apply str_eqb_eq in E; contradiction|]. rewrite ?E. first [reflexivity | (destruct (str_eqb f x) eqn:E2; [apply str_eqb_eq in E2; congruence|reflexivity])].
Qed.
Lemma reinterpret_scans_all O deleted scs : forall m m' scs', reinterpret_scans O deleted scs m = Ret (m', scs') -> mgrows m m' /\
  forall f sc', dget f scs' = Some sc' -> exists sc, In (f, sc) scs /\ s_produces sc' = s_produces sc /\
    forall d, In d (s_deps sc) -> (is_out d = false -> d = f \/ In d (s_deps sc')) /\ (is_out d = true -> exists x, dget d m' = Some x /\ (x = f \/ In x (s_deps sc'))).
Proof.
  induction scs as [|[g sc] r IH]; intros m m' scs' H; cbn [reinterpret_scans] in H.
  - injection H as <- <-. split; [intros k x Hk; exact Hk|]. intros f sc' X. discriminate X.
  - destruct (reinterpret_deps _ _ _ _ _) as [[m1 ds]|] eqn:E; [|discriminate]. destruct (reinterpret_scans O deleted r m1) as [[m2 r2]|] eqn:E2; [|discriminate]. injection H as <- <-.
    destruct (reinterpret_deps_all _ _ _ _ _ _ _ E) as (D1 & _ & D3). destruct (IH _ _ _ E2) as (I1 & I2). split; [intros k x Hk; apply I1, D1, Hk|].
    intros f sc' Hf. cbn [dget] in Hf. destruct (str_eqb f g) eqn:Ef.
    + apply str_eqb_eq in Ef. subst g. injection Hf as <-. exists sc. split; [left; reflexivity|]. split; [reflexivity|]. intros d Hd. destruct (D3 d Hd) as (A & B). cbn [s_deps]. split.
      * intros Ho. destruct (str_eqb d f) eqn:Edf; [left; apply str_eqb_eq, Edf|right]. apply remove_all_In. split; [auto|]. intros ->. rewrite str_eqb_refl in Edf. discriminate.
      * intros Ho. destruct (B Ho) as (x & X1 & X2). exists x. split; [apply I1, X1|]. destruct (str_eqb x f) eqn:Edf; [left; apply str_eqb_eq, Edf|right]. apply remove_all_In. split; [auto|]. intros ->. rewrite str_eqb_refl in Edf. discriminate.
    + destruct (I2 f sc' Hf) as (sc0 & S1 & S2). exists sc0. split; [right; exact S1|exact S2].
Qed.
Lemma reinterpret_scans_only O deleted scs : forall m m' scs', reinterpret_scans O deleted scs m = Ret (m', scs') ->
  forall f sc', dget f scs' = Some sc' -> exists sc, In (f, sc) scs /\
    forall x, In x (s_deps sc') -> x <> f /\ exists d, In d (s_deps sc) /\ (is_out d = false /\ x = d \/ is_out d = true /\ dget d m' = Some x).
Proof.
  induction scs as [|[g sc] r IH]; intros m m' scs' H f sc' Hf; cbn [reinterpret_scans] in H.
  - injection H as <- <-. discriminate Hf.
  - destruct (reinterpret_deps _ _ _ _ _) as [[m1 ds]|] eqn:E; [|discriminate]. destruct (reinterpret_scans O deleted r m1) as [[m2 r2]|] eqn:E2; [|discriminate]. injection H as <- <-.
    cbn [dget] in Hf. destruct (str_eqb f g) eqn:Ef.
    + apply str_eqb_eq in Ef. subst g. injection Hf as <-. exists sc. split; [left; reflexivity|]. cbn [s_deps]. intros x Hx. apply remove_all_In in Hx. destruct Hx as (Hx & Hn). split; [exact Hn|].
      destruct (reinterpret_deps_only _ _ _ _ _ _ _ E x Hx) as [[]|(d & D1 & D2)]. exists d. split; [exact D1|]. destruct D2 as [D2|(D2 & D3)]; [auto|]. right. split; [exact D2|]. apply (proj1 (reinterpret_scans_all _ _ _ _ _ _ E2)), D3.
    + destruct (IH _ _ _ E2 f sc' Hf) as (sc0 & S1 & S2). exists sc0. split; [right; exact S1|exact S2].
Qed.
Lemma produces_mapping_keys (scs : dict scan_result) g sc o : In (g, sc) scs -> In o (s_produces sc) -> In o (dkeys (produces_mapping scs)).
Proof.
  unfold produces_mapping.
  assert (H1 : forall os (f : str) (m : dict str), (In o os \/ In o (dkeys m)) -> In o (dkeys (fold_left (fun m o => dset o f m) os m))).
  { induction os as [|o1 r IH]; intros f m H; [destruct H as [[]|H]; exact H|]. cbn [fold_left]. apply IH. destruct H as [[->|H]|H]; [right; rewrite In_dkeys_dset; auto|auto|right; rewrite In_dkeys_dset; auto]. }
  assert (H2 : forall (l : dict scan_result) (m : dict str), In o (dkeys m) \/ (exists g sc, In (g, sc) l /\ In o (s_produces sc)) -> In o (dkeys (fold_left (fun m kv => fold_left (fun m o => dset o (fst kv) m) (s_produces (snd kv)) m) l m))).
  { induction l as [|[g1 sc1] r IH]; intros m H; [destruct H as [H|(g1 & sc1 & [] & _)]; exact H|]. cbn [fold_left fst snd]. apply IH. destruct H as [H|(g2 & sc2 & [H|H] & Ho)]; [left; apply H1; auto| |right; eauto]. injection H as -> ->. left. apply H1. auto. }
  intros Hg Ho. apply H2. right. eauto.
Qed.

Lemma clos_trans_incl (R R' : str -> str -> Prop) : (forall a b, R a b -> R' a b) -> forall a b, clos_trans str R a b -> clos_trans str R' a b.
Proof. intros H a b Hc. induction Hc as [a b X|a b d _ IH1 _ IH2]; [apply t_step, H, X|eapply t_trans; eassumption]. Qed.
Section Order.
Context (sha : str -> str) (c : constants) (dev dev0 : bool) (K : setting).
Notation want := (file_want sha c dev K).
Notation want0 := (file_want sha c dev0 K).
Notation build := (file_build sha c dev K).
Context (Hcwd : starts_with (lit "/") (k_cwd K) = true) (Hcss : exists r, k_css K = lit "src/public/" ++ r /\ starts_with (lit "/") r = false).
Context (stat : fs -> str -> option fsig)
  (D O P : graph) (scans : dict scan_result) (newph : dict str) (changed added_ : dict fsig) (deleted : list str) (fs0 : fs)
  (e1 : env) (l : build_log) (fs1 : fs) (D1 O1 P1 : graph).
Context (HG : project_graphs D O P).
Context (HR : hot_rebuild build stat D O P scans newph changed added_ deleted fs0 e1 l fs1 D1 O1 P1).
Context (fs_old : fs) (Hold : correct want0 D O fs_old) (Hall : all_recorded O fs_old) (Hed : edits c K D O P scans deleted fs_old fs0).
Context (Hmode : dev = dev0 \/ (In (c_relpath c) (dkeys D) -> In (c_relpath c) (dkeys scans) \/ In (c_relpath c) deleted)).
Context (Hfore : foreseen D scans l D1).
(** another run from the same start *)
Context (scans2 : dict scan_result) (newph2 : dict str) (deleted2 : list str) (Hscans : forall x, In x scans2 <-> In x scans) (Hdeleted : forall x, In x deleted2 <-> In x deleted) (Hnewph : forall x, dget x newph2 = dget x newph).
Context (e : env) (m : dict str) (order : list str) (Hprep : prepare D O P scans2 newph2 deleted2 = Ret (e, m)) (Hn : NoDup order) (Ho : forall f, In f order <-> In f (e_orig e)).
Notation hit := (hit D P scans deleted).
Notation dirt := (dirt D O P scans deleted).
Notation st := (disk (start e m order fs0)).
Notation after := (graphs_after build stat D O P scans newph changed added_ deleted fs0 e1 l fs1 D1 O1 P1 HG HR).
Notation unf := (unfolded build stat D O P scans newph changed added_ deleted fs0 e1 l fs1 D1 O1 P1 HG HR).
Notation known := (known c K D O P scans deleted fs0 HG fs_old Hed).
Notation known_after := (known_after sha c dev K stat D O P scans newph changed added_ deleted fs0 e1 l fs1 D1 O1 P1 HG HR fs_old Hed).
Notation entry := (entry sha c dev K stat D O P scans newph changed added_ deleted fs0 e1 l fs1 D1 O1 P1 HG HR).
Notation recorded_has := (recorded_has sha c dev0 K D O P scans deleted fs0 HG fs_old Hold Hed).
Notation scans_has := (scans_has c K D O P scans deleted fs0 fs_old Hed).
Notation there := (there c K D O P scans deleted fs0 HG fs_old Hed).

Lemma keys2 f : In f (dkeys scans2) <-> In f (dkeys scans).
Proof. unfold dkeys. rewrite !in_map_iff. split; intros (x & E & H); exists x; (split; [exact E|apply Hscans; exact H]). Qed.
Lemma hit2 f : affected D P (dkeys scans2) deleted2 f <-> hit f.
Proof. unfold HotResultProofs.hit, affected. split; intros (x & H & R); exists x; (split; [|exact R]); rewrite ?keys2, ?Hdeleted in *; exact H. Qed.
Lemma prep : e_D e = D /\ e_O e = O /\ e_P e = P /\ e_new_placeholders e = newph2 /\ (forall f, In f (dkeys (e_scans e)) <-> In f (dkeys scans)) /\
  NoDup (e_orig e) /\ (forall f, In f (e_orig e) <-> hit f /\ ~ In f deleted) /\
  (forall o, In o (e_dirty_out e) <-> ~ is_artifact o /\ dirt o) /\ (forall o, In o (e_dirty_art e) <-> is_artifact o /\ dirt o).
Proof.
  destruct (prepared _ _ _ _ _ _ _ _ HG Hprep) as (H1 & H2 & H3 & H4 & H5 & H6 & H7 & H8 & H9). split; [exact H1|]. split; [exact H2|]. split; [exact H3|]. split; [exact H4|]. split; [intros f; rewrite H5; apply keys2|]. split; [exact H6|].
  split; [intros f; rewrite H7, hit2, Hdeleted; reflexivity|].
  split; intros o; [rewrite H8|rewrite H9]; (split; intros (N & g & A & B); (split; [exact N|]); exists g; (split; [apply hit2; exact A|exact B])).
Qed.
Lemma cor : correct want D1 O1 fs1.
Proof. eapply project_correct; eassumption. Qed.
Lemma agree0 f s : In f (dkeys D) -> ~ hit f -> want f s = want0 f s.
Proof. intros HfD Hh. apply mode_same. destruct Hmode as [E|H]; [right; exact E|left]. intros ->. apply Hh. exists (c_relpath c). split; [apply H, HfD|apply rt_refl]. Qed.
Lemma recd : as_recorded D O P (dkeys scans) deleted fs_old fs0 l.
Proof. eapply (project_recorded sha c dev dev0 K); eassumption. Qed.
Lemma ordl : orderly want D O P scans deleted l D1 O1.
Proof. eapply (project_orderly sha c dev dev0 K); eassumption. Qed.
Lemma looked_same f d r rs ws p : In (f, d, r) l -> want f d = Some (rs, ws) -> In p rs -> fs1 p = d p.
Proof.
  eapply (look_same want want0 build stat D O P scans newph changed added_ deleted fs0 e1 l fs1 D1 O1 P1 HG HR fs_old source_name);
  [exact known|apply file_outputs_out|apply file_names_fixed|apply file_follows; exact Hcss|apply file_writes_out|apply file_outputs_out|apply file_names_agree|exact agree0|exact Hold|exact recd|exact ordl].
Qed.
Lemma kept_source p : is_out p = false -> fs1 p = fs0 p.
Proof. eapply (source_same want0 build stat D O P scans newph changed added_ deleted fs0 e1 l fs1 D1 O1 P1 HG HR fs_old source_name); [exact known|apply file_writes_out|apply file_outputs_out|exact Hold]. Qed.
Lemma kept_output x o : ~ hit x -> depends O x o -> fs1 o = fs_old o.
Proof.
  eapply (output_kept want want0 build stat D O P scans newph changed added_ deleted fs0 e1 l fs1 D1 O1 P1 HG HR fs_old source_name);
  [exact known|apply file_outputs_out|apply file_names_fixed|apply file_follows; exact Hcss|apply file_writes_out|apply file_outputs_out|apply file_names_agree|exact agree0|exact Hold|exact recd|exact ordl].
Qed.
Lemma kp_has x o : known_producer O scans x o -> has x o.
Proof. intros [(sc & H1 & H2)|H]; [eapply scans_has; eassumption|apply recorded_has; exact H]. Qed.
Lemma sc_out g sc o : In (g, sc) scans -> In o (s_produces sc) -> is_out o = true.
Proof. intros H1 H2. destruct (has_form _ _ (scans_has g sc o H1 H2)) as (q & _ & _ & _ & _ & [-> | ->]); reflexivity. Qed.
Lemma has_out x o : has x o -> is_out o = true /\ ~ is_artifact o.
Proof. intros H. destruct (has_form x o H) as (q & _ & _ & _ & _ & [-> | ->]); (split; [reflexivity|intros (y & X); discriminate X]). Qed.
Lemma hit_entry f : hit f -> ~ In f deleted -> exists d r, In (f, d, r) l.
Proof. intros H1 H2. destruct unf as (start & _ & _ & _ & S4 & _). apply names_in, S4. auto. Qed.
Lemma hit_key f : hit f -> ~ In f deleted -> In f (dkeys D1).
Proof. intros H1 H2. destruct after as (_ & _ & _ & _ & K1 & _). apply K1. auto. Qed.
(** the mapping made from the scans *)
Lemma mapped_of scs ph del e' m' : (forall x, In x scs <-> In x scans) -> prepare D O P scs ph del = Ret (e', m') ->
  good_map (known_producer O scans) m' /\ (forall g sc o, In (g, sc) scans -> In o (s_produces sc) -> In o (dkeys m')) /\
  (forall f sc', dget f (e_scans e') = Some sc' -> exists sc, In (f, sc) scans /\ s_produces sc' = s_produces sc /\
    forall d, In d (s_deps sc) -> (is_out d = false -> d = f \/ In d (s_deps sc')) /\ (is_out d = true -> exists x, dget d m' = Some x /\ (x = f \/ In x (s_deps sc')))) /\
  forall f sc', dget f (e_scans e') = Some sc' -> exists sc, In (f, sc) scans /\
    forall x, In x (s_deps sc') -> x <> f /\ exists d, In d (s_deps sc) /\ (is_out d = false /\ x = d \/ is_out d = true /\ dget d m' = Some x).
Proof.
  intros Hs Hp. unfold prepare in Hp. destruct (reinterpret_scans _ _ _ _) as [[m1 scs1]|] eqn:Er; [|discriminate]. destruct (dirty _ _ _ _ _) as [[[? ?] ?]|]; [|discriminate]. injection Hp as <- <-.
  destruct (reinterpret_scans_all _ _ _ _ _ _ Er) as (G1 & G2). split; [|split; [|split]].
  - eapply reinterpret_scans_good; [| |exact Er].
    + intros k ps x Hps Hx. right. destruct HG as (_ & W2 & _). destruct W2 as (_ & _ & _ & W2). unfold depends. apply count_In. rewrite W2. apply count_In. unfold api_parents. rewrite Hps. assumption.
    + intros k x Hk. apply produces_mapping_good in Hk. destruct Hk as (sc & A & B). apply Hs in A. split; [eapply sc_out; eassumption|]. left. exists sc. auto.
  - intros g sc o Hg Hp. apply Hs in Hg. pose proof (produces_mapping_keys scs g sc o Hg Hp) as X. apply In_dkeys_dget in X. destruct X as (x & X). apply G1 in X. eapply dget_Some_key; exact X.
  - intros f sc' H. destruct (G2 f sc' H) as (sc & A & B). exists sc. split; [apply Hs, A|exact B].
  - intros f sc' H. destruct (reinterpret_scans_only _ _ _ _ _ _ Er f sc' H) as (sc & A & B). exists sc. split; [apply Hs, A|exact B].
Qed.
Lemma mapped : good_map (known_producer O scans) m /\ (forall g sc o, In (g, sc) scans -> In o (s_produces sc) -> In o (dkeys m)) /\
  forall f sc', dget f (e_scans e) = Some sc' -> exists sc, In (f, sc) scans /\ s_produces sc' = s_produces sc /\
    forall d, In d (s_deps sc) -> (is_out d = false -> d = f \/ In d (s_deps sc')) /\ (is_out d = true -> exists x, dget d m = Some x /\ (x = f \/ In x (s_deps sc'))).
Proof. destruct (mapped_of _ _ _ _ _ Hscans Hprep) as (A & B & C & _). auto. Qed.
(** both runs wait for the same files *)
Lemma needs_same m1 f x : prepare D O P scans newph deleted = Ret (e1, m1) -> needs e f x -> needs e1 f x.
Proof.
  intros Hp1. destruct (prepared _ _ _ _ _ _ _ _ HG Hp1) as (ED1 & _ & EP1 & EN1 & EK1 & _). destruct prep as (ED & _ & EP & EN & EK & _).
  destruct (mapped_of _ _ _ _ _ Hscans Hprep) as (M1 & _ & _ & M4). destruct (mapped_of _ _ _ _ _ (fun x => iff_refl _) Hp1) as (N1 & _ & N3 & _).
  assert (Hk : forall g, dget g (e_scans e) = None <-> dget g (e_scans e1) = None).
  { intros g. rewrite !dget_None. rewrite EK, EK1. reflexivity. }
  unfold needs, generator_of. rewrite ED, EP, EN, ED1, EP1, EN1, Hnewph. intros [(sc' & S1 & S2)|[(S1 & S2)|S]].
  - left. destruct (dget f (e_scans e1)) as [sc1'|] eqn:E1; [|apply Hk in E1; congruence]. exists sc1'. split; [reflexivity|].
    destruct (M4 f sc' S1) as (sc & A & B). destruct (N3 f sc1' E1) as (sc1 & A1 & _ & B1).
    assert (sc1 = sc) by (apply (ed_scans _ _ _ _ _ _ _ _ _ Hed) in A, A1; congruence). subst sc1.
    destruct (B x S2) as (Hne & d & D1' & [(D2 & ->)|(D2 & D3)]); destruct (B1 d D1') as (Q1 & Q2).
    + destruct (Q1 D2) as [Q|Q]; [contradiction|exact Q].
    + destruct (Q2 D2) as (y & Y1 & Y2). destruct (M1 d x D3) as (_ & X). destruct (N1 d y Y1) as (_ & Y). rewrite <- (has_one x y d (kp_has _ _ X) (kp_has _ _ Y)) in Y2. destruct Y2 as [Y2|Y2]; [contradiction|exact Y2].
  - right. left. split; [apply Hk, S1|exact S2].
  - right. right. destruct (dget f (e_scans e)) eqn:Ea, (dget f (e_scans e1)) eqn:Eb; try exact S; exfalso; [apply Hk in Eb|apply Hk in Ea]; congruence.
Qed.
(** the first run: what a build looked at belongs to a file it was to wait for *)
Lemma kids_after f d r : In (f, d, r) l -> b_children r = kids c K f fs1 /\ exists rs ws, want f fs1 = Some (rs, ws).
Proof.
  intros Hi. destruct (entry f d r Hi) as (_ & _ & Hb). destruct (reports sha c dev dev0 K Hcss stat D O P scans newph changed added_ deleted fs0 e1 l fs1 D1 O1 P1 HG HR fs_old Hold Hed f d r Hi) as (rs & ws & W & _).
  rewrite (build_kids sha c dev K f d r Hb). assert (S : forall p, In p rs -> fs1 p = d p) by (intros p Hp; eapply looked_same; eassumption). split.
  - symmetry. eapply kids_reads; [exact W|exact S].
  - exists rs, ws. eapply file_reads_only; [exact W|exact S].
Qed.
Lemma waits_owner f d r rs ws o : In (f, d, r) l -> want f fs1 = Some (rs, ws) -> In o rs -> is_out o = true ->
  exists x, needs e f x /\ has x o /\ In x (dkeys D1) /\ depends O1 x o.
Proof.
  intros Hi W Hor Hout. destruct (entry f d r Hi) as (Hh & Hd & Hb). pose proof (known f (or_intror Hh)) as Sf. destruct cor as (C1 & C2). destruct (C2 f (hit_key f Hh Hd)) as (rs' & ws' & W' & _ & _ & C3). rewrite W in W'. injection W' as <- <-.
  destruct (C3 o Hor) as (_ & C4). destruct (C4 Hout) as (x & Hx & Hxo). clear C3 C4.
  assert (Xk : In x (dkeys D1)) by (eapply C1; exact Hxo). destruct (C2 x Xk) as (rx & wx & Wx & Ax & _).
  assert (Xh : has x o). { destruct (want_has sha c K x fs1 rx wx o dev (proj1 (known_after x Xk)) Wx) as (Q1 & Q2); [apply Ax; exact Hxo|split; assumption]. }
  exists x. split; [|auto]. destruct prep as (ED & EO & EP & EN & EK & _). destruct (Hfore f d r Hi) as (F1 & F2).
  unfold needs. destruct (dget f (e_scans e)) as [sc'|] eqn:Es.
  - left. exists sc'. split; [reflexivity|]. destruct mapped as (M1 & _ & M3). destruct (M3 f sc' Es) as (sc & S1 & _ & S3). pose proof (F1 sc S1) as Hincl.
    destruct (kids_after f d r Hi) as (Hk & _). destruct (want_looks sha c dev K f fs1 rs ws W) as [(-> & _)|[(-> & _)|(out & Ee)]]; [destruct Hor|destruct Hor as [<-|[]]; rewrite (source_not_out f Sf) in Hout; discriminate|].
    destruct (edit_outputs c K Hcwd Hcss f fs1 out (kids c K f fs1) rs o Sf Ee Hor Hout) as (_ & _ & Hch). rewrite <- Hk in Hch.
    destruct Hch as [(Hin & Hown)|(root & Hin & Hroot)].
    + destruct (S3 o (Hincl o Hin)) as (_ & B). destruct (B Hout) as (y & Y1 & Y2). destruct (M1 o y Y1) as (_ & Yk). apply kp_has in Yk. rewrite (has_one x y o Xh Yk). destruct Y2 as [->|Y2]; [contradiction|exact Y2].
    + destruct (Hroot x Xh) as (Rout & Re). destruct after as ((W1 & _) & Hac & _ & _ & K1 & K2 & _). destruct (K2 f d r Hi) as (_ & Er2). destruct (Er2 sc_out) as (R1 & _).
      pose proof (R1 root Hin Rout) as Hdr. assert (Hkey : In root (dkeys D1)) by (eapply Inv_ch_closed; [apply Inv_well_formed; exact W1|apply depends_ch; exact Hdr]).
      rewrite <- (Re (proj1 (known_after root Hkey))). destruct (S3 root (Hincl root Hin)) as (A & _). destruct (A Rout) as [->|A']; [|exact A']. exfalso. apply (Hac f). apply t_step. exact Hdr.
  - right. left. split; [reflexivity|]. rewrite ED. apply F2; [|exact Hx]. apply dget_None in Es. rewrite EK in Es. exact Es.
Qed.

(** ** the builds of the second run *)
Definition run_of (L : build_log) : Prop := log_ok build e [] st L /\ NoDup (names L) /\ forall f, In f (names L) -> hit f /\ ~ In f deleted.
Definition alike (L : build_log) : Prop := forall g d r rs ws p, In (g, d, r) L -> want g fs1 = Some (rs, ws) -> In p rs -> d p = fs1 p.
Lemma st_val p : st p = if mem p (e_dirty_out e) then None else fs0 p.
Proof. unfold start, init_sched. cbn [disk]. apply fs_del_all. Qed.
Lemma dirty_iff p : In p (e_dirty_out e) <-> ~ is_artifact p /\ dirt p.
Proof. destruct prep as (_ & _ & _ & _ & _ & _ & _ & HB & _). apply HB. Qed.
Lemma st_source p : is_out p = false -> st p = fs0 p.
Proof.
  intros H. rewrite st_val. destruct (mem p (e_dirty_out e)) eqn:M; [|reflexivity]. apply mem_In, dirty_iff in M. destruct M as (_ & g & _ & X). destruct (recorded_has g p X) as (_ & Y). apply has_out in Y. destruct Y. congruence.
Qed.
Lemma run_split l1 l2 : run_of (l1 ++ l2) -> run_of l1.
Proof.
  intros (A & B & C). unfold run_of. apply log_ok_app in A. rewrite names_app in B. apply NoDup_app_iff in B. split; [apply A|]. split; [apply B|]. intros f Hf. apply C. rewrite names_app. apply in_or_app. auto.
Qed.
Lemma run_entry L l1 g d r l2 : run_of L -> L = l1 ++ (g, d, r) :: l2 -> build g d = Some r /\ d = replay st l1 /\ ~ In g (names l1) /\ ~ In g (names l2) /\ hit g /\ ~ In g deleted.
Proof.
  intros (A & B & C) El. destruct (log_ok_order _ _ _ _ _ A _ _ _ _ _ El) as (_ & Hb & Ed). split; [exact Hb|]. split; [exact Ed|]. rewrite El, names_app in B. apply NoDup_app_iff in B. destruct B as (_ & B2 & B3). cbn [names map fst] in B2, B3. inversion B2 as [|? ? B4 B5]; subst.
  split; [intros X; apply (B3 g X); left; reflexivity|]. split; [exact B4|]. apply C. rewrite names_app. apply in_or_app. right. left. reflexivity.
Qed.
Lemma run_source L p : run_of L -> is_out p = false -> replay st L p = fs0 p.
Proof.
  intros HL Hp. rewrite (replay_untouched build e L [] st p (proj1 HL)); [apply st_source; exact Hp|]. intros (g & d & r & Hi & X). destruct (in_split _ _ Hi) as (l1 & l2 & El). destruct (run_entry L l1 g d r l2 HL El) as (Hb & _).
  assert (Y : In p (b_outputs r)) by (unfold b_outputs; apply in_or_app; left; exact X). pose proof (file_writes_out sha c dev K g d r p Hb Y). congruence.
Qed.
Lemma run_there L l1 g d r l2 : run_of L -> L = l1 ++ (g, d, r) :: l2 -> d g <> None.
Proof.
  intros HL El. destruct (run_entry L l1 g d r l2 HL El) as (_ & -> & _ & _ & Hh & Hd). rewrite El in HL. rewrite (run_source l1 g (run_split _ _ HL)); [apply there; assumption|]. apply source_not_out, known. auto.
Qed.
Lemma run_has L g d r o : run_of L -> In (g, d, r) L -> In o (b_outputs r) -> has g o.
Proof.
  intros HL Hi Hp. destruct (in_split _ _ Hi) as (l1 & l2 & El). destruct (run_entry L l1 g d r l2 HL El) as (Hb & _ & _ & _ & Hh & _). destruct (file_follows sha c dev K Hcss g d r Hb (run_there L l1 g d r l2 HL El)) as (rs & ws & W & A & _).
  pose proof (known g (or_intror Hh)) as Sg. apply (want_has sha c K g d rs ws o dev Sg W). apply A. exact Hp.
Qed.
Lemma run_unwritten L x o : run_of L -> has x o -> ~ In x (names L) -> replay st L o = st o.
Proof.
  intros HL Hx Hnx. apply (replay_untouched build e L [] st o (proj1 HL)). intros (g & d & r & Hi & X). apply Hnx. rewrite (has_one x g o Hx); [eapply in_names; exact Hi|]. eapply run_has; [exact HL|exact Hi|]. unfold b_outputs. apply in_or_app. left. exact X.
Qed.
(** the outputs of a file to be built are not there *)
Lemma st_gone x o : has x o -> hit x -> st o = None.
Proof.
  intros Hx Hh. rewrite st_val. destruct (mem o (e_dirty_out e)) eqn:M; [reflexivity|]. apply mem_false in M. destruct (fs0 o) as [v|] eqn:E; [|reflexivity]. exfalso. apply M, dirty_iff. split; [eapply has_out; exact Hx|].
  destruct (has_form x o Hx) as (q & _ & _ & _ & _ & Eo). assert (Ew : exists t, o = www t) by (destruct Eo; eauto). destruct Ew as (t & Et). assert (Hy : exists y, depends O y (www t)) by (destruct (ed_out _ _ _ _ _ _ _ _ _ Hed t) as [X|(y & _ & X)]; [apply Hall; rewrite <- X, <- Et; congruence|eauto]). destruct Hy as (y & Hy). rewrite <- Et in Hy.
  exists y. split; [|exact Hy]. rewrite <- (has_one x y o Hx (proj2 (recorded_has y o Hy))). exact Hh.
Qed.
Lemma want_now L l1 g d r l2 rs ws : run_of L -> alike L -> L = l1 ++ (g, d, r) :: l2 -> want g fs1 = Some (rs, ws) -> want g d = Some (rs, ws).
Proof. intros HL Hal El W. eapply file_reads_only; [exact W|]. intros p Hp. eapply Hal; [|exact W|exact Hp]. rewrite El. apply in_or_app. right. left. reflexivity. Qed.
Lemma run_value L g d r rs ws o x : run_of L -> alike L -> In (g, d, r) L -> want g fs1 = Some (rs, ws) -> In (o, x) ws -> replay st L o = Some x.
Proof.
  intros HL Hal Hi W Hox. destruct (in_split _ _ Hi) as (l1 & l2 & El). destruct (run_entry L l1 g d r l2 HL El) as (Hb & Ed & N1 & N2 & Hh & Hd). pose proof (want_now L l1 g d r l2 rs ws HL Hal El W) as Wd.
  pose proof (known g (or_intror Hh)) as Sg. assert (HL1 : run_of l1) by (rewrite El in HL; exact (run_split _ _ HL)).
  assert (Hws : forall o y, In (o, y) ws -> has g o) by (intros o' y Hy; apply (want_has sha c K g fs1 rs ws o' dev Sg W); eapply fst_in; exact Hy).
  assert (Hnone : forall o y, In (o, y) ws -> d o = None) by (intros o' y Hy; rewrite Ed, (run_unwritten l1 g o' HL1 (Hws o' y Hy) N1); eapply st_gone; [eapply Hws; exact Hy|exact Hh]).
  destruct (file_follows sha c dev K Hcss g d r Hb (run_there L l1 g d r l2 HL El)) as (rs' & ws' & W' & A1 & A2 & A3 & _). rewrite Wd in W'. injection W' as <- <-.
  assert (Hpr : In o (map fst (b_produced r))).
  { assert (Y : In o (b_outputs r)) by (apply A1; eapply fst_in; exact Hox). unfold b_outputs in Y. apply in_app_or in Y. destruct Y as [Y|Y]; [exact Y|]. destruct (A2 o Y) as [Z|Z]; [|exact Z]. rewrite (Hnone o x Hox) in Z. contradiction. }
  destruct (apply_writes_in (b_produced r) d o Hpr) as (y & Y1 & Y2). assert (Ey : y = x).
  { eapply one_value; [exact (proj1 (file_outputs_out sha c dev K g fs1 rs ws W))| |exact Hox]. apply (A3 (fun o' y' H => or_introl (Hnone o' y' H))). exact Y1. }
  subst y. pose proof HL as HL'. destruct HL as (LO & _). rewrite El in LO |- *. rewrite replay_app. cbn [replay]. rewrite <- Ed. apply log_ok_app in LO. destruct LO as (_ & LO). cbn [log_ok] in LO. destruct LO as (_ & _ & _ & LO). rewrite <- Ed in LO. rewrite (replay_untouched build e l2 _ _ o LO); [exact Y2|].
  intros (g2 & d2 & r2 & Hi2 & X2). apply N2. rewrite (has_one g g2 o (Hws o x Hox)); [eapply in_names; exact Hi2|].
  eapply run_has; [exact HL'| |unfold b_outputs; apply in_or_app; left; exact X2]. rewrite El. apply in_or_app. right. right. exact Hi2.
Qed.
(** the next build finds what the first run left *)
Lemma run_next L f rs ws p : run_of L -> alike L -> hit f -> ~ In f deleted -> (forall x, In x (e_orig e) -> needs e f x -> In x (names L)) ->
  want f fs1 = Some (rs, ws) -> In p rs -> replay st L p = fs1 p.
Proof.
  intros HL Hal Hh Hd Hdeps W Hp. destruct (is_out p) eqn:Ep; [|rewrite (run_source L p HL Ep), (kept_source p Ep); reflexivity].
  destruct (hit_entry f Hh Hd) as (d & r & Hi). destruct (waits_owner f d r rs ws p Hi W Hp Ep) as (x & Hx & Xh & Xk & Xo). destruct (known_after x Xk) as (Sx & Xd). destruct cor as (C1 & C2). destruct (C2 x Xk) as (rx & wx & Wx & Ax & Vx & _).
  destruct prep as (_ & _ & _ & _ & _ & _ & HA & _).
  destruct (in_dec str_eq_dec x (e_orig e)) as [Hor|Hnor].
  - pose proof (Hdeps x Hor Hx) as Hin. apply names_in in Hin. destruct Hin as (dx & rx' & Hix). pose proof (proj1 (Ax p) Xo) as Y. apply in_fst in Y. destruct Y as (v & Y). rewrite (run_value L x dx rx' rx wx p v HL Hal Hix Wx Y). symmetry. apply Vx. exact Y.
  - assert (Hnh : ~ hit x) by (intros X; apply Hnor, HA; auto). destruct after as (_ & _ & _ & _ & _ & _ & K3 & _). assert (Xo0 : depends O x p) by (unfold depends in *; rewrite (proj2 (K3 x Xk Hnh)) in Xo; exact Xo).
    rewrite (run_unwritten L x p HL Xh); [|intros X; apply Hnh, (proj2 (proj2 HL)), X]. rewrite (kept_output x p Hnh Xo0), st_val.
    destruct (mem p (e_dirty_out e)) eqn:M; [|destruct (has_form x p Xh) as (q & _ & _ & _ & _ & Eo); assert (Ew : exists t, p = www t) by (destruct Eo; eauto); destruct Ew as (t & ->); destruct (ed_out _ _ _ _ _ _ _ _ _ Hed t) as [X|X]; [exact X|exfalso; apply mem_false in M; apply M, dirty_iff; split; [intros (y & Z); discriminate Z|exact X]]].
    exfalso. apply mem_In, dirty_iff in M. destruct M as (_ & g & Hg & Hgo). apply Hnh. rewrite (has_one x g p Xh (proj2 (recorded_has g p Hgo))). exact Hg.
Qed.

(** ** the states of the second run *)
Notation start := (start e m order fs0).
Lemma state_run s : steps build e start s -> run_of (log s) /\ disk s = replay st (log s).
Proof.
  intros H. destruct (start_SO build D O P scans2 newph2 deleted2 e m HG Hprep order fs0 Hn Ho s H) as (I & _). split; [|apply (si_disk _ _ _ _ I)].
  split; [apply (si_log_ok _ _ _ _ I)|]. split; [apply (si_log_nodup _ _ _ _ I)|]. intros f Hf. destruct prep as (_ & _ & _ & _ & _ & _ & HA & _). apply HA. apply (si_all _ _ _ _ I). right. apply (si_exec_in _ _ _ _ I). eapply SInv_log_exec; eassumption.
Qed.
Definition fine (s : sched) : Prop := alike (log s) /\ forall f, dget f (executed s) <> Some None.
Lemma state_fine s : steps build e start s -> fine s.
Proof.
  assert (G : forall s0 s1, steps build e s0 s1 -> s0 = start -> fine s1); [|intros H; eapply G; [exact H|reflexivity]].
  intros s0 s1 H. induction H as [s0|s0 s1 s2 H IH Hst]; intros E0; subst s0.
  - split; [intros g d r rs ws p []|intros f; discriminate].
  - destruct (IH eq_refl) as (F1 & F2). inversion Hst as [a b Hph Hne Hs|  |a f Hf Hx|a fs b Hph Hne Hsub Hex Hc|]; subst.
    + unfold schedule in Hs. destruct (pass _ _ _ _ _ _ _) as [[[ready po] pa]|]; [|discriminate]. destruct ready, (pending s1); try discriminate; injection Hs as <-; split; assumption.
    + destruct (state_run s1 H) as (HL & Hdisk). destruct (dependencies_first build D O P scans2 newph2 deleted2 e m HG Hprep order fs0 Hn Ho s1 H) as (P1' & _ & P3 & _).
      destruct (start_SO build D O P scans2 newph2 deleted2 e m HG Hprep order fs0 Hn Ho s1 H) as (I & _). destruct prep as (_ & _ & _ & _ & _ & _ & HA & _).
      assert (Hfo : In f (e_orig e)) by (apply (si_all _ _ _ _ I); auto). apply HA in Hfo. destruct Hfo as (Hh & Hd).
      destruct cor as (_ & C2). destruct (C2 f (hit_key f Hh Hd)) as (rs & ws & W & _).
      assert (Hag : forall p, In p rs -> disk s1 p = fs1 p).
      { intros p Hp. rewrite Hdisk. eapply run_next; [exact HL|exact F1|exact Hh|exact Hd| |exact W|exact Hp]. intros x Hxo Hxn. apply P3, P1' with (f := f); assumption. }
      destruct (build_succeeds sha c dev K f (disk s1) rs ws) as (r & Hb).
      { rewrite Hdisk, (run_source (log s1) f HL); [apply there; assumption|apply source_not_out, known; auto]. }
      { eapply file_reads_only; [exact W|exact Hag]. }
      unfold execute. rewrite Hb. split; cbn [log executed].
      * intros g d r2 rs2 ws2 p Hi W2 Hp. apply in_app_or in Hi. destruct Hi as [Hi|[Hi|[]]]; [eapply F1; eassumption|]. injection Hi as <- <- <-. rewrite W in W2. injection W2 as <- <-. apply Hag. exact Hp.
      * intros g. rewrite dget_dset. destruct (str_eqb g f); [discriminate|apply F2].
    + destruct (collect_keeps_log e fs s1 b Hc) as (E1 & E2). split; cbn [with_phase log executed]; rewrite ?E1, ?E2; assumption.
Qed.
Lemma state_reports s f d r : steps build e start s -> In (f, d, r) (log s) ->
  build f d = Some r /\ hit f /\ ~ In f deleted /\ b_children r = kids c K f fs1 /\ exists rs ws, want f fs1 = Some (rs, ws) /\ want f d = Some (rs, ws) /\ forall o, In o (b_outputs r) <-> In o (map fst ws).
Proof.
  intros H Hi. destruct (state_run s H) as (HL & _). destruct (state_fine s H) as (F1 & _). destruct (in_split _ _ Hi) as (l1 & l2 & El). destruct (run_entry (log s) l1 f d r l2 HL El) as (Hb & _ & _ & _ & Hh & Hd).
  destruct cor as (_ & C2). destruct (C2 f (hit_key f Hh Hd)) as (rs & ws & W & _). pose proof (want_now (log s) l1 f d r l2 rs ws HL F1 El W) as Wd.
  split; [exact Hb|]. split; [exact Hh|]. split; [exact Hd|]. split.
  - rewrite (build_kids sha c dev K f d r Hb). eapply kids_reads; [exact W|]. intros p Hp. eapply F1; eassumption.
  - exists rs, ws. split; [exact W|]. split; [exact Wd|]. destruct (file_follows sha c dev K Hcss f d r Hb (run_there (log s) l1 f d r l2 HL El)) as (rs' & ws' & W' & A & _). rewrite Wd in W'. injection W' as <- <-. exact A.
Qed.
Lemma dirtied_has o : dirtied e o -> exists g, hit g /\ depends O g o.
Proof.
  destruct prep as (_ & _ & _ & _ & _ & _ & _ & HB & HC). intros [H|H]; [apply HB in H|apply HC in H]; destruct H as (_ & H); exact H.
Qed.
Lemma state_ok s : steps build e start s -> no_failure s /\ no_surprise e s /\ no_shortfall e s /\ sources_known e m s.
Proof.
  intros H. destruct prep as (ED & EO & _ & _ & EK & _). destruct mapped as (M1 & M2 & M3). split; [|split; [|split]].
  - split; [apply (state_fine s H)|]. intros f d r Hi. destruct (state_reports s f d r H Hi) as (Hb & _). eapply build_nodup; exact Hb.
  - intros f d r o Hi Hor Hdo. destruct (state_reports s f d r H Hi) as (_ & Hh & _ & _ & rs & ws & W & _ & A). pose proof (known f (or_intror Hh)) as Sf. assert (Hfo : has f o) by (apply (want_has sha c K f fs1 rs ws o dev Sf W), A, Hor).
    destruct (dirtied_has o Hdo) as (g & Hg & Hgo). pose proof (has_one f g o Hfo (proj2 (recorded_has g o Hgo))) as <-. unfold expects. destruct (dget f (e_scans e)) as [sc'|] eqn:Es; [left|right; rewrite EO; auto].
    exists sc'. split; [reflexivity|]. destruct (M3 f sc' Es) as (sc & S1 & -> & _). apply (ed_scans _ _ _ _ _ _ _ _ _ Hed) in S1. eapply scan_all; eassumption.
  - intros f d r o Hi Hexp Hdo. destruct (state_reports s f d r H Hi) as (_ & Hh & _ & _ & rs & ws & W & _ & A). apply A. eapply want_all; [exact W|].
    destruct Hexp as [(sc' & Es & Hp)|(_ & Hp)]; [|rewrite EO in Hp; apply recorded_has; exact Hp]. destruct (M3 f sc' Es) as (sc & S1 & E & _). rewrite E in Hp. eapply scans_has; eassumption.
  - intros f d r o Hi Hc Hout. destruct (state_reports s f d r H Hi) as (_ & Hh & Hd & Hk & _). destruct (hit_entry f Hh Hd) as (d1 & r1 & Hi1). destruct (kids_after f d1 r1 Hi1) as (Hk1 & _). rewrite Hk, <- Hk1 in Hc. destruct (Hfore f d1 r1 Hi1) as (F1 & F2).
    destruct (dget f (e_scans e)) as [sc'|] eqn:Es.
    + left. destruct (M3 f sc' Es) as (sc & S1 & _ & S3). destruct (S3 o (F1 sc S1 o Hc)) as (_ & B). destruct (B Hout) as (x & X & _). eapply dget_Some_key; exact X.
    + destruct after as (_ & _ & _ & _ & _ & K2 & _). destruct (K2 f d1 r1 Hi1) as (_ & Er2). destruct (Er2 sc_out) as (_ & R2 & _). destruct (R2 o Hc Hout) as (z & Hz & Hdz). destruct Hz as [(sc & Z1 & Z2)|Hz]; [left; eapply M2; eassumption|].
      right. split; [reflexivity|]. exists z. rewrite ED, EO. split; [|exact Hz]. destruct Hdz as [->|Hdz]; [apply rt_refl|apply rt_step, F2; [|exact Hdz]]. apply dget_None in Es. rewrite EK in Es. exact Es.
Qed.
Lemma first_not_circular : ~ circular e.
Proof.
  intros (f & Hf & Hc). inversion HR as [e' m' order' s fs1' inputs D1' O1' P1' Hprep' Hn' Ho' Hst Hfin Hun Hni Hin Hng]; subst. eapply (finished_not_circular build D O P scans newph deleted e1 m' HG Hprep' order' fs0 Hn' Ho'); [eassumption..|].
  destruct (prepared _ _ _ _ _ _ _ _ HG Hprep') as (_ & _ & _ & _ & _ & _ & HA & _). destruct prep as (_ & _ & _ & _ & _ & _ & HA2 & _).
  assert (E : forall g, In g (e_orig e) -> In g (e_orig e1)) by (intros g Hg; apply HA, HA2, Hg).
  exists f. split; [apply E, Hf|]. apply (clos_trans_incl (fun a b => In b (e_orig e) /\ needs e a b)); [|exact Hc].
  intros a b (Hb & Hnn). split; [apply E, Hb|]. apply (needs_same m'); [exact Hprep'|exact Hnn].
Qed.
Theorem order_irrelevant s x s' : steps build e start s -> ~ step build e s (Stopped x s').
Proof.
  intros H Hst. destruct (state_ok s H) as (A & B & C & F). apply first_not_circular. eapply (stop_is_circular build D O P scans2 newph2 deleted2 e m HG Hprep order fs0 Hn Ho s x s'); eassumption.
Qed.
(** a build that has run wrote what the first run wrote *)
Theorem same_writes s f d r o : steps build e start s -> In (f, d, r) (log s) -> In o (b_outputs r) -> disk s o = fs1 o.
Proof.
  intros H Hi Hor. destruct (state_run s H) as (HL & ->). destruct (state_fine s H) as (F1 & _). destruct (state_reports s f d r H Hi) as (_ & Hh & Hd & _ & rs & ws & W & _ & A). apply A, in_fst in Hor. destruct Hor as (x & Hx).
  rewrite (run_value (log s) f d r rs ws o x HL F1 Hi W Hx). symmetry. destruct cor as (_ & C2). destruct (C2 f (hit_key f Hh Hd)) as (rs' & ws' & W' & _ & V & _). rewrite W in W'. injection W' as <- <-. apply V. exact Hx.
Qed.
Lemma dirty_mem p : (forall p, In p (e_dirty_out e1) <-> ~ is_artifact p /\ dirt p) -> mem p (e_dirty_out e1) = mem p (e_dirty_out e).
Proof.
  intros HB. destruct (mem p (e_dirty_out e)) eqn:A; [apply mem_In in A; apply mem_In, HB, dirty_iff, A|]. destruct (mem p (e_dirty_out e1)) eqn:B; [|reflexivity].
  apply mem_false in A. exfalso. apply A, dirty_iff, HB, mem_In, B.
Qed.
(** at the end the whole folder is the same *)
Theorem end_same s p : steps build e start s -> finished s -> disk s p = fs1 p.
Proof.
  intros H Hfin. destruct (finished_all build D O P scans2 newph2 deleted2 e m HG Hprep order fs0 Hn Ho s H Hfin) as (Pb & _). destruct (state_run s H) as (HL & Hdisk).
  destruct (reported_dec (log s) p) as [(g & d & r & Hi & Hp)|Hnr]; [eapply same_writes; eassumption|].
  assert (Hnw : ~ written (log s) p) by (intros X; apply Hnr, written_reported; exact X). rewrite Hdisk, (replay_untouched build e (log s) [] st p (proj1 HL) Hnw), st_val.
  destruct unf as (start0 & S1 & S2 & _ & S4 & HB & HC & S5 & _). destruct (S5 p) as (_ & Y). rewrite Y.
  - rewrite (replay_untouched build e1 l [] start0 p S2); [rewrite S1, (dirty_mem p HB); reflexivity|]. intros X. apply written_reported in X. destruct X as (f & d & r & Hi & Hp). apply Hnr.
    destruct (entry f d r Hi) as (Hh & Hd & _). assert (Hf : In f (names (log s))).
    { apply (Permutation.Permutation_in (l := order)); [apply Permutation.Permutation_sym; exact Pb|]. apply Ho. destruct prep as (_ & _ & _ & _ & _ & _ & HA & _). apply HA. auto. }
    apply in_map_iff in Hf. destruct Hf as (((f2 & d2) & r2) & E & Hi2). cbn in E. subst f2. exists f, d2, r2. split; [exact Hi2|]. destruct (state_reports s f d2 r2 H Hi2) as (_ & _ & _ & _ & rs & ws & W & _ & A). apply A. eapply want_all; [exact W|].
    apply (reported_has sha c dev dev0 K Hcss stat D O P scans newph changed added_ deleted fs0 e1 l fs1 D1 O1 P1 HG HR fs_old Hold Hed). exists d, r. auto.
  - intros (X & _). apply HC in X. destruct X as (X & g & Hg & Hgo). destruct (has_out g p (proj2 (recorded_has g p Hgo))) as (_ & N). contradiction.
Qed.
Theorem completes s : steps build e start s -> exists s', steps build e s s' /\ finished s'.
Proof.
  assert (G : forall n s, (mu s <= n)%nat -> steps build e start s -> exists s', steps build e s s' /\ finished s').
  { induction n as [|n IH]; intros s1 Hm H; destruct (start_SO build D O P scans2 newph2 deleted2 e m HG Hprep order fs0 Hn Ho s1 H) as (I & _);
    (destruct (progress build e _ s1 I) as [F|(x & Hx)]; [exists s1; split; [apply steps_refl|exact F]|]);
    (destruct x as [s2|x s2]; [|destruct (order_irrelevant s1 x s2 H Hx)]); pose proof (mu_step build e _ _ _ I Hx) as M; [lia|].
    destruct (IH s2 ltac:(lia) ltac:(eapply steps_step; eassumption)) as (s3 & A & B). exists s3. split; [|exact B].
    clear - A Hx. induction A as [|a b d A IH A2]; [eapply steps_step; [apply steps_refl|exact Hx]|]. eapply steps_step; [apply IH; exact Hx|exact A2]. }
  intros H. exact (G (mu s) s (le_n _) H).
Qed.
(** ** the graphs of the second run *)
Lemma recorded_same f raw A B : ~ In f A -> recorded (known_producer O scans) f raw A -> recorded (known_producer O scans) f raw B -> forall x, In x A -> In x B.
Proof.
  intros Hf (_ & _ & A3) (B1 & B2 & _) x Hx. destruct (A3 x Hx) as [(X & Y)|(k & X & Y & Z)]; [apply B1; assumption|]. destruct (B2 k X Y) as (y & Y1 & Y2). rewrite <- (has_one x y k (kp_has _ _ Z) (kp_has _ _ Y1)) in Y2. destruct Y2 as [->|Y2]; [contradiction|exact Y2].
Qed.
Lemma kp2 x o : known_producer O scans2 x o -> known_producer O scans x o.
Proof. intros [(sc & A & B)|A]; [left; exists sc; split; [apply Hscans; exact A|exact B]|right; exact A]. Qed.
Lemma results_end s : steps build e start s -> finished s -> (forall f, In f (dkeys (results s)) <-> hit f /\ ~ In f deleted) /\
  forall f r', dget f (results s) = Some r' -> exists d r, In (f, d, r) (log s) /\ b_outputs r' = b_outputs r /\ recorded (known_producer O scans) f (b_children r) (b_children r') /\ (In f (b_children r') -> In f (b_children r) /\ is_out f = false).
Proof.
  intros H Hfin. destruct prep as (ED & EO & EP & EN & EK & Hno & HA & HB & HC). destruct (start_SO build D O P scans2 newph2 deleted2 e m HG Hprep order fs0 Hn Ho s H) as (I & OI).
  destruct (finished_all build D O P scans2 newph2 deleted2 e m HG Hprep order fs0 Hn Ho s H Hfin) as (_ & Pr).
  split. { intros f. rewrite <- HA, <- Ho. split; intros Hf; [eapply Permutation.Permutation_in; [exact Pr|assumption]|eapply Permutation.Permutation_in; [apply Permutation.Permutation_sym; exact Pr|assumption]]. }
  assert (HOk : forall x k, depends (e_O e) x k -> known_producer O scans x k) by (intros x k Hk; right; rewrite EO in Hk; exact Hk).
  assert (Hda : forall k, In k (e_dirty_out e) -> ~ In k (e_dirty_art e)) by (intros k; rewrite HB, HC; tauto).
  assert (S0 : SO build e st start) by (apply (start_SO build D O P scans2 newph2 deleted2 e m HG Hprep order fs0 Hn Ho); apply steps_refl).
  assert (M0 : MInv (known_producer O scans) start). { constructor; [exact (proj1 mapped)|intros g r1 Hg; discriminate]. }
  pose proof (MInv_steps _ build e st start s HOk Hda S0 M0 H) as M. assert (L0 : selfless start) by (intros f r r0 X; discriminate). pose proof (selfless_steps _ build e st start s HOk Hda S0 M0 L0 H) as L.
  intros f r' Hr. destruct (mi_rec _ _ M f r' Hr) as (r0 & Hx & E1 & E2 & Hrec). pose proof Hx as Hx2. apply (si_log _ _ _ _ I) in Hx2. destruct Hx2 as (d & Hx2).
  exists d, r0. split; [exact Hx2|]. split; [unfold b_outputs; rewrite E1, E2; reflexivity|]. split; [exact Hrec|]. intros Hi. exact (L f r' r0 Hr Hx Hi).
Qed.
Theorem end_graphs changed2 added2 s : (forall d q, stat d q = None -> d q = None) -> (forall a b, ~ depends P a b) -> newph2 = [] -> (forall f, In f (dkeys scans2) -> In f (dkeys changed2) \/ In f (dkeys added2)) -> steps build e start s -> finished s ->
  still_art s = [] /\ forall inputs, NoDup inputs -> (forall f, In f inputs <-> (In f (dkeys (results s)) \/ In f (dkeys D)) /\ ~ In f deleted2) ->
  exists D2 O2 P2, new_graphs D O P changed2 added2 deleted2 (results s) newph2 (stat (disk s)) inputs = Ret (D2, O2, P2).
Proof.
  intros Hst HP0 Hn0 Hsig H Hfin. destruct prep as (ED & EO & EP & EN & EK & Hno & HA & HB & HC). destruct (start_SO build D O P scans2 newph2 deleted2 e m HG Hprep order fs0 Hn Ho s H) as (I & OI).
  destruct (results_end s H Hfin) as (Hres & Hrec). destruct after as ((W1 & _) & Hac & _ & _ & K1 & K2 & K3 & _). pose proof HG as (GW1 & _ & GW3 & _).
  assert (Hart : still_art s = []).
  { destruct (still_art s) as [|a r] eqn:E; [reflexivity|]. exfalso. assert (X : In a (still_art s)) by (rewrite E; left; reflexivity). apply (oi_sa _ _ OI) in X. destruct X as (X & _). apply HC in X. destruct X as (X & g & _ & Y). apply recorded_has in Y. destruct (has_out g a (proj2 Y)) as (_ & N). contradiction. }
  split; [exact Hart|]. intros inputs Hnd Hin.
  assert (Hin1 : forall f, In f inputs <-> In f (dkeys D1)).
  { intros f. rewrite Hin, K1, Hres, Hdeleted. destruct (in_dec str_eq_dec f deleted); tauto. }
  assert (Hend : forall q, disk s q = fs1 q) by (intros q; apply end_same; assumption).
  assert (Hdeps : forall f x, In f inputs -> In x (deps_of D (results s) f) -> depends D1 f x).
  { intros f x Hf Hx. unfold deps_of in Hx. destruct (dget f (results s)) as [r'|] eqn:E.
    - destruct (Hrec f r' E) as (d & r & Hi & _ & Hr & Hself). destruct (state_reports s f d r H Hi) as (_ & Hh & Hd & Hk & _). destruct (hit_entry f Hh Hd) as (d1 & r1 & Hi1). destruct (kids_after f d1 r1 Hi1) as (Hk1 & _).
      destruct (K2 f d1 r1 Hi1) as (_ & R1). specialize (R1 sc_out). rewrite Hk1, <- Hk in R1. unfold depends. refine (recorded_same f (b_children r) (b_children r') _ _ Hr R1 x Hx).
      intros X. destruct (Hself X) as (X1 & X2). apply (Hac f). apply t_step. destruct R1 as (R1 & _). exact (R1 f X1 X2).
    - assert (N : ~ hit f). { intros X. apply Hin in Hf. destruct Hf as (_ & Hd). rewrite Hdeleted in Hd. assert (Y : In f (dkeys (results s))) by (apply Hres; auto). apply In_dkeys_dget in Y. destruct Y as (y & Y). congruence. }
      apply Hin1 in Hf. destruct (K3 f Hf N) as (Q & _). unfold depends. rewrite Q. apply depends_ch. exact Hx. }
  assert (Houts : forall f o, In f inputs -> In o (outs_of O (results s) f) -> exists rs ws, want f fs1 = Some (rs, ws) /\ In o (map fst ws) /\ fs1 o <> None).
  { intros f o Hf Hx. unfold outs_of in Hx. destruct cor as (_ & C2). pose proof Hf as Hf1. apply Hin1 in Hf1. destruct (C2 f Hf1) as (rs & ws & W & A & B & _). exists rs, ws. split; [exact W|].
    assert (X : In o (map fst ws)).
    { destruct (dget f (results s)) as [r'|] eqn:E.
      - destruct (Hrec f r' E) as (d & r & Hi & Eo & _). rewrite Eo in Hx. destruct (state_reports s f d r H Hi) as (_ & _ & _ & _ & rs' & ws' & W' & _ & Ao). rewrite W in W'. injection W' as <- <-. apply Ao. exact Hx.
      - assert (N : ~ hit f). { intros X. apply Hin in Hf. destruct Hf as (_ & Hd). rewrite Hdeleted in Hd. assert (Y : In f (dkeys (results s))) by (apply Hres; auto). apply In_dkeys_dget in Y. destruct Y as (y & Y). congruence. }
        destruct (K3 f Hf1 N) as (_ & Q). apply A. unfold depends. rewrite Q. apply depends_ch. exact Hx. }
    split; [exact X|]. apply in_map_iff in X. destruct X as ((o' & v) & E & X). cbn in E. subst o'. rewrite (B o v X). discriminate. }
  destruct (new_graphs_total D O P changed2 added2 deleted2 (results s) (stat (disk s)) inputs (depends D1)) as (D2 & O2 & P2 & EG).
  - exact Hnd.
  - intros f Hf. unfold input_sig. destruct (dget f changed2) eqn:E1; [eauto|]. destruct (dget f added2) eqn:E2; [eauto|]. destruct (dget f D) as [n|] eqn:E3; [eauto|]. exfalso.
    apply Hin in Hf. destruct Hf as ([Hf|Hf] & Hd); [|apply In_dkeys_dget in Hf; destruct Hf; congruence]. apply Hres in Hf. destruct Hf as (Hh & _). destruct (hit_known D O P scans deleted HG f Hh) as [X|[X|X]].
    + apply In_dkeys_dget in X. destruct X; congruence.
    + apply keys2, Hsig in X. destruct X as [X|X]; apply In_dkeys_dget in X; destruct X; congruence.
    + apply Hd, Hdeleted, X.
  - intros f Hf E. apply Hin in Hf. destruct Hf as ([Hf|Hf] & _); [|exact Hf]. apply In_dkeys_dget in Hf. destruct Hf; congruence.
  - exact Hac.
  - intros f x Hf Hx. pose proof (Hdeps f x Hf Hx) as Y. split; [|exact Y]. apply Hin1. eapply Inv_ch_closed; [apply Inv_well_formed; exact W1|apply depends_ch; exact Y].
  - intros f o Hf Hx. destruct (Houts f o Hf Hx) as (rs & ws & W & X & Y). split.
    + intros Z. apply Hin1 in Z. apply Hin1 in Hf. destruct (want_has sha c K f fs1 rs ws o dev (proj1 (known_after f Hf)) W X) as (Q1 & Q2). pose proof (source_not_out o (proj1 (known_after o Z))). destruct (has_out f o (conj Q1 Q2)). congruence.
    + intros Z. apply Hst in Z. rewrite Hend in Z. contradiction.
  - intros x n Hx. destruct (n_parents n) as [|a r] eqn:E; [reflexivity|]. exfalso. apply (HP0 a x). apply Inv_well_formed in GW3. apply depends_ch. destruct GW3 as (GW3 & GS). apply count_In. rewrite GS. apply count_In. unfold neighbours.
    rewrite (In_dget _ _ _ GW3 Hx), E. left. reflexivity.
  - exists D2, O2, P2. rewrite Hn0. exact EG.
Qed.
(** and they say the same *)
Theorem end_same_graphs changed2 added2 l2 fs2 D2 O2 P2 : hot_rebuild build stat D O P scans2 newph2 changed2 added2 deleted2 fs0 e l2 fs2 D2 O2 P2 -> forall s, steps build e start s -> finished s -> l2 = log s ->
  (forall f, In f (dkeys D2) <-> In f (dkeys D1)) /\ (forall f x, depends D2 f x <-> depends D1 f x) /\ (forall f o, depends O2 f o <-> depends O1 f o).
Proof.
  intros HR2 s H Hfin El. destruct after as ((W1 & _) & Hac & _ & _ & K1 & K2 & K3 & K4 & _).
  destruct (graphs_after build stat D O P scans2 newph2 changed2 added2 deleted2 fs0 e l2 fs2 D2 O2 P2 HG HR2) as ((V1 & _) & Jac & _ & _ & J1 & J2 & J3 & J4 & _).
  assert (Hk : forall f, In f (dkeys D2) <-> In f (dkeys D1)). { intros f. rewrite J1, K1, Hdeleted. unfold HotResultProofs.hit at 1. rewrite hit2. reflexivity. }
  assert (Hno : forall f, In f (dkeys D1) -> ~ hit f -> api_children D2 f = api_children D1 f /\ api_children O2 f = api_children O1 f).
  { intros f Hf N. destruct (K3 f Hf N) as (A & B). destruct (J3 f (proj2 (Hk f) Hf)) as (A2 & B2); [unfold HotResultProofs.hit; rewrite hit2; exact N|]. split; congruence. }
  assert (Hyes : forall f, hit f -> ~ In f deleted -> (forall x, In x (api_children D2 f) <-> In x (api_children D1 f)) /\ forall o, In o (api_children O2 f) <-> In o (api_children O1 f)).
  { intros f Hh Hd. destruct (hit_entry f Hh Hd) as (d1 & r1 & Hi1). destruct (results_end s H Hfin) as (Hres & Hrec). assert (Y : In f (dkeys (results s))) by (apply Hres; auto). apply In_dkeys_dget in Y. destruct Y as (r' & Y). destruct (Hrec f r' Y) as (d & r & Hi & _).
    destruct (state_reports s f d r H Hi) as (_ & _ & _ & Hkk & rs & ws & W & _ & Ao). rewrite <- El in Hi. destruct (kids_after f d1 r1 Hi1) as (Hk1 & _). destruct (K2 f d1 r1 Hi1) as (O1f & R1). destruct (J2 f d r Hi) as (O2f & R2). specialize (R1 sc_out).
    assert (sc_out2 : forall g sc o, In (g, sc) scans2 -> In o (s_produces sc) -> is_out o = true) by (intros g sc o X; apply (sc_out g sc o), Hscans, X). specialize (R2 sc_out2).
    assert (R3 : recorded (known_producer O scans) f (b_children r) (api_children D2 f)).
    { destruct R2 as (X1 & X2 & X3). split; [exact X1|]. split; [intros k P1' P2'; destruct (X2 k P1' P2') as (x & Q1 & Q2); exists x; split; [apply kp2; exact Q1|exact Q2]|]. intros x Hx. destruct (X3 x Hx) as [Z|(k & Z1 & Z2 & Z3)]; [left; exact Z|right]. exists k. split; [exact Z1|]. split; [exact Z2|apply kp2; exact Z3]. }
    rewrite Hk1, <- Hkk in R1. split.
    - intros x. split; intros Hx; [eapply (recorded_same f (b_children r) (api_children D2 f))|eapply (recorded_same f (b_children r) (api_children D1 f))]; try eassumption; intros Z; [apply (Jac f)|apply (Hac f)]; apply t_step; exact Z.
    - intros o. rewrite O1f, O2f, Ao. destruct cor as (_ & C2). destruct (C2 f (hit_key f Hh Hd)) as (rs' & ws' & W' & A & _). rewrite W in W'. injection W' as <- <-. rewrite <- O1f. symmetry. apply A. }
  assert (Hcase : forall f, hit f \/ ~ hit f). { intros f. destruct unf as (start0 & _ & _ & _ & S4 & _). destruct (in_dec str_eq_dec f deleted) as [X|X]; [left; exists f; split; [right; exact X|apply rt_refl]|]. destruct (in_dec str_eq_dec f (names l)) as [Y|Y]; [left; apply S4 in Y; tauto|right; intros Z; apply Y, S4; auto]. }
  assert (Hboth : forall f, In f (dkeys D1) -> (forall x, In x (api_children D2 f) <-> In x (api_children D1 f)) /\ forall o, In o (api_children O2 f) <-> In o (api_children O1 f)).
  { intros f Hf. destruct (Hcase f) as [X|X]; [apply Hyes; [exact X|apply known_after; exact Hf]|]. destruct (Hno f Hf X) as (A & B). rewrite A, B. split; reflexivity. }
  assert (Hsrc : forall (g : graph) f x, depends g f x -> In f (dkeys g)). { intros g f x X. apply depends_ch in X. unfold ch, neighbours in X. destruct (dget f g) eqn:E; [eapply dget_Some_key; exact E|destruct X]. }
  split; [exact Hk|]. split; intros f x; split; intros X; (apply Hboth; [|exact X]); [apply Hk; eapply Hsrc; exact X|eapply Hsrc; exact X|apply Hk; eapply J4; exact X|eapply K4; exact X].
Qed.
End Order.
