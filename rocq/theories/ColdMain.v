(** Proofs about cold builds and histories of builds. *)
From Verif Require Import Base Graph GraphSpec GraphProofs Hot HotSpec HotSchedProofs HotSchedMain HotMain HotGraphs HotResultSpec HotResultProofs Cold ColdSpec ColdProofs.
From Coq Require Import String ZArith Bool List Relations Lia.
Import ListNotations.
Open Scope list_scope.

Lemma in_src_not_out p : in_src p = true -> is_out p = false.
Proof.
  unfold in_src, is_out. intros H. apply starts_with_iff in H. destruct H as (r & ->). reflexivity.
Qed.
Lemma depends_keys g a b : well_formed g -> depends g a b -> In a (dkeys g) /\ In b (dkeys g).
Proof.
  intros W H. apply depends_ch in H. split; [eapply ch_key; eassumption|]. eapply Inv_ch_closed; [|eassumption]. apply Inv_well_formed. assumption.
Qed.
Lemma affected_known D O P scanned deleted f : project_graphs D O P -> affected D P scanned deleted f ->
  In f scanned \/ In f deleted \/ In f (dkeys D).
Proof.
  intros HG (s & Hs & Hr). apply clos_rt_rtn1 in Hr. destruct Hr as [|y z Hy Hr]; [tauto|]. right. right.
  destruct HG as (W1 & W2 & W3 & K1 & K2). destruct Hy as [Hy|Hy]; [apply (depends_keys D z y W1 Hy)|].
  apply K2. apply (depends_keys P z y W3 Hy).
Qed.
Lemma sig_dec (a b : fsig) : {a = b} + {a <> b}.
Proof. repeat decide equality. Qed.
Lemma scans_of_keys full : dkeys (scans_of full) = dkeys full.
Proof. unfold scans_of, dkeys. rewrite map_map. reflexivity. Qed.

Section Cold.
Context (build : str -> fs -> option build_result) (scan : str -> fs -> option scan_full) (stat : fs -> str -> option fsig) (constants : str) (dev : bool) (p : project).
Context (Hstat : stat_ok stat) (Hph : placeholders_ok scan constants) (Hconst : in_src constants = true) (Hwr : writes_out build) (HS : sound_project p).

Section HotCase.
Context (files : list str) (changed added : dict fsig) (deleted : list str) (changed1 : dict fsig) (mode1 : option str) (fuel : nat) (t : scanning)
  (full : dict scan_full) (e : env) (l : build_log) (fs1 : fs) (D1 O1 P1 : graph).
Context (Hl : lists (p_fs p) files)
  (Hc : classify (p_D p) (stat (p_fs p)) files (dkeys (p_D p)) [] [] = Ret (changed, added, deleted))
  (Hm : mode_step constants dev (stat (p_fs p)) (p_fs p) (p_mode p) changed added = Ret (changed1, mode1))
  (Hs : scan_loop scan stat fuel (mkScanning (p_fs p) (dkeys changed1 ++ dkeys added) [] added) [] = Ret (t, full))
  (Hh : hot_rebuild build stat (p_D p) (p_O p) (p_P p) (scans_of full) (sc_new t) changed1 (sc_added t) deleted (sc_fs t) e l fs1 D1 O1 P1).

Lemma classified_files : classified (p_D p) (stat (p_fs p)) files changed added deleted.
Proof. destruct HS as ((W & _) & _). destruct Hl. apply classify_inv; [apply W|assumption|assumption]. Qed.

(** [changed1] holds the changed files and possibly the constants file *)
Lemma changed1_get f s : dget f changed1 = Some s -> stat (p_fs p) f = Some s /\ In f files.
Proof.
  destruct classified_files as (C1 & _). intros Hf. destruct (mode_step_cases _ _ _ _ _ _ _ _ _ Hm) as (_ & [(-> & _)|(g & c & M1 & M2 & _ & -> & _)]).
  - apply C1 in Hf. tauto.
  - rewrite dget_dset in Hf. destruct (str_eqb f constants) eqn:E; [|apply C1 in Hf; tauto]. apply str_eqb_eq in E. subst f. injection Hf as <-.
    split; [assumption|]. apply Hl. split; [assumption|congruence].
Qed.
Lemma changed1_none f : dget f changed1 = None -> dget f changed = None.
Proof.
  destruct (mode_step_cases _ _ _ _ _ _ _ _ _ Hm) as (_ & [(-> & _)|(g & c & _ & _ & _ & -> & _)]); [auto|]. rewrite dget_dset. destruct (str_eqb f constants); [discriminate|auto].
Qed.
Lemma added_get f s : dget f added = Some s -> stat (p_fs p) f = Some s /\ In f files /\ api_meta (p_D p) f = None.
Proof. destruct classified_files as (_ & C2 & _). intros H. apply C2 in H. tauto. Qed.
Lemma start_ok : NoDup (dkeys changed1 ++ dkeys added) /\ forall f, In f (dkeys changed1 ++ dkeys added) -> p_fs p f <> None /\ in_src f = true.
Proof.
  destruct classified_files as (C1 & C2 & C3 & C4 & C5 & C6). split.
  - apply NoDup_app_iff. split; [|split; [assumption|]].
    + destruct (mode_step_cases _ _ _ _ _ _ _ _ _ Hm) as (_ & [(-> & _)|(g & c & _ & _ & _ & -> & _)]); [assumption|apply NoDup_dset; assumption].
    + intros f Hf Ha. apply In_dkeys_dget in Ha. destruct Ha as (s & Ha). pose proof (dget_Some_key _ _ _ Ha) as Ha'. apply added_get in Ha. destruct Ha as (_ & _ & Ha).
      destruct (mode_step_cases _ _ _ _ _ _ _ _ _ Hm) as (_ & [(E & _)|(g & c & M1 & M2 & M3 & E & M5 & M6)]); rewrite E in Hf.
      * apply In_dkeys_dget in Hf. destruct Hf as (s' & Hf). apply C1 in Hf. destruct Hf as (_ & _ & old & Hf & _). congruence.
      * apply In_dkeys_dset in Hf. destruct Hf as [->|Hf]; [contradiction|]. apply In_dkeys_dget in Hf. destruct Hf as (s' & Hf). apply C1 in Hf. destruct Hf as (_ & _ & old & Hf & _). congruence.
  - intros f Hf. apply in_app_or in Hf. destruct Hl as (_ & Hl'). cut (In f files); [intros X; apply Hl' in X; tauto|].
    destruct Hf as [Hf|Hf]; apply In_dkeys_dget in Hf; destruct Hf as (s & Hf); [eapply changed1_get; eassumption|eapply added_get; eassumption].
Qed.
Lemma scanned : Scanned scan stat (p_fs p) added (dkeys changed1 ++ dkeys added) t full /\ sc_next t = [].
Proof. destruct start_ok as (A & B). apply (scan_phase scan stat _ _ _ _ _ _ A) in Hs; [assumption|]. intros f Hf. apply B in Hf. tauto. Qed.
Lemma new_src q g : dget q (sc_new t) = Some g -> in_src q = true /\ q <> constants /\ p_fs p q = None /\ sc_fs t q <> None.
Proof.
  intros Hq. destruct scanned as ([Pl K Dj Nx W Ex Sc Dn] & _). destruct (pl_dom _ _ _ _ _ Pl q g Hq) as (A & c & s & B & _).
  destruct (pl_new _ _ _ _ _ Pl q c B A) as (g' & _ & x & Hx & Hi). destruct (Sc g' x Hx) as (s' & Hs'). destruct (Hph _ _ _ _ _ Hs' Hi). split; [assumption|]. split; [assumption|]. split; [assumption|congruence].
Qed.
Lemma full_keys f : In f (dkeys full) <-> In f (dkeys changed1 ++ dkeys added) \/ In f (dkeys (sc_new t)).
Proof. destruct scanned as ([Pl K Dj Nx W Ex Sc Dn] & E). rewrite K, E. simpl. tauto. Qed.
Lemma full_src f : In f (dkeys full) -> in_src f = true /\ sc_fs t f <> None.
Proof.
  intros Hf. pose proof (sd_exist _ _ _ _ _ _ _ (proj1 scanned) f Hf) as X. split; [|exact X]. apply full_keys in Hf. destruct Hf as [Hf|Hf]; [apply start_ok in Hf; tauto|].
  apply In_dkeys_dget in Hf. destruct Hf as (g & Hf). apply new_src in Hf. tauto.
Qed.
Lemma graphs_ok : project_graphs (p_D p) (p_O p) (p_P p).
Proof. exact (proj1 HS). Qed.
Lemma kept q : is_out q = false -> fs1 q = sc_fs t q.
Proof.
  intros Hq. apply (untouched build stat _ _ _ _ _ _ _ _ _ _ _ _ _ _ _ graphs_ok Hh).
  - intros (f & _ & Hd). destruct HS as (_ & _ & HO). apply HO in Hd. congruence.
  - intros Hw. apply (written_out build stat _ _ _ _ _ _ _ _ _ _ _ _ _ _ _ graphs_ok Hh Hwr) in Hw. congruence.
Qed.
Lemma sc_mono q c : p_fs p q = Some c -> sc_fs t q = Some c.
Proof. apply (pl_old _ _ _ _ _ (sd_placed _ _ _ _ _ _ _ (proj1 scanned))). Qed.
Lemma recorded_inputs f : In f (dkeys D1) <-> in_src f = true /\ fs1 f <> None.
Proof.
  destruct (stored_inputs _ _ _ _ _ _ _ _ _ _ _ _ _ _ _ _ _ graphs_ok Hh) as (K & _). rewrite K, scans_of_keys.
  destruct classified_files as (C1 & C2 & C3 & C4 & C5 & C6). destruct HS as (HG & HD & HO).
  split.
  - intros (Hf & Hnd). cut (in_src f = true /\ sc_fs t f <> None).
    { intros (A & B). split; [assumption|]. rewrite kept by (apply in_src_not_out; assumption). assumption. }
    assert (Hor : In f (dkeys full) \/ In f (dkeys (p_D p))).
    { destruct Hf as [Hf|Hf]; [|auto]. destruct (affected_known _ _ _ _ _ _ HG Hf) as [X|[X|X]]; [auto|contradiction|auto]. }
    destruct Hor as [X|X]; [apply full_src; assumption|]. split; [apply HD; assumption|].
    destruct (in_dec str_eq_dec f files) as [Y|Y].
    + destruct Hl as (_ & Hl'). apply Hl' in Y. destruct (p_fs p f) as [c|] eqn:E; [|tauto]. rewrite (sc_mono f c E). discriminate.
    + exfalso. apply Hnd, C3. split; [|assumption]. apply contains_meta, contains_key. assumption.
  - intros (Hf & He). rewrite kept in He by (apply in_src_not_out; assumption).
    destruct (p_fs p f) as [c|] eqn:E.
    + assert (Y : In f files) by (destruct Hl as (_ & Hl'); apply Hl'; split; [assumption|congruence]).
      split; [|intros X; apply C3 in X; tauto]. destruct (in_dec str_eq_dec f (dkeys (p_D p))) as [X|X]; [auto|]. left. exists f. split; [|apply rt_refl].
      left. apply full_keys. left. apply in_or_app. right. destruct (stat (p_fs p) f) as [s|] eqn:Es.
      * eapply dget_Some_key. apply C2. split; [assumption|]. split; [exact Es|]. destruct (api_meta (p_D p) f) eqn:Em; [|reflexivity]. exfalso. apply X, contains_key, contains_meta. congruence.
      * apply Hstat in Es. congruence.
    + destruct (sc_fs t f) as [c|] eqn:Et; [|congruence].
      destruct (pl_new _ _ _ _ _ (sd_placed _ _ _ _ _ _ _ (proj1 scanned)) f c Et E) as (g & Hg & _).
      assert (Hk : In f (dkeys D1)).
      { destruct (stored_placeholders _ _ _ _ _ _ _ _ _ _ _ _ _ _ _ _ _ graphs_ok Hh) as (_ & A & _). destruct (graphs_valid _ _ _ _ _ _ _ _ _ _ _ _ _ _ _ _ _ graphs_ok Hh) as ((_ & _ & W3 & _ & K2) & _).
        apply K2. eapply (depends_keys P1); [exact W3|]. apply A. eapply dget_In. exact Hg. }
      apply K in Hk. rewrite scans_of_keys in Hk. exact Hk.
Qed.
Lemma recorded_sigs f : In f (dkeys D1) -> api_meta D1 f = stat fs1 f.
Proof.
  intros Hf. pose proof Hf as Hf'. apply recorded_inputs in Hf'. destruct Hf' as (Hsrc & Hex). destruct (stored_inputs _ _ _ _ _ _ _ _ _ _ _ _ _ _ _ _ _ graphs_ok Hh) as (K & M).
  destruct (M f Hf) as (sig & Hd & _ & Hsig). rewrite Hd. symmetry. destruct Hstat as (St & _). apply in_src_not_out, kept in Hsrc.
  assert (Hold : stat (p_fs p) f = Some sig -> stat fs1 f = Some sig).
  { intros X. rewrite <- X. apply St. rewrite Hsrc. destruct (p_fs p f) as [c|] eqn:E; [apply sc_mono; assumption|].
    assert (Y : stat (p_fs p) f = None) by (apply Hstat; assumption). congruence. }
  destruct classified_files as (C1 & C2 & C3 & _).
  destruct Hsig as [X|[(X1 & X)|(X1 & X2 & X)]].
  - apply Hold. eapply changed1_get. exact X.
  - destruct (dget f (sc_new t)) as [g|] eqn:Eg.
    + destruct (pl_dom _ _ _ _ _ (sd_placed _ _ _ _ _ _ _ (proj1 scanned)) f g Eg) as (_ & c & s & A & B & C & _). rewrite X in B. cbv iota in B. transitivity (stat s f); [apply St; congruence|exact B].
    + rewrite (pl_added _ _ _ _ _ (sd_placed _ _ _ _ _ _ _ (proj1 scanned)) f Eg) in X. apply Hold. eapply added_get. exact X.
  - apply Hold. apply K in Hf. destruct Hf as (_ & Hnd). apply changed1_none in X1.
    assert (Y : In f files). { destruct (in_dec str_eq_dec f files); [assumption|]. exfalso. apply Hnd, C3. split; [congruence|assumption]. }
    destruct (stat (p_fs p) f) as [sig'|] eqn:Es.
    + destruct (sig_dec sig sig') as [->|Hne]; [reflexivity|]. exfalso. assert (Z : dget f changed = Some sig') by (apply C1; eauto). congruence.
    + exfalso. apply Hstat in Es. destruct Hl as (_ & Hl'). apply Hl' in Y. tauto.
Qed.
Lemma sound_after : sound_project (mkProject fs1 mode1 D1 O1 P1).
Proof.
  destruct (graphs_valid _ _ _ _ _ _ _ _ _ _ _ _ _ _ _ _ _ graphs_ok Hh) as (G & _). split; [exact G|]. cbn [p_D p_O p_P]. split; [intros f Hf; apply recorded_inputs in Hf; tauto|].
  destruct (stored_edges _ _ _ _ _ _ _ _ _ _ _ _ _ _ _ _ _ graphs_ok Hh) as (A & B & C & K). intros f o Hd. pose proof (K f o Hd) as Hk.
  destruct (unfolded _ _ _ _ _ _ _ _ _ _ _ _ _ _ _ _ _ graphs_ok Hh) as (start & _ & S2 & _ & S4 & _).
  destruct (in_dec str_eq_dec f (names l)) as [Hn|Hn].
  - apply names_in in Hn. destruct Hn as (d & r & Hi). destruct (B f d r Hi) as (Eo & _). unfold depends in Hd. rewrite Eo in Hd.
    destruct (in_split _ _ Hi) as (l1 & l2 & El). destruct (log_ok_order _ _ _ _ _ S2 _ _ _ _ _ El) as (_ & Hb & _). eapply Hwr; eassumption.
  - assert (Hna : ~ affected (p_D p) (p_P p) (dkeys (scans_of full)) deleted f). { intros X. destruct (A f Hk X) as (d & r & Hi). apply Hn. eapply in_names; exact Hi. }
    destruct (C f Hk Hna) as (_ & Eo). unfold depends in Hd. rewrite Eo in Hd. destruct HS as (_ & _ & HO). eapply HO. exact Hd.
Qed.
Lemma constants_kept : fs1 constants = p_fs p constants.
Proof.
  rewrite kept by (apply in_src_not_out; assumption). destruct (p_fs p constants) as [c|] eqn:E; [apply sc_mono; assumption|].
  destruct (sc_fs t constants) as [c|] eqn:Et; [|reflexivity]. exfalso.
  destruct (pl_new _ _ _ _ _ (sd_placed _ _ _ _ _ _ _ (proj1 scanned)) constants c Et E) as (g & Hg & _). apply new_src in Hg. tauto.
Qed.
Lemma placeholder_new q c : p_fs p q = None -> is_out q = false -> fs1 q = Some c -> exists g x s, scan g s = Some x /\ In (q, c) (f_placeholders x) /\ depends P1 g q.
Proof.
  intros Hq Hout H. rewrite kept in H by assumption. destruct scanned as ([Pl K Dj Nx W Ex Sc Dn] & _).
  destruct (pl_new _ _ _ _ _ Pl q c H Hq) as (g & Hg & x & Hx & Hi). destruct (Sc g x Hx) as (s & Hs'). exists g, x, s. split; [assumption|]. split; [assumption|].
  destruct (stored_placeholders _ _ _ _ _ _ _ _ _ _ _ _ _ _ _ _ _ graphs_ok Hh) as (_ & A & _). apply A. eapply dget_In. exact Hg.
Qed.
Lemma kept_user q c : p_fs p q = Some c -> is_out q = false -> fs1 q = Some c.
Proof. intros H Hq. rewrite kept by assumption. apply sc_mono. assumption. Qed.
(** a recorded placeholder that was deleted cannot be generated again *)
Lemma recreated_blocks g x q c : In g (dkeys full) -> (forall s, scan g s = Some x) -> In (q, c) (f_placeholders x) -> In q (dkeys (p_D p)) -> p_fs p q = None -> False.
Proof.
  intros Hg Hx Hi Hq Hn. destruct scanned as ([Pl K Dj Nx W Ex Sc Dn] & _). apply In_dkeys_dget in Hg. destruct Hg as (y & Hy).
  destruct (Sc g y Hy) as (s & Hs'). rewrite Hx in Hs'. injection Hs' as <-. pose proof (Dn g x q c Hy Hi) as Hex. destruct (sc_fs t q) as [d|] eqn:Ed; [|congruence].
  destruct (pl_new _ _ _ _ _ Pl q d Ed Hn) as (g' & Hg' & _).
  destruct (stored_placeholders _ _ _ _ _ _ _ _ _ _ _ _ _ _ _ _ _ graphs_ok Hh) as (_ & A & _). destruct (graphs_valid _ _ _ _ _ _ _ _ _ _ _ _ _ _ _ _ _ graphs_ok Hh) as ((_ & _ & W3 & _ & K2) & _).
  assert (Hk : In q (dkeys D1)) by (apply K2; eapply (depends_keys P1); [exact W3|apply A; eapply dget_In; exact Hg']).
  destruct (stored_inputs _ _ _ _ _ _ _ _ _ _ _ _ _ _ _ _ _ graphs_ok Hh) as (KK & _). apply KK in Hk. apply (proj2 Hk).
  destruct classified_files as (C1 & C2 & C3 & _). apply C3. split; [apply contains_meta, contains_key; assumption|]. intros X. destruct Hl as (_ & Hl'). apply Hl' in X. tauto.
Qed.
Lemma constants_built : p_fs p constants <> None -> p_mode p <> Some (mode_name dev) -> exists d b, In (constants, d, b) l.
Proof.
  intros Hc' Hm'. destruct (stored_edges _ _ _ _ _ _ _ _ _ _ _ _ _ _ _ _ _ graphs_ok Hh) as (A & _). apply A.
  - apply recorded_inputs. split; [assumption|]. rewrite constants_kept. assumption.
  - exists constants. split; [|apply rt_refl]. left. rewrite scans_of_keys. apply full_keys. left. apply in_or_app.
    destruct (mode_step_cases _ _ _ _ _ _ _ _ _ Hm) as (_ & [(E & [X|[X|[X|X]]])|(g & c & _ & _ & _ & E & _)]); rewrite E.
    + contradiction.
    + contradiction.
    + auto.
    + auto.
    + left. apply In_dkeys_dset. auto.
Qed.
Lemma constants_unscanned : p_mode p = Some (mode_name dev) -> api_meta (p_D p) constants = stat (p_fs p) constants -> ~ In constants (dkeys (scans_of full)).
Proof.
  intros Hm' Hs' X. rewrite scans_of_keys in X. apply full_keys in X. destruct classified_files as (C1 & C2 & _). destruct X as [X|X].
  - apply in_app_or in X. destruct (mode_step_cases _ _ _ _ _ _ _ _ _ Hm) as (_ & [(E & _)|(g & c & _ & _ & E & _)]); [|contradiction]. rewrite E in X.
    destruct X as [X|X]; apply In_dkeys_dget in X; destruct X as (s & X); [apply C1 in X; destruct X as (_ & Y & old & Z & N); congruence|apply C2 in X; destruct X as (_ & Y & Z); congruence].
  - apply In_dkeys_dget in X. destruct X as (g & X). apply new_src in X. tauto.
Qed.
End HotCase.

(** [p] records its sources exactly *)
Definition settled (q : project) : Prop :=
  (forall f, In f (dkeys (p_D q)) <-> in_src f = true /\ p_fs q f <> None) /\ (forall f, In f (dkeys (p_D q)) -> api_meta (p_D q) f = stat (p_fs q) f) /\
  p_mode q = (if p_fs q constants then Some (mode_name dev) else None).
Lemma no_keys {V} (d : @dict V) : (forall k v, dget k d = Some v -> False) -> d = [].
Proof. destruct d as [|[k v] d]; [reflexivity|]. intros H. exfalso. apply (H k v). simpl. rewrite str_eqb_refl. reflexivity. Qed.
Lemma cold_settles r p1 : cold_build build scan stat constants dev p r p1 -> sound_project p1 /\ settled p1.
Proof.
  intros HB. destruct HB as [files mode1 Hn Hl Hc Hm|files changed added deleted changed1 mode1 fuel t full e l fs1 D1 O1 P1 Hn Hl Hc Hm _ Hs Hh].
  - split; [exact HS|]. assert (HC : classified (p_D p) (stat (p_fs p)) files [] [] []).
    { destruct HS as ((W & _) & _). apply classify_inv; [apply W|assumption|assumption]. }
    destruct HC as (C1 & C2 & C3 & _). unfold settled. cbn [p_D p_fs p_mode].
    assert (Hk : forall f, In f (dkeys (p_D p)) <-> In f files).
    { intros f. split; intros Hf.
      - destruct (in_dec str_eq_dec f files); [assumption|]. exfalso. apply (in_nil (a := f)). apply C3. split; [apply contains_meta, contains_key; assumption|assumption].
      - destruct (in_dec str_eq_dec f (dkeys (p_D p))) as [|X]; [assumption|]. exfalso. assert (Hf' := Hf). apply Hl in Hf'. destruct (stat (p_fs p) f) as [s|] eqn:Es; [|apply Hstat in Es; tauto].
        assert (Y : dget f (@nil (str * fsig)) = Some s); [|discriminate]. apply C2. split; [assumption|]. split; [assumption|]. destruct (api_meta (p_D p) f) eqn:Em; [|reflexivity].
        exfalso. apply X, contains_key, contains_meta. congruence. }
    split; [|split].
    + intros f. rewrite Hk. apply Hl.
    + intros f Hf. destruct (api_meta (p_D p) f) as [old|] eqn:Em; [|apply contains_key, contains_meta in Hf; congruence]. apply Hk in Hf.
      destruct (stat (p_fs p) f) as [s|] eqn:Es; [|apply Hstat in Es; apply Hl in Hf; tauto]. destruct (sig_dec old s) as [->|Hne]; [reflexivity|].
      assert (Y : dget f (@nil (str * fsig)) = Some s); [|discriminate]. apply C1. eauto.
    + apply mode_step_cases in Hm. tauto.
  - assert (HL : lists (p_fs p) files) by (split; assumption). split; [eapply sound_after; eassumption|]. unfold settled. cbn [p_D p_fs p_mode].
    split; [intros f; eapply recorded_inputs; eassumption|]. split; [intros f; eapply recorded_sigs; eassumption|].
    erewrite constants_kept by eassumption. apply mode_step_cases in Hm. tauto.
Qed.
Lemma cold_keeps_user r p1 : cold_build build scan stat constants dev p r p1 ->
  (forall q c, is_out q = false -> p_fs p q = Some c -> p_fs p1 q = Some c) /\
  (forall q c, is_out q = false -> p_fs p q = None -> p_fs p1 q = Some c -> exists g x s, scan g s = Some x /\ In (q, c) (f_placeholders x) /\ depends (p_P p1) g q).
Proof.
  intros HB. destruct HB as [files mode1 Hn Hl Hc Hm|files changed added deleted changed1 mode1 fuel t full e l fs1 D1 O1 P1 Hn Hl Hc Hm _ Hs Hh]; cbn [p_fs p_P].
  - split; [auto|congruence].
  - assert (HL : lists (p_fs p) files) by (split; assumption). split; intros q c Hq Hp; [eapply kept_user; eassumption|]. intros H. eapply placeholder_new; eassumption.
Qed.
Lemma cold_recreated g x q c : In (q, c) (f_placeholders x) -> (forall s, scan g s = Some x) -> in_src g = true -> p_fs p g <> None -> api_meta (p_D p) g <> stat (p_fs p) g ->
  In q (dkeys (p_D p)) -> p_fs p q = None -> forall r p1, ~ cold_build build scan stat constants dev p r p1.
Proof.
  intros Hi Hx Hgs Hge Hgm Hq Hn r p1 HB. destruct HB as [files mode1 Hnd Hl Hc Hm|files changed added deleted changed1 mode1 fuel t full e l fs1 D1 O1 P1 Hnd Hl Hc Hm _ Hs Hh].
  - assert (HC : classified (p_D p) (stat (p_fs p)) files [] [] []). { destruct HS as ((W & _) & _). apply classify_inv; [apply W|assumption|assumption]. }
    destruct HC as (_ & _ & C3 & _). apply (in_nil (a := q)). apply C3. split; [apply contains_meta, contains_key; assumption|]. intros X. apply Hl in X. tauto.
  - assert (HL : lists (p_fs p) files) by (split; assumption). eapply recreated_blocks; try eassumption.
    assert (HC : classified (p_D p) (stat (p_fs p)) files changed added deleted) by (eapply classified_files; eassumption). destruct HC as (C1 & C2 & C3 & _).
    assert (FK : In g (dkeys full) <-> In g (dkeys changed1 ++ dkeys added) \/ In g (dkeys (sc_new t))) by (eapply full_keys; eassumption). apply FK. left. apply in_or_app.
    assert (Hf : In g files) by (apply Hl; auto). destruct (stat (p_fs p) g) as [sg|] eqn:Es; [|apply Hstat in Es; congruence].
    destruct (api_meta (p_D p) g) as [old|] eqn:Em.
    + left. assert (X : dget g changed = Some sg) by (apply C1; split; [assumption|]; split; [assumption|]; exists old; split; [assumption|intros Z; apply Hgm; f_equal; exact Z]).
      destruct (dget g changed1) as [z|] eqn:Ez; [eapply dget_Some_key; exact Ez|]. exfalso. assert (Y : dget g changed = None) by (eapply changed1_none; eassumption). rewrite X in Y. discriminate Y.
    + right. eapply dget_Some_key. apply C2. split; [assumption|]. split; [exact Es|assumption].
Qed.
Lemma cold_mode_switch r p1 : cold_build build scan stat constants dev p r p1 -> p_fs p constants <> None ->
  p_mode p1 = Some (mode_name dev) /\
  (p_mode p <> Some (mode_name dev) -> exists w d b, r = Some w /\ In (constants, d, b) (run_log w)) /\
  (p_mode p = Some (mode_name dev) -> api_meta (p_D p) constants = stat (p_fs p) constants -> forall w, r = Some w -> ~ In constants (dkeys (run_scans w))).
Proof.
  intros HB He. destruct HB as [files mode1 Hnd Hl Hc Hm|files changed added deleted changed1 mode1 fuel t full e l fs1 D1 O1 P1 Hnd Hl Hc Hm _ Hs Hh]; cbn [p_mode].
  - destruct (mode_step_cases _ _ _ _ _ _ _ _ _ Hm) as (E & F). split; [destruct (p_fs p constants); [exact E|congruence]|]. split; [|discriminate].
    intros X. destruct F as [(_ & [F|[F|[F|F]]])|(g & c & _ & _ & _ & F & _)]; [contradiction|contradiction|destruct F|destruct F|discriminate F].
  - assert (HL : lists (p_fs p) files) by (split; assumption). destruct (mode_step_cases _ _ _ _ _ _ _ _ _ Hm) as (E & _).
    split; [destruct (p_fs p constants); [exact E|congruence]|]. split.
    + intros X. assert (Y : exists d b, In (constants, d, b) l) by (eapply constants_built; eassumption). destruct Y as (d & b & Y). eexists. exists d, b. split; [reflexivity|exact Y].
    + intros X Y w [= <-]. cbn [run_scans]. eapply constants_unscanned; eassumption.
Qed.
End Cold.

Section Again.
Context (build : str -> fs -> option build_result) (scan : str -> fs -> option scan_full) (stat : fs -> str -> option fsig) (constants : str) (dev : bool).
Context (Hstat : stat_ok stat) (p : project) (HS : sound_project p) (HT : settled stat constants dev p).
Lemma settled_classify files : lists (p_fs p) files -> classify (p_D p) (stat (p_fs p)) files (dkeys (p_D p)) [] [] = Ret ([], [], []).
Proof.
  intros (Hn & Hl). destruct HT as (T1 & T2 & T3). destruct HS as ((W & _) & _).
  destruct (classify_correct (p_D p) (stat (p_fs p)) files) as (c & a & d & E & C1 & C2 & C3 & _); [apply W|assumption| |].
  { intros f Hf X. apply Hstat in X. apply Hl in Hf. tauto. }
  rewrite E. f_equal. f_equal; [f_equal|].
  - apply no_keys. intros f s X. apply C1 in X. destruct X as (Hf & Hs & old & Ho & Hne). apply Hl, T1, T2 in Hf. congruence.
  - apply no_keys. intros f s X. apply C2 in X. destruct X as (Hf & Hs & Ho). apply Hl, T1, T2 in Hf. congruence.
  - destruct d as [|f d]; [reflexivity|]. exfalso. assert (X : In f (f :: d)) by (left; reflexivity). apply C3 in X. destruct X as (A & B). apply B, Hl, T1. apply contains_key, contains_meta. assumption.
Qed.
Lemma settled_mode changed added : mode_step constants dev (stat (p_fs p)) (p_fs p) (p_mode p) changed added = Ret (changed, p_mode p).
Proof.
  destruct HT as (_ & _ & E). unfold mode_step. rewrite E. destruct (p_fs p constants); [|reflexivity]. rewrite (proj2 (opt_str_eqb_eq _ _) eq_refl). reflexivity.
Qed.
Lemma settled_nothing : (forall files, lists (p_fs p) files -> cold_build build scan stat constants dev p None p) /\
  forall r2 p2, cold_build build scan stat constants dev p r2 p2 -> r2 = None /\ p2 = p.
Proof.
  assert (Ep : p = mkProject (p_fs p) (p_mode p) (p_D p) (p_O p) (p_P p)) by (destruct p; reflexivity). split.
  - intros files HL. rewrite Ep at 2. eapply cold_nothing; [apply HL|apply HL|apply settled_classify; exact HL|apply settled_mode].
  - intros r2 p2 HB. destruct HB as [files mode1 Hn Hl Hc Hm|files changed added deleted changed1 mode1 fuel t full e l fs1 D1 O1 P1 Hn Hl Hc Hm Hne _ _].
    + rewrite settled_mode in Hm. injection Hm as <-. split; [reflexivity|]. symmetry. exact Ep.
    + exfalso. rewrite (settled_classify files (conj Hn Hl)) in Hc. injection Hc as <- <- <-. rewrite settled_mode in Hm. injection Hm as <- _. destruct Hne as [X|[X|X]]; apply X; reflexivity.
Qed.
End Again.
