(** Proofs about histories of builds and interrupted builds. *)
From Verif Require Import Base Graph GraphSpec GraphProofs Hot HotSpec HotSchedProofs HotSchedMain HotMain HotGraphs HotResultSpec HotResultProofs Cold ColdSpec ColdProofs ColdMain.
From Coq Require Import String ZArith Bool List Relations Lia.
Import ListNotations.
Open Scope list_scope.

Lemma up_to_date_transfer build D O s s' : well_formed D -> reads_declared build -> up_to_date build D O s ->
  (forall f, In f (dkeys D) -> s' f = s f) -> (forall f o, depends O f o -> s' o = s o) -> up_to_date build D O s'.
Proof.
  intros W HR (K & H) Hd Ho. split; [exact K|]. intros f Hf. destruct (H f Hf) as (r & Hb & Hr & Hw & Hc1 & Hc2). exists r.
  assert (Hag : forall p, p = f \/ In p (b_children r) \/ In p (b_outputs r) -> s' p = s p).
  { intros p [->|[Hp|Hp]]; [auto| |apply (Ho f); apply Hr; assumption]. destruct (is_out p) eqn:E.
    - destruct (Hc2 p Hp E) as (x & _ & Hx). eapply Ho; exact Hx.
    - apply Hd. apply (depends_keys D f p W). auto. }
  split; [eapply HR; eassumption|]. split; [exact Hr|]. split; [|split; assumption]. intros o c Hoc. rewrite Hag; [apply Hw; assumption|].
  right. right. unfold b_outputs. apply in_or_app. left. apply in_map_iff. exists (o, c). auto.
Qed.
Lemma up_to_date_other build build' D O s : (forall f, In f (dkeys D) -> build' f s = build f s) -> up_to_date build D O s -> up_to_date build' D O s.
Proof. intros E (K & H). split; [exact K|]. intros f Hf. rewrite (E f Hf). apply H. assumption. Qed.
Lemma mode_name_inj a b : mode_name a = mode_name b -> a = b.
Proof. destruct a, b; [reflexivity|vm_compute; discriminate|vm_compute; discriminate|reflexivity]. Qed.

Lemma sound_empty s m : sound_project (mkProject s m empty_graph empty_graph empty_graph).
Proof.
  assert (W : well_formed empty_graph) by (apply Inv_well_formed, Inv_empty).
  split; [|split; [intros f []|intros f o []]]. split; [exact W|]. split; [exact W|]. split; [exact W|]. split; intros k [].
Qed.
Lemma classify_partition D sig files : well_formed D -> NoDup files -> (forall f, In f files -> sig f <> None) ->
  exists changed added deleted, classify D sig files (dkeys D) [] [] = Ret (changed, added, deleted) /\ classified D sig files changed added deleted.
Proof. intros W. apply classify_correct. apply W. Qed.
Lemma classify_exclusive D sig files changed added deleted : well_formed D -> NoDup files ->
  classify D sig files (dkeys D) [] [] = Ret (changed, added, deleted) -> forall f,
  (In f (dkeys changed) -> ~ In f (dkeys added) /\ ~ In f deleted) /\ (In f (dkeys added) -> ~ In f deleted) /\
  (In f files -> api_meta D f <> None -> api_meta D f = sig f <-> ~ In f (dkeys changed) /\ ~ In f (dkeys added) /\ ~ In f deleted) /\
  (In f files \/ api_meta D f <> None -> In f (dkeys changed) \/ In f (dkeys added) \/ In f deleted \/ api_meta D f = sig f).
Proof.
  intros W Hn H f. assert (Hs := classify_sigs _ _ _ _ _ _ _ H). apply classify_inv in H; [|apply W|assumption]. destruct H as (C1 & C2 & C3 & _).
  assert (K1 : In f (dkeys changed) <-> In f files /\ exists s old, sig f = Some s /\ api_meta D f = Some old /\ old <> s).
  { split; [intros X; apply In_dkeys_dget in X; destruct X as (s & X); apply C1 in X; destruct X as (A & B & old & X & Y); eauto 8|].
    intros (A & s & old & B & X & Y). eapply dget_Some_key. apply C1. eauto. }
  assert (K2 : In f (dkeys added) <-> In f files /\ api_meta D f = None).
  { split; [intros X; apply In_dkeys_dget in X; destruct X as (s & X); apply C2 in X; tauto|].
    intros (A & B). destruct (sig f) as [s|] eqn:E; [|exfalso; eapply Hs; eassumption]. eapply dget_Some_key. apply C2. eauto. }
  specialize (C3 f). rewrite K1, K2, C3. clear K1 K2 C1 C2 C3. specialize (Hs f). split; [|split; [|split]].
  - intros (A & s & old & B & X & Y). split; [intros (_ & Z); rewrite X in Z; discriminate Z|tauto].
  - tauto.
  - intros A B. split.
    + intros E. split; [|tauto]. intros (_ & s & old & X & Y & Z). rewrite X, Y in E. injection E as E. contradiction.
    + intros (X & _). destruct (api_meta D f) as [old|]; [|congruence]. destruct (sig f) as [s|]; [|exfalso; apply Hs; [assumption|reflexivity]].
      destruct (sig_dec old s) as [->|N]; [reflexivity|]. exfalso. apply X. eauto 8.
  - intros A. destruct (in_dec (list_eq_dec N.eq_dec) f files) as [F|F].
    + destruct (api_meta D f) as [old|] eqn:Eo; [|tauto]. destruct (sig f) as [s|] eqn:Es; [|exfalso; apply Hs; [assumption|reflexivity]].
      destruct (sig_dec old s) as [->|N]; [auto|]. left. eauto 8.
    + destruct A as [A|A]; tauto.
Qed.
Section Every.
Context (build : str -> fs -> option build_result) (scan : str -> fs -> option scan_full) (stat : fs -> str -> option fsig) (constants : str) (dev : bool) (p : project).
Context (r : option run) (p1 : project) (Hstat : stat_ok stat) (Hph : placeholders_ok scan constants) (Hconst : in_src constants = true) (Hwr : writes_out build) (HS : sound_project p).
Context (HB : cold_build build scan stat constants dev p r p1).
Lemma cold_keeps : (forall q c, is_out q = false -> p_fs p q = Some c -> p_fs p1 q = Some c) /\
  (forall q c, is_out q = false -> p_fs p q = None -> p_fs p1 q = Some c -> exists g x s, scan g s = Some x /\ In (q, c) (f_placeholders x) /\ depends (p_P p1) g q).
Proof. eapply cold_keeps_user; eassumption. Qed.
Lemma cold_switch : p_fs p constants <> None ->
  p_mode p1 = Some (mode_name dev) /\
  (p_mode p <> Some (mode_name dev) -> exists w d b, r = Some w /\ In (constants, d, b) (run_log w)) /\
  (p_mode p = Some (mode_name dev) -> api_meta (p_D p) constants = stat (p_fs p) constants -> forall w, r = Some w -> ~ In constants (dkeys (run_scans w))).
Proof. eapply cold_mode_switch; eassumption. Qed.
Lemma cold_twice : (forall files, lists (p_fs p1) files -> cold_build build scan stat constants dev p1 None p1) /\
  forall r2 p2, cold_build build scan stat constants dev p1 r2 p2 -> r2 = None /\ p2 = p1.
Proof.
  assert (S : sound_project p1 /\ settled stat constants dev p1) by (eapply cold_settles; eassumption).
  apply settled_nothing; [assumption|apply S|apply S].
Qed.
End Every.

Section History.
Context (build : bool -> str -> fs -> option build_result) (scan : str -> fs -> option scan_full) (stat : fs -> str -> option fsig) (constants : str).
Context (Hstat : stat_ok stat) (Hdet : stat_detects stat) (Hph : placeholders_ok scan constants) (Hconst : in_src constants = true).
Context (Hreads : forall dev, reads_declared (build dev)) (Hidem : forall dev, idempotent (build dev)) (Hwr : forall dev, writes_out (build dev)).
Context (Hmode : mode_only build constants).

Lemma mode_only_any dev dev' f s : f <> constants -> build dev f s = build dev' f s.
Proof. intros H. destruct dev, dev'; try reflexivity; [|symmetry]; apply Hmode; assumption. Qed.

Definition HInv (dev : bool) (last : fs) (p : project) : Prop :=
  sound_project p /\ up_to_date (build dev) (p_D p) (p_O p) last /\ (forall f, In f (dkeys (p_D p)) -> api_meta (p_D p) f = stat last f) /\
  (forall q, is_out q = true -> p_fs p q = last q) /\ (In constants (dkeys (p_D p)) -> p_mode p = Some (mode_name dev)).

Lemma HInv_history dev last p : project_history build scan stat constants dev last p -> HInv dev last p.
Proof.
  intros H. induction H as [dev s|dev last p s H IH Hs|dev last p dev' r p1 H IH HB Hh].
  - assert (W : well_formed empty_graph) by (apply Inv_well_formed, Inv_empty). split.
    { split; [|split; [intros f []|intros f o []]]. split; [exact W|]. split; [exact W|]. split; [exact W|]. split; intros k []. }
    split; [apply up_to_date_empty|]. split; [intros f []|]. split; [reflexivity|intros []].
  - destruct IH as (S & U & M & Q & C). split; [exact S|]. split; [exact U|]. split; [exact M|]. split; [|exact C]. cbn [p_fs]. intros q Hq. rewrite Hs by assumption. auto.
  - destruct IH as (S & U & M & Q & C).
    destruct (cold_settles (build dev') scan stat constants dev' p Hstat Hph Hconst (Hwr dev') S r p1 HB) as (S1 & T1 & T2 & T3).
    split; [exact S1|]. split; [|split; [exact T2|split; [reflexivity|]]].
    2: { intros X. rewrite T3. apply T1 in X. destruct (p_fs p1 constants); [reflexivity|tauto]. }
    destruct HB as [files mode1 Hn Hl Hc Hm|files changed added deleted changed1 mode1 fuel t full e l fs1 D1 O1 P1 Hn Hl Hc Hm _ Hs Hr].
    + cbn [p_D p_O p_fs] in *. assert (Hsame : forall f, In f (dkeys (p_D p)) -> p_fs p f = last f).
      { intros f Hf. apply Hdet. rewrite <- (M f Hf), <- (T2 f Hf). reflexivity. }
      assert (U2 : up_to_date (build dev) (p_D p) (p_O p) (p_fs p)).
      { eapply up_to_date_transfer; [apply S|apply Hreads|exact U|exact Hsame|]. intros f o Hd. apply Q. destruct S as (_ & _ & HO). eapply HO. exact Hd. }
      eapply up_to_date_other; [|exact U2]. intros f Hf. destruct (str_eq_dec f constants) as [->|Hne]; [|apply mode_only_any; assumption].
      destruct (mode_step_cases _ _ _ _ _ _ _ _ _ Hm) as (_ & [(_ & [X|[X|[X|X]]])|(g & c & _ & _ & _ & X & _)]).
      * exfalso. apply T1 in Hf. tauto.
      * rewrite (C Hf) in X. injection X as X. apply mode_name_inj in X. rewrite X. reflexivity.
      * destruct X.
      * destruct X.
      * discriminate X.
    + clear S1 T1 T2 T3. cbn [p_D p_O p_fs] in *. assert (HL : lists (p_fs p) files) by (split; assumption).
      pose proof (classified_files stat p S files changed added deleted HL Hc) as (C1 & C2 & C3 & _).
      specialize (Hh _ eq_refl). cbn [run_scans run_deleted run_env run_log] in Hh.
      assert (Hkeys : forall f, In f (dkeys changed1) \/ In f (dkeys added) -> In f (dkeys (scans_of full))).
      { intros f Hf. rewrite scans_of_keys. apply (full_keys (build dev') scan stat constants dev' p Hconst S files changed added deleted changed1 mode1 fuel t full e l fs1 D1 O1 P1 HL Hc Hm Hs Hr f). left. apply in_or_app. exact Hf. }
      assert (Hout : forall q, is_out q = true -> sc_fs t q = p_fs p q).
      { intros q Hq. destruct (p_fs p q) as [c|] eqn:Ec; [eapply sc_mono; eassumption|]. destruct (sc_fs t q) as [c|] eqn:Et; [|reflexivity]. exfalso.
        assert (HSc : Scanned scan stat (p_fs p) added (dkeys changed1 ++ dkeys added) t full) by (eapply scanned; eassumption).
        destruct (pl_new _ _ _ _ _ (sd_placed _ _ _ _ _ _ _ HSc) q c Et Ec) as (g & Hg & _).
        assert (X : in_src q = true) by (eapply new_src; eassumption). apply in_src_not_out in X. congruence. }
      eapply (rebuild_switched (build dev') (build dev)); [apply S|exact Hr|apply Hreads|apply Hidem|apply Hwr|apply Hwr| |exact U|split; [|exact Hh]].
      * intros f s Hf Hna. destruct (str_eq_dec f constants) as [->|Hne]; [|apply mode_only_any; assumption].
        assert (Hex : p_fs p constants <> None).
        { intros X. apply Hna. exists constants. split; [|apply rt_refl]. right. apply C3. split; [apply contains_meta, contains_key; assumption|]. intros Y. apply Hl in Y. tauto. }
        assert (Hnk : ~ (In constants (dkeys changed1) \/ In constants (dkeys added))).
        { intros X. apply Hna. exists constants. split; [left; auto|apply rt_refl]. }
        destruct (mode_step_cases _ _ _ _ _ _ _ _ _ Hm) as (_ & [(E & [X|[X|[X|X]]])|(g & c & _ & _ & _ & E & _)]); subst.
        -- contradiction.
        -- rewrite (C Hf) in X. injection X as X. apply mode_name_inj in X. rewrite X. reflexivity.
        -- exfalso. apply Hnk. left. assumption.
        -- exfalso. apply Hnk. right. assumption.
        -- exfalso. apply Hnk. left. apply In_dkeys_dset. auto.
      * split.
        -- intros f Hf Hns Hnd. assert (Y : In f files).
           { destruct (in_dec str_eq_dec f files); [assumption|]. exfalso. apply Hnd, C3. split; [apply contains_meta, contains_key; assumption|assumption]. }
           assert (E : p_fs p f = last f).
           { apply Hdet. rewrite <- (M f Hf). destruct (stat (p_fs p) f) as [sg|] eqn:Es; [|apply Hstat in Es; apply Hl in Y; tauto].
             destruct (api_meta (p_D p) f) as [old|] eqn:Em; [|apply contains_key, contains_meta in Hf; congruence].
             destruct (sig_dec old sg) as [->|Hne]; [reflexivity|]. exfalso. apply Hns, Hkeys. left.
             destruct (dget f changed1) as [z|] eqn:Ez; [eapply dget_Some_key; exact Ez|]. exfalso.
             assert (Z : dget f changed = None) by (eapply changed1_none; eassumption). assert (Z2 : dget f changed = Some sg) by (apply C1; eauto). congruence. }
           rewrite <- E. destruct (p_fs p f) as [c|] eqn:Ec; [eapply sc_mono; eassumption|]. apply Hl in Y. tauto.
        -- intros f o Hd _ _. assert (Ho : is_out o = true) by (destruct S as (_ & _ & HO); eapply HO; exact Hd). rewrite Hout by assumption. apply Q. assumption.
Qed.
Lemma history_up_to_date dev last p r p1 dev' : project_history build scan stat constants dev last p ->
  cold_build (build dev') scan stat constants dev' p r p1 ->
  (forall w, r = Some w -> honest_builds (p_D p) (p_O p) (p_P p) (run_scans w) (run_deleted w) last (run_env w) (run_log w) (p_D p1) (p_O p1)) ->
  up_to_date (build dev') (p_D p1) (p_O p1) (p_fs p1) /\ (forall f, In f (dkeys (p_D p1)) <-> in_src f = true /\ p_fs p1 f <> None) /\
  (forall files, lists (p_fs p1) files -> cold_build (build dev') scan stat constants dev' p1 None p1) /\
  (forall r2 p2, cold_build (build dev') scan stat constants dev' p1 r2 p2 -> r2 = None /\ p2 = p1).
Proof.
  intros H HB Hh. pose proof (HInv_history _ _ _ H) as (S & _).
  destruct (cold_settles (build dev') scan stat constants dev' p Hstat Hph Hconst (Hwr dev') S r p1 HB) as (S1 & T).
  split; [|split; [apply T|apply settled_nothing; assumption]].
  assert (H2 : project_history build scan stat constants dev' (p_fs p1) p1) by (eapply h_build; eassumption).
  apply HInv_history in H2. apply H2.
Qed.
End History.

(** ** interrupted rebuilds *)
Section Crash.
Context (build : str -> fs -> option build_result) (D O P : graph) (fs_old : fs).
Context (HG : project_graphs D O P).

Lemma affected_mono scanned deleted scanned' deleted' f : (forall x, In x scanned \/ In x deleted -> In x scanned' \/ In x deleted') ->
  affected D P scanned deleted f -> affected D P scanned' deleted' f.
Proof. intros H (s & Hs & Hr). exists s. auto. Qed.

Lemma attempts_outputs touched folder : attempts build D O P fs_old touched folder ->
  forall f o, depends O f o -> is_out o = true -> ~ affected D P touched [] f -> ~ dirtied_output D O P touched [] o -> folder o = fs_old o.
Proof.
  induction 1 as [|touched s s' H IH Hs|touched fs0 scans newph deleted e m order s folder H IH Hp Hn Ho Hst Hc Hsh]; intros f o Hd Hout Ha Hno.
  - reflexivity.
  - rewrite Hs by assumption. eapply IH; eassumption.
  - assert (M1 : forall x, affected D P (dkeys scans) deleted x -> affected D P (dkeys scans ++ deleted ++ touched) [] x).
    { intros x. apply affected_mono. intros y Hy. left. rewrite !in_app_iff. tauto. }
    assert (M2 : forall x, affected D P touched [] x -> affected D P (dkeys scans ++ deleted ++ touched) [] x).
    { intros x. apply affected_mono. intros y [Hy|[]]. left. rewrite !in_app_iff. tauto. }
    assert (Ha1 : ~ affected D P (dkeys scans) deleted f) by auto.
    assert (Hno1 : ~ dirtied_output D O P (dkeys scans) deleted o) by (intros (x & A & B); apply Hno; exists x; auto).
    assert (E0 : fs0 o = fs_old o).
    { apply (IH f); [assumption|assumption|auto|]. intros (x & A & B). apply Hno. exists x. auto. }
    destruct (Hsh f o Hd Ha1) as (Sh1 & Sh2).
    destruct (prepared _ _ _ _ _ _ _ _ HG Hp) as (ED & EO & EP & EN & EK & Hnd & HA & HB & HC).
    destruct (start_SO build D O P scans newph deleted e m HG Hp order fs0 Hn Ho s Hst) as (I & OI).
    destruct (Hc o) as [E|[E|(g & r & A & B & C)]]; [|contradiction|exfalso; eapply Sh2; eassumption].
    rewrite E. rewrite (si_disk _ _ _ _ I). apply (replay_stable build e (log s) [] _ o _ (si_log_ok _ _ _ _ I)).
    + unfold start, init_sched. cbn [disk]. rewrite fs_del_all. destruct (mem o (e_dirty_out e)) eqn:Em; [|assumption].
      apply mem_In, HB in Em. exfalso. apply Hno1. apply Em.
    + exact Sh1.
Qed.

Lemma recovered stat touched folder scans newph changed added deleted fs0 e l fs1 D1 O1 P1 :
  attempts build D O P fs_old touched folder -> (forall f o, depends O f o -> is_out o = true) ->
  (forall f, In f touched -> In f (dkeys scans) \/ In f deleted) ->
  (forall q, is_out q = true -> fs0 q = folder q) -> (forall f, In f (dkeys D) -> ~ In f (dkeys scans) -> ~ In f deleted -> fs0 f = fs_old f) ->
  hot_rebuild build stat D O P scans newph changed added deleted fs0 e l fs1 D1 O1 P1 ->
  reads_declared build -> idempotent build -> writes_out build -> up_to_date build D O fs_old ->
  honest_builds D O P scans deleted fs_old e l D1 O1 -> up_to_date build D1 O1 fs1.
Proof.
  intros HA HO HT Hout Hsrc HR H1 H2 H3 H4 HH. eapply rebuild_keeps_up_to_date; try eassumption. split; [|exact HH]. split; [exact Hsrc|].
  intros f o Hd Hna Hnd. rewrite Hout by (eapply HO; exact Hd). 
  assert (M : forall x, affected D P touched [] x -> affected D P (dkeys scans) deleted x).
  { intros x. apply affected_mono. intros y [Hy|[]]. auto. }
  eapply attempts_outputs; [exact HA|exact Hd|eapply HO; exact Hd|auto|]. intros (x & A & B). apply Hnd. exists x. auto.
Qed.
End Crash.
