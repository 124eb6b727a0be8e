(** Rebuilds that fail while they build files spoil only outputs that the next rebuild makes again. *)
From Verif Require Import Base Graph GraphSpec GraphProofs GraphMain PyStr PyPath PyNorm PathSpec Json JsonProofs GraphJson GraphJsonProofs Js Builder JsYield JsManip Handlers Hot HotSpec HotDirtyProofs HotSchedProofs HotSchedMain HotTermProofs HotMain HotGraphs HotGraphsProofs HotResultSpec HotResultProofs HotWantSpec HotWantProofs
  Cold ColdSpec ColdProofs ColdMain ColdHistory Project ProjectSpec ProjectPaths ProjectFiles ProjectMain ProjectHistory ProjectSite ProjectSiteProofs DevStart DevStartSpec DevStartProofs DevStartSite FolderSpec FolderProofs Dev DevSpec DevProofs Watch WatchSpec WatchMain WatchProofs SessionSpec.
From Coq Require Import String ZArith NArith Bool List Relations Lia.
Import ListNotations.
Open Scope list_scope.

(** * What the builds of an unfinished run change *)
Section Damage.
Context (build : bool -> str -> fs -> option build_result) (dev : bool) (e : env).
Notation bld := (build dev).
Definition damaged (s0 s : fs) : Prop := forall q, s q = s0 q \/ exists f d r, In f (e_orig e) /\ d f <> None /\ bld f d = Some r /\ In q (b_outputs r).
Lemma execute_damaged s0 f s : In f (e_orig e) -> disk s f <> None -> damaged s0 (disk s) -> damaged s0 (disk (execute bld f s)).
Proof.
  intros Hf Hd H q. unfold execute. destruct (bld f (disk s)) as [r|] eqn:E; cbn [disk]; [|apply H]. destruct (in_dec str_eq_dec q (b_outputs r)) as [X|X]; [right; exists f, (disk s), r; auto|].
  rewrite (apply_other r (disk s) q X). apply H.
Qed.
Lemma steps_damaged s0 s : steps bld e s0 s -> (forall s1, steps bld e s0 s1 -> incl (pending s1) (e_orig e)) -> (forall f, In f (e_orig e) -> disk s0 f <> None) -> damaged (disk s0) (disk s).
Proof.
  intros H. induction H as [s|s s1 s2 H1 IH H2]; intros Hp He; [intros q; auto|]. specialize (IH Hp He). inversion H2 as [sa sb P1 P2 E| |sa f F1 F2|sa fs sb P1 P2 P3 P4 E|]; subst.
  - unfold schedule in E. destruct (pass _ _ _ _ _ _ _) as [[[ready po] pa]|]; [|discriminate]. destruct ready; [destruct (pending s1); [discriminate|]|]; injection E as <-; exact IH.
  - pose proof (Hp s1 H1 f F1) as Hf. apply execute_damaged; [exact Hf| |exact IH]. apply (steps_stay bld e s s1 H1). apply He, Hf.
  - destruct (collect_kept _ _ _ _ E) as (C1 & _). cbn [with_phase disk]. rewrite C1. exact IH.
Qed.
Lemma wind_damaged s0 s s' : winds_down build dev s s' -> incl (pending s) (e_orig e) -> (forall f, In f (e_orig e) -> disk s f <> None) -> damaged s0 (disk s) -> damaged s0 (disk s').
Proof.
  intros H. induction H as [s Hd|s f s' Hf Hx H IH]; intros Hp He HD; [exact HD|]. apply IH.
  - unfold execute. destruct (bld f (disk s)); exact Hp.
  - intros g Hg. apply execute_stays. apply He, Hg.
  - apply execute_damaged; [apply Hp, Hf|apply He, Hp, Hf|exact HD].
Qed.
End Damage.

Section Session.
Context (float_parse : str -> option Z) (float_repr : Z -> str).
Context (Hnum : forall x, is_num (float_repr x)) (Hinv : forall x, float_parse (float_repr x) = Some x).
Context (sha : str -> str) (c : constants) (K : setting) (stat : fs -> str -> option fsig) (debounce : Z).
Context (Hstat : stat_ok stat) (Hdet : stat_detects stat) (Hconst : in_src (c_relpath c) = true) (Hcwd : starts_with (lit "/") (k_cwd K) = true) (Hcss : exists r, k_css K = lit "src/public/" ++ r /\ starts_with (lit "/") r = false).
Notation build := (fun dev => file_build sha c dev K).
Notation scan := (scan_no_placeholders c K).
Notation builds := (builds sha c K stat).
Notation completes := (completes float_parse float_repr build scan stat (c_relpath c)).
Notation raises := (raises float_parse build scan stat (c_relpath c)).
Notation dev_start := (dev_start float_parse float_repr build scan stat (c_relpath c)).
Notation rebuilds := (rebuilds float_parse float_repr build scan stat (c_relpath c)).
Notation fails_early := (fails_early float_parse scan stat (c_relpath c)).
Notation fails_building := (fails_building float_parse build scan stat (c_relpath c)).
Notation crashes := (crashes float_parse stat).
Notation handed_over := (handed_over float_parse stat).
Notation read_project := (read_project float_parse).
Notation session := (session float_parse float_repr sha c K stat debounce).
Notation just_completed := (just_completed float_parse float_repr sha c K stat).
Notation watched := (watched sha c K stat).
Notation batched := (batched stat).
Notation inv := (inv float_parse sha c K stat debounce).

(** the constants are not scanned again because of the mode *)
Lemma inv_mode broken last w h d now b h' p changed added deleted changed1 mode1 : inv broken last w h d -> take debounce now h = Some (b, h') -> handed_over d b p changed added deleted -> 
  mode_step (c_relpath c) true (stat (p_fs p)) (p_fs p) (p_mode p) changed added = Ret (changed1, mode1) -> b_created b = [] -> added = [] /\ changed1 = changed /\ mode1 = if d_fs d (c_relpath c) then Some (mode_name true) else None.
Proof.
  intros HI Ht HH Hm Hc. pose proof (inv_batched float_parse sha c K stat debounce Hstat _ _ _ _ _ _ _ _ _ _ _ _ HI Ht HH) as (C1 & C2 & C3 & C4 & N1 & N2). destruct HI as (p' & R & HW & _ & Hk & Hh & Hn & Ha & Hu & Hmo). pose proof HH as (_ & R' & Id & o1 & o2 & I1 & I2 & S1 & S2). rewrite R in R'. injection R' as <-. destruct (read_fs _ _ _ R) as (Ef & _).
  assert (Ea : added = []). { rewrite Hc in I2. destruct o2 as [|x o2]; [cbn in S2; injection S2 as <-; reflexivity|]. destruct (proj1 (proj2 I2 x) (or_introl eq_refl)). }
  split; [exact Ea|]. destruct (mode_step_cases _ _ _ _ _ _ _ _ _ Hm) as (E & [(E1 & _)|(g & x & M1 & M2 & M3 & _ & M5 & _)]); [rewrite Ef in E; auto|]. exfalso. apply M3. rewrite Hmo; [rewrite <- Ef, M1; reflexivity|].
  intros T. destruct (batch_right _ _ _ _ _ _ Hh Ht (c_relpath c)) as (B1 & B2 & B3). destruct (signatures_get _ _ _ _ S1 (NoDup_nil _)) as (_ & Hs & G1).
  assert (Nt : now_there w (c_relpath c) = true) by (rewrite Hn, <- Ef; apply there_true; split; [exact Hconst|congruence]).
  destruct (at_build w (c_relpath c)) eqn:A; [|rewrite Hc in B1; exact (proj2 B1 (conj eq_refl Nt))].
  apply M5. eapply dget_Some_key. apply G1. left. split; [apply I1, B3; auto|exact M2].
Qed.
(** what such a rebuild leaves *)
Lemma building_spoils last w h d now b h' d1 : inv True last w h d -> take debounce now h = Some (b, h') -> b_created b = [] -> fails_building d b d1 ->
  exists p, read_project d = Some p /\ d1 = mkStored (d_config d) (d_fs d1) (if d_fs d (c_relpath c) then Some (mode_name true) else None) (d_D d) (d_O d) (d_P d) /\ forall r, d_fs d1 (www r) = d_fs d (www r) \/ spoilt True w p (www r).
Proof.
  intros HI Ht Hc HR. destruct HR as [p changed added deleted changed1 mode1 fuel t full e m order s s1 s2 x HH Hm _ Hs Hp O1 O2 T1 T2 W]. pose proof HH as (_ & R & _). exists p. split; [exact R|].
  destruct (inv_mode _ _ _ _ _ _ _ _ _ _ _ _ _ _ HI Ht HH Hm Hc) as (-> & -> & ->). split; [reflexivity|]. cbn [d_fs].
  pose proof (inv_batched float_parse sha c K stat debounce Hstat _ _ _ _ _ _ _ _ _ _ _ _ HI Ht HH) as HB.
  destruct HI as (p' & R' & HW & _ & Hk & Hh & Hn & Ha & Hu & _). rewrite R in R'. injection R' as <-. destruct (read_fs _ _ _ R) as (Ef & _).
  destruct (w_scanned sha c K stat Hstat Hconst _ true true last p HW changed [] deleted HB changed _ fuel t full Hm Hs) as (F1 & F2 & F3 & F4 & F5 & F6). pose proof HB as (C1 & _ & _ & C4 & _).
  destruct HW as (G & Hsrc & _). pose proof G as (HG & _ & Hcor & _ & Hsn).
  destruct (prepared _ _ _ _ _ _ _ _ HG Hp) as (_ & _ & _ & _ & _ & _ & P1 & P2 & _). rewrite scans_of_keys in P1, P2.
  assert (Hfull : forall f, In f (dkeys full) <-> In f (dkeys changed)) by (intros f; rewrite F5; cbn; tauto).
  assert (Hseed : forall f, affected (p_D p) (p_P p) (dkeys full) deleted f -> exists x, at_build w x = true /\ (now_there w x = false \/ touched w x) /\ clos_refl_trans str (used_by (p_D p) (p_P p)) x f).
  { intros f (y & Hy & Hrt). exists y. destruct HH as (_ & _ & Id & o1 & o2 & I1 & _ & S1 & _). destruct (batch_right _ _ _ _ _ _ Hh Ht y) as (_ & B2 & B3). destruct Hy as [Hy|Hy].
    - apply Hfull, In_dkeys_dget in Hy. destruct Hy as (z & Hy). destruct (signatures_get _ _ _ _ S1 (NoDup_nil _)) as (_ & _ & G1). apply G1 in Hy. destruct Hy as [(Hy & _)|(_ & X)]; [|discriminate]. apply I1, B3 in Hy. tauto.
    - apply Id, B2 in Hy. tauto. }
  assert (Hin : forall f, In f (e_orig e) -> In f (dkeys (p_D p)) /\ d_fs d f <> None).
  { intros f Hf. apply P1 in Hf. destruct Hf as (Hf & Hnd). assert (X : In f (dkeys (p_D p))).
    { destruct (affected_known _ _ _ _ _ _ HG Hf) as [X|[X|X]]; [|contradiction|exact X]. apply Hfull, In_dkeys_dget in X. destruct X as (z & X). apply C1 in X. tauto. }
    split; [exact X|]. rewrite <- Ef. intros Y. apply Hnd, C4. auto. }
  assert (Hout : forall q, In q (e_dirty_out e) -> in_src q = true -> False).
  { intros q Hq Iq. apply P2 in Hq. destruct Hq as (_ & f & _ & Hd). destruct (good_output sha c K _ _ _ _ _ f q G Hd) as (r & ->). discriminate. }
  assert (Hstart : forall f, In f (e_orig e) -> disk (init_sched e order m (sc_fs t)) f <> None).
  { intros f Hf. cbn [init_sched disk]. rewrite fs_del_all, F1. destruct (mem f (e_dirty_out e)) eqn:M; [|rewrite Ef; apply Hin, Hf]. apply mem_In in M. destruct (Hout f M). apply Hsrc, Hin, Hf. }
  assert (Hpend : forall s3, steps (build true) e (init_sched e order m (sc_fs t)) s3 -> incl (pending s3) (e_orig e)).
  { intros s3 H3 f Hf. destruct (start_SO (build true) _ _ _ _ _ _ _ _ HG Hp order (sc_fs t) O1 O2 s3 H3) as (I & _). apply (si_all _ _ _ _ I). auto. }
  assert (E1 : s1 = s) by (inversion T2; reflexivity). subst s1.
  assert (HD : damaged build true e (disk (init_sched e order m (sc_fs t))) (disk s2)).
  { apply (wind_damaged build true e _ s s2 W); [apply Hpend, T1|intros f Hf; apply (steps_stay _ _ _ _ T1), Hstart, Hf|]. apply steps_damaged; assumption. }
  intros r. destruct (HD (www r)) as [X|(f & d2 & r2 & Hf & Hd2 & Hb & Ho)].
  - rewrite X. cbn [init_sched disk]. rewrite fs_del_all, F1, Ef. destruct (mem (www r) (e_dirty_out e)) eqn:M; [right|auto]. apply mem_In, P2 in M. destruct M as (_ & f & Hf & Hd). split; [exact I|]. destruct (Hseed f Hf) as (y & Y1 & Y2 & Y3). exists y, f. auto.
  - right. split; [exact I|]. destruct (Hseed f) as (y & Y1 & Y2 & Y3); [apply P1, Hf|]. exists y, f. split; [exact Y1|]. split; [exact Y2|]. split; [exact Y3|].
    destruct Hcor as (_ & L2). destruct (L2 f (proj1 (Hin f Hf))) as (rs & ws & Wt & A & _). apply A. destruct (file_follows sha c true K Hcss f d2 r2 Hb Hd2) as (rs2 & ws2 & Wt2 & A2 & _). rewrite (names_same sha c true K f _ _ _ _ _ _ Wt Wt2). apply A2, Ho.
Qed.
Lemma inv_broke last w h d now b h' d1 : inv True last w h d -> take debounce now h = Some (b, h') -> b_created b = [] -> fails_building d b d1 -> inv True last w (failed (now_there w) b h') d1.
Proof.
  intros HI Ht Hc HR. destruct (building_spoils _ _ _ _ _ _ _ _ HI Ht Hc HR) as (p & R & -> & Hsp). apply (inv_failure float_parse sha c K stat debounce Hconst _ _ _ h _ now _ _ p); [exact HI|exact R|exact Ht| |exact Hsp].
  intros q Hq. apply (building_outside float_parse sha c K stat debounce _ _ _ _ _ _ _ HI HR). destruct (below_out q) eqn:E; [|reflexivity]. exfalso. apply below_in in E. destruct E as (y & ->). discriminate Hq.
Qed.
Theorem session_inv last w h d : session last w h d -> inv True last w h d.
Proof.
  induction 1 as [dev0 last0 d0 d now HF Hn HS|last w h d e s cfg now H IH Hp He|last w h d now b h' d1 H IH Hn Ht HR|last w h d now b h' d1 H IH Ht HR|last w h d now b h' d1 H IH Ht Hc HR].
  - eapply (inv_started float_parse float_repr Hnum Hinv sha c K stat debounce Hstat Hdet Hconst Hcwd Hcss); eassumption.
  - apply inv_edited; assumption.
  - eapply (inv_rebuilt float_parse float_repr Hnum Hinv sha c K stat debounce Hstat Hdet Hconst Hcwd Hcss); eassumption.
  - eapply inv_early; eassumption.
  - eapply inv_broke; eassumption.
Qed.
(** * After a completed rebuild, and while nothing happens *)
Lemma nothing_unspoilt last w h d : inv True last w h d -> nothing_since w -> inv False last w h d.
Proof.
  intros HI N. pose proof (nothing_sources _ _ _ _ _ _ _ _ _ _ _ HI N) as Hs. destruct HI as (p & R & (G & S & M & Q & C) & Sp & Hk & Hh & Hn & Ha & Hr). exists p. split; [exact R|]. split; [|split; [exact Sp|]; split; [exact Hk|]; split; [exact Hh|]; split; [exact Hn|]; split; [exact Ha|exact Hr]].
  split; [exact G|]. split; [exact S|]. split; [exact M|]. split; [|exact C]. intros r. destruct (Q r) as [X|(_ & x & f & A & [B|B] & _)]; [auto| |destruct (N x B)]. exfalso. rewrite Hn in B. rewrite Ha in A. unfold there in *. destruct (in_src x) eqn:I; [|discriminate]. rewrite (Hs x I) in B. congruence.
Qed.
(** * A build command after the session *)
Theorem session_built last w h d dev d1 s r p1 : session last w h d -> really_edited last w d -> named d -> completes dev d d1 -> emptied d s -> builds dev (unbuilt s) r p1 -> forall q, d_fs d1 (www q) = p_fs p1 (www q).
Proof.
  intros H He0 Hn HC He HB. apply session_inv in H. destruct H as (p & R & HW & _ & Hk & _ & Hw & Ha & _). destruct (read_fs _ _ _ R) as (Ef & _). destruct (first_good sha c K stat Hstat Hdet Hconst Hcwd Hcss _ _ _ _ _ Hn He HB) as (G2 & K2 & E2).
  assert (X : exists r2 p2, builds dev p r2 p2 /\ p_fs p2 = d_fs d1) by (inversion HC as [p' p2 C1 C2 C3|p' r2 p2 C1 C2 C3]; subst; rewrite R in C2; injection C2 as <-; eauto). destruct X as (r2 & p2 & B2 & <-).
  destruct (watched_cold sha c K stat Hstat Hdet Hconst Hcwd Hcss _ true last p dev r2 p2 HW) as (G1 & (K1 & _) & E1); [|rewrite Ef; intros f A B; apply (Hn f A B)|exact B2|].
  - intros o (_ & x & f & A & B & Hrt & Hd). rewrite Ha in A. apply there_true in A. destruct A as (A1 & A2). exists x, f. split; [apply Hk; auto|]. split; [|auto]. rewrite Ef. destruct B as [B|B]; [|apply He0; assumption].
    rewrite Hw in B. unfold there in B. rewrite A1 in B. destruct (d_fs d x); [discriminate|]. congruence.
  - apply (good_same sha c K _ _ _ _ _ _ _ _ _ G1 G2 K1 K2). intros f If. rewrite (E2 f If), <- Ef. apply E1. apply in_src_not_out, If.
Qed.
End Session.
