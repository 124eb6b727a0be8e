(** Scans, builds and whole build commands do the same in folders with the same files. *)
From Verif Require Import Base Graph GraphSpec PyStr PyPath PyNorm PathSpec Json Css CssVersion OutlineData IconManip Nest Html Page Js Builder JsYield JsManip Handlers Hot HotSpec HotGraphs HotResultSpec HotResultProofs HotWantSpec
  Cold ColdSpec ColdProofs Project ProjectSpec ProjectPump ProjectNest ProjectCss ProjectPage ProjectHandlers ProjectRun ProjectEdit ProjectSite ProjectSiteProofs ProjectOrderSite.
From Coq Require Import String ZArith NArith Bool List.
Import ListNotations.
Open Scope list_scope.

Definition same (s1 s2 : fs) : Prop := forall q, s1 q = s2 q.
Lemma same_sym s1 s2 : same s1 s2 -> same s2 s1.
Proof. intros H q. symmetry. apply H. Qed.

Section Pump.
Context {tok S : Type} (ms ms2 : list (manip tok S)) (Hl : length ms = length ms2).
Context (Hs : forall m m2, In (m, m2) (combine ms ms2) -> (forall t a, start_mark m2 t a = start_mark m t a) /\ forall t a, continue_mark m2 t a = continue_mark m t a).
Lemma pump_same f ts a out b : pump ms f ts (new_builder a) = Ret (out, b) -> exists b2, pump ms2 f ts (new_builder a) = Ret (out, b2) /\ b_st b2 = b_st b.
Proof.
  intros H. assert (X : exists b2, pump ms2 f ts (new_builder a) = Ret (out, b2) /\ alike ms ms2 (fun _ _ _ => True) b b2).
  { refine (pump_step ms ms2 (fun _ _ => True) (fun _ => True) (fun _ _ _ => True) (fun _ => I) (fun _ _ _ _ _ => I) (fun _ _ _ _ => I) Hl _ _ f ts _ _ out b H (new_alike _ _ _ _) I).
    - intros m m2 t s Hm. split; [apply (Hs _ _ Hm)|auto].
    - intros m m2 t s r s' Hm _ E. split; [exact I|]. split; [auto|]. intros _. rewrite (proj2 (Hs _ _ Hm)). exact E. }
  destruct X as (b2 & E & (_ & B & _)). eauto.
Qed.
End Pump.

Section Files.
Context (sha : str -> str) (c : constants) (K : setting).
Lemma js_same scan p s s2 o l : same s s2 -> js_run K scan p s = Some (o, l) -> js_run K scan p s2 = Some (o, l).
Proof.
  unfold js_run. intros H. rewrite <- (H p). destruct (s p) as [text|]; [|discriminate]. destruct (js_tokenize text) as [ts|]; [|discriminate]. destruct (pump (js_manips _ _ _ s _ _) _ _ _) as [[out b]|] eqn:E; [|discriminate]. intros X. injection X as <- <-.
  apply (pump_same (js_manips (k_cwd K) (k_folder K) p s (k_type_name K) scan) (js_manips (k_cwd K) (k_folder K) p s2 (k_type_name K) scan) eq_refl) in E; [destruct E as (b2 & -> & ->); reflexivity|].
  intros m m2 [X|[X|[]]]; injection X as <- <-; (split; [reflexivity|]); [reflexivity|]. intros t a. cbn [continue_mark lift_snd yield_manip]. unfold y_continue. cbn [h_send hash_imports]. unfold hi_send, handle_import.
  destruct (fst (snd a)) as [|st|st g|st g]; [reflexivity|reflexivity|reflexivity|]. destruct (is_blank t); [reflexivity|]. destruct (advance g t); [reflexivity| |reflexivity].
  destruct (negb _); [reflexivity|]. destruct (queried _); [reflexivity|]. destruct (JsManip.resolve _ _ _ _) as [root pth]. destruct scan; [reflexivity|]. rewrite (H (hash_file (k_cwd K) root)). reflexivity.
Qed.
Lemma css_same scan p s s2 r : same s s2 -> css_run K scan p s = Some r -> css_run K scan p s2 = Some r.
Proof.
  unfold css_run. intros H. rewrite <- (H p). destruct (s p) as [text|]; [|discriminate]. destruct (tokenize _ _ _ _) as [ts [x|]]; [discriminate|]. destruct (pump (css_manips K p s scan) _ _ _) as [[out b]|] eqn:E; [|discriminate].
  apply (pump_same (css_manips K p s scan) (css_manips K p s2 scan) eq_refl) in E; [destruct E as (b2 & -> & ->); auto|].
  intros m m2 [X|[X|[X|[]]]]; injection X as <- <-; (split; [reflexivity|]); intros t a; cbn [continue_mark lift_fst lift_snd no_icons_or_images nest version_urls]; [|reflexivity|].
  - destruct (get_import (k_css K) t) as [imp|] eqn:Ei; [|unfold nest_continue; rewrite Ei; reflexivity]. rewrite (continue_same _ _ _ _ _ _ s s2 _ _ imp t (fst a) Ei); [reflexivity|symmetry; apply H].
  - unfold v_continue. destruct (value_of t) as [v|]; [|reflexivity]. destruct (CssVersion.hash_path p v) as [h|]; [|reflexivity]. rewrite (H h). reflexivity.
Qed.
Lemma page_same scan p s s2 r : same s s2 -> page_run K scan p s = Some r -> page_run K scan p s2 = Some r.
Proof.
  unfold page_run. intros H. rewrite <- (H p). destruct (s p) as [text|]; [|discriminate]. destruct (pump (page_manips _ _ _ _ s scan) _ _ _) as [[o b]|] eqn:E; [|discriminate]. destruct (t_stack (b_st b)) eqn:Et; [|discriminate]. destruct (existsb _ (links _) || _) eqn:X; [discriminate|].
  pose proof X as X0. apply orb_false_iff in X0. destruct X0 as (X1 & _). destruct (page_reads _ _ _ _ s s2 scan _ _ _ _ _ E) as (b2 & E2 & B2).
  { split; intros x Hx; [|symmetry; apply H]. split; [|symmetry; apply H]. destruct (starts_with (lit "/") x) eqn:Y; [|reflexivity]. assert (T : existsb (starts_with (lit "/")) (links (b_st b)) = true) by (apply existsb_exists; eauto). congruence. }
  rewrite E2, B2, Et, X. auto.
Qed.
Lemma edit_same0 scan p s s2 r : same s s2 -> edit_file c K scan p s = Some r -> edit_file c K scan p s2 = Some r.
Proof.
  unfold edit_file. intros H. destruct (build_with (c_relpath c) p); try discriminate; [apply page_same; exact H|apply css_same; exact H|].
  destruct (js_run K scan p s) as [[o seen]|] eqn:E; [|discriminate]. rewrite (js_same _ _ _ _ _ _ H E). auto.
Qed.
Lemma edit_same scan p s s2 : same s s2 -> edit_file c K scan p s2 = edit_file c K scan p s.
Proof.
  intros H. destruct (edit_file c K scan p s) as [r|] eqn:E; [apply (edit_same0 _ _ _ _ _ H E)|]. destruct (edit_file c K scan p s2) as [r|] eqn:E2; [|reflexivity]. rewrite (edit_same0 _ _ _ _ _ (same_sym _ _ H) E2) in E. discriminate.
Qed.
Lemma make_same write t p s s2 : same s s2 -> make write t p s2 = make write t p s.
Proof. intros H. unfold make. destruct t; [|reflexivity]. rewrite <- (H s0), <- (H p). reflexivity. Qed.
Lemma apply_same r s s2 : same s s2 -> same (apply_build r s) (apply_build r s2).
Proof. intros H q. unfold apply_build. apply writes_ext. exact H. Qed.
Lemma then_same a s s2 next next2 : same s s2 -> (forall d d2, same d d2 -> next2 d2 = next d) -> then_ a s2 next2 = then_ a s next.
Proof. intros H Hn. unfold then_. destruct a as [a|]; [|reflexivity]. rewrite (Hn _ _ (apply_same a _ _ H)). reflexivity. Qed.
Lemma edited_same p s s2 : same s s2 -> edited_build sha c K p s2 = edited_build sha c K p s.
Proof.
  intros H. unfold edited_build. destruct (copy_target p) as [t|]; [|reflexivity]. rewrite (edit_same _ _ _ _ H). destruct (edit_file c K false p s) as [[[o seen] rs]|]; [|reflexivity]. apply then_same; [exact H|]. intros d d2 Hd. apply make_same. exact Hd.
Qed.
Lemma build_same dev f s s2 : same s s2 -> file_build sha c dev K f s2 = file_build sha c dev K f s.
Proof.
  intros H. unfold file_build. destruct (build_with (c_relpath c) f); try reflexivity.
  - unfold constants_file_build. destruct (copy_target f) as [t|]; [|reflexivity]. rewrite <- (H t). apply then_same; [exact H|]. intros d d2 Hd. apply make_same. exact Hd.
  - unfold page_build. destruct (copy_target f); [|reflexivity]. apply edited_same. exact H.
  - apply edited_same. exact H.
  - apply edited_same. exact H.
  - unfold plain_build. rewrite (make_same _ _ _ _ _ H). apply then_same; [exact H|]. intros d d2 Hd. apply make_same. exact Hd.
Qed.
Lemma scan_same f s s2 : same s s2 -> scan_no_placeholders c K f s2 = scan_no_placeholders c K f s.
Proof.
  intros H. unfold scan_no_placeholders, file_scan, page_scan, edited_scan. destruct (scan_with (c_relpath c) f); try reflexivity; rewrite (edit_same _ _ _ _ H); reflexivity.
Qed.
End Files.

Section Steps.
Context (build : str -> fs -> option build_result) (Hb : forall f s s2, same s s2 -> build f s2 = build f s) (e : env).
Definition alike_runs (a b : sched) : Prop := s_phase b = s_phase a /\ todo b = todo a /\ pending b = pending a /\ executed b = executed a /\ results b = results a /\ still_out b = still_out a /\ pend_out b = pend_out a /\
  still_art b = still_art a /\ pend_art b = pend_art a /\ mapping b = mapping a /\ same (disk a) (disk b).
Ltac alike := unfold alike_runs in *; cbn [s_phase todo pending executed results still_out pend_out still_art pend_art mapping disk] in *.
Lemma schedule_same a b a' : alike_runs a b -> schedule e a = Ret a' -> exists b', schedule e b = Ret b' /\ alike_runs a' b'.
Proof.
  intros H. pose proof H as (A1 & A2 & A3 & A4 & A5 & A6 & A7 & A8 & A9 & A10 & A11). unfold schedule. rewrite A2, A3, A5, A6, A7, A9. destruct (pass _ _ _ _ _ _ _) as [[[ready po] pa]|]; [|discriminate].
  destruct ready as [|r0 rr]; [destruct (pending a) as [|p0 pp]; [discriminate|]|]; intros X; injection X as <-; eexists; (split; [reflexivity|]); alike; repeat split; assumption.
Qed.
Lemma execute_same f a b : alike_runs a b -> alike_runs (execute build f a) (execute build f b).
Proof.
  intros H. pose proof H as (A1 & A2 & A3 & A4 & A5 & A6 & A7 & A8 & A9 & A10 & A11). unfold execute. rewrite (Hb f _ _ A11). destruct (build f (disk a)) as [r|]; alike; rewrite A4; repeat split; try assumption. apply apply_same. exact A11.
Qed.
Lemma collect_one_same f a b a' : alike_runs a b -> collect_one e f a = Ret a' -> exists b', collect_one e f b = Ret b' /\ alike_runs a' b'.
Proof.
  intros H. pose proof H as (A1 & A2 & A3 & A4 & A5 & A6 & A7 & A8 & A9 & A10 & A11). unfold collect_one. rewrite A3, A4, A5, A6, A7, A8, A9, A10. destruct (dget f (executed a)) as [[r|]|]; try discriminate. destruct (reinterpret_children _ _ _ _ _) as [[m1 cs]|]; [|discriminate].
  destruct (settle _ _ _) as [[[[so po] sa] pa]|]; [|discriminate]. intros X. injection X as <-. eexists. split; [reflexivity|]. alike. repeat split; assumption.
Qed.
Lemma collect_same fs : forall a b a', alike_runs a b -> collect e fs a = Ret a' -> exists b', collect e fs b = Ret b' /\ alike_runs a' b'.
Proof.
  induction fs as [|f r IH]; intros a b a' H X; cbn [collect] in *; [injection X as <-; eauto|]. destruct (collect_one e f a) as [a1|] eqn:E; [|discriminate]. destruct (collect_one_same _ _ _ _ H E) as (b1 & -> & H1). eapply IH; eassumption.
Qed.
Lemma steps_same a0 a : steps build e a0 a -> forall b0, alike_runs a0 b0 -> exists b, steps build e b0 b /\ alike_runs a b.
Proof.
  intros H. induction H as [s|s s1 s2 H1 IH H2]; intros b0 Hb0; [exists b0; split; [apply steps_refl|exact Hb0]|]. destruct (IH b0 Hb0) as (b1 & S1 & R). pose proof R as (A1 & A2 & A3 & A4 & _).
  inversion H2 as [sa sb P1 P2 E| |sa f F1 F2|sa fs sb P1 P2 P3 P4 E|]; subst.
  - destruct (schedule_same _ _ _ R E) as (b2 & E2 & R2). exists b2. split; [|exact R2]. eapply steps_step; [exact S1|]. apply step_schedule; [congruence|rewrite A2, A3; exact P2|exact E2].
  - exists (execute build f b1). split; [|apply execute_same; exact R]. eapply steps_step; [exact S1|]. apply step_execute; [rewrite A3; exact F1|rewrite A4; exact F2].
  - destruct (collect_same _ _ _ _ R E) as (b2 & E2 & R2). exists (with_phase Scheduling b2). split; [|unfold with_phase; alike; tauto]. eapply steps_step; [exact S1|]. eapply (step_collect build e b1 fs b2); [congruence|exact P2|rewrite A3; exact P3|rewrite A4; exact P4|exact E2].
Qed.
Lemma unlink_same l : forall s s2 s', same s s2 -> unlink_all l s = Some s' -> exists s2', unlink_all l s2 = Some s2' /\ same s' s2'.
Proof.
  induction l as [|p r IH]; intros s s2 s' H X; cbn [unlink_all] in *; [injection X as <-; eauto|]. rewrite <- (H p). destruct (s p); [|discriminate]. eapply IH; [|exact X]. intros q. unfold fs_del. destruct (str_eqb q p); [reflexivity|apply H].
Qed.
End Steps.

Lemma classify_same D sig sig2 files : (forall q, sig2 q = sig q) -> forall deleted changed added, classify D sig2 files deleted changed added = classify D sig files deleted changed added.
Proof.
  intros H. induction files as [|f r IH]; intros deleted changed added; cbn [classify]; [reflexivity|]. rewrite H. destruct (sig f) as [[[z m] i]|]; [|reflexivity]. destruct (contains D f); [|apply IH]. destruct (sremove f deleted); [|reflexivity]. destruct (check_file D f z m i); apply IH.
Qed.
Lemma mode_step_same k dev sig sig2 s s2 mode changed added : (forall q, sig2 q = sig q) -> same s s2 -> mode_step k dev sig2 s2 mode changed added = mode_step k dev sig s mode changed added.
Proof. intros H Hs. unfold mode_step. rewrite <- (Hs k), H. reflexivity. Qed.
Lemma outputs_same sig sig2 : (forall q, sig2 q = sig q) -> forall os g, add_outputs sig2 os g = add_outputs sig os g.
Proof.
  intros H os. induction os as [|o r IH]; intros g; cbn [add_outputs]; [reflexivity|]. destruct (dmem o g); [apply IH|]. rewrite H. destruct (sig o) as [[[z m] i]|]; [|reflexivity]. destruct (lift _); [apply IH|reflexivity].
Qed.
Lemma link_same D gO results sig sig2 : (forall q, sig2 q = sig q) -> forall files g h, link_inputs D gO results sig2 files g h = link_inputs D gO results sig files g h.
Proof.
  intros H files. induction files as [|f r IH]; intros g h; cbn [link_inputs]; [reflexivity|]. destruct (match dget f results with Some b => Ret (b_children b) | None => get_children D f end); [|reflexivity]. destruct (lift _); [|reflexivity].
  rewrite (outputs_same sig sig2 H). destruct (add_outputs sig _ h); [|reflexivity]. destruct (lift _); [apply IH|reflexivity].
Qed.
Lemma graphs_same D gO P changed added deleted results newph sig sig2 inputs : (forall q, sig2 q = sig q) -> new_graphs D gO P changed added deleted results newph sig2 inputs = new_graphs D gO P changed added deleted results newph sig inputs.
Proof.
  intros H. unfold new_graphs. destruct (add_inputs _ _ _ _ _) as [[[a b] d]|]; [|reflexivity]. destruct (keep_outputs _ _ _ _ _) as [[x y]|]; [|reflexivity]. destruct (keep_placeholders _ _ _) as [[z w]|]; [|reflexivity]. destruct (add_placeholders _ _); [|reflexivity]. rewrite (link_same D gO results sig sig2 H). reflexivity.
Qed.

Section Cold.
Context (build : str -> fs -> option build_result) (scan : str -> fs -> option scan_full) (stat : fs -> str -> option fsig) (constants : str) (dev : bool).
Context (Hstat : stat_ok stat) (Hb : forall f s s2, same s s2 -> build f s2 = build f s) (Hs : forall f s s2, same s s2 -> scan f s2 = scan f s) (Hp : forall f s x, scan f s = Some x -> f_placeholders x = []).
Lemma batch_same files s s2 : same s s2 -> forall acc, scan_batch scan files s2 acc = scan_batch scan files s acc.
Proof. intros H. induction files as [|f r IH]; intros acc; cbn [scan_batch]; [reflexivity|]. rewrite (Hs _ _ _ H). destruct (scan f s); [apply IH|reflexivity]. Qed.
Lemma stat_same s s2 : same s s2 -> forall q, stat s2 q = stat s q.
Proof. intros H q. apply (proj1 Hstat). symmetry. apply H. Qed.
Lemma scan_loop_same fuel : forall s s2 nx nw ad acc t full, same s s2 -> (forall g x, In (g, x) acc -> f_placeholders x = []) -> scan_loop scan stat fuel (mkScanning s nx nw ad) acc = Ret (t, full) ->
  sc_fs t = s /\ scan_loop scan stat fuel (mkScanning s2 nx nw ad) acc = Ret (mkScanning s2 (sc_next t) (sc_new t) (sc_added t), full).
Proof.
  induction fuel as [|n IH]; intros s s2 nx nw ad acc t full H Ha X; cbn [scan_loop sc_next sc_fs sc_new sc_added] in *; [destruct nx; [injection X as <- <-; split; reflexivity|discriminate]|].
  destruct nx as [|f r]; [injection X as <- <-; split; reflexivity|]. rewrite (batch_same _ _ _ H). destruct (scan_batch scan (f :: r) s []) as [b|] eqn:Eb; [|discriminate]. destruct (scan_batch_ok scan stat _ _ _ _ Eb) as (B1 & _ & B3). specialize (B3 (NoDup_nil _)).
  assert (Hbp : forall g x, In (g, x) b -> f_placeholders x = []). { intros g x Hi. apply (NoDup_dget _ _ _ B3) in Hi. destruct (B1 g x Hi) as [(_ & Y)|Y]; [eapply Hp; exact Y|discriminate Y]. }
  rewrite place_nothing in X |- * by exact Hbp. eapply IH; [exact H| |exact X].
  intros g x Hi. unfold dupdate in Hi. clear -Hi Ha Hbp. revert acc Ha Hi. induction b as [|[k v] b IHb]; intros acc Ha Hi; cbn [fold_left fst snd] in Hi; [eapply Ha; exact Hi|]. eapply IHb; [intros g2 x2 Y; eapply Hbp; right; exact Y| |exact Hi].
  intros g2 x2 Y. assert (Z : In (g2, x2) acc \/ x2 = v). { clear -Y. induction acc as [|[k0 v0] a IHa]; cbn [dset] in Y; [destruct Y as [Y|[]]; injection Y as _ <-; auto|]. destruct (str_eqb k k0); [destruct Y as [Y|Y]; [injection Y as _ <-; auto|left; right; exact Y]|destruct Y as [Y|Y]; [left; left; exact Y|destruct (IHa Y) as [Q|Q]; [left; right; exact Q|auto]]]. }
  destruct Z as [Z| ->]; [eapply Ha; exact Z|eapply Hbp; left; reflexivity].
Qed.
(** A build command does the same in a folder with the same files. *)
Theorem cold_same p r p1 s2 : cold_build build scan stat constants dev p r p1 -> same (p_fs p) s2 ->
  exists r2 p2, cold_build build scan stat constants dev (mkProject s2 (p_mode p) (p_D p) (p_O p) (p_P p)) r2 p2 /\ same (p_fs p1) (p_fs p2) /\ p_mode p2 = p_mode p1 /\ p_D p2 = p_D p1 /\ p_O p2 = p_O p1 /\ p_P p2 = p_P p1.
Proof.
  intros HB HS. pose proof (stat_same _ _ HS) as Hst. destruct HB as [files mode1 Hn Hl Hc Hm|files changed added deleted changed1 mode1 fuel t full e l fs1 D1 O1 P1 Hn Hl Hc Hm Hne Hsc Hr].
  - eexists _, _. split; [|split; [|split; [|split; [|split]]]]; [eapply (cold_nothing _ _ _ _ _ (mkProject s2 (p_mode p) (p_D p) (p_O p) (p_P p)) files mode1); cbn [p_fs p_mode p_D p_O p_P]| | | | |]; [exact Hn|intros f; rewrite <- (HS f); apply Hl|rewrite (classify_same _ _ _ _ Hst); exact Hc|rewrite (mode_step_same _ _ _ _ _ _ _ _ _ Hst HS); exact Hm|exact HS|reflexivity..].
  - destruct (scan_loop_same _ _ s2 _ _ _ [] _ _ HS (fun _ _ X => False_ind _ X) Hsc) as (E1 & E2). inversion Hr as [e0 m order s fs1' inputs D1' O1' P1' Q1 Q2 Q3 T1 T2 U I1 I2 G]; subst.
    assert (R0 : alike_runs (init_sched e order m (sc_fs t)) (init_sched e order m s2)). { unfold alike_runs. cbn [init_sched s_phase todo pending executed results still_out pend_out still_art pend_art mapping disk]. repeat (split; [reflexivity|]). intros q. rewrite !fs_del_all. destruct (mem q (e_dirty_out e)); [reflexivity|]. rewrite E1. apply HS. }
    destruct (steps_same build Hb e _ _ T1 _ R0) as (b & S1 & R). pose proof R as (A1 & A2 & A3 & A4 & A5 & A6 & A7 & A8 & A9 & A10 & A11). destruct (unlink_same _ _ _ _ A11 U) as (fs2 & U2 & Hf).
    eexists _, (mkProject fs2 mode1 D1 O1 P1). split; [|cbn [p_fs p_mode p_D p_O p_P]; split; [exact Hf|repeat split; reflexivity]].
    eapply (cold_hot _ _ _ _ _ (mkProject s2 (p_mode p) (p_D p) (p_O p) (p_P p)) files changed added deleted changed1 mode1 fuel _ full e (log b)); cbn [p_fs p_mode p_D p_O p_P];
      [exact Hn|intros f; rewrite <- (HS f); apply Hl|rewrite (classify_same _ _ _ _ Hst); exact Hc|rewrite (mode_step_same _ _ _ _ _ _ _ _ _ Hst HS); exact Hm|exact Hne|exact E2|].
    cbn [sc_new sc_added sc_fs]. destruct T2 as (F1 & F2 & F3). eapply (hot_done _ _ _ _ _ _ _ _ _ _ _ e m order b fs2 inputs); [exact Q1|exact Q2|exact Q3|exact S1|unfold finished; rewrite A1, A2, A3; auto|rewrite A8; exact U2|exact I1|intros f; rewrite A5; apply I2|rewrite A5; rewrite (graphs_same _ _ _ _ _ _ _ _ _ _ _ (stat_same _ _ Hf)); exact G].
Qed.
End Cold.
