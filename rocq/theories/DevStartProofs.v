(** The first build of the development server leaves the sources alone and recovers. *)
From Verif Require Import Base Graph GraphSpec GraphProofs Json JsonProofs JsonTorn GraphJson GraphJsonProofs Hot HotSpec HotDirtyProofs HotGraphs HotResultSpec HotResultProofs Cold ColdSpec ColdProofs ColdStop DevStart DevStartSpec.
From Coq Require Import String ZArith NArith Bool List Lia.
Import ListNotations.
Open Scope list_scope.

Section Inside.
(** where the builds write *)
Context (inside : str -> bool).
Definition writes_inside (bld : str -> fs -> option build_result) : Prop := forall f s r o, bld f s = Some r -> In o (b_outputs r) -> inside o = true.
Definition recorded_in (gO : graph) : Prop := forall f o, depends gO f o -> inside o = true.
Definition outside (s1 s2 : fs) : Prop := forall q, inside q = false -> s2 q = s1 q.
Section Loop.
Context (bld : str -> fs -> option build_result) (Hw : writes_inside bld) (e : env).
Lemma execute_outside f s : outside (disk s) (disk (execute bld f s)).
Proof.
  intros q Hq. unfold execute. destruct (bld f (disk s)) as [r|] eqn:E; [|reflexivity]. cbn [disk]. unfold apply_build. apply apply_writes_not. intros X. assert (Y : inside q = true); [|congruence]. eapply Hw; [exact E|]. unfold b_outputs. apply in_or_app. left. exact X.
Qed.
Lemma execute_art f s : still_art (execute bld f s) = still_art s.
Proof. unfold execute. destruct (bld f (disk s)); reflexivity. Qed.
Lemma settle_art os : forall so po sa pa so' po' sa' pa', settle e os (so, po, sa, pa) = Ret (so', po', sa', pa') -> incl sa' sa.
Proof.
  induction os as [|o r IH]; intros so po sa pa so' po' sa' pa' H; cbn [settle] in H; [injection H as _ _ <- _; apply incl_refl|].
  unfold settle_one in H. destruct (mem o so); [destruct (sremove o po); [|discriminate]; eapply IH; exact H|]. destruct (mem o sa); [|destruct (mem o (e_dirty_art e)); [destruct (sremove o pa); [|discriminate]|]; eapply IH; exact H].
  destruct (sremove o pa); [|discriminate]. intros x Hx. apply (IH _ _ _ _ _ _ _ _ H) in Hx. apply Base.remove_all_In in Hx. tauto.
Qed.
Lemma collect_kept fs : forall s s', collect e fs s = Ret s' -> disk s' = disk s /\ incl (still_art s') (still_art s).
Proof.
  induction fs as [|f r IH]; intros s s' H; cbn [collect] in H; [injection H as <-; split; [reflexivity|apply incl_refl]|].
  destruct (collect_one e f s) as [s1|] eqn:E; [|discriminate]. destruct (IH _ _ H) as (A & B). unfold collect_one in E. destruct (dget f (executed s)) as [[r1|]|]; try discriminate.
  destruct (reinterpret_children e f (b_children r1) (mapping s) []) as [[m1 cs]|]; [|discriminate]. destruct (settle e _ _) as [[[[so po] sa] pa]|] eqn:Es; [|discriminate]. injection E as <-. cbn [disk still_art] in *. split; [exact A|]. eapply incl_tran; [exact B|]. eapply settle_art; exact Es.
Qed.
Lemma steps_kept s0 s : steps bld e s0 s -> outside (disk s0) (disk s) /\ incl (still_art s) (still_art s0).
Proof.
  intros H. induction H as [s|s s1 s2 H1 (A & B) H2]; [split; [intros q _; reflexivity|apply incl_refl]|].
  assert (X : outside (disk s1) (disk s2) /\ incl (still_art s2) (still_art s1)).
  { inversion H2 as [sa sb P1 P2 E| |sa f F1 F2|sa fs sb P1 P2 P3 P4 E|]; subst.
    - unfold schedule in E. destruct (pass _ _ _ _ _ _ _) as [[[ready po] pa]|]; [|discriminate]. destruct ready; [destruct (pending s1); [discriminate|]|]; injection E as <-; (split; [intros q _; reflexivity|apply incl_refl]).
    - split; [apply execute_outside|rewrite execute_art; apply incl_refl].
    - destruct (collect_kept _ _ _ E) as (C1 & C2). cbn [with_phase disk still_art]. rewrite C1. split; [intros q _; reflexivity|exact C2]. }
  destruct X as (X1 & X2). split; [intros q Hq; rewrite X1, A by exact Hq; reflexivity|eapply incl_tran; eassumption].
Qed.
End Loop.
Lemma dirty_loop_in fuel D gO P : forall files stack outs arts files' outs' arts', dirty_loop fuel D gO P files stack outs arts = Some (files', outs', arts') ->
  (forall o, In o outs' -> In o outs \/ exists f, depends gO f o) /\ (forall o, In o arts' -> In o arts \/ exists f, depends gO f o).
Proof.
  induction fuel as [|n IH]; intros files stack outs arts files' outs' arts' H; [discriminate|]. cbn [dirty_loop] in H. destruct stack as [|f rest]; [injection H as <- <- <-; auto|].
  destruct (push_new (parents_in D f) files rest) as [f1 s1]. destruct (push_new (parents_in P f) f1 s1) as [f2 s2]. destruct (add_dirty (children_in gO f) outs arts) as [o1 a1] eqn:E.
  destruct (add_dirty_spec _ _ _ _ _ E) as (A1 & A2 & _). destruct (IH _ _ _ _ _ _ _ H) as (B1 & B2). split; intros o Ho.
  - destruct (B1 o Ho) as [X|X]; [|auto]. apply A1 in X. destruct X as [X|(X & Y)]; eauto.
  - destruct (B2 o Ho) as [X|X]; [|auto]. apply A2 in X. destruct X as [X|(X & Y)]; eauto.
Qed.
Lemma prepare_in D gO P scans newph deleted e m : prepare D gO P scans newph deleted = Ret (e, m) ->
  (forall o, In o (e_dirty_out e) -> exists f, depends gO f o) /\ (forall o, In o (e_dirty_art e) -> exists f, depends gO f o).
Proof.
  unfold prepare. destruct (reinterpret_scans _ _ _ _) as [[m1 scans1]|]; [|discriminate]. destruct (dirty _ _ _ _ _) as [[[files outs] arts]|] eqn:E; [|discriminate]. intros H. injection H as <- <-. cbn [e_dirty_out e_dirty_art].
  destruct (dirty_loop_in _ _ _ _ _ _ _ _ _ _ _ E) as (A & B). split; intros o Ho; [destruct (A o Ho) as [[]|X]|destruct (B o Ho) as [[]|X]]; exact X.
Qed.
Lemma init_outside e order m s0 : (forall o, In o (e_dirty_out e) -> inside o = true) -> outside s0 (disk (init_sched e order m s0)).
Proof. intros H q Hq. cbn [init_sched disk]. rewrite fs_del_all. destruct (mem q (e_dirty_out e)) eqn:E; [|reflexivity]. apply mem_In, H in E. congruence. Qed.
Lemma unlink_outside l s s' : unlink_all l s = Some s' -> (forall o, In o l -> inside o = true) -> outside s s'.
Proof. intros H Hl q Hq. rewrite (unlink_all_spec _ _ _ H). destruct (mem q l) eqn:E; [|reflexivity]. apply mem_In, Hl in E. congruence. Qed.
Lemma out_trans s1 s2 s3 : outside s1 s2 -> outside s2 s3 -> outside s1 s3.
Proof. intros A B q Hq. rewrite B, A by exact Hq. reflexivity. Qed.

Section Dev.
Context (float_parse : str -> option Z) (float_repr : Z -> str).
Context (build : bool -> str -> fs -> option build_result) (scan : str -> fs -> option scan_full) (stat : fs -> str -> option fsig) (constants : str).
Context (Hw : forall dev, writes_inside (build dev)) (Hp : forall f s x, scan f s = Some x -> f_placeholders x = []).
Notation completes := (completes float_parse float_repr build scan stat constants).
Notation raises := (raises float_parse build scan stat constants).
Notation gives_up := (gives_up build scan stat constants).
Notation dev_start := (dev_start float_parse float_repr build scan stat constants).
Notation read_project := (read_project float_parse).

Lemma wind_outside dev s s' : winds_down build dev s s' -> outside (disk s) (disk s').
Proof. intros H. induction H as [s Hd|s f s' Hf He H IH]; [intros q _; reflexivity|]. eapply out_trans; [apply execute_outside, Hw|exact IH]. Qed.
Lemma scan_fs fuel t acc t' full : scan_loop scan stat fuel t acc = Ret (t', full) -> sc_fs t' = sc_fs t.
Proof.
  revert t acc. induction fuel as [|n IH]; intros t acc H; cbn [scan_loop] in H; [destruct (sc_next t); [injection H as <- _; reflexivity|discriminate]|].
  destruct (sc_next t) as [|f r]; [injection H as <- _; reflexivity|]. destruct (scan_batch scan (f :: r) (sc_fs t) []) as [b|] eqn:Eb; [|discriminate]. destruct (place_batch stat b _) as [t1|] eqn:E; [|discriminate].
  rewrite (IH _ _ H). assert (X : forall g x, In (g, x) b -> f_placeholders x = []).
  { assert (G : forall l acc0 b0, scan_batch scan l (sc_fs t) acc0 = Ret b0 -> (forall g x, In (g, x) acc0 -> f_placeholders x = []) -> forall g x, In (g, x) b0 -> f_placeholders x = []).
    { induction l as [|y l IHl]; intros acc0 b0 Hb Ha; cbn [scan_batch] in Hb; [injection Hb as <-; exact Ha|]. destruct (scan y (sc_fs t)) as [z|] eqn:Ez; [|discriminate]. eapply IHl; [exact Hb|]. intros g x Hi.
      assert (Y : In (g, x) acc0 \/ x = z). { clear -Hi. induction acc0 as [|[k v] a IHa]; cbn [dset] in Hi; [destruct Hi as [Hi|[]]; injection Hi as _ <-; auto|]. destruct (str_eqb y k); [destruct Hi as [Hi|Hi]; [injection Hi as _ <-; auto|left; right; exact Hi]|destruct Hi as [Hi|Hi]; [left; left; exact Hi|destruct (IHa Hi) as [Q|Q]; [left; right; exact Q|auto]]]. }
      destruct Y as [Y| ->]; [eapply Ha; exact Y|eapply Hp; exact Ez]. }
    eapply G; [exact Eb|]. intros g x []. }
  clear -E X. assert (Z : place_batch stat b (mkScanning (sc_fs t) [] (sc_new t) (sc_added t)) = Ret (mkScanning (sc_fs t) [] (sc_new t) (sc_added t))).
  { revert X. clear E. generalize (mkScanning (sc_fs t) [] (sc_new t) (sc_added t)). induction b as [|[g x] b IHb]; intros t0 X; [reflexivity|]. cbn [place_batch]. rewrite (X g x (or_introl eq_refl)). cbn [place_all]. apply IHb. intros g2 x2 Hi. apply (X g2 x2). right. exact Hi. }
  rewrite Z in E. injection E as <-. reflexivity.
Qed.
Lemma gives_up_outside dev p s mode : recorded_in (p_O p) -> gives_up dev p s mode -> outside (p_fs p) s.
Proof.
  intros HO H. destruct H as [| | |files changed added deleted changed1 mode1 fuel t full x N L C M Z S Q _|files changed added deleted changed1 mode1 fuel t full e m order s s1 s2 x N L C M Z S Q O1 O2 T1 T2 W|files changed added deleted changed1 mode1 fuel t full e m order s gone fs1 N L C M Z S Q O1 O2 T1 T2 U V]; try (intros q _; reflexivity).
  - rewrite (scan_fs _ _ _ _ _ S). intros q _. reflexivity.
  - destruct (prepare_in _ _ _ _ _ _ _ _ Q) as (A & _). apply scan_fs in S. cbn [sc_fs] in S. eapply out_trans; [|eapply out_trans; [apply (steps_kept _ (Hw dev) _ _ _ T1)|]].
    + rewrite S. apply init_outside. intros o Ho. apply A in Ho. destruct Ho as (f & Ho). eapply HO; exact Ho.
    + assert (E : s1 = s) by (inversion T2; reflexivity). rewrite <- E. eapply wind_outside. exact W.
  - destruct (prepare_in _ _ _ _ _ _ _ _ Q) as (A & B). apply scan_fs in S. cbn [sc_fs] in S. destruct (steps_kept _ (Hw dev) _ _ _ T1) as (K1 & K2). eapply out_trans; [|eapply out_trans; [exact K1|]].
    + rewrite S. apply init_outside. intros o Ho. apply A in Ho. destruct Ho as (f & Ho). eapply HO; exact Ho.
    + eapply unlink_outside; [exact U|]. intros o Ho. assert (X : In o (still_art s)). { destruct V as [(q & rest & E & _)|[(E & _)|(E & _)]]; [rewrite E; apply in_or_app; left; exact Ho|rewrite <- E; exact Ho|rewrite <- E; exact Ho]. }
      apply K2 in X. cbn [init_sched still_art] in X. apply B in X. destruct X as (f & X). eapply HO; exact X.
Qed.
Lemma cold_outside dev p r p1 : recorded_in (p_O p) -> cold_build (build dev) scan stat constants dev p r p1 -> outside (p_fs p) (p_fs p1).
Proof.
  intros HO H. destruct H as [|files changed added deleted changed1 mode1 fuel t full e l fs1 D1 O1 P1 N L C M Z S Q]; [intros q _; reflexivity|]. cbn [p_fs].
  inversion Q as [e' m order s fs1' inputs D1' O1' P1' E O2 O3 T1 T2 U I1 I2 G]; subst. destruct (prepare_in _ _ _ _ _ _ _ _ E) as (A & B). apply scan_fs in S. cbn [sc_fs] in S. destruct (steps_kept _ (Hw dev) _ _ _ T1) as (K1 & K2). eapply out_trans; [|eapply out_trans; [exact K1|]].
  - rewrite S. apply init_outside. intros o Ho. apply A in Ho. destruct Ho as (f & Ho). eapply HO; exact Ho.
  - eapply unlink_outside; [exact U|]. intros o Ho. apply K2 in Ho. cbn [init_sched still_art] in Ho. apply B in Ho. destruct Ho as (f & Ho). eapply HO; exact Ho.
Qed.

(** *** builds that remove nothing *)
Definition stays (s1 s2 : fs) : Prop := forall q, s1 q <> None -> s2 q <> None.
Lemma writes_stay ws : forall s, stays s (apply_writes ws s).
Proof. induction ws as [|w r IH]; intros s q H; [exact H|]. cbn [apply_writes fold_left]. apply (IH (fs_set (fst w) (snd w) s)). unfold fs_set. destruct (str_eqb _ _); [discriminate|exact H]. Qed.
Lemma execute_stays bld f s : stays (disk s) (disk (execute bld f s)).
Proof. intros q H. unfold execute. destruct (bld f (disk s)) as [r|]; cbn [disk]; [apply writes_stay|]; exact H. Qed.
Lemma steps_stay bld e s0 s : steps bld e s0 s -> stays (disk s0) (disk s).
Proof.
  intros H. induction H as [s|s s1 s2 H1 A H2]; intros q Hq; [exact Hq|]. apply A in Hq. inversion H2 as [sa sb P1 P2 E| |sa f F1 F2|sa fs sb P1 P2 P3 P4 E|]; subst.
  - unfold schedule in E. destruct (pass _ _ _ _ _ _ _) as [[[ready po] pa]|]; [|discriminate]. destruct ready; [destruct (pending s1); [discriminate|]|]; injection E as <-; exact Hq.
  - apply execute_stays. exact Hq.
  - destruct (collect_kept _ _ _ _ E) as (C1 & _). cbn [with_phase disk]. rewrite C1. exact Hq.
Qed.
Lemma wind_stays dev s s' : winds_down build dev s s' -> stays (disk s) (disk s').
Proof. intros H. induction H as [s Hd|s f s' Hf He H IH]; intros q Hq; [exact Hq|]. apply IH, execute_stays. exact Hq. Qed.
Lemma gives_up_stays dev p s mode : (forall f o, ~ depends (p_O p) f o) -> gives_up dev p s mode -> stays (p_fs p) s.
Proof.
  intros HO H. destruct H as [| | |files changed added deleted changed1 mode1 fuel t full x N L C M Z S Q _|files changed added deleted changed1 mode1 fuel t full e m order s s1 s2 x N L C M Z S Q O1 O2 T1 T2 W|files changed added deleted changed1 mode1 fuel t full e m order s gone fs1 N L C M Z S Q O1 O2 T1 T2 U V]; try (intros q Hq; exact Hq).
  - rewrite (scan_fs _ _ _ _ _ S). intros q Hq. exact Hq.
  - destruct (prepare_in _ _ _ _ _ _ _ _ Q) as (A & _). apply scan_fs in S. cbn [sc_fs] in S. intros q Hq. apply (wind_stays _ _ _ W). assert (E : s1 = s) by (inversion T2; reflexivity). rewrite E. apply (steps_stay _ _ _ _ T1). cbn [init_sched disk].
    destruct (e_dirty_out e) as [|o r]; [cbn; rewrite S; exact Hq|]. destruct (A o (or_introl eq_refl)) as (f & X). elim (HO _ _ X).
  - destruct (prepare_in _ _ _ _ _ _ _ _ Q) as (A & B). apply scan_fs in S. cbn [sc_fs] in S. intros q Hq. assert (X : disk s q <> None).
    { apply (steps_stay _ _ _ _ T1). cbn [init_sched disk]. destruct (e_dirty_out e) as [|o r]; [cbn; rewrite S; exact Hq|]. destruct (A o (or_introl eq_refl)) as (f & X). elim (HO _ _ X). }
    assert (G : gone = []). { destruct gone as [|o r]; [reflexivity|]. exfalso. assert (Y : In o (still_art s)) by (destruct V as [(z & rest & E & _)|[(E & _)|(E & _)]]; [rewrite E; left; reflexivity|rewrite <- E; left; reflexivity|rewrite <- E; left; reflexivity]).
      apply (steps_kept _ (Hw dev) _ _ _ T1) in Y. cbn [init_sched still_art] in Y. destruct (B o Y) as (f & Z1). exact (HO _ _ Z1). }
    subst gone. injection U as <-. exact X.
Qed.
(** a build that leaves no mode file does the same when there was none *)
Lemma gives_up_mode dev p s mode : mode = None -> gives_up dev p s mode -> gives_up dev (mkProject (p_fs p) None (p_D p) (p_O p) (p_P p)) s None.
Proof.
  assert (G : forall changed added changed1, mode_step constants dev (stat (p_fs p)) (p_fs p) (p_mode p) changed added = Ret (changed1, None) -> mode_step constants dev (stat (p_fs p)) (p_fs p) None changed added = Ret (changed1, None)).
  { intros changed added changed1. unfold mode_step. destruct (p_fs p constants); [|trivial]. destruct (opt_str_eqb (p_mode p) _) eqn:E; [intros H; injection H as _ H; rewrite H in E; discriminate|]. destruct (negb _ && negb _); [|discriminate]. destruct (stat (p_fs p) constants); discriminate. }
  intros E H. destruct H as [files x N L C|files changed added deleted x N L C M|files changed added deleted changed1 mode1 x N L C M Z S|files changed added deleted changed1 mode1 fuel t full x N L C M Z S Q V|files changed added deleted changed1 mode1 fuel t full e m order a s1 s2 x N L C M Z S Q O1 O2 T1 T2 W|files changed added deleted changed1 mode1 fuel t full e m order a gone fs1 N L C M Z S Q O1 O2 T1 T2 U V]; try subst mode1.
  - apply (up_classify build scan stat constants dev (mkProject (p_fs p) None (p_D p) (p_O p) (p_P p)) files x N L C).
  - rewrite E in M. exact (up_mode build scan stat constants dev (mkProject (p_fs p) None (p_D p) (p_O p) (p_P p)) files changed added deleted x N L C M).
  - exact (up_scan build scan stat constants dev (mkProject (p_fs p) None (p_D p) (p_O p) (p_P p)) files changed added deleted changed1 None x N L C (G _ _ _ M) Z S).
  - exact (up_prepare build scan stat constants dev (mkProject (p_fs p) None (p_D p) (p_O p) (p_P p)) files changed added deleted changed1 None fuel t full x N L C (G _ _ _ M) Z S Q V).
  - exact (up_loop build scan stat constants dev (mkProject (p_fs p) None (p_D p) (p_O p) (p_P p)) files changed added deleted changed1 None fuel t full e m order a s1 s2 x N L C (G _ _ _ M) Z S Q O1 O2 T1 T2 W).
  - exact (up_late build scan stat constants dev (mkProject (p_fs p) None (p_D p) (p_O p) (p_P p)) files changed added deleted changed1 None fuel t full e m order a gone fs1 N L C (G _ _ _ M) Z S Q O1 O2 T1 T2 U V).
Qed.

Definition sane (d : stored) : Prop := forall p, read_project d = Some p -> recorded_in (p_O p).
Lemma read_fs d p : read_project d = Some p -> p_fs p = d_fs d /\ p_mode p = d_mode d.
Proof. unfold DevStart.read_project. destruct (load_graph _ (d_D d)); [|discriminate]. destruct (load_graph _ (d_O d)); [|discriminate]. destruct (load_graph _ (d_P d)); [|discriminate]. intros H. injection H as <-. split; reflexivity. Qed.
Lemma raises_outside dev d d1 : sane d -> raises dev d d1 -> outside (d_fs d) (d_fs d1) /\ d_config d1 = d_config d.
Proof.
  intros HS H. destruct H as [H|H H0|p s mode H H0 H1]; [split; [intros q _; reflexivity|reflexivity]|split; [intros q _; reflexivity|reflexivity]|]. cbn [d_fs d_config]. split; [|reflexivity]. rewrite <- (proj1 (read_fs _ _ H0)). eapply gives_up_outside; [apply HS; exact H0|exact H1].
Qed.
Lemma completes_outside dev d d1 : sane d -> completes dev d d1 -> outside (d_fs d) (d_fs d1) /\ d_config d1 = d_config d.
Proof. intros HS H. destruct H as [p p1 H H0 H1|p r p1 H H0 H1]; cbn [d_fs d_config]; (split; [|reflexivity]); rewrite <- (proj1 (read_fs _ _ H0)); (eapply cold_outside; [apply HS; exact H0|exact H1]). Qed.
Lemma without_read d : read_project (without_out d) = Some (mkProject (fun q => if below_out q then None else d_fs d q) None empty_graph empty_graph empty_graph).
Proof. reflexivity. Qed.
Lemma without_sane d : sane (without_out d).
Proof. intros p H. rewrite without_read in H. injection H as <-. intros f o []. Qed.
Context (Hbelow : forall q, below_out q = true -> inside q = true).
Lemma without_outside d : outside (d_fs d) (d_fs (without_out d)).
Proof. intros q Hq. cbn [without_out d_fs]. destruct (below_out q) eqn:E; [|reflexivity]. apply Hbelow in E. congruence. Qed.
Theorem start_outside d o : sane d -> dev_start d o -> outside (d_fs d) (d_fs (left_by o)).
Proof.
  intros HS H. destruct H as [H|d1 H|d1 H _|d1 d2 H H2|d1 d2 H H2]; cbn [left_by].
  - intros q _. reflexivity.
  - eapply completes_outside; eassumption.
  - eapply raises_outside; eassumption.
  - eapply out_trans; [eapply raises_outside; eassumption|]. eapply out_trans; [apply without_outside|]. eapply completes_outside; [apply without_sane|exact H2].
  - eapply out_trans; [eapply raises_outside; eassumption|]. eapply out_trans; [apply without_outside|]. eapply raises_outside; [apply without_sane|exact H2].
Qed.
End Dev.
End Inside.
(** *** a graph file that is cut off cannot be read *)
Lemma cut_off_fails float_parse float_repr text : (forall x, is_num (float_repr x)) -> cut_off float_repr text -> load_graph float_parse text = None.
Proof.
  intros Hr (g & p & q & W & S & E & Q & ->). cbn [load_graph]. unfold load. apply Inv_well_formed in W.
  destruct (store_prints float_repr Hr g (Inv_entry_safe g W (fun a Ha => S a (proj2 (dmem_In _ _) Ha)))) as (t & Et & Hp).
  assert (J : json_load (p ++ q) = Some (JObj (items float_repr g))) by (rewrite <- E, Et; apply json_load_Prints; [exact Hp|repeat constructor]).
  rewrite (torn p q _ J); [reflexivity|discriminate|exact Q].
Qed.
Lemma torn_unread float_parse float_repr d : (forall x, is_num (float_repr x)) -> torn_graphs float_repr d -> read_project float_parse d = None.
Proof. intros Hr [H|[H|H]]; unfold read_project; rewrite (cut_off_fails float_parse _ _ Hr H); [reflexivity|destruct (load_graph _ (d_D d)); reflexivity|destruct (load_graph _ (d_D d)); [destruct (load_graph _ (d_O d)); reflexivity|reflexivity]]. Qed.
Lemma below_in q : below_out q = true <-> in_out q.
Proof. unfold below_out, in_out. apply starts_with_iff. Qed.
Lemma not_below q : below_out q = false <-> ~ in_out q.
Proof. rewrite <- below_in. destruct (below_out q); split; congruence. Qed.
Lemma records_sane float_parse d : records_out float_parse d -> sane below_out float_parse d.
Proof. intros H p. unfold read_project. destruct (load_graph _ (d_D d)); [|discriminate]. destruct (load_graph _ (d_O d)) as [gO|] eqn:E; [|discriminate]. destruct (load_graph _ (d_P d)); [|discriminate]. intros X. injection X as <-. intros f o Ho. apply below_in. exact (H gO f o E Ho). Qed.
(** *** a build that stops gives up *)
Section Stops.
Context (build : bool -> str -> fs -> option build_result) (scan : str -> fs -> option scan_full) (stat : fs -> str -> option fsig) (constants : str).
Lemma wind_exists dev n : forall s, (length (filter (fun f => negb (dmem f (executed s))) (pending s)) <= n)%nat -> exists s', winds_down build dev s s'.
Proof.
  induction n as [|n IH]; intros s H; destruct (filter (fun f => negb (dmem f (executed s))) (pending s)) as [|f l] eqn:E; try (cbn in H; lia).
  1, 2: exists s; apply wound_down; intros f Hf; destruct (dmem f (executed s)) eqn:Ed; [reflexivity|]; assert (X : In f (filter (fun f => negb (dmem f (executed s))) (pending s))) by (apply filter_In; rewrite Ed; split; [exact Hf|reflexivity]); rewrite E in X; destruct X.
  assert (X : In f (pending s) /\ dmem f (executed s) = false). { assert (X : In f (filter (fun f => negb (dmem f (executed s))) (pending s))) by (rewrite E; left; reflexivity). apply filter_In in X. destruct X as (X & Y). split; [exact X|destruct (dmem f (executed s)); [discriminate|reflexivity]]. }
  destruct X as (X & Y). destruct (IH (execute (build dev) f s)) as (s' & W); [|exists s'; eapply winds_on; eassumption].
  assert (P : pending (execute (build dev) f s) = pending s) by (unfold execute; destruct (build dev f (disk s)); reflexivity). assert (Q : forall g, dmem g (executed (execute (build dev) f s)) = str_eqb g f || dmem g (executed s)).
  { intros g. unfold dmem, execute. destruct (build dev f (disk s)); cbn [executed]; rewrite dget_dset; destruct (str_eqb g f); reflexivity. }
  rewrite P.
  assert (L : forall l0, ((length (filter (fun g => negb (dmem g (executed (execute (build dev) f s)))) l0) <= length (filter (fun g => negb (dmem g (executed s))) l0)) /\ (In f l0 -> length (filter (fun g => negb (dmem g (executed (execute (build dev) f s)))) l0) < length (filter (fun g => negb (dmem g (executed s))) l0)))%nat).
  { induction l0 as [|g l0 (I1 & I2)]; [split; [apply le_n|intros []]|]. cbn [filter]. rewrite (Q g). destruct (str_eqb g f) eqn:Eg.
    - apply str_eqb_eq in Eg. subst g. rewrite Y. cbn [negb orb length]. split; [lia|intros _; lia].
    - cbn [orb]. destruct (negb (dmem g (executed s))); cbn [length]; (split; [lia|]); intros [Z|Z]; try (subst g; rewrite str_eqb_refl in Eg; discriminate); specialize (I2 Z); lia. }
  destruct (L (pending s)) as (_ & L2). specialize (L2 X). rewrite E in L2. cbn [length] in *. lia.
Qed.
Lemma stops_gives_up dev p x : cold_stops (build dev) scan stat constants dev p x -> exists s mode, gives_up build scan stat constants dev p s mode.
Proof.
  intros [files changed added deleted changed1 mode1 fuel t full e m order s s' N L C M Z S Q O1 O2 T1 T2]. destruct (wind_exists dev _ s' (le_n _)) as (s2 & W). exists (disk s2), mode1. exact (up_loop build scan stat constants dev p files changed added deleted changed1 mode1 fuel t full e m order s s' s2 x N L C M Z S Q O1 O2 T1 T2 W).
Qed.
End Stops.
