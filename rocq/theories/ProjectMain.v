(** A rebuild of a project leaves a correct out folder. *)
From Verif Require Import Base Graph GraphSpec GraphProofs PyStr PyPath PyNorm PyNormProofs PathSpec Js Builder JsYield JsManip JsManipSpec JsPathProofs Handlers Hot HotSpec HotSchedProofs HotSchedMain HotMain HotGraphs HotGraphsProofs HotResultSpec HotResultProofs HotWantSpec HotWantProofs Project ProjectSpec ProjectPaths ProjectEdit ProjectFiles.
From Coq Require Import String ZArith NArith Bool List Relations Lia.
Import ListNotations.
Open Scope list_scope.

Section Main.
Context (sha : str -> str) (c : constants) (dev dev0 : bool) (K : setting).
Notation want := (file_want sha c dev K).
Notation want0 := (file_want sha c dev0 K).
Notation build := (file_build sha c dev K).
Context (Hcwd : starts_with (lit "/") (k_cwd K) = true) (Hcss : exists r, k_css K = lit "src/public/" ++ r /\ starts_with (lit "/") r = false).
Context (stat : fs -> str -> option fsig)
  (D O P : graph) (scans : dict scan_result) (newph : dict str) (changed added_ : dict fsig) (deleted : list str) (fs0 : fs)
  (e : env) (l : build_log) (fs1 : fs) (D1 O1 P1 : graph).
Context (HG : project_graphs D O P).
Context (HR : hot_rebuild build stat D O P scans newph changed added_ deleted fs0 e l fs1 D1 O1 P1).
Context (fs_old : fs) (Hold : correct want0 D O fs_old) (Hall : all_recorded O fs_old) (Hed : edits c K D O P scans deleted fs_old fs0).
Notation hit := (hit D P scans deleted).
Notation dirt := (dirt D O P scans deleted).
Notation unf := (unfolded build stat D O P scans newph changed added_ deleted fs0 e l fs1 D1 O1 P1 HG HR).
Notation after := (graphs_after build stat D O P scans newph changed added_ deleted fs0 e l fs1 D1 O1 P1 HG HR).

Lemma hit_known f : hit f -> In f (dkeys D) \/ In f (dkeys scans) \/ In f deleted.
Proof.
  intros (s & Hs & Hr). apply clos_rt_rtn1 in Hr. destruct Hr as [|y z Hyz _]; [tauto|]. left. destruct HG as (_ & _ & _ & _ & G5).
  destruct Hyz as [H|H]; apply depends_ch in H; [eapply ch_key; exact H|apply G5; eapply ch_key; exact H].
Qed.
Lemma known f : In f (dkeys D) \/ hit f -> source_name f.
Proof. intros [H|H]; apply (ed_names _ _ _ _ _ _ _ _ _ Hed); [left; exact H|]. apply hit_known in H. tauto. Qed.
Lemma known_after f : In f (dkeys D1) -> source_name f /\ ~ In f deleted.
Proof. intros H. destruct after as (_ & _ & _ & _ & K1 & _). apply K1 in H. split; [apply known; tauto|tauto]. Qed.
Lemma entry f d r : In (f, d, r) l -> hit f /\ ~ In f deleted /\ build f d = Some r.
Proof.
  intros Hi. destruct unf as (start & _ & S2 & _ & S4 & _). destruct (in_split _ _ Hi) as (l1 & l2 & El). destruct (log_ok_order _ _ _ _ _ S2 _ _ _ _ _ El) as (_ & Hb & _).
  apply in_names, S4 in Hi. tauto.
Qed.
Lemma source_at f d r p : In (f, d, r) l -> is_out p = false -> d p = fs0 p.
Proof.
  intros Hi Hp. destruct (in_split _ _ Hi) as (l1 & l2 & El).
  apply (at_build build stat D O P scans newph changed added_ deleted fs0 e l fs1 D1 O1 P1 HG HR l1 f d r l2 p El).
  - intros (g & _ & X). destruct Hold as (L1 & L2). destruct (L2 g (L1 g p X)) as (rs & ws & W & A & _). apply A, in_fst in X. destruct X as (x & X). pose proof (proj2 (file_outputs_out sha c dev0 K g fs_old rs ws W) p x X). congruence.
  - intros (g & d2 & r2 & Hi2 & X). destruct (entry g d2 r2 Hi2) as (_ & _ & Hb). assert (Y : In p (b_outputs r2)) by (unfold b_outputs; apply in_or_app; left; exact X).
    pose proof (file_writes_out sha c dev K g d2 r2 p Hb Y). congruence.
Qed.
Lemma there f : hit f -> ~ In f deleted -> fs0 f <> None.
Proof. intros H Hd. apply (ed_there _ _ _ _ _ _ _ _ _ Hed); [|exact Hd]. apply hit_known in H. tauto. Qed.
Lemma present f d r : In (f, d, r) l -> d f = fs0 f /\ d f <> None.
Proof.
  intros Hi. destruct (entry f d r Hi) as (Hh & Hd & _). assert (E : d f = fs0 f) by (eapply source_at; [exact Hi|apply source_not_out, known; auto]). split; [exact E|]. rewrite E. apply there; assumption.
Qed.
Lemma reports f d r : In (f, d, r) l -> exists rs ws, want f d = Some (rs, ws) /\ forall o, In o (b_outputs r) <-> In o (map fst ws).
Proof.
  intros Hi. destruct (entry f d r Hi) as (_ & _ & Hb). destruct (file_follows sha c dev K Hcss f d r Hb (proj2 (present f d r Hi))) as (rs & ws & W & A & _). eauto.
Qed.
(** the wanted, recorded or reported outputs of a file are its own *)
Lemma want_has f s rs ws o b : source_name f -> file_want sha c b K f s = Some (rs, ws) -> In o (map fst ws) -> has f o.
Proof.
  intros Hf W Ho. split; [exact Hf|]. destruct (owned sha c b K f s rs ws o Hf W Ho) as (q & _ & _ & E & _ & Eo). destruct (below_targets q) as (T1 & T2). rewrite <- E in T1, T2. rewrite T1, T2. destruct Eo as [-> | ->]; auto.
Qed.
Lemma recorded_has f o : depends O f o -> In f (dkeys D) /\ has f o.
Proof.
  intros H. destruct Hold as (L1 & L2). pose proof (L1 f o H) as Hf. destruct (L2 f Hf) as (rs & ws & W & A & _). split; [exact Hf|]. eapply want_has; [apply known; auto|exact W|]. apply A. exact H.
Qed.
Lemma reported_has f o : reported_by l o f -> has f o.
Proof.
  intros (d & r & Hi & Ho). destruct (reports f d r Hi) as (rs & ws & W & A). eapply want_has; [apply known; right; eapply entry; exact Hi|exact W|]. apply A. exact Ho.
Qed.
(** the owner of a generated file that is there during a build *)
Lemma at_time l1 f d r l2 o : l = l1 ++ (f, d, r) :: l2 -> d (www o) <> None -> exists x, has x (www o) /\ (depends O x (www o) /\ ~ hit x \/ reported_by l1 (www o) x).
Proof.
  intros El H. destruct (d (www o)) as [v|] eqn:E; [clear H|contradiction]. destruct unf as (start & S1 & S2 & _ & _ & HB & _). destruct (log_ok_order _ _ _ _ _ S2 _ _ _ _ _ El) as (_ & _ & Ed). rewrite Ed in E.
  pose proof S2 as S2'. rewrite El in S2'. apply log_ok_app in S2'. destruct S2' as (S2' & _). destruct (replay_value build e l1 [] start _ v S2' E) as [V|(g & d2 & r2 & Hg & Hp)].
  - rewrite S1 in V. destruct (mem (www o) (e_dirty_out e)) eqn:M; [discriminate|]. apply mem_false in M. destruct (ed_out _ _ _ _ _ _ _ _ _ Hed o) as [Eo|Eo]; [|exfalso; apply M, HB; split; [intros (y & Z); discriminate Z|exact Eo]]. destruct (Hall o) as (x & Hx); [rewrite <- Eo; congruence|]. exists x. split; [apply recorded_has; exact Hx|left]. split; [exact Hx|].
    intros Hh. apply M, HB. split; [intros (y & X); discriminate X|exists x; auto].
  - assert (R : reported_by l1 (www o) g). { exists d2, r2. split; [exact Hg|]. unfold b_outputs. apply in_or_app. left. eapply fst_in; exact Hp. }
    exists g. split; [|right; exact R]. apply reported_has. destruct R as (d3 & r3 & R1 & R2). exists d3, r3. split; [rewrite El; apply in_or_app; left; exact R1|exact R2].
Qed.
Lemma scans_has g sc o : In (g, sc) scans -> In o (s_produces sc) -> has g o.
Proof.
  intros Hi Ho. assert (Sg : source_name g) by (apply (ed_names _ _ _ _ _ _ _ _ _ Hed); right; left; eapply fst_in; exact Hi). apply (ed_scans _ _ _ _ _ _ _ _ _ Hed) in Hi. unfold file_scan in Hi. split; [exact Sg|].
  assert (T : forall o, In o (produces (copy_scan g)) \/ In o (produces (hash_scan g)) -> copy_target g = Some o \/ hash_target g = Some o).
  { clear. intros o H. unfold copy_scan, hash_scan in H. destruct H as [H|H]; [destruct (copy_target g) as [t|] eqn:E; [left|]|destruct (hash_target g) as [t|] eqn:E; [right|]]; cbn in H; try contradiction; destruct H as [<-|[]]; reflexivity. }
  assert (Te : edited_scan c K g fs0 = Some sc -> copy_target g = Some o \/ hash_target g = Some o).
  { unfold edited_scan. destruct (edit_file c K true g fs0) as [[[x seen] y]|]; [|discriminate]. intros X. injection X as <-. cbn [s_produces] in Ho. apply in_app_or in Ho. auto. }
  destruct (scan_with (c_relpath c) g); try discriminate; [|unfold page_scan in Hi; destruct (copy_target g) eqn:E; [exact (Te Hi)|injection Hi as <-; destruct Ho]|exact (Te Hi)|exact (Te Hi)|].
  - unfold constants_scan in Hi. destruct (negb (str_eqb g (c_relpath c))); [injection Hi as <-; destruct Ho|]. destruct (copy_target g) as [t|] eqn:E; [|discriminate]. injection Hi as <-.
    destruct (source_targets g Sg) as [(q & _ & _ & Eg & _)|(N1 & _)]; [|congruence]. destruct (below_targets q) as (T1 & T2). rewrite <- Eg in T1, T2. rewrite T1 in E. injection E as <-. destruct Ho as [<-|[<-|[]]]; [left; reflexivity|right; exact T2].
  - injection Hi as <-. cbn [s_produces copy_and_hash_scan produces] in Ho. apply in_app_or in Ho. auto.
Qed.
Lemma scans_out g sc o : In (g, sc) scans -> In o (s_produces sc) -> is_out o = true.
Proof. intros Hi Ho. destruct (has_form _ _ (scans_has g sc o Hi Ho)) as (q & _ & _ & _ & _ & [-> | ->]); reflexivity. Qed.
(** what a build looks at *)
Lemma looked_edit l1 f d r l2 rs ws o : l = l1 ++ (f, d, r) :: l2 -> edited_build sha c K f d = Some r ->
  match copy_target f, edit_file c K false f d with Some t, Some (out, _, rs) => Some (rs, [(t, out); (t ++ lit ".hash", sha out)]) | _, _ => None end = Some (rs, ws) -> In o rs -> is_out o = true ->
  exists root, depends D1 f root /\ In root (dkeys D1) /\ has root o /\ (depends O root o /\ ~ hit root \/ reported_by l1 o root).
Proof.
  intros El Hb W Ho Hout. assert (Hi : In (f, d, r) l) by (rewrite El; apply in_or_app; right; left; reflexivity).
  destruct (entry f d r Hi) as (Hh & Hdel & _). pose proof (known f (or_intror Hh)) as Sf.
  unfold edited_build in Hb. destruct (copy_target f) as [t|]; [|discriminate]. destruct (edit_file c K false f d) as [[[out ch] rs']|] eqn:Er; [|discriminate]. injection W as -> <-.
  assert (Hc : b_children r = ch). { unfold then_ in Hb. destruct (hash_file_of sha t _) as [b|] eqn:Eh; [|discriminate]. injection Hb as <-. cbn [both b_children]. unfold hash_file_of in Eh. apply make_outputs in Eh. destruct Eh as (_ & -> & _). apply app_nil_r. }
  destruct (edit_outputs c K Hcwd Hcss f d out ch rs o Sf Er Ho Hout) as (Hread & (y & Ey) & Hch). rewrite Ey in Hread. destruct (at_time l1 f d r l2 y El Hread) as (x & Hx & Hsrc). rewrite <- Ey in Hx, Hsrc. exists x.
  destruct after as ((W1 & _) & Hac & _ & _ & K1 & K2 & _). destruct (K2 f d r Hi) as (_ & Er2). destruct (Er2 scans_out) as (R1 & R2 & _). rewrite Hc in R1, R2.
  assert (Hdep : depends D1 f x).
  { destruct Hch as [(Hin & Hown)|(root & Hin & Hroot)].
    - destruct (R2 o Hin Hout) as (z & Hz & Hd). assert (Zh : has z o) by (destruct Hz as [(sc & Z1 & Z2)|Z]; [eapply scans_has; eassumption|apply recorded_has; exact Z]). rewrite (has_one x z o Hx Zh). destruct Hd as [-> |Hd]; [destruct (Hown Zh)|exact Hd].
    - destruct (Hroot x Hx) as (Rout & Re). pose proof (R1 root Hin Rout) as Hd. assert (Hkey : In root (dkeys D1)) by (eapply Inv_ch_closed; [apply Inv_well_formed; exact W1|apply depends_ch; exact Hd]).
      rewrite <- (Re (proj1 (known_after root Hkey))). exact Hd. }
  split; [exact Hdep|]. split; [eapply Inv_ch_closed; [apply Inv_well_formed; exact W1|apply depends_ch; exact Hdep]|]. auto.
Qed.
Lemma looked l1 f d r l2 rs ws o : l = l1 ++ (f, d, r) :: l2 -> want f d = Some (rs, ws) -> In o rs -> is_out o = true ->
  exists root, depends D1 f root /\ In root (dkeys D1) /\ has root o /\ (depends O root o /\ ~ hit root \/ reported_by l1 o root).
Proof.
  intros El W Ho Hout. assert (Hi : In (f, d, r) l) by (rewrite El; apply in_or_app; right; left; reflexivity).
  destruct (entry f d r Hi) as (Hh & Hdel & Hb). pose proof (known f (or_intror Hh)) as Sf. unfold file_want in W. unfold file_build in Hb. destruct (build_with (c_relpath c) f) eqn:Eb; try discriminate.
  - destruct (copy_target f); [|discriminate]. injection W as <- <-. destruct Ho.
  - unfold page_build in Hb. destruct (copy_target f) eqn:E; [|injection W as <- <-; destruct Ho]. apply (looked_edit l1 f d r l2 rs ws o El Hb); [rewrite E; exact W|exact Ho|exact Hout].
  - exact (looked_edit l1 f d r l2 rs ws o El Hb W Ho Hout).
  - exact (looked_edit l1 f d r l2 rs ws o El Hb W Ho Hout).
  - destruct (d f); [|discriminate]. injection W as <- <-. destruct Ho as [<-|[]]. rewrite (source_not_out f Sf) in Hout. discriminate.
Qed.
Lemma looked_after : looks_after want (dirtied_output D O P (dkeys scans) deleted) l.
Proof.
  intros l1 f d r l2 rs ws o El W Ho Hout Ht. destruct (looked l1 f d r l2 rs ws o El W Ho Hout) as (root & Hdep & Hkey & Hhas & [(Hsrc & Hn)|Hsrc]); [|eauto]. exfalso. apply Hn.
  destruct Ht as [(g & Hg & Hgo)|Hw].
  - rewrite <- (has_one g root o (proj2 (recorded_has g o Hgo)) Hhas). exact Hg.
  - apply written_reported in Hw. destruct Hw as (g & Hg). rewrite <- (has_one g root o (reported_has g o Hg) Hhas). destruct Hg as (d2 & r2 & Hg & _). eapply entry. exact Hg.
Qed.
Lemma looked_recorded : looks_recorded want l D1 O1.
Proof.
  intros f d r rs ws o Hi W Ho Hout. destruct (in_split _ _ Hi) as (l1 & l2 & El). destruct (looked l1 f d r l2 rs ws o El W Ho Hout) as (root & Hdep & Hkey & Hhas & Hsrc).
  exists root. split; [exact Hdep|]. destruct after as (_ & _ & _ & _ & K1 & K2 & K3 & _).
  destruct Hsrc as [(Hsrc & Hn)|(d2 & r2 & Hi2 & Ho2)]; unfold depends; [rewrite (proj2 (K3 root Hkey Hn)); exact Hsrc|].
  rewrite (proj1 (K2 root d2 r2 ltac:(rewrite El; apply in_or_app; left; exact Hi2))). exact Ho2.
Qed.
Lemma project_recorded : as_recorded D O P (dkeys scans) deleted fs_old fs0 l.
Proof.
  split; [exact (ed_same _ _ _ _ _ _ _ _ _ Hed)|]. split; [|split; [|intros f Hh Hd; apply there; assumption]].
  { intros f o Ho. destruct (has_form _ _ (proj2 (recorded_has f o Ho))) as (q & _ & _ & _ & _ & Eo). assert (Ew : exists t, o = www t) by (destruct Eo; eauto). destruct Ew as (t & ->). destruct (ed_out _ _ _ _ _ _ _ _ _ Hed t) as [X|X]; [auto|right]. split; [intros (y & Z); discriminate Z|exact X]. }
  intros p g Hr H0. destruct (has_form _ _ (reported_has g p Hr)) as (q & _ & _ & _ & _ & Eo). assert (Ew : exists t, p = www t) by (destruct Eo; eauto). destruct Ew as (t & ->). destruct (ed_out _ _ _ _ _ _ _ _ _ Hed t) as [X|(x & _ & X)]; [apply Hall; rewrite <- X; exact H0|eauto].
Qed.
Lemma project_orderly : orderly want D O P scans deleted l D1 O1.
Proof.
  split; [intros f H; apply source_not_out, known; exact H|]. split; [exact scans_out|]. split; [exact looked_after|]. split; [exact looked_recorded|].
  intros f o Ho Hn (g & Hg & Hgo). exfalso. apply Hn. rewrite (has_one f g o); [exact Hg|apply recorded_has; exact Ho|apply recorded_has; exact Hgo].
Qed.
(** if the mode changed, the constants are scanned again *)
Context (Hmode : dev = dev0 \/ (In (c_relpath c) (dkeys D) -> In (c_relpath c) (dkeys scans) \/ In (c_relpath c) deleted)).
Theorem project_correct : correct want D1 O1 fs1.
Proof.
  eapply (switched_correct want want0 build stat D O P scans newph changed added_ deleted fs0 e l fs1 D1 O1 P1 HG HR fs_old source_name);
  [exact known|apply file_reads_only|apply file_outputs_out|apply file_names_fixed|apply file_follows; exact Hcss|apply file_writes_out|apply file_outputs_out|apply file_names_agree| |exact Hold|exact project_recorded|exact project_orderly].
  intros f s HfD Hh. apply mode_same. destruct Hmode as [E|H]; [right; exact E|left]. intros ->. apply Hh. exists (c_relpath c). split; [apply H, HfD|apply rt_refl].
Qed.
Theorem project_all : all_recorded O1 fs1.
Proof.
  intros r H. destruct (fs1 (www r)) as [v|] eqn:E; [clear H|contradiction]. destruct after as (_ & _ & _ & _ & K1 & K2 & K3 & _).
  destruct (reported_dec l (www r)) as [(g & d & rr & Hi & Hp)|Hnr]; [exists g; unfold depends; rewrite (proj1 (K2 g d rr Hi)); exact Hp|].
  assert (Hnw : ~ written l (www r)) by (intros X; apply Hnr, written_reported; exact X).
  destruct (contents build stat D O P scans newph changed added_ deleted fs0 e l fs1 D1 O1 P1 HG HR (www r) v E) as [V|(f & d & r2 & Hi & Hp)]; [|exfalso; apply Hnw; exists f, d, r2; split; [exact Hi|eapply fst_in; exact Hp]].
  assert (Hx : exists x, depends O x (www r)) by (destruct (ed_out _ _ _ _ _ _ _ _ _ Hed r) as [X|(x & _ & X)]; [apply Hall; rewrite <- X; congruence|eauto]). destruct Hx as (x & Hx). exists x.
  assert (Hnd : ~ dirt (www r)).
  { intros X. destruct unf as (start & S1 & S2 & _ & _ & HB & HC & S5 & _). destruct (S5 (www r)) as (_ & Y). rewrite Y in E by (intros (Z & _); apply HC in Z; destruct Z as ((y & Z) & _); discriminate Z).
    rewrite (replay_untouched build e l [] start (www r) S2 Hnw), S1 in E. destruct (mem (www r) (e_dirty_out e)) eqn:M; [discriminate|]. apply mem_false in M. apply M, HB. split; [intros (y & Z); discriminate Z|exact X]. }
  assert (Hnh : ~ hit x) by (intros X; apply Hnd; exists x; auto). destruct (recorded_has x _ Hx) as (HxD & _).
  assert (Hkey : In x (dkeys D1)) by (apply K1; split; [auto|]; intros X; apply Hnh; exists x; split; [auto|apply rt_refl]). unfold depends. rewrite (proj2 (K3 x Hkey Hnh)). exact Hx.
Qed.
End Main.
