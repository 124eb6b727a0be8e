(** A rebuild with such builders leaves a correct folder. *)
From Verif Require Import Base Graph GraphSpec GraphProofs Hot HotSpec HotDirtyProofs HotSchedProofs HotSchedMain HotTermProofs HotMain HotGraphs HotGraphsProofs HotResultSpec HotResultProofs HotWantSpec.
From Coq Require Import String ZArith Bool List Relations Lia Permutation.
Import ListNotations.
Open Scope list_scope.

Lemma in_fst {A} (o : str) (l : list (str * A)) : In o (map fst l) -> exists c, In (o, c) l.
Proof. intros H. apply in_map_iff in H. destruct H as ([k c] & E & H). cbn [fst] in E. subst k. exists c. exact H. Qed.
Lemma fst_in {A} (o : str) (c : A) l : In (o, c) l -> In o (map fst l).
Proof. intros H. apply in_map_iff. exists (o, c). auto. Qed.
Lemma one_value {A} (l : list (str * A)) o c c2 : NoDup (map fst l) -> In (o, c) l -> In (o, c2) l -> c = c2.
Proof.
  induction l as [|[k x] t IH]; intros N H H2; [destruct H|]. cbn [map fst] in N. inversion N as [|? ? N1 N2]; subst.
  destruct H as [H|H], H2 as [H2|H2]; [congruence| | |auto]; exfalso; apply N1.
  - injection H as -> ->. eapply fst_in; exact H2.
  - injection H2 as -> ->. eapply fst_in; exact H.
Qed.

Section Want.
Context (want want0 : wants) (build : str -> fs -> option build_result) (stat : fs -> str -> option fsig)
  (D O P : graph) (scans : dict scan_result) (newph : dict str) (changed added_ : dict fsig) (deleted : list str) (fs0 : fs)
  (e : env) (l : build_log) (fs1 : fs) (D1 O1 P1 : graph).
Context (HG : project_graphs D O P).
Context (HR : hot_rebuild build stat D O P scans newph changed added_ deleted fs0 e l fs1 D1 O1 P1).
Context (fs_old : fs) (F : str -> Prop).
Notation hit := (hit D P scans deleted).
Notation dirt := (dirt D O P scans deleted).
Context (HF : forall f, In f (dkeys D) \/ hit f -> F f).
Context (Hro : reads_only want) (Hout : outputs_out want) (Hnames : names_fixed F want) (Hfol : follows want build) (Hwo : writes_out build).
(** before, another thing may have been wanted of the files that are built *)
Context (Hout0 : outputs_out want0) (Hnames0 : names_agree F want want0) (Hagree : forall f s, In f (dkeys D) -> ~ hit f -> want f s = want0 f s).
Context (Hold : correct want0 D O fs_old) (Hrec : as_recorded D O P (dkeys scans) deleted fs_old fs0 l) (Hord : orderly want D O P scans deleted l D1 O1).
Notation unf := (unfolded build stat D O P scans newph changed added_ deleted fs0 e l fs1 D1 O1 P1 HG HR).

Lemma built_hit f d r : In (f, d, r) l -> hit f.
Proof. intros Hi. destruct unf as (start & _ & _ & _ & S4 & _). apply in_names, S4 in Hi. apply Hi. Qed.
Lemma same_entry f d r d2 r2 : In (f, d, r) l -> In (f, d2, r2) l -> d = d2 /\ r = r2.
Proof.
  destruct unf as (start & _ & _ & Hnd & _). clear -Hnd. induction l as [|t u IH]; intros H H2; [destruct H|]. simpl in Hnd. inversion Hnd as [|? ? Hx Hy]; subst.
  destruct H as [->|H], H2 as [E|H2].
  - injection E as -> ->. auto.
  - exfalso. apply Hx. apply in_map_iff. exists (f, d2, r2). auto.
  - exfalso. apply Hx. apply in_map_iff. exists (f, d, r). subst t. auto.
  - auto.
Qed.
Lemma built_from f d r : In (f, d, r) l -> build f d = Some r.
Proof.
  intros Hi. destruct unf as (start & S1 & S2 & _). destruct (in_split _ _ Hi) as (l1 & l2 & El). destruct (log_ok_order _ _ _ _ _ S2 _ _ _ _ _ El) as (_ & Hb & _). exact Hb.
Qed.
(** the old contents of a recorded output *)
Lemma old_value f o : depends O f o -> exists rs ws c, want0 f fs_old = Some (rs, ws) /\ In (o, c) ws /\ fs_old o = Some c /\ F f.
Proof.
  intros H. destruct Hold as (K & L). destruct (L f (K f o H)) as (rs & ws & W & A & B & _). apply A in H. apply in_fst in H. destruct H as [c H].
  exists rs, ws, c. split; [exact W|]. split; [exact H|]. split; [exact (B o c H)|]. apply HF. left. apply (K f o). apply A. eapply fst_in; exact H.
Qed.
Lemma dirt_is_out p : dirt p -> is_out p = true.
Proof. intros (f & _ & Hd). destruct (old_value f p Hd) as (rs & ws & c & W & Hc & _). exact (proj2 (Hout0 f fs_old rs ws W) p c Hc). Qed.
Lemma written_is_out p : written l p -> is_out p = true.
Proof. intros (g & d & r & Hi & Hp). apply (Hwo g d r p (built_from g d r Hi)). unfold b_outputs. apply in_or_app. left. exact Hp. Qed.
Lemma source_at f d r p : In (f, d, r) l -> is_out p = false -> d p = fs0 p.
Proof.
  intros Hi Hp. destruct (in_split _ _ Hi) as (l1 & l2 & El).
  apply (at_build build stat D O P scans newph changed added_ deleted fs0 e l fs1 D1 O1 P1 HG HR l1 f d r l2 p El); intros X; [apply dirt_is_out in X|apply written_is_out in X]; congruence.
Qed.
Lemma present f d r : In (f, d, r) l -> d f <> None.
Proof.
  intros Hi. rewrite (source_at f d r f Hi).
  - destruct Hrec as (_ & _ & _ & R4). destruct unf as (start & _ & _ & _ & S4 & _). apply in_names, S4 in Hi. apply R4; apply Hi.
  - destruct Hord as (Hin & _). apply Hin. right. eapply built_hit. exact Hi.
Qed.
Lemma fol f d r : In (f, d, r) l -> exists rs ws, want f d = Some (rs, ws) /\ (forall o, In o (b_outputs r) <-> In o (map fst ws)) /\
    (forall o, In o (b_reused r) -> d o <> None \/ In o (map fst (b_produced r))) /\
    (nothing_stale ws d -> forall o c, In (o, c) (b_produced r) -> In (o, c) ws) /\
    (forall p, In p rs -> is_out p = false -> p = f \/ In p (b_children r)).
Proof. intros Hi. apply Hfol; [eapply built_from; exact Hi|eapply present; exact Hi]. Qed.
(** nothing stale is met *)
Lemma fresh n : forall l1 f d r l2, length l1 <= n -> l = l1 ++ (f, d, r) :: l2 -> forall rs ws, want f d = Some (rs, ws) -> nothing_stale ws d.
Proof.
  induction n as [n IH] using lt_wf_ind. intros l1 f d r l2 Hl El rs ws W o c Ho.
  destruct unf as (start & S1 & S2 & S3 & S4 & HB & HC & _).
  destruct (log_ok_order _ _ _ _ _ S2 _ _ _ _ _ El) as (_ & Hb & Ed).
  assert (Hi : In (f, d, r) l) by (rewrite El; apply in_or_app; right; left; reflexivity).
  destruct (d o) as [c'|] eqn:E; [right|left; reflexivity]. rewrite Ed in E.
  pose proof S2 as S2'. rewrite El in S2'. apply log_ok_app in S2'. destruct S2' as (S2' & _).
  f_equal. symmetry. destruct (replay_value build e l1 [] start o c' S2' E) as [V|(g & d2 & r2 & Hg & Hp)].
  - rewrite S1 in V. destruct (mem o (e_dirty_out e)) eqn:M; [discriminate|]. apply mem_false in M.
    destruct Hrec as (_ & R2 & R3 & _).
    assert (Rep : reported_by l o f). { exists d, r. split; [exact Hi|]. destruct (fol f d r Hi) as (rs' & ws' & W' & A & _). rewrite W in W'. injection W' as <- <-. apply A. eapply fst_in; exact Ho. }
    destruct (R3 o f Rep) as (h & Hh); [congruence|]. destruct (R2 h o Hh) as [R2'|R2']; [|destruct (M (proj2 (HB o) R2'))]. rewrite R2' in V.
    destruct (old_value h o Hh) as (rsh & wsh & ch & Wh & Hc & Vh & Fh). rewrite V in Vh. injection Vh as <-.
    apply (Hnames0 f d rs ws h fs_old rsh wsh o c c'); try assumption; [apply HF; right; eapply built_hit; exact Hi|].
    destruct (str_eq_dec f h) as [Efh|Efh]; [right|left; exact Efh]. subst h.
    assert (Hd : dirt o) by (exists f; split; [eapply built_hit; exact Hi|exact Hh]).
    destruct (starts_with (lit "artifacts") o) eqn:Es; [apply starts_with_iff; exact Es|]. exfalso. apply M, HB. split; [|exact Hd].
    intros Ha. apply starts_with_iff in Ha. congruence.
  - destruct (in_split _ _ Hg) as (la & lb & E1). assert (E2 : l = la ++ (g, d2, r2) :: (lb ++ (f, d, r) :: l2)) by (rewrite El, E1, <- app_assoc; reflexivity).
    assert (Hi2 : In (g, d2, r2) l) by (rewrite E2; apply in_or_app; right; left; reflexivity).
    destruct (fol g d2 r2 Hi2) as (rsg & wsg & Wg & _ & _ & Hw & _).
    assert (Lt : length la < n). { apply (f_equal (@length _)) in E1. rewrite app_length in E1. cbn [length] in E1. lia. }
    assert (St : nothing_stale wsg d2) by (eapply (IH (length la) Lt); [apply le_n|exact E2|exact Wg]).
    assert (Hng : f <> g). { intros <-. clear -S3 E2. rewrite E2 in S3. unfold names in S3. rewrite map_app in S3. cbn [map fst] in S3. rewrite map_app in S3. cbn [map fst] in S3.
      apply NoDup_remove_2 in S3. apply S3. apply in_or_app. right. apply in_or_app. right. left. reflexivity. }
    apply (Hnames f d rs ws g d2 rsg wsg o c c'); try assumption; [apply HF; right; eapply built_hit; exact Hi|apply HF; right; eapply built_hit; exact Hi2|exact (Hw St o c' Hp)|auto].
Qed.
(** every build leaves what is wanted *)
Lemma leaves f d r rs ws o c : In (f, d, r) l -> want f d = Some (rs, ws) -> In (o, c) ws -> apply_build r d o = Some c.
Proof.
  intros Hi W Ho. destruct (fol f d r Hi) as (rs' & ws' & W' & A & B & C & _). rewrite W in W'. injection W' as <- <-.
  destruct (in_split _ _ Hi) as (l1 & l2 & El). pose proof (fresh (length l1) l1 f d r l2 (le_n _) El rs ws W) as St. destruct (Hout f d rs ws W) as (Nd & _).
  unfold apply_build. destruct (in_dec str_eq_dec o (map fst (b_produced r))) as [Hp|Hp].
  - destruct (apply_writes_in (b_produced r) d o Hp) as (c' & Hc & ->). f_equal. eapply one_value; [exact Nd|exact (C St o c' Hc)|exact Ho].
  - rewrite apply_writes_not by exact Hp. assert (Hr : In o (b_outputs r)) by (apply A; eapply fst_in; exact Ho). unfold b_outputs in Hr. apply in_app_or in Hr. destruct Hr as [Hr|Hr]; [contradiction|].
    destruct (B o Hr) as [X|X]; [|contradiction]. destruct (St o c Ho) as [Y|Y]; congruence.
Qed.
Lemma reported_wanted f d r p : In (f, d, r) l -> In p (b_outputs r) -> exists rs ws c, want f d = Some (rs, ws) /\ In (p, c) ws /\ apply_build r d p = Some c.
Proof.
  intros Hi Hp. destruct (fol f d r Hi) as (rs & ws & W & A & _). apply A in Hp. apply in_fst in Hp. destruct Hp as [c Hc]. exists rs, ws, c. split; [exact W|]. split; [exact Hc|]. eapply leaves; eassumption.
Qed.
Lemma all_agree : agreeing l.
Proof.
  intros f d r g d2 r2 p Hi Hi2 Hp Hp2. destruct (str_eq_dec f g) as [E|E]; [subst g; destruct (same_entry _ _ _ _ _ Hi Hi2) as (-> & ->); reflexivity|].
  destruct (reported_wanted f d r p Hi Hp) as (rs & ws & c & W & Hc & ->). destruct (reported_wanted g d2 r2 p Hi2 Hp2) as (rs2 & ws2 & c2 & W2 & Hc2 & ->). f_equal.
  apply (Hnames f d rs ws g d2 rs2 ws2 p c c2); try assumption; [apply HF; right; eapply built_hit; exact Hi|apply HF; right; eapply built_hit; exact Hi2|auto].
Qed.
Lemma value_after f d r p : In (f, d, r) l -> In p (b_outputs r) -> fs1 p = apply_build r d p.
Proof. apply (reported_value build stat D O P scans newph changed added_ deleted fs0 e l fs1 D1 O1 P1 HG HR). exact all_agree. Qed.
Lemma source_same p : is_out p = false -> fs1 p = fs0 p.
Proof. intros H. apply (untouched build stat D O P scans newph changed added_ deleted fs0 e l fs1 D1 O1 P1 HG HR); intros X; [apply dirt_is_out in X|apply written_is_out in X]; congruence. Qed.
(** what a build looked at stays *)
Lemma look_same f d r rs ws p : In (f, d, r) l -> want f d = Some (rs, ws) -> In p rs -> fs1 p = d p.
Proof.
  intros Hi W Hp. destruct (in_split _ _ Hi) as (l1 & l2 & El).
  assert (Q : ~ dirt p -> ~ written l p -> fs1 p = d p).
  { intros A B. rewrite (untouched build stat D O P scans newph changed added_ deleted fs0 e l fs1 D1 O1 P1 HG HR p A B).
    symmetry. apply (at_build build stat D O P scans newph changed added_ deleted fs0 e l fs1 D1 O1 P1 HG HR l1 f d r l2 p El A B). }
  destruct (is_out p) eqn:Ep; [|apply Q; intros X; [apply dirt_is_out in X|apply written_is_out in X]; congruence].
  assert (Hcase : (dirt p \/ written l p) \/ (~ dirt p /\ ~ written l p)).
  { destruct (dirt_dec build stat D O P scans newph changed added_ deleted fs0 e l fs1 D1 O1 P1 HG HR p); [auto|]. destruct (written_dec l p); auto. }
  destruct Hcase as [Hcase|(A & B)]; [|auto].
  destruct Hord as (_ & _ & Haf & _). destruct (Haf l1 f d r l2 rs ws p El W Hp Ep Hcase) as (g & d2 & r2 & Hi3 & Hp2).
  assert (Hi2 : In (g, d2, r2) l) by (rewrite El; apply in_or_app; left; exact Hi3). rewrite (value_after g d2 r2 p Hi2 Hp2).
  apply in_split in Hi3. destruct Hi3 as (la & lb & ->). destruct unf as (start & S1 & S2 & _). destruct (log_ok_order _ _ _ _ _ S2 _ _ _ _ _ El) as (_ & _ & Ed). rewrite Ed.
  rewrite replay_app. cbn [replay]. rewrite El in S2. apply log_ok_app in S2. destruct S2 as (S2 & _). apply log_ok_app in S2. destruct S2 as (_ & S2).
  cbn [log_ok] in S2. destruct S2 as (Ed2 & _ & _ & S2). rewrite <- Ed2 in *. symmetry. eapply replay_stable; [exact S2|reflexivity|].
  intros h d4 r4 Hi4 Hp4. symmetry. eapply all_agree; [exact Hi2| |exact Hp2|]; [|unfold b_outputs; apply in_or_app; auto].
  rewrite El. apply in_or_app. left. apply in_or_app. right. right. exact Hi4.
Qed.
(** an output of an unaffected file stays *)
Lemma unhit_dep f x : ~ hit f -> depends D f x -> ~ hit x.
Proof. intros Hh Hx (s & Hs & Hr). apply Hh. exists s. split; [assumption|]. eapply rt_trans; [exact Hr|]. apply rt_step. left. assumption. Qed.
Lemma unhit_unscanned x : ~ hit x -> ~ In x (dkeys scans) /\ ~ In x deleted.
Proof. intros Hx. split; intros X; apply Hx; exists x; (split; [auto|apply rt_refl]). Qed.
Lemma output_kept x o : ~ hit x -> depends O x o -> fs1 o = fs_old o.
Proof.
  intros Hx Hd. destruct (reported_dec l o) as [(g & d & r & Hi & Hp)|Hnr].
  - rewrite (value_after g d r o Hi Hp). destruct (reported_wanted g d r o Hi Hp) as (rs & ws & c & W & Hc & ->). destruct (old_value x o Hd) as (rs2 & ws2 & c2 & W2 & Hc2 & -> & Fx). f_equal.
    apply (Hnames0 g d rs ws x fs_old rs2 ws2 o c c2); try assumption; [apply HF; right; eapply built_hit; exact Hi|]. left. intros ->. apply Hx. eapply built_hit; exact Hi.
  - destruct Hord as (_ & _ & _ & _ & Hsh). rewrite (untouched build stat D O P scans newph changed added_ deleted fs0 e l fs1 D1 O1 P1 HG HR).
    + destruct Hrec as (_ & R2 & _). destruct (R2 x o Hd) as [R|(_ & X)]; [exact R|]. exfalso. apply Hnr. apply (Hsh x o Hd Hx X).
    + intros X. apply Hnr. apply (Hsh x o Hd Hx X).
    + intros X. apply Hnr. apply written_reported. exact X.
Qed.
Lemma switched_correct : correct want D1 O1 fs1.
Proof.
  destruct (graphs_after build stat D O P scans newph changed added_ deleted fs0 e l fs1 D1 O1 P1 HG HR) as (_ & _ & _ & _ & K1 & K2 & K3 & K4 & _).
  pose proof Hord as (Hin & Hsc & _ & Hlr & _). split; [exact K4|]. intros f Hf. destruct unf as (start & S1 & S2 & S3 & S4 & _).
  destruct (in_dec str_eq_dec f (names l)) as [Hn|Hn].
  - apply names_in in Hn. destruct Hn as (d & r & Hi). destruct (fol f d r Hi) as (rs & ws & W & A & _ & _ & Ch).
    destruct (K2 f d r Hi) as (Eo & Er). destruct (Er Hsc) as (R1 & _). exists rs, ws.
    split; [apply (Hro f d rs ws fs1 W); intros p Hp; eapply look_same; eassumption|].
    split; [intros o; unfold depends; rewrite Eo; apply A|].
    split. { intros o c Ho. rewrite (value_after f d r o Hi); [eapply leaves; eassumption|]. apply A. eapply fst_in; exact Ho. }
    intros p Hp. split; [|intros Ep; eapply Hlr; eassumption]. intros Ep. destruct (Ch p Hp Ep) as [->|Hc]; [left; reflexivity|right; exact (R1 p Hc Ep)].
  - assert (Hh : ~ hit f). { intros Hh. apply Hn, S4. apply K1 in Hf. tauto. }
    assert (HfD : In f (dkeys D)). { apply K1 in Hf. tauto. }
    destruct (K3 f Hf Hh) as (Ed & Eo). pose proof Hold as (L1 & L2). destruct (L2 f HfD) as (rs & ws & W & A & B & C). rewrite <- (Hagree f fs_old HfD Hh) in W. destruct Hrec as (R1 & _).
    exists rs, ws. split; [|split; [|split]].
    + apply (Hro f fs_old rs ws fs1 W). intros p Hp. destruct (C p Hp) as (C1 & C2). destruct (is_out p) eqn:Ep.
      * destruct (C2 eq_refl) as (x & Hx & Hxp). apply (output_kept x p); [eapply unhit_dep; eassumption|exact Hxp].
      * rewrite (source_same p Ep). destruct (C1 eq_refl) as [->|Hx].
        -- destruct (unhit_unscanned f Hh). apply R1; assumption.
        -- destruct (unhit_unscanned p (unhit_dep f p Hh Hx)). apply R1; try assumption. eapply Inv_ch_closed; [apply Inv_well_formed, HG|]. apply depends_ch. exact Hx.
    + intros o. unfold depends at 1. rewrite Eo. apply A.
    + intros o c Ho. rewrite (output_kept f o Hh); [exact (B o c Ho)|]. apply A. eapply fst_in; exact Ho.
    + intros p Hp. destruct (C p Hp) as (C1 & C2). split; [intros Ep; destruct (C1 Ep) as [X|X]; [left; exact X|right; unfold depends; rewrite Ed; exact X]|].
      intros Ep. destruct (C2 Ep) as (x & Hx & Hxp). exists x. split; [unfold depends; rewrite Ed; exact Hx|].
      pose proof (unhit_dep f x Hh Hx) as Hhx.
      assert (Hx1 : In x (dkeys D1)). { apply K1. split; [right; eapply L1; eassumption|]. apply unhit_unscanned. exact Hhx. }
      destruct (K3 x Hx1 Hhx) as (_ & Eox). unfold depends. rewrite Eox. exact Hxp.
Qed.
End Want.
Lemma still_correct want build stat D O P scans newph changed added_ deleted fs0 e l fs1 D1 O1 P1 : project_graphs D O P ->
  hot_rebuild build stat D O P scans newph changed added_ deleted fs0 e l fs1 D1 O1 P1 ->
  forall fs_old (F : str -> Prop), (forall f, In f (dkeys D) \/ affected D P (dkeys scans) deleted f -> F f) ->
  reads_only want -> outputs_out want -> names_fixed F want -> follows want build -> writes_out build ->
  correct want D O fs_old -> as_recorded D O P (dkeys scans) deleted fs_old fs0 l -> orderly want D O P scans deleted l D1 O1 -> correct want D1 O1 fs1.
Proof.
  intros HG HR fs_old F HF Hro Hout Hn Hfol Hwo Hold Hrec Hord.
  exact (switched_correct want want build stat D O P scans newph changed added_ deleted fs0 e l fs1 D1 O1 P1 HG HR fs_old F HF Hro Hout Hn Hfol Hwo Hout Hn (fun f s _ _ => eq_refl) Hold Hrec Hord).
Qed.

Lemma correct_unique want D1 O1 s1 D2 O2 s2 : reads_only want -> well_formed D1 -> acyclic D1 ->
  correct want D1 O1 s1 -> correct want D2 O2 s2 -> (forall f, In f (dkeys D1) <-> In f (dkeys D2)) ->
  (forall p, In p (dkeys D1) -> is_out p = false -> s1 p = s2 p) -> forall f o, (depends O1 f o <-> depends O2 f o) /\ (depends O1 f o -> s1 o = s2 o).
Proof.
  intros Hro Hwf Hac (K1 & U1) (K2 & U2) Hk Hsrc.
  assert (Hall : forall f, In f (dkeys D1) -> forall o, (depends O1 f o <-> depends O2 f o) /\ (depends O1 f o -> s1 o = s2 o)).
  { apply (acyclic_ind D1 (fun f => forall o, (depends O1 f o <-> depends O2 f o) /\ (depends O1 f o -> s1 o = s2 o))); [assumption| |].
    - intros a b Hab. unfold depends in Hab. rewrite api_children_ch in Hab. eapply Inv_ch_closed; [apply Inv_well_formed; exact Hwf|exact Hab].
    - intros f Hf IH. destruct (U1 f Hf) as (rs & ws & W & A & B & C). destruct (U2 f (proj1 (Hk f) Hf)) as (rs2 & ws2 & W2 & A2 & B2 & _).
      assert (W3 : want f s2 = Some (rs, ws)).
      { apply (Hro f s1 rs ws s2 W). intros p Hp. destruct (is_out p) eqn:Ep.
        2:{ symmetry. apply Hsrc; [|exact Ep]. destruct (proj1 (C p Hp) Ep) as [->|X]; [exact Hf|]. eapply Inv_ch_closed; [apply Inv_well_formed; exact Hwf|apply depends_ch; exact X]. }
        destruct (proj2 (C p Hp) Ep) as (x & Hx & Hxp). symmetry. apply (proj2 (IH x Hx p)). exact Hxp. }
      rewrite W3 in W2. injection W2 as <- <-. intros o. split; [rewrite A, A2; reflexivity|]. intros Ho. apply A in Ho. apply in_fst in Ho. destruct Ho as [c Hc]. rewrite (B o c Hc), (B2 o c Hc). reflexivity. }
  intros f o. destruct (in_dec str_eq_dec f (dkeys D1)) as [Hf|Hf]; [apply Hall; assumption|].
  split; [split; intros X; exfalso; apply Hf; [eapply K1; eassumption|apply Hk; eapply K2; eassumption]|].
  intros X. exfalso. apply Hf. eapply K1; eassumption.
Qed.
Lemma correct_empty want s : correct want empty_graph empty_graph s.
Proof. split; [intros f o []|intros f []]. Qed.
