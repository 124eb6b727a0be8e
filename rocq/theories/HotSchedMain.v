(** The scheduling properties C10 - C12. *)
From Verif Require Import Base Graph GraphSpec GraphProofs Hot HotSpec HotDirtyProofs HotSchedProofs.
From Coq Require Import String ZArith Bool List Relations Lia Permutation.
Import ListNotations.
Open Scope list_scope.

(** a finite non-empty set in which everybody has a successor has a cycle *)
Lemma pigeon_cycle (R : str -> str -> Prop) (l : list str) : l <> [] -> (forall x, In x l -> exists y, In y l /\ R x y) ->
  exists x, In x l /\ clos_trans str R x x.
Proof.
  intros Hne Hsucc.
  assert (Hwalk : forall n, exists p, length p = S n /\ (forall x, In x p -> In x l) /\
            forall p1 x p2 y p3, p = p1 ++ x :: p2 ++ y :: p3 -> clos_trans str R y x).
  { induction n as [|n (p & Hl & Hin & Hp)].
    - destruct l as [|a l']; [congruence|]. exists [a]. split; [reflexivity|]. split; [intros x [<-|[]]; left; reflexivity|].
      intros p1 x p2 y p3 E. exfalso. apply (f_equal (@length str)) in E. rewrite !app_length in E. simpl in E. rewrite app_length in E. simpl in E. lia.
    - destruct p as [|a p]; [discriminate|]. destruct (Hsucc a) as (b & Hb & Hab); [apply Hin; left; reflexivity|].
      exists (b :: a :: p). split; [simpl in *; lia|]. split; [intros x [<-|Hx]; auto|].
      intros [|c p1] x p2 y p3 E.
      + simpl in E. injection E as <- E. destruct p2 as [|c p2]; simpl in E.
        * injection E as <- E. apply t_step. assumption.
        * injection E as <- E. apply t_trans with a; [|apply t_step; assumption].
          apply (Hp [] a p2 y p3). simpl. rewrite E. reflexivity.
      + simpl in E. injection E as <- E. apply (Hp p1 x p2 y p3 E). }
  destruct (Hwalk (length l)) as (p & Hl & Hin & Hp).
  assert (Hdup : ~ NoDup p).
  { intros Hn. pose proof (NoDup_incl_length Hn Hin) as Hle. lia. }
  assert (Hd : exists p1 x p2 p3, p = p1 ++ x :: p2 ++ x :: p3).
  { clear -Hdup. induction p as [|a p IH]; [exfalso; apply Hdup; constructor|].
    destruct (in_dec str_eq_dec a p) as [Ha|Ha].
    - apply in_split in Ha. destruct Ha as (p2 & p3 & ->). exists [], a, p2, p3. reflexivity.
    - destruct IH as (p1 & x & p2 & p3 & ->).
      { intros Hn. apply Hdup. constructor; assumption. }
      exists (a :: p1), x, p2, p3. reflexivity. }
  destruct Hd as (p1 & x & p2 & p3 & E). exists x. split.
  - apply Hin. rewrite E. apply in_or_app. right. left. reflexivity.
  - eapply Hp. exact E.
Qed.

Section Main.
Context (build : str -> fs -> option build_result) (e : env).

(** ** the waiting relation *)
Definition waits_for (f c : str) : Prop := In c (e_orig e) /\ exists deps, depends_on e f = Ret deps /\ In c deps.

Lemma deps_ok_waits done f : deps_ok e done f -> forall c, waits_for f c -> In c done.
Proof. intros (ds & H1 & H2) c (Ho & ds' & H3 & H4). apply H2; [|assumption]. congruence. Qed.

(** ** the log only grows *)
Lemma collect_keeps_log fs : forall s s', collect e fs s = Ret s' -> log s' = log s /\ executed s' = executed s.
Proof.
  induction fs as [|f r IH]; intros s s' H; cbn [collect] in H; [injection H as <-; auto|].
  destruct (collect_one e f s) as [s1|] eqn:E; [|discriminate]. destruct (IH _ _ H) as (H1 & H2).
  destruct (collect_one_spec _ _ _ _ E) as (r' & m & cs & so & po & sa & pa & _ & _ & _ & ->). simpl in *. auto.
Qed.
Lemma step_log s s' : step build e s (Running s') -> exists l, log s' = log s ++ l.
Proof.
  intros H. inversion H; subst.
  - apply schedule_spec in H4. destruct H4 as (new & po & pa & _ & _ & ->). exists []. simpl. rewrite app_nil_r. reflexivity.
  - unfold execute. destruct (build f (disk s)); simpl; [eexists; reflexivity|]. exists []. rewrite app_nil_r. reflexivity.
  - apply collect_keeps_log in H6. simpl. exists []. rewrite app_nil_r. tauto.
Qed.

(** ** outputs *)
Section Outputs.
Context (Hdisj : forall o, In o (e_dirty_out e) -> ~ In o (e_dirty_art e)).

Definition reported (s : sched) (o : str) : Prop := exists f r, dget f (results s) = Some r /\ In o (b_outputs r).

Record OInv (s : sched) : Prop := mkOInv {
  oi_so : forall o, In o (still_out s) <-> In o (e_dirty_out e) /\ ~ reported s o;
  oi_sa : forall o, In o (still_art s) <-> In o (e_dirty_art e) /\ ~ reported s o;
  oi_po : forall o, In o (pend_out s) -> In o (still_out s);
  oi_a1 : forall f o, In f (pending s) -> In o (creates e f) -> In o (still_out s) -> In o (pend_out s)
}.

Lemma OInv_init order m s0 : OInv (init_sched e order m s0).
Proof.
  constructor; simpl; try tauto; intros o; (split; [|tauto]); intros H; (split; [assumption|]); intros (f & r & Hr & _); discriminate.
Qed.

Lemma OInv_schedule s s' : OInv s -> schedule e s = Ret s' -> OInv s'.
Proof.
  intros [O1 O2 O3 O4] H. destruct (schedule_spec _ _ _ H) as (new & po & pa & Hp & _ & ->).
  destruct (pass_spec _ _ _ _ _ _ _ _ _ _ Hp) as (new' & Hn1 & Hn2 & Hn3 & Hn4 & Hn5 & Hn6 & Hn7). simpl in Hn1. subst new'.
  constructor; simpl; try assumption.
  - intros o Ho. apply Hn4 in Ho. destruct Ho as [Ho|(f & _ & _ & Ho)]; auto.
  - intros f o Hf Ho Hs. apply Hn4. apply in_app_or in Hf. destruct Hf as [Hf|Hf]; [left; eauto|right; eauto].
Qed.

Lemma OInv_execute s f : OInv s -> OInv (execute build f s).
Proof. intros [O1 O2 O3 O4]. unfold execute. destruct (build f (disk s)); constructor; simpl; assumption. Qed.

Lemma collect_one_settle s s' f s0 : OInv s -> SInv build e s0 s -> In f (pending s) -> collect_one e f s = Ret s' ->
  exists r, dget f (executed s) = Some (Some r) /\ pending s' = remove_all f (pending s) /\
  (forall o, reported s' o <-> reported s o \/ In o (b_outputs r)) /\
  (forall x, In x (still_out s') <-> In x (still_out s) /\ ~ In x (b_outputs r)) /\
  (forall x, In x (still_art s') <-> In x (still_art s) /\ ~ In x (b_outputs r)) /\
  (forall x, In x (pend_out s') <-> In x (pend_out s) /\ ~ (In x (b_outputs r) /\ In x (still_out s))) /\
  (forall x, In x (pend_art s') <-> In x (pend_art s) /\ ~ (In x (b_outputs r) /\ In x (e_dirty_art e))).
Proof.
  intros [O1 O2 O3 O4] I Hf H. destruct (collect_one_spec _ _ _ _ H) as (r & m & cs & so & po & sa & pa & Hx & _ & Hs & ->).
  apply settle_spec in Hs.
  2: { intros x Hxx. apply Hdisj. apply O1. assumption. }
  2: { intros x Hxx. apply O2. assumption. }
  exists r. split; [assumption|]. simpl. split; [reflexivity|]. split; [|exact Hs].
  assert (Hnr : ~ In f (dkeys (results s))).
  { pose proof (si_nodup _ _ _ _ I) as N. apply NoDup_app_iff in N. destruct N as (_ & N & _). apply NoDup_app_iff in N.
    destruct N as (_ & _ & N). apply N. assumption. }
  intros o. unfold reported. simpl. split.
  - intros (g & r' & Hr & Ho). rewrite dget_dset in Hr. destruct (str_eqb g f) eqn:E.
    + injection Hr as <-. right. exact Ho.
    + left. eauto.
  - intros [(g & r' & Hr & Ho)|Ho].
    + exists g, r'. split; [|assumption]. rewrite dget_dset_other; [assumption|]. intros ->. apply Hnr. eapply dget_Some_key; eassumption.
    + exists f. eexists. split; [apply dget_dset_same|]. exact Ho.
Qed.

Lemma OInv_collect_one s s' f s0 : OInv s -> SInv build e s0 s -> In f (pending s) -> collect_one e f s = Ret s' -> OInv s'.
Proof.
  intros O I Hf H. destruct (collect_one_settle _ _ _ _ O I Hf H) as (r & Hx & Hpe & Hrep & S1 & S2 & S3 & S4).
  destruct O as [O1 O2 O3 O4]. constructor.
  - intros o. rewrite S1, O1, Hrep. tauto.
  - intros o. rewrite S2, O2, Hrep. tauto.
  - intros o. rewrite S1, S3. intros (Ho & Hn). specialize (O3 o Ho). tauto.
  - intros g o. rewrite S1, S3, Hpe, remove_all_In. intros (Hg & _) Ho (Hso & Hn). split; [eauto|tauto].
Qed.

(** both invariants together *)
Definition SO s0 s := SInv build e s0 s /\ OInv s.

Lemma SO_collect_one s0 s s' f : SO s0 s -> s_phase s = Scheduling -> In f (pending s) -> collect_one e f s = Ret s' -> SO s0 s'.
Proof.
  intros (I & O) Hph Hf Hc. split; [|eapply OInv_collect_one; eassumption].
  assert (Hw : with_phase Scheduling s' = s').
  { destruct (collect_one_spec _ _ _ _ Hc) as (r' & m & cs & so & po & sa & pa & _ & _ & _ & ->). rewrite Hph. reflexivity. }
  rewrite <- Hw. eapply SInv_collect_one; eassumption.
Qed.

Lemma OInv_phase p s : OInv s -> OInv (with_phase p s).
Proof. intros []. constructor; assumption. Qed.

Lemma sub_pending_NoDup s0 s fs : SInv build e s0 s -> sublist fs (pending s) -> NoDup fs /\ forall f, In f fs -> In f (pending s).
Proof.
  intros I Hs. split; [|intros f Hf; eapply sublist_In; eassumption].
  eapply sublist_NoDup; [eassumption|]. pose proof (si_nodup _ _ _ _ I) as N. apply NoDup_app_iff in N. destruct N as (_ & N & _).
  apply NoDup_app_iff in N. tauto.
Qed.

Lemma SO_step s0 s s' : SO s0 s -> step build e s (Running s') -> SO s0 s'.
Proof.
  intros (I & O) H. pose proof (SInv_step _ _ _ _ _ I H) as I'. split; [assumption|]. inversion H; subst.
  - eapply OInv_schedule; eassumption.
  - apply OInv_execute; assumption.
  - destruct (sub_pending_NoDup _ _ _ I ltac:(eassumption)) as (Hn & Hsub).
    assert (HJ : SO s0 (with_phase Scheduling s'0)); [|apply HJ].
    eapply (collect_ind e (SO s0)); [|split; [apply SInv_phase; [exact I|discriminate]|apply OInv_phase; assumption]|exact Hn|exact Hsub|eassumption].
    intros t t' f HJ Hph Hf Hc. eapply SO_collect_one; eassumption.
Qed.
Lemma SO_steps s0 s s' : SO s0 s -> steps build e s s' -> SO s0 s'.
Proof. intros I H. induction H; [assumption|]. eapply SO_step; [|eassumption]. auto. Qed.

(** ** mutual exclusion *)

(** what the builders report of the dirty files was predicted *)
Definition reports_predicted (s : sched) : Prop := forall f d r o, In (f, d, r) (log s) ->
  In o (b_outputs r) -> In o (e_dirty_out e) \/ In o (e_dirty_art e) -> In o (creates e f).
(** what was predicted of the dirty files is reported *)
Definition predictions_reported (s : sched) : Prop := forall f d r o, In (f, d, r) (log s) ->
  In o (creates e f) -> In o (e_dirty_out e) \/ In o (e_dirty_art e) -> In o (b_outputs r).

Record XInv (s : sched) : Prop := mkXInv {
  xi_a2 : forall f o, In f (pending s) -> In o (creates e f) -> In o (e_dirty_art e) -> In o (pend_art s);
  xi_a3 : forall f g o, In f (pending s) -> In g (pending s) -> f <> g -> In o (creates e f) -> In o (creates e g) ->
            ~ In o (still_out s) /\ ~ In o (e_dirty_art e)
}.

Lemma XInv_schedule s0 s s' : SO s0 s -> XInv s -> schedule e s = Ret s' -> XInv s'.
Proof.
  intros (I & [O1 O2 O3 O4]) [X2 X3] H. destruct (schedule_spec _ _ _ H) as (new & po & pa & Hp & _ & ->).
  destruct (pass_spec _ _ _ _ _ _ _ _ _ _ Hp) as (new' & Hn1 & Hn2 & Hn3 & Hn4 & Hn5 & Hn6 & Hn7). simpl in Hn1. subst new'.
  assert (Hnd : NoDup (todo s)). { pose proof (si_nodup _ _ _ _ I) as N. apply NoDup_app_iff in N. tauto. }
  assert (Hmix : forall f g o, In f new -> In g (pending s) -> In o (creates e f) -> In o (creates e g) ->
            ~ In o (still_out s) /\ ~ In o (e_dirty_art e)).
  { intros f g o Hf Hg Hof Hog. destruct (Hn6 f o Hf Hof) as (A & B). split; intros Ho.
    - apply A. eapply O4; eassumption.
    - apply B. eapply X2; eassumption. }
  constructor; simpl.
  - intros f o Hf Ho Ha. apply Hn5. apply in_app_or in Hf. destruct Hf as [Hf|Hf]; [left; eauto|].
    right. exists f. split; [assumption|]. split; [assumption|]. split; [|assumption].
    intros Hs. apply O1 in Hs. apply (Hdisj o); tauto.
  - intros f g o Hf Hg Hne Hof Hog. apply in_app_or in Hf, Hg. destruct Hf as [Hf|Hf], Hg as [Hg|Hg]; eauto.
Qed.

Lemma XInv_collect_one s0 s s' f : SO s0 s -> XInv s -> reports_predicted s -> In f (pending s) -> collect_one e f s = Ret s' -> XInv s'.
Proof.
  intros (I & O) [X2 X3] Hrp Hf H. destruct (collect_one_settle _ _ _ _ O I Hf H) as (r & Hx & Hpe & Hrep & S1 & S2 & S3 & S4).
  apply (si_log _ _ _ _ I) in Hx. destruct Hx as (d & Hx).
  constructor.
  - intros g o. rewrite Hpe, remove_all_In, S4. intros (Hg & Hne) Ho Ha. split; [eauto|]. intros (Hor & _).
    destruct (X3 f g o) as (_ & A); auto. eapply Hrp; eauto.
  - intros g1 g2 o. rewrite Hpe, !remove_all_In, S1. intros (Hg1 & _) (Hg2 & _) Hne Ho1 Ho2.
    destruct (X3 g1 g2 o) as (A & B); auto. split; [tauto|assumption].
Qed.

Lemma reports_predicted_sub s s' : (exists l, log s' = log s ++ l) -> reports_predicted s' -> reports_predicted s.
Proof. intros (l & E) H f d r o Hi. apply (H f d r o). rewrite E. apply in_or_app. auto. Qed.
Lemma predictions_reported_sub s s' : (exists l, log s' = log s ++ l) -> predictions_reported s' -> predictions_reported s.
Proof. intros (l & E) H f d r o Hi. apply (H f d r o). rewrite E. apply in_or_app. auto. Qed.

Lemma collect_one_log s s' f : collect_one e f s = Ret s' -> log s' = log s.
Proof. intros Hc. destruct (collect_one_spec _ _ _ _ Hc) as (r' & m & cs & so & po & sa & pa & _ & _ & _ & ->). reflexivity. Qed.

Lemma XInv_phase p s : XInv s -> XInv (with_phase p s).
Proof. intros []. constructor; assumption. Qed.

Lemma XInv_collect s0 s s' fs : SO s0 s -> XInv s -> reports_predicted s -> sublist fs (pending s) -> collect e fs s = Ret s' ->
  SO s0 (with_phase Scheduling s') /\ XInv (with_phase Scheduling s').
Proof.
  intros (I & O) X Hr Hs H. destruct (sub_pending_NoDup _ _ _ I Hs) as (Hn & Hsub).
  pose (J := fun t => (SO s0 t /\ XInv t) /\ log t = log s).
  assert (HJ : J (with_phase Scheduling s')); [|apply HJ].
  eapply (collect_ind e J); [| |exact Hn|exact Hsub|eassumption].
  - intros t t' f ((H1 & H2) & H3) Hph Hf Hc. split; [split|].
    + eapply SO_collect_one; eassumption.
    + eapply XInv_collect_one; try eassumption. intros g d r o. rewrite H3. apply Hr.
    + rewrite <- H3. eapply collect_one_log; eassumption.
  - split; [split|reflexivity]; [split; [apply SInv_phase; [assumption|discriminate]|apply OInv_phase; assumption]|apply XInv_phase; assumption].
Qed.

Lemma XInv_step s0 s s' : SO s0 s -> XInv s -> reports_predicted s' -> step build e s (Running s') -> XInv s'.
Proof.
  intros I X Hr H. inversion H; subst.
  - eapply XInv_schedule; eassumption.
  - destruct X as [X2 X3]. unfold execute. destruct (build f (disk s)); constructor; simpl; assumption.
  - eapply XInv_collect; try eassumption. intros f d r o. apply collect_keeps_log in H6. destruct H6 as (E & _).
    rewrite <- E. apply Hr.
Qed.
Lemma XInv_steps s0 s s' : SO s0 s -> XInv s -> steps build e s s' -> reports_predicted s' -> XInv s'.
Proof.
  intros I X H. induction H; intros Hr; [assumption|]. eapply XInv_step; [eapply SO_steps; eassumption| |eassumption|eassumption].
  apply IHsteps; [assumption|assumption|]. eapply reports_predicted_sub; [eapply step_log; eassumption|assumption].
Qed.
Lemma XInv_init order m s0 : XInv (init_sched e order m s0).
Proof. constructor; simpl; tauto. Qed.

(** ** pending sets empty when nothing is pending *)
Record PInv (s : sched) : Prop := mkPInv {
  pi_po : forall o, In o (pend_out s) -> exists f, In f (pending s) /\ In o (creates e f);
  pi_pa : forall o, In o (pend_art s) -> In o (e_dirty_art e) /\ exists f, In f (pending s) /\ In o (creates e f)
}.
Lemma PInv_schedule s s' : PInv s -> schedule e s = Ret s' -> PInv s'.
Proof.
  intros [P1 P2] H. destruct (schedule_spec _ _ _ H) as (new & po & pa & Hp & _ & ->).
  destruct (pass_spec _ _ _ _ _ _ _ _ _ _ Hp) as (new' & Hn1 & Hn2 & Hn3 & Hn4 & Hn5 & Hn6 & Hn7). simpl in Hn1. subst new'.
  constructor; simpl.
  - intros o Ho. apply Hn4 in Ho. destruct Ho as [Ho|(f & Hf & Ho & _)].
    + destruct (P1 o Ho) as (f & Hf & Hc). exists f. rewrite in_app_iff. auto.
    + exists f. rewrite in_app_iff. auto.
  - intros o Ho. apply Hn5 in Ho. destruct Ho as [Ho|(f & Hf & Ho & _ & Ha)].
    + destruct (P2 o Ho) as (Ha & f & Hf & Hc). split; [assumption|]. exists f. rewrite in_app_iff. auto.
    + split; [assumption|]. exists f. rewrite in_app_iff. auto.
Qed.
Lemma PInv_collect_one s0 s s' f : SO s0 s -> PInv s -> predictions_reported s -> In f (pending s) -> collect_one e f s = Ret s' -> PInv s'.
Proof.
  intros (I & O) [P1 P2] Hrp Hf H. destruct (collect_one_settle _ _ _ _ O I Hf H) as (r & Hx & Hpe & Hrep & S1 & S2 & S3 & S4).
  apply (si_log _ _ _ _ I) in Hx. destruct Hx as (d & Hx). constructor.
  - intros o. rewrite S3. intros (Ho & Hn). destruct (P1 o Ho) as (g & Hg & Hc). exists g. rewrite Hpe, remove_all_In.
    split; [|assumption]. split; [assumption|]. intros ->. apply Hn. pose proof (oi_po _ O o Ho) as Hso.
    split; [|assumption]. eapply Hrp; [eassumption|assumption|]. left. apply (oi_so _ O). assumption.
  - intros o. rewrite S4. intros (Ho & Hn). destruct (P2 o Ho) as (Ha & g & Hg & Hc). split; [assumption|].
    exists g. rewrite Hpe, remove_all_In. split; [|assumption]. split; [assumption|]. intros ->. apply Hn.
    split; [|assumption]. eapply Hrp; [eassumption|assumption|]. right. assumption.
Qed.
Lemma PInv_step s0 s s' : SO s0 s -> PInv s -> predictions_reported s' -> step build e s (Running s') -> PInv s'.
Proof.
  intros I P Hr H. inversion H; subst.
  - eapply PInv_schedule; eassumption.
  - destruct P as [X2 X3]. unfold execute. destruct (build f (disk s)); constructor; simpl; assumption.
  - destruct (sub_pending_NoDup _ _ _ (proj1 I) ltac:(eassumption)) as (Hn & Hsub).
    pose proof (collect_keeps_log _ _ _ H6) as (E & _).
    pose (J := fun t => (SO s0 t /\ PInv t) /\ log t = log s).
    assert (HJ : J (with_phase Scheduling s'0)); [|apply HJ].
    eapply (collect_ind e J); [| |exact Hn|exact Hsub|eassumption].
    + intros t t' f ((A1 & A2) & A3) Hph Hf Hc. split; [split|].
      * eapply SO_collect_one; eassumption.
      * eapply PInv_collect_one; try eassumption. intros g d r o. rewrite A3, <- E. apply Hr.
      * rewrite <- A3. eapply collect_one_log; eassumption.
    + destruct I as (I & O). split; [split|reflexivity]; [split; [apply SInv_phase; [assumption|discriminate]|apply OInv_phase; assumption]|].
      destruct P. constructor; assumption.
Qed.
Lemma PInv_steps s0 s s' : SO s0 s -> PInv s -> steps build e s s' -> predictions_reported s' -> PInv s'.
Proof.
  intros I X H. induction H; intros Hr; [assumption|]. eapply PInv_step; [eapply SO_steps; eassumption| |eassumption|eassumption].
  apply IHsteps; [assumption|assumption|]. eapply predictions_reported_sub; [eapply step_log; eassumption|assumption].
Qed.
Lemma PInv_init order m s0 : PInv (init_sched e order m s0).
Proof. constructor; simpl; tauto. Qed.

(** ** a stop with CyclicDependencyException means a cycle *)
Lemma pass_empty res0 so files : forall po pa po' pa', pass e res0 so files po pa [] = Ret ([], po', pa') ->
  (forall f o, In o (creates e f) -> ~ In o po /\ ~ In o pa) ->
  forall f, In f files -> exists deps c, depends_on e f = Ret deps /\ In c deps /\ In c (e_orig e) /\ ~ In c (dkeys res0).
Proof.
  intros po pa po' pa' H Hno.
  assert (Hgen : forall fl po1 pa1, pass e res0 so fl po1 pa1 [] = Ret ([], po', pa') ->
    (forall f o, In o (creates e f) -> ~ In o po1 /\ ~ In o pa1) ->
    forall f, In f fl -> exists deps c, depends_on e f = Ret deps /\ In c deps /\ In c (e_orig e) /\ ~ In c (dkeys res0)).
  { clear H Hno po pa files. induction fl as [|g r IH]; intros po pa H Hno f Hf; [destruct Hf|]. cbn [pass] in H.
    destruct (depends_on e g) as [deps|] eqn:Ed; [|discriminate].
    destruct (deps_built e res0 deps) eqn:Eb; cbn [negb] in H.
    - destruct (existsb (fun o => mem o po || mem o pa) (creates e g)) eqn:Ex.
      + exfalso. apply existsb_exists in Ex. destruct Ex as (o & Ho & Hx). apply orb_true_iff in Hx. rewrite !mem_In in Hx.
        destruct (Hno g o Ho). tauto.
      + exfalso. destruct (mark_outputs e so (creates e g) po pa) as [po1 pa1].
        destruct (pass_spec _ _ _ _ _ _ _ _ _ _ H) as (new & Hn & _). discriminate.
    - destruct Hf as [<-|Hf]; [|eapply IH; eassumption].
      exists deps. rewrite <- not_true_iff_false, deps_built_iff in Eb.
      assert (Hx : ~ Forall (fun c => ~ In c (e_orig e) \/ In c (dkeys res0)) deps).
      { intros Hall. apply Eb. rewrite Forall_forall in Hall. intros c Hc Ho. destruct (Hall c Hc); tauto. }
      apply neg_Forall_Exists_neg in Hx.
      + apply Exists_exists in Hx. destruct Hx as (c & Hc & Hx). exists c. split; [assumption|]. split; [assumption|].
        destruct (in_dec str_eq_dec c (e_orig e)), (in_dec str_eq_dec c (dkeys res0)); tauto.
      + intros c. destruct (in_dec str_eq_dec c (e_orig e)), (in_dec str_eq_dec c (dkeys res0)); tauto. }
  eapply Hgen; eassumption.
Qed.
End Outputs.

Lemma clos_trans_In {R : str -> str -> Prop} (P : str -> Prop) : (forall x y, P x -> R x y -> P y) ->
  forall x y, clos_trans str R x y -> P x -> P y.
Proof. intros H x y Hc. induction Hc; eauto. Qed.

(** ** a completed log is a topological order *)
Lemma log_ok_order l : forall done s0, log_ok build e done s0 l -> forall l1 f d r l2, l = l1 ++ (f, d, r) :: l2 ->
  deps_ok e (done ++ names l1) f /\ build f d = Some r /\ d = replay s0 l1.
Proof.
  intros done s0 H l1 f d r l2 ->. apply log_ok_app in H. destruct H as (_ & H). simpl in H. destruct H as (H1 & H2 & H3 & _). auto.
Qed.

Fixpoint pos (f : str) (l : list str) : nat :=
  match l with [] => 0 | x :: r => if str_eqb x f then 0 else S (pos f r) end.
Lemma pos_app_l f l1 l2 : In f l1 -> pos f (l1 ++ l2) < length l1.
Proof.
  induction l1 as [|x r IH]; simpl; intros H; [destruct H|]. destruct (str_eqb x f) eqn:E; [lia|]. apply str_eqb_neq in E.
  destruct H; [congruence|]. specialize (IH H). lia.
Qed.
Lemma pos_split f l1 l2 : ~ In f l1 -> pos f (l1 ++ f :: l2) = length l1.
Proof.
  induction l1 as [|x r IH]; simpl; intros H; [rewrite str_eqb_refl; reflexivity|].
  destruct (str_eqb x f) eqn:E; [apply str_eqb_eq in E; subst; tauto|]. rewrite IH; tauto.
Qed.

Lemma finished_acyclic s0 s : SInv build e s0 s -> todo s = [] -> pending s = [] ->
  forall f, In f (e_orig e) -> ~ clos_trans str waits_for f f.
Proof.
  intros I Ht Hp f Hf Hc.
  assert (Hall : forall x, In x (e_orig e) -> In x (names (log s))).
  { intros x Hx. apply (si_all _ _ _ _ I) in Hx. rewrite Ht, Hp in Hx. destruct Hx as [[]|[[]|Hx]]. eapply SInv_done; eassumption. }
  assert (Hlt : forall x y, clos_trans str waits_for x y -> In x (e_orig e) -> pos y (names (log s)) < pos x (names (log s)) /\ In y (e_orig e)).
  { intros x y H. induction H as [x y H|x y z H1 IH1 H2 IH2]; intros Hx.
    - pose proof (Hall x Hx) as Hl. apply names_in in Hl. destruct Hl as (d & r & Hl). apply in_split in Hl. destruct Hl as (l1 & l2 & El).
      destruct (log_ok_order _ _ _ (si_log_ok _ _ _ _ I) _ _ _ _ _ El) as (Hd & _). simpl in Hd.
      pose proof (deps_ok_waits _ _ Hd _ H) as Hy. split; [|apply H].
      pose proof (si_log_nodup _ _ _ _ I) as Hn. rewrite El, names_app in Hn |- *. simpl in *.
      rewrite pos_split; [apply pos_app_l; assumption|]. apply NoDup_remove_2 in Hn. rewrite in_app_iff in Hn. tauto.
    - destruct (IH1 Hx) as (A & B). destruct (IH2 B) as (C & D). split; [lia|assumption]. }
  destruct (Hlt f f Hc Hf). lia.
Qed.
End Main.
