(** Invariants of the scheduling loop (C10 - C12). *)
From Verif Require Import Base Graph GraphSpec GraphProofs Hot HotSpec HotDirtyProofs.
From Coq Require Import String ZArith Bool List Relations Lia Permutation.
Import ListNotations.
Open Scope list_scope.

Definition names (l : list (str * fs * build_result)) : list str := map (fun t => fst (fst t)) l.

(** ** list facts *)
Lemma remove_files_In fs l x : In x (remove_files fs l) <-> In x l /\ ~ In x fs.
Proof. unfold remove_files. rewrite filter_In, negb_true_iff, mem_false. reflexivity. Qed.
Lemma sublist_In a b x : sublist a b -> In x a -> In x b.
Proof. induction 1; simpl; intros Hx; [destruct Hx|destruct Hx; auto|auto]. Qed.
Lemma sublist_NoDup a b : sublist a b -> NoDup b -> NoDup a.
Proof.
  induction 1 as [l|x a b H IH|x a b H IH]; intros Hn; [constructor| |].
  - inversion Hn; subst. constructor; [|auto]. intros Hx. eapply sublist_In in Hx; eauto.
  - inversion Hn; subst. auto.
Qed.
Lemma sublist_refl l : sublist l l.
Proof. induction l; constructor; assumption. Qed.

(** ** pass *)
Definition deps_ok (e : env) (done : list str) (f : str) : Prop :=
  exists deps, depends_on e f = Ret deps /\ forall c, In c deps -> In c (e_orig e) -> In c done.

Lemma deps_built_iff e res0 deps : deps_built e res0 deps = true <-> forall c, In c deps -> In c (e_orig e) -> In c (dkeys res0).
Proof.
  unfold deps_built. rewrite forallb_forall. split; intros H c Hc.
  - intros Ho. specialize (H c Hc). destruct (dmem c res0) eqn:E; [apply dmem_In; assumption|].
    apply mem_In in Ho. rewrite Ho in H. discriminate.
  - destruct (dmem c res0) eqn:E; [reflexivity|]. apply dmem_false in E. simpl.
    destruct (mem c (e_orig e)) eqn:E2; [|reflexivity]. exfalso. apply E, H; [assumption|apply mem_In; assumption].
Qed.

Lemma mark_outputs_spec e so cs : forall po pa po' pa', mark_outputs e so cs po pa = (po', pa') ->
  (forall o, In o po' <-> In o po \/ (In o cs /\ In o so)) /\
  (forall o, In o pa' <-> In o pa \/ (In o cs /\ ~ In o so /\ In o (e_dirty_art e))).
Proof.
  unfold mark_outputs. induction cs as [|c r IH]; intros po pa po' pa' H; cbn [fold_left] in H.
  - injection H as <- <-. simpl. split; intros o; tauto.
  - destruct (mem c so) eqn:E1.
    + apply mem_In in E1. destruct (IH _ _ _ _ H) as (H1 & H2). split; intros o.
      * rewrite H1, set_add_In. simpl. split; [intros [[->|Ho]|Ho]; intuition|]. intros [Ho|([->|Ho] & Hs)]; auto.
      * rewrite H2. simpl. split; [intuition|]. intros [Ho|([->|Ho] & Hs)]; auto. tauto.
    + apply mem_false in E1. destruct (mem c (e_dirty_art e)) eqn:E2.
      * apply mem_In in E2. destruct (IH _ _ _ _ H) as (H1 & H2). split; intros o.
        -- rewrite H1. simpl. split; [intuition|]. intros [Ho|([->|Ho] & Hs)]; auto. contradiction.
        -- rewrite H2, set_add_In. simpl. split; [intros [[->|Ho]|Ho]; intuition|]. intros [Ho|([->|Ho] & Hs)]; auto.
      * apply mem_false in E2. destruct (IH _ _ _ _ H) as (H1 & H2). split; intros o.
        -- rewrite H1. simpl. split; [intuition|]. intros [Ho|([->|Ho] & Hs)]; auto. contradiction.
        -- rewrite H2. simpl. split; [intuition|]. intros [Ho|([->|Ho] & Hs)]; auto. tauto.
Qed.

Lemma pass_spec e res0 so files : forall po pa ready ready' po' pa',
  pass e res0 so files po pa ready = Ret (ready', po', pa') ->
  exists new, ready' = ready ++ new /\ sublist new files /\
    (forall f, In f new -> deps_ok e (dkeys res0) f) /\
    (forall o, In o po' <-> In o po \/ exists f, In f new /\ In o (creates e f) /\ In o so) /\
    (forall o, In o pa' <-> In o pa \/ exists f, In f new /\ In o (creates e f) /\ ~ In o so /\ In o (e_dirty_art e)) /\
    (forall f o, In f new -> In o (creates e f) -> ~ In o po /\ ~ In o pa) /\
    (NoDup files -> forall f g o, In f new -> In g new -> f <> g -> In o (creates e f) -> In o (creates e g) ->
       ~ In o so /\ ~ In o (e_dirty_art e)).
Proof.
  induction files as [|f r IH]; intros po pa ready ready' po' pa' H; cbn [pass] in H.
  - injection H as <- <- <-. exists []. rewrite app_nil_r. split; [reflexivity|]. split; [constructor|].
    split; [intros f []|]. split; [intros o; split; [auto|intros [Ho|(f & [] & _)]; auto]|].
    split; [intros o; split; [auto|intros [Ho|(f & [] & _)]; auto]|]. split; [intros f o []|intros _ f g o []].
  - destruct (depends_on e f) as [deps|x] eqn:Ed; [|discriminate].
    destruct (deps_built e res0 deps) eqn:Eb; cbn [negb] in H.
    2: { destruct (IH _ _ _ _ _ _ H) as (new & H1 & H2 & H3 & H4 & H5 & H6 & H7). exists new.
         split; [assumption|]. split; [constructor; assumption|]. repeat (split; [assumption|]).
         intros Hn. inversion Hn; subst. apply H7; assumption. }
    destruct (existsb (fun o => mem o po || mem o pa) (creates e f)) eqn:Ex.
    { destruct (IH _ _ _ _ _ _ H) as (new & H1 & H2 & H3 & H4 & H5 & H6 & H7). exists new.
         split; [assumption|]. split; [constructor; assumption|]. repeat (split; [assumption|]).
         intros Hn. inversion Hn; subst. apply H7; assumption. }
    destruct (mark_outputs e so (creates e f) po pa) as [po1 pa1] eqn:Em.
    destruct (mark_outputs_spec _ _ _ _ _ _ _ Em) as (M1 & M2).
    assert (Hfree : forall o, In o (creates e f) -> ~ In o po /\ ~ In o pa).
    { intros o Ho. rewrite <- !mem_false. rewrite <- not_true_iff_false in Ex. rewrite existsb_exists in Ex.
      destruct (mem o po) eqn:E1; [exfalso; apply Ex; exists o; rewrite E1; auto|].
      destruct (mem o pa) eqn:E2; [exfalso; apply Ex; exists o; rewrite E2, orb_true_r; auto|]. auto. }
    destruct (IH _ _ _ _ _ _ H) as (new & H1 & H2 & H3 & H4 & H5 & H6 & H7).
    exists (f :: new). split; [rewrite H1, <- app_assoc; reflexivity|]. split; [constructor; assumption|].
    split. { intros g [<-|Hg]; [|auto]. exists deps. split; [assumption|]. apply deps_built_iff. assumption. }
    split. { intros o. rewrite H4, M1. split.
             - intros [[Ho|(Ho & Hs)]|(g & Hg & Ho)]; [auto|right; exists f; simpl; auto|right; exists g; simpl; tauto].
             - intros [Ho|(g & [<-|Hg] & Ho & Hs)]; [auto|left; auto|right; exists g; auto]. }
    split. { intros o. rewrite H5, M2. split.
             - intros [[Ho|(Ho & Hs)]|(g & Hg & Ho)]; [auto|right; exists f; simpl; auto|right; exists g; simpl; tauto].
             - intros [Ho|(g & [<-|Hg] & Ho & Hs)]; [auto|left; auto|right; exists g; auto]. }
    split. { intros g o [<-|Hg] Ho; [auto|]. destruct (H6 g o Hg Ho) as (A & B). rewrite M1 in A. rewrite M2 in B. tauto. }
    intros Hn g1 g2 o Hg1 Hg2 Hne Ho1 Ho2. inversion Hn; subst.
    assert (Haux : forall g, In g new -> In o (creates e g) -> In o (creates e f) -> ~ In o so /\ ~ In o (e_dirty_art e)).
    { intros g Hg Hog Hof. destruct (H6 g o Hg Hog) as (A & B). rewrite M1 in A. rewrite M2 in B.
      assert (~ In o so) by tauto. split; [assumption|tauto]. }
    destruct Hg1 as [<-|Hg1], Hg2 as [<-|Hg2]; [congruence|eauto|eauto|].
    apply (H7 ltac:(assumption) g1 g2 o); assumption.
Qed.

(** ** collect *)
Lemma sremove_spec x l l' : sremove x l = Ret l' -> In x l /\ forall y, In y l' <-> In y l /\ y <> x.
Proof.
  unfold sremove. destruct (mem x l) eqn:E; [|discriminate]. intros [= <-]. apply mem_In in E.
  split; [assumption|]. intros y. apply remove_all_In.
Qed.

Lemma settle_one_spec e o so po sa pa so' po' sa' pa' :
  (forall x, In x so -> ~ In x (e_dirty_art e)) -> (forall x, In x sa -> In x (e_dirty_art e)) ->
  settle_one e o (so, po, sa, pa) = Ret (so', po', sa', pa') ->
  (forall x, In x so' <-> In x so /\ x <> o) /\
  (forall x, In x sa' <-> In x sa /\ x <> o) /\
  (forall x, In x po' <-> In x po /\ ~ (x = o /\ In o so)) /\
  (forall x, In x pa' <-> In x pa /\ ~ (x = o /\ In o (e_dirty_art e))).
Proof.
  intros Hd Hs H. unfold settle_one in H.
  destruct (mem o so) eqn:E1.
  { apply mem_In in E1. destruct (sremove o po) as [po1|] eqn:E2; [|discriminate]. injection H as <- <- <- <-.
    apply sremove_spec in E2. destruct E2 as (_ & E2). pose proof (Hd o E1) as Hna.
    split; [intros x; apply remove_all_In|]. split; [intros x; split; [intros Hx; split; [assumption|intros ->; apply Hna, Hs, Hx]|tauto]|].
    split; [intros x; rewrite E2; tauto|]. intros x; tauto. }
  apply mem_false in E1.
  destruct (mem o sa) eqn:E3.
  { apply mem_In in E3. destruct (sremove o pa) as [pa1|] eqn:E2; [|discriminate]. injection H as <- <- <- <-.
    apply sremove_spec in E2. destruct E2 as (_ & E2). pose proof (Hs o E3) as Ha.
    split; [intros x; split; [intros Hx; split; [assumption|intros ->; contradiction]|tauto]|].
    split; [intros x; apply remove_all_In|]. split; [intros x; tauto|]. intros x; rewrite E2; tauto. }
  apply mem_false in E3.
  destruct (mem o (e_dirty_art e)) eqn:E4.
  { apply mem_In in E4. destruct (sremove o pa) as [pa1|] eqn:E2; [|discriminate]. injection H as <- <- <- <-.
    apply sremove_spec in E2. destruct E2 as (_ & E2).
    split; [intros x; split; [intros Hx; split; [assumption|intros ->; contradiction]|tauto]|].
    split; [intros x; split; [intros Hx; split; [assumption|intros ->; contradiction]|tauto]|].
    split; [intros x; tauto|]. intros x; rewrite E2; tauto. }
  apply mem_false in E4. injection H as <- <- <- <-.
  split; [intros x; split; [intros Hx; split; [assumption|intros ->; contradiction]|tauto]|].
  split; [intros x; split; [intros Hx; split; [assumption|intros ->; contradiction]|tauto]|].
  split; intros x; tauto.
Qed.

Lemma settle_spec e os : forall so po sa pa so' po' sa' pa',
  (forall x, In x so -> ~ In x (e_dirty_art e)) -> (forall x, In x sa -> In x (e_dirty_art e)) ->
  settle e os (so, po, sa, pa) = Ret (so', po', sa', pa') ->
  (forall x, In x so' <-> In x so /\ ~ In x os) /\
  (forall x, In x sa' <-> In x sa /\ ~ In x os) /\
  (forall x, In x po' <-> In x po /\ ~ (In x os /\ In x so)) /\
  (forall x, In x pa' <-> In x pa /\ ~ (In x os /\ In x (e_dirty_art e))).
Proof.
  induction os as [|o r IH]; intros so po sa pa so' po' sa' pa' Hd Hs H; cbn [settle] in H.
  - injection H as <- <- <- <-. simpl. repeat split; tauto.
  - destruct (settle_one e o (so, po, sa, pa)) as [[[[so1 po1] sa1] pa1]|] eqn:E; [|discriminate].
    destruct (settle_one_spec _ _ _ _ _ _ _ _ _ _ Hd Hs E) as (A1 & A2 & A3 & A4).
    destruct (IH so1 po1 sa1 pa1 so' po' sa' pa') as (B1 & B2 & B3 & B4).
    { intros x Hx. apply Hd, A1, Hx. } { intros x Hx. apply Hs, A2, Hx. } { assumption. }
    split; [intros x; rewrite B1, A1; simpl; intuition congruence|].
    split; [intros x; rewrite B2, A2; simpl; intuition congruence|].
    split; [intros x; rewrite B3, A3, A1; simpl|intros x; rewrite B4, A4; simpl].
    + destruct (str_eq_dec x o) as [->|Hne]; intuition congruence.
    + destruct (str_eq_dec x o) as [->|Hne]; intuition congruence.
Qed.

(** settling never fails when every dirty file in the list is pending *)
Lemma settle_ok e os : forall so po sa pa, NoDup os ->
  (forall x, In x so -> ~ In x (e_dirty_art e)) -> (forall x, In x sa -> In x (e_dirty_art e)) ->
  (forall x, In x os -> In x so -> In x po) -> (forall x, In x os -> In x (e_dirty_art e) -> In x pa) ->
  exists r, settle e os (so, po, sa, pa) = Ret r.
Proof.
  induction os as [|o r IH]; intros so po sa pa Hn Hd Hs Hp Ha; cbn [settle]; [eauto|].
  inversion Hn; subst.
  assert (HE : exists so1 po1 sa1 pa1, settle_one e o (so, po, sa, pa) = Ret (so1, po1, sa1, pa1)).
  { unfold settle_one. destruct (mem o so) eqn:E1.
    { apply mem_In in E1. unfold sremove. rewrite (proj2 (mem_In o po)) by (apply Hp; [left; reflexivity|assumption]). eauto 6. }
    destruct (mem o sa) eqn:E2.
    { apply mem_In in E2. unfold sremove. rewrite (proj2 (mem_In o pa)) by (apply Ha; [left; reflexivity|auto]). eauto 6. }
    destruct (mem o (e_dirty_art e)) eqn:E3; [|eauto 6].
    apply mem_In in E3. unfold sremove. rewrite (proj2 (mem_In o pa)) by (apply Ha; [left; reflexivity|auto]). eauto 6. }
  destruct HE as (so1 & po1 & sa1 & pa1 & E). rewrite E.
  destruct (settle_one_spec _ _ _ _ _ _ _ _ _ _ Hd Hs E) as (A1 & A2 & A3 & A4).
  apply IH; [assumption| | | |].
  - intros x Hx. apply Hd, A1, Hx.
  - intros x Hx. apply Hs, A2, Hx.
  - intros x Hx Hx2. apply A3. split; [apply Hp; [right; assumption|apply A1; assumption]|]. intros (-> & _). contradiction.
  - intros x Hx Hx2. apply A4. split; [apply Ha; [right; assumption|assumption]|]. intros (-> & _). contradiction.
Qed.

(** ** the structural invariant *)
Section Inv.
Context (build : str -> fs -> option build_result) (e : env).

Fixpoint replay (s0 : fs) (l : list (str * fs * build_result)) : fs :=
  match l with [] => s0 | (_, _, r) :: t => replay (apply_build r s0) t end.

(** every finished build ran in the folder left by the earlier ones, and after
    all its dependencies *)
Fixpoint log_ok (done : list str) (s0 : fs) (l : list (str * fs * build_result)) : Prop :=
  match l with
  | [] => True
  | (f, s, r) :: t => s = s0 /\ build f s = Some r /\ deps_ok e done f /\ log_ok (done ++ [f]) (apply_build r s0) t
  end.

Lemma deps_ok_mono d1 d2 f : (forall x, In x d1 -> In x d2) -> deps_ok e d1 f -> deps_ok e d2 f.
Proof. intros H (ds & H1 & H2). exists ds. split; [assumption|]. intros c Hc Ho. apply H, H2; assumption. Qed.

Lemma names_app l1 l2 : names (l1 ++ l2) = names l1 ++ names l2.
Proof. apply map_app. Qed.
Lemma replay_app l1 : forall s0 l2, replay s0 (l1 ++ l2) = replay (replay s0 l1) l2.
Proof. induction l1 as [|[[f s] r] t IH]; intros s0 l2; simpl; [reflexivity|apply IH]. Qed.
Lemma log_ok_app l1 : forall done s0 l2, log_ok done s0 (l1 ++ l2) <-> log_ok done s0 l1 /\ log_ok (done ++ names l1) (replay s0 l1) l2.
Proof.
  induction l1 as [|[[f s] r] t IH]; intros done s0 l2; simpl.
  - rewrite app_nil_r. tauto.
  - rewrite IH, <- app_assoc. simpl. tauto.
Qed.

Record SInv (s0 : fs) (s : sched) : Prop := mkSInv {
  si_nodup : NoDup (todo s ++ pending s ++ dkeys (results s));
  si_all : forall f, In f (e_orig e) <-> In f (todo s) \/ In f (pending s) \/ In f (dkeys (results s));
  si_exec_in : forall f, In f (dkeys (executed s)) -> In f (pending s) \/ In f (dkeys (results s));
  si_exec_wf : dict_wf (executed s);
  si_res : forall f r, dget f (results s) = Some r -> exists r0, dget f (executed s) = Some (Some r0) /\
             b_produced r = b_produced r0 /\ b_reused r = b_reused r0;
  si_deps : forall f, In f (pending s) \/ In f (dkeys (results s)) -> deps_ok e (dkeys (results s)) f;
  si_log : forall f r, dget f (executed s) = Some (Some r) <-> exists d, In (f, d, r) (log s);
  si_log_nodup : NoDup (names (log s));
  si_log_ok : log_ok [] s0 (log s);
  si_disk : disk s = replay s0 (log s);
  si_wait : s_phase s = Waiting -> pending s <> []
}.

Lemma NoDup_perm_iff {A} (l1 l2 : list A) : NoDup l1 -> Permutation l1 l2 -> NoDup l2.
Proof. intros H P. eapply Permutation_NoDup; eassumption. Qed.

Lemma NoDup_app_iff {A} (l1 l2 : list A) : NoDup (l1 ++ l2) <-> NoDup l1 /\ NoDup l2 /\ (forall x, In x l1 -> ~ In x l2).
Proof.
  induction l1 as [|a r IH]; simpl.
  - split; [intros H; split; [constructor|split; [assumption|tauto]]|tauto].
  - split.
    + intros H. inversion H as [|? ? Hn Hd]; subst. apply IH in Hd. destruct Hd as (A1 & A2 & A3).
      rewrite in_app_iff in Hn. split; [constructor; tauto|]. split; [assumption|].
      intros x [<-|Hx]; [tauto|auto].
    + intros (H1 & H2 & H3). inversion H1; subst. constructor.
      * rewrite in_app_iff. intros [Ha|Ha]; [contradiction|]. apply (H3 a); auto.
      * apply IH. split; [assumption|]. split; [assumption|]. intros x Hx. apply H3. right; assumption.
Qed.

Lemma filter_NoDup {A} (p : A -> bool) l : NoDup l -> NoDup (filter p l).
Proof.
  induction 1; simpl; [constructor|]. destruct (p x); [|assumption]. constructor; [|assumption].
  rewrite filter_In. tauto.
Qed.

Lemma SInv_init order m s0 : NoDup order -> (forall f, In f order <-> In f (e_orig e)) ->
  SInv (disk (init_sched e order m s0)) (init_sched e order m s0).
Proof.
  intros Hn Ho. constructor; simpl.
  - rewrite app_nil_r. assumption.
  - intros f. rewrite Ho. tauto.
  - intros f [].
  - constructor.
  - discriminate.
  - intros f [[]|[]].
  - intros f r. split; [discriminate|intros (d & [])].
  - constructor.
  - exact I.
  - reflexivity.
  - discriminate.
Qed.

Lemma schedule_spec s s' : schedule e s = Ret s' ->
  exists new po pa, pass e (results s) (still_out s) (todo s) (pend_out s) (pend_art s) [] = Ret (new, po, pa) /\ (new <> [] \/ pending s <> []) /\ s' = mkSched Waiting (remove_files new (todo s)) (pending s ++ new) (executed s) (results s)
           (still_out s) po (still_art s) pa (mapping s) (disk s) (log s).
Proof.
  unfold schedule. destruct (pass _ _ _ _ _ _ _) as [[[ready po] pa]|] eqn:E; [|discriminate]. intros H.
  exists ready, po, pa. split; [reflexivity|].
  destruct ready as [|a t]; [destruct (pending s) as [|b u] eqn:Ep; [discriminate|]|]; injection H as <-;
    (split; [try (right; discriminate); left; discriminate|reflexivity]).
Qed.

Lemma SInv_schedule s0 s s' : SInv s0 s -> schedule e s = Ret s' -> SInv s0 s'.
Proof.
  intros [I1 I2 I3 I4 I5 I6 I7 I8 I9 I10 I11] H.
  destruct (schedule_spec _ _ H) as (new & po & pa & Hp & Hne & ->).
  destruct (pass_spec _ _ _ _ _ _ _ _ _ _ Hp) as (new' & Hn1 & Hn2 & Hn3 & _). simpl in Hn1. subst new'.
  apply NoDup_app_iff in I1. destruct I1 as (N1 & N2 & N3). apply NoDup_app_iff in N2. destruct N2 as (N2 & N4 & N5).
  constructor; simpl; try assumption.
  - apply NoDup_app_iff. split; [apply filter_NoDup; assumption|]. split.
    + apply NoDup_app_iff. split.
      { apply NoDup_app_intro; [assumption|eapply sublist_NoDup; eassumption|].
        intros x Hx Hx2. apply (N3 x); [eapply sublist_In; eassumption|apply in_or_app; auto]. }
      split; [assumption|]. intros x Hx. apply in_app_or in Hx. destruct Hx as [Hx|Hx]; [auto|].
      intros Hx2. apply (N3 x); [eapply sublist_In; eassumption|apply in_or_app; auto].
    + intros x Hx. apply remove_files_In in Hx. rewrite !in_app_iff. intros [[Hx2|Hx2]|Hx2].
      * apply (N3 x); [tauto|apply in_or_app; auto].
      * tauto.
      * apply (N3 x); [tauto|apply in_or_app; auto].
  - intros f. rewrite I2, remove_files_In, in_app_iff. destruct (in_dec str_eq_dec f new) as [Hi|Hi]; [|tauto].
    split; [tauto|]. intros _. left. eapply sublist_In; eassumption.
  - intros f Hf. rewrite in_app_iff. apply I3 in Hf. tauto.
  - intros f Hf. rewrite in_app_iff in Hf. destruct Hf as [[Hf|Hf]|Hf]; auto.
  - intros _ Hx. apply app_eq_nil in Hx. destruct Hx. destruct Hne; contradiction.
Qed.

Lemma in_names f d r l : In (f, d, r) l -> In f (names l).
Proof. intros H. apply in_map_iff. exists (f, d, r). auto. Qed.
Lemma names_in f l : In f (names l) -> exists d r, In (f, d, r) l.
Proof. intros H. apply in_map_iff in H. destruct H as ([[f' d] r] & <- & H). exists d, r. assumption. Qed.

Lemma SInv_done s0 s f : SInv s0 s -> In f (dkeys (results s)) -> In f (names (log s)).
Proof.
  intros I Hf. apply In_dkeys_dget in Hf. destruct Hf as (r & Hr). apply (si_res _ _ I) in Hr.
  destruct Hr as (r0 & Hr & _). apply (si_log _ _ I) in Hr. destruct Hr as (d & Hr). eapply in_names; eassumption.
Qed.
Lemma SInv_log_exec s0 s f : SInv s0 s -> In f (names (log s)) -> In f (dkeys (executed s)).
Proof.
  intros I Hf. apply names_in in Hf. destruct Hf as (d & r & Hf).
  assert (Hx : dget f (executed s) = Some (Some r)) by (apply (si_log _ _ I); eauto). eapply dget_Some_key; eassumption.
Qed.

Lemma SInv_execute s0 s f : SInv s0 s -> In f (pending s) -> dmem f (executed s) = false -> SInv s0 (execute build f s).
Proof.
  intros I Hp Hx. pose proof I as [I1 I2 I3 I4 I5 I6 I7 I8 I9 I10 I11]. apply dmem_false in Hx.
  unfold execute. destruct (build f (disk s)) as [r|] eqn:E; constructor; simpl; try assumption.
  - intros g Hg. apply In_dkeys_dset in Hg. destruct Hg as [->|Hg]; auto.
  - apply dict_wf_dset. assumption.
  - intros g r' Hg. destruct (I5 g r' Hg) as (r0 & Hr0 & Hr1). exists r0. split; [|assumption].
    rewrite dget_dset_other; [assumption|]. intros ->. apply Hx. eapply dget_Some_key; eassumption.
  - intros g r'. rewrite dget_dset. destruct (str_eqb g f) eqn:Eg.
    + apply str_eqb_eq in Eg. subst g. split.
      * intros [= <-]. exists (disk s). apply in_or_app. right. left. reflexivity.
      * intros (d & Hd). apply in_app_or in Hd. destruct Hd as [Hd|[Hd|[]]]; [|congruence].
        exfalso. apply Hx. eapply SInv_log_exec; [eassumption|]. eapply in_names; eassumption.
    + apply str_eqb_neq in Eg. rewrite I7. split; intros (d & Hd); exists d.
      * apply in_or_app. auto.
      * apply in_app_or in Hd. destruct Hd as [Hd|[Hd|[]]]; [assumption|congruence].
  - rewrite names_app. simpl. apply NoDup_snoc; [assumption|]. intros Hn. apply Hx. eapply SInv_log_exec; eassumption.
  - apply log_ok_app. split; [assumption|]. simpl. split; [assumption|]. split; [assumption|]. split; [|exact Logic.I].
    apply deps_ok_mono with (d1 := dkeys (results s)); [intros x Hxx; eapply SInv_done; eassumption|]. auto.
  - rewrite replay_app. simpl. rewrite <- I10. reflexivity.
  - intros g Hg. apply In_dkeys_dset in Hg. destruct Hg as [->|Hg]; auto.
  - apply dict_wf_dset. assumption.
  - intros g r' Hg. destruct (I5 g r' Hg) as (r0 & Hr0 & Hr1). exists r0. split; [|assumption].
    rewrite dget_dset_other; [assumption|]. intros ->. apply Hx. eapply dget_Some_key; eassumption.
  - intros g r'. rewrite dget_dset. destruct (str_eqb g f) eqn:Eg; [|apply I7].
    apply str_eqb_eq in Eg. subst g. split; [discriminate|]. intros Hd. apply I7 in Hd. exfalso. apply Hx. eapply dget_Some_key; eassumption.
Qed.

Lemma collect_one_spec f s s' : collect_one e f s = Ret s' ->
  exists r m cs so po sa pa, dget f (executed s) = Some (Some r) /\
    reinterpret_children e f (b_children r) (mapping s) [] = Ret (m, cs) /\
    settle e (b_outputs r) (still_out s, pend_out s, still_art s, pend_art s) = Ret (so, po, sa, pa) /\
    s' = mkSched (s_phase s) (todo s) (remove_all f (pending s)) (executed s)
           (dset f (mkBuild cs (b_produced r) (b_reused r)) (results s)) so po sa pa m (disk s) (log s).
Proof.
  unfold collect_one. destruct (dget f (executed s)) as [[r|]|] eqn:E; try discriminate.
  destruct (reinterpret_children _ _ _ _ _) as [[m cs]|] eqn:E2; try discriminate.
  fold (b_outputs r).
  destruct (settle e (b_outputs r) _) as [[[[so po] sa] pa]|] eqn:E3; try discriminate.
  intros [= <-]. exists r, m, cs, so, po, sa, pa. auto.
Qed.

(** collecting a pending file, ignoring the phase *)
Lemma SInv_collect_one s0 s s' f : SInv s0 s -> In f (pending s) -> collect_one e f s = Ret s' ->
  SInv s0 (with_phase Scheduling s').
Proof.
  intros I Hp H. pose proof I as [I1 I2 I3 I4 I5 I6 I7 I8 I9 I10 I11].
  destruct (collect_one_spec _ _ _ H) as (r & m & cs & so & po & sa & pa & Hx & _ & _ & ->).
  apply NoDup_app_iff in I1. destruct I1 as (N1 & N2 & N3). apply NoDup_app_iff in N2. destruct N2 as (N2 & N4 & N5).
  pose proof (N5 f Hp) as Hnr.
  constructor; simpl; try assumption.
  - rewrite dkeys_dset_new by assumption. apply NoDup_app_iff. split; [assumption|]. split.
    + apply NoDup_app_iff. split; [apply filter_NoDup; assumption|]. split; [apply NoDup_snoc; assumption|].
      intros x Hxx. apply remove_all_In in Hxx. rewrite in_app_iff. intros [Hr|[Hr|[]]]; [|intuition congruence].
      apply (N5 x); tauto.
    + intros x Hxx. specialize (N3 x Hxx). rewrite !in_app_iff in *. intros [Hr|[Hr|[Hr|[]]]].
      * apply remove_all_In in Hr. tauto.
      * tauto.
      * subst. tauto.
  - intros g. rewrite I2, In_dkeys_dset, remove_all_In. destruct (str_eq_dec g f) as [->|Hne]; tauto.
  - intros g Hg. rewrite In_dkeys_dset, remove_all_In. apply I3 in Hg. destruct (str_eq_dec g f) as [->|Hne]; tauto.
  - intros g r'. rewrite dget_dset. destruct (str_eqb g f) eqn:Eg; [|apply I5].
    apply str_eqb_eq in Eg. subst g. intros [= <-]. exists r. simpl. auto.
  - intros g Hg. apply deps_ok_mono with (d1 := dkeys (results s)).
    + intros x Hxx. apply In_dkeys_dset. auto.
    + apply I6. rewrite In_dkeys_dset, remove_all_In in Hg. destruct Hg as [Hg|[->|Hg]]; tauto.
  - discriminate.
Qed.

Lemma collect_one_phase f s s' p : collect_one e f s = Ret s' -> collect_one e f (with_phase p s) = Ret (with_phase p s').
Proof.
  intros H. destruct (collect_one_spec _ _ _ H) as (r & m & cs & so & po & sa & pa & Hx & Hr & Hs & ->).
  unfold collect_one. simpl. rewrite Hx, Hr. fold (b_outputs r). rewrite Hs. reflexivity.
Qed.
Lemma with_phase_twice p q s : with_phase p (with_phase q s) = with_phase p s.
Proof. reflexivity. Qed.

(** an invariant preserved by collecting one file is preserved by collecting
    several *)
Lemma collect_ind (J : sched -> Prop) :
  (forall s s' f, J s -> s_phase s = Scheduling -> In f (pending s) -> collect_one e f s = Ret s' -> J s') ->
  forall fs s s', J (with_phase Scheduling s) -> NoDup fs -> (forall f, In f fs -> In f (pending s)) ->
    collect e fs s = Ret s' -> J (with_phase Scheduling s').
Proof.
  intros Hstep. induction fs as [|f r IH]; intros s s' HJ Hn Hsub H; cbn [collect] in H.
  - injection H as <-. assumption.
  - destruct (collect_one e f s) as [s1|] eqn:E; [|discriminate]. inversion Hn; subst.
    apply (IH s1); [| assumption | | assumption].
    + eapply Hstep; [eassumption|reflexivity| |apply collect_one_phase; eassumption]. simpl. apply Hsub. left; reflexivity.
    + intros g Hg. destruct (collect_one_spec _ _ _ E) as (r' & m & cs & so & po & sa & pa & _ & _ & _ & ->). simpl.
      apply remove_all_In. split; [apply Hsub; right; assumption|]. intros ->. contradiction.
Qed.

Lemma SInv_phase s0 s p : SInv s0 s -> (p = Waiting -> pending s <> []) -> SInv s0 (with_phase p s).
Proof. intros [] H. constructor; simpl; assumption. Qed.

Lemma SInv_collect s0 s s' fs : SInv s0 s -> sublist fs (pending s) -> collect e fs s = Ret s' -> SInv s0 (with_phase Scheduling s').
Proof.
  intros I Hs H. eapply (collect_ind (SInv s0)); [|apply SInv_phase; [eassumption|discriminate]| | |eassumption].
  - intros t t' f It Hph Hf Hc. assert (Hw : with_phase Scheduling t' = t').
    { destruct (collect_one_spec _ _ _ Hc) as (r' & m & cs & so & po & sa & pa & _ & _ & _ & ->). rewrite Hph. reflexivity. }
    rewrite <- Hw. eapply SInv_collect_one; eassumption.
  - eapply sublist_NoDup; [eassumption|]. pose proof (si_nodup _ _ I) as N. apply NoDup_app_iff in N. destruct N as (_ & N & _).
    apply NoDup_app_iff in N. tauto.
  - intros f Hf. eapply sublist_In; eassumption.
Qed.

Lemma SInv_step s0 s s' : SInv s0 s -> step build e s (Running s') -> SInv s0 s'.
Proof.
  intros I H. inversion H; subst.
  - eapply SInv_schedule; eassumption.
  - apply SInv_execute; assumption.
  - eapply SInv_collect; eassumption.
Qed.
Lemma SInv_steps s0 s s' : SInv s0 s -> steps build e s s' -> SInv s0 s'.
Proof. intros I H. induction H; [assumption|]. eapply SInv_step; [|eassumption]. auto. Qed.
End Inv.
