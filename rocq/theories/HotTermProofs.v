(** Termination, progress and the meaning of a stop (C12). *)
From Verif Require Import Base Graph GraphSpec GraphProofs Hot HotSpec HotDirtyProofs HotSchedProofs HotSchedMain.
From Coq Require Import String ZArith Bool List Relations Lia Permutation.
Import ListNotations.
Open Scope list_scope.

(** ** the search for the producer of an output *)
Section Search.
Context (D O : graph) (HD : Inv D) (HDO : forall k, In k (dkeys D) -> In k (dkeys O)) (child : str).

Lemma search_push_spec cs : forall seen stack seen' stack', search_push cs seen stack = (seen', stack') ->
  exists new, stack' = rev new ++ stack /\ seen' = rev new ++ seen /\ (forall x, In x new <-> In x cs /\ ~ In x seen) /\ NoDup new.
Proof.
  induction cs as [|c r IH]; intros seen stack seen' stack' H; cbn [search_push] in H.
  - injection H as <- <-. exists []. simpl. split; [reflexivity|]. split; [reflexivity|]. split; [tauto|constructor].
  - destruct (mem c seen) eqn:E.
    + apply mem_In in E. destruct (IH _ _ _ _ H) as (new & H1 & H2 & H3 & H4). exists new.
      split; [assumption|]. split; [assumption|]. split; [|assumption]. intros x. rewrite H3. simpl. intuition congruence.
    + apply mem_false in E. destruct (IH _ _ _ _ H) as (new & H1 & H2 & H3 & H4). exists (c :: new).
      split; [simpl; rewrite <- app_assoc; assumption|]. split; [simpl; rewrite <- app_assoc; assumption|].
      split.
      * intros x. simpl. rewrite H3. simpl. split.
        -- intros [<-|(Hx & Hn)]; [auto|]. split; [auto|]. intros Hs. apply Hn. auto.
        -- intros ([<-|Hx] & Hn); [auto|]. destruct (str_eq_dec c x) as [->|Hne]; [auto|]. right. split; [assumption|]. tauto.
      * constructor; [|assumption]. rewrite H3. simpl. tauto.
Qed.

Lemma get_children_key g k : In k (dkeys g) -> exists cs, get_children g k = Ret cs /\ cs = ch g k.
Proof.
  intros H. rewrite <- children_in_ch. unfold children_in. destruct (get_children g k) as [cs|x] eqn:E; [eauto|].
  unfold get_children in E. destruct (dget k g) eqn:E2; [discriminate|]. apply dget_None in E2. contradiction.
Qed.

Definition reach := clos_refl_trans str (fun a b => In b (ch D a)).

Definition unseen (seen : list str) : list str := filter (fun k => negb (mem k seen)) (dkeys D).
Lemma unseen_In seen k : In k (unseen seen) <-> In k (dkeys D) /\ ~ In k seen.
Proof. unfold unseen. rewrite filter_In, negb_true_iff, mem_false. tauto. Qed.
Lemma unseen_NoDup seen : NoDup (unseen seen).
Proof. apply filter_NoDup. exact (proj1 HD). Qed.

Lemma search_loop f0 : forall fuel stack seen visited,
  length stack + length (unseen seen) < fuel ->
  (forall x, In x stack -> In x (dkeys D) /\ reach f0 x) ->
  (forall x, In x seen -> In x visited \/ In x stack) ->
  (forall v, In v visited -> ~ In child (ch O v) /\ forall c, In c (ch D v) -> In c seen) ->
  In f0 visited \/ In f0 stack ->
  (exists x, search_producer fuel D O child stack seen = Ret (Some x) /\ reach f0 x /\ In child (ch O x)) \/
  (search_producer fuel D O child stack seen = Ret None /\ forall x, reach f0 x -> ~ In child (ch O x)).
Proof.
  induction fuel as [|n IH]; intros stack seen visited Hf Hs Hseen Hv H0; [lia|]. cbn [search_producer].
  destruct stack as [|f rest].
  - right. split; [reflexivity|]. destruct H0 as [H0|[]].
    assert (Hr : forall x, reach f0 x -> In x visited).
    { intros x Hx. apply clos_rt_rtn1 in Hx. induction Hx as [|y z Hyz Hy IHy]; [assumption|].
      destruct (Hv y IHy) as (_ & Hc). destruct (Hseen z (Hc z Hyz)) as [Hz|[]]. assumption. }
    intros x Hx. apply Hv, Hr, Hx.
  - destruct (Hs f (or_introl eq_refl)) as (Hk & Hr).
    destruct (get_children_key O f (HDO f Hk)) as (outs & -> & ->).
    destruct (mem child (ch O f)) eqn:E.
    { apply mem_In in E. left. exists f. auto. }
    apply mem_false in E.
    destruct (get_children_key D f Hk) as (cs & -> & ->).
    destruct (search_push (ch D f) seen rest) as [seen1 stack1] eqn:Ep.
    destruct (search_push_spec _ _ _ _ _ Ep) as (new & -> & -> & Hnew & Hnd).
    apply (IH _ _ (f :: visited)).
    + rewrite app_length, rev_length. simpl in Hf.
      assert (Hlen : length new + length (unseen (rev new ++ seen)) <= length (unseen seen)).
      { rewrite <- app_length. apply NoDup_incl_length.
        - apply NoDup_app_intro; [assumption|apply unseen_NoDup|]. intros x Hx Hx2. apply unseen_In in Hx2.
          apply (proj2 Hx2). apply in_or_app. left. apply in_rev in Hx. assumption.
        - intros x Hx. apply in_app_or in Hx. apply unseen_In. destruct Hx as [Hx|Hx].
          + apply Hnew in Hx. split; [|tauto]. apply (Inv_ch_closed D f); tauto.
          + apply unseen_In in Hx. rewrite in_app_iff in Hx. tauto. }
      lia.
    + intros x Hx. apply in_app_or in Hx. destruct Hx as [Hx|Hx]; [|apply Hs; right; assumption].
      apply in_rev in Hx. apply Hnew in Hx. split; [apply (Inv_ch_closed D f); tauto|].
      eapply rt_trans; [eassumption|]. apply rt_step. tauto.
    + intros x Hx. apply in_app_or in Hx. rewrite in_app_iff. simpl. destruct Hx as [Hx|Hx]; [auto|].
      destruct (Hseen x Hx) as [Hx2|[<-|Hx2]]; auto.
    + intros v [<-|Hv2].
      * split; [assumption|]. intros c Hc. apply in_or_app. destruct (in_dec str_eq_dec c seen); [auto|].
        left. rewrite <- in_rev. apply Hnew. auto.
      * destruct (Hv v Hv2) as (A & B). split; [assumption|]. intros c Hc. apply in_or_app. right. auto.
    + destruct H0 as [H0|[->|H0]]; [left; right; assumption|left; left; reflexivity|right; apply in_or_app; auto].
Qed.

Lemma search_correct f0 : In f0 (dkeys D) ->
  (exists x, search_producer (S (S (length D))) D O child [f0] [] = Ret (Some x) /\ reach f0 x /\ In child (ch O x)) \/
  (search_producer (S (S (length D))) D O child [f0] [] = Ret None /\ forall x, reach f0 x -> ~ In child (ch O x)).
Proof.
  intros Hk. apply (search_loop f0) with (visited := []).
  - simpl. assert (H : length (unseen []) <= length D).
    { rewrite <- (length_dkeys D). apply NoDup_incl_length; [apply unseen_NoDup|]. intros x Hx. apply unseen_In in Hx. tauto. }
    lia.
  - intros x [<-|[]]. split; [assumption|apply rt_refl].
  - intros x [].
  - intros v [].
  - right. left. reflexivity.
Qed.
End Search.

Section Term.
Context (build : str -> fs -> option build_result) (e : env).

(** ** measure *)
Definition unexec (s : sched) : nat := length (filter (fun f => negb (dmem f (executed s))) (pending s)).
Definition mu (s : sched) : nat :=
  3 * length (todo s) + 2 * length (pending s) + unexec s + match s_phase s with Scheduling => 1 | Waiting => 0 end.

Lemma filter_length_split {A} (p : A -> bool) l : length (filter p l) + length (filter (fun x => negb (p x)) l) = length l.
Proof. induction l as [|x r IH]; simpl; [reflexivity|]. destruct (p x); simpl; lia. Qed.
Lemma filter_length_le {A} (p q : A -> bool) l : (forall x, In x l -> p x = true -> q x = true) -> length (filter p l) <= length (filter q l).
Proof.
  induction l as [|x r IH]; simpl; intros H; [lia|]. assert (IH' := IH (fun y Hy => H y (or_intror Hy))).
  specialize (H x (or_introl eq_refl)). destruct (p x); [rewrite H by reflexivity; simpl; lia|]. destruct (q x); simpl; lia.
Qed.
Lemma filter_length_lt {A} (p q : A -> bool) l : (forall x, In x l -> p x = true -> q x = true) ->
  (exists x, In x l /\ p x = false /\ q x = true) -> length (filter p l) < length (filter q l).
Proof.
  induction l as [|x r IH]; intros H (y & Hy & Hp & Hq); [destruct Hy|]. simpl.
  pose proof (filter_length_le p q r (fun z Hz => H z (or_intror Hz))) as Hle.
  destruct Hy as [->|Hy].
  - rewrite Hp, Hq. simpl. lia.
  - assert (IH' := IH (fun z Hz => H z (or_intror Hz)) (ex_intro _ y (conj Hy (conj Hp Hq)))).
    specialize (H x (or_introl eq_refl)). destruct (p x); [rewrite H by reflexivity; simpl; lia|]. destruct (q x); simpl; lia.
Qed.
Lemma remove_files_length new l : sublist new l -> NoDup l -> length (remove_files new l) + length new = length l.
Proof.
  intros Hs Hn. rewrite <- (filter_length_split (fun f => mem f new) l). unfold remove_files. rewrite Nat.add_comm. f_equal.
  apply Permutation_length. apply NoDup_Permutation.
  - eapply sublist_NoDup; eassumption.
  - apply filter_NoDup. assumption.
  - intros x. rewrite filter_In, mem_In. split; [|tauto]. intros Hx. split; [eapply sublist_In; eassumption|assumption].
Qed.
Lemma remove_all_length f l : NoDup l -> In f l -> S (length (remove_all f l)) = length l.
Proof.
  induction l as [|x r IH]; intros Hn Hi; [destruct Hi|]. inversion Hn; subst. simpl. destruct (str_eqb f x) eqn:E; simpl.
  - apply str_eqb_eq in E. subst. rewrite remove_all_none by assumption. reflexivity.
  - apply str_eqb_neq in E. destruct Hi; [congruence|]. rewrite IH; auto.
Qed.

Lemma mu_schedule s0 s s' : SInv build e s0 s -> s_phase s = Scheduling -> schedule e s = Ret s' -> mu s' < mu s.
Proof.
  intros I Hph H. destruct (schedule_spec _ _ _ H) as (new & po & pa & Hp & _ & ->).
  destruct (pass_spec _ _ _ _ _ _ _ _ _ _ Hp) as (new' & Hn1 & Hn2 & _). simpl in Hn1. subst new'.
  assert (Hnd : NoDup (todo s)). { pose proof (si_nodup _ _ _ _ I) as N. apply NoDup_app_iff in N. tauto. }
  pose proof (remove_files_length _ _ Hn2 Hnd) as HL. unfold mu, unexec. simpl. rewrite Hph, filter_app, !app_length.
  assert (length (filter (fun f => negb (dmem f (executed s))) new) <= length new); [|lia].
  rewrite <- (filter_length_split (fun f => negb (dmem f (executed s))) new). lia.
Qed.
Lemma mu_execute s f : In f (pending s) -> dmem f (executed s) = false -> mu (execute build f s) < mu s.
Proof.
  intros Hf Hx. unfold mu, unexec, execute.
  assert (HL : forall v, length (filter (fun g => negb (dmem g (dset f v (executed s)))) (pending s)) < length (filter (fun g => negb (dmem g (executed s))) (pending s))).
  { intros v. apply filter_length_lt.
    - intros g _. rewrite !negb_true_iff, !dmem_false, In_dkeys_dset. tauto.
    - exists f. split; [assumption|]. rewrite negb_false_iff, negb_true_iff. split; [|assumption]. apply dmem_In, In_dkeys_dset. auto. }
  destruct (build f (disk s)) as [r|]; simpl; [specialize (HL (Some r))|specialize (HL None)]; lia.
Qed.
Lemma mu_collect_one s s' f : NoDup (pending s) -> In f (pending s) -> collect_one e f s = Ret s' -> mu s' + 2 <= mu s /\ NoDup (pending s') .
Proof.
  intros Hn Hf H. destruct (collect_one_spec _ _ _ _ H) as (r & m & cs & so & po & sa & pa & Hx & _ & _ & ->).
  unfold mu, unexec. simpl. split; [|apply filter_NoDup; assumption].
  pose proof (remove_all_length _ _ Hn Hf) as HL.
  assert (length (filter (fun g => negb (dmem g (executed s))) (remove_all f (pending s))) <= length (filter (fun g => negb (dmem g (executed s))) (pending s))); [|lia].
  unfold remove_all. generalize (pending s). intros l. induction l as [|x t IH]; simpl; [lia|].
  destruct (str_eqb f x); simpl; destruct (dmem x (executed s)); simpl; lia.
Qed.
Lemma mu_collect fs : forall s s', NoDup fs -> NoDup (pending s) -> (forall f, In f fs -> In f (pending s)) ->
  collect e fs s = Ret s' -> mu s' + 2 * length fs <= mu s /\ s_phase s' = s_phase s.
Proof.
  induction fs as [|f r IH]; intros s s' Hf Hn Hsub H; cbn [collect] in H; [injection H as <-; simpl; split; [lia|reflexivity]|].
  destruct (collect_one e f s) as [s1|] eqn:E; [|discriminate]. inversion Hf; subst.
  destruct (mu_collect_one _ _ _ Hn (Hsub f (or_introl eq_refl)) E) as (A & B).
  assert (Hc := collect_one_spec _ _ _ _ E). destruct Hc as (r' & m & cs & so & po & sa & pa & _ & _ & _ & Es).
  destruct (IH s1 s') as (C & F); [assumption|assumption| |assumption|].
  - intros g Hg. rewrite Es. simpl. apply remove_all_In. split; [apply Hsub; right; assumption|]. intros ->. contradiction.
  - split; [simpl; lia|]. rewrite F, Es. reflexivity.
Qed.
Lemma mu_step s0 s s' : SInv build e s0 s -> step build e s (Running s') -> mu s' < mu s.
Proof.
  intros I H. inversion H; subst.
  - eapply mu_schedule; eassumption.
  - apply mu_execute; assumption.
  - destruct (sub_pending_NoDup _ _ _ _ _ I ltac:(eassumption)) as (Hn & Hsub).
    assert (Hpn : NoDup (pending s)). { pose proof (si_nodup _ _ _ _ I) as N. apply NoDup_app_iff in N. destruct N as (_ & N & _). apply NoDup_app_iff in N. tauto. }
    match goal with Hc : collect _ _ _ = _ |- _ => destruct (mu_collect _ _ _ Hn Hpn Hsub Hc) as (A & B) end.
    rename H1 into Hph. unfold mu, unexec in *. simpl. rewrite B, Hph in A. rewrite Hph in *.
    assert (length fs > 0) by (destruct fs; [congruence|simpl; lia]). lia.
Qed.

Lemma bounded_run order m s0 (tr : nat -> sched) : NoDup order -> (forall f, In f order <-> In f (e_orig e)) ->
  tr 0 = init_sched e order m s0 -> forall n, (forall i, i < n -> step build e (tr i) (Running (tr (S i)))) ->
  n <= 3 * length order + 1.
Proof.
  intros Hn Ho H0 n H.
  assert (Hmu : forall i, i <= n -> SInv build e (disk (init_sched e order m s0)) (tr i) /\ i + mu (tr i) <= mu (tr 0)).
  { induction i as [|i IH]; intros Hi.
    - split; [rewrite H0; apply SInv_init; assumption|lia].
    - destruct IH as (I & A); [lia|]. specialize (H i ltac:(lia)). split; [eapply SInv_step; eassumption|].
      pose proof (mu_step _ _ _ I H). lia. }
  destruct (Hmu n (le_n n)) as (_ & A). rewrite H0 in A. assert (E : mu (init_sched e order m s0) = 3 * length order + 1) by (unfold mu, unexec; simpl; lia). lia.
Qed.

(** ** progress *)
Lemma progress s0 s : SInv build e s0 s -> finished s \/ exists st, step build e s st.
Proof.
  intros I. destruct (s_phase s) eqn:Hph.
  - destruct (todo s) as [|a t] eqn:Et, (pending s) as [|b u] eqn:Ep.
    + left. split; [assumption|]. auto.
    + right. destruct (schedule e s) as [s'|x] eqn:E; eexists; [eapply step_schedule; try eassumption|eapply step_schedule_fail; try eassumption]; right; rewrite Ep; discriminate.
    + right. destruct (schedule e s) as [s'|x] eqn:E; eexists; [eapply step_schedule; try eassumption|eapply step_schedule_fail; try eassumption]; left; rewrite Et; discriminate.
    + right. destruct (schedule e s) as [s'|x] eqn:E; eexists; [eapply step_schedule; try eassumption|eapply step_schedule_fail; try eassumption]; left; rewrite Et; discriminate.
  - right. pose proof (si_wait _ _ _ _ I Hph) as Hp. destruct (pending s) as [|f u] eqn:Ep; [congruence|].
    destruct (dmem f (executed s)) eqn:Ex.
    + assert (Hs : sublist [f] (pending s)) by (rewrite Ep; constructor; constructor).
      destruct (collect e [f] s) as [s'|x] eqn:E; eexists; [eapply step_collect with (fs := [f])|eapply step_collect_fail with (fs := [f])];
        try eassumption; try discriminate; intros g [<-|[]]; assumption.
    + eexists. eapply step_execute with (f := f); [rewrite Ep; left; reflexivity|assumption].
Qed.

(** ** stops *)
Section Stops.
Context (Hdisj : forall o, In o (e_dirty_out e) -> ~ In o (e_dirty_art e)).

Lemma pass_no_fail res0 so files : (forall f, In f files -> exists d, depends_on e f = Ret d) ->
  forall po pa ready, exists r, pass e res0 so files po pa ready = Ret r.
Proof.
  induction files as [|f r IH]; intros H po pa ready; cbn [pass]; [eauto|].
  destruct (H f (or_introl eq_refl)) as (d & ->). assert (IH' := IH (fun g Hg => H g (or_intror Hg))).
  destruct (negb (deps_built e res0 d)); [apply IH'|]. destruct (existsb _ _); [apply IH'|].
  destruct (mark_outputs e so (creates e f) po pa). apply IH'.
Qed.

Lemma schedule_cyclic s s0 x : SO build e s0 s -> PInv e s -> todo s <> [] \/ pending s <> [] ->
  (forall f, In f (e_orig e) -> exists d, depends_on e f = Ret d) ->
  schedule e s = Raise x -> x = CyclicDependencyException /\ exists f, In f (e_orig e) /\ clos_trans str (waits_for e) f f.
Proof.
  intros (I & O) P Hne Hd H. unfold schedule in H.
  destruct (pass_no_fail (results s) (still_out s) (todo s)) with (po := pend_out s) (pa := pend_art s) (ready := @nil str) as (([ready po'] & pa') & Hp).
  { intros f Hf. apply Hd, (si_all _ _ _ _ I). auto. }
  rewrite Hp in H. destruct ready as [|a t]; [|discriminate]. destruct (pending s) as [|b u] eqn:Ep; [|discriminate].
  injection H as <-. split; [reflexivity|]. destruct Hne as [Hne|Hne]; [|congruence].
  destruct (pigeon_cycle (waits_for e) (todo s) Hne) as (f & Hf & Hc).
  - intros f Hf.
    destruct (pass_empty build e _ _ _ _ _ _ _ Hp) with (f := f) as (deps & c & H1 & H2 & H3 & H4); [|assumption|].
    + intros g o Ho. split; intros Hx.
      * destruct (pi_po _ _ P o Hx) as (h & Hh & _). rewrite Ep in Hh. destruct Hh.
      * destruct (pi_pa _ _ P o Hx) as (_ & h & Hh & _). rewrite Ep in Hh. destruct Hh.
    + exists c. split.
      * pose proof (proj1 (si_all _ _ _ _ I c) H3) as Hc. rewrite Ep in Hc. destruct Hc as [Hc|[[]|Hc]]; tauto.
      * split; [assumption|]. eauto.
  - exists f. split; [apply (si_all _ _ _ _ I); auto|assumption].
Qed.

(** children in the out folder can be attributed *)
Definition attributable (m0 : dict str) (f c : str) : Prop :=
  is_out c = true -> In c (dkeys m0) \/
  (dmem f (e_scans e) = false /\ In f (dkeys (e_D e)) /\ exists x, reach (e_D e) f x /\ In c (ch (e_O e) x)).

Lemma reinterpret_ok m0 f : Inv (e_D e) -> (forall k, In k (dkeys (e_D e)) -> In k (dkeys (e_O e))) ->
  forall cs m acc, (forall k, In k (dkeys m0) -> In k (dkeys m)) -> (forall c, In c cs -> attributable m0 f c) ->
  exists m' cs', reinterpret_children e f cs m acc = Ret (m', cs') /\ forall k, In k (dkeys m) -> In k (dkeys m').
Proof.
  intros HD HDO. induction cs as [|c r IH]; intros m acc Hm Ha; cbn [reinterpret_children]; [eauto|].
  assert (Ha' : forall c, In c r -> attributable m0 f c) by (intros; apply Ha; right; assumption).
  destruct (dget c m) as [x|] eqn:E; [apply IH; assumption|].
  destruct (is_out c) eqn:Eo; [|apply IH; assumption].
  destruct (Ha c (or_introl eq_refl) Eo) as [Hk|(Hs & Hf & x & Hx)].
  { apply dget_None in E. exfalso. auto. }
  rewrite Hs. destruct (search_correct (e_D e) (e_O e) HD HDO c f Hf) as [(y & -> & _)|(_ & Hno)].
  - destruct (IH (dset c y m) (if str_eqb y f then acc else acc ++ [y])) as (m' & cs' & H1 & H2).
    + intros k Hk. apply In_dkeys_dset. auto.
    + assumption.
    + exists m', cs'. split; [assumption|]. intros k Hk. apply H2, In_dkeys_dset. auto.
  - exfalso. apply (Hno x); tauto.
Qed.

Lemma reinterpret_keys f cs : forall m acc m' cs', reinterpret_children e f cs m acc = Ret (m', cs') -> forall k, In k (dkeys m) -> In k (dkeys m').
Proof.
  induction cs as [|c r IH]; intros m acc m' cs' H k Hk; cbn [reinterpret_children] in H; [injection H as <- <-; assumption|].
  destruct (dget c m) as [x|]; [eapply IH; eassumption|]. destruct (is_out c); [|eapply IH; eassumption].
  destruct (dmem f (e_scans e)); [discriminate|]. destruct (search_producer _ _ _ _ _ _) as [[x|]|]; try discriminate.
  eapply IH; [eassumption|]. apply In_dkeys_dset. auto.
Qed.

Definition MInv (m0 : dict str) (s : sched) : Prop := forall k, In k (dkeys m0) -> In k (dkeys (mapping s)).
Lemma MInv_collect m0 fs : forall s s', MInv m0 s -> collect e fs s = Ret s' -> MInv m0 s'.
Proof.
  induction fs as [|f r IH]; intros s s' HM H; cbn [collect] in H; [injection H as <-; assumption|].
  destruct (collect_one e f s) as [s1|] eqn:E; [|discriminate]. apply (IH s1); [|assumption].
  destruct (collect_one_spec _ _ _ _ E) as (r' & m & cs & so & po & sa & pa & _ & Hr & _ & ->). intros k Hk. simpl.
  eapply reinterpret_keys; [eassumption|]. auto.
Qed.
Lemma MInv_step m0 s s' : MInv m0 s -> step build e s (Running s') -> MInv m0 s'.
Proof.
  intros HM H. inversion H; subst.
  - destruct (schedule_spec _ _ _ ltac:(eassumption)) as (new & po & pa & _ & _ & ->). exact HM.
  - unfold execute. destruct (build f (disk s)); exact HM.
  - match goal with Hc : collect _ _ _ = _ |- _ => exact (MInv_collect _ _ _ _ HM Hc) end.
Qed.
Lemma MInv_steps m0 s s' : MInv m0 s -> steps build e s s' -> MInv m0 s'.
Proof. intros I H. induction H; [assumption|]. eapply MInv_step; [|eassumption]. auto. Qed.

(** the builds of the run behaved *)
Record behaved (m0 : dict str) (s : sched) : Prop := mkBehaved {
  bh_no_raise : forall f, dget f (executed s) <> Some None;
  bh_rp : reports_predicted e s;
  bh_nodup : forall f d r, In (f, d, r) (log s) -> NoDup (b_outputs r);
  bh_attr : forall f d r c, In (f, d, r) (log s) -> In c (b_children r) -> attributable m0 f c
}.

Lemma collect_one_ok m0 s0 s f : Inv (e_D e) -> (forall k, In k (dkeys (e_D e)) -> In k (dkeys (e_O e))) ->
  SO build e s0 s -> XInv e s -> MInv m0 s -> behaved m0 s -> In f (pending s) -> dmem f (executed s) = true ->
  exists s', collect_one e f s = Ret s'.
Proof.
  intros HD HDO (I & O) X HM B Hf Hx. apply dmem_In in Hx. apply In_dkeys_dget in Hx. destruct Hx as ([r|] & Hx).
  2: { exfalso. eapply bh_no_raise; eassumption. }
  pose proof (proj1 (si_log _ _ _ _ I f r) Hx) as (d & Hl). unfold collect_one. rewrite Hx.
  destruct (reinterpret_ok m0 f HD HDO (b_children r) (mapping s) []) as (m' & cs' & -> & _).
  { exact HM. } { intros c Hc. eapply bh_attr; eassumption. }
  destruct (settle_ok e (b_outputs r) (still_out s) (pend_out s) (still_art s) (pend_art s)) as ([[[so po] sa] pa] & Hs).
  - eapply bh_nodup; eassumption.
  - intros o Ho. apply (oi_so _ _ O) in Ho. apply Hdisj. tauto.
  - intros o Ho. apply (oi_sa _ _ O) in Ho. tauto.
  - intros o Ho Hso. eapply (oi_a1 _ _ O); [exact Hf| |assumption]. eapply bh_rp; [eassumption|eassumption|assumption|]. left. apply (oi_so _ _ O). assumption.
  - intros o Ho Ha. eapply (xi_a2 _ _ X); [exact Hf| |assumption]. eapply bh_rp; [eassumption|eassumption|assumption|]. right. assumption.
  - unfold b_outputs in Hs. rewrite Hs. eauto.
Qed.

Lemma collect_ok m0 s0 fs : Inv (e_D e) -> (forall k, In k (dkeys (e_D e)) -> In k (dkeys (e_O e))) ->
  forall s, NoDup fs -> SO build e s0 s -> XInv e s -> MInv m0 s -> behaved m0 s ->
  (forall f, In f fs -> In f (pending s)) -> (forall f, In f fs -> dmem f (executed s) = true) ->
  s_phase s = Scheduling -> exists s', collect e fs s = Ret s'.
Proof.
  intros HD HDO. induction fs as [|f r IH]; intros s Hn I X HM B Hp Hx Hph; cbn [collect]; [eauto|]. inversion Hn; subst.
  destruct (collect_one_ok m0 s0 s f) as (s1 & E); auto; [apply Hp; left; reflexivity|apply Hx; left; reflexivity|]. rewrite E.
  pose proof (collect_one_spec _ _ _ _ E) as (r' & m & cs & so & po & sa & pa & _ & _ & _ & Es).
  apply IH.
  - assumption.
  - eapply SO_collect_one; [assumption|eassumption|assumption| |eassumption]. apply Hp; left; reflexivity.
  - eapply XInv_collect_one; [assumption|eassumption|assumption|apply B| |eassumption]. apply Hp; left; reflexivity.
  - apply (MInv_collect m0 [f] s); [assumption|]. cbn [collect]. rewrite E. reflexivity.
  - destruct B. constructor; subst s1; simpl; assumption.
  - intros g Hg. subst s1. simpl. apply remove_all_In. split; [apply Hp; right; assumption|]. intros ->. contradiction.
  - intros g Hg. subst s1. simpl. apply Hx. right; assumption.
  - subst s1. assumption.
Qed.

Lemma collect_phase p fs : forall s, collect e fs (with_phase p s) = match collect e fs s with Ret s' => Ret (with_phase p s') | Raise x => Raise x end.
Proof.
  induction fs as [|f r IH]; intros s; cbn [collect]; [reflexivity|].
  assert (E : collect_one e f (with_phase p s) = match collect_one e f s with Ret s' => Ret (with_phase p s') | Raise x => Raise x end).
  { unfold collect_one. simpl. destruct (dget f (executed s)) as [[r'|]|]; try reflexivity.
    destruct (reinterpret_children _ _ _ _ _) as [[m cs]|]; [|reflexivity].
    destruct (settle _ _ _) as [[[[so po] sa] pa]|]; reflexivity. }
  rewrite E. destruct (collect_one e f s); [apply IH|reflexivity].
Qed.

(** a well-behaved run can only be stopped by a cycle *)
Lemma stop_cyclic order m0 fs0 s x s' : NoDup order -> (forall f, In f order <-> In f (e_orig e)) ->
  Inv (e_D e) -> (forall k, In k (dkeys (e_D e)) -> In k (dkeys (e_O e))) ->
  (forall f, In f (e_orig e) -> exists d, depends_on e f = Ret d) ->
  steps build e (init_sched e order m0 fs0) s -> behaved m0 s -> predictions_reported e s ->
  step build e s (Stopped x s') ->
  x = CyclicDependencyException /\ exists f, In f (e_orig e) /\ clos_trans str (waits_for e) f f.
Proof.
  intros Hn Ho HD HDO Hd Hr B Hpr H.
  assert (I : SO build e (disk (init_sched e order m0 fs0)) s).
  { eapply SO_steps; [assumption| |eassumption]. split; [apply SInv_init; assumption|apply OInv_init; assumption]. }
  assert (P : PInv e s).
  { eapply PInv_steps; [assumption| | |eassumption|assumption]; [split; [apply SInv_init; assumption|apply OInv_init; assumption]|apply PInv_init; assumption]. }
  assert (X : XInv e s).
  { eapply XInv_steps; [assumption| | |eassumption|exact (bh_rp _ _ B)]; [split; [apply SInv_init; assumption|apply OInv_init; assumption]|apply XInv_init; assumption]. }
  assert (HM : MInv m0 s). { eapply MInv_steps; [|eassumption]. intros k Hk. exact Hk. }
  inversion H; subst.
  - eapply schedule_cyclic; eassumption.
  - exfalso. destruct (sub_pending_NoDup _ _ _ _ _ (proj1 I) ltac:(eassumption)) as (Hfn & Hsub).
    destruct (collect_ok m0 (disk (init_sched e order m0 fs0)) fs HD HDO (with_phase Scheduling s')) as (s1 & E); try assumption.
    + destruct I. split; [apply SInv_phase; [assumption|discriminate]|apply OInv_phase; assumption].
    + apply XInv_phase; assumption.
    + destruct B. constructor; assumption.
    + reflexivity.
    + rewrite collect_phase in E. match goal with Hc : collect _ _ _ = Raise _ |- _ => rewrite Hc in E end. discriminate.
Qed.
End Stops.
End Term.
