(** The scheduling theorems in terms of HotSpec. *)
From Verif Require Import Base Graph GraphSpec GraphProofs Hot HotSpec HotDirtyProofs HotSchedProofs HotSchedMain HotTermProofs.
From Coq Require Import String ZArith Bool List Relations Lia Permutation.
Import ListNotations.
Open Scope list_scope.

Section Main.
Context (build : str -> fs -> option build_result) (D O P : graph) (scans : dict scan_result) (new_placeholders : dict str)
  (deleted : list str) (e : env) (m : dict str).
Context (HG : project_graphs D O P) (Hprep : prepare D O P scans new_placeholders deleted = Ret (e, m)).

Lemma reinterpret_scans_keys del scs : forall m0 m1 scs1, reinterpret_scans O del scs m0 = Ret (m1, scs1) ->
  dkeys scs1 = dkeys scs /\ forall f, option_map s_produces (dget f scs1) = option_map s_produces (dget f scs).
Proof.
  induction scs as [|[f sc] r IH]; intros m0 m1 scs1 H; cbn [reinterpret_scans] in H; [injection H as <- <-; auto|].
  destruct (reinterpret_deps _ _ _ _ _) as [[m2 ds]|]; [|discriminate].
  destruct (reinterpret_scans O del r m2) as [[m3 r2]|] eqn:E; [|discriminate]. injection H as <- <-.
  destruct (IH _ _ _ E) as (H1 & H2). split; [simpl; f_equal; assumption|].
  intros g. simpl. destruct (str_eqb g f); [reflexivity|apply H2].
Qed.

Lemma prepared : e_D e = D /\ e_O e = O /\ e_P e = P /\ e_new_placeholders e = new_placeholders /\ dkeys (e_scans e) = dkeys scans /\
  NoDup (e_orig e) /\
  (forall f, In f (e_orig e) <-> affected D P (dkeys scans) deleted f /\ ~ In f deleted) /\
  (forall o, In o (e_dirty_out e) <-> ~ is_artifact o /\ exists f, affected D P (dkeys scans) deleted f /\ depends O f o) /\
  (forall o, In o (e_dirty_art e) <-> is_artifact o /\ exists f, affected D P (dkeys scans) deleted f /\ depends O f o).
Proof.
  destruct HG as (H1 & H2 & H3 & H4 & H5). unfold prepare in Hprep.
  destruct (reinterpret_scans _ _ _ _) as [[m1 scs1]|] eqn:E; [|discriminate].
  destruct (dirty_correct D O P (proj2 (Inv_well_formed D) H1) (proj2 (Inv_well_formed P) H3) (dkeys scans) deleted)
    as (files & outs & arts & Ed & N1 & N2 & N3 & A1 & A2 & A3).
  rewrite Ed in Hprep. injection Hprep as <- <-. simpl.
  split; [reflexivity|]. split; [reflexivity|]. split; [reflexivity|]. split; [reflexivity|].
  split; [apply (reinterpret_scans_keys _ _ _ _ _ E)|]. split; [apply NoDup_filter; assumption|].
  split; [|split; assumption]. intros f. rewrite filter_In, negb_true_iff, mem_false, A1. reflexivity.
Qed.

Lemma HD : Inv (e_D e).
Proof. destruct prepared as (-> & _). apply Inv_well_formed, HG. Qed.
Lemma HP : Inv (e_P e).
Proof. destruct prepared as (_ & _ & -> & _). apply Inv_well_formed, HG. Qed.
Lemma Hdisj : forall o, In o (e_dirty_out e) -> ~ In o (e_dirty_art e).
Proof. destruct prepared as (_ & _ & _ & _ & _ & _ & _ & H1 & H2). intros o. rewrite H1, H2. tauto. Qed.

Lemma depends_parents g f c : Inv g -> (depends g c f <-> In c (parents_in g f)).
Proof. intros Hg. unfold depends. rewrite api_children_ch, parents_in_pa. apply Inv_ch_pa. assumption. Qed.

Lemma depends_on_needs f deps : depends_on e f = Ret deps -> forall c, In c deps <-> needs e f c.
Proof.
  intros H c. unfold depends_on in H. unfold needs, generator_of. destruct (dget f (e_scans e)) as [sc|] eqn:E.
  - destruct (dget f (e_new_placeholders e)) as [g|] eqn:E2; injection H as <-; rewrite in_app_iff.
    + simpl. split; [intros [Hc|[<-|[]]]; [left; eauto|auto]|]. intros [(sc' & [= <-] & Hc)|[(Hx & _)| ->]]; auto; discriminate.
    + rewrite (depends_parents (e_P e)) by apply HP. split; [intros [Hc|Hc]; [left; eauto|auto]|].
      intros [(sc' & [= <-] & Hc)|[(Hx & _)|Hc]]; auto; discriminate.
  - rewrite (depends_parents (e_P e)) by apply HP.
    destruct (get_children (e_D e) f) as [cs|] eqn:Ec; [|discriminate]. injection H as <-. rewrite in_app_iff.
    unfold depends, api_children. rewrite Ec. split; [intros [Hc|Hc]; auto|].
    intros [(sc' & [=] & Hc)|[(_ & Hc)|Hc]]; auto.
Qed.

Lemma creates_expects f o : In o (creates e f) <-> expects e f o.
Proof.
  unfold creates, expects. destruct (dget f (e_scans e)) as [sc|] eqn:E.
  - split; [left; eauto|]. intros [(sc' & [= <-] & Hc)|(Hx & _)]; [assumption|discriminate].
  - unfold depends. rewrite api_children_ch, children_in_ch. split; [auto|]. intros [(sc' & [=] & _)|(_ & H)]. assumption.
Qed.

(** every file of the rebuild has a dependency list *)
Lemma depends_on_total f : In f (e_orig e) -> exists d, depends_on e f = Ret d.
Proof.
  intros Hf. destruct prepared as (ED & EO & EP & EN & EK & _ & HA & _). apply HA in Hf. destruct Hf as ((s & Hs & Hr) & Hnd).
  unfold depends_on. destruct (dget f (e_scans e)) as [sc|] eqn:E.
  { destruct (dget f (e_new_placeholders e)); eauto. }
  assert (Hk : In f (dkeys (e_D e))).
  { apply dget_None in E. rewrite EK in E. apply clos_rt_rtn1 in Hr. destruct Hr as [|y z Hyz _]; [tauto|].
    rewrite ED. destruct Hyz as [Hyz|Hyz]; unfold depends in Hyz; rewrite api_children_ch in Hyz; apply ch_key in Hyz; [assumption|].
    apply HG. assumption. }
  destruct (get_children_key (e_D e) f Hk) as (cs & -> & _). eauto.
Qed.

Lemma waits_needs f c : In f (e_orig e) -> (waits_for e f c <-> In c (e_orig e) /\ needs e f c).
Proof.
  intros Hf. destruct (depends_on_total f Hf) as (d & Hd). unfold waits_for. split; intros (Ho & H); split; try assumption.
  - destruct H as (d' & Hd' & Hc). eapply depends_on_needs; eassumption.
  - exists d. split; [assumption|]. eapply depends_on_needs; eassumption.
Qed.

Lemma clos_trans_restrict (R1 R2 : str -> str -> Prop) (Q : str -> Prop) : (forall a b, Q a -> R1 a b -> R2 a b /\ Q b) ->
  forall a b, clos_trans str R1 a b -> Q a -> clos_trans str R2 a b /\ Q b.
Proof.
  intros H a b Hc. induction Hc as [a b Hab|a b c _ IH1 _ IH2]; intros Ha.
  - destruct (H a b Ha Hab). split; [apply t_step; assumption|assumption].
  - destruct (IH1 Ha) as (A & B). destruct (IH2 B) as (C & F). split; [eapply t_trans; eassumption|assumption].
Qed.
Lemma circular_waits : circular e <-> exists f, In f (e_orig e) /\ clos_trans str (waits_for e) f f.
Proof.
  unfold circular. split; intros (f & Hf & Hc); exists f; (split; [assumption|]).
  - eapply (clos_trans_restrict _ (waits_for e) (fun x => In x (e_orig e))); [|eassumption|assumption].
    intros a b Ha Hab. split; [apply waits_needs; assumption|]. apply Hab.
  - eapply (clos_trans_restrict (waits_for e) _ (fun x => In x (e_orig e))); [|eassumption|assumption].
    intros a b Ha Hab. apply waits_needs in Hab; [|assumption]. split; [assumption|]. apply Hab.
Qed.

Context (order : list str) (fs0 : fs).
Context (Hord : NoDup order) (Hsame : forall f, In f order <-> In f (e_orig e)).
Definition start := init_sched e order m fs0.

Lemma start_SO s : steps build e start s -> SO build e (disk start) s.
Proof.
  intros H. eapply SO_steps; [exact Hdisj| |eassumption]. split; [apply SInv_init; assumption|apply OInv_init; first [exact build|exact Hdisj]].
Qed.

Lemma dependencies_first s : steps build e start s ->
  (forall f c, In f (pending s) -> In c (e_orig e) -> needs e f c -> In c (dkeys (results s))) /\
  (forall l1 f d r l2, log s = l1 ++ (f, d, r) :: l2 ->
     build f d = Some r /\ forall c, In c (e_orig e) -> needs e f c -> In c (map (fun t => fst (fst t)) l1)) /\
  (forall f, In f (dkeys (results s)) -> In f (built s)) /\
  NoDup (built s) /\ NoDup (todo s ++ pending s ++ dkeys (results s)).
Proof.
  intros H. destruct (start_SO s H) as (I & _).
  split. { intros f c Hf Hc Hn. apply (deps_ok_waits e (dkeys (results s)) f); [apply (si_deps _ _ _ _ I); auto|]. apply waits_needs; [|auto].
           apply (si_all _ _ _ _ I). auto. }
  split. { intros l1 f d r l2 El. destruct (log_ok_order _ _ _ _ _ (si_log_ok _ _ _ _ I) _ _ _ _ _ El) as (A & B & _).
           split; [assumption|]. intros c Hc Hn. apply (deps_ok_waits e _ _ A). apply waits_needs; [|auto].
           apply (si_all _ _ _ _ I). right. apply (si_exec_in _ _ _ _ I). eapply SInv_log_exec; [eassumption|].
           rewrite El, names_app. apply in_or_app. right. left. reflexivity. }
  split. { intros f Hf. eapply SInv_done; eassumption. }
  split; [apply (si_log_nodup _ _ _ _ I)|apply (si_nodup _ _ _ _ I)].
Qed.

Lemma finished_all s : steps build e start s -> finished s ->
  Permutation (built s) order /\ Permutation (dkeys (results s)) order.
Proof.
  intros H (_ & Ht & Hp). destruct (start_SO s H) as (I & _).
  pose proof (si_nodup _ _ _ _ I) as N. rewrite Ht, Hp in N. simpl in N.
  assert (HA : forall f, In f (dkeys (results s)) <-> In f order).
  { intros f. rewrite Hsame, (si_all _ _ _ _ I), Ht, Hp. simpl. tauto. }
  split; [|apply NoDup_Permutation; assumption].
  apply NoDup_Permutation; [apply (si_log_nodup _ _ _ _ I)|assumption|].
  intros f. rewrite <- HA. split; [|apply SInv_done with (s0 := disk start) (1 := I)].
  intros Hf. apply (SInv_log_exec _ _ _ _ _ I) in Hf. apply (si_exec_in _ _ _ _ I) in Hf. rewrite Hp in Hf. destruct Hf as [[]|Hf]. assumption.
Qed.

Lemma no_surprise_iff s : no_surprise e s <-> reports_predicted e s.
Proof. unfold no_surprise, reports_predicted, dirtied. split; intros H f d r o; specialize (H f d r o); rewrite creates_expects in *; assumption. Qed.
Lemma no_shortfall_iff s : no_shortfall e s <-> predictions_reported e s.
Proof. unfold no_shortfall, predictions_reported, dirtied. split; intros H f d r o; specialize (H f d r o); rewrite creates_expects in *; assumption. Qed.

Lemma exclusive s : steps build e start s -> no_surprise e s ->
  forall f g o, In f (pending s) -> In g (pending s) -> f <> g -> expects e f o -> expects e g o -> dirtied e o ->
  ~ is_artifact o /\ exists h r, h <> f /\ h <> g /\ dget h (results s) = Some r /\ In o (b_outputs r) /\ expects e h o.
Proof.
  intros H Hns f g o Hf Hg Hne Hof Hog Hd. apply no_surprise_iff in Hns. pose proof (start_SO s H) as (I & OI).
  assert (X : XInv e s).
  { eapply XInv_steps; [exact Hdisj| | |eassumption|assumption]; [apply start_SO; apply steps_refl|apply XInv_init; first [exact build|exact Hdisj]]. }
  apply creates_expects in Hof, Hog. destruct (xi_a3 _ _ X f g o Hf Hg Hne Hof Hog) as (A & B).
  destruct Hd as [Hd|Hd]; [|contradiction]. split.
  { destruct prepared as (_ & _ & _ & _ & _ & _ & _ & H1 & _). apply H1 in Hd. tauto. }
  rewrite (oi_so _ _ OI) in A.
  assert (HR : reported s o).
  { unfold reported. 
    destruct (existsb (fun kr => mem o (b_outputs (snd kr))) (results s)) eqn:Ex.
    - apply existsb_exists in Ex. destruct Ex as ([h r] & Hi & Ho). apply mem_In in Ho. exists h, r. split; [|assumption].
      apply In_dget; [|assumption]. pose proof (si_nodup _ _ _ _ I) as N. apply NoDup_app_iff in N. destruct N as (_ & N & _). apply NoDup_app_iff in N. apply N.
    - exfalso. apply A. split; [assumption|]. intros (h & r & Hr & Ho). apply dget_In in Hr.
      rewrite <- not_true_iff_false in Ex. apply Ex. apply existsb_exists. exists (h, r). split; [assumption|]. apply mem_In. assumption. }
  destruct HR as (h & r & Hr & Ho). exists h, r.
  assert (Hnp : ~ In h (pending s)).
  { intros Hp. pose proof (si_nodup _ _ _ _ I) as N. apply NoDup_app_iff in N. destruct N as (_ & N & _). apply NoDup_app_iff in N.
    destruct N as (_ & _ & N). apply (N h Hp). eapply dget_Some_key; eassumption. }
  split; [congruence|]. split; [congruence|]. split; [assumption|]. split; [assumption|].
  apply creates_expects. destruct (si_res _ _ _ _ I h r Hr) as (r0 & Hx & E1 & E2). apply (si_log _ _ _ _ I) in Hx. destruct Hx as (d & Hx).
  eapply Hns; [eassumption| |left; assumption]. unfold b_outputs in *. rewrite <- E1, <- E2. assumption.
Qed.

Lemma terminates (tr : nat -> sched) n : tr 0 = start -> (forall i, i < n -> step build e (tr i) (Running (tr (S i)))) ->
  n <= 3 * length order + 1.
Proof. intros H0 H. eapply bounded_run; eassumption. Qed.

Lemma never_stuck s : steps build e start s -> finished s \/ exists st, step build e s st.
Proof. intros H. destruct (start_SO s H) as (I & _). eapply progress; eassumption. Qed.

Lemma finished_not_circular s : steps build e start s -> finished s -> ~ circular e.
Proof.
  intros H (_ & Ht & Hp) Hc. destruct (start_SO s H) as (I & _). apply circular_waits in Hc. destruct Hc as (f & Hf & Hc).
  eapply finished_acyclic; eassumption.
Qed.

Lemma rt_reach f x : clos_refl_trans str (depends (e_D e)) f x -> reach (e_D e) f x.
Proof.
  intros H. induction H as [a b H|a|a b c _ IH1 _ IH2]; [apply rt_step; unfold depends in H; rewrite api_children_ch in H; exact H|apply rt_refl|eapply rt_trans; eassumption].
Qed.

Lemma stop_is_circular s x s' : steps build e start s -> no_failure s -> no_surprise e s -> no_shortfall e s -> sources_known e m s ->
  step build e s (Stopped x s') -> x = CyclicDependencyException /\ circular e.
Proof.
  intros H (F1 & F2) Hns Hsf Hk Hst. rewrite circular_waits. destruct prepared as (ED & EO & EP & EN & EK & _ & HA & _).
  destruct (start_SO s H) as (I & _).
  eapply stop_cyclic; [exact Hdisj|exact Hord|exact Hsame|exact HD| |exact depends_on_total|exact H| |apply no_shortfall_iff; exact Hsf|exact Hst].
  - rewrite ED, EO. apply HG.
  - constructor; [assumption|apply no_surprise_iff; assumption|assumption|].
    intros f d r c Hl Hc Ho. destruct (Hk f d r c Hl Hc Ho) as [A|(A & y & B & C)]; [auto|]. right.
    split; [apply dmem_false, dget_None; assumption|]. split.
    + assert (Hf : In f (e_orig e)).
      { apply (si_all _ _ _ _ I). right. apply (si_exec_in _ _ _ _ I). eapply SInv_log_exec; [eassumption|]. eapply in_names; eassumption. }
      apply HA in Hf. destruct Hf as ((s1 & Hs1 & Hr) & Hnd). apply dget_None in A. rewrite EK in A.
      apply clos_rt_rtn1 in Hr. destruct Hr as [|u v Huv _]; [tauto|].
      rewrite ED. destruct Huv as [Huv|Huv]; unfold depends in Huv; rewrite api_children_ch in Huv; apply ch_key in Huv; [assumption|]. apply HG. assumption.
    + exists y. split; [apply rt_reach; assumption|]. unfold depends in C. rewrite api_children_ch in C. assumption.
Qed.
End Main.
