(** A file is recorded to depend on itself only when its build said so. *)
From Verif Require Import Base Graph GraphSpec GraphProofs Hot HotSpec HotDirtyProofs HotSchedProofs HotSchedMain HotTermProofs HotMain HotGraphs HotGraphsProofs HotResultSpec HotResultProofs.
From Coq Require Import String ZArith Bool List Relations Lia Permutation.
Import ListNotations.
Open Scope list_scope.

Lemma reinterpret_self (prod : str -> str -> Prop) e f raw : (forall x c, depends (e_O e) x c -> prod x c) ->
  forall m acc m' cs, good_map prod m -> reinterpret_children e f raw m acc = Ret (m', cs) -> In f cs -> In f acc \/ (In f raw /\ is_out f = false).
Proof.
  intros HO. induction raw as [|c r IH]; intros m acc m' cs Hm H Hf; cbn [reinterpret_children] in H; [injection H as <- <-; auto|].
  assert (A : forall x m1, good_map prod m1 -> reinterpret_children e f r m1 (if str_eqb x f then acc else acc ++ [x]) = Ret (m', cs) -> In f acc \/ (In f (c :: r) /\ is_out f = false)).
  { intros x m1 Hm1 H1. destruct (IH _ _ _ _ Hm1 H1 Hf) as [X|(X & Y)]; [|right; split; [right; exact X|exact Y]]. destruct (str_eqb x f) eqn:E; [auto|]. apply in_app_or in X. destruct X as [X|[->|[]]]; [auto|]. rewrite str_eqb_refl in E. discriminate. }
  destruct (dget c m) as [x|] eqn:E; [eapply A; eassumption|]. destruct (is_out c) eqn:Eo.
  - destruct (dmem f (e_scans e)); [discriminate|]. destruct (search_producer _ _ _ _ _ _) as [[x|]|] eqn:Es; try discriminate. refine (A x (dset c x m) _ H). apply good_map_set; [exact Hm|exact Eo|]. apply search_producer_child, HO in Es. exact Es.
  - destruct (IH _ _ _ _ Hm H Hf) as [X|(X & Y)]; [|right; split; [right; exact X|exact Y]]. apply in_app_or in X. destruct X as [X|[->|[]]]; [auto|]. right. split; [left; reflexivity|exact Eo].
Qed.
Definition selfless (s : sched) : Prop := forall f r r0, dget f (results s) = Some r -> dget f (executed s) = Some (Some r0) -> In f (b_children r) -> In f (b_children r0) /\ is_out f = false.
Lemma selfless_step (prod : str -> str -> Prop) build e s0 s s' : (forall x c, depends (e_O e) x c -> prod x c) ->
  SInv build e s0 s -> MInv prod s -> selfless s -> step build e s (Running s') -> selfless s'.
Proof.
  intros HO I M L H. inversion H; subst.
  - match goal with Hs : schedule _ _ = _ |- _ => destruct (schedule_spec _ _ _ Hs) as (new & po & pa & _ & _ & ->) end. exact L.
  - destruct M as [M1 M2]. match goal with Hd : dmem f (executed s) = false |- _ => rename Hd into Hnew end. apply dmem_false in Hnew.
    assert (Hk : forall v g r, dget g (results s) = Some r -> dget g (dset f v (executed s)) = dget g (executed s)).
    { intros v g r Hg. apply dget_dset_other. intros ->. apply Hnew. destruct (M2 g r Hg) as (r0 & Hx & _). eapply dget_Some_key; eassumption. }
    unfold execute. destruct (build f (disk s)); intros g r r0 Hg He; cbn [results executed] in Hg, He; rewrite (Hk _ g r Hg) in He; eapply L; eassumption.
  - destruct (sub_pending_NoDup _ _ _ _ _ I ltac:(eassumption)) as (Hn & Hsub).
    refine (proj2 (_ : MInv prod (with_phase Scheduling s'0) /\ selfless (with_phase Scheduling s'0))).
    eapply (collect_ind e (fun t => MInv prod t /\ selfless t)); [| |exact Hn|exact Hsub|eassumption]; [|split; [destruct M as [M1 M2]; constructor; simpl; assumption|exact L]].
    intros t t' f ([M1 M2] & Lt) Hph Hf Hc. destruct (collect_one_spec _ _ _ _ Hc) as (r & m & cs & so & po & sa & pa & Hx & Hr & _ & ->).
    destruct (reinterpret_recorded prod _ _ _ HO _ _ _ _ M1 Hr) as (A1 & _ & A3 & A4 & A5). split.
    + constructor; simpl; [assumption|]. intros g r' Hg. rewrite dget_dset in Hg. destruct (str_eqb g f) eqn:Eg; [|auto].
      apply str_eqb_eq in Eg. subst g. injection Hg as <-. exists r. simpl. split; [assumption|]. split; [reflexivity|]. split; [reflexivity|].
      split; [assumption|]. split; [assumption|]. intros x Hxc. destruct (A5 x Hxc) as [[]|Hy]; assumption.
    + intros g r' r0 Hg He Hi. cbn [results executed] in Hg, He. rewrite dget_dset in Hg. destruct (str_eqb g f) eqn:Eg; [|eapply Lt; eassumption].
      apply str_eqb_eq in Eg. subst g. injection Hg as <-. rewrite Hx in He. injection He as <-. cbn [b_children] in Hi. destruct (reinterpret_self prod _ _ _ HO _ _ _ _ M1 Hr Hi) as [[]|Y]. exact Y.
Qed.
Lemma selfless_steps (prod : str -> str -> Prop) build e s0 s s' : (forall x c, depends (e_O e) x c -> prod x c) ->
  (forall k, In k (e_dirty_out e) -> ~ In k (e_dirty_art e)) -> SO build e s0 s -> MInv prod s -> selfless s -> steps build e s s' -> selfless s'.
Proof.
  intros HO Hd I M L H. induction H; [assumption|]. assert (X : SO build e s0 s1) by (eapply (SO_steps build e Hd); eassumption).
  apply (selfless_step prod build e s0 s1 s2); [assumption|apply X| |apply IHsteps; assumption|assumption]. exact (MInv_steps prod build e s0 s s1 HO Hd I M H).
Qed.
