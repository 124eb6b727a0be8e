(** Dirty closure (C09). *)
From Verif Require Import Base Graph GraphSpec GraphProofs GraphMain Hot HotSpec.
From Coq Require Import String ZArith Bool List Relations Lia.
Import ListNotations.
Open Scope list_scope.

Lemma NoDup_app_intro {A} (l1 l2 : list A) : NoDup l1 -> NoDup l2 -> (forall x, In x l1 -> ~ In x l2) -> NoDup (l1 ++ l2).
Proof.
  induction l1 as [|x l IH]; simpl; intros H1 H2 H; [assumption|]. inversion H1; subst. constructor.
  - rewrite in_app_iff. intros [Hx|Hx]; [contradiction|]. apply (H x); auto.
  - apply IH; auto.
Qed.

Lemma set_add_In x y l : In y (set_add x l) <-> y = x \/ In y l.
Proof.
  unfold set_add. destruct (mem x l) eqn:E; [apply mem_In in E|].
  - split; [auto|intros [->|]; auto].
  - rewrite in_app_iff. simpl. intuition congruence.
Qed.
Lemma set_add_NoDup x l : NoDup l -> NoDup (set_add x l).
Proof. intros H. unfold set_add. destruct (mem x l) eqn:E; [assumption|]. apply NoDup_snoc; [assumption|apply mem_false; assumption]. Qed.

Lemma push_new_spec ps : forall files stack files' stack', push_new ps files stack = (files', stack') ->
  exists new, (forall x, In x files' <-> In x files \/ In x new) /\ stack' = rev new ++ stack /\
    (forall x, In x new -> In x ps /\ ~ In x files) /\ (forall x, In x ps -> In x files') /\ NoDup new /\
    (NoDup files -> NoDup files').
Proof.
  induction ps as [|p r IH]; intros files stack files' stack' H; simpl in H.
  - injection H as <- <-. exists []. simpl. repeat split; try tauto; try constructor.
  - destruct (mem p files) eqn:E.
    + apply mem_In in E. destruct (IH _ _ _ _ H) as (new & H1 & H2 & H3 & H4 & H5 & H6).
      exists new. split; [assumption|]. split; [assumption|]. split; [|split; [|split; assumption]].
      * intros x Hx. destruct (H3 x Hx). split; [right; assumption|assumption].
      * intros x [->|Hx]; [apply H1; auto|auto].
    + apply mem_false in E. destruct (IH _ _ _ _ H) as (new & H1 & H2 & H3 & H4 & H5 & H6).
      exists (p :: new). split; [|split; [|split; [|split; [|split]]]].
      * intros x. rewrite H1, in_app_iff. simpl. tauto.
      * rewrite H2. simpl. rewrite <- app_assoc. reflexivity.
      * intros x [->|Hx]; [split; [left; reflexivity|assumption]|].
        destruct (H3 x Hx) as [Ha Hb]. split; [right; assumption|]. intros Hc. apply Hb. apply in_or_app. auto.
      * intros x [->|Hx]; [apply H1; left; apply in_or_app; right; left; reflexivity|auto].
      * constructor; [|assumption]. intros Hx. apply (H3 p Hx). apply in_or_app. right. left. reflexivity.
      * intros Hn. apply H6. apply NoDup_snoc; assumption.
Qed.

Lemma is_artifact_iff p : starts_with (lit "artifacts") p = true <-> is_artifact p.
Proof. apply starts_with_iff. Qed.

Lemma add_dirty_spec cs : forall outs arts outs' arts', add_dirty cs outs arts = (outs', arts') ->
  (forall o, In o outs' <-> In o outs \/ (In o cs /\ ~ is_artifact o)) /\
  (forall o, In o arts' <-> In o arts \/ (In o cs /\ is_artifact o)) /\
  (NoDup outs -> NoDup outs') /\ (NoDup arts -> NoDup arts').
Proof.
  unfold add_dirty. induction cs as [|c r IH]; intros outs arts outs' arts' H; cbn [fold_left] in H.
  - injection H as <- <-. simpl. repeat split; tauto.
  - destruct (starts_with (lit "artifacts") c) eqn:E.
    + apply is_artifact_iff in E. destruct (IH _ _ _ _ H) as (H1 & H2 & H3 & H4). split; [|split; [|split]].
      * intros o. rewrite H1. simpl. split; [intuition|]. intros [Ho|([->|Ho] & Hn)]; auto; contradiction.
      * intros o. rewrite H2, set_add_In. simpl. split; [intros [[->|Ho]|Ho]; intuition|].
        intros [Ho|([->|Ho] & Hn)]; auto.
      * assumption.
      * intros Hn. apply H4, set_add_NoDup, Hn.
    + assert (Hna : ~ is_artifact c) by (rewrite <- is_artifact_iff; congruence).
      destruct (IH _ _ _ _ H) as (H1 & H2 & H3 & H4). split; [|split; [|split]].
      * intros o. rewrite H1, set_add_In. simpl. split; [intros [[->|Ho]|Ho]; intuition|].
        intros [Ho|([->|Ho] & Hn)]; auto.
      * intros o. rewrite H2. simpl. split; [intuition|]. intros [Ho|([->|Ho] & Hn)]; auto; contradiction.
      * intros Hn. apply H3, set_add_NoDup, Hn.
      * assumption.
Qed.

Lemma parents_in_pa g f : parents_in g f = pa g f.
Proof. unfold parents_in, pa, neighbours, get_parents. destruct (dget f g); reflexivity. Qed.
Lemma children_in_ch g f : children_in g f = ch g f.
Proof. unfold children_in, ch, neighbours, get_children. destruct (dget f g); reflexivity. Qed.

Lemma used_by_parents D P x y : Inv D -> Inv P -> (used_by D P x y <-> In y (parents_in D x) \/ In y (parents_in P x)).
Proof.
  intros HD HP. unfold used_by. rewrite !parents_in_pa, !depends_ch.
  rewrite (Inv_ch_pa D y x HD), (Inv_ch_pa P y x HP). reflexivity.
Qed.

Section Dirty.
Context (D O P : graph) (HD : Inv D) (HP : Inv P) (scanned deleted : list str).

Definition unmarked (files : list str) : list str :=
  filter (fun k => negb (mem k files)) (nodup str_eq_dec (dkeys D ++ dkeys P)).
Lemma unmarked_In files k : In k (unmarked files) <-> (In k (dkeys D) \/ In k (dkeys P)) /\ ~ In k files.
Proof. unfold unmarked. rewrite filter_In, nodup_In, in_app_iff, negb_true_iff, mem_false. tauto. Qed.
Lemma unmarked_NoDup files : NoDup (unmarked files).
Proof. apply NoDup_filter, NoDup_nodup. Qed.
Lemma unmarked_length files : length (unmarked files) <= length D + length P.
Proof.
  rewrite <- (length_dkeys D), <- (length_dkeys P), <- app_length.
  transitivity (length (nodup str_eq_dec (dkeys D ++ dkeys P))).
  - unfold unmarked. induction (nodup str_eq_dec (dkeys D ++ dkeys P)) as [|x l IH]; simpl; [apply le_n|]. destruct (negb (mem x files)); simpl; lia.
  - apply NoDup_incl_length; [apply NoDup_nodup|]. intros x Hx. apply nodup_In in Hx. assumption.
Qed.
Lemma unmarked_push files files' new : (forall x, In x files' <-> In x files \/ In x new) -> NoDup new ->
  (forall x, In x new -> (In x (dkeys D) \/ In x (dkeys P)) /\ ~ In x files) ->
  length new + length (unmarked files') <= length (unmarked files).
Proof.
  intros H1 H2 H3. rewrite <- app_length. apply NoDup_incl_length.
  - apply NoDup_app_intro.
    + assumption.
    + apply unmarked_NoDup.
    + intros x Hx Hu. apply unmarked_In in Hu. apply Hu. apply H1. auto.
  - intros x Hx. apply in_app_or in Hx. apply unmarked_In. destruct Hx as [Hx|Hx]; [auto|].
    apply unmarked_In in Hx. split; [tauto|]. intros Hf. apply Hx, H1. auto.
Qed.

Definition Aff (f : str) : Prop := affected D P scanned deleted f.
Lemma Aff_step x y : Aff x -> used_by D P x y -> Aff y.
Proof. intros (s & Hs & H) Hxy. exists s. split; [assumption|]. eapply rt_trans; [eassumption|]. apply rt_step. assumption. Qed.

Definition LInv (files stack outs arts : list str) : Prop :=
  NoDup files /\ incl stack files /\
  (forall x, In x files -> Aff x) /\
  (forall s, In s scanned \/ In s deleted -> In s files) /\
  (forall x, In x files -> In x stack \/
     ((forall y, used_by D P x y -> In y files) /\
      (forall o, In o (children_in O x) -> (~ is_artifact o -> In o outs) /\ (is_artifact o -> In o arts)))) /\
  (forall o, In o outs -> ~ is_artifact o /\ exists x, Aff x /\ In o (children_in O x)) /\
  (forall o, In o arts -> is_artifact o /\ exists x, Aff x /\ In o (children_in O x)) /\
  NoDup outs /\ NoDup arts.

Lemma dirty_loop_spec fuel : forall files stack outs arts,
  length stack + length (unmarked files) < fuel -> LInv files stack outs arts ->
  exists files' outs' arts', dirty_loop fuel D O P files stack outs arts = Some (files', outs', arts') /\ LInv files' [] outs' arts'.
Proof.
  induction fuel as [|fuel IH]; intros files stack outs arts Hf HL; [lia|]. cbn [dirty_loop].
  destruct stack as [|f rest]; [exists files, outs, arts; auto|].
  destruct (push_new (parents_in D f) files rest) as [files1 stack1] eqn:E1.
  destruct (push_new (parents_in P f) files1 stack1) as [files2 stack2] eqn:E2.
  destruct (add_dirty (children_in O f) outs arts) as [outs1 arts1] eqn:E3.
  destruct (push_new_spec _ _ _ _ _ E1) as (n1 & A1 & A2 & A3 & A4 & A5 & A6).
  destruct (push_new_spec _ _ _ _ _ E2) as (n2 & B1 & B2 & B3 & B4 & B5 & B6).
  destruct (add_dirty_spec _ _ _ _ _ E3) as (C1 & C2 & C3 & C4).
  destruct HL as (L1 & L2 & L3 & L4 & L5 & L6 & L7 & L8 & L9).
  assert (HAf : Aff f) by (apply L3, L2; left; reflexivity).
  apply IH.
  - assert (M1 : length n1 + length (unmarked files1) <= length (unmarked files)).
    { apply unmarked_push; auto. intros x Hx. destruct (A3 x Hx) as [Hp Hn]. split; [left|assumption].
      rewrite parents_in_pa in Hp. apply (Inv_pa_closed D f x HD Hp). }
    assert (M2 : length n2 + length (unmarked files2) <= length (unmarked files1)).
    { apply unmarked_push; auto. intros x Hx. destruct (B3 x Hx) as [Hp Hn]. split; [right|assumption].
      rewrite parents_in_pa in Hp. apply (Inv_pa_closed P f x HP Hp). }
    subst stack1 stack2. rewrite !app_length, !rev_length. simpl in Hf. lia.
  - assert (Hin : forall x, In x files -> In x files2) by (intros x Hx; apply B1; left; apply A1; left; assumption).
    split; [auto|]. split.
    { intros x Hx. subst stack1 stack2. apply in_app_or in Hx. destruct Hx as [Hx|Hx]; [apply B1; right; apply in_rev; assumption|].
      apply B1. left. apply A1. apply in_app_or in Hx. destruct Hx as [Hx|Hx]; [right; apply in_rev; assumption|left; apply L2; right; assumption]. }
    split.
    { intros x Hx. apply B1 in Hx. destruct Hx as [Hx|Hx]; [apply A1 in Hx; destruct Hx as [Hx|Hx]; [auto|]|].
      - apply (Aff_step f); [assumption|]. apply used_by_parents; auto. left. apply A3. assumption.
      - apply (Aff_step f); [assumption|]. apply used_by_parents; auto. right. apply B3. assumption. }
    split; [auto|]. split.
    { intros x Hx. destruct (str_eq_dec x f) as [->|Hxf].
      - right. split.
        + intros y Hy. apply used_by_parents in Hy; auto. destruct Hy as [Hy|Hy]; [apply B1; left; auto|auto].
        + intros o Ho. split; intros Ha; [apply C1|apply C2]; auto.
      - assert (Hold : In x files \/ In x n1 \/ In x n2).
        { apply B1 in Hx. destruct Hx as [Hx|Hx]; [apply A1 in Hx; tauto|tauto]. }
        destruct Hold as [Ho|[Ho|Ho]].
        + destruct (L5 x Ho) as [[->|Hr]|(H1 & H2)]; [congruence| |].
          * left. subst stack1 stack2. apply in_or_app. right. apply in_or_app. right. assumption.
          * right. split; [auto|]. intros o Ho'. destruct (H2 o Ho'). split; intros Ha; [apply C1|apply C2]; auto.
        + left. subst stack1 stack2. apply in_or_app. right. apply in_or_app. left. apply in_rev in Ho. assumption.
        + left. subst stack2. apply in_or_app. left. apply in_rev in Ho. assumption. }
    split.
    { intros o Ho. apply C1 in Ho. destruct Ho as [Ho|(Ho & Hn)]; [auto|]. split; [assumption|]. exists f. auto. }
    split.
    { intros o Ho. apply C2 in Ho. destruct Ho as [Ho|(Ho & Hn)]; [auto|]. split; [assumption|]. exists f. auto. }
    split; auto.
Qed.

Lemma init_files_spec l : forall acc, NoDup acc -> NoDup (fold_left (fun l f => set_add f l) l acc) /\
  forall x, In x (fold_left (fun l f => set_add f l) l acc) <-> In x acc \/ In x l.
Proof.
  induction l as [|y l IH]; intros acc Ha; simpl; [split; [assumption|tauto]|].
  destruct (IH (set_add y acc) (set_add_NoDup y acc Ha)) as (H1 & H2). split; [assumption|].
  intros x. rewrite H2, set_add_In. intuition.
Qed.

Lemma dirty_correct : exists files outs arts, dirty D O P scanned deleted = Some (files, outs, arts) /\
  NoDup files /\ NoDup outs /\ NoDup arts /\
  (forall f, In f files <-> affected D P scanned deleted f) /\
  (forall o, In o outs <-> ~ is_artifact o /\ exists f, affected D P scanned deleted f /\ depends O f o) /\
  (forall o, In o arts <-> is_artifact o /\ exists f, affected D P scanned deleted f /\ depends O f o).
Proof.
  destruct (init_files_spec (scanned ++ deleted) [] (NoDup_nil _)) as (N & I).
  destruct (dirty_loop_spec (S (length scanned + length deleted + length D + length P)) (init_files scanned deleted) (init_stack scanned deleted) [] []) as (files & outs & arts & E & L).
  - unfold init_stack. rewrite rev_length, app_length. pose proof (unmarked_length (init_files scanned deleted)). lia.
  - split; [exact N|]. unfold init_files, init_stack.
    split. { intros x Hx. apply in_rev in Hx. apply I. right. assumption. }
    split. { intros x Hx. apply I in Hx. destruct Hx as [[]|Hx]. exists x. split; [apply in_app_or; assumption|apply rt_refl]. }
    split. { intros x Hx. apply I. right. apply in_or_app. assumption. }
    split. { intros x Hx. left. apply I in Hx. destruct Hx as [[]|Hx]. apply in_rev in Hx. assumption. }
    repeat split; try constructor; try (match goal with H : In _ [] |- _ => destruct H end).
  - exists files, outs, arts. split; [exact E|]. destruct L as (L1 & L2 & L3 & L4 & L5 & L6 & L7 & L8 & L9).
    assert (HA : forall f, In f files <-> affected D P scanned deleted f).
    { intros f. split; [apply L3|]. intros (s & Hs & H). apply L4 in Hs.
      apply clos_rt_rt1n in H. induction H as [|x y z Hxy _ IH]; [assumption|]. apply IH.
      destruct (L5 x Hs) as [[]|(Hc & _)]. auto. }
    repeat (split; [assumption|]). split; intros o.
    + split; [intros Ho; destruct (L6 o Ho) as (H1 & x & H2 & H3); split; [assumption|exists x; split; [assumption|exact H3]]|].
      intros (Hn & f & Hf & Ho). apply HA in Hf. destruct (L5 f Hf) as [[]|(_ & Hc)]. apply (Hc o Ho). assumption.
    + split; [intros Ho; destruct (L7 o Ho) as (H1 & x & H2 & H3); split; [assumption|exists x; split; [assumption|exact H3]]|].
      intros (Hn & f & Hf & Ho). apply HA in Hf. destruct (L5 f Hf) as [[]|(_ & Hc)]. apply (Hc o Ho). assumption.
Qed.
End Dirty.
