(** An executable schedule, used to exhibit concrete runs. *)
From Verif Require Import Base Graph Hot.
From Coq Require Import String ZArith Bool List.
Import ListNotations.
Open Scope list_scope.

Section Drive.
Context (build : str -> fs -> option build_result) (e : env).

(** schedule, run all pending builds, collect the oldest [width] finished ones *)
Fixpoint drive (width fuel : nat) (s : sched) : state :=
  match fuel with
  | 0 => Running s
  | S n =>
      match s_phase s with
      | Scheduling =>
          match todo s, pending s with
          | [], [] => Running s
          | _, _ => match schedule e s with Ret s' => drive width n s' | Raise x => Stopped x s end
          end
      | Waiting =>
          match find (fun f => negb (dmem f (executed s))) (pending s) with
          | Some f => drive width n (execute build f s)
          | None => match firstn width (pending s) with
                    | [] => Running s
                    | fs => match collect e fs s with
                            | Ret s' => drive width n (with_phase Scheduling s')
                            | Raise x => Stopped x s
                            end
                    end
          end
      end
  end.

Lemma sublist_firstn w : forall l, sublist (firstn w l) l.
Proof. induction w; intros [|x l]; simpl; constructor; auto. Qed.

Lemma steps_head s s1 s2 : step build e s (Running s1) -> steps build e s1 s2 -> steps build e s s2.
Proof. intros H H2. induction H2; [eapply steps_step; [apply steps_refl|assumption]|]. eapply steps_step; [|eassumption]. auto. Qed.

Lemma drive_sound w fuel : forall s st, drive w fuel s = st ->
  match st with
  | Running s' => steps build e s s'
  | Stopped x s' => steps build e s s' /\ step build e s' (Stopped x s')
  end.
Proof.
  induction fuel as [|n IH]; intros s st H; cbn [drive] in H; [subst; cbn beta iota; apply steps_refl|].
  assert (Hgo : forall s1, step build e s (Running s1) -> drive w n s1 = st ->
    match st with Running s' => steps build e s s' | Stopped x s' => steps build e s s' /\ step build e s' (Stopped x s') end).
  { intros s1 H1 H2. specialize (IH _ _ H2). destruct st; [eapply steps_head; eassumption|].
    cbn beta iota in IH |- *. destruct IH as (IH1 & IH2). split; [eapply steps_head; eassumption|assumption]. }
  destruct (s_phase s) eqn:Hph.
  - assert (Hs : todo s <> [] \/ pending s <> [] ->
      match schedule e s with Ret s' => drive w n s' | Raise x => Stopped x s end = st ->
      match st with Running s' => steps build e s s' | Stopped x s' => steps build e s s' /\ step build e s' (Stopped x s') end).
    { intros Hne. destruct (schedule e s) as [s'|x] eqn:E; intros H'.
      - eapply Hgo; [|eassumption]. eapply step_schedule; eassumption.
      - rewrite <- H'. split; [apply steps_refl|]. eapply step_schedule_fail; eassumption. }
    destruct (todo s) as [|a t] eqn:Et, (pending s) as [|b u] eqn:Ep; [subst; cbn beta iota; apply steps_refl| | |];
      (apply Hs; [|assumption]); first [left; discriminate|right; discriminate].
  - destruct (find _ (pending s)) as [f|] eqn:Ef.
    + apply find_some in Ef. destruct Ef as (Hf & Hx). apply negb_true_iff in Hx. eapply Hgo; [|eassumption]. apply step_execute; assumption.
    + destruct (firstn w (pending s)) as [|f t] eqn:Ew; [subst; cbn beta iota; apply steps_refl|]. rewrite <- Ew in H.
      assert (Hsub : sublist (firstn w (pending s)) (pending s)) by apply sublist_firstn.
      assert (Hx : forall g, In g (firstn w (pending s)) -> dmem g (executed s) = true).
      { intros g Hg. assert (Hin : In g (pending s)) by (rewrite <- (firstn_skipn w); apply in_or_app; auto).
        pose proof (find_none _ _ Ef g Hin) as Hn. apply negb_false_iff in Hn. assumption. }
      assert (Hne : firstn w (pending s) <> []) by (rewrite Ew; discriminate).
      destruct (collect e (firstn w (pending s)) s) as [s'|x] eqn:Ec.
      * eapply Hgo; [|eassumption]. eapply step_collect; eassumption.
      * subst st. cbn beta iota. split; [apply steps_refl|]. eapply step_collect_fail; eassumption.
Qed.
End Drive.
