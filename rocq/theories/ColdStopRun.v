(** An executable check for [cold_stops]. *)
From Verif Require Import Base Graph GraphSpec GraphProofs Hot HotSpec HotDrive HotGraphs HotResultExamples Cold ColdSpec ColdExamples ColdStop.
From Coq Require Import String ZArith NArith Bool List.
Import ListNotations.
Open Scope list_scope.

(** Of the workers the last one to be started is the first to end. *)
Section Late.
Context (build : str -> fs -> option build_result) (e : env).
Fixpoint drive_late (fuel : nat) (s : sched) : state :=
  match fuel with
  | O => Running s
  | S n =>
      match s_phase s with
      | Scheduling => match todo s, pending s with
                      | [], [] => Running s
                      | _, _ => match schedule e s with Ret s' => drive_late n s' | Raise x => Stopped x s end
                      end
      | Waiting => match rev (pending s) with
                   | [] => Running s
                   | f :: _ => if dmem f (executed s) then match collect e [f] s with Ret s' => drive_late n (with_phase Scheduling s') | Raise x => Stopped x s end
                               else drive_late n (execute build f s)
                   end
      end
  end.
Lemma sublist_one f l : In f l -> sublist [f] l.
Proof. induction l as [|y l IH]; [intros []|]. intros [-> |H]; [constructor; constructor|apply sub_skip, IH, H]. Qed.
Lemma drive_late_sound fuel : forall s st, drive_late fuel s = st ->
  match st with
  | Running s' => steps build e s s'
  | Stopped x s' => steps build e s s' /\ step build e s' (Stopped x s')
  end.
Proof.
  induction fuel as [|n IH]; intros s st H; cbn [drive_late] in H; [subst; apply steps_refl|].
  assert (Hgo : forall s1, step build e s (Running s1) -> drive_late n s1 = st -> match st with Running s' => steps build e s s' | Stopped x s' => steps build e s s' /\ step build e s' (Stopped x s') end).
  { intros s1 S1 D. pose proof (IH _ _ D) as D0. clear D H IH. destruct st as [s0|x s0]; cbv beta iota in D0; [eapply steps_head; eassumption|]. destruct D0 as (D1 & D2). split; [eapply steps_head; eassumption|exact D2]. }
  destruct (s_phase s) eqn:Ep.
  - assert (X : (todo s = [] /\ pending s = [] /\ Running s = st) \/ (todo s <> [] \/ pending s <> []) /\ match schedule e s with Ret s' => drive_late n s' | Raise x => Stopped x s end = st).
    { destruct (todo s) eqn:Et; [destruct (pending s) eqn:Epe; [left; auto|right; split; [right; discriminate|exact H]]|right; split; [left; discriminate|exact H]]. }
    destruct X as [(_ & _ & <-)|(N & X)]; [apply steps_refl|]. destruct (schedule e s) as [s1|x] eqn:Es; [|rewrite <- X; split; [apply steps_refl|eapply step_schedule_fail; eassumption]].
    eapply Hgo; [|exact X]. eapply step_schedule; eassumption.
  - destruct (rev (pending s)) as [|f r] eqn:Er; [subst; apply steps_refl|]. assert (I : In f (pending s)) by (apply in_rev; rewrite Er; left; reflexivity). destruct (dmem f (executed s)) eqn:Ed.
    + assert (A : forall g, In g [f] -> dmem g (executed s) = true) by (intros g [<-|[]]; exact Ed). destruct (collect e [f] s) as [s1|x] eqn:Ec; [|subst st; cbv beta iota; split; [apply steps_refl|eapply step_collect_fail with (fs := [f]); eauto using sublist_one; discriminate]].
      eapply Hgo; [|exact H]. eapply step_collect with (fs := [f]); eauto using sublist_one. discriminate.
    + eapply Hgo; [|exact H]. apply step_execute; assumption.
Qed.
End Late.
Definition run_stop (build : str -> fs -> option build_result) (scan : str -> fs -> option scan_full) (stat : fs -> str -> option fsig)
    (constants : str) (dev : bool) (fuel : nat) (p : project) (files order : list str) : option exn :=
  match classify (p_D p) (stat (p_fs p)) files (dkeys (p_D p)) [] [] with
  | Raise _ => None
  | Ret (changed, added, deleted) =>
      match mode_step constants dev (stat (p_fs p)) (p_fs p) (p_mode p) changed added with
      | Raise _ => None
      | Ret (changed1, mode1) =>
          match dkeys changed1 ++ dkeys added ++ deleted with
          | [] => None
          | _ =>
              match scan_loop scan stat fuel (mkScanning (p_fs p) (dkeys changed1 ++ dkeys added) [] added) [] with
              | Raise _ => None
              | Ret (t, full) =>
                  match prepare (p_D p) (p_O p) (p_P p) (scans_of full) (sc_new t) deleted with
                  | Raise _ => None
                  | Ret (e, m) =>
                      if nodup_b order && same_b order (e_orig e) then
                        match drive_late build e fuel (init_sched e order m (sc_fs t)) with Stopped x _ => Some x | Running _ => None end
                      else None
                  end
              end
          end
      end
  end.
Lemma run_stop_sound build scan stat constants dev fuel p files order x : lists (p_fs p) files ->
  run_stop build scan stat constants dev fuel p files order = Some x -> cold_stops build scan stat constants dev p x.
Proof.
  intros (Hn & Hl). unfold run_stop. destruct (classify _ _ _ _ _ _) as [[[changed added] deleted]|] eqn:Ec; [|discriminate]. destruct (mode_step _ _ _ _ _ _ _) as [[changed1 mode1]|] eqn:Em; [|discriminate].
  destruct (dkeys changed1 ++ dkeys added ++ deleted) eqn:Ea; [discriminate|]. destruct (scan_loop _ _ _ _ _) as [[t full]|] eqn:El; [|discriminate]. destruct (prepare _ _ _ _ _ _) as [[e m]|] eqn:Ep; [|discriminate].
  destruct (nodup_b order && same_b order (e_orig e)) eqn:Eb; [|discriminate]. apply andb_true_iff in Eb. destruct Eb as [B1 B2]. destruct (drive_late _ _ _ _) as [s'|y s'] eqn:Ed; [discriminate|]. intros X. injection X as <-.
  apply drive_late_sound in Ed. destruct Ed as (St & Sp). eapply stops with (order := order); try eassumption.
  - destruct changed1; [|left; discriminate]. destruct added; [|right; left; discriminate]. destruct deleted; [discriminate Ea|right; right; discriminate].
  - apply nodup_b_spec; assumption.
  - apply same_b_spec; assumption.
Qed.
