From Verif Require Import Base Graph Builder BuilderSpec.
From Coq Require Import List NArith Bool Lia.
Import ListNotations.
Open Scope list_scope.

Section Proofs.
Context {tok S : Type} (ms : list (manip tok S)).
Notation loop := (loop ms). Notation pump := (pump ms). Notation rewrites := (rewrites ms).
Notation builder := (builder tok S).
Definition put (out : list tok) (b : builder) : builder := {| b_out := out ++ b_out b; b_mark := b_mark b; b_st := b_st b |}.

Ltac step := match goal with
  | H : context [match b_mark ?b with _ => _ end] |- _ => destruct (b_mark b) eqn:?
  | H : context [match find_mark ?l ?t ?s with _ => _ end] |- _ => destruct (find_mark l t s) as [[[?|] ?]|?] eqn:?
  | H : context [match continue_mark ?m ?t ?s with _ => _ end] |- _ => destruct (continue_mark m t s) as [[[?|] ?]|?] eqn:?
  end.
Lemma loop_more f : forall k st b b1, loop f st b = Ret b1 -> loop (f + k) st b = Ret b1.
Proof.
  induction f as [|f IH]; intros k st b b1 H; destruct st as [|t st]; cbn [Nat.add]; try (destruct k; exact H); try discriminate.
  cbn [Builder.loop] in *. repeat step; try discriminate; apply IH; exact H.
Qed.
Lemma loop_le f f' st b b1 : f <= f' -> loop f st b = Ret b1 -> loop f' st b = Ret b1.
Proof. intros Hl H. replace f' with (f + (f' - f)) by lia. apply loop_more. exact H. Qed.
Lemma loop_app f1 : forall f2 a r b b1 b2, loop f1 a b = Ret b1 -> loop f2 r b1 = Ret b2 -> loop (f1 + f2) (a ++ r) b = Ret b2.
Proof.
  induction f1 as [|f1 IH]; intros f2 a r b b1 b2 H1 H2; destruct a as [|t a]; try discriminate.
  - injection H1 as ->. exact H2.
  - injection H1 as ->. cbn [app]. apply (loop_le f2); [lia|exact H2].
  - cbn [app Nat.add Builder.loop] in *. repeat step; try discriminate; rewrite ?app_assoc; eapply IH; eassumption.
Qed.
Lemma loop_split f : forall a r b b2, loop f (a ++ r) b = Ret b2 -> exists b1, loop f a b = Ret b1 /\ loop f r b1 = Ret b2.
Proof.
  induction f as [|f IH]; intros a r b b2 H; destruct a as [|t a].
  - exists b. split; [reflexivity|exact H].
  - discriminate.
  - exists b. split; [reflexivity|exact H].
  - cbn [app Builder.loop] in H.
    assert (G : exists b1, loop (Datatypes.S f) (t :: a) b = Ret b1 /\ loop f r b1 = Ret b2).
    { cbn [Builder.loop]. repeat step; try discriminate; rewrite ?app_assoc in H; apply IH in H; exact H. }
    destruct G as (b1 & G1 & G2). exists b1. split; [exact G1|]. apply (loop_le f); [lia|exact G2].
Qed.
(** the output so far does not matter *)
Lemma loop_put f : forall o st b b1, loop f st b = Ret b1 -> loop f st (put o b) = Ret (put o b1).
Proof.
  induction f as [|f IH]; intros o st b b1 H; destruct st as [|t st]; try discriminate; try (injection H as ->; reflexivity).
  cbn [Builder.loop] in *. cbn [put b_mark b_st b_out]. repeat step; try discriminate; apply (IH o) in H; unfold put in H; cbn [b_out b_mark b_st] in H; rewrite ?app_assoc in H; exact H.
Qed.
Lemma put_nil b : put [] b = b.
Proof. destruct b. reflexivity. Qed.
Lemma loop_unput f st b b1 : loop f st b = Ret b1 -> exists o, b_out b1 = b_out b ++ o /\
  loop f st {| b_out := []; b_mark := b_mark b; b_st := b_st b |} = Ret {| b_out := o; b_mark := b_mark b1; b_st := b_st b1 |}.
Proof.
  revert st b b1. induction f as [|f IH]; intros st b b1 H; destruct st as [|t st]; try discriminate; try (injection H as ->; exists []; rewrite app_nil_r; split; reflexivity).
  cbn [Builder.loop] in *. cbn [b_mark b_st b_out]. repeat step; try discriminate; apply IH in H; cbn [b_out b_mark b_st] in H; destruct H as (o & E1 & E2); try (exists o; split; [exact E1|exact E2]).
  exists (t :: o). rewrite E1, <- app_assoc. split; [reflexivity|]. cbn [app]. apply (loop_put f [t]) in E2. unfold put in E2. cbn [b_out b_mark b_st app] in E2. exact E2.
Qed.

(** feeding the tokens one by one is running on the whole stream *)
Lemma pump_loop f : forall ts b o b1, b_out b = [] -> pump f ts b = Ret (o, b1) -> b_out b1 = [] /\ loop (length ts * f) ts b = Ret (put o b1).
Proof.
  induction ts as [|t ts IH]; intros b o b1 Hb H.
  - cbn in H. injection H as <- <-. rewrite put_nil. split; [exact Hb|reflexivity].
  - cbn [Builder.pump] in H. unfold handle_token in H. destruct (loop f [t] b) as [b2|] eqn:E; [|discriminate]. cbn [consume_tokens] in H. destruct (pump f ts _) as [[o2 b3]|] eqn:Ep; [|discriminate]. injection H as <- <-.
    assert (N : b_out {| b_out := @nil tok; b_mark := b_mark b2; b_st := b_st b2 |} = []) by reflexivity. destruct (IH _ _ _ N Ep) as (E3 & E4). split; [exact E3|]. cbn [length Nat.mul]. apply (loop_app f (length ts * f) [t] ts b b2); [exact E|]. apply (loop_put _ (b_out b2)) in E4. unfold put in *. cbn [b_out b_mark b_st] in *. rewrite app_nil_r in E4. destruct b2. cbn in *. rewrite app_assoc in E4. exact E4.
Qed.
Lemma loop_pump f : forall ts b b1, b_out b = [] -> loop f ts b = Ret b1 -> exists b2, pump f ts b = Ret (b_out b1, b2) /\ b_mark b2 = b_mark b1 /\ b_st b2 = b_st b1 /\ b_out b2 = [].
Proof.
  induction ts as [|t ts IH]; intros b b1 Hb H.
  - assert (b1 = b) as -> by (destruct f; injection H as ->; reflexivity). exists b. rewrite Hb. cbn. auto.
  - apply (loop_split f [t] ts) in H. destruct H as (b2 & H1 & H2). cbn [Builder.pump]. unfold handle_token. rewrite H1. cbn [consume_tokens]. apply loop_unput in H2. destruct H2 as (o & E1 & E2).
    assert (N : b_out {| b_out := @nil tok; b_mark := b_mark b2; b_st := b_st b2 |} = []) by reflexivity. destruct (IH _ _ N E2) as (b3 & E3 & E4). cbn [b_out b_mark b_st] in *. rewrite E3. exists b3. rewrite E1. split; [reflexivity|exact E4].
Qed.

(** the loop and the stream relation *)
Lemma find_mark_declined (l : list (manip tok S)) : forall t s s1, find_mark l t s = Ret (None, s1) <-> declined l t s s1.
Proof.
  induction l as [|m l IH]; intros t s s1; cbn [find_mark].
  - split; [intros [= <-]; constructor|]. intros H. inversion H. reflexivity.
  - destruct (start_mark m t s) as [[[|] s']|e] eqn:E.
    + split; [discriminate|]. intros H. inversion H. congruence.
    + rewrite IH. split; intros H; [econstructor; eassumption|]. inversion H. subst. rewrite E in *. match goal with X : Ret _ = Ret _ |- _ => injection X as -> end. assumption.
    + split; [discriminate|]. intros H. inversion H. congruence.
Qed.
Lemma find_mark_marked (l : list (manip tok S)) : forall t s m s1, find_mark l t s = Ret (Some m, s1) <-> marked l t s m s1.
Proof.
  induction l as [|m l IH]; intros t s m' s1; cbn [find_mark].
  - split; [discriminate|]. intros H. inversion H.
  - destruct (start_mark m t s) as [[[|] s']|e] eqn:E.
    + split; [intros [= <- <-]; constructor; exact E|]. intros H. inversion H; subst; rewrite E in *; congruence.
    + rewrite IH. split; intros H; [eapply MarkLater; eassumption|]. inversion H; subst; rewrite E in *; [discriminate|]. match goal with X : Ret _ = Ret _ |- _ => injection X as -> end. assumption.
    + split; [discriminate|]. intros H. inversion H; subst; congruence.
Qed.
Definition ended (lost : list tok) (o : option (manip tok S)) : Prop := match o with None => lost = [] | Some _ => lost <> [] end.
Lemma loop_rewrites f : forall ts o mk s b1, loop f ts {| b_out := o; b_mark := mk; b_st := s |} = Ret b1 ->
  match mk with
  | None => exists out lost, rewrites s ts out lost (b_st b1) /\ b_out b1 = o ++ out /\ ended lost (b_mark b1)
  | Some m => (exists seg repl rest s1 out lost, ts = seg ++ rest /\ replaces m s seg repl s1 /\ rewrites s1 (repl ++ rest) out lost (b_st b1) /\ b_out b1 = o ++ out /\ ended lost (b_mark b1)) \/
      (holds m s ts (b_st b1) /\ b_out b1 = o /\ b_mark b1 = Some m)
  end.
Proof.
  induction f as [|f IH]; intros ts o mk s b1 H.
  - destruct ts; [|discriminate]. injection H as <-. destruct mk; [right; repeat constructor|]. exists [], []. cbn. rewrite app_nil_r. repeat constructor.
  - destruct ts as [|t ts]. { injection H as <-. destruct mk; [right; repeat constructor|]. exists [], []. cbn. rewrite app_nil_r. repeat constructor. }
    cbn [Builder.loop b_out b_mark b_st] in H.
    assert (HC : forall m s0, match continue_mark m t s0 with Raise e => Raise e | Ret (Some repl, s') => loop f (repl ++ ts) {| b_out := o; b_mark := None; b_st := s' |} | Ret (None, s') => loop f ts {| b_out := o; b_mark := Some m; b_st := s' |} end = Ret b1 ->
      (exists seg repl rest s1 out lost, t :: ts = (t :: seg) ++ rest /\ replaces m s0 (t :: seg) repl s1 /\ rewrites s1 (repl ++ rest) out lost (b_st b1) /\ b_out b1 = o ++ out /\ ended lost (b_mark b1)) \/
      (holds m s0 (t :: ts) (b_st b1) /\ b_out b1 = o /\ b_mark b1 = Some m)).
    { intros m s0 HH. destruct (continue_mark m t s0) as [[[repl|] s']|] eqn:E; [| |discriminate].
      - apply IH in HH. destruct HH as (out & lost & R1 & R2 & R3). left. exists [], repl, ts, s', out, lost. split; [reflexivity|]. split; [constructor; exact E|]. auto.
      - apply IH in HH. destruct HH as [(seg & repl & rest & s1 & out & lost & -> & R1 & R2 & R3 & R4)|(R1 & R2 & R3)].
        + left. exists seg, repl, rest, s1, out, lost. split; [reflexivity|]. split; [eapply ReplMore; eassumption|]. auto.
        + right. split; [econstructor; eassumption|]. auto. }
    destruct mk as [m|].
    + destruct (HC m s H) as [(seg & repl & rest & s1 & out & lost & R)|R]; [left; exists (t :: seg), repl, rest, s1, out, lost; exact R|right; exact R].
    + destruct (find_mark ms t s) as [[[m|] s']|] eqn:E; [| |discriminate].
      * apply find_mark_marked in E. destruct (HC m s' H) as [(seg & repl & rest & s1 & out & lost & R1 & R2 & R3 & R4 & R5)|(R1 & R2 & R3)].
        -- exists out, lost. split; [rewrite R1; eapply RwMark; eassumption|]. auto.
        -- exists [], (t :: ts). split; [eapply RwOpen; eassumption|]. rewrite app_nil_r. split; [exact R2|]. rewrite R3. cbn. discriminate.
      * apply find_mark_declined in E. apply IH in H. destruct H as (out & lost & R1 & R2 & R3). exists (t :: out), lost. split; [eapply RwPass; eassumption|]. split; [rewrite R2, <- app_assoc; reflexivity|exact R3].
Qed.
Lemma replaces_loop (m : manip tok S) s seg repl s1 : replaces m s seg repl s1 -> forall f rest o b1, loop f (repl ++ rest) {| b_out := o; b_mark := None; b_st := s1 |} = Ret b1 ->
  loop (length seg + f) (seg ++ rest) {| b_out := o; b_mark := Some m; b_st := s |} = Ret b1.
Proof.
  intros H. induction H as [t s repl s1 E|t s s1 seg repl s2 E H IH]; intros f rest o b1 HL; cbn [length app Nat.add Builder.loop b_mark b_st b_out]; rewrite E; [exact HL|apply IH; exact HL].
Qed.
Lemma holds_loop (m : manip tok S) s seg s1 : holds m s seg s1 -> forall o, loop (length seg) seg {| b_out := o; b_mark := Some m; b_st := s |} = Ret {| b_out := o; b_mark := Some m; b_st := s1 |}.
Proof. intros H. induction H as [s|t s s1 seg s2 E H IH]; intros o; [reflexivity|]. cbn [length Builder.loop b_mark b_st b_out]. rewrite E. apply IH. Qed.
Lemma rewrites_loop s ts out lost s' : rewrites s ts out lost s' -> forall o, exists f mk, loop f ts {| b_out := o; b_mark := None; b_st := s |} = Ret {| b_out := o ++ out; b_mark := mk; b_st := s' |} /\ ended lost mk.
Proof.
  intros H. induction H as [s|t s s1 ts out lost s2 HD H IH|t m s s1 seg repl s2 ts out lost s3 HM HR H IH|t m s s1 seg s2 HM HH]; intros o.
  - exists 0, None. rewrite app_nil_r. split; reflexivity.
  - destruct (IH (o ++ [t])) as (f & mk & E & EE). exists (Datatypes.S f), mk. split; [|exact EE]. cbn [Builder.loop b_mark b_st b_out]. apply find_mark_declined in HD. rewrite HD, E. rewrite <- app_assoc. reflexivity.
  - destruct (IH o) as (f & mk & E & EE). exists (length (t :: seg) + f), mk. split; [|exact EE]. apply find_mark_marked in HM. pose proof (replaces_loop _ _ _ _ _ HR f ts o _ E) as L. cbn [length app Nat.add Builder.loop b_mark b_st b_out] in *. rewrite HM. exact L.
  - exists (length (t :: seg)), (Some m). apply find_mark_marked in HM. pose proof (holds_loop _ _ _ _ HH o) as L. cbn [length app Nat.add Builder.loop b_mark b_st b_out] in *. rewrite HM, app_nil_r. split; [exact L|]. cbn. discriminate.
Qed.
Theorem pump_rewrites s ts : forall out s', (exists f b, pump f ts (new_builder s) = Ret (out, b) /\ b_st b = s') <-> (exists lost, rewrites s ts out lost s').
Proof.
  intros out s'. split.
  - intros (f & b & H & Hs). apply pump_loop in H; [|reflexivity]. destruct H as (Hb & H). apply loop_rewrites in H. destruct H as (out' & lost & R1 & R2 & R3). unfold put in *. cbn [b_out b_st b_mark app] in *. rewrite Hb, app_nil_r in R2. subst. exists lost. exact R1.
  - intros (lost & H). destruct (rewrites_loop _ _ _ _ _ H []) as (f & mk & E & _). cbn [app] in E. apply loop_pump in E; [|reflexivity]. destruct E as (b2 & E1 & E2 & E3 & _). exists f, b2. cbn [b_out b_st] in *. auto.
Qed.
(** with whether the stream ended inside a mark *)
Theorem pump_stream s ts out s' (closed : bool) :
  (exists f b, pump f ts (new_builder s) = Ret (out, b) /\ b_st b = s' /\ (b_mark b = None <-> closed = true)) <->
  (exists lost, rewrites s ts out lost s' /\ (lost = [] <-> closed = true)).
Proof.
  split.
  - intros (f & b & H & Hs & Hm). apply pump_loop in H; [|reflexivity]. destruct H as (Hb & H). apply loop_rewrites in H. destruct H as (out' & lost & R1 & R2 & R3). unfold put in *. cbn [b_out b_st b_mark app] in *. rewrite Hb, app_nil_r in R2. subst. exists lost. split; [exact R1|].
    rewrite <- Hm. destruct (b_mark b); cbn in R3; [split; [intros X; congruence|discriminate]|tauto].
  - intros (lost & H & Hc). destruct (rewrites_loop _ _ _ _ _ H []) as (f & mk & E & EE). cbn [app] in E. apply loop_pump in E; [|reflexivity]. destruct E as (b2 & E1 & E2 & E3 & _). exists f, b2. cbn [b_out b_st b_mark] in *. split; [exact E1|]. split; [exact E3|].
    rewrite E2, <- Hc. destruct mk; cbn in EE; [split; [discriminate|intros X; congruence]|tauto].
Qed.

(** determinism *)
Lemma declined_marked (l : list (manip tok S)) : forall t s s1 m s2, declined l t s s1 -> marked l t s m s2 -> False.
Proof. intros t s s1 m s2 H1 H2. apply find_mark_declined in H1. apply find_mark_marked in H2. congruence. Qed.
Lemma rewrites_deterministic s ts o1 l1 s1 o2 l2 s2 : rewrites s ts o1 l1 s1 -> rewrites s ts o2 l2 s2 -> o1 = o2 /\ s1 = s2 /\ (l1 = [] <-> l2 = []).
Proof.
  intros H1 H2. destruct (rewrites_loop _ _ _ _ _ H1 []) as (f1 & m1 & E1 & X1). destruct (rewrites_loop _ _ _ _ _ H2 []) as (f2 & m2 & E2 & X2).
  apply (loop_le _ (f1 + f2)) in E1; [|lia]. apply (loop_le _ (f1 + f2)) in E2; [|lia]. rewrite E1 in E2. injection E2 as <- -> ->. repeat split; auto; destruct m2; cbn in *; congruence.
Qed.

(** * Consequences *)
(** nobody ever marks *)
Theorem no_marks_identity : (forall m t s, In m ms -> exists s1, start_mark m t s = Ret (false, s1)) -> forall ts s, exists s', rewrites s ts ts [] s'.
Proof.
  intros HN. assert (HD : forall l t s, incl l ms -> exists s1, declined l t s s1).
  { induction l as [|m l IH]; intros t s Hi; [eexists; constructor|]. destruct (HN m t s) as (s1 & E); [apply Hi; left; reflexivity|]. destruct (IH t s1) as (s2 & E2); [intros x Hx; apply Hi; right; exact Hx|]. eexists. econstructor; eassumption. }
  induction ts as [|t ts IH]; intros s; [eexists; constructor|]. destruct (HD ms t s (incl_refl _)) as (s1 & E). destruct (IH s1) as (s2 & E2). eexists. econstructor; eassumption.
Qed.
(** manipulators that only look: every replacement is what was taken *)
Theorem observers_identity s ts out lost s' : (forall m s0 seg repl s1, In m ms -> replaces m s0 seg repl s1 -> repl = seg) -> rewrites s ts out lost s' -> out ++ lost = ts.
Proof.
  intros HO H. assert (HI : forall (l : list (manip tok S)) t s m s1, marked l t s m s1 -> In m l) by (intros l t x m y Hm; induction Hm; [left; reflexivity|right; assumption]).
  induction H as [s|t s s1 ts out lost s2 HD H IH|t m s s1 seg repl s2 ts out lost s3 HM HR H IH|t m s s1 seg s2 HM HH]; [reflexivity|cbn; f_equal; exact IH| |reflexivity].
  rewrite (HO _ _ _ _ _ (HI _ _ _ _ _ HM) HR) in IH. exact IH.
Qed.
(** any property of tokens that passing tokens and replacements have holds of the output *)
Theorem output_property (P : tok -> Prop) s ts out lost s' : rewrites s ts out lost s' ->
  (forall t s0 s1, declined ms t s0 s1 -> P t) -> Forall P out.
Proof. intros H HP. induction H; [constructor|constructor; [eapply HP; eassumption|assumption]|assumption|constructor]. Qed.
End Proofs.
