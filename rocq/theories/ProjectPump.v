(** Two pipelines that differ only in the files they read give the same, if what was read is the same. *)
From Verif Require Import Base Graph Builder BuilderProofs.
From Coq Require Import List NArith Arith Bool Lia.
Import ListNotations.
Open Scope list_scope.

Section Pump.
Context {tok S : Type} (ms ms2 : list (manip tok S)) (grows : S -> S -> Prop) (agree : S -> Prop) (pre : manip tok S -> tok -> S -> Prop).
Definition pairs (m m2 : manip tok S) : Prop := In (m, m2) (combine ms ms2).
Context (grows_refl : forall s, grows s s) (grows_trans : forall a b c, grows a b -> grows b c -> grows a c) (agree_back : forall s s', grows s s' -> agree s' -> agree s).
Context (same_length : length ms = length ms2).
Context (start_step : forall m m2 t s, pairs m m2 -> start_mark m2 t s = start_mark m t s /\ forall r s', start_mark m t s = Ret (r, s') -> grows s s' /\ (r = true -> pre m t s')).
Context (continue_step : forall m m2 t s r s', pairs m m2 -> pre m t s -> continue_mark m t s = Ret (r, s') ->
  grows s s' /\ (r = None -> forall t', pre m t' s') /\ (agree s' -> continue_mark m2 t s = Ret (r, s'))).

Lemma find_step t : forall l l2, (forall m m2, In (m, m2) (combine l l2) -> pairs m m2) -> length l = length l2 -> forall s r s', find_mark l t s = Ret (r, s') ->
  grows s s' /\ match r with None => find_mark l2 t s = Ret (None, s') | Some m => exists m2, pairs m m2 /\ pre m t s' /\ find_mark l2 t s = Ret (Some m2, s') end.
Proof.
  induction l as [|m l IH]; intros [|m2 l2] Hp Hl s r s' H; try discriminate; cbn [find_mark] in *; [injection H as <- <-; split; [apply grows_refl|reflexivity]|].
  assert (Hm : pairs m m2) by (apply Hp; left; reflexivity). destruct (start_step m m2 t s Hm) as (E & G). rewrite E. destruct (start_mark m t s) as [[[|] s1]|] eqn:Es; [| |discriminate].
  - injection H as <- <-. destruct (G _ _ eq_refl) as (G1 & G2). split; [exact G1|]. exists m2. split; [exact Hm|]. split; [exact (G2 eq_refl)|reflexivity].
  - destruct (IH l2 ltac:(intros a b X; apply Hp; right; exact X) ltac:(cbn in Hl; congruence) s1 r s' H) as (A & B). split; [eapply grows_trans; [apply (G _ _ eq_refl)|exact A]|exact B].
Qed.
Definition held (b : builder tok S) : Prop := forall m, b_mark b = Some m -> (exists m2, pairs m m2) /\ forall t, pre m t (b_st b).
Lemma loop_grows f : forall stack b b', loop ms f stack b = Ret b' -> held b -> grows (b_st b) (b_st b') /\ held b'.
Proof.
  induction f as [|f IH]; intros [|t rest] b b' H A; cbn [loop] in *; try discriminate; [injection H as <-; split; [apply grows_refl|exact A]|injection H as <-; split; [apply grows_refl|exact A]|].
  assert (K : forall m m2 s, pairs m m2 -> pre m t s -> grows (b_st b) s -> forall b', match continue_mark m t s with
      | Raise e => Raise e
      | Ret (Some repl, s') => loop ms f (repl ++ rest) {| b_out := b_out b; b_mark := None; b_st := s' |}
      | Ret (None, s') => loop ms f rest {| b_out := b_out b; b_mark := Some m; b_st := s' |} end = Ret b' -> grows (b_st b) (b_st b') /\ held b').
  { intros m m2 s Hm Hpre Gs b1 H1. destruct (continue_mark m t s) as [[r s']|] eqn:Ec; [|discriminate]. destruct (continue_step m m2 t s r s' Hm Hpre Ec) as (G & Gn & _).
    destruct r as [repl|].
    - destruct (IH _ _ _ H1) as (G2 & I); [intros ? X; discriminate X|]. cbn [b_st] in G2. split; [eapply grows_trans; [exact Gs|]; eapply grows_trans; [exact G|exact G2]|exact I].
    - destruct (IH _ _ _ H1) as (G2 & I); [intros m' E; cbn [b_mark b_st] in *; injection E as <-; split; [eauto|exact (Gn eq_refl)]|]. cbn [b_st] in G2. split; [eapply grows_trans; [exact Gs|]; eapply grows_trans; [exact G|exact G2]|exact I]. }
  destruct (b_mark b) as [m|] eqn:Em.
  - destruct (A m Em) as ((m2 & Hm) & Hpre). eapply K; [exact Hm|apply Hpre|apply grows_refl|exact H].
  - destruct (find_mark ms t (b_st b)) as [[r s']|] eqn:Ef; [|discriminate].
    destruct (find_step t ms ms2 (fun m m2 X => X) same_length (b_st b) r s' Ef) as (G & B). destruct r as [m|].
    + destruct B as (m2 & Hm & Hpre & _). eapply K; [exact Hm|exact Hpre|exact G|exact H].
    + destruct (IH _ _ _ H) as (G2 & I); [intros ? X; discriminate X|]. cbn [b_st] in G2. split; [eapply grows_trans; [exact G|exact G2]|exact I].
Qed.
Lemma pump_grows f : forall ts b out b', pump ms f ts b = Ret (out, b') -> held b -> grows (b_st b) (b_st b').
Proof.
  induction ts as [|t ts IH]; intros b out b' H A; cbn [pump] in *; [injection H as <- <-; apply grows_refl|].
  unfold handle_token in *. destruct (loop ms f [t] b) as [b1|] eqn:E; [|discriminate]. cbn [consume_tokens] in *. destruct (loop_grows f [t] b b1 E A) as (G & A1).
  destruct (pump ms f ts {| b_out := []; b_mark := b_mark b1; b_st := b_st b1 |}) as [[o2 b3]|] eqn:Ep; [|discriminate]. injection H as <- <-.
  eapply grows_trans; [exact G|]. exact (IH _ _ _ Ep A1).
Qed.
Definition alike (b b2 : builder tok S) : Prop := b_out b2 = b_out b /\ b_st b2 = b_st b /\
  match b_mark b, b_mark b2 with None, None => True | Some m, Some m2 => pairs m m2 /\ forall t, pre m t (b_st b) | _, _ => False end.
Lemma alike_held b b2 : alike b b2 -> held b.
Proof. intros (_ & _ & A) m E. rewrite E in A. destruct (b_mark b2) as [m2|]; [|contradiction]. destruct A as (A1 & A2). split; [eauto|exact A2]. Qed.
Lemma loop_step f : forall stack b b2 b', loop ms f stack b = Ret b' -> alike b b2 -> agree (b_st b') -> exists b2', loop ms2 f stack b2 = Ret b2' /\ alike b' b2'.
Proof.
  induction f as [|f IH]; intros [|t rest] b b2 b' H A Ha; cbn [loop] in *; try discriminate; [injection H as <-; eauto|injection H as <-; eauto|].
  pose proof A as (A1 & A2 & A3).
  assert (K : forall m m2 s, pairs m m2 -> pre m t s -> match continue_mark m t s with
      | Raise e => Raise e
      | Ret (Some repl, s') => loop ms f (repl ++ rest) {| b_out := b_out b; b_mark := None; b_st := s' |}
      | Ret (None, s') => loop ms f rest {| b_out := b_out b; b_mark := Some m; b_st := s' |} end = Ret b' ->
    exists b2', match continue_mark m2 t s with
      | Raise e => Raise e
      | Ret (Some repl, s') => loop ms2 f (repl ++ rest) {| b_out := b_out b2; b_mark := None; b_st := s' |}
      | Ret (None, s') => loop ms2 f rest {| b_out := b_out b2; b_mark := Some m2; b_st := s' |} end = Ret b2' /\ alike b' b2').
  { intros m m2 s Hm Hpre H1. destruct (continue_mark m t s) as [[r s']|] eqn:Ec; [|discriminate]. destruct (continue_step m m2 t s r s' Hm Hpre Ec) as (G & Gn & Ag).
    destruct r as [repl|].
    - assert (G2 : grows s' (b_st b')) by (eapply (loop_grows f _ _ _ H1); intros ? X; discriminate X). rewrite (Ag (agree_back _ _ G2 Ha)).
      apply (IH _ _ {| b_out := b_out b2; b_mark := None; b_st := s' |} _ H1); [split; [exact A1|split; [reflexivity|exact Logic.I]]|exact Ha].
    - assert (G2 : grows s' (b_st b')) by (eapply (loop_grows f _ _ _ H1); intros m' E; cbn [b_mark b_st] in *; injection E as <-; split; [eauto|exact (Gn eq_refl)]). rewrite (Ag (agree_back _ _ G2 Ha)).
      apply (IH _ _ {| b_out := b_out b2; b_mark := Some m2; b_st := s' |} _ H1); [split; [exact A1|split; [reflexivity|split; [exact Hm|exact (Gn eq_refl)]]]|exact Ha]. }
  destruct (b_mark b) as [m|], (b_mark b2) as [m2|]; try contradiction.
  - rewrite A2. apply (K m); [apply A3|apply A3|exact H].
  - rewrite A2. destruct (find_mark ms t (b_st b)) as [[r s']|] eqn:Ef; [|discriminate].
    destruct (find_step t ms ms2 (fun m m2 X => X) same_length (b_st b) r s' Ef) as (G & B). destruct r as [m|].
    + destruct B as (m2 & Hm & Hpre & ->). apply (K m); [exact Hm|exact Hpre|exact H].
    + rewrite B. apply (IH _ _ {| b_out := b_out b2 ++ [t]; b_mark := None; b_st := s' |} _ H); [split; [cbn [b_out]; congruence|split; [reflexivity|exact Logic.I]]|exact Ha].
Qed.
Lemma pump_step f : forall ts b b2 out b', pump ms f ts b = Ret (out, b') -> alike b b2 -> agree (b_st b') -> exists b2', pump ms2 f ts b2 = Ret (out, b2') /\ alike b' b2'.
Proof.
  induction ts as [|t ts IH]; intros b b2 out b' H A Ha; cbn [pump] in *; [injection H as <- <-; eauto|].
  unfold handle_token in *. destruct (loop ms f [t] b) as [b1|] eqn:E; [|discriminate]. cbn [consume_tokens] in *.
  destruct (pump ms f ts {| b_out := []; b_mark := b_mark b1; b_st := b_st b1 |}) as [[o2 b3]|] eqn:Ep; [|discriminate]. injection H as <- <-.
  destruct (loop_grows f [t] b b1 E (alike_held _ _ A)) as (_ & A1). pose proof (pump_grows f ts _ _ _ Ep A1) as G. cbn [b_st] in G.
  destruct (loop_step f [t] b b2 b1 E A (agree_back _ _ G Ha)) as (b4 & E4 & (B1 & B2 & B3)). rewrite E4. cbn [consume_tokens].
  destruct (IH _ {| b_out := []; b_mark := b_mark b4; b_st := b_st b4 |} _ _ Ep) as (b5 & E5 & A5); [split; [reflexivity|split; [exact B2|exact B3]]|exact Ha|].
  rewrite E5, B1. eauto.
Qed.
Lemma new_alike s : alike (new_builder s) (new_builder s).
Proof. split; [reflexivity|]. split; [reflexivity|exact Logic.I]. Qed.
Lemma new_held s : held (new_builder s).
Proof. intros m E. discriminate E. Qed.
End Pump.

Lemma pump_more {tok S} (ms : list (manip tok S)) f f' : (f <= f')%nat -> forall ts b x, pump ms f ts b = Ret x -> pump ms f' ts b = Ret x.
Proof.
  intros Hf. induction ts as [|t ts IH]; intros b x H; cbn [pump] in *; [exact H|]. unfold handle_token in *. destruct (loop ms f [t] b) as [b1|] eqn:E; [|discriminate].
  rewrite (loop_le _ _ _ _ _ _ Hf E). cbn [consume_tokens] in *. destruct (pump ms f ts _) as [[o b2]|] eqn:E2; [|discriminate]. rewrite (IH _ _ E2). exact H.
Qed.
Lemma pump_same {tok S} (ms : list (manip tok S)) f f' ts b x y : pump ms f ts b = Ret x -> pump ms f' ts b = Ret y -> x = y.
Proof.
  intros H1 H2. destruct (Nat.le_ge_cases f f') as [L|L]; [apply (pump_more _ _ _ L) in H1|apply (pump_more _ _ _ L) in H2]; congruence.
Qed.
