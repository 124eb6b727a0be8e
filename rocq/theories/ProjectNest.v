(** The files that NestManipulator reads. *)
From Verif Require Import Base Graph PyPath PyNorm Css Builder BuilderSpec BuilderProofs Handlers IconManip Nest NestSpec NestText NestProofs NestSound.
From Coq Require Import String ZArith NArith Bool List.
Import ListNotations.
Open Scope list_scope.

Section Reads.
Context {F : Type} (float_of : str -> option F) (float_str : F -> str) (high_digit : N -> bool) (int_high : str -> option Z).
Notation token := (token (F := F)).
Notation rules := (rules (F := F)).
Notation nstate := (nstate (F := F)).
Context (default_css self : str) (f f2 : str -> option str) (pick : nat -> list ref -> nat) (fuel : nat).
Notation get_import := (get_import default_css).
Notation file_of := (file_of self).

(** the rules and what is left of the files come from files that exist *)
Definition kept (rs : rules) : Prop := forall r, rget r (available rs) <> None \/ rget r (unresolved rs) <> None -> f (file_of (fst r)) <> None.
Definition opened (s : nstate) : Prop := kept (n_rules s) /\ forall file g, dget file (resumable s) = Some g -> f file <> None.
Lemma set_rule_kept r b m rs rs' : kept rs -> f (file_of (fst r)) <> None -> set_rule r b m rs = Ret rs' -> kept rs'.
Proof.
  intros Hk Hr H. apply set_rule_frame in H. destruct H as (_ & H). intros k. destruct m as [|m0 m].
  - destruct H as (EA & H). rewrite EA. intros [X|X].
    + destruct (ref_eq_dec k r) as [->|N]; [exact Hr|]. rewrite rget_rset_other in X by exact N. apply Hk. left. exact X.
    + destruct (rget k (unresolved rs')) as [[x m']|] eqn:E; [|contradiction]. destruct (H _ _ _ E) as (_ & m & E2). apply Hk. right. congruence.
  - destruct H as (EA & EU & _). rewrite EA, EU. intros [X|X]; [apply Hk; left; exact X|]. destruct (ref_eq_dec k r) as [->|N]; [exact Hr|]. rewrite rget_rset_other, rget_rdel_other in X by exact N. apply Hk. right. exact X.
Qed.
Lemma resolve_kept r rs rs' : kept rs -> resolve default_css fuel r rs = Ret rs' -> kept rs'.
Proof.
  intros Hk. unfold resolve. destruct (rget r (unresolved rs)) as [[b m]|] eqn:U; [|discriminate]. destruct (fill default_css fuel (available rs) b []) as [v|]; [|discriminate]. apply set_rule_kept; [exact Hk|]. apply Hk. right. congruence.
Qed.
Lemma resolve_all_kept n : forall clock rs clock' rs', kept rs -> resolve_all default_css pick fuel n clock rs = Ret (clock', rs') -> kept rs'.
Proof.
  induction n as [|n IH]; intros clock rs clock' rs' Hk; cbn [resolve_all]; destruct (resolvable rs) as [|d l] eqn:R; try discriminate; try (intros H; injection H as <- <-; exact Hk).
  destruct (resolve default_css fuel _ rs) as [rs1|] eqn:E; [|discriminate]. intros H. apply IH in H; [exact H|]. exact (resolve_kept _ _ _ Hk E).
Qed.
Lemma ensure_using_kept n : forall imp g s s', opened s -> f (file_of (fst imp)) <> None -> ensure_using float_str default_css pick fuel n imp (file_of (fst imp)) g s = Ret s' -> opened s' /\ n_seen s' = n_seen s.
Proof.
  induction n as [|n IH]; intros imp g s s' (Hk & Hj) Hf; cbn [ensure_using]; destruct (resolve_all default_css pick fuel fuel (n_clock s) (n_rules s)) as [[clock rs]|] eqn:RA; try discriminate; apply resolve_all_kept in RA; try exact Hk;
    (destruct (rget imp (available rs)); [intros H; injection H as <-; split; [split; [exact RA|]|reflexivity]; cbn [resumable]; intros file g'; destruct (list_eq_dec N.eq_dec file (file_of (fst imp))) as [->|NE]; [intros _; exact Hf|rewrite dget_dset_other by congruence; apply Hj]|]); [discriminate|].
  destruct (read_item float_str default_css fuel (available rs) g) as [[o g']|]; [|discriminate]. destruct o as [[[p b] m]|].
  - destruct (set_rule (fst imp, p) b m rs) as [rs1|] eqn:SR; [|discriminate]. intros H. apply IH in H; [exact H| |exact Hf]. split; [exact (set_rule_kept (fst imp, p) b m rs rs1 RA Hf SR)|exact Hj].
  - intros H. apply IH in H; [exact H| |exact Hf]. split; [exact RA|exact Hj].
Qed.
(** an import is looked up in a file that exists *)
Lemma continue_kept t s r s' : opened s -> nest_continue float_of float_str high_digit int_high default_css self f pick fuel t s = Ret (r, s') ->
  exists imp v, get_import t = Some imp /\ r = Some v /\ f (file_of (fst imp)) <> None /\ opened s' /\ n_seen s' = n_seen s.
Proof.
  intros (Hk & Hj). unfold nest_continue. destruct (get_import t) as [imp|]; [|discriminate]. unfold ensure_resolved.
  destruct (resolve_all default_css pick fuel fuel (n_clock s) (n_rules s)) as [[clock rs]|] eqn:RA; [|discriminate]. apply resolve_all_kept in RA; [|exact Hk].
  assert (Fin : forall s1, opened s1 -> n_seen s1 = n_seen s -> match rget imp (available (n_rules s1)) with Some b => Ret (Some b, s1) | None => Raise KeyError end = Ret (r, s') ->
    exists imp0 v, Some imp = Some imp0 /\ r = Some v /\ f (file_of (fst imp0)) <> None /\ opened s' /\ n_seen s' = n_seen s).
  { intros s1 F1 Sn. destruct (rget imp (available (n_rules s1))) as [b|] eqn:A; [|discriminate]. intros H. injection H as <- <-. exists imp, b. split; [reflexivity|]. split; [reflexivity|]. split; [apply (proj1 F1); left; congruence|]. split; assumption. }
  destruct (rget imp (available rs)) as [b|] eqn:A.
  - cbn [n_rules]. apply (Fin (mkNest rs (resumable s) (n_seen s) clock)); [split; assumption|reflexivity].
  - unfold ensure_import_resolved. fold (file_of (fst imp)). cbn [resumable n_rules n_seen n_clock]. destruct (dget (file_of (fst imp)) (resumable s)) as [g|] eqn:RS.
    + destruct (ensure_using float_str default_css pick fuel fuel imp (file_of (fst imp)) g _) as [s1|] eqn:EU; [|discriminate]. apply ensure_using_kept in EU; [|split; [exact RA|exact Hj]|exact (Hj _ _ RS)]. destruct EU as [F1 Sn]. exact (Fin s1 F1 Sn).
    + destruct (f (file_of (fst imp))) as [text|] eqn:DF; [|discriminate].
      destruct (ensure_using float_str default_css pick fuel fuel imp (file_of (fst imp)) _ _) as [s1|] eqn:EU; [|discriminate]. apply ensure_using_kept in EU; [| |congruence].
      * destruct EU as [F1 Sn]. exact (Fin s1 F1 Sn).
      * split; [exact RA|]. cbn [resumable]. intros file g. destruct (list_eq_dec N.eq_dec file (file_of (fst imp))) as [->|NE]; [intros _; congruence|rewrite dget_dset_other by congruence; apply Hj].
Qed.
(** with the same file, the same *)
Lemma ensure_same imp s : f2 (file_of (fst imp)) = f (file_of (fst imp)) ->
  ensure_import_resolved float_of float_str high_digit int_high default_css self f2 pick fuel imp s = ensure_import_resolved float_of float_str high_digit int_high default_css self f pick fuel imp s.
Proof. intros H. unfold ensure_import_resolved. fold (file_of (fst imp)). rewrite H. reflexivity. Qed.
Lemma continue_seen t s r s' : nest_continue float_of float_str high_digit int_high default_css self f pick fuel t s = Ret (r, s') -> r <> None /\ n_seen s' = n_seen s.
Proof.
  unfold nest_continue. destruct (get_import t) as [imp|]; [|discriminate]. unfold ensure_resolved. destruct (resolve_all default_css pick fuel fuel (n_clock s) (n_rules s)) as [[clock rs]|]; [|discriminate].
  assert (EU : forall n imp path g (s s' : nstate), ensure_using float_str default_css pick fuel n imp path g s = Ret s' -> n_seen s' = n_seen s).
  { clear. induction n as [|n IH]; intros imp path g s s'; cbn [ensure_using]; destruct (resolve_all default_css pick fuel fuel (n_clock s) (n_rules s)) as [[clock rs]|]; try discriminate;
      (destruct (rget imp (available rs)); [intros H; injection H as <-; reflexivity|]); [discriminate|].
    destruct (read_item float_str default_css fuel (available rs) g) as [[[[[p b] m]|] g']|]; [| |discriminate].
    - destruct (set_rule (fst imp, p) b m rs) as [rs1|]; [|discriminate]. intros H. apply IH in H. exact H.
    - intros H. apply IH in H. exact H. }
  assert (Fin : forall s1 : nstate, n_seen s1 = n_seen s -> match rget imp (available (n_rules s1)) with Some b => Ret (Some b, s1) | None => Raise KeyError end = Ret (r, s') -> r <> None /\ n_seen s' = n_seen s).
  { intros s1 Sn. destruct (rget imp (available (n_rules s1))); [|discriminate]. intros H. injection H as <- <-. split; [discriminate|exact Sn]. }
  destruct (rget imp (available rs)); [apply Fin; reflexivity|]. unfold ensure_import_resolved. destruct (dget _ _) as [g|].
  - destruct (ensure_using _ _ _ _ _ _ _ _ _) as [s1|] eqn:E; [|discriminate]. apply EU in E. apply Fin. exact E.
  - destruct (f _); [|discriminate]. destruct (ensure_using _ _ _ _ _ _ _ _ _) as [s1|] eqn:E; [|discriminate]. apply EU in E. apply Fin. exact E.
Qed.
Lemma continue_same imp t s : get_import t = Some imp -> f2 (file_of (fst imp)) = f (file_of (fst imp)) ->
  nest_continue float_of float_str high_digit int_high default_css self f2 pick fuel t s = nest_continue float_of float_str high_digit int_high default_css self f pick fuel t s.
Proof.
  intros I H. unfold nest_continue. rewrite I. unfold ensure_resolved. destruct (resolve_all default_css pick fuel fuel (n_clock s) (n_rules s)) as [[clock rs]|]; [|reflexivity]. destruct (rget imp (available rs)); [reflexivity|]. rewrite ensure_same by exact H. reflexivity.
Qed.
Lemma init_opened : opened nest_init.
Proof. split; [intros r [X|X]; destruct (X eq_refl)|intros file g X; discriminate X]. Qed.
End Reads.
