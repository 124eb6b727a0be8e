(** Python string built-ins used by the modelled code. *)
From Verif Require Import Base.
From Coq Require Import List NArith Bool Lia.
Import ListNotations.
Open Scope list_scope.

(** [s.split(c)] for a separator of one character *)
Fixpoint split_on (c : N) (s : str) : list str :=
  match s with
  | [] => [[]]
  | x :: r =>
      if N.eqb x c then [] :: split_on c r
      else match split_on c r with [] => [[x]] | p :: ps => (x :: p) :: ps end
  end.

(** [sep.join(parts)] *)
Fixpoint join (sep : str) (parts : list str) : str :=
  match parts with
  | [] => []
  | [p] => p
  | p :: r => p ++ sep ++ join sep r
  end.

(** [s.isascii()]; also when [bytes(s, "ascii")] does not raise *)
Definition is_ascii (s : str) : bool := forallb (fun c => N.ltb c 128) s.

Lemma split_on_nonempty c s : split_on c s <> [].
Proof. destruct s as [|x r]; simpl; [discriminate|]. destruct (N.eqb x c); [discriminate|]. destruct (split_on c r); discriminate. Qed.
Lemma join_split c s : join [c] (split_on c s) = s.
Proof.
  induction s as [|x r IH]; [reflexivity|]. simpl. destruct (N.eqb x c) eqn:E.
  - apply N.eqb_eq in E. subst x. destruct (split_on c r) as [|p ps] eqn:Es; [exfalso; exact (split_on_nonempty c r Es)|]. simpl. rewrite <- IH. reflexivity.
  - destruct (split_on c r) as [|p ps] eqn:Es; [exfalso; exact (split_on_nonempty c r Es)|]. simpl in *. destruct ps; rewrite <- IH; reflexivity.
Qed.
(** no part contains the separator *)
Lemma split_on_free c s p : In p (split_on c s) -> ~ In c p.
Proof.
  revert p. induction s as [|x r IH]; intros p; simpl; [intros [<-|[]] []|]. destruct (N.eqb x c) eqn:E.
  - intros [<-|H]; [intros []|auto].
  - apply N.eqb_neq in E. destruct (split_on c r) as [|p0 ps] eqn:Es; [exfalso; exact (split_on_nonempty c r Es)|].
    intros [<-|H]; [|apply IH; right; assumption]. intros [X|X]; [auto|]. eapply IH; [left; reflexivity|exact X].
Qed.
Lemma split_on_app c a s : ~ In c a -> split_on c (a ++ c :: s) = a :: split_on c s.
Proof.
  induction a as [|x r IH]; intros H; simpl; [rewrite N.eqb_refl; reflexivity|].
  destruct (N.eqb x c) eqn:E; [apply N.eqb_eq in E; exfalso; apply H; left; assumption|]. rewrite IH; [reflexivity|]. intros X. apply H. right. assumption.
Qed.
Lemma split_on_none c a : ~ In c a -> split_on c a = [a].
Proof.
  induction a as [|x r IH]; intros H; simpl; [reflexivity|].
  destruct (N.eqb x c) eqn:E; [apply N.eqb_eq in E; exfalso; apply H; left; assumption|]. rewrite IH; [reflexivity|]. intros X. apply H. right. assumption.
Qed.
