(** Signatures: what two equal ones say. *)
From Verif Require Import Base Signature SignatureSpec.
From Coq Require Import String ZArith NArith Bool List Lia.
Import ListNotations.
Open Scope list_scope.

Lemma set_same {B} (m : N -> B) k v x : set N.eqb k v m x = if N.eqb x k then v else m x.
Proof. reflexivity. Qed.
Lemma change_time c moves s s' : change c moves s s' -> in_time s -> in_time s' /\ (d_clock s <= d_clock s')%N.
Proof.
  intros H (A & B). destruct H as [n Hn|p i x m y Hc Hp Hi|p i k Hc Hp Hi|p|i Hi|p q i Hm Hp Hq|p q i Hm Hp Hq]; unfold in_time; cbn [d_names d_inodes d_clock].
  - split; [|exact Hn]. split; [|exact B]. intros i k m Hi. specialize (A i k m Hi). lia.
  - split; [|lia]. split.
    + intros j k z Hj. unfold set in Hj. destruct (N.eqb j i); [injection Hj as <- <-; lia|exact (A j k z Hj)].
    + intros r j Hr. unfold set. destruct (N.eqb j i); [discriminate|exact (B r j Hr)].
  - split; [|lia]. split.
    + intros j k' z Hj. unfold set in Hj. destruct (N.eqb j i); [injection Hj as <- <-; lia|exact (A j k' z Hj)].
    + intros r j Hr. unfold set in *. destruct (N.eqb j i) eqn:E; [discriminate|]. destruct (str_eqb r p); [injection Hr as <-; rewrite N.eqb_refl in E; discriminate E|exact (B r j Hr)].
  - split; [|lia]. split; [exact A|]. intros r j Hr. unfold set in Hr. destruct (str_eqb r p); [discriminate Hr|exact (B r j Hr)].
  - split; [|lia]. split.
    + intros j k z Hj. unfold set in Hj. destruct (N.eqb j i); [discriminate Hj|exact (A j k z Hj)].
    + intros r j Hr. unfold set. destruct (N.eqb j i) eqn:E; [apply N.eqb_eq in E; subst j; exfalso; exact (Hi r Hr)|exact (B r j Hr)].
  - split; [|lia]. split; [exact A|]. intros r j Hr. unfold set in Hr. destruct (str_eqb r p); [discriminate Hr|]. destruct (str_eqb r q); [injection Hr as <-; exact (B p i Hp)|exact (B r j Hr)].
  - split; [|lia]. split; [exact A|]. intros r j Hr. unfold set in Hr. destruct (str_eqb r q); [injection Hr as <-; exact (B p i Hp)|exact (B r j Hr)].
Qed.
Lemma changes_time c moves s s' : changes c moves s s' -> in_time s -> in_time s' /\ (d_clock s <= d_clock s')%N.
Proof. induction 1 as [s|s s1 s2 H IH H1]; intros T; [split; [exact T|lia]|]. destruct (IH T) as (A & B). destruct (change_time _ _ _ _ H1 A). split; [assumption|lia]. Qed.
Lemma new_in_time : in_time new_disk.
Proof. split; discriminate. Qed.
(** inodes that do not have a later time are as they were *)
Lemma changes_old c moves s s' : changes c moves s s' -> forall i k m, d_inodes s' i = Some (k, m) -> (c < m)%N \/ d_inodes s i = Some (k, m).
Proof.
  induction 1 as [s|s s1 s2 H IH H1]; intros i k m Hi; [auto|]. destruct H1 as [n Hn|p j x z y Hc Hp Hj|p j k' Hc Hp Hj|p|j Hj|p q j Hm Hp Hq|p q j Hm Hp Hq]; cbn [d_inodes] in Hi; try (apply IH; exact Hi); unfold set in Hi; destruct (N.eqb i j); try (apply IH; exact Hi); try discriminate Hi.
  - injection Hi as <- <-. left. exact Hc.
  - injection Hi as <- <-. left. exact Hc.
Qed.
Lemma lstat_inode s p k m i : lstat s p = Some (k, m, i) <-> d_names s p = Some i /\ d_inodes s i = Some (k, m).
Proof. unfold lstat. destruct (d_names s p) as [j|]; [|split; [discriminate|intros (X & _); discriminate X]]. destruct (d_inodes s j) as [(k', m')|] eqn:E; split; intros H; try discriminate H; [injection H as <- <- <-; auto|destruct H as (X & Y); injection X as <-; congruence|destruct H as (X & Y); injection X as <-; congruence]. Qed.
(** without renaming, what has no later time has been there all the time *)
Lemma change_back c s s' p k m i : in_time s -> change c false s s' -> lstat s' p = Some (k, m, i) -> (m <= c)%N -> lstat s p = Some (k, m, i).
Proof.
  intros (_ & T) H HL Hm. apply lstat_inode in HL. destruct HL as (A & B). apply lstat_inode. destruct H as [n Hn|r j x z y Hc Hp Hj|r j k' Hc Hp Hj|r|j Hj|r q j Hx Hp Hq|r q j Hx Hp Hq]; cbn [d_names d_inodes] in *; try discriminate Hx; unfold set in *.
  - auto.
  - destruct (N.eqb i j); [injection B as <- <-; lia|auto].
  - destruct (N.eqb i j) eqn:E; [injection B as <- <-; lia|]. destruct (str_eqb p r); [injection A as <-; rewrite N.eqb_refl in E; discriminate E|auto].
  - destruct (str_eqb p r); [discriminate A|auto].
  - destruct (N.eqb i j); [discriminate B|auto].
Qed.
Lemma changes_back c s s' p k m i : in_time s -> changes c false s s' -> lstat s' p = Some (k, m, i) -> (m <= c)%N -> lstat s p = Some (k, m, i).
Proof.
  intros T H. revert T. induction H as [s|s s1 s2 H IH H1]; intros T HL Hm; [exact HL|]. apply (IH T); [|exact Hm]. eapply change_back; [|exact H1|exact HL|exact Hm]. exact (proj1 (changes_time _ _ _ _ H T)).
Qed.
Lemma equal_signatures s s' p : get_file_signature true s p = get_file_signature true s' p -> (lstat s p = None /\ lstat s' p = None) \/ exists k k' m i, lstat s p = Some (k, m, i) /\ lstat s' p = Some (k', m, i).
Proof.
  unfold get_file_signature. destruct (lstat s p) as [((k, m), i)|], (lstat s' p) as [((k', m'), i')|]; intros H; try discriminate H; [|auto]. injection H as <- _ <-. right. eauto 6.
Qed.
Lemma noticed moves s s' p : in_time s -> after_look moves s s' -> get_file_signature true s p = get_file_signature true s' p -> lstat s p = lstat s' p.
Proof.
  intros T H E. destruct (equal_signatures s s' p E) as [(A & B)|(k & k' & m & i & A & B)]; [congruence|]. rewrite A, B. apply lstat_inode in A, B. destruct A as (A1 & A2). destruct B as (B1 & B2). pose proof (proj1 T i k m A2) as L.
  destruct (changes_old _ _ _ _ H i k' m B2) as [X|X]; [lia|]. congruence.
Qed.
Lemma changes_trans c moves s s1 s2 : changes c moves s s1 -> changes c moves s1 s2 -> changes c moves s s2.
Proof. intros H H1. induction H1 as [s1|s1 s2 s3 H1 IH H2]; [exact H|]. eapply one_more; [exact (IH H)|exact H2]. Qed.
