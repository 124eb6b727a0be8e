(** Property C78: what the signature of a file tells. *)
From Coq Require Import String ZArith NArith Bool List Lia.
From Verif Require Import Base Signature SignatureSpec SignatureProofs SignatureExamples.
Import ListNotations.
Open Scope list_scope.

(** Files are saved in place, created, removed, renamed over others and linked, and numbers of inodes are used again: if
    none of this writing happens in the very moment of the first look, and the second look shows the same signature,
    then the file (not a symbolic link) has the same contents. *)
Theorem C78_noticed : forall c0 m0 moves s s' p fuel, changes c0 m0 new_disk s -> after_look moves s s' -> plain s p ->
  get_file_signature true s p = get_file_signature true s' p -> contents fuel s p = contents fuel s' p.
Proof.
  intros c0 m0 moves s s' p fuel H0 H Hp E. pose proof (noticed moves s s' p (proj1 (changes_time _ _ _ _ H0 new_in_time)) H E) as L. destruct fuel as [|n]; [reflexivity|]. cbn [contents]. rewrite <- L. destruct (lstat s p) as [(([x|q], m), i)|] eqn:X; [reflexivity| |reflexivity]. exfalso. exact (Hp _ _ _ X).
Qed.
(** A build takes the signature first and reads the file later, and the next build looks again: if nothing was renamed
    and the signature is the recorded one, then what was read is what is there, although the file may have been edited
    between the look and the reading. *)
Theorem C78_read_later : forall c0 m0 s s1 s2 p fuel, changes c0 m0 new_disk s -> after_look false s s1 -> changes (d_clock s) false s1 s2 -> plain s p ->
  get_file_signature true s p <> None -> get_file_signature true s p = get_file_signature true s2 p -> contents fuel s1 p = contents fuel s2 p /\ contents fuel s1 p = contents fuel s p.
Proof.
  intros c0 m0 s s1 s2 p fuel H0 H1 H2 Hp HN E. pose proof (proj1 (changes_time _ _ _ _ H0 new_in_time)) as T. pose proof (changes_trans _ _ _ _ _ H1 H2) as H. pose proof (noticed false s s2 p T H E) as L.
  unfold get_file_signature in HN. destruct (lstat s p) as [((k, m), i)|] eqn:X; [|contradiction]. assert (L1 : lstat s1 p = Some (k, m, i)).
  { eapply changes_back; [exact (proj1 (changes_time _ _ _ _ H1 T))|exact H2|symmetry; exact L|]. apply lstat_inode in X. exact (proj1 T i k m (proj2 X)). }
  destruct fuel as [|n]; [split; reflexivity|]. cbn [contents]. rewrite X, <- L, L1. split; [|]; destruct k as [x|q]; try reflexivity; exfalso; exact (Hp _ _ _ X).
Qed.
(** A symbolic link with the same signature points to the same path. *)
Theorem C78_link : forall c0 m0 moves s s' p q m i, changes c0 m0 new_disk s -> after_look moves s s' -> get_file_signature true s p = get_file_signature true s' p -> lstat s p = Some (Points q, m, i) -> lstat s' p = Some (Points q, m, i).
Proof. intros c0 m0 moves s s' p q m i H0 H E L. rewrite <- (noticed moves s s' p (proj1 (changes_time _ _ _ _ H0 new_in_time)) H E). exact L. Qed.
(** The conditions are needed. An edit of the file that a symbolic link points to is not noticed: *)
Theorem C78_link_refuted : ~ forall s s' p fuel, changes 0 true new_disk s -> after_look false s s' -> get_file_signature true s p = get_file_signature true s' p -> contents fuel s p = contents fuel s' p.
Proof. intros H. specialize (H sg0 sg2 sg_x 2%nat sg0_changes (sg2_look false) eq_refl). vm_compute in H. discriminate H. Qed.
(** nor an edit in the moment of the look that keeps the size: *)
Theorem C78_moment_refuted : ~ forall s s' p fuel, changes 0 true new_disk s -> changes 0 true s s' -> plain s p -> get_file_signature true s p = get_file_signature true s' p -> contents fuel s p = contents fuel s' p.
Proof. intros H. specialize (H sg0 sg_now sg_a 1%nat sg0_changes sg_now_changes sg_plain eq_refl). vm_compute in H. discriminate H. Qed.
(** nor one after which the old time is set again: *)
Theorem C78_time_refuted : ~ forall s s' p i m fuel, changes 0 true new_disk s -> after_look false s s' -> plain s p -> get_file_signature true s p = get_file_signature true (set_time i m s') p -> contents fuel s p = contents fuel (set_time i m s') p.
Proof. intros H. specialize (H sg0 sg2 sg_a 1%N 5%N 1%nat sg0_changes (sg2_look false) sg_plain eq_refl). vm_compute in H. discriminate H. Qed.
(** nor, on systems without inodes, another file with the same time and size that is renamed: *)
Theorem C78_inodes_refuted : ~ forall s s' p fuel, changes 0 true new_disk s -> after_look true s s' -> plain s p -> get_file_signature false s p = get_file_signature false s' p -> contents fuel s p = contents fuel s' p.
Proof. intros H. specialize (H sg0 sg_moved sg_a 1%nat sg0_changes sg_moved_look sg_plain eq_refl). vm_compute in H. discriminate H. Qed.
(** and a build may read another file that is at the path for a while only. *)
Theorem C78_swap_refuted : ~ forall s s1 s2 p fuel, changes 0 true new_disk s -> after_look true s s1 -> changes (d_clock s) true s1 s2 -> plain s p ->
  get_file_signature true s p <> None -> get_file_signature true s p = get_file_signature true s2 p -> contents fuel s1 p = contents fuel s2 p.
Proof.
  intros H. assert (X : get_file_signature true sg0 sg_a <> None) by (vm_compute; discriminate). specialize (H sg0 sg_swap1 sg_swap2 sg_a 1%nat sg0_changes sg_swap1_look sg_swap2_look sg_plain X eq_refl). vm_compute in H. discriminate H.
Qed.
(** a.css is saved later, with another text of the same size: its signature is new, that of b.css is not *)
Example C78_saved : changes 0 true new_disk sg0 /\ after_look false sg0 sg2 /\ plain sg0 sg_a /\ plain sg0 sg_b /\
  get_file_signature true sg0 sg_b <> None /\ get_file_signature true sg0 sg_b = get_file_signature true sg2 sg_b /\ contents 1 sg0 sg_a <> contents 1 sg2 sg_a /\ get_file_signature true sg0 sg_a <> get_file_signature true sg2 sg_a.
Proof.
  split; [exact sg0_changes|]. split; [exact (sg2_look false)|]. split; [exact sg_plain|]. split; [intros q m i H; vm_compute in H; discriminate H|]. split; [vm_compute; discriminate|]. split; [vm_compute; reflexivity|]. split; vm_compute; discriminate.
Qed.
(** b.css is renamed to a.css: noticed, with inodes *)
Example C78_renamed : after_look true sg0 sg_moved /\ get_file_signature true sg0 sg_a <> get_file_signature true sg_moved sg_a /\ get_file_signature false sg0 sg_a = get_file_signature false sg_moved sg_a.
Proof. split; [exact sg_moved_look|]. split; [vm_compute; discriminate|vm_compute; reflexivity]. Qed.
Print Assumptions C78_noticed.
Print Assumptions C78_read_later.
Print Assumptions C78_link.
Print Assumptions C78_link_refuted.
Print Assumptions C78_moment_refuted.
Print Assumptions C78_time_refuted.
Print Assumptions C78_inodes_refuted.
Print Assumptions C78_swap_refuted.
