(** A stylesheet, a link to it, and what can be done to them. *)
From Verif Require Import Base Signature SignatureSpec SignatureProofs.
From Coq Require Import String ZArith NArith Bool List Lia.
Import ListNotations.
Open Scope list_scope.

Definition sg_a := lit "src/public/a.css".
Definition sg_b := lit "src/public/b.css".
Definition sg_x := lit "src/public/x.css".
Definition make (p : str) (i : N) (k : kind) (s : disk) : disk := mkDisk (set str_eqb p (Some i) (d_names s)) (set N.eqb i (Some (k, d_clock s)) (d_inodes s)) (d_clock s).
Definition wait (n : N) (s : disk) : disk := mkDisk (d_names s) (d_inodes s) n.
Definition save (i : N) (y : str) (s : disk) : disk := mkDisk (d_names s) (set N.eqb i (Some (Data y, d_clock s)) (d_inodes s)) (d_clock s).
Definition move (p q : str) (i : N) (s : disk) : disk := mkDisk (set str_eqb p None (set str_eqb q (Some i) (d_names s))) (d_inodes s) (d_clock s).
Lemma then_make c b s s1 p i k : changes c b s s1 -> (c < d_clock s1)%N -> d_names s1 p = None -> d_inodes s1 i = None -> changes c b s (make p i k s1).
Proof. intros H A B C. eapply one_more; [exact H|]. exact (create c b s1 p i k A B C). Qed.
Lemma then_move c s s1 p q i : changes c true s s1 -> d_names s1 p = Some i -> p <> q -> changes c true s (move p q i s1).
Proof. intros H A B. eapply one_more; [exact H|]. exact (rename c true s1 p q i eq_refl A B). Qed.
Lemma then_save c b s s1 p i x m y : changes c b s s1 -> (c < d_clock s1)%N -> d_names s1 p = Some i -> d_inodes s1 i = Some (Data x, m) -> changes c b s (save i y s1).
Proof. intros H A B C. eapply one_more; [exact H|]. exact (write c b s1 p i x m y A B C). Qed.
Lemma then_wait c b s s1 n : changes c b s s1 -> (d_clock s1 <= n)%N -> changes c b s (wait n s1).
Proof. intros H A. eapply one_more; [exact H|]. exact (tick c b s1 n A). Qed.
(** a.css, and b.css of the same size, and at x.css a link to a.css *)
Definition sg0 : disk := make sg_x 3 (Points sg_a) (make sg_b 2 (Data (lit "blue")) (make sg_a 1 (Data (lit "gold")) (wait 5 new_disk))).
Lemma sg0_changes : changes 0 true new_disk sg0.
Proof. repeat (apply then_make; [|reflexivity|vm_compute; reflexivity|vm_compute; reflexivity]). apply then_wait; [apply no_change|discriminate]. Qed.
Lemma sg0_time : in_time sg0.
Proof. exact (proj1 (changes_time _ _ _ _ sg0_changes new_in_time)). Qed.
(** later a.css is saved, with contents of the same size *)
Definition sg1 : disk := wait 6 sg0.
Definition sg2 : disk := save 1 (lit "grey") sg1.
Lemma sg1_look m : after_look m sg0 sg1.
Proof. apply then_wait; [apply no_change|discriminate]. Qed.
Lemma sg2_look m : after_look m sg0 sg2.
Proof. apply (then_save _ _ _ _ sg_a 1 (lit "gold") 5); [apply sg1_look|reflexivity|vm_compute; reflexivity|vm_compute; reflexivity]. Qed.
(** or at once *)
Definition sg_now : disk := save 1 (lit "grey") sg0.
Lemma sg_now_changes : changes 0 true sg0 sg_now.
Proof. apply (then_save _ _ _ _ sg_a 1 (lit "gold") 5); [apply no_change|reflexivity|vm_compute; reflexivity|vm_compute; reflexivity]. Qed.
(** b.css takes the place of a.css *)
Definition sg_moved : disk := move sg_b sg_a 2 sg1.
Lemma sg_moved_look : after_look true sg0 sg_moved.
Proof. apply then_move; [apply sg1_look|vm_compute; reflexivity|discriminate]. Qed.
(** a.css is put aside, b.css takes its place, and goes back *)
Definition sg_aside := lit "a.old".
Definition sg_swap1 : disk := move sg_b sg_a 2 (move sg_a sg_aside 1 sg1).
Definition sg_swap2 : disk := move sg_aside sg_a 1 (move sg_a sg_b 2 sg_swap1).
Lemma sg_swap1_look : after_look true sg0 sg_swap1.
Proof. apply then_move; [apply then_move; [apply sg1_look|vm_compute; reflexivity|discriminate]|vm_compute; reflexivity|discriminate]. Qed.
Lemma sg_swap2_look : changes (d_clock sg0) true sg_swap1 sg_swap2.
Proof. apply then_move; [apply then_move; [apply no_change|vm_compute; reflexivity|discriminate]|vm_compute; reflexivity|discriminate]. Qed.
Lemma sg_plain : plain sg0 sg_a.
Proof. intros q m i H. vm_compute in H. discriminate H. Qed.
