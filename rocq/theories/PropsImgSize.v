(** C36 and C37: the part of an image that is used, and the sizes it is exported in. *)
From Verif Require Import Base Graph ImgSize ImgSizeSpec ImgSizeProofs ImgSizesProofs.
From Coq Require Import ZArith QArith Bool List Lia.
Import ListNotations.
Open Scope list_scope.
Open Scope Z_scope.

(** * C36: cover_fit *)
(** the rectangle lies within what the pre-crops leave; it has the full height and the right
    width, or the full width and the right height; what is cropped is shared as asked *)
Theorem C36_inside : forall sw sh dw dh left top pre_top pre_left pre_bottom pre_right, side sw -> side sh -> side dw -> side dh -> share left -> share top ->
  0 <= pre_top -> 0 <= pre_left -> 0 <= pre_bottom -> 0 <= pre_right -> pre_left + pre_right < sw -> pre_top + pre_bottom < sh ->
  exists x y w h, cover_fit sw sh dw dh left top pre_top pre_left pre_bottom pre_right = Ret (x, y, w, h) /\
    pre_left <= x /\ pre_top <= y /\ 0 <= w /\ 0 <= h /\ x + w <= sw - pre_right /\ y + h <= sh - pre_bottom /\
    ((h = sh - pre_top - pre_bottom /\ y = pre_top /\ width_matches w h dw dh /\ about (x - pre_left) (value left * inject_Z (sw - pre_left - pre_right - w))) \/
     (w = sw - pre_left - pre_right /\ x = pre_left /\ height_matches w h dw dh /\ about (y - pre_top) (value top * inject_Z (sh - pre_top - pre_bottom - h)))).
Proof. intros. destruct (fits sw sh dw dh left top pre_top pre_left pre_bottom pre_right) as (x & y & w & h & E & F); try assumption. exists x, y, w, h. tauto. Qed.
Print Assumptions C36_inside.
(** an image that is large enough is never enlarged *)
Theorem C36_no_enlarging : forall sw sh dw dh left top pre_top pre_left pre_bottom pre_right, side sw -> side sh -> side dw -> side dh -> share left -> share top ->
  0 <= pre_top -> 0 <= pre_left -> 0 <= pre_bottom -> 0 <= pre_right -> dw <= sw - pre_left - pre_right -> dh <= sh - pre_top - pre_bottom ->
  exists x y w h, cover_fit sw sh dw dh left top pre_top pre_left pre_bottom pre_right = Ret (x, y, w, h) /\ dw <= w /\ dh <= h.
Proof. intros sw sh dw dh left top pt pl pb pr SW SH DW DH. intros. destruct (fits sw sh dw dh left top pt pl pb pr) as (x & y & w & h & E & F); try assumption; unfold side in *; try lia. exists x, y, w, h. tauto. Qed.
Print Assumptions C36_no_enlarging.
(** pre-crops that leave nothing are an error *)
Theorem C36_nothing_left : forall sw sh dw dh left top pre_top pre_left pre_bottom pre_right, 0 <= pre_top -> 0 <= pre_left -> 0 <= pre_bottom -> 0 <= pre_right -> 0 < sw -> 0 < sh ->
  (sw <= pre_left + pre_right \/ sh <= pre_top + pre_bottom) -> cover_fit sw sh dw dh left top pre_top pre_left pre_bottom pre_right = Raise ValueError.
Proof. exact nothing_left. Qed.
Print Assumptions C36_nothing_left.
(** the example: a third of the width that goes is taken from the left *)
Example C36_example : side 1081 /\ side 1920 /\ side 333 /\ side 100 /\ share {| coef := 3; expo := -1 |} /\ cover_fit 1081 1920 333 100 {| coef := 5; expo := -1 |} {| coef := 3; expo := -1 |} 3 0 5 0 = Ret (0, 479, 1081, 325) /\
  cover_fit 1920 1081 100 333 {| coef := 3; expo := -1 |} {| coef := 5; expo := -1 |} 0 7 0 0 = Ret (483, 0, 325, 1081) /\ cover_fit 9 9 5 5 {| coef := 5; expo := -1 |} {| coef := 3; expo := -1 |} 5 0 4 0 = Raise ValueError.
Proof. unfold side, share. repeat (split; [vm_compute; try split; (reflexivity || discriminate)|]). vm_compute. reflexivity. Qed.
(** a large image from which nothing but a line is left may give an empty rectangle: the
    command is checked against the size of the image, not against what is left of it *)
Theorem C36_empty_refuted : exists sw sh dw dh pre_top, dw <= sw /\ dh <= sh /\ cover_fit sw sh dw dh {| coef := 5; expo := -1 |} {| coef := 5; expo := -1 |} pre_top 0 0 0 = Ret (250, pre_top, 0, 1).
Proof. exists 500, 500, 1, 100, 499. split; [lia|]. split; [lia|]. vm_compute. reflexivity. Qed.
Print Assumptions C36_empty_refuted.
(** percentages out of 100 and negative crops are accepted, and lead out of the image *)
Theorem C36_outside_refuted : exists x y w h, cover_fit 200 100 100 100 {| coef := 50; expo := 0 |} {| coef := 50; expo := 0 |} 0 0 0 0 = Ret (x, y, w, h) /\ 200 < x + w /\
  cover_fit 100 100 50 50 {| coef := 5; expo := -1 |} {| coef := 5; expo := -1 |} 0 (-20) 0 0 = Ret (-10, 0, 100, 100).
Proof. exists 5000, 0, 100, 100. vm_compute. auto. Qed.
Print Assumptions C36_outside_refuted.

(** * C37: the sizes *)
(** the first size is the one asked for, the sizes grow, fit in the image and keep the
    proportions; there are none if the image is too small *)
Theorem C37_sizes : forall max step sw sh dw dh fuel l, 0 < coef step -> 0 < dw <= 10 ^ 28 -> 0 < dh <= 10 ^ 28 -> sw < 10 ^ 28 -> sh < 10 ^ 28 -> yield_sizes max step sw sh dw dh fuel = Some l ->
  (dw <= sw /\ dh <= sh /\ 1 <= max -> exists l', l = (dw, dh) :: l') /\ (~ (dw <= sw /\ dh <= sh /\ 1 <= max) -> l = []) /\ growing (0, 0) l /\
  Forall (fun s => fst s <= sw /\ snd s <= sh /\ Z.abs (fst s * dh - snd s * dw) < dw + dh) l.
Proof. intros. eapply sizes_ok; try eassumption; lia. Qed.
Print Assumptions C37_sizes.
(** with a step that is not too small the enumeration ends *)
Theorem C37_ends : forall max step sw sh dw dh, 0 < coef step -> (inject_Z max <= value step * inject_Z (10 ^ 27))%Q -> exists fuel l, yield_sizes max step sw sh dw dh fuel = Some l.
Proof. intros. apply ends; assumption. Qed.
Print Assumptions C37_ends.
(** a step of [c] over 10^[k] gives every resolution 1 + i * step that is allowed, rounded down *)
Theorem C37_exact : forall max c k sw sh dw dh, 0 < c -> 0 <= k -> 0 < dw -> 0 < dh -> 1 <= max -> (max * 10 ^ k + c) * dw <= 10 ^ 28 -> (max * 10 ^ k + c) * dh <= 10 ^ 28 ->
  exists fuel n, yield_sizes max {| coef := c; expo := - k |} sw sh dw dh fuel = Some (map (fun i => (ith c k dw i, ith c k dh i)) (seq 0 n)) /\ forall i, allowed max c k sw sh dw dh i <-> (i < n)%nat.
Proof. intros. apply exact_sizes; assumption. Qed.
Print Assumptions C37_exact.
Example C37_example : yield_sizes 3 {| coef := 5; expo := -1 |} 500 400 101 90 20 = Some [(101, 90); (151, 135); (202, 180); (252, 225); (303, 270)] /\
  (inject_Z 3 <= value {| coef := 5; expo := -1 |} * inject_Z (10 ^ 27))%Q /\ (3 * 10 ^ 1 + 5) * 101 <= 10 ^ 28 /\ yield_sizes 3 {| coef := 5; expo := -1 |} 100 400 101 90 20 = Some [].
Proof. vm_compute. repeat split; discriminate. Qed.
(** a positive step may be lost: the enumeration goes on for ever *)
Theorem C37_stall_refuted : forall fuel, yield_sizes 2 {| coef := 1; expo := -29 |} 500 500 100 100 fuel = None.
Proof. exact stalls. Qed.
Print Assumptions C37_stall_refuted.
(** steps are read as floats: 1.7 times 10 pixels are 16 pixels, and 1.1 times 100 pixels do
    not fit in 110 *)
Theorem C37_float_refuted : exists s t, (value s == double (7 # 10))%Q /\ yield_sizes 2 s 500 500 10 10 9 = Some [(10, 10); (16, 16)] /\
  (value t == double (1 # 10))%Q /\ yield_sizes 2 t 110 110 100 100 9 = Some [(100, 100)].
Proof.
  exists {| coef := 6999999999999999555910790149937383830547332763671875; expo := -52 |}, {| coef := 1000000000000000055511151231257827021181583404541015625; expo := -55 |}.
  split; [vm_compute; reflexivity|]. split; [vm_compute; reflexivity|]. split; vm_compute; reflexivity.
Qed.
Print Assumptions C37_float_refuted.
(** a size may come up twice *)
Theorem C37_repeat_refuted : yield_sizes 2 {| coef := 5; expo := -1 |} 500 500 1 1 9 = Some [(1, 1); (1, 1); (2, 2)].
Proof. vm_compute. reflexivity. Qed.
Print Assumptions C37_repeat_refuted.
