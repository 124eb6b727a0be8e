(** Vocabulary for the sizes of exported images. *)
From Verif Require Import Base Graph ImgSize.
From Coq Require Import ZArith QArith Qround Bool List.
Import ListNotations.
Open Scope list_scope.
Open Scope Z_scope.

(** the value of a Decimal *)
Definition value (d : dec) : Q := (inject_Z (coef d) * Qpower 10 (expo d))%Q.
(** a share of what is cropped away *)
Definition share (d : dec) : Prop := (0 <= value d <= 1)%Q.
(** a side of an image: up to 2^50 pixels *)
Definition side (n : Z) : Prop := 0 < n < 2 ^ 50.
(** [w] by [h] has the proportions of [dw] by [dh], up to a pixel in the width, or in the height *)
Definition width_matches (w h dw dh : Z) : Prop := Z.abs (w * dh - dw * h) < dh.
Definition height_matches (w h dw dh : Z) : Prop := Z.abs (w * dh - dw * h) < dw.
(** [x] is [q], up to a pixel *)
Definition about (x : Z) (q : Q) : Prop := (q - 1 < inject_Z x /\ inject_Z x < q + 1)%Q.

(** the i-th size, when resolution 1 + i * step is exact: step is [c] over 10^[k] *)
Definition ith (c k n : Z) (i : nat) : Z := n * (10 ^ k + Z.of_nat i * c) / 10 ^ k.
(** resolution 1 + i * step is within the limits *)
Definition allowed (max c k sw sh dw dh : Z) (i : nat) : Prop :=
  dw * (10 ^ k + Z.of_nat i * c) <= sw * 10 ^ k /\ dh * (10 ^ k + Z.of_nat i * c) <= sh * 10 ^ k /\ 10 ^ k + Z.of_nat i * c <= max * 10 ^ k.
(** each size is at least the one before *)
Fixpoint growing (from : Z * Z) (l : list (Z * Z)) : Prop :=
  match l with [] => True | s :: r => fst from <= fst s /\ snd from <= snd s /\ growing s r end.
