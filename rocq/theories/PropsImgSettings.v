(** C39: the settings hash. *)
From Verif Require Import Base Graph Html ImgSettings ImgSettingsSpec ImgSettingsProofs.
From Coq Require Import String ZArith NArith Bool List Lia.
Import ListNotations.
Open Scope list_scope.
Open Scope Z_scope.

(** Settings that are equal as dictionaries hash equally, whatever the order
    in which formats, exports and arguments are listed. *)
Theorem C39_order (s s' : image_settings) : same_settings s s' -> hash_image_settings s = hash_image_settings s'.
Proof. exact (settings_same s s'). Qed.
Print Assumptions C39_order.

(** The hash is a 64-bit number, and exists when every argument is a text, a
    number, a truth value or None. *)
Theorem C39_range (s : image_settings) : plain_settings s -> exists h, hash_image_settings s = Ret h /\ 0 <= h < 2 ^ 64.
Proof. intros P. destruct (settings_defined s P) as [h E]. exists h. split; [exact E|exact (settings_range s h E)]. Qed.
Print Assumptions C39_range.

(** Changing a single number, wherever it is, changes the hash. *)
Theorem C39_changed (s s' : image_settings) (h h' : Z) : settings_changed s s' -> hash_image_settings s = Ret h -> hash_image_settings s' = Ret h' -> h <> h'.
Proof. exact (settings_parts s s' h h'). Qed.
Print Assumptions C39_changed.

Definition jpeg (q : Z) (mi : option Z) : image_export := {| min_area := mi; max_area := None; preference := 65; kwargs := [(lit "quality", KInt q); (lit "optimize", KBool true)] |}.
Definition jpeg' (q : Z) (mi : option Z) : image_export := {| min_area := mi; max_area := None; preference := 65; kwargs := [(lit "optimize", KBool true); (lit "quality", KInt q)] |}.
Definition some_settings (q : Z) (mi : option Z) : image_settings :=
  {| formats := [(lit "jpeg", {| exports := [(lit "a", jpeg q mi); (lit "b", jpeg 70 None)]; unit_size := 4096 |}); (lit "webp", {| exports := []; unit_size := 1 |})];
     default_format := lit "jpeg"; maximum := 3; step_text := lit "0.5" |}.
Definition some_settings' : image_settings :=
  {| formats := [(lit "webp", {| exports := []; unit_size := 1 |}); (lit "jpeg", {| exports := [(lit "b", jpeg' 70 None); (lit "a", jpeg' 80 (Some 9))]; unit_size := 4096 |})];
     default_format := lit "jpeg"; maximum := 3; step_text := lit "0.5" |}.

(** Different settings can have the same hash. *)
Theorem C39_collision_refuted : exists s s', ~ same_settings s s' /\ exists h, hash_image_settings s = Ret h /\ hash_image_settings s' = Ret h.
Proof.
  exists (some_settings 80 None), (some_settings 80 (Some 447684351148253)). split.
  - intros (_ & _ & _ & _ & _ & F). specialize (F (lit "jpeg")). assert (E : forall mi, dget (lit "jpeg") (formats (some_settings 80 mi)) = Some {| exports := [(lit "a", jpeg 80 mi); (lit "b", jpeg 70 None)]; unit_size := 4096 |}) by (intros; reflexivity). rewrite !E in F. destruct F as (_ & _ & _ & X). specialize (X (lit "a")). destruct X as (X & _). discriminate X.
  - eexists. split; [vm_compute; reflexivity|vm_compute; reflexivity].
Qed.
Print Assumptions C39_collision_refuted.

Example C39_order_inhabited : same_settings (some_settings 80 (Some 9)) some_settings' /\ formats (some_settings 80 (Some 9)) <> formats some_settings'.
Proof.
  assert (W : forall V (a b : str) (x y : V), a <> b -> dict_wf [(a, x); (b, y)]). { intros V a b x y N. unfold dict_wf; cbn [map fst]; constructor; [intros [X|[]]; apply N; symmetry; exact X|]; constructor; [intros []|constructor]. }
  assert (D : forall V (R : V -> V -> Prop) (a b : str) (x y x' y' : V), a <> b -> R x x' -> R y y' -> same_dict R [(a, x); (b, y)] [(b, y'); (a, x')]).
  { intros V R a b x y x' y' N X Y. split; [apply W; exact N|]. split; [apply W; intros Z0; apply N; symmetry; exact Z0|]. intros k. cbn [dget]. destruct (str_eqb k a) eqn:A, (str_eqb k b) eqn:B; try assumption; [|exact I]. apply str_eqb_eq in A. apply str_eqb_eq in B. exfalso. apply N. rewrite <- A, <- B. reflexivity. }
  assert (K : forall q mi, same_export (jpeg q mi) (jpeg' q mi)). { intros. split; [reflexivity|]. split; [reflexivity|]. split; [reflexivity|]. apply (D _ eq); [discriminate|reflexivity|reflexivity]. }
  split; [|discriminate]. split; [reflexivity|]. split; [reflexivity|]. split; [reflexivity|]. apply D; [discriminate| |].
  - split; [reflexivity|]. apply D; [discriminate|apply K|apply K].
  - split; [reflexivity|]. split; [constructor|]. split; [constructor|]. intros k. exact I.
Qed.
Example C39_range_inhabited : plain_settings (some_settings 80 (Some 9)).
Proof. intros fn f en e kn v A B C. repeat (destruct A as [A|A]; [injection A as <- <-; repeat (destruct B as [B|B]; [injection B as <- <-; repeat (destruct C as [C|C]; [injection C as <- <-; discriminate|]); contradiction|]); contradiction|]). contradiction. Qed.
Example C39_changed_inhabited : settings_changed (some_settings 80 (Some 9)) (some_settings 85 (Some 9)).
Proof.
  assert (W : forall V (a b : str) (x y : V), a <> b -> dict_wf [(a, x); (b, y)]). { intros V a b x y N. unfold dict_wf; cbn [map fst]; constructor; [intros [X|[]]; apply N; symmetry; exact X|]; constructor; [intros []|constructor]. }
  assert (D : forall V (R : V -> V -> Prop) (a b : str) (x y x' : V), a <> b -> R x x' -> changed_at R [(a, x); (b, y)] [(a, x'); (b, y)]).
  { intros V R a b x y x' N X. split; [apply W; exact N|]. split; [apply W; exact N|]. exists a, x, x'. cbn [dget]. rewrite !str_eqb_refl. repeat split; [exact X|]. intros m M. apply str_eqb_neq in M. rewrite M. reflexivity. }
  apply FormatChanged. apply D; [discriminate|]. apply ExportChanged. apply D; [discriminate|]. apply ArgumentChanged. apply D; [discriminate|]. exists 80, 85. repeat split; lia.
Qed.
