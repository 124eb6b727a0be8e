(** Another way to write numbers, for examples with long ones. *)
From Verif Require Import Base Json JsonProofs.
From Coq Require Import String ZArith NArith Bool List Lia.
Import ListNotations.
Open Scope list_scope.
Open Scope N_scope.

Fixpoint oct (p : positive) (acc : str) : str :=
  match p with
  | xH => 49 :: acc
  | xO xH => 50 :: acc
  | xI xH => 51 :: acc
  | xO (xO xH) => 52 :: acc
  | xI (xO xH) => 53 :: acc
  | xO (xI xH) => 54 :: acc
  | xI (xI xH) => 55 :: acc
  | xO (xO (xO q)) => oct q (48 :: acc)
  | xI (xO (xO q)) => oct q (49 :: acc)
  | xO (xI (xO q)) => oct q (50 :: acc)
  | xI (xI (xO q)) => oct q (51 :: acc)
  | xO (xO (xI q)) => oct q (52 :: acc)
  | xI (xO (xI q)) => oct q (53 :: acc)
  | xO (xI (xI q)) => oct q (54 :: acc)
  | xI (xI (xI q)) => oct q (55 :: acc)
  end.
Definition print_O (z : Z) : str := match z with Z0 => [48] | Zpos p => oct p [] | Zneg p => 45 :: oct p [] end.
Definition oct_value (s : str) : N := fold_left (fun n d => 8 * n + (d - 48)) s 0.
Definition parse_O (s : str) : option Z := match s with 45 :: r => Some (- Z.of_N (oct_value r))%Z | _ => Some (Z.of_N (oct_value s)) end.

Lemma oct_fold : forall p acc, fold_left (fun n d => 8 * n + (d - 48)) (oct p acc) 0 = fold_left (fun n d => 8 * n + (d - 48)) acc (Npos p).
Proof. fix IH 1. intros p acc. destruct p as [[[q|q|]|[q|q|]|]|[[q|q|]|[q|q|]|]|]; cbn [oct]; try reflexivity; rewrite IH; reflexivity. Qed.
Lemma oct_digits : forall p acc, Forall (fun d => is_digit d = true) acc -> exists d r, oct p acc = d :: r /\ d <> 48 /\ Forall (fun d => is_digit d = true) (d :: r).
Proof. fix IH 1. intros p acc H. destruct p as [[[q|q|]|[q|q|]|]|[[q|q|]|[q|q|]|]|]; cbn [oct]; try (eexists _, _; split; [reflexivity|]; split; [discriminate|]; constructor; [reflexivity|exact H]); apply IH; (constructor; [reflexivity|exact H]). Qed.
Lemma parse_O_print z : parse_O (print_O z) = Some z.
Proof.
  destruct z as [|p|p]; [reflexivity| |]; unfold print_O.
  - pose proof (oct_fold p []) as F. destruct (oct_digits p [] (Forall_nil _)) as (d & r & E & _ & D). rewrite E in *. inversion D as [|? ? D1]; subst. unfold parse_O.
    assert (X : Some (Z.of_N (oct_value (d :: r))) = Some (Zpos p)) by (unfold oct_value; rewrite F; reflexivity).
    destruct d as [|d]; [exact X|]. unfold is_digit in D1. do 6 (destruct d as [d|d|]; try exact X); discriminate D1.
  - unfold parse_O, oct_value. rewrite oct_fold. reflexivity.
Qed.
Lemma is_num_print_O z : is_num (print_O z).
Proof.
  unfold is_num. destruct z as [|p|p]; [reflexivity| |]; unfold print_O; destruct (oct_digits p [] (Forall_nil _)) as (c & r & -> & Hc & Hf).
  - unfold scan_number. inversion Hf; subst. replace (c =? c_minus) with false by (unfold is_digit, c_minus in *; lia).
    rewrite scan_number_digits by eauto. cbn [scan_frac scan_exp app]. rewrite app_nil_r. reflexivity.
  - unfold scan_number. change (45 =? c_minus) with true. cbv iota. rewrite scan_number_digits by eauto. cbn [scan_frac scan_exp app]. rewrite app_nil_r. reflexivity.
Qed.
