(** Proofs about cover_fit and the sizes. *)
From Verif Require Import Base Graph ImgSize ImgSizeSpec ImgNumProofs.
From Coq Require Import ZArith QArith Qabs Qround Qpower Bool List Lia Lqa.
Import ListNotations.
Open Scope Z_scope.

(** * Decimals *)
Lemma count_spec fuel n : 0 < n -> Z.log2 n < Z.of_nat fuel -> 1 <= count_digits fuel n /\ 10 ^ (count_digits fuel n - 1) <= n < 10 ^ count_digits fuel n.
Proof.
  revert n. induction fuel as [|k IH]; intros n P F; [pose proof (Z.log2_nonneg n); lia|]. cbn [count_digits]. destruct (Z.ltb_spec n 1); [lia|].
  destruct (Z.lt_ge_cases n 10) as [S|G].
  - rewrite (Z.div_small n 10) by lia. assert (E : count_digits k 0 = 0) by (destruct k; reflexivity). rewrite E. cbn. lia.
  - assert (P2 : 0 < n / 10) by (apply Z.div_str_pos; lia). assert (L : Z.log2 (n / 10) < Z.of_nat k).
    { assert (Z.log2 (n / 10) <= Z.log2 (n / 2)). { apply Z.log2_le_mono. pose proof (Z.mul_div_le n 10 ltac:(lia)). apply Z.div_le_lower_bound; lia. }
      assert (Z.log2 (n / 2) = Z.log2 n - 1). { replace (n / 2) with (Z.shiftr n 1) by (rewrite Z.shiftr_div_pow2 by lia; reflexivity). rewrite Z.log2_shiftr by lia. rewrite Z.max_r; [reflexivity|]. assert (1 <= Z.log2 n) by (apply (Z.log2_le_pow2 n 1); lia). lia. } lia. }
    destruct (IH _ P2 L) as [A B]. remember (count_digits k (n / 10)) as D. split; [lia|].
    pose proof (Z.div_mod n 10 ltac:(lia)). pose proof (Z.mod_pos_bound n 10 ltac:(lia)). replace (1 + D) with (D + 1) by lia. rewrite Z.pow_add_r by lia. replace (D + 1 - 1) with (D - 1 + 1) by lia. rewrite Z.pow_add_r by lia. lia.
Qed.
Lemma digits_spec n : 0 < n -> 1 <= digits n /\ 10 ^ (digits n - 1) <= n < 10 ^ digits n.
Proof. intros P. apply count_spec; [assumption|]. pose proof (Z.log2_nonneg n). lia. Qed.
Lemma digits_0 : digits 0 = 0. Proof. reflexivity. Qed.
Lemma digits_le n k : 0 <= n < 10 ^ k -> 0 <= k -> digits n <= k.
Proof.
  intros P K. destruct (Z.eq_dec n 0) as [->|]; [rewrite digits_0; lia|]. destruct (digits_spec n ltac:(lia)) as [_ [A _]].
  destruct (Z.le_gt_cases (digits n) k) as [|G]; [assumption|]. assert (10 ^ k <= 10 ^ (digits n - 1)) by (apply Z.pow_le_mono_r; lia). lia.
Qed.
Open Scope Q_scope.
Notation ten := (bpow 10).
Lemma ten_pos e : 0 < ten e. Proof. apply bpow_pos. lia. Qed.
Lemma ten_add e k : ten (e + k) == ten e * ten k. Proof. apply bpow_add. lia. Qed.
Lemma ten_Z k : (0 <= k)%Z -> ten k == inject_Z (10 ^ k). Proof. apply bpow_Z. lia. Qed.
Notation Near10 := (Near 10 28).
Lemma fix_near c e : (0 < c)%Z -> Near10 (inject_Z c * ten e) (value (fix_dec c e)).
Proof.
  intros P. unfold fix_dec. rewrite Z.abs_eq by lia. destruct (digits_spec c P) as [D1 [D2 D3]]. set (D := digits c) in *. destruct (Z.leb_spec (D - 28) 0) as [L|G].
  - unfold value. cbn [coef expo]. change (Qpower 10 e) with (ten e).
    assert (E : inject_Z c * ten e == inject_Z (c * 10 ^ (28 - D)) * ten (e - (28 - D))). { rewrite inject_Z_mult, <- ten_Z by lia. rewrite <- Qmult_assoc, <- ten_add. replace (28 - D + (e - (28 - D)))%Z with e by lia. reflexivity. }
    eapply near_comp; [symmetry; exact E|symmetry; exact E|]. apply near_refl; [lia|lia|]. split.
    + replace (28 - 1)%Z with (D - 1 + (28 - D))%Z by lia. rewrite Z.pow_add_r by lia. apply Z.mul_le_mono_nonneg_r; lia.
    + replace (10 ^ 28)%Z with (10 ^ (D + (28 - D)))%Z by (f_equal; lia). rewrite Z.pow_add_r by lia. apply Z.mul_lt_mono_pos_r; lia.
  - set (k := (D - 28)%Z) in *. unfold value. cbn [coef expo]. change (Qpower 10 (e + k)) with (ten (e + k)).
    assert (PK : (0 < 10 ^ k)%Z) by (apply Z.pow_pos_nonneg; lia). destruct (rhe_spec c (10 ^ k) PK) as [A B]. set (m := round_half_even c (10 ^ k)) in *.
    exists m, (e + k)%Z. split; [reflexivity|]. pose proof (ten_pos e) as PE. pose proof (ten_pos (e + k)) as PEK. assert (S : ten (e + k) == inject_Z (10 ^ k) * ten e) by (rewrite ten_add, (ten_Z k) by lia; ring).
    assert (R : forall j, ten (j + (e + k)) == ten (j + k) * ten e) by (intros j; rewrite <- ten_add; f_equiv; lia).
    split; [rewrite R, (ten_Z (28 - 1 + k)) by lia; apply Qmult_le_r; [assumption|]; rewrite <- Zle_Qle; replace (28 - 1 + k)%Z with (D - 1)%Z by lia; assumption|].
    split; [rewrite R, (ten_Z (28 + k)) by lia; apply Qmult_lt_r; [assumption|]; rewrite <- Zlt_Qlt; replace (28 + k)%Z with D by lia; assumption|].
    assert (K : Qabs (inject_Z m * ten (e + k) - inject_Z c * ten e) == inject_Z (Z.abs (m * 10 ^ k - c)) * ten e).
    { rewrite S. rewrite <- (Qabs_pos (ten e)) at 3 by lra. setoid_replace (inject_Z (Z.abs (m * 10 ^ k - c))) with (Qabs (inject_Z (m * 10 ^ k - c))) by reflexivity. rewrite <- Qabs_Qmult.
      assert (E : inject_Z m * (inject_Z (10 ^ k) * ten e) - inject_Z c * ten e == inject_Z (m * 10 ^ k - c) * ten e) by (unfold Z.sub; rewrite inject_Z_plus, inject_Z_opp, inject_Z_mult; ring). rewrite E. reflexivity. }
    rewrite K, S. split.
    + rewrite Qmult_assoc. apply Qmult_le_r; [assumption|]. change 2 with (inject_Z 2). rewrite <- inject_Z_mult, <- Zle_Qle. assumption.
    + intros E. rewrite Qmult_assoc in E. apply Qmult_inj_r in E; [|lra]. change 2 with (inject_Z 2) in E. rewrite <- inject_Z_mult in E. rewrite inject_Z_injective in E. auto.
Qed.
(** * What Decimal keeps *)
Definition rep (d : dec) : Prop := (0 <= coef d <= 10 ^ 28)%Z.
Lemma fix_rep c e : (0 <= c)%Z -> rep (fix_dec c e).
Proof.
  intros P. unfold rep, fix_dec. rewrite Z.abs_eq by lia. destruct (Z.eq_dec c 0) as [->|]; [vm_compute; split; discriminate|]. destruct (digits_spec c ltac:(lia)) as [D1 [D2 D3]]. destruct (Z.leb_spec (digits c - 28) 0) as [L|G]; cbn [coef].
  - assert (10 ^ digits c <= 10 ^ 28)%Z by (apply Z.pow_le_mono_r; lia). lia.
  - remember (digits c) as D. assert (PK : (0 < 10 ^ (D - 28))%Z) by (apply Z.pow_pos_nonneg; lia). split.
    + rewrite <- (rhe_exact 0 (10 ^ (D - 28)) PK). apply rhe_mono; try lia.
    + rewrite <- (rhe_exact (10 ^ 28) (10 ^ (D - 28)) PK). apply rhe_mono; try lia. rewrite <- Z.pow_add_r by lia. replace (28 + (D - 28))%Z with D by lia. apply Z.mul_le_mono_nonneg_r; lia.
Qed.
Lemma value_pos d : (0 < coef d)%Z <-> 0 < value d.
Proof.
  unfold value. change (Qpower 10 (expo d)) with (ten (expo d)). pose proof (ten_pos (expo d)). split; intros H0.
  - apply inject_pos in H0. nra.
  - destruct (Z.lt_ge_cases 0 (coef d)) as [|G]; [assumption|]. rewrite Zle_Qle in G. change (inject_Z 0) with 0 in G. nra.
Qed.
Lemma value_nonneg d : (0 <= coef d)%Z <-> 0 <= value d.
Proof.
  unfold value. change (Qpower 10 (expo d)) with (ten (expo d)). pose proof (ten_pos (expo d)). split; intros H0.
  - rewrite Zle_Qle in H0. change (inject_Z 0) with 0 in H0. nra.
  - destruct (Z.lt_ge_cases (coef d) 0) as [G|]; [|assumption]. rewrite Zlt_Qlt in G. change (inject_Z 0) with 0 in G. nra.
Qed.
Lemma value_fix_0 c e : c = 0%Z -> value (fix_dec c e) == 0. Proof. intros ->. change (fix_dec 0 e) with {| coef := 0; expo := e |}. unfold value. cbn [coef expo]. change (inject_Z 0) with 0. ring. Qed.
Lemma rep_near d : rep d -> 0 < value d -> Near10 (value d) (value d).
Proof.
  intros R P. apply value_pos in P. destruct d as [c e]. unfold rep in R. unfold value at 1. cbn [coef expo] in *. change (Qpower 10 e) with (ten e).
  eapply near_comp; [reflexivity| |apply fix_near; exact P].
  unfold fix_dec. rewrite Z.abs_eq by lia. destruct (Z.leb_spec (digits c - 28) 0) as [L|G]; [reflexivity|].
  destruct (digits_spec c P) as [_ [A _]]. assert (c = 10 ^ 28)%Z. { assert (10 ^ 28 <= 10 ^ (digits c - 1))%Z by (apply Z.pow_le_mono_r; lia). lia. } subst c.
  change (digits (10 ^ 28) - 28)%Z with 1%Z. change (round_half_even (10 ^ 28) (10 ^ 1)) with (10 ^ 27)%Z. unfold value. cbn [coef expo]. change (Qpower 10 (e + 1)) with (ten (e + 1)). change (Qpower 10 e) with (ten e). rewrite ten_add. change (ten 1) with (inject_Z 10). change (10 ^ 28)%Z with (10 ^ 27 * 10)%Z. rewrite inject_Z_mult. ring.
Qed.
(** the result of an exact computation is [x] *)
Definition Rounded (x y : Q) : Prop := (x == 0 /\ y == 0) \/ Near10 x y.
Lemma rounded_mono x y x' y' : 0 <= x -> x <= x' -> Rounded x y -> Rounded x' y' -> y <= y'.
Proof.
  intros P L [[A B]|A] [[A' B']|A'].
  - lra.
  - pose proof (near_pos 10 ltac:(lia) 28 ltac:(lia) _ _ A'). lra.
  - destruct A as (m & e & _ & A & _). pose proof (ten_pos (28 - 1 + e)). lra.
  - exact (near_mono 10 ltac:(lia) 28 ltac:(lia) _ _ _ _ L A A').
Qed.
Lemma rounded_rep d : rep d -> Rounded (value d) (value d).
Proof. intros R. destruct (Qlt_le_dec 0 (value d)); [right; apply rep_near; assumption|]. left. destruct R as [R _]. apply value_nonneg in R. split; lra. Qed.
Lemma rounded_comp x y x' y' : x == x' -> y == y' -> Rounded x y -> Rounded x' y'.
Proof. intros E F [[A B]|A]; [left; rewrite <- E, <- F; auto|right; exact (near_comp _ _ _ _ _ _ E F A)]. Qed.
Lemma rounded_unique x y y' : 0 <= x -> Rounded x y -> Rounded x y' -> y == y'.
Proof. intros P A B. apply Qle_antisym; eapply rounded_mono; eauto; lra. Qed.
Lemma fix_rounded c e : (0 <= c)%Z -> Rounded (inject_Z c * ten e) (value (fix_dec c e)).
Proof. intros P. destruct (Z.eq_dec c 0) as [E|]; [left; split; [subst c; change (inject_Z 0) with 0; ring|apply value_fix_0; assumption]|right; apply fix_near; lia]. Qed.
Lemma mul_rounded a b : (0 <= coef a)%Z -> (0 <= coef b)%Z -> Rounded (value a * value b) (value (dec_mul a b)).
Proof.
  intros A B. unfold dec_mul. eapply rounded_comp; [|reflexivity|apply fix_rounded; nia]. unfold value. change (Qpower 10) with ten. rewrite ten_add, inject_Z_mult. ring.
Qed.
Lemma add_exact a b : value a + value b == inject_Z (coef a * 10 ^ (expo a - Z.min (expo a) (expo b)) + coef b * 10 ^ (expo b - Z.min (expo a) (expo b))) * ten (Z.min (expo a) (expo b)).
Proof.
  set (e := Z.min (expo a) (expo b)). rewrite inject_Z_plus, !inject_Z_mult, <- !ten_Z by lia. unfold value. change (Qpower 10) with ten.
  assert (A : ten (expo a) == ten (expo a - e) * ten e) by (rewrite <- ten_add; f_equiv; lia). assert (B : ten (expo b) == ten (expo b - e) * ten e) by (rewrite <- ten_add; f_equiv; lia). rewrite A, B. ring.
Qed.
Lemma add_rounded a b : (0 <= coef a)%Z -> (0 <= coef b)%Z -> Rounded (value a + value b) (value (dec_add a b)).
Proof.
  intros A B. unfold dec_add. eapply rounded_comp; [symmetry; apply add_exact|reflexivity|]. apply fix_rounded.
  assert (0 <= 10 ^ (expo a - Z.min (expo a) (expo b)))%Z by (apply Z.pow_nonneg; lia). assert (0 <= 10 ^ (expo b - Z.min (expo a) (expo b)))%Z by (apply Z.pow_nonneg; lia). nia.
Qed.
Lemma add_rep a b : (0 <= coef a)%Z -> (0 <= coef b)%Z -> rep (dec_add a b).
Proof.
  intros A B. unfold dec_add. apply fix_rep. assert (0 <= 10 ^ (expo a - Z.min (expo a) (expo b)))%Z by (apply Z.pow_nonneg; lia). assert (0 <= 10 ^ (expo b - Z.min (expo a) (expo b)))%Z by (apply Z.pow_nonneg; lia). nia.
Qed.
Lemma mul_rep a b : (0 <= coef a)%Z -> (0 <= coef b)%Z -> rep (dec_mul a b).
Proof. intros A B. apply fix_rep. nia. Qed.
(** * int() and comparison *)
Lemma of_int_value n : value (dec_of_int n) == inject_Z n. Proof. unfold value, dec_of_int. cbn [coef expo]. change (Qpower 10 0) with 1. ring. Qed.
Lemma dec_at_most_spec d n : dec_at_most d n = true <-> value d <= inject_Z n.
Proof.
  unfold dec_at_most, value. change (Qpower 10 (expo d)) with (ten (expo d)). destruct (Z.leb_spec 0 (expo d)).
  - rewrite Z.leb_le, Zle_Qle, inject_Z_mult, <- ten_Z by lia. reflexivity.
  - rewrite Z.leb_le, Zle_Qle, inject_Z_mult, <- ten_Z by lia. assert (PP : ten (- expo d) * ten (expo d) == 1) by (rewrite <- ten_add, Z.add_opp_diag_l; reflexivity).
    rewrite <- (Qmult_le_r (inject_Z (coef d)) _ (ten (expo d)) (ten_pos _)). rewrite <- Qmult_assoc, PP, Qmult_1_r. reflexivity.
Qed.
Lemma dec_int_spec d : (0 <= coef d)%Z -> inject_Z (dec_int d) <= value d /\ value d < inject_Z (dec_int d + 1).
Proof.
  intros P. unfold dec_int, value. change (Qpower 10 (expo d)) with (ten (expo d)). destruct (Z.leb_spec 0 (expo d)).
  - rewrite inject_Z_plus, inject_Z_mult, <- ten_Z by lia. change (inject_Z 1) with 1. split; lra.
  - assert (PP : ten (expo d) * ten (- expo d) == 1) by (rewrite <- ten_add, Z.add_opp_diag_r; reflexivity). pose proof (ten_pos (expo d)) as PE. assert (PK : (0 < 10 ^ (- expo d))%Z) by (apply Z.pow_pos_nonneg; lia).
    rewrite Z.quot_div_nonneg by lia. pose proof (Z.div_mod (coef d) (10 ^ (- expo d)) ltac:(lia)) as E. pose proof (Z.mod_pos_bound (coef d) _ PK) as B. set (q := (coef d / 10 ^ (- expo d))%Z) in *.
    assert (K : ten (expo d) * inject_Z (10 ^ (- expo d)) == 1) by (rewrite <- ten_Z by lia; exact PP). set (T := (10 ^ (- expo d))%Z) in *.
    split.
    + rewrite <- (Qmult_1_r (inject_Z q)), <- K. setoid_replace (inject_Z q * (ten (expo d) * inject_Z T)) with (inject_Z (q * T) * ten (expo d)) by (rewrite inject_Z_mult; ring). apply Qmult_le_r; [assumption|]. rewrite <- Zle_Qle. nia.
    + rewrite <- (Qmult_1_r (inject_Z (q + 1))), <- K. setoid_replace (inject_Z (q + 1) * (ten (expo d) * inject_Z T)) with (inject_Z ((q + 1) * T) * ten (expo d)) by (rewrite inject_Z_mult; ring). apply Qmult_lt_r; [assumption|]. rewrite <- Zlt_Qlt. nia.
Qed.
Lemma dec_int_mono a b : (0 <= coef a)%Z -> (0 <= coef b)%Z -> value a <= value b -> (dec_int a <= dec_int b)%Z.
Proof. intros A B L. destruct (dec_int_spec a A) as [A1 A2]. destruct (dec_int_spec b B) as [B1 B2]. assert (H : inject_Z (dec_int a) < inject_Z (dec_int b + 1)) by lra. rewrite <- Zlt_Qlt in H. lia. Qed.
Lemma dec_int_nonneg d : (0 <= coef d)%Z -> (0 <= dec_int d)%Z.
Proof. intros P. destruct (dec_int_spec d P) as [_ B]. apply value_nonneg in P. assert (H : inject_Z 0 < inject_Z (dec_int d + 1)) by (change (inject_Z 0) with 0; lra). rewrite <- Zlt_Qlt in H. lia. Qed.
(** * Doubles *)
Notation Near2 := (Near 2 53).
Lemma mono2 x y x' y' : x <= x' -> Near2 x y -> Near2 x' y' -> y <= y'. Proof. apply near_mono; lia. Qed.
Lemma div_pos a b : (0 < a)%Z -> (0 < b)%Z -> 0 < inject_Z a / inject_Z b.
Proof. intros A B. apply inject_pos in A. apply inject_pos in B. apply Qlt_shift_div_l; [assumption|]. lra. Qed.
Lemma true_div_near a b : (0 < a)%Z -> (0 < b)%Z -> Near2 (inject_Z a / inject_Z b) (true_div a b).
Proof. intros A B. apply double_near. apply div_pos; assumption. Qed.
Lemma int_near n : (0 < n < 2 ^ 53)%Z -> Near2 (inject_Z n) (inject_Z n).
Proof.
  intros R. destruct (Z.log2_spec n ltac:(lia)) as [A B]. pose proof (Z.log2_nonneg n) as LN. assert (L : (Z.log2 n < 53)%Z) by (apply Z.log2_lt_pow2; lia).
  assert (E : inject_Z n == inject_Z (n * 2 ^ (52 - Z.log2 n)) * bpow 2 (Z.log2 n - 52)).
  { rewrite inject_Z_mult, <- bpow_Z, <- Qmult_assoc, <- bpow_add by lia. replace (52 - Z.log2 n + (Z.log2 n - 52))%Z with 0%Z by lia. change (bpow 2 0) with 1. ring. }
  eapply near_comp; [symmetry; exact E|symmetry; exact E|]. apply near_refl; [lia|lia|]. split.
  - change (53 - 1)%Z with 52%Z. replace (2 ^ 52)%Z with (2 ^ (Z.log2 n + (52 - Z.log2 n)))%Z by (f_equal; lia). rewrite Z.pow_add_r by lia. apply Z.mul_le_mono_nonneg_r; [apply Z.pow_nonneg; lia|assumption].
  - replace (2 ^ 53)%Z with (2 ^ (Z.succ (Z.log2 n) + (52 - Z.log2 n)))%Z by (f_equal; lia). rewrite Z.pow_add_r by lia. apply Z.mul_lt_mono_pos_r; [apply Z.pow_pos_nonneg; lia|assumption].
Qed.
Lemma double_int n : (0 < n < 2 ^ 53)%Z -> double (inject_Z n) == inject_Z n.
Proof. intros R. symmetry. apply double_comp_near; [apply inject_pos; lia|apply int_near; assumption]. Qed.
Lemma times_near a x : (0 < a < 2 ^ 53)%Z -> 0 < x -> Near2 (inject_Z a * x) (int_times_float a x).
Proof.
  intros R P. unfold int_times_float. pose proof (double_int a R) as E. assert (PA : 0 < inject_Z a) by (apply inject_pos; lia).
  eapply near_comp; [|reflexivity|apply double_near]; [rewrite E; reflexivity|]. rewrite E. nra.
Qed.
Lemma round_float_spec x : inject_Z (round_float x) - (1 # 2) <= x /\ x <= inject_Z (round_float x) + (1 # 2).
Proof.
  unfold round_float. destruct x as [n d]. cbn [Qnum Qden]. destruct (rhe_spec n (Zpos d) ltac:(lia)) as [A _]. set (m := round_half_even n (Zpos d)) in *. clearbody m. unfold Qle, Qminus, Qplus, inject_Z. cbn [Qnum Qden Qopp]. rewrite ?Pos2Z.inj_mul. lia.
Qed.
Lemma near2_error x y : Near2 x y -> Qabs (y - x) * inject_Z (2 ^ 53) <= x.
Proof. intros N. pose proof (near_error 2 ltac:(lia) 53 ltac:(lia) _ _ N) as E. change (bpow 2 (53 - 1)) with (inject_Z (2 ^ 52)) in E. change (inject_Z (2 ^ 53)) with (2 * inject_Z (2 ^ 52)) || (change (2 ^ 53)%Z with (2 * 2 ^ 52)%Z; rewrite inject_Z_mult; change (inject_Z 2) with 2). lra. Qed.
Lemma abs_le x k : Qabs x <= k -> - k <= x /\ x <= k.
Proof. intros H. apply Qabs_Qle_condition in H. exact H. Qed.
Lemma near2_bounds x y : Near2 x y -> x - x * (1 # 9007199254740992) <= y /\ y <= x + x * (1 # 9007199254740992).
Proof.
  intros N. pose proof (near2_error _ _ N) as E. change (inject_Z (2 ^ 53)) with (9007199254740992 # 1) in E. assert (A : Qabs (y - x) <= x * (1 # 9007199254740992)) by lra. apply abs_le in A. lra.
Qed.
(** one side is cropped *)
Lemma crop_side s s2 d d2 : side s -> side s2 -> side d -> side d2 -> (d * s2 < s * d2)%Z ->
  exists c, round_float (int_times_float d (true_div s2 d2)) = c /\ (0 <= c <= s)%Z /\ (Z.abs (c * d2 - d * s2) < d2)%Z /\ ((d2 <= s2)%Z -> (d <= c)%Z).
Proof.
  intros S S2 D D2 L. unfold side in *. assert (B50 : (2 ^ 50 = 1125899906842624)%Z) by reflexivity. assert (B53 : (2 ^ 53 = 9007199254740992)%Z) by reflexivity.
  pose proof (true_div_near s2 d2 ltac:(lia) ltac:(lia)) as N1. set (r := true_div s2 d2) in *. pose proof (near_pos 2 ltac:(lia) 53 ltac:(lia) _ _ N1) as PR.
  pose proof (times_near d r ltac:(lia) PR) as N2. set (y := int_times_float d r) in *. destruct (round_float_spec y) as [R1 R2]. set (c := round_float y) in *.
  pose proof (near2_bounds _ _ N1) as [E1 E2]. pose proof (near2_bounds _ _ N2) as [F1 F2].
  set (q := inject_Z s2 / inject_Z d2) in *. assert (PD : 0 < inject_Z d) by (apply inject_pos; lia). assert (PD2 : 0 < inject_Z d2) by (apply inject_pos; lia).
  assert (Q : q * inject_Z d2 == inject_Z s2) by (unfold q; field; lra).
  set (p := inject_Z d * q). assert (PQ : p * inject_Z d2 == inject_Z (d * s2)) by (unfold p; rewrite <- Qmult_assoc, Q, inject_Z_mult; reflexivity).
  assert (P0 : 0 < p). { unfold p. assert (0 < q) by (apply div_pos; lia). nra. }
  assert (PS : p < inject_Z s). { rewrite Zlt_Qlt, <- PQ, inject_Z_mult in L. apply Qmult_lt_r in L; assumption. }
  assert (S50 : inject_Z s <= 1125899906842624 # 1). { change (1125899906842624 # 1) with (inject_Z 1125899906842624). rewrite <- Zle_Qle. lia. }
  assert (G1 : p - p * (1 # 9007199254740992) <= inject_Z d * r) by (unfold p; nra). assert (G2 : inject_Z d * r <= p + p * (1 # 9007199254740992)) by (unfold p; nra).
  assert (H1 : p - (1 # 2) < y) by lra. assert (H2 : y < p + (1 # 2)) by lra.
  exists c. split; [reflexivity|].
  assert (C1 : inject_Z c < p + 1) by lra. assert (C2 : p - 1 < inject_Z c) by lra.
  split; [|split].
  - split.
    + assert (H : inject_Z (-1) < inject_Z c) by (change (inject_Z (-1)) with (-1 # 1); lra). rewrite <- Zlt_Qlt in H. lia.
    + assert (H : inject_Z c < inject_Z (s + 1)) by (rewrite inject_Z_plus; change (inject_Z 1) with 1; lra). rewrite <- Zlt_Qlt in H. lia.
  - assert (K1 : inject_Z (c * d2) < inject_Z (d * s2 + d2)) by (rewrite inject_Z_plus, inject_Z_mult, <- PQ; nra). assert (K2 : inject_Z (d * s2) < inject_Z (c * d2 + d2)) by (rewrite <- PQ, inject_Z_plus, inject_Z_mult; nra).
    rewrite <- Zlt_Qlt in K1, K2. lia.
  - intros G. assert (Q1 : 1 <= q). { unfold q. apply Qle_shift_div_l; [assumption|]. rewrite Qmult_1_l, <- Zle_Qle. assumption. }
    assert (R3 : 1 <= r). { apply (mono2 1 1 q r Q1); [|exact N1]. apply (int_near 1). lia. }
    assert (Y : inject_Z d <= y). { apply (mono2 (inject_Z d) (inject_Z d) (inject_Z d * r) y); [nra|apply int_near; lia|exact N2]. }
    assert (H : inject_Z (d + -1) < inject_Z c) by (rewrite inject_Z_plus; change (inject_Z (-1)) with (-1 # 1); lra). rewrite <- Zlt_Qlt in H. lia.
Qed.
(** where the crop starts *)
Lemma int_rep n : (0 <= n <= 10 ^ 28)%Z -> Rounded (inject_Z n) (inject_Z n).
Proof. intros R. eapply rounded_comp; [apply of_int_value|apply of_int_value|]. apply rounded_rep. exact R. Qed.
Lemma crop_start n d : (0 <= n < 2 ^ 50)%Z -> share d -> exists x, dec_int (dec_mul (dec_of_int n) d) = x /\ (0 <= x <= n)%Z /\ about x (value d * inject_Z n).
Proof.
  intros R [S0 S1]. pose proof S0 as C. apply value_nonneg in C. assert (B : (2 ^ 50 <= 10 ^ 28)%Z) by (vm_compute; discriminate).
  pose proof (mul_rounded (dec_of_int n) d ltac:(cbn; lia) C) as M. pose proof (mul_rep (dec_of_int n) d ltac:(cbn; lia) C) as MR. set (v := dec_mul (dec_of_int n) d) in *.
  assert (M2 : Rounded (value d * inject_Z n) (value v)). { eapply rounded_comp; [|reflexivity|exact M]. rewrite of_int_value. ring. } clear M.
  set (q := value d * inject_Z n) in *. assert (N0 : 0 <= inject_Z n) by (change 0 with (inject_Z 0); rewrite <- Zle_Qle; lia). assert (Q0 : 0 <= q) by (unfold q; nra). assert (Q1 : q <= inject_Z n) by (unfold q; nra).
  assert (FB : (0 <= Qfloor q <= n)%Z). { split; [apply (Qfloor_resp_le 0 q) in Q0; exact Q0|]. rewrite <- (Qfloor_Z n). apply Qfloor_resp_le. exact Q1. }
  assert (CB : (0 <= Qceiling q <= n)%Z). { split; [apply (Qceiling_resp_le 0 q) in Q0; exact Q0|]. rewrite <- (Qceiling_Z n). apply Qceiling_resp_le. exact Q1. }
  assert (L1 : inject_Z (Qfloor q) <= value v). { apply (rounded_mono (inject_Z (Qfloor q)) _ q _); [change 0 with (inject_Z 0); rewrite <- Zle_Qle; lia|apply Qfloor_le|apply int_rep; lia|exact M2]. }
  assert (L2 : value v <= inject_Z (Qceiling q)). { apply (rounded_mono q _ (inject_Z (Qceiling q)) _ Q0 (Qle_ceiling q) M2). apply int_rep. lia. }
  destruct MR as [V0 _]. destruct (dec_int_spec v V0) as [I1 I2]. exists (dec_int v). split; [reflexivity|]. split; [split; [apply dec_int_nonneg; assumption|]|].
  - assert (H : inject_Z (dec_int v) <= inject_Z (Qceiling q)) by lra. rewrite <- Zle_Qle in H. lia.
  - assert (H : inject_Z (Qfloor q) < inject_Z (dec_int v + 1)) by lra. rewrite <- Zlt_Qlt in H. assert (H2 : (Qfloor q <= dec_int v)%Z) by lia. rewrite Zle_Qle in H2. pose proof (Qlt_floor q) as F. pose proof (Qceiling_lt q) as G. unfold about.
    rewrite inject_Z_plus in F. change (inject_Z 1) with 1 in F. unfold Z.sub in G. rewrite inject_Z_plus in G. change (inject_Z (- (1))) with (-1 # 1) in G. split; lra.
Qed.
(** * cover_fit *)
Lemma ratio_gt a b c d : (0 < a)%Z -> (0 < b)%Z -> (0 < c)%Z -> (0 < d)%Z -> true_div c d < true_div a b -> (c * b < a * d)%Z.
Proof.
  intros A B C D L. destruct (Z.lt_ge_cases (c * b) (a * d)) as [|G]; [assumption|exfalso].
  assert (H : true_div a b <= true_div c d); [|lra]. apply (mono2 (inject_Z a / inject_Z b) _ (inject_Z c / inject_Z d) _); [|apply true_div_near; assumption|apply true_div_near; assumption].
  apply inject_pos in B. apply inject_pos in D. apply Qle_shift_div_l; [assumption|]. rewrite Zle_Qle, !inject_Z_mult in G. setoid_replace (inject_Z a / inject_Z b * inject_Z d) with (inject_Z a * inject_Z d / inject_Z b) by (field; lra). apply Qle_shift_div_r; [assumption|]. lra.
Qed.
Lemma ratio_eq a b c d : side a -> side b -> side c -> side d -> true_div a b == true_div c d -> (Z.abs (a * d - c * b) < d)%Z.
Proof.
  unfold side. intros A B C D E. assert (B50 : (2 ^ 50 = 1125899906842624)%Z) by reflexivity.
  pose proof (near2_bounds _ _ (true_div_near a b ltac:(lia) ltac:(lia))) as [E1 E2]. pose proof (near2_bounds _ _ (true_div_near c d ltac:(lia) ltac:(lia))) as [F1 F2]. rewrite <- E in F1, F2. set (f := true_div a b) in *.
  set (x := inject_Z a / inject_Z b) in *. set (y := inject_Z c / inject_Z d) in *. assert (PB : 0 < inject_Z b) by (apply inject_pos; lia). assert (PD : 0 < inject_Z d) by (apply inject_pos; lia).
  assert (X : x * inject_Z b == inject_Z a) by (unfold x; field; lra). assert (Y : y * inject_Z d == inject_Z c) by (unfold y; field; lra). assert (PX : 0 < x) by (apply div_pos; lia). assert (PY : 0 < y) by (apply div_pos; lia).
  assert (S50 : inject_Z a <= 1125899906842624 # 1). { change (1125899906842624 # 1) with (inject_Z 1125899906842624). rewrite <- Zle_Qle. lia. }
  assert (G1 : x - y <= 2 * x * (1 # 9007199254740992) * (3 # 2)) by lra. assert (G2 : y - x <= 2 * x * (1 # 9007199254740992) * (3 # 2)) by lra.
  assert (H1 : x * inject_Z b - y * inject_Z b < 1) by nra. assert (H2 : y * inject_Z b - x * inject_Z b < 1) by nra.
  assert (K1 : inject_Z (a * d) < inject_Z (c * b + d)). { rewrite inject_Z_plus, !inject_Z_mult. rewrite <- X, <- Y. nra. } assert (K2 : inject_Z (c * b) < inject_Z (a * d + d)). { rewrite inject_Z_plus, !inject_Z_mult. rewrite <- X, <- Y. nra. }
  rewrite <- Zlt_Qlt in K1, K2. lia.
Qed.
Open Scope Z_scope.
Lemma plain_fits sw sh dw dh left top : side sw -> side sh -> side dw -> side dh -> share left -> share top ->
  exists x y w h, cover_fit_plain sw sh dw dh left top = Ret (x, y, w, h) /\ 0 <= x /\ 0 <= y /\ 0 <= w /\ 0 <= h /\ x + w <= sw /\ y + h <= sh /\
    ((h = sh /\ y = 0 /\ width_matches w h dw dh /\ about x (value left * inject_Z (sw - w))) \/ (w = sw /\ x = 0 /\ height_matches w h dw dh /\ about y (value top * inject_Z (sh - h)))) /\
    (dw <= sw -> dh <= sh -> dw <= w /\ dh <= h).
Proof.
  intros SW SH DW DH L T. unfold cover_fit_plain. pose proof SW as SW'. pose proof SH as SH'. pose proof DW as DW'. pose proof DH as DH'. unfold side in SW', SH', DW', DH'.
  destruct (Z.eqb_spec sh 0); [lia|]. destruct (Z.eqb_spec dh 0); [lia|]. destruct (Qcompare (true_div sw sh) (true_div dw dh)) eqn:C.
  - apply Qeq_alt in C. exists 0, 0, sw, sh. split; [reflexivity|]. do 6 (split; [lia|]). split; [|lia]. left. split; [reflexivity|]. split; [reflexivity|]. split; [apply ratio_eq; assumption|]. rewrite Z.sub_diag. unfold about. change (inject_Z 0) with 0%Q. split; lra.
  - apply Qlt_alt in C. destruct (Z.eqb_spec dw 0); [lia|]. apply ratio_gt in C; try lia. destruct (crop_side sh sw dh dw) as (c & E & R & M & U); try assumption; [lia|]. rewrite E.
    destruct (crop_start (sh - c) top) as (y & Ey & Ry & Ay); [lia|assumption|]. rewrite Ey. exists 0, y, sw, c. split; [reflexivity|]. do 6 (split; [lia|]). split; [|lia]. right. split; [reflexivity|]. split; [reflexivity|]. split; [unfold height_matches; lia|exact Ay].
  - apply Qgt_alt in C. apply ratio_gt in C; try lia. destruct (crop_side sw sh dw dh) as (c & E & R & M & U); try assumption. rewrite E.
    destruct (crop_start (sw - c) left) as (x & Ex & Rx & Ax); [lia|assumption|]. rewrite Ex. exists x, 0, c, sh. split; [reflexivity|]. do 6 (split; [lia|]). split; [|lia]. left. split; [reflexivity|]. split; [reflexivity|]. split; [exact M|exact Ax].
Qed.
Lemma fits sw sh dw dh left top pt pl pb pr : side sw -> side sh -> side dw -> side dh -> share left -> share top -> 0 <= pt -> 0 <= pl -> 0 <= pb -> 0 <= pr -> pl + pr < sw -> pt + pb < sh ->
  exists x y w h, cover_fit sw sh dw dh left top pt pl pb pr = Ret (x, y, w, h) /\ pl <= x /\ pt <= y /\ 0 <= w /\ 0 <= h /\ x + w <= sw - pr /\ y + h <= sh - pb /\
    ((h = sh - pt - pb /\ y = pt /\ width_matches w h dw dh /\ about (x - pl) (value left * inject_Z (sw - pl - pr - w))) \/ (w = sw - pl - pr /\ x = pl /\ height_matches w h dw dh /\ about (y - pt) (value top * inject_Z (sh - pt - pb - h)))) /\
    (dw <= sw - pl - pr -> dh <= sh - pt - pb -> dw <= w /\ dh <= h).
Proof.
  intros SW SH DW DH L T PT PL PB PR W H. unfold cover_fit. destruct (negb (pt =? 0) || negb (pl =? 0) || negb (pb =? 0) || negb (pr =? 0)) eqn:Z.
  - destruct (Z.leb_spec (sw - pl - pr) 0); [lia|]. destruct (Z.leb_spec (sh - pt - pb) 0); [lia|]. unfold side in *.
    destruct (plain_fits (sw - pl - pr) (sh - pt - pb) dw dh left top) as (x & y & w & h & E & A & B & C & D & F & G & I & J); unfold side; try assumption; try lia. rewrite E.
    exists (pl + x), (pt + y), w, h. split; [reflexivity|]. do 6 (split; [lia|]). split; [|exact J].
    replace (pl + x - pl) with x by lia. replace (pt + y - pt) with y by lia. destruct I as [(I1 & I2 & I3 & I4)|(I1 & I2 & I3 & I4)]; [left|right]; (split; [assumption|]; split; [lia|]; split; assumption).
  - apply orb_false_iff in Z. destruct Z as [Z Z4]. apply orb_false_iff in Z. destruct Z as [Z Z3]. apply orb_false_iff in Z. destruct Z as [Z1 Z2]. apply negb_false_iff in Z1, Z2, Z3, Z4. apply Z.eqb_eq in Z1, Z2, Z3, Z4. subst.
    rewrite !Z.sub_0_r. destruct (plain_fits sw sh dw dh left top) as (x & y & w & h & E & A & B & C & D & F & G & I & J); try assumption. exists x, y, w, h. rewrite !Z.sub_0_r. auto 12.
Qed.
Lemma nothing_left sw sh dw dh left top pt pl pb pr : 0 <= pt -> 0 <= pl -> 0 <= pb -> 0 <= pr -> 0 < sw -> 0 < sh -> (sw <= pl + pr \/ sh <= pt + pb) -> cover_fit sw sh dw dh left top pt pl pb pr = Raise ValueError.
Proof.
  intros PT PL PB PR W H C. unfold cover_fit. destruct (negb (pt =? 0) || negb (pl =? 0) || negb (pb =? 0) || negb (pr =? 0)) eqn:Z.
  - destruct (Z.leb_spec (sw - pl - pr) 0); [reflexivity|]. destruct (Z.leb_spec (sh - pt - pb) 0); [reflexivity|lia].
  - apply orb_false_iff in Z. destruct Z as [Z Z4]. apply orb_false_iff in Z. destruct Z as [Z Z3]. apply orb_false_iff in Z. destruct Z as [Z1 Z2]. apply negb_false_iff in Z1, Z2, Z3, Z4. apply Z.eqb_eq in Z1, Z2, Z3, Z4. lia.
Qed.
