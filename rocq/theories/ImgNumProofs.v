(** Rounding to a number of digits, in base 2 and 10. *)
From Verif Require Import Base Graph ImgSize.
From Coq Require Import ZArith QArith Qabs Qround Qpower Bool List Lia Lqa.
Import ListNotations.
Open Scope Z_scope.

(** * round_half_even *)
Lemma rhe_spec n d : 0 < d -> 2 * Z.abs (round_half_even n d * d - n) <= d /\ (2 * Z.abs (round_half_even n d * d - n) = d -> Z.even (round_half_even n d) = true).
Proof.
  intros Hd. unfold round_half_even. pose proof (Z.div_mod n d ltac:(lia)) as E. pose proof (Z.mod_pos_bound n d Hd) as B.
  remember (n / d) as q. remember (n mod d) as r. destruct (Z.compare_spec (2 * r) d).
  - destruct (Z.even q) eqn:Ev; split; try nia; intros _; [exact Ev|]. rewrite Z.even_add, Ev. reflexivity.
  - split; nia.
  - split; nia.
Qed.
Lemma rhe_mono n d n' d' : 0 < d -> 0 < d' -> n * d' <= n' * d -> round_half_even n d <= round_half_even n' d'.
Proof.
  intros Hd Hd' L. destruct (rhe_spec n d Hd) as [A A2]. destruct (rhe_spec n' d' Hd') as [B B2].
  generalize dependent (round_half_even n d). intros m A A2. generalize dependent (round_half_even n' d'). intros m' B B2. destruct (Z.le_gt_cases m m') as [|G]; [assumption|exfalso].
  assert (X : (2 * m - 1) * d <= 2 * n) by nia. assert (Y : 2 * n' <= (2 * m' + 1) * d') by nia.
  
  assert (Z1 : (2 * m - 1) * (d * d') <= (2 * m' + 1) * (d * d')). { assert ((2 * m - 1) * d * d' <= 2 * n * d') by (apply Z.mul_le_mono_nonneg_r; lia). assert (2 * n' * d <= (2 * m' + 1) * d' * d) by (apply Z.mul_le_mono_nonneg_r; lia). nia. }
  assert (2 * m - 1 <= 2 * m' + 1) by (apply (Z.mul_le_mono_pos_r _ _ (d * d')); nia). assert (m = m' + 1) by lia. subst m. clear Z1. 
  assert (X2 : (2 * m' + 1) * d * d' <= 2 * n * d') by (apply Z.mul_le_mono_nonneg_r; lia). assert (Y2 : 2 * n' * d <= (2 * m' + 1) * d' * d) by (apply Z.mul_le_mono_nonneg_r; lia).
  assert (E1 : (2 * m' + 1) * d = 2 * n) by (apply (Z.mul_reg_r _ _ d'); nia). assert (E2 : 2 * n' = (2 * m' + 1) * d') by (apply (Z.mul_reg_r _ _ d); nia).
  assert (F1 : Z.even (m' + 1) = true) by (apply A2; nia). assert (F2 : Z.even m' = true) by (apply B2; nia). rewrite Z.even_add, F2 in F1. discriminate F1.
Qed.
Lemma rhe_exact m d : 0 < d -> round_half_even (m * d) d = m.
Proof. intros Hd. destruct (rhe_spec (m * d) d Hd) as [A _]. nia. Qed.

(** * Powers *)
Open Scope Q_scope.
Definition bpow (b e : Z) : Q := Qpower (inject_Z b) e.
Section Base.
Context (b : Z) (b2 : (2 <= b)%Z).
Lemma b_pos : 0 < inject_Z b. Proof using b2. change 0 with (inject_Z 0). rewrite <- Zlt_Qlt. lia. Qed.
Lemma bpow_pos e : 0 < bpow b e. Proof using b2. 
  pose proof b_pos as P. assert (N : bpow b e * bpow b (- e) == 1). { unfold bpow. rewrite <- Qpower_plus by (intros E; rewrite E in P; discriminate P). rewrite Z.add_opp_diag_r. reflexivity. }
  assert (0 <= bpow b e) by (apply Qpower_pos; lra). assert (0 <= bpow b (- e)) by (apply Qpower_pos; lra). destruct (Qlt_le_dec 0 (bpow b e)) as [|G]; [assumption|]. assert (Z : bpow b e == 0) by lra. rewrite Z in N. lra. Qed.
Lemma bpow_add e k : bpow b (e + k) == bpow b e * bpow b k. Proof using b2. apply Qpower_plus. intros E. pose proof b_pos as P. rewrite E in P. discriminate P. Qed.
Lemma bpow_Z k : (0 <= k)%Z -> bpow b k == inject_Z (b ^ k).
Proof using b2. intros K. unfold bpow. rewrite Zpower_Qpower by assumption. reflexivity. Qed.
Lemma bpow_le e e' : (e <= e')%Z -> bpow b e <= bpow b e'.
Proof using b2.
  intros L. replace e' with (e + (e' - e))%Z by lia. rewrite bpow_add, (bpow_Z (e' - e)) by lia. pose proof (bpow_pos e).
  assert (1 <= inject_Z (b ^ (e' - e))). { change 1 with (inject_Z 1). rewrite <- Zle_Qle. assert (0 < b ^ (e' - e))%Z by (apply Z.pow_pos_nonneg; lia). lia. } nra.
Qed.
Lemma bpow_lt_inv e e' : bpow b e < bpow b e' -> (e < e')%Z.
Proof using b2. intros L. destruct (Z.lt_ge_cases e e') as [|G]; [assumption|]. apply bpow_le in G. lra. Qed.

(** * The number nearest to x among those with p digits *)
Context (p : Z) (p1 : (1 <= p)%Z).
Definition Near (x y : Q) : Prop :=
  exists m e, y == inject_Z m * bpow b e /\ bpow b (p - 1 + e) <= x /\ x < bpow b (p + e) /\ 2 * Qabs (y - x) <= bpow b e /\ (2 * Qabs (y - x) == bpow b e -> Z.even m = true).
Lemma grid_range x m e : bpow b (p - 1 + e) <= x -> x < bpow b (p + e) -> 2 * Qabs (inject_Z m * bpow b e - x) <= bpow b e ->
  bpow b (p - 1 + e) <= inject_Z m * bpow b e /\ inject_Z m * bpow b e <= bpow b (p + e).
Proof using b2 p1.
  intros A B C. pose proof (bpow_pos e) as P.
  assert (PA : bpow b (p - 1 + e) == inject_Z (b ^ (p - 1)) * bpow b e) by (rewrite bpow_add, (bpow_Z (p - 1)) by lia; reflexivity).
  assert (PB : bpow b (p + e) == inject_Z (b ^ p) * bpow b e) by (rewrite bpow_add, (bpow_Z p) by lia; reflexivity).
  rewrite PA in *. rewrite PB in *.
  assert (C1 : 2 * (inject_Z m * bpow b e - x) <= bpow b e). { pose proof (Qle_Qabs (inject_Z m * bpow b e - x)). lra. }
  assert (C2 : 2 * (x - inject_Z m * bpow b e) <= bpow b e). { pose proof (Qle_Qabs (- (inject_Z m * bpow b e - x))) as D. rewrite Qabs_opp in D. lra. }
  split.
  - assert ((b ^ (p - 1) <= m)%Z). { assert (Q1 : inject_Z (b ^ (p - 1) + b ^ (p - 1) + -1) * bpow b e <= inject_Z (m + m) * bpow b e). { rewrite !inject_Z_plus. change (inject_Z (-1)) with (-1 # 1). lra. }
      apply Qmult_le_r in Q1; [|assumption]. rewrite <- Zle_Qle in Q1. lia. }
    apply Qmult_le_r; [assumption|]. rewrite <- Zle_Qle. assumption.
  - assert ((m <= b ^ p)%Z). { assert (Q1 : inject_Z (m + m + -1) * bpow b e < inject_Z (b ^ p + b ^ p) * bpow b e). { rewrite !inject_Z_plus. change (inject_Z (-1)) with (-1 # 1). lra. }
      apply Qmult_lt_r in Q1; [|assumption]. rewrite <- Zlt_Qlt in Q1. lia. }
    apply Qmult_le_r; [assumption|]. rewrite <- Zle_Qle. assumption.
Qed.
Lemma near_pos x y : Near x y -> 0 < y.
Proof using b2 p1. intros (m & e & E & A & B & C & _). rewrite E in C. destruct (grid_range _ _ _ A B C) as [D _]. pose proof (bpow_pos (p - 1 + e)). rewrite E. lra. Qed.
Lemma near_mono x y x' y' : x <= x' -> Near x y -> Near x' y' -> y <= y'.
Proof using b2 p1.
  intros L (m & e & E & A & B & C & D) (m' & e' & E' & A' & B' & C' & D'). rewrite E in C, D. rewrite E' in C', D'. rewrite E, E'.
  destruct (grid_range _ _ _ A B C) as [R1 R2]. destruct (grid_range _ _ _ A' B' C') as [R1' R2'].
  assert (e <= e')%Z. { assert (H : bpow b (p - 1 + e) < bpow b (p + e')) by lra. apply bpow_lt_inv in H. lia. }
  destruct (Z.eq_dec e e') as [->|Ne].
  - (* the same grid *)
    destruct (Qlt_le_dec (inject_Z m' * bpow b e') (inject_Z m * bpow b e')) as [G|]; [exfalso|assumption]. pose proof (bpow_pos e') as P.
    apply Qmult_lt_r in G; [|assumption]. rewrite <- Zlt_Qlt in G.
    assert (C1 : 2 * (inject_Z m * bpow b e' - x) <= bpow b e'). { pose proof (Qle_Qabs (inject_Z m * bpow b e' - x)). lra. }
    assert (C2 : 2 * (x' - inject_Z m' * bpow b e') <= bpow b e'). { pose proof (Qle_Qabs (- (inject_Z m' * bpow b e' - x'))) as U. rewrite Qabs_opp in U. lra. }
    assert (Q1 : inject_Z (m + m) * bpow b e' <= inject_Z (m' + m' + 2) * bpow b e'). { rewrite !inject_Z_plus. change (inject_Z 2) with (2 # 1). lra. }
    apply Qmult_le_r in Q1; [|assumption]. rewrite <- Zle_Qle in Q1. assert (m = m' + 1)%Z by lia. subst m. clear Q1 G R1 R2 R1' R2' E E'.
    assert (Z1 : inject_Z (m' + 1) * bpow b e' == inject_Z m' * bpow b e' + bpow b e') by (rewrite inject_Z_plus; change (inject_Z 1) with 1; ring).
    assert (T1 : 2 * (inject_Z (m' + 1) * bpow b e' - x) == bpow b e') by lra. assert (T2 : 2 * (x' - inject_Z m' * bpow b e') == bpow b e') by lra.
    assert (F : Z.even (m' + 1) = true). { apply D. rewrite Qabs_pos by lra. exact T1. }
    assert (F' : Z.even m' = true). { apply D'. rewrite Qabs_neg by lra. lra. }
    rewrite Z.even_add, F' in F. discriminate F.
  - assert (H4 : bpow b (p + e) <= bpow b (p - 1 + e')) by (apply bpow_le; lia). lra.
Qed.
(** numbers with p digits are kept *)
Lemma near_refl m e : (b ^ (p - 1) <= m < b ^ p)%Z -> Near (inject_Z m * bpow b e) (inject_Z m * bpow b e).
Proof using b2 p1.
  intros R. exists m, e. pose proof (bpow_pos e) as P. split; [reflexivity|]. rewrite (bpow_add (p - 1) e), (bpow_add p e), (bpow_Z (p - 1)), (bpow_Z p) by lia.
  split; [apply Qmult_le_r; [assumption|rewrite <- Zle_Qle; lia]|]. split; [apply Qmult_lt_r; [assumption|rewrite <- Zlt_Qlt; lia]|].
  setoid_replace (inject_Z m * bpow b e - inject_Z m * bpow b e) with 0 by ring. change (Qabs 0) with 0. split; [lra|]. intros H. lra.
Qed.
Lemma near_comp x y x' y' : x == x' -> y == y' -> Near x y -> Near x' y'.
Proof using. intros E E' (m & e & A & B & C & D & F). exists m, e. rewrite <- E, <- E'. auto. Qed.
(** the error is relative *)
Lemma near_error x y : Near x y -> 2 * Qabs (y - x) * bpow b (p - 1) <= x.
Proof using b2 p1. intros (m & e & E & A & B & C & _). rewrite (bpow_add (p - 1) e) in A. pose proof (bpow_pos (p - 1)). pose proof (bpow_pos e). nra. Qed.
End Base.

(** * The double nearest to a positive number *)
Lemma scaled n d e : (0 < d)%Z -> inject_Z (n * 2 ^ Z.max 0 (- e)) / inject_Z (d * 2 ^ Z.max 0 e) == inject_Z n / inject_Z d * bpow 2 (- e).
Proof.
  intros Hd. assert (D : ~ inject_Z d == 0) by (intros E; change 0 with (inject_Z 0) in E; rewrite inject_Z_injective in E; lia).
  assert (P1 : ~ bpow 2 e == 0) by (pose proof (bpow_pos 2 ltac:(lia) e); lra).
  assert (PP : bpow 2 e * bpow 2 (- e) == 1) by (rewrite <- bpow_add, Z.add_opp_diag_r by lia; reflexivity).
  rewrite !inject_Z_mult, <- !bpow_Z by lia. destruct (Z.le_gt_cases 0 e).
  - rewrite (Z.max_l 0 (- e)), (Z.max_r 0 e) by lia. change (bpow 2 0) with 1. setoid_replace (bpow 2 (- e)) with (/ bpow 2 e); [field; auto|]. rewrite <- (Qmult_1_l (/ bpow 2 e)), <- PP. field. assumption.
  - rewrite (Z.max_r 0 (- e)), (Z.max_l 0 e) by lia. change (bpow 2 0) with 1. field. assumption.
Qed.

Lemma inject_pos z : (0 < z)%Z -> 0 < inject_Z z. Proof. intros. change 0 with (inject_Z 0). rewrite <- Zlt_Qlt. assumption. Qed.
Lemma nearest_double_near n d : (0 < n)%Z -> (0 < d)%Z -> Near 2 53 (inject_Z n / inject_Z d) (nearest_double n d).
Proof.
  intros Hn Hd. unfold nearest_double. set (e0 := (Z.log2 n - Z.log2 d - 52)%Z). set (x := inject_Z n / inject_Z d).
  pose proof (inject_pos _ Hd) as PD. pose proof (inject_pos _ Hn) as PN.
  assert (XD : x * inject_Z d == inject_Z n) by (unfold x; field; lra).
  assert (U : x < bpow 2 (53 + e0)).
  { destruct (Z.log2_spec n Hn) as [_ L1]. destruct (Z.log2_spec d Hd) as [L2 _]. rewrite Zlt_Qlt in L1. rewrite Zle_Qle in L2. pose proof (Z.log2_nonneg n). pose proof (Z.log2_nonneg d).
    rewrite <- bpow_Z in L1, L2 by lia. replace (Z.succ (Z.log2 n)) with (53 + e0 + Z.log2 d)%Z in L1 by (subst e0; lia). rewrite bpow_add in L1 by lia. pose proof (bpow_pos 2 ltac:(lia) (53 + e0)).
    destruct (Qlt_le_dec x (bpow 2 (53 + e0))) as [|G]; [assumption|]. pose proof (bpow_pos 2 ltac:(lia) (Z.log2 d)). nra. }
  assert (V : bpow 2 (51 + e0) <= x).
  { destruct (Z.log2_spec n Hn) as [L1 _]. destruct (Z.log2_spec d Hd) as [_ L2]. rewrite Zlt_Qlt in L2. rewrite Zle_Qle in L1. pose proof (Z.log2_nonneg n). pose proof (Z.log2_nonneg d).
    rewrite <- bpow_Z in L1, L2 by lia. replace (Z.log2 n) with (51 + e0 + Z.succ (Z.log2 d))%Z in L1 by (subst e0; lia). rewrite bpow_add in L1 by lia. pose proof (bpow_pos 2 ltac:(lia) (51 + e0)).
    destruct (Qlt_le_dec x (bpow 2 (51 + e0))) as [G|]; [|assumption]. pose proof (bpow_pos 2 ltac:(lia) (Z.succ (Z.log2 d))). nra. }
  assert (T : forall e, (n * 2 ^ Z.max 0 (- e) <? 2 ^ 52 * (d * 2 ^ Z.max 0 e))%Z = true <-> x < bpow 2 (52 + e)).
  { intros e. rewrite Z.ltb_lt, Zlt_Qlt, (inject_Z_mult (2 ^ 52)). assert (DD : (0 < d * 2 ^ Z.max 0 e)%Z) by (apply Z.mul_pos_pos; [assumption|apply Z.pow_pos_nonneg; lia]). pose proof (inject_pos _ DD) as PDD.
    pose proof (scaled n d e Hd) as S. fold x in S. assert (S2 : inject_Z (n * 2 ^ Z.max 0 (- e)) == x * bpow 2 (- e) * inject_Z (d * 2 ^ Z.max 0 e)) by (rewrite <- S; field; lra).
    rewrite S2. rewrite (Qmult_lt_r _ _ _ PDD). rewrite (bpow_add 2 ltac:(lia) 52 e). change (inject_Z (2 ^ 52)) with (bpow 2 52).
    pose proof (bpow_pos 2 ltac:(lia) e) as P1. assert (PP : bpow 2 (- e) * bpow 2 e == 1) by (rewrite <- bpow_add, Z.add_opp_diag_l by lia; reflexivity).
    rewrite <- (Qmult_lt_r (x * bpow 2 (- e)) (bpow 2 52) (bpow 2 e) P1). rewrite <- Qmult_assoc, PP, Qmult_1_r. reflexivity. }
  set (e := if (n * 2 ^ Z.max 0 (- e0) <? 2 ^ 52 * (d * 2 ^ Z.max 0 e0))%Z then (e0 - 1)%Z else e0).
  assert (R : bpow 2 (52 + e) <= x /\ x < bpow 2 (53 + e)).
  { unfold e. destruct (n * 2 ^ Z.max 0 (- e0) <? 2 ^ 52 * (d * 2 ^ Z.max 0 e0))%Z eqn:C.
    - apply T in C. replace (52 + (e0 - 1))%Z with (51 + e0)%Z by lia. replace (53 + (e0 - 1))%Z with (52 + e0)%Z by lia. split; assumption.
    - split; [|assumption]. destruct (Qlt_le_dec x (bpow 2 (52 + e0))) as [G|]; [|assumption]. apply T in G. congruence. }
  clearbody e. clear T U V. clearbody e0.
  set (N := (n * 2 ^ Z.max 0 (- e))%Z). set (D := (d * 2 ^ Z.max 0 e)%Z). set (m := round_half_even N D).
  assert (DD : (0 < D)%Z) by (apply Z.mul_pos_pos; [assumption|apply Z.pow_pos_nonneg; lia]). pose proof (inject_pos _ DD) as PDD.
  assert (Y : Qred (Qmake (m * 2 ^ Z.max 0 e) (Z.to_pos (2 ^ Z.max 0 (- e)))) == inject_Z m * bpow 2 e).
  { rewrite Qred_correct, Qmake_Qdiv. rewrite Z2Pos.id by (apply Z.pow_pos_nonneg; lia). pose proof (scaled m 1 (- e) ltac:(lia)) as S. rewrite Z.opp_involutive, Z.mul_1_l in S. rewrite S. change (inject_Z 1) with 1. field. }
  exists m, e. split; [exact Y|]. split; [apply R|]. split; [apply R|]. rewrite Y.
  pose proof (scaled n d e Hd) as S. fold x N D in S. pose proof (bpow_pos 2 ltac:(lia) e) as P1. assert (PP : bpow 2 (- e) * bpow 2 e == 1) by (rewrite <- bpow_add, Z.add_opp_diag_l by lia; reflexivity).
  assert (K : Qabs (inject_Z m * bpow 2 e - x) * inject_Z D == inject_Z (Z.abs (m * D - N)) * bpow 2 e).
  { rewrite <- (Qabs_pos (inject_Z D)) at 1 by lra. rewrite <- Qabs_Qmult. rewrite <- (Qabs_pos (bpow 2 e)) at 2 by lra.
    setoid_replace (inject_Z (Z.abs (m * D - N))) with (Qabs (inject_Z (m * D - N))) by reflexivity. rewrite <- Qabs_Qmult.
    assert (E : (inject_Z m * bpow 2 e - x) * inject_Z D == inject_Z (m * D - N) * bpow 2 e). { unfold Z.sub. rewrite inject_Z_plus, inject_Z_opp, inject_Z_mult. assert (S2 : inject_Z N == x * bpow 2 (- e) * inject_Z D) by (rewrite <- S; field; lra). rewrite S2. transitivity (inject_Z m * bpow 2 e * inject_Z D - x * (bpow 2 (- e) * bpow 2 e) * inject_Z D); [rewrite PP|]; ring. }
    rewrite E. reflexivity. }
  destruct (rhe_spec N D DD) as [A B]. fold m in A, B. remember (Qabs (inject_Z m * bpow 2 e - x)) as q. split.
  - rewrite Zle_Qle, inject_Z_mult in A. change (inject_Z 2) with 2 in A. apply (Qmult_le_r _ _ (inject_Z D)); [assumption|]. setoid_replace (2 * q * inject_Z D) with (2 * (q * inject_Z D)) by ring. rewrite K. nra.
  - intros E. apply B. rewrite <- inject_Z_injective, inject_Z_mult. change (inject_Z 2) with 2. apply (Qmult_inj_r _ _ (bpow 2 e)); [lra|]. setoid_replace (2 * inject_Z (Z.abs (m * D - N)) * bpow 2 e) with (2 * (inject_Z (Z.abs (m * D - N)) * bpow 2 e)) by ring. rewrite <- K. rewrite Qmult_assoc, E. ring.
Qed.
Lemma double_near x : 0 < x -> Near 2 53 x (double x).
Proof.
  intros P. unfold double. destruct x as [[|n|n] d]; try (exfalso; unfold Qlt in P; cbn in P; lia). cbn [Qnum Qden].
  eapply near_comp; [| reflexivity|apply nearest_double_near; lia]. rewrite Qmake_Qdiv. reflexivity.
Qed.
Lemma double_comp_near x : 0 < x -> forall y, Near 2 53 x y -> y == double x.
Proof. intros P y N. pose proof (double_near x P) as M. apply Qle_antisym; apply (near_mono 2 ltac:(lia) 53 ltac:(lia) x _ x _ (Qle_refl _)); assumption. Qed.
