(** Proofs about the sizes. *)
From Verif Require Import Base Graph ImgSize ImgSizeSpec ImgNumProofs ImgSizeProofs.
From Coq Require Import ZArith QArith Qabs Qround Qpower Bool List Lia Lqa.
Import ListNotations.
Open Scope Z_scope.

Section Sizes.
Context (max : Z) (step : dec) (sw sh dw dh : Z).
Context (step0 : 0 < coef step) (dw0 : 0 < dw) (dh0 : 0 < dh).
Notation from := (resolutions_from max step sw sh dw dh).
Notation size r := (dec_int (dec_mul (dec_of_int dw) r), dec_int (dec_mul (dec_of_int dh) r)).
Lemma at_spec r : exported_at max sw sh dw dh r = true <-> (value (dec_mul (dec_of_int dw) r) <= inject_Z sw)%Q /\ (value (dec_mul (dec_of_int dh) r) <= inject_Z sh)%Q /\ (value r <= inject_Z max)%Q.
Proof using. unfold exported_at. rewrite !andb_true_iff, !dec_at_most_spec. tauto. Qed.
Lemma times_rounded n r : 0 < n -> rep r -> Rounded (inject_Z n * value r) (value (dec_mul (dec_of_int n) r)).
Proof using. intros N [R _]. eapply rounded_comp; [rewrite <- of_int_value; reflexivity|reflexivity|apply mul_rounded; [cbn; lia|assumption]]. Qed.
Lemma times_rep n r : 0 < n -> rep r -> rep (dec_mul (dec_of_int n) r).
Proof using. intros N [R _]. apply mul_rep; [cbn; lia|assumption]. Qed.
Lemma times_mono n r r' : 0 < n -> rep r -> rep r' -> (value r <= value r')%Q -> dec_int (dec_mul (dec_of_int n) r) <= dec_int (dec_mul (dec_of_int n) r').
Proof using.
  intros N R R' L. apply dec_int_mono; [apply times_rep; assumption|apply times_rep; assumption|]. assert (PN : (0 < inject_Z n)%Q) by (apply inject_pos; lia). assert (V : (0 <= value r)%Q) by (apply value_nonneg; apply R).
  eapply rounded_mono; [| |apply times_rounded; assumption|apply times_rounded; assumption]; nra.
Qed.
Lemma times_one n r : 0 < n <= 10 ^ 28 -> rep r -> (value r == 1)%Q -> dec_int (dec_mul (dec_of_int n) r) = n /\ (value (dec_mul (dec_of_int n) r) == inject_Z n)%Q.
Proof using.
  intros N R V. pose proof (times_rounded n r ltac:(lia) R) as M. assert (E : (value (dec_mul (dec_of_int n) r) == inject_Z n)%Q).
  { apply (rounded_unique (inject_Z n)); [change 0%Q with (inject_Z 0); rewrite <- Zle_Qle; lia| |apply int_rep; lia]. eapply rounded_comp; [|reflexivity|exact M]. rewrite V. ring. }
  split; [|exact E]. destruct (dec_int_spec _ (proj1 (times_rep n r ltac:(lia) R))) as [A B]. rewrite E in A, B. rewrite <- Zle_Qle in A. rewrite <- Zlt_Qlt in B. lia.
Qed.
Lemma next_grows r : rep r -> (value r <= value (dec_add r step))%Q.
Proof using step0.
  intros R. pose proof (value_nonneg r) as V. apply proj1 in V. specialize (V (proj1 R)). pose proof (proj1 (value_pos step) step0) as S.
  apply (rounded_mono (value r) _ (value r + value step)%Q _ V); [lra|apply rounded_rep; assumption|apply add_rounded; [apply R|lia]].
Qed.
Lemma next_rep r : rep r -> rep (dec_add r step).
Proof using step0. intros [R _]. apply add_rep; lia. Qed.
Lemma from_growing fuel r l : rep r -> from fuel r = Some l -> Forall (fun x => rep x /\ (value r <= value x)%Q /\ exported_at max sw sh dw dh x = true) l /\
  (forall s, fst s <= dec_int (dec_mul (dec_of_int dw) r) -> snd s <= dec_int (dec_mul (dec_of_int dh) r) -> growing s (map (fun x => size x) l)).
Proof using step0 dw0 dh0.
  revert r l. induction fuel as [|k IH]; intros r l R F; [discriminate F|]. cbn [resolutions_from] in F. destruct (exported_at max sw sh dw dh r) eqn:A; [|injection F as <-; split; [constructor|intros; exact I]].
  destruct (from k (dec_add r step)) as [l'|] eqn:F'; [|discriminate F]. injection F as <-. pose proof (next_grows r R) as G. pose proof (next_rep r R) as R'. destruct (IH _ _ R' F') as [B C]. split.
  - constructor; [split; [assumption|]; split; [lra|assumption]|]. eapply Forall_impl; [|exact B]. cbn beta. intros x (X1 & X2 & X3). split; [assumption|]. split; [lra|assumption].
  - intros s S1 S2. cbn [map growing fst snd]. split; [assumption|]. split; [assumption|]. apply C; cbn [fst snd]; apply times_mono; assumption.
Qed.
Lemma one_rep : rep (dec_of_int 1). Proof using. split; vm_compute; discriminate. Qed.
Lemma one_value : (value (dec_of_int 1) == 1)%Q. Proof using. apply of_int_value. Qed.
(** the share of a side at a resolution *)
Lemma times_about n r : 0 < n -> rep r -> (value (dec_mul (dec_of_int n) r) <= inject_Z (10 ^ 28 - 1))%Q -> about (dec_int (dec_mul (dec_of_int n) r)) (inject_Z n * value r).
Proof using.
  intros N R Bd. pose proof (times_rounded n r N R) as M. pose proof (times_rep n r N R) as MR. set (v := dec_mul (dec_of_int n) r) in *. set (q := (inject_Z n * value r)%Q) in *.
  assert (Q0 : (0 <= q)%Q). { unfold q. assert (0 < inject_Z n)%Q by (apply inject_pos; lia). assert (0 <= value r)%Q by (apply value_nonneg; apply R). nra. }
  destruct MR as [V0 _]. destruct (dec_int_spec v V0) as [I1 I2].
  assert (F0 : 0 <= Qfloor q) by (apply (Qfloor_resp_le 0 q) in Q0; exact Q0). assert (C0 : 0 <= Qceiling q) by (apply (Qceiling_resp_le 0 q) in Q0; exact Q0).
  pose proof (Qlt_floor q) as F. pose proof (Qceiling_lt q) as G. rewrite inject_Z_plus in F. change (inject_Z 1) with 1%Q in F. unfold Z.sub in G. rewrite inject_Z_plus in G. change (inject_Z (- (1))) with (-1 # 1)%Q in G.
  assert (FB : Qfloor q < 10 ^ 28). { destruct (Z.lt_ge_cases (Qfloor q) (10 ^ 28)) as [|L]; [assumption|exfalso]. assert (X : (inject_Z (10 ^ 28) <= value v)%Q). { apply (rounded_mono (inject_Z (10 ^ 28)) _ q _); [vm_compute; discriminate| |apply int_rep; lia|exact M]. rewrite Zle_Qle in L. pose proof (Qfloor_le q). lra. } unfold Z.sub in Bd. rewrite inject_Z_plus in Bd. change (inject_Z (- (1))) with (-1 # 1)%Q in Bd. lra. }
  assert (CB : Qceiling q <= 10 ^ 28). { assert (H : (inject_Z (Qceiling q) < inject_Z (Qfloor q + 2))%Q) by (rewrite inject_Z_plus; change (inject_Z 2) with 2%Q; lra). rewrite <- Zlt_Qlt in H. lia. }
  assert (L1 : (inject_Z (Qfloor q) <= value v)%Q). { apply (rounded_mono (inject_Z (Qfloor q)) _ q _); [change 0%Q with (inject_Z 0); rewrite <- Zle_Qle; lia|apply Qfloor_le|apply int_rep; lia|exact M]. }
  assert (L2 : (value v <= inject_Z (Qceiling q))%Q). { apply (rounded_mono q _ (inject_Z (Qceiling q)) _ Q0 (Qle_ceiling q) M). apply int_rep. lia. }
  assert (H : (inject_Z (Qfloor q) < inject_Z (dec_int v + 1))%Q) by lra. rewrite <- Zlt_Qlt in H. assert (H2 : Qfloor q <= dec_int v) by lia. rewrite Zle_Qle in H2. split; lra.
Qed.
Lemma sizes_ok fuel l : dw <= 10 ^ 28 -> dh <= 10 ^ 28 -> sw < 10 ^ 28 -> sh < 10 ^ 28 -> yield_sizes max step sw sh dw dh fuel = Some l ->
  (dw <= sw /\ dh <= sh /\ 1 <= max -> exists l', l = (dw, dh) :: l') /\ (~ (dw <= sw /\ dh <= sh /\ 1 <= max) -> l = []) /\ growing (0, 0) l /\
  Forall (fun s => fst s <= sw /\ snd s <= sh /\ Z.abs (fst s * dh - snd s * dw) < dw + dh) l.
Proof using step0 dw0 dh0.
  intros W H SW SH Y. unfold yield_sizes, yield_resolutions in Y. destruct (from fuel (dec_of_int 1)) as [rs|] eqn:F; [|discriminate Y]. injection Y as <-.
  destruct (times_one dw (dec_of_int 1) ltac:(lia) one_rep one_value) as [W1 W2]. destruct (times_one dh (dec_of_int 1) ltac:(lia) one_rep one_value) as [H1 H2].
  assert (A : exported_at max sw sh dw dh (dec_of_int 1) = true <-> dw <= sw /\ dh <= sh /\ 1 <= max).
  { rewrite at_spec, W2, H2, one_value, <- !Zle_Qle. change 1%Q with (inject_Z 1). rewrite <- Zle_Qle. reflexivity. }
  destruct (from_growing fuel _ _ one_rep F) as [B C]. split; [|split; [|split]].
  - intros X. apply A in X. destruct fuel as [|k]; [discriminate F|]. cbn [resolutions_from] in F. rewrite X in F. destruct (from k _) as [l'|]; [|discriminate F]. injection F as <-. cbn [map]. rewrite W1, H1. eexists. reflexivity.
  - intros X. destruct fuel as [|k]; [discriminate F|]. cbn [resolutions_from] in F. destruct (exported_at max sw sh dw dh (dec_of_int 1)) eqn:E; [exfalso; apply X; apply A; reflexivity|]. injection F as <-. reflexivity.
  - apply C; cbn [fst snd]; [rewrite W1; lia|rewrite H1; lia].
  - apply Forall_map. eapply Forall_impl; [|exact B]. cbn [fst snd]. intros r (R & _ & E). apply at_spec in E. destruct E as (E1 & E2 & _).
    destruct (dec_int_spec _ (proj1 (times_rep dw r dw0 R))) as [I1 _]. destruct (dec_int_spec _ (proj1 (times_rep dh r dh0 R))) as [J1 _].
    assert (X1 : (inject_Z (dec_int (dec_mul (dec_of_int dw) r)) <= inject_Z sw)%Q) by lra. assert (X2 : (inject_Z (dec_int (dec_mul (dec_of_int dh) r)) <= inject_Z sh)%Q) by lra. rewrite <- Zle_Qle in X1, X2. split; [assumption|]. split; [assumption|].
    assert (K1 : (value (dec_mul (dec_of_int dw) r) <= inject_Z (10 ^ 28 - 1))%Q). { eapply Qle_trans; [exact E1|]. rewrite <- Zle_Qle. lia. } assert (K2 : (value (dec_mul (dec_of_int dh) r) <= inject_Z (10 ^ 28 - 1))%Q). { eapply Qle_trans; [exact E2|]. rewrite <- Zle_Qle. lia. }
    destruct (times_about dw r dw0 R K1) as [P1 P2]. destruct (times_about dh r dh0 R K2) as [Q1 Q2]. set (w := dec_int (dec_mul (dec_of_int dw) r)) in *. set (h := dec_int (dec_mul (dec_of_int dh) r)) in *.
    assert (PW : (0 < inject_Z dw)%Q) by (apply inject_pos; lia). assert (PH : (0 < inject_Z dh)%Q) by (apply inject_pos; lia). set (v := value r) in *.
    assert (Z1 : (inject_Z (w * dh) < inject_Z (h * dw + (dw + dh)))%Q). { rewrite !inject_Z_plus, !inject_Z_mult. assert (inject_Z w * inject_Z dh < (inject_Z dw * v + 1) * inject_Z dh)%Q by (apply Qmult_lt_r; assumption). assert ((inject_Z dh * v - 1) * inject_Z dw < inject_Z h * inject_Z dw)%Q by (apply Qmult_lt_r; assumption). lra. }
    assert (Z2 : (inject_Z (h * dw) < inject_Z (w * dh + (dw + dh)))%Q). { rewrite !inject_Z_plus, !inject_Z_mult. assert (inject_Z h * inject_Z dw < (inject_Z dh * v + 1) * inject_Z dw)%Q by (apply Qmult_lt_r; assumption). assert ((inject_Z dw * v - 1) * inject_Z dh < inject_Z w * inject_Z dh)%Q by (apply Qmult_lt_r; assumption). lra. }
    rewrite <- Zlt_Qlt in Z1, Z2. lia.
Qed.
(** * The enumeration ends *)
Lemma progress r : rep r -> (1 <= value r)%Q -> (value r <= inject_Z max)%Q -> (inject_Z max <= value step * inject_Z (10 ^ 27))%Q -> (value r + value step * (49 # 100) <= value (dec_add r step))%Q.
Proof using step0.
  intros R V M S. pose proof (proj1 (value_pos step) step0) as PS. destruct (add_rounded r step (proj1 R) ltac:(lia)) as [[A _]|N]; [lra|].
  pose proof (near_error 10 ltac:(lia) 28 ltac:(lia) _ _ N) as E. change (bpow 10 (28 - 1)) with (inject_Z (10 ^ 27)) in E. set (T := inject_Z (10 ^ 27)) in *. set (y := value (dec_add r step)) in *. set (s := value step) in *. set (v := value r) in *.
  pose proof (Qle_Qabs (- (y - (v + s)))) as Q. rewrite Qabs_opp in Q. assert (T0 : (1000 <= T)%Q) by (unfold T; vm_compute; discriminate). clearbody T y s v.
  assert (X : (2 * (v + s - y) * T <= v + s)%Q) by nra. destruct (Qlt_le_dec y (v + s * (49 # 100))) as [G|]; [exfalso|assumption].
  assert (Y : (2 * (s * (51 # 100)) * T <= s * T + s)%Q) by nra. nra.
Qed.
Lemma ends_from n : forall r, rep r -> (1 <= value r)%Q -> (inject_Z max <= value step * inject_Z (10 ^ 27))%Q -> (inject_Z max < value r + inject_Z (Z.of_nat n) * (value step * (49 # 100)))%Q -> exists l, from (S n) r = Some l.
Proof using step0.
  induction n as [|n IH]; intros r R V S M.
  - cbn [resolutions_from]. destruct (exported_at max sw sh dw dh r) eqn:E; [|eexists; reflexivity]. apply at_spec in E. change (inject_Z (Z.of_nat 0)) with 0%Q in M. lra.
  - change (from (Datatypes.S (Datatypes.S n)) r) with (if exported_at max sw sh dw dh r then match from (Datatypes.S n) (dec_add r step) with Some l => Some (r :: l) | None => None end else Some []).
    destruct (exported_at max sw sh dw dh r) eqn:E; [|eexists; reflexivity]. apply at_spec in E. destruct E as (_ & _ & E). pose proof (progress r R V E S) as P. pose proof (proj1 (value_pos step) step0) as PS.
    destruct (IH (dec_add r step)) as [l F]; [apply next_rep; assumption|lra|assumption| |rewrite F; eexists; reflexivity].
    rewrite Nat2Z.inj_succ in M. unfold Z.succ in M. rewrite inject_Z_plus in M. change (inject_Z 1) with 1%Q in M. lra.
Qed.
Lemma ends : (inject_Z max <= value step * inject_Z (10 ^ 27))%Q -> exists fuel l, yield_sizes max step sw sh dw dh fuel = Some l.
Proof using step0.
  intros S. pose proof (proj1 (value_pos step) step0) as PS. set (t := (value step * (49 # 100))%Q). assert (T : (0 < t)%Q) by (unfold t; lra).
  set (n := Z.to_nat (Z.max 0 (Qceiling (inject_Z max / t)))). destruct (ends_from n (dec_of_int 1)) as [l F]; [apply one_rep|rewrite one_value; lra|exact S| |].
  - rewrite one_value. fold t. unfold n. rewrite Z2Nat.id by lia. assert (X : (inject_Z max / t <= inject_Z (Z.max 0 (Qceiling (inject_Z max / t))))%Q). { pose proof (Qle_ceiling (inject_Z max / t)) as C. eapply Qle_trans; [exact C|]. rewrite <- Zle_Qle. lia. }
    apply Qle_shift_div_r with (c := t) in X || idtac. assert (Y : (inject_Z max == inject_Z max / t * t)%Q) by (field; lra). assert (Z : (inject_Z max / t * t <= inject_Z (Z.max 0 (Qceiling (inject_Z max / t))) * t)%Q) by (apply Qmult_le_r; assumption). lra.
  - exists (Datatypes.S n). unfold yield_sizes, yield_resolutions. rewrite F. eexists. reflexivity.
Qed.
End Sizes.
(** * Exact steps *)
Section Exact.
Context (max c k sw sh dw dh : Z) (c0 : 0 < c) (k0 : 0 <= k) (dw0 : 0 < dw) (dh0 : 0 < dh) (max1 : 1 <= max) (bw : (max * 10 ^ k + c) * dw <= 10 ^ 28) (bh : (max * 10 ^ k + c) * dh <= 10 ^ 28).
Notation step := {| coef := c; expo := - k |}.
Notation from := (resolutions_from max step sw sh dw dh).
Notation size r := (dec_int (dec_mul (dec_of_int dw) r), dec_int (dec_mul (dec_of_int dh) r)).
Notation num i := (10 ^ k + Z.of_nat i * c).
Lemma pk : 0 < 10 ^ k. Proof using k0. apply Z.pow_pos_nonneg; lia. Qed.
Definition over (n : Z) : Q := (inject_Z n * bpow 10 (- k))%Q.
Lemma over_le a b : (over a <= over b)%Q <-> a <= b.
Proof using. unfold over. rewrite (Qmult_le_r _ _ _ (ten_pos _)), <- Zle_Qle. reflexivity. Qed.
Lemma over_int n : (inject_Z n == over (n * 10 ^ k))%Q.
Proof using k0. unfold over. rewrite inject_Z_mult, <- ten_Z, <- Qmult_assoc, <- ten_add, Z.add_opp_diag_r by assumption. change (bpow 10 0) with 1%Q. ring. Qed.
Lemma over_mul a b : (inject_Z a * over b == over (a * b))%Q. Proof using. unfold over. rewrite inject_Z_mult. ring. Qed.
Lemma over_add a b : (over a + over b == over (a + b))%Q. Proof using. unfold over. rewrite inject_Z_plus. ring. Qed.
Lemma over_rounded n y : 0 <= n <= 10 ^ 28 -> Rounded (over n) y -> (y == over n)%Q.
Proof using.
  intros R H. assert (P : (0 <= over n)%Q). { unfold over. pose proof (ten_pos (- k)). assert (0 <= inject_Z n)%Q by (change 0%Q with (inject_Z 0); rewrite <- Zle_Qle; lia). nra. }
  apply (rounded_unique (over n)); [assumption|assumption|]. exact (rounded_rep {| coef := n; expo := - k |} R).
Qed.
Lemma step_value : (value step == over c)%Q. Proof using. reflexivity. Qed.
Lemma int_over n a d : (value d == over a)%Q -> 0 <= coef d -> 0 <= a -> n = a / 10 ^ k -> dec_int d = n.
Proof using k0.
  intros V C A ->. destruct (dec_int_spec d C) as [I1 I2]. rewrite V in I1, I2. rewrite over_int, over_le in I1. assert (I3 : a < (dec_int d + 1) * 10 ^ k). { rewrite over_int in I2. destruct (Z.lt_ge_cases a ((dec_int d + 1) * 10 ^ k)) as [|G]; [assumption|]. apply over_le in G. lra. }
  pose proof pk. apply (Z.div_unique_pos a (10 ^ k) (dec_int d) (a - dec_int d * 10 ^ k)); lia.
Qed.
Lemma exact_from m : forall i r, rep r -> (value r == over (num i))%Q -> num i <= max * 10 ^ k + c -> ~ allowed max c k sw sh dw dh (i + m) ->
  exists n l, from (S m) r = Some l /\ map (fun r => size r) l = map (fun i => (ith c k dw i, ith c k dh i)) (seq i n) /\ (forall j, (j < n)%nat -> allowed max c k sw sh dw dh (i + j)) /\ ~ allowed max c k sw sh dw dh (i + n).
Proof using c0 k0 dw0 dh0 max1 bw bh.
  pose proof pk as PK. induction m as [|m IH]; intros i r R V B NA.
  all: assert (TW : (value (dec_mul (dec_of_int dw) r) == over (dw * num i))%Q) by (apply over_rounded; [split; nia|]; eapply rounded_comp; [|reflexivity|apply times_rounded; assumption]; rewrite V; apply over_mul).
  all: assert (TH : (value (dec_mul (dec_of_int dh) r) == over (dh * num i))%Q) by (apply over_rounded; [split; nia|]; eapply rounded_comp; [|reflexivity|apply times_rounded; assumption]; rewrite V; apply over_mul).
  all: assert (A : exported_at max sw sh dw dh r = true <-> allowed max c k sw sh dw dh i) by (rewrite at_spec, TW, TH, V, !over_int, !over_le; reflexivity).
  - rewrite Nat.add_0_r in NA. exists 0%nat, []. cbn [resolutions_from]. destruct (exported_at max sw sh dw dh r) eqn:E; [apply proj1 in A; specialize (A eq_refl); contradiction|]. split; [reflexivity|]. split; [reflexivity|]. split; [intros; lia|]. rewrite Nat.add_0_r. assumption.
  - change (from (Datatypes.S (Datatypes.S m)) r) with (if exported_at max sw sh dw dh r then match from (Datatypes.S m) (dec_add r step) with Some l => Some (r :: l) | None => None end else Some []).
    destruct (exported_at max sw sh dw dh r) eqn:E.
    + apply proj1 in A. specialize (A eq_refl). pose proof A as (_ & _ & A3).
      assert (V2 : (value (dec_add r step) == over (num (Datatypes.S i)))%Q). { apply over_rounded; [split; [nia|]; nia|]. eapply rounded_comp; [|reflexivity|apply add_rounded; [apply R|cbn; lia]]. rewrite V, step_value, over_add. replace (num i + c) with (num (Datatypes.S i)) by lia. reflexivity. }
      destruct (IH (Datatypes.S i) (dec_add r step)) as (n & l & F & M & O & N); [apply next_rep; [cbn; lia|assumption]|exact V2|lia|replace (Datatypes.S i + m)%nat with (i + Datatypes.S m)%nat by lia; assumption|].
      exists (Datatypes.S n), (r :: l). rewrite F. split; [reflexivity|]. split; [|split].
      * cbn [map seq]. f_equal; [|exact M]. f_equal; (eapply int_over; [eassumption|apply times_rep; assumption|nia|reflexivity]).
      * intros [|j] J; [rewrite Nat.add_0_r; assumption|]. replace (i + Datatypes.S j)%nat with (Datatypes.S i + j)%nat by lia. apply O. lia.
      * replace (i + Datatypes.S n)%nat with (Datatypes.S i + n)%nat by lia. assumption.
    + exists 0%nat, []. split; [reflexivity|]. split; [reflexivity|]. split; [intros; lia|]. rewrite Nat.add_0_r. intros X. apply A in X. discriminate X.
Qed.
Lemma allowed_down i j : (i <= j)%nat -> allowed max c k sw sh dw dh j -> allowed max c k sw sh dw dh i.
Proof using c0 k0 dw0 dh0. intros L (A & B & C). pose proof (inj_le _ _ L). unfold allowed. repeat split; nia. Qed.
Lemma exact_sizes : exists fuel n, yield_sizes max step sw sh dw dh fuel = Some (map (fun i => (ith c k dw i, ith c k dh i)) (seq 0 n)) /\ forall i, allowed max c k sw sh dw dh i <-> (i < n)%nat.
Proof using c0 k0 dw0 dh0 max1 bw bh.
  pose proof pk as PK. set (m := Z.to_nat (max * 10 ^ k)). destruct (exact_from m 0 (dec_of_int 1)) as (n & l & F & M & O & N).
  - apply one_rep.
  - rewrite one_value. cbn [Z.of_nat]. rewrite Z.add_0_r. change 1%Q with (inject_Z 1). rewrite over_int. rewrite Z.mul_1_l. reflexivity.
  - nia.
  - intros (_ & _ & A). rewrite Nat.add_0_l in A. unfold m in A. rewrite Z2Nat.id in A by nia. nia.
  - exists (Datatypes.S m), n. unfold yield_sizes, yield_resolutions. rewrite F. split; [f_equal; exact M|]. intros i. split.
    + intros A. destruct (Nat.lt_ge_cases i n) as [|G]; [assumption|]. exfalso. apply N. eapply allowed_down; [|exact A]. lia.
    + intros L. apply (O i L).
Qed.
End Exact.
(** a step that is lost in the rounding *)
Lemma stalls fuel : yield_sizes 2 {| coef := 1; expo := -29 |} 500 500 100 100 fuel = None.
Proof.
  unfold yield_sizes, yield_resolutions. assert (E : forall e, (e = {| coef := 1; expo := 0 |} \/ e = {| coef := 10 ^ 27; expo := -27 |}) -> resolutions_from 2 {| coef := 1; expo := -29 |} 500 500 100 100 fuel e = None).
  { induction fuel as [|n IH]; intros e [->| ->]; [reflexivity|reflexivity| |]; cbn [resolutions_from].
    - change (exported_at 2 500 500 100 100 {| coef := 1; expo := 0 |}) with true. cbv iota. assert (X : dec_add {| coef := 1; expo := 0 |} {| coef := 1; expo := -29 |} = {| coef := 10 ^ 27; expo := -27 |}) by (vm_compute; reflexivity). rewrite X, IH by (right; reflexivity). reflexivity.
    - assert (Y : exported_at 2 500 500 100 100 {| coef := 10 ^ 27; expo := -27 |} = true) by (vm_compute; reflexivity). rewrite Y. cbv iota. assert (X : dec_add {| coef := 10 ^ 27; expo := -27 |} {| coef := 1; expo := -29 |} = {| coef := 10 ^ 27; expo := -27 |}) by (vm_compute; reflexivity). rewrite X, IH by (right; reflexivity). reflexivity. }
  rewrite E by (left; reflexivity). reflexivity.
Qed.
