(** A case for the image commands of a page. *)
From Verif Require Import Base Graph Json JsonProofs PyStr PyPath Handlers Html OutlineData ImgNumProofs ImgSize ImgSizeSpec ImgSettings ImgExport ImgExportSpec ImgExportProofs ImgExportRun ImgExportMain ImgBuildSpec ImgBuildProofs ImgBuildMain ImgBuildReuse.
From Coq Require Import String ZArith NArith Bool List Lia Permutation.
Import ListNotations.
Open Scope list_scope.
Open Scope Z_scope.

(** steps that are not smaller than a pixel give each size once *)
Lemma ith_grows c k n i : 0 < c -> 0 <= k -> 10 ^ k <= n * c -> ith c k n i < ith c k n (S i).
Proof.
  intros C K H. unfold ith. assert (P : 0 < 10 ^ k) by (apply Z.pow_pos_nonneg; lia). apply Z.lt_le_trans with (n * (10 ^ k + Z.of_nat i * c) / 10 ^ k + 1); [lia|]. rewrite <- Z.div_add by lia. apply Z.div_le_mono; [exact P|]. rewrite Nat2Z.inj_succ. nia.
Qed.
Lemma ith_grow c k n i j : 0 < c -> 0 <= k -> 10 ^ k <= n * c -> (i < j)%nat -> ith c k n i < ith c k n j.
Proof. intros C K H L. induction L as [|j L IH]; [apply ith_grows; assumption|]. pose proof (ith_grows c k n j C K H). lia. Qed.
Lemma ith_positive c k n i : 0 < c -> 0 <= k -> 0 < n -> 0 < ith c k n i.
Proof. intros C K N. unfold ith. assert (P : 0 < 10 ^ k) by (apply Z.pow_pos_nonneg; lia). apply Z.lt_le_trans with 1; [lia|]. apply Z.div_le_lower_bound; [exact P|]. nia. Qed.
Lemma sizes_distinct c k dw dh n : 0 < c -> 0 <= k -> 0 < dw -> 0 < dh -> (10 ^ k <= dw * c \/ 10 ^ k <= dh * c) -> good_sizes (map (fun i => (ith c k dw i, ith c k dh i)) (seq 0 n)).
Proof.
  intros C K W H D. split.
  - assert (J : forall i j, (ith c k dw i, ith c k dh i) = (ith c k dw j, ith c k dh j) -> i = j).
    { intros i j E. destruct (Nat.lt_total i j) as [L|[L|L]]; [|exact L|]; exfalso; destruct D as [D|D]; pose proof (ith_grow c k _ _ _ C K D L); assert (ith c k dw i = ith c k dw j /\ ith c k dh i = ith c k dh j) as [E1 E2] by (split; congruence); lia. }
    generalize (seq_NoDup n 0). generalize (seq 0 n). induction l as [|i l IH]; intros N; [constructor|]. inversion N as [|? ? N1 N2]; subst. cbn [map]. constructor; [|apply IH; exact N2]. intros I. apply in_map_iff in I. destruct I as (j & E & I). apply J in E. subst j. contradiction.
  - apply Forall_forall. intros x I. apply in_map_iff in I. destruct I as (i & <- & _). cbn [fst snd]. split; apply ith_positive; assumption.
Qed.

Definition ex_export (p q : Z) : image_export := {| min_area := None; max_area := Some 20000; preference := p; kwargs := [(lit "quality", KInt q)] |}.
Definition ex_settings : image_settings := {| formats := [(lit "webp", {| exports := [(lit "all", {| min_area := None; max_area := None; preference := 1; kwargs := [(lit "quality", KInt 2)] |})]; unit_size := 0 |}); (lit "jpeg", {| exports := [(lit "low", ex_export 10 3); (lit "high", ex_export 30 6)]; unit_size := 2 |})]; default_format := lit "jpeg"; maximum := 2; step_text := lit "0.5" |}.
Definition ex_encode (image : str) (t : Z) (w h : Z) (name : str) (k : list (str * kval)) : res str := match dget (lit "quality") k with Some (KInt q) => Ret (repeat 7%N (Z.to_nat q)) | _ => Raise TypeError end.
Definition ex_dims (image : str) : res (Z * Z) := Ret (500, 400).
Definition ex_step : dec := {| coef := 5; expo := -1 |}.
Definition ex_files : fs := [(lit "src/public/img/a.png", lit "png"); (lit "out/www/img/a.png.hash", lit "h"); (lit "artifacts/img/a/counter.txt", lit "1"); (lit "artifacts/img/a/1/placeholder.json", lit "{}"); (lit "out/locks/img/a/reserve_target.lock", [])].
Definition ex_sizes : list (Z * Z) := [(101, 90); (151, 135); (202, 180)].
Definition ex_store (m : metadata Z) : str := lit "{}".
Lemma ex_exporting : exporting ex_dims true ex_encode ex_settings ex_step (fun l => rev l) 20 ex_files (lit "img/a.png") 1 0 101 90 (lit "png") 500 400 ex_sizes.
Proof.
  constructor.
  - split; [eexists; eexists; split; [reflexivity|discriminate]|discriminate].
  - lia.
  - reflexivity.
  - reflexivity.
  - vm_compute. reflexivity.
  - vm_compute. reflexivity.
  - split.
    + unfold dict_wf. cbn [map fst dkeys ex_settings formats]. constructor; [intros [X|[]]; discriminate X|]. constructor; [intros []|constructor].
    + intros name fm [E|[E|[]]]; injection E as <- <-; (split; [intros X; repeat (destruct X as [X|X]; [discriminate X|]); exact X|]).
      * split; [unfold dict_wf; cbn [exports map fst dkeys]; constructor; [intros []|constructor]|]. intros n e [E|[]]; injection E as <- <-. reflexivity.
      * split; [unfold dict_wf; cbn [exports map fst dkeys]; constructor; [intros [X|[]]; discriminate X|constructor; [intros []|constructor]]|]. intros n e [E|[E|[]]]; injection E as <- <-; reflexivity.
  - intros l. apply Permutation_rev.
  - split; [|repeat constructor]. constructor; [intros [X|[X|[]]]; discriminate X|]. constructor; [intros [X|[]]; discriminate X|]. constructor; [intros []|constructor].
  - unfold dict_wf, dkeys. cbn [ex_files map fst]. repeat (apply NoDup_cons; [intros X; repeat (destruct X as [X|X]; [discriminate X|]); exact X|]). apply NoDup_nil.
  - intros w h name fm n e _ [E|[E|[]]] I _; injection E as <- <-; [destruct I as [E|[]]|destruct I as [E|[E|[]]]]; injection E as <- <-; eexists; reflexivity.
  - intros _ w h name fm I J. destruct I as [I|[I|[I|[]]]]; injection I as <- <-; destruct J as [J|[J|[]]]; injection J as <- <-; vm_compute; reflexivity.
Qed.
