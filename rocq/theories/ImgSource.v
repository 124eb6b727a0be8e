(** Image commands: where the image is. *)
From Verif Require Import Base Graph PyStr PyPath PyNorm PyNormProofs PathSpec JsManip JsPathProofs ImgCommand.
From Coq Require Import String ZArith NArith Bool List Lia.
Import ListNotations.
Open Scope list_scope.
Open Scope N_scope.

Lemma dirname_one a name : a <> [] -> last a 0 <> 47 -> ~ In 47 name -> dirname (a ++ 47 :: name) = a.
Proof.
  intros H1 H2 Hn. unfold dirname. rewrite cut_last_slash by exact Hn. cbn [fst]. rewrite rstrip_slash_one by assumption. destruct (forallb (N.eqb 47) (a ++ [47])) eqn:E; [|reflexivity]. exfalso. rewrite forallb_app in E. apply andb_true_iff in E. destruct E as (E & _). rewrite forallb_forall in E.
  destruct (exists_last H1) as (z & x & Ez). rewrite Ez in *. rewrite last_last in H2. specialize (E x ltac:(apply in_or_app; right; left; reflexivity)). apply N.eqb_eq in E. congruence.
Qed.
Lemma last_app a b : b <> [] -> last (a ++ b) 0 = last b 0.
Proof. intros H. destruct (exists_last H) as (z & x & ->). rewrite app_assoc, !last_last. reflexivity. Qed.
Lemma dirname_join folder d name : d <> [] -> relative d -> last d 0 <> 47 -> ~ In 47 name -> dirname (join2 folder (d ++ 47 :: name)) = join2 folder d.
Proof.
  intros N R L M. unfold join2. destruct d as [|c d]; [contradiction|]. cbn [app]. rewrite (relative_head _ _ R). destruct folder as [|x folder]; [change (c :: d ++ 47 :: name) with ((c :: d) ++ 47 :: name); apply dirname_one; assumption|].
  destruct (last (x :: folder) 0 =? 47).
  - replace ((x :: folder) ++ c :: d ++ 47 :: name) with (((x :: folder) ++ c :: d) ++ 47 :: name) by (rewrite <- app_assoc; reflexivity). apply (dirname_one ((x :: folder) ++ c :: d)); [discriminate|rewrite last_app by discriminate; exact L|exact M].
  - cbn [app]. assert (E : x :: folder ++ 47 :: c :: d ++ 47 :: name = (x :: folder ++ 47 :: c :: d) ++ 47 :: name) by (cbn [app]; rewrite <- app_assoc; reflexivity). rewrite E. apply dirname_one; [discriminate| |exact M]. change (x :: folder ++ 47 :: c :: d) with ((x :: folder) ++ [47] ++ c :: d). rewrite !last_app by discriminate. exact L.
Qed.
Notation top := [lit "src"; lit "public"].
Theorem source_target cwd folder dirs fname p q : starts_with [47] cwd = true -> Forall name (dirs ++ [fname]) -> starts_with [47] p = false -> walk dirs (split_on 47 p) q -> q <> [] -> forall other,
  source_path cwd folder (path_text (lit "src" :: lit "public" :: dirs ++ [fname])) p = path_text (lit "src" :: lit "public" :: q) /\
  source_path cwd folder other ([47] ++ path_text q) = path_text (lit "src" :: lit "public" :: q).
Proof.
  intros Hcwd Hf Hp Hw Hn other. destruct (same_target cwd folder dirs fname p q Hcwd Hf Hp Hw Hn other) as [_ T]. split.
  - rewrite !path_slash. unfold source_path. rewrite Hp. apply Forall_app in Hf. destruct Hf as (Hd & Hf). inversion Hf as [|? ? Hf1 _]; subst. assert (Hq : Forall clean q) by (eapply walk_clean; eauto).
    assert (Htd : Forall clean (top ++ dirs)) by (apply Forall_app; split; [exact top_clean|exact Hd]). assert (Htq : Forall clean (top ++ q)) by (apply Forall_app; split; [exact top_clean|exact Hq]).
    assert (Ej : forall a, a <> [] -> slash (a ++ [fname]) = slash a ++ 47 :: fname).
    { clear. intros a. induction a as [|x a IH]; intros H; [contradiction|]. destruct a as [|y a]; [reflexivity|]. cbn [app join]. cbn [app join] in IH. rewrite IH by discriminate. cbn [app]. rewrite <- app_assoc. reflexivity. }
    change (lit "src" :: lit "public" :: dirs ++ [fname]) with (top ++ dirs ++ [fname]). change (lit "src" :: lit "public" :: q) with (top ++ q). rewrite app_assoc, Ej by discriminate.
    destruct (slash_last (lit "src") (lit "public" :: dirs) Htd) as (L1 & L2). rewrite dirname_join; [|exact L1|apply slash_relative; exact Htd|exact L2|apply Hf1].
    set (base := norm_comps true (comps (based cwd folder))). assert (Hb : Forall clean base) by apply norm_comps_clean.
    assert (Ea : comps (abspath cwd (join2 (join2 folder (slash (top ++ dirs))) p)) = base ++ top ++ q /\ starts_with [47] (abspath cwd (join2 (join2 folder (slash (top ++ dirs))) p)) = true).
    { destruct (abspath_comps cwd (join2 (join2 folder (slash (top ++ dirs))) p) Hcwd) as (Ea & Eb). split; [|exact Eb]. rewrite Ea.
      rewrite join2_based by exact Hp. rewrite join2_based by (apply slash_relative; exact Htd). rewrite comps_slash by exact Htd. rewrite norm_app. rewrite norm_app_clean by exact Htd. fold base.
      unfold comps. rewrite norm_filter. rewrite !rev_app_distr. rewrite <- app_assoc. rewrite (walk_norm _ _ _ Hw Hd). rewrite <- rev_app_distr, <- rev_app_distr, rev_involutive. rewrite <- app_assoc. reflexivity. }
    apply relpath_below with (base := base); [apply abspath_comps; exact Hcwd| |discriminate|exact Htq]. destruct Ea as (E1 & E2). apply abspath_abs; try assumption. apply Forall_app. split; assumption.
  - unfold source_path. unfold resolve in T. destruct (starts_with [47] ([47] ++ path_text q)) eqn:E; [|discriminate]. injection T as T. exact T.
Qed.
