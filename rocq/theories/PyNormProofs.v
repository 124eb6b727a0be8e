(** Facts about the path functions. *)
From Verif Require Import Base PyStr PyPath PyNorm.
From Coq Require Import String ZArith NArith Bool List Lia.
Import ListNotations.
Open Scope list_scope.
Open Scope N_scope.

(** a component as it appears in a normalized path *)
Definition clean (c : str) : Prop := c <> [] /\ c <> dot /\ c <> dotdot /\ ~ In 47 c.
Notation slash := (join [47]).

Lemma split_on_cat c a b : split_on c (a ++ c :: b) = split_on c a ++ split_on c b.
Proof.
  induction a as [|x a IH]; cbn [app split_on]; [rewrite N.eqb_refl; reflexivity|]. rewrite IH. destruct (x =? c); [reflexivity|].
  destruct (split_on c a) as [|p ps] eqn:E; [exfalso; exact (split_on_nonempty c a E)|]. reflexivity.
Qed.
Lemma comps_cat a b : comps (a ++ 47 :: b) = comps a ++ comps b.
Proof. unfold comps. rewrite split_on_cat, filter_app. reflexivity. Qed.
Lemma comps_one c : c <> [] -> ~ In 47 c -> comps c = [c].
Proof. intros H1 H2. unfold comps. rewrite split_on_none by exact H2. cbn. destruct (str_eqb c []) eqn:E; [apply str_eqb_eq in E; contradiction|reflexivity]. Qed.
Lemma comps_nil : comps [] = [].
Proof. reflexivity. Qed.
Lemma comps_slash cs : Forall clean cs -> comps (slash cs) = cs.
Proof.
  induction 1 as [|c cs (H1 & _ & _ & H2) _ IH]; [reflexivity|]. cbn [join]. destruct cs as [|d cs]; [apply comps_one; assumption|].
  change (c ++ [47] ++ slash (d :: cs)) with (c ++ 47 :: slash (d :: cs)). rewrite comps_cat, IH, comps_one by assumption. reflexivity.
Qed.
Definition relative (p : str) : Prop := starts_with [47] p = false.
Lemma relative_head c p : relative (c :: p) -> (c =? 47) = false.
Proof. unfold relative. cbn. intros H. apply andb_false_iff in H. rewrite N.eqb_sym. destruct H as [H|H]; [exact H|discriminate]. Qed.
Lemma last_slash (a : str) : a <> [] -> last a 0 = 47 -> exists b, a = b ++ [47].
Proof. intros Hn H. destruct (exists_last Hn) as (b & x & ->). rewrite last_last in H. subst. eauto. Qed.
Lemma comps_join2 a b : relative b -> comps (join2 a b) = comps a ++ comps b.
Proof.
  intros Hb. unfold join2. destruct b as [|c b].
  - destruct a as [|x a]; [reflexivity|]. rewrite comps_nil, app_nil_r. destruct (last (x :: a) 0 =? 47) eqn:E; [reflexivity|]. change ((x :: a) ++ [47]) with ((x :: a) ++ 47 :: []). rewrite comps_cat, comps_nil, app_nil_r. reflexivity.
  - rewrite (relative_head _ _ Hb). destruct a as [|x a]; [reflexivity|]. destruct (last (x :: a) 0 =? 47) eqn:E.
    + apply N.eqb_eq in E. apply last_slash in E; [|discriminate]. destruct E as (b0 & ->). rewrite <- app_assoc. change (b0 ++ [47] ++ c :: b) with (b0 ++ 47 :: c :: b). change (b0 ++ [47]) with (b0 ++ 47 :: []). rewrite !comps_cat, comps_nil, app_nil_r. reflexivity.
    + change ((x :: a) ++ [47] ++ c :: b) with ((x :: a) ++ 47 :: c :: b). apply comps_cat.
Qed.
(** the loop of normpath *)
Lemma norm_step_clean r acc c : clean c -> norm_step r acc c = c :: acc.
Proof. intros (H1 & H2 & H3 & _). unfold norm_step. apply str_eqb_neq in H1, H2, H3. rewrite H1, H2, H3. reflexivity. Qed.
Lemma norm_clean r cs : Forall clean cs -> forall acc, fold_left (norm_step r) cs acc = rev cs ++ acc.
Proof. induction 1 as [|c cs H _ IH]; intros acc; [reflexivity|]. cbn [fold_left rev]. rewrite norm_step_clean by exact H. rewrite IH, <- app_assoc. reflexivity. Qed.
Lemma norm_step_empty r acc : norm_step r acc [] = acc.
Proof. reflexivity. Qed.
Lemma norm_filter r cs : forall acc, fold_left (norm_step r) (filter (fun c => negb (str_eqb c [])) cs) acc = fold_left (norm_step r) cs acc.
Proof. induction cs as [|c cs IH]; intros acc; [reflexivity|]. cbn [filter fold_left]. destruct (str_eqb c []) eqn:E; cbn [negb]; [apply str_eqb_eq in E; subst; rewrite norm_step_empty; apply IH|apply IH]. Qed.
Lemma norm_comps_comps r p : norm_comps r (split_on 47 p) = norm_comps r (comps p).
Proof. unfold norm_comps, comps. rewrite norm_filter. reflexivity. Qed.
Lemma comps_free p : Forall (fun c => c <> [] /\ ~ In 47 c) (comps p).
Proof. apply Forall_forall. intros c H. unfold comps in H. apply filter_In in H. destruct H as (H1 & H2). split; [intros ->; discriminate|exact (split_on_free _ _ _ H1)]. Qed.
(** a rooted path is cleaned completely *)
Lemma norm_rooted cs : Forall (fun c => c <> [] /\ ~ In 47 c) cs -> forall acc, Forall clean acc -> Forall clean (fold_left (norm_step true) cs acc).
Proof.
  induction 1 as [|c cs (H1 & H2) _ IH]; intros acc Ha; [exact Ha|]. cbn [fold_left]. apply IH. unfold norm_step.
  destruct (str_eqb c []) eqn:E1; [apply str_eqb_eq in E1; contradiction|]. destruct (str_eqb c dot) eqn:E2; [exact Ha|]. cbn [orb negb andb].
  destruct (str_eqb c dotdot) eqn:E3; cbn [negb orb].
  - destruct acc as [|x acc]; [constructor|]. inversion Ha as [|? ? (_ & _ & Hx & _) Hr]; subst. rewrite (proj2 (str_eqb_neq _ _) Hx). exact Hr.
  - constructor; [|exact Ha]. split; [exact H1|]. split; [intros ->; discriminate|]. split; [intros ->; discriminate|exact H2].
Qed.
Lemma norm_comps_clean p : Forall clean (norm_comps true (comps p)).
Proof. unfold norm_comps. apply Forall_rev. apply norm_rooted; [apply comps_free|constructor]. Qed.
Lemma comps_lead l p : Forall (eq 47) l -> comps (l ++ p) = comps p.
Proof. induction 1 as [|c l <- _ IH]; [reflexivity|]. cbn [app]. change (47 :: l ++ p) with ([] ++ 47 :: l ++ p). rewrite comps_cat, comps_nil, IH. reflexivity. Qed.
Lemma comps_normpath p : starts_with [47] p = true -> comps (normpath p) = norm_comps true (comps p) /\ starts_with [47] (normpath p) = true.
Proof.
  intros H. destruct p as [|c p]; [discriminate|]. unfold normpath. rewrite H, norm_comps_comps. set (q := norm_comps true (comps (c :: p))).
  assert (Hq : forall l, Forall (eq 47) l -> comps (l ++ slash q) = q) by (intros l Hl; rewrite comps_lead by exact Hl; apply comps_slash; apply norm_comps_clean).
  destruct (starts_with [47; 47] (c :: p) && negb (starts_with [47; 47; 47] (c :: p))); cbn zeta iota.
  - split; [exact (Hq [47; 47] ltac:(repeat constructor))|reflexivity].
  - split; [exact (Hq [47] ltac:(repeat constructor))|reflexivity].
Qed.
Lemma starts_join2 a b : starts_with [47] a = true -> starts_with [47] (join2 a b) = true.
Proof.
  intros H. unfold join2. destruct b as [|c b].
  - destruct a as [|x a]; [discriminate|]. destruct (last (x :: a) 0 =? 47); [exact H|exact H].
  - destruct (c =? 47) eqn:E; [apply N.eqb_eq in E; subst; reflexivity|]. destruct a as [|x a]; [discriminate|]. destruct (last (x :: a) 0 =? 47); exact H.
Qed.
(** the absolute form of a path that may be relative *)
Definition based (cwd p : str) : str := if starts_with [47] p then p else join2 cwd p.
Lemma based_abs cwd p : starts_with [47] cwd = true -> starts_with [47] (based cwd p) = true.
Proof. intros H. unfold based. destruct (starts_with [47] p) eqn:E; [exact E|apply starts_join2; exact H]. Qed.
Lemma abspath_comps cwd p : starts_with [47] cwd = true -> comps (abspath cwd p) = norm_comps true (comps (based cwd p)) /\ starts_with [47] (abspath cwd p) = true.
Proof. intros H. apply comps_normpath. apply based_abs. exact H. Qed.
Lemma norm_idem cs : Forall clean cs -> norm_comps true cs = cs.
Proof. intros H. unfold norm_comps. rewrite norm_clean by exact H. rewrite app_nil_r, rev_involutive. reflexivity. Qed.
Lemma abspath_abs cwd p cs : starts_with [47] p = true -> comps p = cs -> Forall clean cs -> starts_with [47] cwd = true -> comps (abspath cwd p) = cs.
Proof. intros H <- Hc Hw. destruct (abspath_comps cwd p Hw) as (-> & _). unfold based. rewrite H. apply norm_idem. exact Hc. Qed.
Lemma based_comps cwd p : relative p -> comps (based cwd p) = comps cwd ++ comps p.
Proof. intros H. unfold based. rewrite H. apply comps_join2. exact H. Qed.
Lemma join2_based cwd a b : relative b -> comps (based cwd (join2 a b)) = comps (based cwd a) ++ comps b.
Proof.
  intros Hb. unfold based. destruct (starts_with [47] a) eqn:E; [rewrite starts_join2 by exact E; apply comps_join2; exact Hb|].
  assert (E2 : starts_with [47] (join2 a b) = false).
  { unfold join2. destruct b as [|c b]; [destruct a as [|x a]; [reflexivity|destruct (last (x :: a) 0 =? 47); exact E]|]. rewrite (relative_head _ _ Hb). destruct a as [|x a]; [exact Hb|destruct (last (x :: a) 0 =? 47); exact E]. }
  rewrite E2, !comps_join2 by assumption. rewrite app_assoc. reflexivity.
Qed.
(** relpath *)
Lemma drop_common_prefix a : forall b, drop_common a (a ++ b) = ([], b).
Proof. induction a as [|x a IH]; intros b; [destruct b; reflexivity|]. cbn [app drop_common]. rewrite str_eqb_refl. apply IH. Qed.
Lemma join_path_slash c cs : Forall clean (c :: cs) -> join_path c cs = slash (c :: cs).
Proof.
  revert c. induction cs as [|d cs IH]; intros c H; [reflexivity|]. inversion H as [|? ? (Hc & _ & _ & Hc2) H2]; subst. inversion H2 as [|? ? (Hd & _ & _ & Hd2) H3]; subst.
  unfold join_path. cbn [fold_left]. assert (Ej : join2 c d = c ++ [47] ++ d).
  { unfold join2. destruct d as [|x d]; [contradiction|]. destruct (x =? 47) eqn:E; [apply N.eqb_eq in E; subst; exfalso; apply Hd2; left; reflexivity|]. destruct c as [|y c]; [contradiction|].
    destruct (last (y :: c) 0 =? 47) eqn:E2; [|reflexivity]. apply N.eqb_eq in E2. apply last_slash in E2; [|discriminate]. destruct E2 as (b & E2). exfalso. apply Hc2. rewrite E2. apply in_or_app. right. left. reflexivity. }
  rewrite Ej. change (fold_left join2 cs (c ++ [47] ++ d)) with (join_path (c ++ [47] ++ d) cs).
  clear Ej H H2. revert c Hc Hc2. induction cs as [|e cs IH2]; intros c Hc Hc2; [reflexivity|].
  inversion H3 as [|? ? (He & _ & _ & He2) H4]; subst.
  assert (Ej : forall a z, a <> [] -> last a 0 <> 47 -> z <> [] -> ~ In 47 z -> join2 a z = a ++ [47] ++ z).
  { intros a z Ha Hl Hz Hz2. unfold join2. destruct z as [|x z]; [contradiction|]. destruct (x =? 47) eqn:E; [apply N.eqb_eq in E; subst; exfalso; apply Hz2; left; reflexivity|]. destruct a as [|y a]; [contradiction|]. destruct (last (y :: a) 0 =? 47) eqn:E2; [apply N.eqb_eq in E2; contradiction|reflexivity]. }
  assert (Hg : forall cs a, a <> [] -> last a 0 <> 47 -> Forall clean cs -> join_path a cs = match cs with [] => a | _ => a ++ [47] ++ slash cs end).
  { clear. intros cs. induction cs as [|z cs IH]; intros a Ha Hl H; [reflexivity|]. inversion H as [|? ? (Hz & _ & _ & Hz2) H2]; subst. unfold join_path. cbn [fold_left].
    assert (Ej : join2 a z = a ++ [47] ++ z).
    { unfold join2. destruct z as [|x z]; [contradiction|]. destruct (x =? 47) eqn:E; [apply N.eqb_eq in E; subst; exfalso; apply Hz2; left; reflexivity|]. destruct a as [|y a]; [contradiction|]. destruct (last (y :: a) 0 =? 47) eqn:E2; [apply N.eqb_eq in E2; contradiction|reflexivity]. }
    rewrite Ej. change (fold_left join2 cs (a ++ [47] ++ z)) with (join_path (a ++ [47] ++ z) cs).
    assert (Hl2 : last (a ++ [47] ++ z) 0 <> 47).
    { destruct (exists_last Hz) as (z0 & x & ->). rewrite !app_assoc, last_last. intros ->. apply Hz2. apply in_or_app. right. left. reflexivity. }
    rewrite IH; [|destruct a; discriminate|exact Hl2|exact H2]. destruct cs; [reflexivity|]. cbn [join]. rewrite <- !app_assoc. reflexivity. }
  assert (Hl : last (c ++ [47] ++ d) 0 <> 47).
  { destruct (exists_last Hd) as (z0 & x & ->). rewrite !app_assoc, last_last. intros ->. apply Hd2. apply in_or_app. right. left. reflexivity. }
  rewrite Hg; [|destruct c; discriminate|exact Hl|exact H3]. cbn [join]. rewrite <- !app_assoc. reflexivity.
Qed.
Lemma relpath_below cwd path start base r : comps (abspath cwd start) = base -> comps (abspath cwd path) = base ++ r -> r <> [] -> Forall clean r -> relpath cwd path start = slash r.
Proof.
  intros H1 H2 Hn Hr. unfold relpath. rewrite H1, H2, drop_common_prefix. cbn [map app]. destruct r as [|a l]; [contradiction|]. apply join_path_slash. exact Hr.
Qed.
(** dirname *)
Lemma cut_last_none b : ~ In 47 b -> cut_last b = ([], b).
Proof. induction b as [|c b IH]; intros H; [reflexivity|]. cbn [cut_last]. rewrite IH by (intros X; apply H; right; exact X). destruct (c =? 47) eqn:E; [apply N.eqb_eq in E; exfalso; apply H; left; exact E|reflexivity]. Qed.
Lemma cut_last_slash a b : ~ In 47 b -> cut_last (a ++ 47 :: b) = (a ++ [47], b).
Proof.
  intros H. induction a as [|c a IH]; cbn [app cut_last]; [rewrite cut_last_none by exact H; reflexivity|]. rewrite IH. destruct (a ++ [47]) eqn:E; [destruct a; discriminate|reflexivity].
Qed.
Lemma rstrip_slash_one a : a <> [] -> last a 0 <> 47 -> rstrip_slash (a ++ [47]) = a.
Proof.
  induction a as [|c a IH]; intros Hn Hl; [contradiction|]. cbn [app rstrip_slash]. destruct a as [|d a].
  - cbn in *. destruct (c =? 47) eqn:E; [apply N.eqb_eq in E; contradiction|reflexivity].
  - rewrite IH; [reflexivity|discriminate|exact Hl].
Qed.
Lemma slash_last c cs : Forall clean (c :: cs) -> slash (c :: cs) <> [] /\ last (slash (c :: cs)) 0 <> 47.
Proof.
  revert c. induction cs as [|d cs IH]; intros c H; inversion H as [|? ? (Hc & _ & _ & Hc2) H2]; subst; cbn [join].
  - split; [exact Hc|]. destruct (exists_last Hc) as (z0 & x & ->). rewrite last_last. intros ->. apply Hc2. apply in_or_app. right. left. reflexivity.
  - destruct (IH d H2) as (I1 & I2). split; [destruct c; discriminate|]. destruct (exists_last I1) as (z0 & x & E). cbn [join] in *. rewrite E in *. rewrite last_last in I2. rewrite !app_assoc, last_last. exact I2.
Qed.
Lemma dirname_slash c cs name : Forall clean (c :: cs) -> ~ In 47 name -> dirname (slash (c :: cs) ++ 47 :: name) = slash (c :: cs).
Proof.
  intros H Hn. destruct (slash_last _ _ H) as (H1 & H2). unfold dirname. rewrite cut_last_slash by exact Hn. cbn [fst]. rewrite rstrip_slash_one by assumption.
  destruct (forallb (N.eqb 47) (slash (c :: cs) ++ [47])) eqn:E; [|reflexivity]. exfalso. rewrite forallb_app in E. apply andb_true_iff in E. destruct E as (E & _). rewrite forallb_forall in E.
  destruct (exists_last H1) as (z & x & Ez). rewrite Ez in *. rewrite last_last in H2. specialize (E x ltac:(apply in_or_app; right; left; reflexivity)). apply N.eqb_eq in E. congruence.
Qed.
