From Verif Require Import Base PyStr PyPath PyNorm PyNormProofs JsManip PathSpec.
From Coq Require Import String ZArith NArith Bool List Lia.
Import ListNotations.
Open Scope list_scope.
Open Scope N_scope.

Lemma name_clean c : name c <-> clean c.
Proof. reflexivity. Qed.
Lemma path_slash cs : path_text cs = slash cs.
Proof. induction cs as [|c cs IH]; [reflexivity|]. destruct cs; [reflexivity|]. cbn [path_text join]. cbn [path_text] in IH. rewrite IH. reflexivity. Qed.
Lemma walk_clean here steps there : walk here steps there -> Forall clean here -> Forall clean there.
Proof. induction 1 as [here|here r t _ IH|here r t _ IH|here x r t _ IH|here c r t Hc _ IH]; intros H; auto; [apply IH; apply Forall_app in H; tauto|apply IH; apply Forall_app; split; [exact H|repeat constructor; apply Hc]]. Qed.
Lemma walk_norm here steps there : walk here steps there -> Forall clean here -> forall base, fold_left (norm_step true) steps (rev here ++ base) = rev there ++ base.
Proof.
  induction 1 as [here|here r t _ IH|here r t _ IH|here x r t _ IH|here c r t Hc _ IH]; intros H base; cbn [fold_left].
  - reflexivity.
  - exact (IH H base).
  - exact (IH H base).
  - apply Forall_app in H. destruct H as (H1 & H2). inversion H2 as [|? ? (_ & _ & Hx & _) _]; subst. rewrite rev_app_distr. cbn [rev app]. unfold norm_step at 2.
    change (str_eqb (lit "..") []) with false. change (str_eqb (lit "..") dot) with false. change (str_eqb (lit "..") dotdot) with true. cbn [orb negb andb]. rewrite (proj2 (str_eqb_neq _ _) Hx). cbn [tl]. apply IH. exact H1.
  - rewrite norm_step_clean by exact Hc. specialize (IH ltac:(apply Forall_app; split; [exact H|repeat constructor; apply Hc]) base). rewrite rev_app_distr in IH. exact IH.
Qed.
Lemma src_clean : clean (lit "src") /\ clean (lit "public").
Proof. split; (split; [discriminate|]; split; [discriminate|]; split; [discriminate|]); cbn; intros H; repeat destruct H as [H|H]; try discriminate; exact H. Qed.
Lemma slash_relative c cs : Forall clean (c :: cs) -> relative (slash (c :: cs)).
Proof.
  intros H. inversion H as [|? ? (Hc & _ & _ & Hc2) _]; subst. destruct c as [|x c]; [contradiction|]. assert (Hx : 47 <> x) by (intros <-; apply Hc2; left; reflexivity).
  destruct cs; cbn [join app]; unfold relative; cbn [starts_with]; rewrite (proj2 (N.eqb_neq _ _) Hx); reflexivity.
Qed.
Lemma norm_app a b : norm_comps true (a ++ b) = rev (fold_left (norm_step true) b (rev (norm_comps true a))).
Proof. unfold norm_comps. rewrite fold_left_app, rev_involutive. reflexivity. Qed.
Lemma norm_app_clean a b : Forall clean b -> norm_comps true (a ++ b) = norm_comps true a ++ b.
Proof. intros H. rewrite norm_app, norm_clean by exact H. rewrite rev_app_distr, !rev_involutive. reflexivity. Qed.

Section Resolve.
Context (cwd folder : str) (Hcwd : starts_with [47] cwd = true).
Let top := [lit "src"; lit "public"].
Lemma top_clean : Forall clean top.
Proof. repeat constructor; apply src_clean. Qed.
(** the url part: a path below src/public, relative to it *)
Lemma public_rel q : q <> [] -> Forall clean q -> relpath cwd (slash (top ++ q)) public = slash q.
Proof.
  intros Hn Hq. assert (Ht : Forall clean (top ++ q)) by (apply Forall_app; split; [exact top_clean|exact Hq]).
  apply relpath_below with (base := norm_comps true (comps cwd) ++ top); [| |exact Hn|exact Hq].
  - destruct (abspath_comps cwd public Hcwd) as (-> & _). change public with (slash top). rewrite based_comps by (apply slash_relative; exact top_clean). rewrite comps_slash by exact top_clean. apply norm_app_clean. exact top_clean.
  - destruct (abspath_comps cwd (slash (top ++ q)) Hcwd) as (-> & _). rewrite based_comps by (apply slash_relative; exact Ht). rewrite comps_slash by exact Ht. rewrite norm_app_clean by exact Ht. apply app_assoc.
Qed.
Lemma rooted_target q : q <> [] -> Forall clean q -> forall script, resolve cwd folder script (47 :: slash q) = (slash (top ++ q), 47 :: slash q).
Proof.
  intros Hn Hq script. unfold resolve. cbn [starts_with tl]. rewrite N.eqb_refl. cbn [andb]. f_equal. destruct q as [|c q]; [contradiction|].
  transitivity (join2 (lit "src/public") (slash (c :: q))); [reflexivity|]. pose proof (slash_relative _ _ Hq) as Hr. destruct (slash_last _ _ Hq) as (Hs & _).
  unfold join2. destruct (slash (c :: q)) as [|x y] eqn:E; [contradiction|]. rewrite (relative_head _ _ Hr). change (last (lit "src/public") 0 =? 47) with false. cbn iota.
  cbn [app top join] in *. rewrite E. reflexivity.
Qed.
Lemma relative_target dirs fname p q : Forall clean (dirs ++ [fname]) -> relative p -> walk dirs (split_on 47 p) q -> q <> [] ->
  resolve cwd folder (slash (top ++ dirs ++ [fname])) p = (slash (top ++ q), 47 :: slash q).
Proof.
  intros Hd Hp Hw Hn. apply Forall_app in Hd. destruct Hd as (Hd & Hf). inversion Hf as [|? ? Hf1 _]; subst.
  assert (Hq : Forall clean q) by (eapply walk_clean; eauto).
  assert (Htd : Forall clean (top ++ dirs)) by (apply Forall_app; split; [exact top_clean|exact Hd]).
  assert (Htq : Forall clean (top ++ q)) by (apply Forall_app; split; [exact top_clean|exact Hq]).
  unfold resolve. rewrite Hp. cbn zeta.
  assert (Edir : dirname (slash (top ++ dirs ++ [fname])) = slash (top ++ dirs)).
  { assert (Ej : forall a, a <> [] -> slash (a ++ [fname]) = slash a ++ 47 :: fname).
    { clear. intros a. induction a as [|x a IH]; intros H; [contradiction|]. destruct a as [|y a]; [reflexivity|]. cbn [app join]. cbn [app join] in IH. rewrite IH by discriminate. cbn [app]. rewrite <- app_assoc. reflexivity. }
    rewrite app_assoc, Ej by discriminate. apply dirname_slash; [exact Htd|apply Hf1]. }
  rewrite Edir. set (base := norm_comps true (comps (based cwd folder))).
  assert (Hb : Forall clean base) by apply norm_comps_clean.
  assert (Ef : comps (abspath cwd folder) = base /\ starts_with [47] (abspath cwd folder) = true) by (apply abspath_comps; exact Hcwd).
  assert (Ea : comps (abspath cwd (join_path folder [slash (top ++ dirs); p])) = base ++ top ++ q /\ starts_with [47] (abspath cwd (join_path folder [slash (top ++ dirs); p])) = true).
  { destruct (abspath_comps cwd (join_path folder [slash (top ++ dirs); p]) Hcwd) as (Ea & Eb). split; [|exact Eb]. rewrite Ea. unfold join_path. cbn [fold_left].
    rewrite join2_based by exact Hp. rewrite join2_based by (apply slash_relative; exact Htd). rewrite comps_slash by exact Htd. rewrite norm_app. rewrite norm_app_clean by exact Htd. fold base.
    unfold comps. rewrite norm_filter. rewrite !rev_app_distr. rewrite <- app_assoc. rewrite (walk_norm _ _ _ Hw Hd). rewrite <- rev_app_distr, <- rev_app_distr, rev_involutive. rewrite <- app_assoc. reflexivity. }
  assert (Er : relpath cwd (abspath cwd (join_path folder [slash (top ++ dirs); p])) (abspath cwd folder) = slash (top ++ q)).
  { apply relpath_below with (base := base); [| |discriminate|exact Htq].
    - destruct Ef as (E1 & E2). apply abspath_abs; assumption.
    - destruct Ea as (E1 & E2). apply abspath_abs; try assumption. apply Forall_app. split; assumption. }
  rewrite Er, public_rel by assumption. reflexivity.
Qed.
End Resolve.

Lemma same_target cwd folder dirs fname p q : starts_with [47] cwd = true -> Forall name (dirs ++ [fname]) -> starts_with [47] p = false -> walk dirs (split_on 47 p) q -> q <> [] ->
  forall other,
  resolve cwd folder (path_text (lit "src" :: lit "public" :: dirs ++ [fname])) p = (path_text (lit "src" :: lit "public" :: q), [47] ++ path_text q) /\
  resolve cwd folder other ([47] ++ path_text q) = (path_text (lit "src" :: lit "public" :: q), [47] ++ path_text q).
Proof.
  intros H1 H2 H3 H4 H5 other. rewrite !path_slash. split; [apply (relative_target cwd folder H1 dirs fname p q); assumption|].
  apply (rooted_target cwd folder q H5). eapply walk_clean; [exact H4|]. apply Forall_app in H2. apply H2.
Qed.
Lemma target_hash cwd q : starts_with [47] cwd = true -> Forall name q -> q <> [] ->
  hash_file cwd (path_text (lit "src" :: lit "public" :: q)) = path_text (lit "out" :: lit "www" :: q) ++ lit ".hash".
Proof.
  intros H1 H2 H3. unfold hash_file. rewrite !path_slash. change (lit "src" :: lit "public" :: q) with ([lit "src"; lit "public"] ++ q). rewrite public_rel by assumption.
  destruct q as [|c q]; [contradiction|]. pose proof (slash_relative _ _ H2) as Hr. destruct (slash_last _ _ H2) as (Hs & _). 
  transitivity (join2 (lit "out/www") (slash (c :: q) ++ lit ".hash")); [reflexivity|]. unfold join2. destruct (slash (c :: q)) as [|x y] eqn:E; [contradiction|]. cbn [app]. rewrite (relative_head _ _ Hr). change (last (lit "out/www") 0 =? 47) with false. cbn iota.
  cbn [join] in *. rewrite E. reflexivity.
Qed.
