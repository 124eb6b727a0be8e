(** The names of imported scripts and of their hash files. *)
From Verif Require Import Base Graph GraphSpec PyStr PyPath PyNorm PyNormProofs PathSpec Js Builder JsYield JsManip JsManipSpec JsPathProofs Handlers Hot HotSpec HotResultSpec HotWantSpec Project ProjectSpec.
From Coq Require Import String ZArith NArith Bool List Lia.
Import ListNotations.
Open Scope list_scope.
Open Scope N_scope.

Definition free (c : str) : Prop := c <> [] /\ ~ In 47 c.
Lemma free_relative c : free c -> relative c.
Proof. intros (H1 & H2). destruct c as [|x c]; [contradiction|]. unfold relative. cbn [starts_with]. destruct (47 =? x) eqn:E; [|reflexivity]. apply N.eqb_eq in E. subst. exfalso. apply H2. left. reflexivity. Qed.
Lemma join2_starts a b : a <> [] -> relative b -> exists y, join2 a b = a ++ y.
Proof.
  intros Ha Hb. unfold join2. destruct b as [|c b].
  - destruct a as [|x a]; [contradiction|]. destruct (last (x :: a) 0 =? 47); [exists []; rewrite app_nil_r; reflexivity|exists [47]; reflexivity].
  - rewrite (relative_head _ _ Hb). destruct a as [|x a]; [contradiction|]. destruct (last (x :: a) 0 =? 47); eexists; reflexivity.
Qed.
Lemma join_free l : Forall free l -> forall a, a <> [] -> (exists y, join_path a l = a ++ y) /\ comps (join_path a l) = comps a ++ l.
Proof.
  induction 1 as [|c l Hc _ IH]; intros a Ha; [split; [exists []; rewrite app_nil_r; reflexivity|rewrite app_nil_r; reflexivity]|].
  unfold join_path. cbn [fold_left]. destruct (join2_starts a c Ha (free_relative c Hc)) as (y & E). destruct (IH (join2 a c)) as ((z & E2) & E3); [rewrite E; destruct a; [contradiction|discriminate]|].
  unfold join_path in E2, E3. split; [exists (y ++ z); rewrite E2, E, app_assoc; reflexivity|]. rewrite E3, comps_join2 by (apply free_relative; exact Hc). rewrite (comps_one c) by apply Hc. rewrite <- app_assoc. reflexivity.
Qed.
Lemma drop_common_inv a : forall b x y, drop_common a b = (x, y) -> exists k, a = k ++ x /\ b = k ++ y.
Proof.
  induction a as [|h a IH]; intros [|g b] x y H; cbn [drop_common] in H; try (injection H as <- <-; exists []; split; reflexivity).
  destruct (str_eqb h g) eqn:E; [|injection H as <- <-; exists []; split; reflexivity]. apply str_eqb_eq in E. subst g. destruct (IH _ _ _ H) as (k & -> & ->). exists (h :: k). split; reflexivity.
Qed.
Lemma relpath_form cwd path start : exists k s p a l, comps (abspath cwd start) = k ++ s /\ comps (abspath cwd path) = k ++ p /\
  (match map (fun _ => dotdot) s ++ p with [] => [dot] | x => x end) = a :: l /\ comps (relpath cwd path start) = a :: l /\ (exists y, relpath cwd path start = a ++ y) /\ free a.
Proof.
  unfold relpath. destruct (drop_common (comps (abspath cwd start)) (comps (abspath cwd path))) as [s p] eqn:E. destruct (drop_common_inv _ _ _ _ E) as (k & E1 & E2). exists k, s, p.
  assert (F : Forall free (map (fun _ => dotdot) s ++ p)).
  { apply Forall_app. split; [apply Forall_forall; intros x Hx; apply in_map_iff in Hx; destruct Hx as (? & <- & _); split; [discriminate|intros [H|[H|[]]]; discriminate]|].
    pose proof (comps_free (abspath cwd path)) as H. rewrite E2 in H. apply Forall_app in H. apply H. }
  destruct (map (fun _ => dotdot) s ++ p) as [|a l].
  - exists dot, []. repeat split; auto; [exists []; reflexivity|discriminate|intros [H|[]]; discriminate].
  - inversion F as [|? ? Fa Fl]; subst. destruct (join_free l Fl a (proj1 Fa)) as (J1 & J2). exists a, l. repeat split; auto; try apply Fa. rewrite J2, (comps_one a) by apply Fa. reflexivity.
Qed.
Lemma relpath_inv cwd path start q : q <> [] -> Forall clean q -> relpath cwd path start = slash q -> comps (abspath cwd path) = comps (abspath cwd start) ++ q.
Proof.
  intros Hn Hq E. destruct (relpath_form cwd path start) as (k & s & p & a & l & E1 & E2 & E3 & E4 & _ & _). rewrite E, comps_slash in E4 by exact Hq. subst q. inversion Hq as [|? ? (_ & A1 & A2 & _) _]; subst.
  destruct s as [|x s]; cbn [map app] in E3; [|injection E3 as <- <-; exfalso; apply A2; reflexivity]. destruct p as [|b p]; [injection E3 as <- <-; exfalso; apply A1; reflexivity|].
  injection E3 as -> ->. rewrite E1, app_nil_r. exact E2.
Qed.
Lemma hash_text cwd root : hash_file cwd root = lit "out/www/" ++ relpath cwd root public ++ lit ".hash".
Proof.
  unfold hash_file. destruct (relpath_form cwd root public) as (k & s & p & a & l & _ & _ & _ & _ & (y & ->) & F).
  transitivity (join2 (lit "out/www") ((a ++ y) ++ lit ".hash")); [reflexivity|]. destruct a as [|x a]; [destruct (proj1 F eq_refl)|]. pose proof (free_relative _ F) as R. unfold join2. cbn [app]. rewrite (relative_head _ _ R). reflexivity.
Qed.
Lemma hash_is_out cwd root : is_out (hash_file cwd root) = true.
Proof. rewrite hash_text. reflexivity. Qed.

Section Root.
Context (cwd : str) (Hcwd : starts_with [47] cwd = true).
Lemma src_public_clean : Forall clean [lit "src"; lit "public"].
Proof. repeat constructor; apply src_clean. Qed.
Lemma abspath_clean p cs : relative p -> comps p = cs -> Forall clean cs -> comps (abspath cwd p) = norm_comps true (comps cwd) ++ cs.
Proof. intros R <- C. destruct (abspath_comps cwd p Hcwd) as (-> & _). rewrite based_comps by exact R. apply norm_app_clean. exact C. Qed.
Lemma abspath_public : comps (abspath cwd public) = norm_comps true (comps cwd) ++ [lit "src"; lit "public"].
Proof. apply abspath_clean; [reflexivity|apply (comps_slash [lit "src"; lit "public"]); exact src_public_clean|exact src_public_clean]. Qed.
Lemma abspath_slash c cs : Forall clean (c :: cs) -> comps (abspath cwd (slash (c :: cs))) = norm_comps true (comps cwd) ++ c :: cs.
Proof. intros H. apply abspath_clean; [apply slash_relative; exact H|apply comps_slash; exact H|exact H]. Qed.
Lemma source_slash f : source_name f -> exists q, Forall clean (lit "src" :: q) /\ f = slash (lit "src" :: q).
Proof.
  intros ([(q & _ & Hq & ->)|(q & Hq & -> & _)] & _); rewrite path_slash; [exists (lit "public" :: q)|exists q]; (split; [|reflexivity]); repeat constructor; try apply src_clean; try exact Hq.
Qed.
(** a source whose hash file is that of a file of src/public is that file *)
Lemma tidy_root root q : source_name root -> q <> [] -> Forall clean q -> relpath cwd root public = slash q -> root = slash (lit "src" :: lit "public" :: q).
Proof.
  intros Hs Hn Hq E. apply relpath_inv in E; [|exact Hn|exact Hq]. destruct (source_slash root Hs) as (q' & Hc & ->). rewrite abspath_slash in E by exact Hc. rewrite abspath_public, <- app_assoc in E. apply app_inv_head in E. rewrite E. reflexivity.
Qed.
Lemma dot_out y : is_out (dot ++ y) = false.
Proof. reflexivity. Qed.
(** an imported file with the hash file of a file of src/public is not in the out folder *)
Lemma root_not_out folder f p q : q <> [] -> Forall clean q -> relpath cwd (fst (resolve cwd folder f p)) public = slash q -> is_out (fst (resolve cwd folder f p)) = false.
Proof.
  intros Hn Hq E. apply relpath_inv in E; [|exact Hn|exact Hq]. revert E. unfold resolve. destruct (starts_with [47] p); cbn [fst].
  - intros _. change (join_path (lit "src") [lit "public"; tl p]) with (join2 (lit "src/public") (tl p)). destruct (tl p) as [|c r]; [reflexivity|]. unfold join2. destruct (c =? 47) eqn:Ec; [apply N.eqb_eq in Ec; subst; reflexivity|reflexivity].
  - set (abs := abspath cwd (join_path folder [dirname f; p])). intros E. destruct (relpath_form cwd abs (abspath cwd folder)) as (k & s & r & a & l & E1 & E2 & E3 & E4 & (y & E5) & F).
    destruct s as [|x s]; cbn [map app] in E3; [|injection E3 as <- <-; rewrite E5; reflexivity]. destruct r as [|b r]; [injection E3 as <- <-; rewrite E5; reflexivity|]. injection E3 as -> ->.
    assert (C : Forall clean (a :: l)). { destruct (abspath_comps cwd abs Hcwd) as (X & _). rewrite X in E2. pose proof (norm_comps_clean (based cwd abs)) as Y. rewrite E2 in Y. apply Forall_app in Y. apply Y. }
    assert (R : relative (relpath cwd abs (abspath cwd folder))). { rewrite E5. destruct a as [|z a]; [destruct (proj1 F eq_refl)|]. pose proof (free_relative _ F) as R. unfold relative in *. cbn [app starts_with] in *. exact R. }
    rewrite (abspath_clean _ (a :: l) R E4 C), abspath_public, <- app_assoc in E. apply app_inv_head in E. injection E as -> _. rewrite E5. reflexivity.
Qed.
End Root.

(** targets *)
Lemma slash_more c q : q <> [] -> slash (c :: q) = c ++ 47 :: slash q.
Proof. destruct q; [contradiction|reflexivity]. Qed.
Lemma below_text q : q <> [] -> slash (lit "src" :: lit "public" :: q) = lit "src/public/" ++ slash q.
Proof. intros H. rewrite slash_more by discriminate. rewrite slash_more by exact H. reflexivity. Qed.
Lemma below_targets q : copy_target (lit "src/public/" ++ slash q) = Some (lit "out/www/" ++ slash q) /\ hash_target (lit "src/public/" ++ slash q) = Some (lit "out/www/" ++ slash q ++ lit ".hash").
Proof. split; reflexivity. Qed.
Lemma source_targets f : source_name f -> (exists q, q <> [] /\ Forall clean q /\ f = lit "src/public/" ++ slash q /\ (forall r, slash q <> r ++ lit ".hash")) \/ (copy_target f = None /\ hash_target f = None).
Proof.
  intros ([(q & Hn & Hq & E)|(q & Hq & E & Hb)] & Hh).
  - left. exists q. rewrite path_slash, below_text in E by exact Hn. repeat split; auto. intros r X. apply Hh. exists (lit "src/public/" ++ r). rewrite E, X. reflexivity.
  - right. assert (Hp : forall r, f <> lit "src/public" ++ r) by (intros r X; apply Hb; eauto). unfold copy_target, hash_target, hash_target_in.
    assert (N1 : starts_with (lit "src/public") f = false). { destruct (starts_with (lit "src/public") f) eqn:X; [|reflexivity]. apply starts_with_iff in X. destruct X as (r & X). destruct (Hp r X). }
    assert (N2 : starts_with (lit "src/public/") f = false). { destruct (starts_with (lit "src/public/") f) eqn:X; [|reflexivity]. apply starts_with_iff in X. destruct X as (r & X). destruct (Hp (47 :: r)). rewrite X. reflexivity. }
    assert (N3 : starts_with (lit "out/www/") f = false). { rewrite E, path_slash. destruct q; reflexivity. }
    rewrite N1, N2, N3. split; reflexivity.
Qed.
Lemma source_not_out f : source_name f -> is_out f = false.
Proof. intros H. destruct (source_slash f H) as (q & _ & ->). destruct q; reflexivity. Qed.
