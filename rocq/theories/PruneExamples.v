(** A site whose stylesheets are removed. *)
From Verif Require Import Base Graph PyPath PyNorm Prune PruneSpec PruneProofs.
From Coq Require Import String ZArith NArith Bool List Lia Sorting.Sorted.
Import ListNotations.
Open Scope list_scope.

(** a check of [proper] *)
Fixpoint proper_b (prev : N) (s : str) : bool := match s with [] => negb (N.eqb prev 47) | c :: r => negb (N.eqb prev 47 && N.eqb c 47) && proper_b c r end.
Lemma proper_b_from : forall s prev, proper_b prev s = true -> forall a r, s = a ++ 47%N :: r -> last a prev <> 47%N /\ r <> [].
Proof.
  induction s as [|c s IH]; intros prev H a r E; [destruct a; discriminate|]. cbn [proper_b] in H. apply andb_true_iff in H. destruct H as (H1 & H2). destruct a as [|x a].
  - injection E as -> ->. split; [|intros ->; discriminate H2]. cbn [last]. intros ->. discriminate H1.
  - injection E as -> E. destruct (IH x H2 a r E) as (A & B). split; [|exact B]. destruct a as [|y a]; [exact A|]. assert (X : forall l p q, l <> [] -> last l p = last l q :> N) by (induction l as [|z [|z' l] IHl]; intros p q Hl; [contradiction|reflexivity|apply IHl; discriminate]).
    change (last (y :: a) prev <> 47%N). rewrite (X _ prev x); [exact A|discriminate].
Qed.
Lemma proper_b_spec x : proper_b 47 x = true -> proper x.
Proof.
  intros H. split; [intros ->; discriminate H|]. intros a r E. destruct (proper_b_from x _ H a r E) as (A & B). assert (Ha : a <> []) by (intros ->; apply A; reflexivity). split; [exact Ha|]. split; [|exact B].
  destruct (exists_last Ha) as (z & y & ->). rewrite last_last in *. exact A.
Qed.
Lemma proper_all l : forallb (proper_b 47) l = true -> forall f, In f l -> proper f.
Proof. intros H f Hf. rewrite forallb_forall in H. apply proper_b_spec, H, Hf. Qed.

Definition pr_page := lit "out/www/index.html".
Definition pr_main := lit "out/www/css/main.css".
Definition pr_icon := lit "out/www/css/icons/a.svg".
Definition pr_files := [pr_page; pr_main; pr_icon].
Definition pr_empty : tree := mkTree [] [].
Definition pr_tree : tree := match write_files pr_files pr_empty with Some t => t | None => pr_empty end.
Lemma pr_files_proper f : In f pr_files -> proper f.
Proof. apply proper_all. vm_compute. reflexivity. Qed.
Lemma pr_empty_sound : sound pr_empty.
Proof. intros x [[]|[]]. Qed.
Lemma pr_written : write_files pr_files pr_empty = Some pr_tree.
Proof. vm_compute. reflexivity. Qed.
Lemma pr_sound : sound pr_tree.
Proof. destruct (writes_right pr_files pr_empty pr_files_proper pr_empty_sound) as (t & E & S & _). rewrite pr_written in E. injection E as <-. exact S. Qed.
Lemma pr_tidy : tidy pr_tree.
Proof.
  destruct (writes_right pr_files pr_empty pr_files_proper pr_empty_sound) as (t & E & S & F & D). rewrite pr_written in E. injection E as <-. intros d Hd. apply D in Hd. destruct Hd as [[]|(w & A & B)]. exists w. split; [apply F; auto|exact B].
Qed.
(** both stylesheets were made from sources that are gone *)
Definition pr_outs := [pr_main; pr_icon].
Definition pr_order := [lit "out/www/css/icons"; lit "out/www/css"; lit "out/www"; lit "out"].
Definition pr_after : tree := mkTree [pr_page] [lit "out/www"; lit "out"].
Lemma pr_nodup : NoDup pr_order.
Proof. repeat (constructor; [intros X; repeat (destruct X as [X|X]; [discriminate X|]); exact X|]). constructor. Qed.
Lemma pr_sorted : StronglySorted (fun a b : str => (length b <= length a)%nat) pr_order.
Proof. repeat (constructor; [|repeat (constructor; [apply Nat.leb_le; vm_compute; reflexivity|]); constructor]). constructor. Qed.
Lemma pr_same : exists cand, possibly_empty (pr_outs ++ []) = Some cand /\ forall d, In d pr_order <-> In d cand.
Proof.
  eexists. split; [vm_compute; reflexivity|]. intros d. split; intros H.
  - destruct H as [<-|[<-|[<-|[<-|[]]]]]; vm_compute; tauto.
  - cbn [In] in H. vm_compute in H. vm_compute. tauto.
Qed.
Lemma pr_rebuild : rebuild_tree pr_outs [] [] [] pr_tree (Ret pr_after).
Proof. destruct pr_same as (cand & E & Hi). exact (pruned pr_outs [] [] [] pr_tree cand pr_order _ E eq_refl pr_nodup Hi pr_sorted). Qed.
(** the graphs were not stored, and the next build removes the same outputs *)
Lemma pr_again : rebuild_tree pr_outs [] [] [] pr_after (Raise FileNotFoundError).
Proof. destruct pr_same as (cand & E & Hi). exact (pruned pr_outs [] [] [] pr_after cand pr_order _ E eq_refl pr_nodup Hi pr_sorted). Qed.
Lemma pr_after_sound : sound pr_after.
Proof. destruct (rebuild_exact pr_outs [] [] [] pr_tree (Ret pr_after) pr_sound) as (t' & E & S & _).
  - intros f [Hf|[]]. apply pr_files_proper. right. exact Hf.
  - intros f [].
  - exact pr_rebuild.
  - intros d (f & [Hf|[]] & Hi). left. apply (pr_sound f); [left; vm_compute in Hf; vm_compute; tauto|exact Hi].
  - injection E as <-. exact S.
Qed.
