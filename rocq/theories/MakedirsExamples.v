(** Three workers, two of which make the same folders. *)
From Verif Require Import Base Graph PyPath PyNorm Prune PruneSpec PruneProofs PruneExamples Makedirs MakedirsSpec MakedirsProofs.
From Coq Require Import String ZArith NArith Bool List Lia.
Import ListNotations.
Open Scope list_scope.

Definition mk_a := lit "out/www/css/a.css".
Definition mk_b := lit "out/www/css/b.css".
Definition mk_c := lit "out/www/index.html".
Definition mk_fs := [mk_a; mk_b; mk_c].
(** only the folder out is there *)
Definition mk_tree : tree := mkTree [] [lit "out"].
Definition inside_b (d x : str) : bool := starts_with (d ++ [47%N]) x.
Lemma inside_b_false d x : inside_b d x = false -> ~ inside d x.
Proof. intros H (r & ->). unfold inside_b in H. replace (d ++ 47%N :: r) with ((d ++ [47%N]) ++ r) in H by (rewrite <- app_assoc; reflexivity). assert (X : forall a b : str, starts_with a (a ++ b) = true) by (induction a as [|y a IH]; intros b; [reflexivity|cbn; rewrite N.eqb_refl; apply IH]). rewrite X in H. discriminate H. Qed.
Lemma mk_sound : sound mk_tree.
Proof.
  intros x [[]|[<-|[]]]. split; [apply proper_b_spec; vm_compute; reflexivity|]. intros d (r & E). exfalso. assert (X : In 47%N (lit "out")) by (rewrite E; apply in_or_app; right; left; reflexivity). vm_compute in X. intuition discriminate.
Qed.
Lemma mk_room : room mk_tree mk_fs.
Proof.
  assert (A : forallb (fun f => proper_b 47 f && existsb (N.eqb 47) f && negb (mem f (t_dirs mk_tree)) && forallb (fun x => negb (inside_b x f)) mk_fs) mk_fs = true) by (vm_compute; reflexivity).
  rewrite forallb_forall in A. intros f Hf. specialize (A f Hf). apply andb_true_iff in A. destruct A as (A & A4). apply andb_true_iff in A. destruct A as (A & A3). apply andb_true_iff in A. destruct A as (A1 & A2).
  split; [apply proper_b_spec, A1|]. split; [apply existsb_exists in A2; destruct A2 as (y & Hy & E); apply N.eqb_eq in E; subst y; exact Hy|]. split; [intros X; apply mem_In in X; rewrite X in A3; discriminate A3|].
  intros x [[]|Hx]. rewrite forallb_forall in A4. specialize (A4 x Hx). apply negb_true_iff in A4. apply inside_b_false, A4.
Qed.
(** a run as a list of steps *)
Fixpoint follow (l : list (nat * bool)) (t : tree) (ps : list (str * place)) (log : list (nat * place * bool)) : option (list (nat * place * bool) * tree * list (str * place)) :=
  match l with
  | [] => Some (log, t, ps)
  | (k, denied) :: r => match nth_error ps k with Some (f, p) => match act denied f t p with Some (t1, p1) => follow r t1 (set_nth k (f, p1) ps) ((k, p, denied) :: log) | None => None end | None => None end
  end.
Lemma follow_runs t0 ps0 : forall l t ps log log' t' ps', runs t0 ps0 log t ps -> follow l t ps log = Some (log', t', ps') -> runs t0 ps0 log' t' ps'.
Proof.
  induction l as [|(k, denied) l IH]; intros t ps log log' t' ps' H E; [injection E as <- <- <-; exact H|]. cbn [follow] in E. destruct (nth_error ps k) as [(f, p)|] eqn:Ek; [|discriminate E]. destruct (act denied f t p) as [(t1, p1)|] eqn:Ea; [|discriminate E].
  eapply IH; [|exact E]. eapply runs_step; eassumption.
Qed.
(** the first worker is refused once and tries again; the two others look before either makes the folder www; the
    first two both try to make the folder css *)
Definition mk_steps : list (nat * bool) :=
  [(0, false); (0, false); (0, false); (0, true); (0, false); (1, false); (2, false); (1, false); (1, false); (2, false); (1, false); (2, false); (2, false); (2, false);
   (0, false); (0, false); (1, false); (0, false); (0, false); (0, false); (1, false)]%nat.
Definition mk_end := follow mk_steps mk_tree (start mk_fs) [].
Definition mk_log := match mk_end with Some (log, _, _) => log | None => [] end.
Definition mk_after := match mk_end with Some (_, t, _) => t | None => mk_tree end.
Definition mk_done : list (str * place) := map (fun f => (f, Done)) mk_fs.
Lemma mk_end_ok : mk_end = Some (mk_log, mk_after, mk_done).
Proof. vm_compute. reflexivity. Qed.
Lemma mk_runs : runs mk_tree (start mk_fs) mk_log mk_after mk_done.
Proof. exact (follow_runs _ _ mk_steps _ _ _ _ _ _ (runs_start _ _) mk_end_ok). Qed.
(** two workers find no folder css, one makes it, and the other is refused the question whether there is one *)
Definition mk_bad : list (nat * bool) :=
  [(0, false); (1, false); (0, false); (0, false); (0, false); (0, false); (1, false); (1, false); (1, true)]%nat.
Definition mk_bad_end := follow mk_bad mk_tree (start mk_fs) [].
Definition mk_bad_log := match mk_bad_end with Some (log, _, _) => log | None => [] end.
Definition mk_bad_after := match mk_bad_end with Some (_, t, _) => t | None => mk_tree end.
Definition mk_bad_places := match mk_bad_end with Some (_, _, ps) => ps | None => [] end.
Lemma mk_bad_runs : runs mk_tree (start mk_fs) mk_bad_log mk_bad_after mk_bad_places.
Proof. refine (follow_runs _ _ mk_bad _ _ _ _ _ _ (runs_start _ _) _). vm_compute. reflexivity. Qed.
Lemma mk_bad_failed : nth_error mk_bad_places 1 = Some (mk_b, Failed EEXIST) /\ refused 1 mk_bad_log = 0%nat /\ length (filter (fun e => snd e) mk_bad_log) = 1%nat.
Proof. vm_compute. repeat split. Qed.
Definition mk_sources := [lit "css/a.css"; lit "css/b.css"; lit "index.html"].
Lemma mk_no_clash : no_clash mk_sources.
Proof.
  assert (A : forallb (fun a => forallb (fun b => proper_b 47 b && negb (inside_b a b) && negb (inside_b (a ++ lit ".hash") b)) mk_sources) mk_sources = true) by (vm_compute; reflexivity). intros a b Ha Hb.
  rewrite forallb_forall in A. specialize (A a Ha). rewrite forallb_forall in A. specialize (A b Hb). apply andb_true_iff in A. destruct A as (A & A3). apply andb_true_iff in A. destruct A as (A1 & A2). apply negb_true_iff in A2, A3. split; [apply proper_b_spec, A1|]. split; apply inside_b_false; assumption.
Qed.
Lemma mk_built : built_from mk_sources mk_tree.
Proof. split; [exact mk_sound|]. split; [intros d [<-|[]] (r & E); discriminate E|]. intros x []. Qed.
