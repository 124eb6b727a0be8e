(** Workers that make folders at the same time: invariants. *)
From Verif Require Import Base Graph PyPath PyNorm Prune PruneSpec PruneProofs Makedirs MakedirsSpec.
From Coq Require Import String ZArith NArith Bool List Lia.
Import ListNotations.
Open Scope list_scope.

Lemma set_nth_get {A} (x : A) : forall l k j, nth_error (set_nth k x l) j = if Nat.eqb j k then match nth_error l k with Some _ => Some x | None => None end else nth_error l j.
Proof.
  induction l as [|y l IH]; intros k j; [destruct (Nat.eqb j k), k, j; reflexivity|]. destruct k as [|k]; destruct j as [|j]; cbn [set_nth nth_error Nat.eqb]; try reflexivity. apply IH.
Qed.
Lemma set_nth_fst (f : str) (p : place) : forall l k q, nth_error l k = Some (f, q) -> map fst (set_nth k (f, p) l) = map fst l.
Proof. induction l as [|y l IH]; intros [|k] q H; try discriminate; cbn [set_nth map nth_error] in *; [injection H as ->; reflexivity|]. erewrite IH by exact H. reflexivity. Qed.

(** the calls around the innermost one lead to the folder of the output *)
Fixpoint linked (f name : str) (rest : list str) : Prop :=
  inside name f /\ match rest with [] => name = dirname f | n :: r => dirname n = name /\ linked f n r end.
Definition shape (f : str) (t : tree) (p : place) : Prop :=
  match p with Look _ name rest | Make _ name rest | Check _ name rest _ => linked f name rest | Done => In f (t_files t) | _ => True end.
(** a worker that can ask: [c] refusals so far *)
Definition fine (c : nat) (f : str) (t : tree) (p : place) : Prop :=
  match p with
  | Stat i | Look i _ _ => (i <= 4 /\ i <= c)%nat
  | Make i name rest => (i <= 4 /\ i <= c)%nat /\ (dirname name = [] \/ In (dirname name) (t_dirs t))
  | Check i name rest x => (i <= 4 /\ i <= c)%nat /\ (x = EEXIST /\ In name (t_dirs t) \/ x = EACCES /\ (S i <= c)%nat)
  | Write => In (dirname f) (t_dirs t)
  | Done => True
  | Failed x => x = EACCES /\ (5 <= c)%nat
  end.

Section Workers.
Context (t0 : tree) (fs : list str) (H0 : sound t0) (HR : room t0 fs).
Definition between (t : tree) : Prop :=
  sound t /\ (forall x, In x (t_files t0) -> In x (t_files t)) /\ (forall x, In x (t_dirs t0) -> In x (t_dirs t)) /\
  (forall x, In x (t_files t) -> In x (t_files t0) \/ In x fs) /\ (forall d, In d (t_dirs t) -> In d (t_dirs t0) \/ exists f, In f fs /\ inside d f).
Lemma start_between : between t0.
Proof. split; [exact H0|]. split; [auto|]. split; [auto|]. split; auto. Qed.
Section One.
Context (t : tree) (HB : between t) (f : str) (Hf : In f fs).
Lemma f_proper : proper f.
Proof. apply (HR f Hf). Qed.
Lemma no_file_around d : inside d f -> ~ In d (t_files t).
Proof. intros Hd X. destruct HB as (_ & _ & _ & A & _). apply A in X. exact (proj2 (proj2 (proj2 (HR f Hf))) d X Hd). Qed.
Lemma f_no_dir : ~ In f (t_dirs t).
Proof.
  intros X. destruct HB as (_ & _ & _ & _ & A). apply A in X. destruct X as [X|(g & Hg & X)]; [exact (proj1 (proj2 (proj2 (HR f Hf))) X)|]. exact (proj2 (proj2 (proj2 (HR g Hg))) f (or_intror Hf) X).
Qed.
Lemma f_folder : dirname f <> [] /\ inside (dirname f) f.
Proof.
  destruct (HR f Hf) as (P & S & _). apply in_split in S. destruct S as (a & r & E). assert (X : inside a f) by (exists r; exact E). apply (inside_up f P) in X. split; [apply X|]. apply inside_dirname; [exact P|apply X].
Qed.
Lemma there_dir d : inside d f -> is_there d t = is_dir d t.
Proof. intros Hd. unfold is_there, is_dir. destruct (mem d (t_files t)) eqn:E; [exfalso; apply mem_In in E; exact (no_file_around d Hd E)|apply orb_false_r]. Qed.
Lemma linked_inside name rest : linked f name rest -> inside name f.
Proof. destruct rest; cbn [linked]; tauto. Qed.
Lemma returned_shape i name rest : linked f name rest -> forall u, shape f u (returned i rest).
Proof. intros H u. destruct rest as [|n r]; cbn [returned shape]; [exact I|]. apply H. Qed.
Lemma raised_shape i name rest x : linked f name rest -> forall u, shape f u (raised i rest x).
Proof. intros H u. destruct rest as [|n r]; cbn [raised]; [destruct x, (Nat.eqb i 4); exact I|]. destruct x; try exact I; [cbn [shape]; apply H|destruct (Nat.eqb i 4); exact I]. Qed.
Lemma returned_fine c i name rest u : (i <= 4 /\ i <= c)%nat -> linked f name rest -> In name (t_dirs u) -> fine c f u (returned i rest).
Proof. intros Hi H Hn. destruct rest as [|n r]; cbn [returned fine]; cbn [linked] in H; destruct H as (_ & H); [rewrite <- H; exact Hn|]. split; [exact Hi|]. right. rewrite (proj1 H). exact Hn. Qed.
Lemma up_inside name : inside name f -> dirname name <> [] -> inside (dirname name) f.
Proof. intros H Hn. eapply inside_trans; [|exact H]. apply inside_dirname; [exact (inside_proper _ _ f_proper H)|exact Hn]. Qed.
Lemma mkdir_right name x : inside name f -> mkdir name t = inl x -> (dirname name = [] \/ In (dirname name) (t_dirs t)) -> x = EEXIST /\ In name (t_dirs t).
Proof.
  intros Hi H Hd. unfold mkdir in H. pose proof (proj1 (inside_proper _ _ f_proper Hi)) as Hne. destruct name as [|y l]; [contradiction|]. rewrite (there_dir _ Hi) in H. destruct (is_dir (y :: l) t) eqn:E; [injection H as <-; split; [reflexivity|]; apply mem_In; exact E|].
  exfalso. assert (X : str_eqb (dirname (y :: l)) [] || is_dir (dirname (y :: l)) t = true); [apply orb_true_iff; destruct Hd as [Hd|Hd]; [left; apply str_eqb_eq; exact Hd|right; apply mem_In; exact Hd]|]. rewrite X in H. discriminate H.
Qed.
Lemma mkdir_tree name t1 : inside name f -> mkdir name t = inr t1 -> between t1 /\ t_files t1 = t_files t /\ (forall d, In d (t_dirs t1) <-> d = name \/ In d (t_dirs t)).
Proof.
  intros Hi H. unfold mkdir in H. destruct name as [|y l]; [discriminate H|]. set (name := y :: l) in *. clearbody name. clear y l. destruct (is_there name t); [discriminate H|]. destruct (str_eqb (dirname name) [] || is_dir (dirname name) t) eqn:E; [|destruct (is_there (dirname name) t); discriminate H]. injection H as <-. cbn [t_files t_dirs].
  split; [|split; [reflexivity|intros d; cbn [In]; intuition congruence]]. destruct HB as (S & A & B & C & D). pose proof (inside_proper _ _ f_proper Hi) as Hp.
  split; [|split; [exact A|]; split; [intros x Hx; right; apply B, Hx|]; split; [exact C|]; intros d [<-|Hd]; [right; exists f; auto|apply D, Hd]].
  intros x Hx. cbn [t_files t_dirs In] in Hx. assert (Y : x = name \/ (In x (t_files t) \/ In x (t_dirs t))) by (destruct Hx as [X|[X|X]]; auto). destruct Y as [->|Y]; [|destruct (S x Y) as (P & Q); split; [exact P|]; intros d Hd; right; apply Q, Hd].
  split; [exact Hp|]. intros d Hd. right. apply (inside_up name Hp) in Hd. destruct Hd as (N & Hd). apply orb_true_iff in E. destruct E as [E|E]; [apply str_eqb_eq in E; contradiction|]. apply mem_In in E. destruct Hd as [->|Hd]; [exact E|]. exact (proj2 (S _ (or_intror E)) d Hd).
Qed.
Lemma write_tree (Hd : In (dirname f) (t_dirs t)) : between (mkTree (if mem f (t_files t) then t_files t else f :: t_files t) (t_dirs t)).
Proof.
  assert (X : forall x, In x (if mem f (t_files t) then t_files t else f :: t_files t) <-> x = f \/ In x (t_files t)).
  { intros x. destruct (mem f (t_files t)) eqn:E; [apply mem_In in E; intuition congruence|cbn [In]; intuition congruence]. }
  destruct HB as (S & A & B & C & D). split; [|split; [intros x Hx; apply X; right; apply A, Hx|]; split; [exact B|]; split; [|exact D]; intros x Hx; apply X in Hx; destruct Hx as [->|Hx]; [right; exact Hf|apply C, Hx]].
  intros x Hx. cbn [t_files t_dirs] in *. rewrite X in Hx. assert (Y : x = f \/ (In x (t_files t) \/ In x (t_dirs t))) by tauto. destruct Y as [->|Y]; [|exact (S x Y)]. split; [exact f_proper|]. intros d Hi. apply (inside_up f f_proper) in Hi. destruct Hi as (_ & [->|Hi]); [exact Hd|]. exact (proj2 (S _ (or_intror Hd)) d Hi).
Qed.

Context (p : place) (HS : shape f t p) (denied : bool) (t1 : tree) (p1 : place) (HA : act denied f t p = Some (t1, p1)).
Lemma act_right : between t1 /\ (forall x, In x (t_files t) -> In x (t_files t1)) /\ (forall x, In x (t_dirs t) -> In x (t_dirs t1)) /\ shape f t1 p1.
Proof.
  assert (Same : t1 = t -> shape f t1 p1 -> between t1 /\ (forall x, In x (t_files t) -> In x (t_files t1)) /\ (forall x, In x (t_dirs t) -> In x (t_dirs t1)) /\ shape f t1 p1) by (intros -> X; auto).
  destruct f_folder as (Hn & Hi). assert (L0 : linked f (dirname f) []) by (split; [exact Hi|reflexivity]).
  destruct p as [i|i name rest|i name rest|i name rest x| | |x]; cbn [act shape] in *.
  - destruct denied; [injection HA as <- <-; apply Same; [reflexivity|exact L0]|]. destruct (is_dir (dirname f) t); [injection HA as <- <-; apply Same; [reflexivity|exact I]|]. destruct (is_there (dirname f) t); injection HA as <- <-; (apply Same; [reflexivity|]); [exact I|exact L0].
  - destruct (dirname name) as [|y l] eqn:E; [injection HA as <- <-; apply Same; [reflexivity|exact HS]|]. destruct (negb denied && is_there (y :: l) t); injection HA as <- <-; (apply Same; [reflexivity|]); [exact HS|]. cbn [shape linked]. split; [|split; [exact E|exact HS]].
    rewrite <- E. apply up_inside; [exact (linked_inside _ _ HS)|]. rewrite E. discriminate.
  - destruct denied; [injection HA as <- <-; apply Same; [reflexivity|exact HS]|]. destruct (mkdir name t) as [x|t2] eqn:E; injection HA as <- <-; [apply Same; [reflexivity|exact HS]|]. destruct (mkdir_tree name t2 (linked_inside _ _ HS) E) as (A & B & C). split; [exact A|]. split; [intros x Hx; rewrite B; exact Hx|]. split; [intros x Hx; apply C; auto|]. eapply returned_shape. exact HS.
  - destruct (negb denied && is_dir name t); injection HA as <- <-; (apply Same; [reflexivity|]); [eapply returned_shape|eapply raised_shape]; exact HS.
  - destruct (is_dir f t); [injection HA as <- <-; apply Same; [reflexivity|exact I]|]. destruct (is_dir (dirname f) t) eqn:E; injection HA as <- <-; [|apply Same; [reflexivity|exact I]]. apply mem_In in E. split; [exact (write_tree E)|]. cbn [t_files t_dirs shape]. split; [|split; [auto|]].
    + intros x Hx. destruct (mem f (t_files t)); [exact Hx|right; exact Hx].
    + destruct (mem f (t_files t)) eqn:M; [apply mem_In; exact M|left; reflexivity].
  - discriminate HA.
  - discriminate HA.
Qed.
Context (c : nat) (HF : fine c f t p).
Lemma act_fine : (denied = true -> forall i name rest x, p <> Check i name rest x) -> fine (c + match p with Make _ _ _ => if denied then 1 else 0 | _ => 0 end) f t1 p1.
Proof.
  intros HC. destruct f_folder as (Hn & Hi). destruct p as [i|i name rest|i name rest|i name rest x| | |x]; cbn [act shape fine] in *.
  - rewrite Nat.add_0_r. destruct denied; [injection HA as <- <-; exact HF|]. destruct (is_dir (dirname f) t) eqn:E; [injection HA as <- <-; apply mem_In; exact E|]. rewrite (there_dir _ Hi), E in HA. injection HA as <- <-. exact HF.
  - rewrite Nat.add_0_r. destruct (dirname name) as [|y l] eqn:E; [injection HA as <- <-; split; [exact HF|left; exact E]|]. assert (Hh : inside (y :: l) f) by (rewrite <- E; apply up_inside; [exact (linked_inside _ _ HS)|rewrite E; discriminate]).
    rewrite (there_dir _ Hh) in HA. destruct (negb denied && is_dir (y :: l) t) eqn:X; injection HA as <- <-; [|exact HF]. split; [exact HF|]. right. rewrite E. apply andb_true_iff in X. apply mem_In, X.
  - destruct HF as (Hc & Hd). destruct denied; [injection HA as <- <-; split; [lia|]; right; split; [reflexivity|lia]|]. rewrite Nat.add_0_r. destruct (mkdir name t) as [x|t2] eqn:E; injection HA as <- <-.
    + split; [exact Hc|]. left. exact (mkdir_right name x (linked_inside _ _ HS) E Hd).
    + destruct (mkdir_tree name t2 (linked_inside _ _ HS) E) as (_ & _ & C). eapply returned_fine; [exact Hc|exact HS|apply C; auto].
  - rewrite Nat.add_0_r. destruct HF as (Hc & Hx). destruct denied; [exfalso; exact (HC eq_refl _ _ _ _ eq_refl)|]. cbn [negb andb] in HA. destruct (is_dir name t) eqn:E; injection HA as <- <-; [eapply returned_fine; [exact Hc|exact HS|apply mem_In; exact E]|].
    destruct Hx as [(_ & X)|(-> & X)]; [exfalso; apply mem_In in X; unfold is_dir in E; congruence|]. assert (Y : fine c f t (if Nat.eqb i 4 then Failed EACCES else Stat (S i))) by (destruct (Nat.eqb i 4) eqn:Ei; [apply Nat.eqb_eq in Ei; subst i; split; [reflexivity|exact X]|apply Nat.eqb_neq in Ei; cbn [fine]; lia]).
    destruct rest; exact Y.
  - rewrite Nat.add_0_r. destruct (is_dir f t) eqn:E; [exfalso; apply f_no_dir, mem_In, E|]. apply mem_In in HF. unfold is_dir in HA. rewrite HF in HA. injection HA as <- <-. exact I.
  - discriminate HA.
  - discriminate HA.
Qed.
End One.

Lemma shape_grows f t t1 p : (forall x, In x (t_files t) -> In x (t_files t1)) -> shape f t p -> shape f t1 p.
Proof. intros H. destruct p; cbn [shape]; auto. Qed.
Lemma fine_grows c f t t1 p : (forall x, In x (t_dirs t) -> In x (t_dirs t1)) -> fine c f t p -> fine c f t1 p.
Proof. intros H. destruct p; cbn [fine]; intuition. Qed.

Lemma refused_next k j p denied log : refused k ((j, p, denied) :: log) = (refused k log + match p with Make _ _ _ => if denied then if Nat.eqb j k then 1 else 0 else 0 | _ => 0 end)%nat.
Proof. unfold refused. cbn [filter]. destruct p, denied; try (rewrite Nat.add_0_r; reflexivity). destruct (Nat.eqb j k); cbn [length]; lia. Qed.
Lemma runs_right log t ps : runs t0 (start fs) log t ps ->
  between t /\ map fst ps = fs /\ forall k f p, nth_error ps k = Some (f, p) -> shape f t p /\ (could_ask k log -> fine (refused k log) f t p).
Proof.
  induction 1 as [|log t ps k f p denied t1 p1 HRun IH Hk HA].
  - split; [exact start_between|]. split; [unfold start; rewrite map_map; apply map_id|]. intros k f p Hk. apply nth_error_In in Hk. apply in_map_iff in Hk. destruct Hk as (g & E & _). injection E as <- <-. split; [exact I|]. intros _. cbn [fine]. lia.
  - destruct IH as (HB & HM & HI). assert (Hf : In f fs) by (rewrite <- HM; apply (in_map fst ps (f, p)), (nth_error_In _ _ Hk)). destruct (HI k f p Hk) as (HS & HF). destruct (act_right t HB f Hf p HS denied t1 p1 HA) as (B1 & G1 & G2 & S1).
    split; [exact B1|]. split; [rewrite <- HM; eapply set_nth_fst; exact Hk|]. intros j g q Hj. rewrite set_nth_get, Hk in Hj. destruct (Nat.eqb j k) eqn:E.
    + apply Nat.eqb_eq in E. subst j. injection Hj as <- <-. split; [exact S1|]. intros HC. rewrite refused_next, Nat.eqb_refl. assert (C1 : could_ask k log) by (intros i n r x X; apply (HC i n r x); right; exact X).
      refine (act_fine t HB f Hf p HS denied t1 p1 HA _ (HF C1) _). intros -> i n r x ->. apply (HC i n r x). left. reflexivity.
    + destruct (HI j g q Hj) as (S2 & F2). split; [eapply shape_grows; eassumption|]. intros HC. rewrite refused_next. assert (E' : Nat.eqb k j = false) by (rewrite Nat.eqb_sym; exact E). rewrite E'. assert (X : forall b : bool, (match p with Make _ _ _ => if b then 0 else 0 | _ => 0 end = 0)%nat) by (intros b; destruct p, b; reflexivity).
      rewrite X, Nat.add_0_r. eapply fine_grows; [exact G2|]. apply F2. intros i n r x Y. apply (HC i n r x). right. exact Y.
Qed.

(** each step of a worker brings it nearer to its end *)
Definition spare (f : str) (i : nat) : nat := ((4 - i) * (3 * length (dirname f) + 3))%nat.
Lemma spare_next f i : (i < 4)%nat -> spare f i = (spare f (S i) + (3 * length (dirname f) + 3))%nat.
Proof. intros H. unfold spare. replace (4 - i)%nat with (S (4 - S i)) by lia. cbn [Nat.mul]. lia. Qed.
Definition left_to_do (f : str) (p : place) : nat :=
  (match p with
  | Stat i => spare f i + 3 * length (dirname f) + 4
  | Look i name rest => spare f i + 3 * length name + 2 * length rest + 3
  | Make i _ rest => spare f i + 2 * length rest + 3
  | Check i _ rest _ => spare f i + 2 * length rest + 2
  | Write => 1
  | _ => 0
  end)%nat.
Definition attempt (p : place) : Prop := match p with Stat i | Look i _ _ | Make i _ _ | Check i _ _ _ => (i <= 4)%nat | _ => True end.
Lemma nearer f t p denied t1 p1 : In f fs -> shape f t p -> attempt p -> act denied f t p = Some (t1, p1) -> attempt p1 /\ (left_to_do f p1 < left_to_do f p)%nat.
Proof.
  intros Hf HS Ha HA. assert (Ret : forall i rest, (i <= 4)%nat -> attempt (returned i rest) /\ (left_to_do f (returned i rest) < spare f i + 2 * length rest + 2)%nat).
  { intros i [|n r] Hi; cbn [returned attempt left_to_do length]; split; try exact I; try exact Hi; lia. }
  destruct p as [i|i name rest|i name rest|i name rest x| | |x]; cbn [act shape attempt left_to_do] in *.
  - destruct denied; [injection HA as <- <-; cbn [attempt left_to_do length]; lia|]. destruct (is_dir (dirname f) t); [injection HA as <- <-; cbn [attempt left_to_do]; lia|]. destruct (is_there (dirname f) t); injection HA as <- <-; cbn [attempt left_to_do length]; lia.
  - pose proof (linked_inside f name rest HS) as Hi. pose proof (inside_proper _ _ (f_proper f Hf) Hi) as Hp. assert (1 <= length name)%nat by (destruct Hp as (Hp & _); destruct name; [contradiction|cbn [length]; lia]).
    destruct (dirname name) as [|y l] eqn:E; [injection HA as <- <-; cbn [attempt left_to_do]; lia|]. assert (length (y :: l) < length name)%nat by (rewrite <- E; apply inside_length, inside_dirname; [exact Hp|rewrite E; discriminate]).
    destruct (negb denied && is_there (y :: l) t); injection HA as <- <-; cbn [attempt left_to_do]; [lia|]. change (length (name :: rest)) with (S (length rest)). lia.
  - destruct denied; [injection HA as <- <-; cbn [attempt left_to_do]; lia|]. destruct (mkdir name t) as [x|t2]; injection HA as <- <-; [cbn [attempt left_to_do]; lia|]. destruct (Ret i rest Ha). split; [assumption|lia].
  - destruct (negb denied && is_dir name t); injection HA as <- <-; [exact (Ret i rest Ha)|]. assert (R : attempt (if Nat.eqb i 4 then Failed EACCES else Stat (S i)) /\ (left_to_do f (if Nat.eqb i 4 then Failed EACCES else Stat (S i)) < spare f i + 2 * length rest + 2)%nat).
    { destruct (Nat.eqb i 4) eqn:Ei; [cbn [attempt left_to_do]; split; [exact I|lia]|]. apply Nat.eqb_neq in Ei. cbn [attempt left_to_do]. split; [lia|]. rewrite (spare_next f i) by lia. lia. }
    destruct rest as [|n r]; cbn [raised]; [destruct x; try exact R; cbn [attempt left_to_do length]; split; try exact I; lia|]. destruct x; try exact R; cbn [attempt left_to_do length]; split; try exact I; try exact Ha; lia.
  - destruct (is_dir f t); [injection HA as <- <-; cbn [attempt left_to_do]; split; [exact I|lia]|]. destruct (is_dir (dirname f) t); injection HA as <- <-; cbn [attempt left_to_do]; split; try exact I; lia.
  - discriminate HA.
  - discriminate HA.
Qed.
Definition total (ps : list (str * place)) : nat := list_sum (map (fun x => left_to_do (fst x) (snd x)) ps).
Lemma total_set f p p1 : forall ps k, nth_error ps k = Some (f, p) -> (left_to_do f p1 < left_to_do f p)%nat -> (total (set_nth k (f, p1) ps) < total ps)%nat.
Proof.
  unfold total. induction ps as [|y ps IH]; intros [|k] Hk Hl; try discriminate; cbn [nth_error set_nth map] in *; unfold list_sum in *; cbn [fold_right].
  - injection Hk as ->. cbn [fst snd]. lia.
  - specialize (IH k Hk Hl). lia.
Qed.
Lemma runs_total log t ps : runs t0 (start fs) log t ps -> (length log + total ps <= total (start fs))%nat /\ forall k f p, nth_error ps k = Some (f, p) -> attempt p.
Proof.
  induction 1 as [|log t ps k f p denied t1 p1 HRun IH Hk HA].
  - split; [cbn [length]; lia|]. intros k f p Hk. apply nth_error_In in Hk. apply in_map_iff in Hk. destruct Hk as (g & E & _). injection E as <- <-. cbn [attempt]. lia.
  - destruct IH as (IH & IA). destruct (runs_right log t ps HRun) as (_ & HM & HI). assert (Hf : In f fs) by (rewrite <- HM; apply (in_map fst ps (f, p)), (nth_error_In _ _ Hk)). destruct (nearer f t p denied t1 p1 Hf (proj1 (HI k f p Hk)) (IA k f p Hk) HA) as (A & B).
    split; [pose proof (total_set f p p1 ps k Hk B); cbn [length]; lia|]. intros j g q Hj. rewrite set_nth_get, Hk in Hj. destruct (Nat.eqb j k); [injection Hj as <- <-; exact A|exact (IA j g q Hj)].
Qed.
Lemma total_start : (forall f, In f fs -> length (dirname f) <= length f)%nat -> (total (start fs) <= list_sum (map (fun f => 15 * length f + 16) fs))%nat.
Proof.
  clear HR. unfold total, start. rewrite map_map. induction fs as [|f l IH]; intros H; [apply Nat.le_refl|]. cbn [map]. unfold list_sum in *. cbn [fold_right]. specialize (IH (fun x Hx => H x (or_intror Hx))). pose proof (H f (or_introl eq_refl)) as X. assert (Y : (left_to_do f (Stat 0) <= 15 * length f + 16)%nat) by (unfold left_to_do, spare; cbn [Nat.sub]; lia). apply Nat.add_le_mono; [exact Y|exact IH].
Qed.
End Workers.

(** a file where a folder belongs stays there *)
Lemma act_blocked d denied f t p t1 p1 : act denied f t p = Some (t1, p1) -> In d (t_files t) -> ~ In d (t_dirs t) -> (In d (t_files t1) /\ ~ In d (t_dirs t1)) /\ (dirname f = d -> p1 <> Done).
Proof.
  intros HA H1 H2. assert (R : forall i rest, returned i rest <> Done) by (intros i [|? ?]; discriminate). assert (R' : forall i rest x, raised i rest x <> Done) by (intros i [|? ?] []; cbn [raised]; try destruct (Nat.eqb i 4); discriminate).
  destruct p as [i|i name rest|i name rest|i name rest x| | |x]; cbn [act] in HA.
  - destruct denied; [injection HA as <- <-; split; [auto|discriminate]|]. destruct (is_dir (dirname f) t); [injection HA as <- <-; split; [auto|discriminate]|]. destruct (is_there (dirname f) t); injection HA as <- <-; (split; [auto|discriminate]).
  - destruct (dirname name) as [|y l]; [injection HA as <- <-; split; [auto|discriminate]|]. destruct (negb denied && is_there (y :: l) t); injection HA as <- <-; (split; [auto|discriminate]).
  - destruct denied; [injection HA as <- <-; split; [auto|discriminate]|]. destruct (mkdir name t) as [x|t2] eqn:E; injection HA as <- <-; [split; [auto|discriminate]|]. split; [|intros _; apply R]. unfold mkdir in E. destruct name as [|y l]; [discriminate E|]. destruct (is_there (y :: l) t) eqn:X; [discriminate E|]. destruct (str_eqb (dirname (y :: l)) [] || is_dir (dirname (y :: l)) t); [|destruct (is_there (dirname (y :: l)) t); discriminate E]. injection E as <-. cbn [t_files t_dirs In].
    split; [exact H1|]. intros [Y|Y]; [|contradiction]. unfold is_there in X. apply orb_false_iff in X. rewrite Y in X. apply mem_In in H1. destruct X; congruence.
  - destruct (negb denied && is_dir name t); injection HA as <- <-; (split; [auto|intros _; auto]).
  - destruct (is_dir f t); [injection HA as <- <-; split; [auto|discriminate]|]. destruct (is_dir (dirname f) t) eqn:E; injection HA as <- <-; [|split; [auto|discriminate]]. cbn [t_files t_dirs]. split; [split; [|exact H2]; destruct (mem f (t_files t)); [exact H1|right; exact H1]|]. intros X. exfalso. apply H2. rewrite <- X. apply mem_In, E.
  - discriminate HA.
  - discriminate HA.
Qed.
Lemma runs_blocked d t0 fs log t ps : runs t0 (start fs) log t ps -> In d (t_files t0) -> ~ In d (t_dirs t0) -> (In d (t_files t) /\ ~ In d (t_dirs t)) /\ forall k f p, nth_error ps k = Some (f, p) -> dirname f = d -> p <> Done.
Proof.
  intros H H1 H2. induction H as [|log t ps k f p denied t1 p1 HRun IH Hk HA].
  - split; [auto|]. intros k f p Hk _ ->. apply nth_error_In in Hk. apply in_map_iff in Hk. destruct Hk as (g & E & _). discriminate E.
  - destruct IH as ((A & B) & C). destruct (act_blocked d denied f t p t1 p1 HA A B) as (D & E). split; [exact D|]. intros j g q Hj Hg. rewrite set_nth_get, Hk in Hj. destruct (Nat.eqb j k); [injection Hj as <- <-; exact (E Hg)|exact (C j g q Hj Hg)].
Qed.

(** no two outputs of a site get in each other's way *)
Lemma inside_hash x y : inside x (y ++ lit ".hash") -> inside x y.
Proof.
  intros (r & E). apply app_eq_app in E. destruct E as (l & [(A & B)|(A & B)]).
  - destruct l as [|z l]; [exfalso; cbn in B; discriminate B|]. injection B as Ez B. subst z. exists l. exact A.
  - exfalso. assert (X : In 47%N (lit ".hash")) by (rewrite B; apply in_or_app; right; left; reflexivity). vm_compute in X. intuition discriminate.
Qed.
Lemma inside_www a b : inside (lit "out/www/" ++ a) (lit "out/www/" ++ b) -> inside a b.
Proof. intros (r & E). exists r. rewrite <- app_assoc in E. apply app_inv_head in E. exact E. Qed.
Lemma outputs_apart qs o1 o2 : no_clash qs -> In o1 (flat_map outputs_of qs) -> In o2 (flat_map outputs_of qs) -> ~ inside o1 o2.
Proof.
  intros H H1 H2 X. apply in_flat_map in H1, H2. destruct H1 as (a & Ha & H1). destruct H2 as (b & Hb & H2). destruct (H a b Ha Hb) as (_ & N1 & N2).
  assert (Y : inside o1 (lit "out/www/" ++ b)) by (destruct H2 as [<-|[<-|[]]]; [exact X|]; rewrite app_assoc in X; apply inside_hash, X). destruct H1 as [<-|[<-|[]]]; apply inside_www in Y; contradiction.
Qed.
Lemma around_www x q : inside x (lit "out/www/" ++ q) -> x = lit "out" \/ x = lit "out/www" \/ exists r, x = lit "out/www/" ++ r.
Proof.
  intros (r & E). apply app_eq_app in E. destruct E as (l & [(A & B)|(A & B)]); [|right; right; eauto]. apply (f_equal (fun z => firstn (length x) z)) in A as A'. rewrite firstn_app, Nat.sub_diag, firstn_O, app_nil_r, firstn_all in A'.
  assert (L : (length x <= 8)%nat) by (apply (f_equal (@length N)) in A; rewrite app_length in A; change (length (lit "out/www/")) with 8%nat in A; lia). assert (N : length x = 8%nat \/ nth_error (lit "out/www/") (length x) = Some 47%N).
  { destruct l as [|y l]; [left; rewrite app_nil_r in A; rewrite <- A; reflexivity|]. injection B as Ey B. right. rewrite A, nth_error_app2 by lia. rewrite Nat.sub_diag. cbn [nth_error]. congruence. }
  destruct (length x) as [|[|[|[|[|[|[|[|[|n]]]]]]]]]; try lia; destruct N as [N|N]; try discriminate N; cbn [firstn] in A'; [left|right; left|right; right]; try (rewrite <- A'; reflexivity). exists []. rewrite <- A'. reflexivity.
Qed.
Lemma proper_more a b : proper a -> proper b -> proper (a ++ 47%N :: b).
Proof.
  intros (A1 & A2) (B1 & B2). split; [destruct a; discriminate|]. intros x r E. apply app_eq_app in E. destruct E as (l & [(E1 & E2)|(E1 & E2)]).
  - destruct l as [|z l].
    + rewrite app_nil_r in E1. subst x. injection E2 as <-. split; [exact A1|]. split; [|exact B1]. destruct (exists_last A1) as (y & z & ->). rewrite last_last. intros ->. destruct (A2 y []) as (_ & _ & X); [reflexivity|]. apply X. reflexivity.
    + injection E2 as <- ->. destruct (A2 x l E1) as (X & Y & Z). split; [exact X|]. split; [exact Y|]. destruct l; [contradiction|discriminate].
  - subst x. destruct l as [|z l].
    + injection E2 as <-. rewrite app_nil_r. split; [exact A1|]. split; [|exact B1]. destruct (exists_last A1) as (y & z & ->). rewrite last_last. intros ->. destruct (A2 y []) as (_ & _ & X); [reflexivity|]. apply X. reflexivity.
    + injection E2 as <- E2. destruct (B2 l r E2) as (X & Y & Z). split; [destruct a; discriminate|]. split; [|exact Z]. destruct (exists_last X) as (y & z & ->). rewrite last_last in Y. replace (a ++ 47%N :: y ++ [z]) with ((a ++ 47%N :: y) ++ [z]) by (rewrite <- app_assoc; reflexivity). rewrite last_last. exact Y.
Qed.
Lemma proper_hash q : proper q -> proper (q ++ lit ".hash").
Proof.
  intros (A & B). split; [destruct q; discriminate|]. intros x r E. destruct (inside_hash x q) as (l & ->); [exists r; exact E|]. destruct (B x l eq_refl) as (X & Y & Z). split; [exact X|]. split; [exact Y|]. intros ->. rewrite <- app_assoc in E. apply app_inv_head in E. destruct l; discriminate E.
Qed.
Lemma proper_www q : proper q -> proper (lit "out/www/" ++ q).
Proof.
  intros H. assert (O : forall a, a <> [] -> ~ In 47%N a -> proper a) by (intros a Ha Hn; split; [exact Ha|]; intros x r ->; exfalso; apply Hn, in_or_app; right; left; reflexivity).
  change (lit "out/www/" ++ q) with (lit "out" ++ 47%N :: (lit "www" ++ 47%N :: q)). apply proper_more; [|apply proper_more; [|exact H]]; (apply O; [discriminate|]; vm_compute; intuition discriminate).
Qed.
Lemma site_room qs t : no_clash qs -> built_from qs t -> room t (flat_map outputs_of qs).
Proof.
  intros HN (HS & HD & HX) f Hf. pose proof Hf as Hf'. apply in_flat_map in Hf'. destruct Hf' as (q & Hq & Ho). assert (W : exists r, f = lit "out/www/" ++ r /\ proper r).
  { destruct (HN q q Hq Hq) as (P & _). destruct Ho as [<-|[<-|[]]]; eexists; (split; [reflexivity|]); [exact P|apply proper_hash, P]. }
  destruct W as (r & Er & Pr). split; [rewrite Er; apply proper_www, Pr|]. split; [rewrite Er; apply in_or_app; left; vm_compute; tauto|]. split.
  - intros X. destruct (HD f X) as (g & Hg & Y); [eauto|]. destruct (HX g Hg) as [Z|(Z & _)]; [exact (outputs_apart qs f g HN Hf Z Y)|]. apply Z. destruct Y as (z & ->). exists (r ++ 47%N :: z). rewrite Er, <- app_assoc. reflexivity.
  - intros x Hx Y. assert (Z : In x (flat_map outputs_of qs) \/ (~ exists r, x = lit "out/www/" ++ r) /\ x <> lit "out" /\ x <> lit "out/www") by (destruct Hx as [Hx|Hx]; [apply HX, Hx|left; exact Hx]).
    destruct Z as [Z|(Z1 & Z2 & Z3)]; [exact (outputs_apart qs x f HN Z Hf Y)|]. rewrite Er in Y. destruct (around_www x r Y) as [W|[W|W]]; contradiction.
Qed.
(** nothing is both a file and a folder *)
Lemma runs_apart t0 fs log t ps : runs t0 (start fs) log t ps -> (forall x, In x (t_files t0) -> ~ In x (t_dirs t0)) ->
  (forall x, In x (t_files t) -> ~ In x (t_dirs t)) /\ forall k f, nth_error ps k = Some (f, Done) -> In f (t_files t) /\ In (dirname f) (t_dirs t).
Proof.
  intros H H0. induction H as [|log t ps k f p denied t1 p1 HRun IH Hk HA].
  - split; [exact H0|]. intros k f Hk. apply nth_error_In in Hk. apply in_map_iff in Hk. destruct Hk as (g & E & _). discriminate E.
  - destruct IH as (A & B). assert (X : (forall x, In x (t_files t) -> In x (t_files t1)) /\ (forall x, In x (t_dirs t) -> In x (t_dirs t1)) /\ (forall x, In x (t_files t1) -> ~ In x (t_dirs t1)) /\ (p1 = Done -> In f (t_files t1) /\ In (dirname f) (t_dirs t1))).
    { assert (Same : t1 = t -> p1 <> Done -> (forall x, In x (t_files t) -> In x (t_files t1)) /\ (forall x, In x (t_dirs t) -> In x (t_dirs t1)) /\ (forall x, In x (t_files t1) -> ~ In x (t_dirs t1)) /\ (p1 = Done -> In f (t_files t1) /\ In (dirname f) (t_dirs t1))) by (intros -> N; repeat split; auto; contradiction).
      assert (R : forall i rest, returned i rest <> Done) by (intros i [|? ?]; discriminate). assert (R' : forall i rest x, raised i rest x <> Done) by (intros i [|? ?] []; cbn [raised]; try destruct (Nat.eqb i 4); discriminate).
      clear Hk HRun. destruct p as [i|i name rest|i name rest|i name rest x| | |x]; cbn [act] in HA; try discriminate HA.
      - destruct denied; [injection HA as <- <-; apply Same; [reflexivity|discriminate]|]. destruct (is_dir (dirname f) t); [injection HA as <- <-; apply Same; [reflexivity|discriminate]|]. destruct (is_there (dirname f) t); injection HA as <- <-; (apply Same; [reflexivity|discriminate]).
      - destruct (dirname name) as [|y l]; [injection HA as <- <-; apply Same; [reflexivity|discriminate]|]. destruct (negb denied && is_there (y :: l) t); injection HA as <- <-; (apply Same; [reflexivity|discriminate]).
      - destruct denied; [injection HA as <- <-; apply Same; [reflexivity|discriminate]|]. destruct (mkdir name t) as [x|t2] eqn:E; injection HA as <- <-; [apply Same; [reflexivity|discriminate]|]. unfold mkdir in E. destruct name as [|y l]; [discriminate E|]. destruct (is_there (y :: l) t) eqn:X; [discriminate E|]. destruct (str_eqb (dirname (y :: l)) [] || is_dir (dirname (y :: l)) t); [|destruct (is_there (dirname (y :: l)) t); discriminate E]. injection E as <-. cbn [t_files t_dirs].
        unfold is_there in X. apply orb_false_iff in X. destruct X as (_ & X). split; [auto|]. split; [intros x Hx; right; exact Hx|]. split; [|intros Y; exfalso; exact (R _ _ Y)]. intros x Hx [Y|Y]; [rewrite Y in X; apply mem_In in Hx; congruence|exact (A x Hx Y)].
      - destruct (negb denied && is_dir name t); injection HA as <- <-; (apply Same; [reflexivity|auto]).
      - destruct (is_dir f t) eqn:Ef; [injection HA as <- <-; apply Same; [reflexivity|discriminate]|]. destruct (is_dir (dirname f) t) eqn:E; injection HA as <- <-; [|apply Same; [reflexivity|discriminate]]. cbn [t_files t_dirs].
        assert (X : forall x, In x (if mem f (t_files t) then t_files t else f :: t_files t) <-> x = f \/ In x (t_files t)) by (intros x; destruct (mem f (t_files t)) eqn:M; [apply mem_In in M; intuition congruence|cbn [In]; intuition congruence]).
        split; [intros x Hx; apply X; auto|]. split; [auto|]. split; [|intros _; split; [apply X; auto|apply mem_In, E]]. intros x Hx Y. apply X in Hx. destruct Hx as [->|Hx]; [apply mem_In in Y; unfold is_dir in Ef; congruence|exact (A x Hx Y)]. }
    destruct X as (G1 & G2 & D & E). split; [exact D|]. intros j g Hj. rewrite set_nth_get, Hk in Hj. destruct (Nat.eqb j k); [injection Hj as <- Hp; exact (E Hp)|]. destruct (B j g Hj). auto.
Qed.
