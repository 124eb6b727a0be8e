(** The folders after a rebuild. *)
From Verif Require Import Base Graph PyStr PyPath PyNorm PyNormProofs PathSpec JsManip JsPathProofs ImgCommand ImgSource Prune PruneSpec.
From Coq Require Import String ZArith NArith Bool List Lia Sorting.Sorted Wf_nat.
Import ListNotations.
Open Scope list_scope.

(** * Paths *)
Lemma last_slash (x : str) : ~ In 47%N x \/ exists a n, x = a ++ 47%N :: n /\ ~ In 47%N n.
Proof.
  induction x as [|c x IH]; [left; intros []|]. destruct IH as [IH|(a & n & -> & Hn)]; [|right; exists (c :: a), n; auto].
  destruct (N.eq_dec c 47) as [->|Hc]; [right; exists [], x; auto|left; intros [X|X]; [congruence|contradiction]].
Qed.
Lemma dirname_flat x : ~ In 47%N x -> dirname x = [].
Proof. intros H. unfold dirname. rewrite cut_last_none by exact H. reflexivity. Qed.
Lemma inside_length d x : inside d x -> (length d < length x)%nat.
Proof. intros (r & ->). rewrite app_length. cbn [length]. lia. Qed.
Lemma inside_trans a b x : inside a b -> inside b x -> inside a x.
Proof. intros (r & ->) (q & ->). exists (r ++ 47%N :: q). rewrite <- app_assoc. reflexivity. Qed.
Lemma inside_proper d x : proper x -> inside d x -> proper d.
Proof.
  intros (_ & H) (r & E). destruct (H d r E) as (A & B & _). split; [exact A|]. intros a q ->. destruct (H a (q ++ 47%N :: r)) as (A1 & A2 & _); [rewrite E, <- app_assoc; reflexivity|]. split; [exact A1|]. split; [exact A2|].
  intros ->. apply B. rewrite last_last. reflexivity.
Qed.
Lemma inside_up x : proper x -> forall d, inside d x <-> dirname x <> [] /\ (d = dirname x \/ inside d (dirname x)).
Proof.
  intros Hp d. destruct (last_slash x) as [Hx|(a & n & E & Hn)].
  - rewrite (dirname_flat x Hx). split; [intros (r & ->); exfalso; apply Hx, in_or_app; right; left; reflexivity|tauto].
  - pose proof (proj2 Hp _ _ E) as (A & B & _). subst x. rewrite dirname_one by assumption. split.
    + intros (r & Er). split; [exact A|]. destruct (app_eq_app _ _ _ _ Er) as (l & [(E1 & E2)|(E1 & E2)]).
      * destruct l as [|y l]; [left; rewrite app_nil_r in E1; auto|]. injection E2 as Ey E2. subst y. right. exists l. exact E1.
      * destruct l as [|y l]; [left; rewrite app_nil_r in E1; auto|]. injection E2 as Ey E2. subst y. exfalso. apply Hn. rewrite E2. apply in_or_app. right. left. reflexivity.
    + intros (_ & [->|(r & ->)]); [exists n; reflexivity|]. exists (r ++ 47%N :: n). rewrite <- app_assoc. reflexivity.
Qed.
Lemma inside_dirname x : proper x -> dirname x <> [] -> inside (dirname x) x.
Proof. intros Hp Hd. apply inside_up; auto. Qed.
Lemma up_some k folder : folder <> [] -> folders_up (S k) folder = match folders_up k (dirname folder) with None => None | Some l => Some (folder :: l) end.
Proof. destruct folder; [contradiction|reflexivity]. Qed.
Lemma up_right : forall fuel folder, folder = [] \/ proper folder -> (length folder < fuel)%nat -> exists l, folders_up fuel folder = Some l /\ forall d, In d l <-> folder <> [] /\ (d = folder \/ inside d folder).
Proof.
  induction fuel as [|k IH]; intros folder Hf Hl; [lia|]. destruct Hf as [->|Hf]; [exists []; split; [reflexivity|]; intros d; cbn [In]; tauto|].
  pose proof (proj1 Hf) as Hne. rewrite (up_some k folder Hne). destruct (list_eq_dec N.eq_dec (dirname folder) []) as [E|E].
  - destruct (IH (dirname folder)) as (l & -> & Hi); [left; exact E|rewrite E; destruct folder; [contradiction|cbn in *; lia]|]. exists (folder :: l). split; [reflexivity|]. intros d. cbn [In]. rewrite Hi, (inside_up folder Hf d). intuition congruence.
  - pose proof (inside_dirname _ Hf E) as Hin. pose proof (inside_length _ _ Hin). destruct (IH (dirname folder)) as (l & -> & Hi); [right; apply (inside_proper _ _ Hf Hin)|lia|]. exists (folder :: l). split; [reflexivity|]. intros d. cbn [In]. rewrite Hi, (inside_up folder Hf d). intuition congruence.
Qed.
Lemma up_file f : proper f -> exists l, folders_up (S (length f)) (dirname f) = Some l /\ forall d, In d l <-> inside d f.
Proof.
  intros Hf. destruct (up_right (S (length f)) (dirname f)) as (l & E & Hi).
  - destruct (list_eq_dec N.eq_dec (dirname f) []) as [E|E]; [auto|right; apply (inside_proper _ _ Hf), inside_dirname; assumption].
  - destruct (list_eq_dec N.eq_dec (dirname f) []) as [E|E]; [rewrite E; cbn; lia|]. pose proof (inside_length _ _ (inside_dirname _ Hf E)). lia.
  - exists l. split; [exact E|]. intros d. rewrite Hi, (inside_up f Hf d). reflexivity.
Qed.
Lemma possibly_right l : (forall f, In f l -> proper f) -> exists cand, possibly_empty l = Some cand /\ forall d, In d cand <-> exists f, In f l /\ inside d f.
Proof.
  induction l as [|f l IH]; intros H; [exists []; split; [reflexivity|]; intros d; split; [intros []|intros (f & [] & _)]|].
  destruct IH as (b & Eb & Hb); [intros x Hx; apply H; right; exact Hx|]. destruct (up_file f (H f (or_introl eq_refl))) as (a & Ea & Ha). exists (a ++ b). cbn [possibly_empty]. rewrite Ea, Eb. split; [reflexivity|]. intros d. rewrite in_app_iff, Ha, Hb. split.
  - intros [X|(x & X & Y)]; [exists f; cbn; auto|exists x; cbn; auto].
  - intros (x & [<-|X] & Y); [auto|right; exists x; auto].
Qed.
(** * Files that are removed and written *)
Lemma filter_not_In (l m : list str) x : In x (filter (fun f => negb (mem f l)) m) <-> In x m /\ ~ In x l.
Proof. rewrite filter_In. destruct (mem x l) eqn:E; cbn [negb]; [apply mem_In in E|assert (~ In x l) by (intros X; apply mem_In in X; congruence)]; intuition congruence. Qed.
Lemma unlinked_sound l t : sound t -> sound (unlinked l t).
Proof. intros H x Hx. apply H. destruct Hx as [Hx|Hx]; [left|right; exact Hx]. cbn [unlinked t_files] in Hx. apply filter_not_In in Hx. tauto. Qed.
Lemma write_right f t : proper f -> sound t -> exists t1, write_file f t = Some t1 /\ sound t1 /\ (forall x, In x (t_files t1) <-> In x (t_files t) \/ x = f) /\ forall d, In d (t_dirs t1) <-> In d (t_dirs t) \/ inside d f.
Proof.
  intros Hf Ht. destruct (up_file f Hf) as (l & El & Hl). unfold write_file. rewrite El. eexists. split; [reflexivity|].
  assert (Hfiles : forall x, In x (if mem f (t_files t) then t_files t else f :: t_files t) <-> In x (t_files t) \/ x = f).
  { intros x. destruct (mem f (t_files t)) eqn:E; [apply mem_In in E; split; [auto|intros [X| ->]; assumption]|cbn [In]; intuition congruence]. }
  assert (Hdirs : forall d, In d (filter (fun d => negb (mem d (t_dirs t))) l ++ t_dirs t) <-> In d (t_dirs t) \/ inside d f).
  { intros d. rewrite in_app_iff, filter_not_In, Hl. destruct (in_dec (list_eq_dec N.eq_dec) d (t_dirs t)); tauto. }
  split; [|split; [exact Hfiles|exact Hdirs]]. intros x Hx. cbn [t_files t_dirs] in Hx. rewrite Hfiles, Hdirs in Hx. assert (X : (In x (t_files t) \/ In x (t_dirs t)) \/ x = f \/ inside x f) by tauto. destruct X as [X|X].
  - destruct (Ht x X) as (A & B). split; [exact A|]. intros d Hd. apply Hdirs. left. apply B, Hd.
  - split; [destruct X as [->|X]; [exact Hf|exact (inside_proper _ _ Hf X)]|]. intros d Hd. apply Hdirs. right. destruct X as [->|X]; [exact Hd|exact (inside_trans _ _ _ Hd X)].
Qed.
Lemma writes_right l : forall t, (forall f, In f l -> proper f) -> sound t -> exists t1, write_files l t = Some t1 /\ sound t1 /\ (forall x, In x (t_files t1) <-> In x (t_files t) \/ In x l) /\ forall d, In d (t_dirs t1) <-> In d (t_dirs t) \/ exists w, In w l /\ inside d w.
Proof.
  induction l as [|f l IH]; intros t Hl Ht; [exists t; split; [reflexivity|]; split; [exact Ht|]; split; [intros x; cbn [In]; tauto|]; intros d; split; [auto|intros [X|(w & [] & _)]; exact X]|].
  destruct (write_right f t (Hl f (or_introl eq_refl)) Ht) as (t1 & E & S & F & D). destruct (IH t1) as (t2 & E2 & S2 & F2 & D2); [intros x Hx; apply Hl; right; exact Hx|exact S|]. exists t2. cbn [write_files]. rewrite E. split; [exact E2|]. split; [exact S2|]. split.
  - intros x. rewrite F2, F. cbn [In]. intuition congruence.
  - intros d. rewrite D2, D. split.
    + intros [[X|X]|(w & X & Y)]; [auto|right; exists f; cbn; auto|right; exists w; cbn; auto].
    + intros [X|(w & [<-|X] & Y)]; [auto|auto|right; exists w; auto].
Qed.
(** * The removal of folders *)
Lemma child t : sound t -> forall x, In x (t_files t) \/ In x (t_dirs t) -> forall d, inside d x -> exists y, (In y (t_files t) \/ In y (t_dirs t)) /\ (y = x \/ In y (t_dirs t)) /\ dirname y = d /\ inside d y.
Proof.
  intros Ht x. induction x as [x IH] using (induction_ltof1 _ (@length N)); unfold ltof in IH. intros Hx d Hd. destruct (Ht x Hx) as (Hp & Hi). pose proof Hd as Hd'. apply (inside_up x Hp) in Hd'. destruct Hd' as (Hne & [E|E]).
  - exists x. split; [exact Hx|]. split; [auto|]. auto.
  - pose proof (inside_dirname _ Hp Hne) as Hin. destruct (IH (dirname x) (inside_length _ _ Hin) (or_intror (Hi _ Hin)) d E) as (y & A & B & C & D). exists y. split; [exact A|]. split; [right|auto]. destruct B as [->|B]; [apply Hi; exact Hin|exact B].
Qed.
Lemma contents_right t d : sound t -> d <> [] -> has_contents d t = true <-> exists x, (In x (t_files t) \/ In x (t_dirs t)) /\ inside d x.
Proof.
  intros Ht Hd. unfold has_contents. rewrite existsb_exists. split.
  - intros (x & Hx & E). apply in_app_iff in Hx. apply str_eqb_eq in E. exists x. split; [exact Hx|]. subst d. apply inside_dirname; [apply (Ht x Hx)|exact Hd].
  - intros (x & Hx & Hi). destruct (child t Ht x Hx d Hi) as (y & A & _ & C & _). exists y. split; [apply in_app_iff; exact A|apply str_eqb_eq; exact C].
Qed.
Lemma prune_right : forall order t, sound t -> NoDup order -> StronglySorted (fun a b => (length b <= length a)%nat) order -> (forall d, In d order -> In d (t_dirs t)) ->
  exists t', prune order t = Ret t' /\ t_files t' = t_files t /\ sound t' /\
    forall d, In d (t_dirs t') <-> In d (t_dirs t) /\ (~ In d order \/ exists x, (In x (t_files t) \/ In x (t_dirs t) /\ ~ In x order) /\ inside d x).
Proof.
  induction order as [|d r IH]; intros t Ht Hn Hs Hd; [exists t; split; [reflexivity|]; split; [reflexivity|]; split; [exact Ht|]; intros d; cbn [In]; tauto|].
  inversion Hn as [|? ? Hnd Hnr]; subst. inversion Hs as [|? ? Hsr Hsd]; subst. rewrite Forall_forall in Hsd. pose proof (Hd d (or_introl eq_refl)) as Hdd. pose proof (proj1 (Ht d (or_intror Hdd))) as Hpd.
  assert (Hlong : forall x, inside d x -> ~ In x (d :: r)). { intros x Hx Hi. apply inside_length in Hx. destruct Hi as [<-|Hi]; [lia|]. specialize (Hsd x Hi). lia. }
  cbn [prune]. unfold prune_one. rewrite (proj2 (mem_In _ _) Hdd). destruct (has_contents d t) eqn:Ec.
  - apply (contents_right t d Ht (proj1 Hpd)) in Ec. destruct Ec as (x & Hx & Hi). destruct (IH t Ht Hnr Hsr) as (t' & E & F & S & D); [intros y Hy; apply Hd; right; exact Hy|]. exists t'. split; [exact E|]. split; [exact F|]. split; [exact S|].
    assert (Hw : In x (t_files t) \/ In x (t_dirs t) /\ ~ In x (d :: r)) by (destruct Hx as [Hx|Hx]; [auto|right; split; [exact Hx|apply Hlong, Hi]]).
    intros d'. rewrite D. split; intros (A & B); (split; [exact A|]); destruct B as [B|(y & B & C)].
    + destruct (list_eq_dec N.eq_dec d' d) as [->|Hne]; [right; exists x; auto|left; intros [X|X]; [congruence|contradiction]].
    + right. destruct (list_eq_dec N.eq_dec y d) as [->|Hne]; [exists x; split; [exact Hw|exact (inside_trans _ _ _ C Hi)]|]. exists y. split; [|exact C]. destruct B as [B|(B1 & B2)]; [auto|right; split; [exact B1|intros [X|X]; [congruence|contradiction]]].
    + left. intros X. apply B. right. exact X.
    + right. exists y. split; [|exact C]. destruct B as [B|(B1 & B2)]; [auto|right; split; [exact B1|intros X; apply B2; right; exact X]].
  - assert (Hno : forall x, In x (t_files t) \/ In x (t_dirs t) -> ~ inside d x) by (intros x Hx Hi; assert (X : has_contents d t = true) by (apply (contents_right t d Ht (proj1 Hpd)); eauto); congruence).
    set (t1 := mkTree (t_files t) (filter (fun x => negb (str_eqb x d)) (t_dirs t))).
    assert (H1 : forall x, In x (t_dirs t1) <-> In x (t_dirs t) /\ x <> d). { intros x. cbn [t1 t_dirs]. rewrite filter_In. destruct (str_eqb x d) eqn:E; cbn [negb]; [apply str_eqb_eq in E|assert (x <> d) by (intros X; apply str_eqb_eq in X; congruence)]; intuition congruence. }
    assert (S1 : sound t1). { intros x Hx. assert (Hx' : In x (t_files t) \/ In x (t_dirs t)) by (rewrite H1 in Hx; cbn [t1 t_files] in Hx; tauto). destruct (Ht x Hx') as (A & B). split; [exact A|]. intros d' Hd'. apply H1. split; [apply B, Hd'|]. intros ->. exact (Hno x Hx' Hd'). }
    destruct (IH t1 S1 Hnr Hsr) as (t' & E & F & S & D); [intros y Hy; apply H1; split; [apply Hd; right; exact Hy|intros ->; contradiction]|]. exists t'. split; [exact E|]. split; [exact F|]. split; [exact S|].
    intros d'. rewrite D, H1. cbn [t1 t_files]. split.
    + intros ((A & Ne) & B). split; [exact A|]. destruct B as [B|(y & B & C)]; [left; intros [X|X]; [congruence|contradiction]|]. right. exists y. split; [|exact C]. destruct B as [B|(B1 & B2)]; [auto|]. apply H1 in B1. right. split; [tauto|]. intros [X|X]; [destruct B1; congruence|contradiction].
    + intros (A & B). assert (Ne : d' <> d). { intros ->. destruct B as [B|(y & B & C)]; [apply B; left; reflexivity|]. apply (Hno y); [tauto|exact C]. }
      split; [auto|]. destruct B as [B|(y & B & C)]; [left; intros X; apply B; right; exact X|]. right. exists y. split; [|exact C]. destruct B as [B|(B1 & B2)]; [auto|right]. split; [apply H1; split; [exact B1|intros ->; apply B2; left; reflexivity]|intros X; apply B2; right; exact X].
Qed.
Lemma prune_missing : forall order t d, In d order -> ~ In d (t_dirs t) -> prune order t = Raise FileNotFoundError.
Proof.
  induction order as [|x r IH]; intros t d Hd Hn; [destruct Hd|]. cbn [prune]. unfold prune_one. destruct (mem x (t_dirs t)) eqn:M; [|reflexivity]. destruct Hd as [->|Hd]; [apply mem_In in M; contradiction|].
  apply (IH _ d Hd). destruct (has_contents x t); [exact Hn|]. cbn [t_dirs]. rewrite filter_In. tauto.
Qed.
(** * Rebuilds *)
Section Rebuild.
Context (outs arts written still : list str) (t : tree) (r : res tree).
Context (Ht : sound t) (Ho : forall f, In f outs \/ In f arts -> proper f) (Hw : forall f, In f written -> proper f) (HR : rebuild_tree outs arts written still t r).
Definition candidate (d : str) : Prop := exists f, (In f outs \/ In f arts) /\ inside d f.
Definition made (d : str) : Prop := In d (t_dirs t) \/ exists w, In w written /\ inside d w.
Lemma rebuild_parts : exists order t1, r = prune order t1 /\ NoDup order /\ StronglySorted (fun a b => (length b <= length a)%nat) order /\ (forall d, In d order <-> candidate d) /\ sound t1 /\
  (forall f, In f (t_files t1) <-> files_after outs written still t f) /\ forall d, In d (t_dirs t1) <-> made d.
Proof.
  destruct HR as [cand order t1 Hc Hwr Hn Hi Hs]. destruct (possibly_right (outs ++ arts)) as (cand' & Ec & Hcand); [intros f Hf; apply Ho, in_app_iff, Hf|]. rewrite Hc in Ec. injection Ec as <-.
  destruct (writes_right written (unlinked outs t) Hw (unlinked_sound outs t Ht)) as (t1' & E & S & F & D). rewrite Hwr in E. injection E as <-.
  exists order, (unlinked still t1). split; [reflexivity|]. split; [exact Hn|]. split; [exact Hs|]. split; [|split; [apply unlinked_sound; exact S|split]].
  - intros d. rewrite Hi, Hcand. split; intros (f & A & B); exists f; (split; [apply in_app_iff, A|exact B]).
  - intros f. cbn [unlinked t_files]. rewrite filter_not_In, F. cbn [unlinked t_files]. rewrite filter_not_In. reflexivity.
  - intros d. cbn [unlinked t_dirs]. rewrite D. reflexivity.
Qed.
Theorem rebuild_exact : (forall d, candidate d -> made d) -> exists t', r = Ret t' /\ sound t' /\ (forall f, In f (t_files t') <-> files_after outs written still t f) /\
  forall d, In d (t_dirs t') <-> made d /\ (~ candidate d \/ exists x, (In x (t_files t') \/ made x /\ ~ candidate x) /\ inside d x).
Proof.
  intros Hc. destruct rebuild_parts as (order & t1 & -> & Hn & Hs & Hi & S & F & D). destruct (prune_right order t1 S Hn Hs) as (t' & E & F' & S' & D'); [intros d Hd; apply D, Hc, Hi, Hd|]. exists t'. split; [exact E|]. split; [exact S'|]. split; [intros f; rewrite F'; apply F|].
  intros d. rewrite D', D, Hi, F'. split; intros (A & B); (split; [exact A|]); (destruct B as [B|(x & B & C)]; [auto|right; exists x; split; [|exact C]; rewrite ?D, ?Hi in *; exact B]).
Qed.
Theorem rebuild_fails d : candidate d -> ~ made d -> r = Raise FileNotFoundError.
Proof. intros Hc Hm. destruct rebuild_parts as (order & t1 & -> & _ & _ & Hi & _ & _ & D). apply (prune_missing order t1 d); [apply Hi, Hc|rewrite D; exact Hm]. Qed.
Theorem rebuild_tidy t' : r = Ret t' -> tidy t -> (forall f, In f still -> In f arts) -> forall d, In d (t_dirs t') <-> occupied t' d.
Proof.
  intros E Hti Hst. destruct (rebuild_parts) as (order & t1 & E1 & Hn & Hs & Hi & S & F & D).
  assert (Hc : forall d, candidate d -> made d). { intros d Hd. destruct (in_dec (list_eq_dec N.eq_dec) d (t_dirs t1)) as [X|X]; [apply D, X|]. exfalso. rewrite (prune_missing order t1 d) in E1; [congruence|apply Hi, Hd|exact X]. }
  destruct (rebuild_exact Hc) as (t2 & E2 & S2 & F2 & D2). rewrite E in E2. injection E2 as <-.
  assert (Hocc : forall d, made d -> ~ candidate d -> occupied t' d).
  { intros d Hm Hnc. destruct Hm as [Hm|(w & A & B)].
    - destruct (Hti d Hm) as (f & A & B). exists f. split; [|exact B]. apply F2. split; [left; split; [exact A|]|]; intros X; apply Hnc; exists f; split; auto.
    - exists w. split; [|exact B]. apply F2. split; [auto|]. intros X. apply Hnc. exists w. split; auto. }
  intros d. split.
  - intros Hd. apply D2 in Hd. destruct Hd as (A & [B|(x & [B|(B1 & B2)] & C)]); [apply Hocc; assumption|exists x; auto|]. destruct (Hocc x B1 B2) as (f & F1 & F3). exists f. split; [exact F1|exact (inside_trans _ _ _ C F3)].
  - intros (f & A & B). apply (S2 f (or_introl A)), B.
Qed.
End Rebuild.
