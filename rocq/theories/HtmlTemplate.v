(** Templates are calls. *)
From Verif Require Import Base Graph Json JsonProofs JsonLoadProofs PyPath PyNorm Handlers Html HtmlSpec HtmlProofs HtmlRun HtmlMain.
From Coq Require Import String ZArith NArith Bool List Lia ZifyN ZifyBool ZifyNat.
Import ListNotations.
Open Scope list_scope.
Open Scope N_scope.

(** * JSON values as Python sees them *)
Definition pair_ok (kv : str * json) : Prop := json_safe (fst kv) /\ json_ok (snd kv).
Lemma ok_list l : json_ok (JList l) <-> Forall json_ok l.
Proof. induction l as [|x l IH]; [split; [constructor|exact (fun _ => I)]|]. split; [intros [A B]; constructor; [exact A|apply IH, B]|intros H; inversion H; subst; split; [assumption|apply IH; assumption]]. Qed.
Lemma ok_obj l : json_ok (JObj l) <-> Forall pair_ok l.
Proof. induction l as [|[k x] l IH]; [split; [constructor|exact (fun _ => I)]|]. split; [intros (A & B & C); constructor; [exact (conj A B)|apply IH, C]|intros H; inversion H as [|? ? [A B] C]; subst; split; [exact A|split; [exact B|apply IH; exact C]]]. Qed.
Lemma dset_all (P : str * json -> Prop) k v d : (P (k, v)) -> Forall P d -> Forall P (dset k v d).
Proof.
  intros Pk. induction 1 as [|[k' v'] d Pd Fd IH]; cbn [dset]; [constructor; [exact Pk|constructor]|]. destruct (str_eqb k k') eqn:E; [apply str_eqb_eq in E; subst k'; constructor; assumption|constructor; assumption].
Qed.
Lemma size_list n l : (json_size (JList l) <= S n)%nat -> forall x, In x l -> (json_size x <= n)%nat.
Proof. intros H. simpl in H. apply le_S_n in H. revert H. induction l as [|y l IH]; intros H x X; [destruct X|]. destruct X as [-> |X]; [lia|apply IH; [lia|exact X]]. Qed.
Lemma size_obj n l : (json_size (JObj l) <= S n)%nat -> forall k x, In (k, x) l -> (json_size x <= n)%nat.
Proof. intros H. simpl in H. apply le_S_n in H. revert H. induction l as [|[k0 y] l IH]; intros H k x X; [destruct X|]. destruct X as [E|X]; [injection E as -> ->; lia|apply (IH ltac:(lia) k); exact X]. Qed.
Definition norm_obj (l : list (str * json)) : list (str * json) := fold_left (fun d kv => dset (fst kv) (jnorm (snd kv)) d) l [].
Lemma norm_all (P : str * json -> Prop) l : Forall (fun kv => P (fst kv, jnorm (snd kv))) l -> Forall P (norm_obj l).
Proof. unfold norm_obj. assert (G : forall d, Forall P d -> Forall (fun kv => P (fst kv, jnorm (snd kv))) l -> Forall P (fold_left (fun d kv => dset (fst kv) (jnorm (snd kv)) d) l d)). { induction l as [|[k v] l IH]; intros d D F; [exact D|]. inversion F; subst. cbn [fold_left]. apply IH; [apply dset_all; assumption|assumption]. } intros H. apply G; [constructor|exact H]. Qed.
Lemma norm_wf l : dict_wf (norm_obj l).
Proof. unfold norm_obj. assert (G : forall d, dict_wf d -> dict_wf (fold_left (fun d kv => dset (fst kv) (jnorm (snd kv)) d) l d)) by (induction l as [|kv l IH]; intros d D; [exact D|]; cbn [fold_left]; apply IH, dict_wf_dset, D). apply G. constructor. Qed.
Lemma jnorm_ok n : forall v, (json_size v <= n)%nat -> json_ok v -> json_ok (jnorm v).
Proof.
  induction n as [|n IH]; intros v Hn Ok; [pose proof (json_size_pos v); lia|]. destruct v as [|b|raw|s|l|l]; try exact Ok.
  - pose proof (size_list _ _ Hn) as Sz. cbn [jnorm]. apply ok_list in Ok. apply ok_list. rewrite Forall_forall in *. intros y Hy. apply in_map_iff in Hy. destruct Hy as (x & <- & Hx). apply IH; auto.
  - pose proof (size_obj _ _ Hn) as Sz. apply ok_obj in Ok. change (jnorm (JObj l)) with (JObj (norm_obj l)). apply ok_obj. apply norm_all. rewrite Forall_forall in *. intros [k v] Hx. destruct (Ok _ Hx) as [A B]. split; [exact A|]. apply IH; [exact (Sz _ _ Hx)|exact B].
Qed.
Lemma dset_fresh k (v : json) d : ~ In k (dkeys d) -> dset k v d = d ++ [(k, v)].
Proof. induction d as [|[k' v'] d IH]; intros X; [reflexivity|]. cbn [dset app]. destruct (str_eqb k k') eqn:E; [apply str_eqb_eq in E; subst k'; destruct X; left; reflexivity|]. rewrite IH; [reflexivity|]. intros Y. apply X. right. exact Y. Qed.
Lemma fold_dset (l : list (str * json)) : forall d, NoDup (dkeys (d ++ l)) -> fold_left (fun d kv => dset (fst kv) (snd kv) d) l d = d ++ l.
Proof.
  induction l as [|[k v] l IH]; intros d N; [rewrite app_nil_r; reflexivity|]. cbn [fold_left fst snd].
  assert (E : dset k v d = d ++ [(k, v)]).
  { assert (X : ~ In k (dkeys d)) by (unfold dkeys in *; rewrite map_app in N; apply NoDup_remove_2 in N; intros X; apply N, in_app_iff; auto). clear N IH. induction d as [|[k' v'] d IH]; [reflexivity|]. cbn [dset app]. destruct (str_eqb k k') eqn:E; [apply str_eqb_eq in E; subst k'; destruct X; left; reflexivity|]. rewrite IH; [reflexivity|]. intros Y. apply X. right. exact Y. }
  rewrite E, IH; rewrite <- app_assoc; [reflexivity|exact N].
Qed.
Lemma jnorm_twice n : forall v, (json_size v <= n)%nat -> jnorm (jnorm v) = jnorm v.
Proof.
  induction n as [|n IH]; intros v Hn; [pose proof (json_size_pos v); lia|]. destruct v as [|b|raw|s|l|l]; try reflexivity.
  - pose proof (size_list _ _ Hn) as Sz. cbn [jnorm]. rewrite map_map. f_equal. apply map_ext_in. intros x Hx. apply IH, Sz, Hx.
  - pose proof (size_obj _ _ Hn) as Sz. change (jnorm (JObj l)) with (JObj (norm_obj l)). change (jnorm (JObj (norm_obj l))) with (JObj (norm_obj (norm_obj l))). f_equal.
    pose proof (norm_wf l) as W. assert (F : Forall (fun kv => jnorm (snd kv) = snd kv) (norm_obj l)) by (apply norm_all; rewrite Forall_forall; intros [k v] Hx; apply IH; exact (Sz _ _ Hx)).
    transitivity (fold_left (fun d kv => dset (fst kv) (snd kv) d) (norm_obj l) []); [|exact (fold_dset _ [] W)]. 
    assert (G : forall (r : list (str * json)) d, Forall (fun kv => jnorm (snd kv) = snd kv) r -> fold_left (fun d kv => dset (fst kv) (jnorm (snd kv)) d) r d = fold_left (fun d kv => dset (fst kv) (snd kv) d) r d).
    { induction r as [|[k v] r IHr]; intros d F0; [reflexivity|]. inversion F0 as [|? ? E F']; subst. cbn [fst snd] in E. cbn [fold_left fst snd]. rewrite E. apply IHr, F'. }
    exact (G (norm_obj l) [] F).
Qed.
(** a value that json.dumps and json.loads keep *)
Definition kept (v : json) : Prop := json_ok v /\ jnorm v = v.
Lemma kept_list l : kept (JList l) <-> Forall kept l.
Proof.
  unfold kept. rewrite ok_list. cbn [jnorm]. split.
  - intros [A B]. injection B as B. induction l as [|x l IH]; [constructor|]. inversion A; subst. injection B as B1 B2. constructor; auto.
  - intros H. split; [eapply Forall_impl; [|exact H]; intros x X; apply X|]. f_equal. rewrite <- (map_id l) at 2. apply map_ext_in. intros x Hx. rewrite Forall_forall in H. apply H, Hx.
Qed.
Lemma kept_obj l : kept (JObj l) -> dict_wf l /\ Forall (fun kv => json_safe (fst kv) /\ kept (snd kv)) l.
Proof.
  intros [A B]. apply ok_obj in A. change (jnorm (JObj l)) with (JObj (norm_obj l)) in B. injection B as B. assert (W : dict_wf l) by (rewrite <- B; apply norm_wf). split; [exact W|]. 
  assert (F : Forall (fun kv => jnorm (snd kv) = snd kv) l) by (rewrite <- B; apply norm_all; rewrite Forall_forall; intros [k v] _; apply (jnorm_twice (json_size v)); apply le_n).
  rewrite Forall_forall in *. intros [k v] Hx. destruct (A _ Hx) as [A1 A2]. split; [exact A1|]. split; [exact A2|]. apply (F _ Hx).
Qed.
Lemma load_kept s v : Forall scalar s -> json_load s = Some v -> kept (jnorm v).
Proof. intros S L. apply (json_load_ok _ _ S) in L. split; [apply (jnorm_ok (json_size v)); [apply le_n|exact L]|apply (jnorm_twice (json_size v)), le_n]. Qed.
Lemma rule_scalar name text args : rule name text args -> written text -> Forall scalar args.
Proof. intros (_ & a & b & c & d & e & _ & _ & _ & _ & _ & _ & ->) W. unfold written in W. rewrite !Forall_app in W. apply W. Qed.
Lemma stack_kept t c l : (forall text, t = HComment text -> written text) -> stack_cmd t c l -> kept (JList (JStr c :: l)).
Proof. intros W H. inversion H as [text args v c0 l0 R _ L N]; subst. rewrite <- N. exact (load_kept _ _ (rule_scalar _ _ _ R (W _ eq_refl)) L). Qed.
Lemma template_kept t c l : (forall text, t = HComment text -> written text) -> template_cmd t c l -> kept (JList (JStr c :: l)).
Proof. intros W H. inversion H as [text args v c0 l0 R L N]; subst. rewrite <- N. exact (load_kept _ _ (rule_scalar _ _ _ R (W _ eq_refl)) L). Qed.
Lemma comment_stack c l : kept (JList (JStr c :: l)) -> stack_cmd (HComment (lit "[STACK: " ++ dump (JList (JStr c :: l)) ++ lit "]")) c l.
Proof.
  intros K. apply (StackCmd _ (dump (JList (JStr c :: l))) (JList (JStr c :: l))).
  - split; [intros x r H; injection H as <- _; reflexivity|]. exists [], [], [], [32], []. repeat split; try constructor; [reflexivity|constructor|discriminate].
  - apply (dump_no_newline _ _ (le_n _)). apply K.
  - rewrite <- (app_nil_r (dump _)). apply json_load_Prints; [apply dump_Prints; apply K|constructor].
  - apply K.
Qed.
(** * Paths *)
Lemma safe_app a b : json_safe a -> json_safe b -> (forall c r, b = c :: r -> is_low c = false) -> json_safe (a ++ b).
Proof.
  intros A B L. induction a as [|x a IH]; [exact B|]. cbn [app]. cbn [json_safe] in A. destruct A as (A1 & A2 & A3). apply safe_cons; [exact A1| |exact (IH A3)]. intros d t' E Hi. destruct a as [|y a]; [cbn [app] in E; exact (L _ _ E)|]. injection E as -> _. exact (A2 Hi).
Qed.
Lemma last_not_slash_safe a : json_safe a -> last a 0 = 47 -> a <> [] -> exists q, a = q ++ [47] /\ json_safe q.
Proof.
  intros S L N. destruct (exists_last N) as (q & x & ->). rewrite last_last in L. subst x. exists q. split; [reflexivity|]. clear N. induction q as [|y q IH]; [exact I|]. cbn [app json_safe] in S. destruct S as (S1 & S2 & S3). apply safe_cons; [exact S1| |exact (IH S3)]. intros d t' -> . exact S2.
Qed.
Lemma safe_slash a b : json_safe a -> json_safe b -> json_safe (a ++ 47 :: b).
Proof. intros A B. apply safe_app; [exact A| |intros c r [= <- _]; reflexivity]. apply safe_cons; [lia|intros d t' _ X; discriminate X|exact B]. Qed.
Lemma safe_join a b : json_safe a -> json_safe b -> json_safe (join2 a b).
Proof.
  intros A B. unfold join2. destruct b as [|c r].
  - destruct a as [|x a]; [exact I|]. destruct (last (x :: a) 0 =? 47); [exact A|]. exact (safe_slash (x :: a) [] A I).
  - destruct (c =? 47); [exact B|]. destruct a as [|x a]; [exact B|]. destruct (last (x :: a) 0 =? 47) eqn:E.
    + apply N.eqb_eq in E. destruct (last_not_slash_safe _ A E) as (q & -> & Q); [discriminate|]. rewrite <- app_assoc. exact (safe_slash q (c :: r) Q B).
    + exact (safe_slash (x :: a) (c :: r) A B).
Qed.
Lemma safe_path from c path : json_safe from -> json_safe c -> template_path from c path -> json_safe path.
Proof.
  intros F C H. destruct H as [c0|c0 X]; [|exact (safe_join _ _ F C)]. destruct C as (_ & _ & C). unfold join_path. cbn [fold_left]. apply safe_join; [|exact C]. vm_compute. repeat (split; [reflexivity|split; [discriminate|]]). split; [reflexivity|split; exact I].
Qed.

(** * Frames *)
Definition var_ok (kv : str * json) : Prop := json_safe (fst kv) /\ kept (snd kv).
Definition frame_ok (fr : frame) : Prop := json_safe (fr_path fr) /\ Forall var_ok (fr_vars fr).
Lemma stack_fun t c l c' l' : stack_cmd t c l -> stack_cmd t c' l' -> c = c' /\ l = l'.
Proof. intros A B. apply stack_some in A, B. rewrite A in B. injection B as -> ->. auto. Qed.
Lemma stack_comment_tok t c l : stack_cmd t c l -> exists text, t = HComment text.
Proof. intros []. eauto. Qed.
Lemma passed_kept fr args vars : frame_ok fr -> Forall var_ok args -> passed_all (fr_vars fr) args vars -> Forall var_ok vars.
Proof.
  intros [_ F] A H. unfold passed_all in H. induction H as [|[k v] [k' x] args vars [E P] H IH]; [constructor|]. inversion A as [|? ? [A1 A2] A']; subst. cbn [fst snd] in *. subst k'. constructor; [|exact (IH A')]. split; [exact A1|]. cbn [snd]. destruct P as [v n x _ G|v _]; [|exact A2].
  apply dget_In in G. rewrite Forall_forall in F. exact (proj2 (F _ G)).
Qed.
Lemma passed_keys fr args vars : passed_all (fr_vars fr) args vars -> map fst vars = map fst args.
Proof. unfold passed_all. induction 1 as [|a r args vars [E _] H IH]; [reflexivity|]. cbn [map]. rewrite IH, E. reflexivity. Qed.
Lemma args_kept l args c : kept (JList (JStr c :: l)) -> template_args l args -> dict_wf args /\ Forall var_ok args.
Proof. intros K A. apply kept_list in K. inversion K as [|? ? _ K']; subst. destruct A as [|l0 r]; [split; constructor|]. inversion K' as [|? ? K0 _]; subst. exact (kept_obj _ K0). Qed.
Lemma define_kept fr k v t : frame_ok fr -> (forall text, t = HComment text -> written text) -> stack_cmd t (lit "define") [JStr k; v] -> frame_ok {| fr_path := fr_path fr; fr_vars := dset k v (fr_vars fr) |}.
Proof.
  intros [A B] W K. apply (stack_kept _ _ _ W) in K. apply kept_list in K. inversion K as [|? ? _ K1]; subst. inversion K1 as [|? ? K2 K3]; subst. inversion K3; subst. split; [exact A|]. cbn [fr_vars]. apply dset_all; [split; [apply K2|assumption]|exact B].
Qed.
Lemma safe_lit c : forallb (fun x => x <? 55296) c = true -> json_safe c.
Proof. induction c as [|x c IH]; intros H; [exact I|]. cbn [forallb] in H. apply andb_true_iff in H. destruct H as [H1 H2]. apply safe_cons; [lia| |exact (IH H2)]. intros d t' _ X. unfold is_high in X. lia. Qed.
Lemma kept_str s : json_safe s -> kept (JStr s).
Proof. intros H. split; [exact H|reflexivity]. Qed.
Lemma push_is path : json_safe path -> stack_cmd (push_cmd path) (lit "push") [JStr path].
Proof. intros S. apply comment_stack. apply kept_list. repeat constructor. exact S. Qed.
Lemma define_is k v : var_ok (k, v) -> stack_cmd (define_cmd k v) (lit "define") [JStr k; v].
Proof. intros [A B]. apply comment_stack. apply kept_list. repeat constructor; [exact A|apply B|apply B]. Qed.
Lemma pop_is : stack_cmd pop_cmd (lit "pop") [].
Proof. apply comment_stack. apply kept_list. repeat constructor. Qed.

Section Expand.
Context (fragment : str -> list htoken) (show : str -> str).
Notation page := (page fragment show).
Notation expand := (expand fragment show).
(** [page], with the number of steps *)
Inductive page_n : nat -> frame -> list frame -> list htoken -> list event -> frame -> list frame -> Prop :=
| PnEnd n0 fr st : page_n (S n0) fr st [] [] fr st
| PnSame n0 fr st t ts evs fr' st' : ordinary t -> page_n n0 fr st ts evs fr' st' -> page_n (S n0) fr st (t :: ts) (Same t :: evs) fr' st'
| PnHint n0 fr st t name attrs n ts evs fr' st' : hint t name attrs n -> local_hint attrs n -> page_n n0 fr st ts evs fr' st' -> page_n (S n0) fr st (t :: ts) (Hint name attrs n :: evs) fr' st'
| PnRef n0 fr st t attrs n path ts evs fr' st' : reference t attrs n -> site_path attrs n path -> page_n n0 fr st ts evs fr' st' -> page_n (S n0) fr st (t :: ts) (Ref t attrs n path :: evs) fr' st'
| PnScript n0 fr st attrs inner texts name ts evs fr' st' : dget (lit "src") attrs = None -> Forall2 is_text inner texts -> page_n n0 fr st ts evs fr' st' ->
    page_n (S n0) fr st (HStart (lit "script") attrs :: inner ++ HEnd name :: ts) (Script attrs (concat texts) :: evs) fr' st'
| PnStyle n0 fr st inner texts name ts evs fr' st' : Forall2 is_text inner texts -> page_n n0 fr st ts evs fr' st' ->
    page_n (S n0) fr st (HStart (lit "style") [] :: inner ++ HEnd name :: ts) (Style (concat texts) :: evs) fr' st'
| PnPush n0 fr st t p l ts evs fr' st' : stack_cmd t (lit "push") (JStr p :: l) -> page_n n0 {| fr_path := p; fr_vars := [] |} (fr :: st) ts evs fr' st' -> page_n (S n0) fr st (t :: ts) evs fr' st'
| PnPop n0 fr fr1 st t l ts evs fr' st' : stack_cmd t (lit "pop") l -> page_n n0 fr1 st ts evs fr' st' -> page_n (S n0) fr (fr1 :: st) (t :: ts) evs fr' st'
| PnDefine n0 fr st t k v ts evs fr' st' : stack_cmd t (lit "define") [JStr k; v] -> page_n n0 {| fr_path := fr_path fr; fr_vars := dset k v (fr_vars fr) |} st ts evs fr' st' -> page_n (S n0) fr st (t :: ts) evs fr' st'
| PnRetrieve n0 fr st t k v x ts evs fr' st' : k <> [] -> stack_cmd t (lit "retrieve") [JStr k] -> dget k (fr_vars fr) = Some v -> shown show v x -> page_n n0 fr st ts evs fr' st' -> page_n (S n0) fr st (t :: ts) (Said x :: evs) fr' st'
| PnIgnored n0 fr st t c l ts evs fr' st' : stack_cmd t c l ->
    (c = lit "push" -> forall p r, l <> JStr p :: r) -> c <> lit "pop" -> (c = lit "define" -> forall k v, l <> [JStr k; v]) -> (c = lit "retrieve" -> forall k, k <> [] -> l <> [JStr k]) ->
    page_n n0 fr st ts evs fr' st' -> page_n (S n0) fr st (t :: ts) evs fr' st'
| PnTemplate n0 fr st t c l args vars path text ts evs fr' st' : template_cmd t c l -> template_args l args -> passed_all (fr_vars fr) args vars -> template_path (fr_path fr) c path ->
    page_n n0 fr st (push_cmd path :: map (fun kv => define_cmd (fst kv) (snd kv)) vars ++ fragment text ++ pop_cmd :: ts) evs fr' st' ->
    page_n (S n0) fr st (t :: ts) (Template path text :: evs) fr' st'
| PnNoTemplate n0 fr st t c l ts evs fr' st' : template_cmd t c l -> (forall args, ~ template_args l args) -> page_n n0 fr st ts evs fr' st' -> page_n (S n0) fr st (t :: ts) evs fr' st'.
Lemma page_steps fr st ts evs fr' st' : page fr st ts evs fr' st' -> exists n, page_n n fr st ts evs fr' st'.
Proof. induction 1; try (destruct IHpage as [n0 IH]; exists (S n0)); [exists 1%nat; constructor|..]; econstructor; eassumption. Qed.
Ltac comment_cases K := exfalso; match goal with
  | O : ordinary _ |- _ => destruct O as (_ & _ & _ & _ & O & _); exact (O _ _ K)
  | O : hint _ _ _ _ |- _ => destruct O; inversion K
  | O : reference _ _ _ |- _ => destruct O; inversion K
  | O : template_cmd _ _ _ |- _ => exact (stack_not_template _ _ _ _ _ K O)
  | O : stack_cmd _ _ _ |- _ => destruct (stack_fun _ _ _ _ _ K O) as [E1 E2]; discriminate
  | _ => solve [inversion K]
  end.
Lemma pn_push n fr st t p l ts evs fr' st' : stack_cmd t (lit "push") (JStr p :: l) -> page_n n fr st (t :: ts) evs fr' st' -> exists m, n = S m /\ page_n m {| fr_path := p; fr_vars := [] |} (fr :: st) ts evs fr' st'.
Proof.
  intros K H. inversion H; subst; try (comment_cases K).
  - match goal with O : stack_cmd _ _ _ |- _ => destruct (stack_fun _ _ _ _ _ K O) as [_ E2] end. injection E2 as <- <-. eauto.
  - match goal with O : stack_cmd _ _ _ |- _ => destruct (stack_fun _ _ _ _ _ K O) as [<- <-] end. match goal with O : lit "push" = lit "push" -> _ |- _ => destruct (O eq_refl p l eq_refl) end.
Qed.
Lemma pn_define n fr st t k v ts evs fr' st' : stack_cmd t (lit "define") [JStr k; v] -> page_n n fr st (t :: ts) evs fr' st' -> exists m, n = S m /\ page_n m {| fr_path := fr_path fr; fr_vars := dset k v (fr_vars fr) |} st ts evs fr' st'.
Proof.
  intros K H. inversion H; subst; try (comment_cases K).
  - match goal with O : stack_cmd _ _ _ |- _ => destruct (stack_fun _ _ _ _ _ K O) as [_ E2] end. injection E2 as <- <-. eauto.
  - match goal with O : stack_cmd _ _ _ |- _ => destruct (stack_fun _ _ _ _ _ K O) as [<- <-] end. match goal with O : lit "define" = lit "define" -> _ |- _ => destruct (O eq_refl k v eq_refl) end.
Qed.
Lemma pn_pop n fr st t l ts evs fr' st' : stack_cmd t (lit "pop") l -> page_n n fr st (t :: ts) evs fr' st' -> exists m fr1 st1, n = S m /\ st = fr1 :: st1 /\ page_n m fr1 st1 ts evs fr' st'.
Proof.
  intros K H. inversion H; subst; try (comment_cases K).
  - eauto 7.
  - match goal with O : stack_cmd _ _ _ |- _ => destruct (stack_fun _ _ _ _ _ K O) as [<- <-] end. contradiction.
Qed.
Lemma pn_defines vars : forall n p d st ts evs fr' st', Forall var_ok vars -> NoDup (dkeys (d ++ vars)) -> page_n n {| fr_path := p; fr_vars := d |} st (map (fun kv => define_cmd (fst kv) (snd kv)) vars ++ ts) evs fr' st' ->
  exists m, (m <= n)%nat /\ page_n m {| fr_path := p; fr_vars := d ++ vars |} st ts evs fr' st'.
Proof.
  induction vars as [|[k v] vars IH]; intros n p d st ts evs fr' st' V N H; [exists n; rewrite app_nil_r; split; [lia|exact H]|].
  inversion V as [|? ? V1 V2]; subst. cbn [map app fst snd] in H. apply (pn_define _ _ _ _ k v) in H; [|apply define_is; exact V1]. destruct H as (m & -> & H). cbn [fr_path fr_vars] in H.
  assert (E : dset k v d = d ++ [(k, v)]) by (apply dset_fresh; unfold dkeys in *; rewrite map_app in N; apply NoDup_remove_2 in N; intros X; apply N, in_app_iff; auto).
  rewrite E in H. change (d ++ (k, v) :: vars) with (d ++ [(k, v)] ++ vars) in *. rewrite app_assoc in *. destruct (IH _ _ _ _ _ _ _ _ V2 N H) as (m' & L & R). exists m'. split; [lia|exact R].
Qed.
Lemma page_defines vars : forall p d st ts evs fr' st', Forall var_ok vars -> NoDup (dkeys (d ++ vars)) -> page {| fr_path := p; fr_vars := d ++ vars |} st ts evs fr' st' -> page {| fr_path := p; fr_vars := d |} st (map (fun kv => define_cmd (fst kv) (snd kv)) vars ++ ts) evs fr' st'.
Proof.
  induction vars as [|[k v] vars IH]; intros p d st ts evs fr' st' V N H; [rewrite app_nil_r in H; exact H|].
  inversion V as [|? ? V1 V2]; subst. cbn [map app fst snd]. apply (PgDefine _ _ _ _ _ k v); [apply define_is; exact V1|]. cbn [fr_path fr_vars].
  assert (E : dset k v d = d ++ [(k, v)]) by (apply dset_fresh; unfold dkeys in *; rewrite map_app in N; apply NoDup_remove_2 in N; intros X; apply N, in_app_iff; auto).
  rewrite E. change (d ++ (k, v) :: vars) with (d ++ [(k, v)] ++ vars) in *. rewrite app_assoc in *. apply IH; assumption.
Qed.
Lemma split_inner inner texts : Forall2 is_text inner texts -> forall a rest name ts, (rest = [] \/ exists x r, rest = HComment x :: r) -> a ++ rest = inner ++ HEnd name :: ts -> exists a', a = inner ++ HEnd name :: a' /\ ts = a' ++ rest.
Proof.
  induction 1 as [|t x inner texts T H IH]; intros a rest name ts R E.
  - destruct a as [|y a]; [cbn [app] in E; destruct R as [-> |(x & r & ->)]; discriminate|]. cbn [app] in E. injection E as -> E. exists a. auto.
  - destruct a as [|y a]; [cbn [app] in E; destruct R as [-> |(z & r & ->)]; [discriminate|injection E as <- _; inversion T]|]. cbn [app] in E. injection E as -> E. destruct (IH _ _ _ _ R E) as (a' & -> & ->). exists a'. auto.
Qed.
Context (Plain : forall text, Forall plain_token (fragment text)).
Lemma plain_tail inner name a' t : Forall plain_token (t :: inner ++ HEnd name :: a') -> Forall plain_token a'.
Proof. intros H. inversion H as [|? ? _ H']; subst. apply Forall_app in H'. destruct H' as [_ H']. inversion H'. assumption. Qed.
Lemma template_vars_ok fr t c l args vars path : frame_ok fr -> plain_token t -> template_cmd t c l -> template_args l args -> passed_all (fr_vars fr) args vars -> template_path (fr_path fr) c path ->
  json_safe path /\ Forall var_ok vars /\ NoDup (dkeys vars).
Proof.
  intros F (W & _) K A P T. pose proof (template_kept _ _ _ W K) as Kp. destruct (args_kept _ _ _ Kp A) as [Wf Av]. split; [|split; [exact (passed_kept _ _ _ F Av P)|unfold dkeys; rewrite (passed_keys _ _ _ P); exact Wf]].
  apply (safe_path (fr_path fr) c path (proj1 F)); [|exact T]. apply kept_list in Kp. inversion Kp as [|? ? K0 _]; subst. apply K0.
Qed.
Lemma split_page n : forall fr st a rest evs fr' st', page_n n fr st (a ++ rest) evs fr' st' -> (rest = [] \/ exists x r, rest = HComment x :: r) -> frame_ok fr -> Forall plain_token a ->
  exists m evs1 evs2 fr1, (m <= n)%nat /\ expand fr a evs1 fr1 /\ page_n m fr1 st rest evs2 fr' st' /\ evs = evs1 ++ evs2.
Proof.
  induction n as [n IH] using lt_wf_ind. intros fr st a rest evs fr' st' H R F Pl. destruct a as [|t a]; [exists n, [], evs, fr; repeat split; [lia|constructor|exact H]|].
  pose proof (Forall_inv Pl) as Pt. pose proof (Forall_inv_tail Pl) as Pa. cbn [app] in H. 
  assert (Next : forall m fr2 evs0, (m < n)%nat -> page_n m fr2 st (a ++ rest) evs0 fr' st' -> frame_ok fr2 -> exists m2 evs1 evs2 fr1, (m2 <= n)%nat /\ expand fr2 a evs1 fr1 /\ page_n m2 fr1 st rest evs2 fr' st' /\ evs0 = evs1 ++ evs2).
  { intros m fr2 evs0 L H0 F2. destruct (IH m L _ _ _ _ _ _ _ H0 R F2 Pa) as (m2 & e1 & e2 & fr1 & L2 & X). exists m2, e1, e2, fr1. split; [lia|exact X]. }
  inversion H as [|n0 fr0 st0 t0 ts evs0 fr1 st1 O H0|n0 fr0 st0 t0 name attrs k ts evs0 fr1 st1 Hi L H0|n0 fr0 st0 t0 attrs k path ts evs0 fr1 st1 Rf Sp H0|n0 fr0 st0 attrs inner texts name ts evs0 fr1 st1 Sr Tx H0|n0 fr0 st0 inner texts name ts evs0 fr1 st1 Tx H0
    |n0 fr0 st0 t0 q l ts evs0 fr1 st1 K H0|n0 fr0 fr2 st0 t0 l ts evs0 fr1 st1 K H0|n0 fr0 st0 t0 k v ts evs0 fr1 st1 K H0|n0 fr0 st0 t0 k v x ts evs0 fr1 st1 N K G Sh H0|n0 fr0 st0 t0 c l ts evs0 fr1 st1 K C1 C2 C3 C4 H0
    |n0 fr0 st0 t0 c l args vars path text ts evs0 fr1 st1 K A Pa0 Tp H0|n0 fr0 st0 t0 c l ts evs0 fr1 st1 K A H0]; subst.
  - destruct (Next n0 fr evs0 ltac:(lia) H0 F) as (m & e1 & e2 & fr1 & L2 & E & P & ->). exists m, (Same t :: e1), e2, fr1. repeat split; [exact L2|constructor; assumption|exact P].
  - destruct (Next n0 fr evs0 ltac:(lia) H0 F) as (m & e1 & e2 & fr1 & L2 & E & P & ->). exists m, (Hint name attrs k :: e1), e2, fr1. repeat split; [exact L2|econstructor; eassumption|exact P].
  - destruct (Next n0 fr evs0 ltac:(lia) H0 F) as (m & e1 & e2 & fr1 & L2 & E & P & ->). exists m, (Ref t attrs k path :: e1), e2, fr1. repeat split; [exact L2|econstructor; eassumption|exact P].
  - destruct (split_inner _ _ Tx a rest name ts R) as (a' & -> & ->); [congruence|]. pose proof (plain_tail _ _ _ _ Pl) as Pa'. destruct (IH n0 ltac:(lia) _ _ _ _ _ _ _ H0 R F Pa') as (m & e1 & e2 & fr1 & L2 & E & P & ->).
    exists m, (Script attrs (concat texts) :: e1), e2, fr1. repeat split; [lia|apply ExScript; assumption|exact P].
  - destruct (split_inner _ _ Tx a rest name ts R) as (a' & -> & ->); [congruence|]. pose proof (plain_tail _ _ _ _ Pl) as Pa'. destruct (IH n0 ltac:(lia) _ _ _ _ _ _ _ H0 R F Pa') as (m & e1 & e2 & fr1 & L2 & E & P & ->).
    exists m, (Style (concat texts) :: e1), e2, fr1. repeat split; [lia|apply ExStyle; assumption|exact P].
  - exfalso. destruct Pt as (_ & _ & X). exact (X _ _ K).
  - exfalso. destruct Pt as (_ & X & _). exact (X _ K).
  - destruct (Next n0 _ evs ltac:(lia) H0 (define_kept _ _ _ _ F (proj1 Pt) K)) as (m & e1 & e2 & fr1 & L2 & E & P & ->). exists m, e1, e2, fr1. repeat split; [exact L2|econstructor; eassumption|exact P].
  - destruct (Next n0 fr evs0 ltac:(lia) H0 F) as (m & e1 & e2 & fr1 & L2 & E & P & ->). exists m, (Said x :: e1), e2, fr1. repeat split; [exact L2|econstructor; eassumption|exact P].
  - destruct (Next n0 fr evs ltac:(lia) H0 F) as (m & e1 & e2 & fr1 & L2 & E & P & ->). exists m, e1, e2, fr1. repeat split; [exact L2|eapply ExIgnored; eassumption|exact P].
  - destruct (template_vars_ok _ _ _ _ _ _ _ F Pt K A Pa0 Tp) as (Sp & Vo & Nd). apply (pn_push _ _ _ _ path []) in H0; [|apply push_is; exact Sp]. destruct H0 as (n1 & -> & H0).
    apply (pn_defines vars) in H0; [|exact Vo|exact Nd]. cbn [app] in H0. destruct H0 as (n2 & L2 & H0).
    destruct (IH n2 ltac:(lia) _ _ _ _ _ _ _ H0 (or_intror (ex_intro _ _ (ex_intro _ _ eq_refl))) (conj Sp Vo) (Plain text)) as (n3 & e1 & e2 & fr1 & L3 & E & P & ->).
    apply (pn_pop _ _ _ _ []) in P; [|exact pop_is]. destruct P as (n4 & fr2 & st2 & -> & Es & P). injection Es as <- <-. destruct (Next n4 fr e2 ltac:(lia) P F) as (m & e3 & e4 & fr3 & L4 & E2 & P2 & ->).
    exists m, (Template path text :: e1 ++ e3), e4, fr3. repeat split; [exact L4|eapply ExTemplate; eassumption|exact P2|]. cbn [app]. rewrite app_assoc. reflexivity.
  - destruct (Next n0 fr evs ltac:(lia) H0 F) as (m & e1 & e2 & fr1 & L2 & E & P & ->). exists m, e1, e2, fr1. repeat split; [exact L2|eapply ExNoTemplate; eassumption|exact P].
Qed.
Lemma expand_page fr a evs fr1 : expand fr a evs fr1 -> frame_ok fr -> Forall plain_token a -> forall st rest evs2 fr' st', page fr1 st rest evs2 fr' st' -> page fr st (a ++ rest) (evs ++ evs2) fr' st'.
Proof.
  induction 1 as [fr|fr t ts evs fr1 O H IH|fr t name attrs n ts evs fr1 Hi L H IH|fr t attrs n path ts evs fr1 Rf Sp H IH|fr attrs inner texts name ts evs fr1 Sr Tx H IH|fr inner texts name ts evs fr1 Tx H IH|fr t k v ts evs fr1 K H IH|fr t k v x ts evs fr1 N K G Sh H IH|fr t c l ts evs fr1 K C1 C2 C3 C4 H IH
    |fr t c l args vars path text ts evs evs' fr2 fr1 K A Pa0 Tp H1 IH1 H IH|fr t c l ts evs fr1 K A H IH]; intros F Pl st rest evs2 fr' st' P; cbn [app].
  - exact P.
  - apply PgSame; [exact O|]. apply IH; [exact F|exact (Forall_inv_tail Pl)|exact P].
  - eapply PgHint; [exact Hi|exact L|]. apply IH; [exact F|exact (Forall_inv_tail Pl)|exact P].
  - eapply PgRef; [exact Rf|exact Sp|]. apply IH; [exact F|exact (Forall_inv_tail Pl)|exact P].
  - rewrite <- app_assoc. cbn [app]. apply PgScript; [exact Sr|exact Tx|]. apply IH; [exact F|exact (plain_tail _ _ _ _ Pl)|exact P].
  - rewrite <- app_assoc. cbn [app]. apply PgStyle; [exact Tx|]. apply IH; [exact F|exact (plain_tail _ _ _ _ Pl)|exact P].
  - eapply PgDefine; [exact K|]. apply IH; [exact (define_kept _ _ _ _ F (proj1 (Forall_inv Pl)) K)|exact (Forall_inv_tail Pl)|exact P].
  - eapply PgRetrieve; [exact N|exact K|exact G|exact Sh|]. apply IH; [exact F|exact (Forall_inv_tail Pl)|exact P].
  - eapply PgIgnored; [exact K|exact C1|exact C2|exact C3|exact C4|]. apply IH; [exact F|exact (Forall_inv_tail Pl)|exact P].
  - destruct (template_vars_ok _ _ _ _ _ _ _ F (Forall_inv Pl) K A Pa0 Tp) as (Sp & Vo & Nd). eapply PgTemplate; [exact K|exact A|exact Pa0|exact Tp|]. apply (PgPush _ _ _ _ _ path []); [apply push_is; exact Sp|].
    apply page_defines; [exact Vo|exact Nd|]. cbn [app]. rewrite <- app_assoc. apply IH1; [exact (conj Sp Vo)|apply Plain|]. apply (PgPop _ _ _ _ _ _ []); [exact pop_is|]. apply IH; [exact F|exact (Forall_inv_tail Pl)|exact P].
  - eapply PgNoTemplate; [exact K|exact A|]. apply IH; [exact F|exact (Forall_inv_tail Pl)|exact P].
Qed.
Theorem page_expand relpath ts evs fr' st' : written relpath -> Forall plain_token ts ->
  (page {| fr_path := relpath; fr_vars := [] |} [] ts evs fr' st' <-> expand {| fr_path := relpath; fr_vars := [] |} ts evs fr' /\ st' = []).
Proof.
  intros W Pl. assert (F : frame_ok {| fr_path := relpath; fr_vars := [] |}).
  { split; [|constructor]. cbn [fr_path]. induction W as [|c r [Hc Hs] W IH]; [exact I|]. apply safe_cons; [exact Hc| |exact IH]. intros d t' _ X. unfold is_high in X. lia. }
  split.
  - intros H. apply page_steps in H. destruct H as (n & H). rewrite <- (app_nil_r ts) in H. destruct (split_page n _ _ _ _ _ _ _ H (or_introl eq_refl) F Pl) as (m & e1 & e2 & fr1 & _ & E & P & ->). inversion P; subst. rewrite app_nil_r. auto.
  - intros [E ->]. rewrite <- (app_nil_r ts), <- (app_nil_r evs). apply (expand_page _ _ _ _ E F Pl). constructor.
Qed.
End Expand.

Theorem template_build : forall h relpath p fragment show js_scan css_scan js_build css_build, page_file relpath p -> (forall text, Forall tag_ok (fragment text)) -> written relpath -> (forall text, Forall plain_token (fragment text)) ->
  forall f ts out s', Forall tag_ok ts -> Forall plain_token ts -> passes (Some h) relpath fragment show js_scan css_scan js_build css_build false f ts out s' ->
  exists evs rs, expand fragment show {| fr_path := relpath; fr_vars := [] |} ts evs (t_frame s') /\ t_stack s' = [] /\ writes h p js_build css_build 0 0 f evs out (files s') rs /\ (forall q, In q (t_seen s') <-> templates evs q).
Proof.
  intros h relpath p fragment show js_scan css_scan js_build css_build P Fr W Pl f ts out s' Ok Pt H. destruct (build_page h relpath p fragment show js_scan css_scan js_build css_build P Fr _ _ _ _ Ok H) as (evs & rs & Pg & Wr & _ & T & _). exists evs, rs.
  apply (page_expand fragment show Pl relpath) in Pg; [|exact W|exact Pt]. destruct Pg as [E S]. exact (conj E (conj S (conj Wr T))).
Qed.
Theorem template_build_succeeds : forall h relpath p fragment show js_scan css_scan js_build css_build, page_file relpath p -> (forall text, Forall tag_ok (fragment text)) -> written relpath -> (forall text, Forall plain_token (fragment text)) ->
  forall f ts evs fr out f' rs, Forall tag_ok ts -> Forall plain_token ts -> expand fragment show {| fr_path := relpath; fr_vars := [] |} ts evs fr -> writes h p js_build css_build 0 0 f evs out f' rs ->
  exists s', passes (Some h) relpath fragment show js_scan css_scan js_build css_build false f ts out s' /\ files s' = f'.
Proof.
  intros h relpath p fragment show js_scan css_scan js_build css_build P Fr W Pl f ts evs fr out f' rs Ok Pt E Wr. apply (build_succeeds h relpath p fragment show js_scan css_scan js_build css_build P Fr f ts evs fr [] out f' rs Ok); [|exact Wr].
  apply (page_expand fragment show Pl relpath); auto.
Qed.
Theorem template_scan : forall h relpath p fragment show js_scan css_scan js_build css_build, page_file relpath p -> (forall text, Forall tag_ok (fragment text)) -> written relpath -> (forall text, Forall plain_token (fragment text)) ->
  forall f ts out s', Forall tag_ok ts -> Forall plain_token ts -> passes (Some h) relpath fragment show js_scan css_scan js_build css_build true f ts out s' ->
  exists evs rs, expand fragment show {| fr_path := relpath; fr_vars := [] |} ts evs (t_frame s') /\ t_stack s' = [] /\ scans p js_scan css_scan 0 0 f evs out (files s') rs /\ (forall q, In q (t_seen s') <-> templates evs q).
Proof.
  intros h relpath p fragment show js_scan css_scan js_build css_build P Fr W Pl f ts out s' Ok Pt H. destruct (scan_page h relpath p fragment show js_scan css_scan js_build css_build P Fr _ _ _ _ Ok H) as (evs & rs & Pg & Wr & _ & T & _). exists evs, rs.
  apply (page_expand fragment show Pl relpath) in Pg; [|exact W|exact Pt]. destruct Pg as [E S]. exact (conj E (conj S (conj Wr T))).
Qed.
