(** Proofs about the html pages. *)
From Verif Require Import Base Graph Json PyPath PyNorm PyNormProofs CssVersion Builder BuilderSpec BuilderProofs Handlers OutlineData OutlineDataSpec OutlineDataProofs JsonProofs Html HtmlSpec.
From Coq Require Import String ZArith NArith Bool List Sorted Lia ZifyN ZifyBool ZifyNat.
Import ListNotations.
Open Scope list_scope.
Open Scope N_scope.

(** * Sorting *)
Lemma leb_before a b : str_leb a b = true <-> a = b \/ before a b.
Proof.
  revert b. induction a as [|x a IH]; intros [|y b]; cbn [str_leb].
  - split; auto.
  - split; [intros _; right; constructor|reflexivity].
  - split; [discriminate|]. intros [X|X]; [discriminate|inversion X].
  - destruct (x <? y) eqn:E1; [split; [intros _; right; apply BeforeHere; lia|reflexivity]|]. destruct (y <? x) eqn:E2.
    + split; [discriminate|]. intros [X|X]; [injection X as -> _; lia|inversion X; subst; lia].
    + assert (x = y) by lia. subst y. rewrite IH. split; [intros [-> |X]; [auto|right; apply BeforeLater; exact X]|]. intros [X|X]; [injection X as ->; auto|inversion X; subst; [lia|auto]].
Qed.
Lemma before_total a b : str_leb a b = false -> before b a.
Proof.
  revert b. induction a as [|x a IH]; intros [|y b]; cbn [str_leb]; [discriminate|discriminate|constructor|]. destruct (x <? y) eqn:E1; [discriminate|]. destruct (y <? x) eqn:E2; [intros _; apply BeforeHere; lia|].
  intros H. assert (x = y) by lia. subst y. apply BeforeLater, IH, H.
Qed.
Lemma before_trans a b c : before a b -> before b c -> before a c.
Proof.
  intros H. revert c. induction H as [y b|x a y b L|x a b H IH]; intros c H'; inversion H'; subst; first [apply BeforeEnd | apply BeforeHere; lia | apply BeforeLater; auto].
Qed.
Lemma before_irrefl a : ~ before a a.
Proof. induction a as [|x a IH]; intros H; inversion H; subst; [lia|auto]. Qed.
Lemma insert_keys k v l q : In q (map fst (insert_attr k v l)) <-> q = k \/ In q (map fst l).
Proof. induction l as [|[k' v'] l IH]; cbn [insert_attr map fst]; [cbn; intuition|]. destruct (str_leb k k'); cbn [map fst In]; [intuition|]. rewrite IH. intuition. Qed.
Lemma insert_sorted k v l : ~ In k (map fst l) -> StronglySorted before (map fst l) -> StronglySorted before (map fst (insert_attr k v l)).
Proof.
  induction l as [|[k' v'] l IH]; intros N S; cbn [insert_attr]; [constructor; constructor|]. cbn [map fst] in N, S. inversion S as [|x y S1 S2]; subst. destruct (str_leb k k') eqn:E.
  - apply leb_before in E. destruct E as [-> |E]; [exfalso; apply N; left; reflexivity|]. cbn [map fst]. constructor; [exact S|]. constructor; [exact E|]. rewrite Forall_forall in *. intros q Q. exact (before_trans _ _ _ E (S2 q Q)).
  - cbn [map fst]. constructor; [apply IH; [intros X; apply N; right; exact X|exact S1]|]. rewrite Forall_forall in *. intros q Q. apply insert_keys in Q. destruct Q as [-> |Q]; [apply before_total; exact E|exact (S2 q Q)].
Qed.
Lemma insert_get k v l m : ~ In k (map fst l) -> dget m (insert_attr k v l) = if str_eqb m k then Some v else dget m l.
Proof.
  induction l as [|[k' v'] l IH]; intros N; cbn [insert_attr dget]; [reflexivity|]. destruct (str_leb k k'); [reflexivity|]. cbn [dget]. cbn [map fst] in N. rewrite IH by (intros X; apply N; right; exact X).
  destruct (str_eqb m k') eqn:E; [|reflexivity]. apply str_eqb_eq in E. subst k'. destruct (str_eqb m k) eqn:E2; [|reflexivity]. apply str_eqb_eq in E2. exfalso. apply N. left. exact E2.
Qed.
Lemma sort_keys d q : In q (map fst (sort_attrs d)) <-> In q (map fst d).
Proof. induction d as [|[k v] d IH]; [reflexivity|]. cbn [sort_attrs fold_right map fst snd]. rewrite insert_keys. fold (sort_attrs d). rewrite IH. cbn. intuition. Qed.
Lemma sort_ok d : dict_wf d -> StronglySorted before (map fst (sort_attrs d)) /\ forall m, dget m (sort_attrs d) = dget m d.
Proof.
  unfold dict_wf, dkeys. induction d as [|[k v] d IH]; intros N; [split; [constructor|reflexivity]|]. cbn [map fst] in N. inversion N as [|x y N1 N2]; subst. destruct (IH N2) as [A B].
  cbn [sort_attrs fold_right fst snd]. fold (sort_attrs d). assert (N' : ~ In k (map fst (sort_attrs d))) by (rewrite sort_keys; exact N1). split; [apply insert_sorted; assumption|]. intros m. rewrite insert_get by exact N'. cbn [dget]. destruct (str_eqb m k); [reflexivity|apply B].
Qed.
Lemma sorted_wf (d : list (str * str)) : StronglySorted before (map fst d) -> dict_wf d.
Proof. unfold dict_wf, dkeys. induction (map fst d) as [|k l IH]; intros S; [constructor|]. inversion S as [|x y S1 S2]; subst. constructor; [|auto]. intros X. rewrite Forall_forall in S2. exact (before_irrefl _ (S2 _ X)). Qed.
(** sorted lists with the same lookups are equal *)
Lemma sorted_ext (a b : list (str * str)) : StronglySorted before (map fst a) -> StronglySorted before (map fst b) -> (forall m, dget m a = dget m b) -> a = b.
Proof.
  revert b. induction a as [|[k v] a IH]; intros [|[k' v'] b] A B E; [reflexivity| | |].
  - specialize (E k'). cbn in E. rewrite str_eqb_refl in E. discriminate.
  - specialize (E k). cbn in E. rewrite str_eqb_refl in E. discriminate.
  - cbn [map fst] in A, B. inversion A as [|x y A1 A2]; subst. inversion B as [|x y B1 B2]; subst. rewrite Forall_forall in A2, B2.
    assert (K : k = k').
    { destruct (str_eq_dec k k') as [e|n]; [exact e|exfalso]. pose proof (E k) as E1. pose proof (E k') as E2. cbn [dget] in E1, E2. rewrite str_eqb_refl in E1, E2. rewrite (proj2 (str_eqb_neq k k') n) in E1. rewrite (proj2 (str_eqb_neq k' k) (fun X => n (eq_sym X))) in E2.
      symmetry in E1. apply dget_In in E1. apply (in_map fst) in E1. apply dget_In in E2. apply (in_map fst) in E2. exact (before_irrefl _ (before_trans _ _ _ (A2 _ E2) (B2 _ E1))). }
    subst k'. pose proof (E k) as E1. cbn [dget] in E1. rewrite str_eqb_refl in E1. injection E1 as ->. f_equal. apply IH; [assumption|assumption|]. intros m. specialize (E m). cbn [dget] in E. destruct (str_eqb m k) eqn:Em; [|exact E].
    apply str_eqb_eq in Em. subst m. transitivity (@None str); [|symmetry]; apply dget_None; intros X; [exact (before_irrefl _ (A2 _ X))|exact (before_irrefl _ (B2 _ X))].
Qed.
Lemma retagged_fun attrs n v a b : retagged attrs n v a -> retagged attrs n v b -> a = b.
Proof. intros (A1 & A2 & A3) (B1 & B2 & B3). apply sorted_ext; [assumption|assumption|]. intros m. destruct (str_eq_dec m n) as [-> |N]; [congruence|]. rewrite A3, B3 by exact N. reflexivity. Qed.
Lemma wf_filter (f : str * str -> bool) d : dict_wf d -> dict_wf (filter f d).
Proof.
  unfold dict_wf, dkeys. induction d as [|[k v] d IH]; intros N; [constructor|]. cbn [map fst] in N. inversion N as [|x y N1 N2]; subst. cbn [filter]. destruct (f (k, v)); [|auto]. cbn [map fst]. constructor; [|auto].
  intros X. apply N1. apply in_map_iff in X. destruct X as [[a b] [E X]]. apply filter_In in X. destruct X as [X _]. apply in_map_iff. exists (a, b). auto.
Qed.
Lemma get_filter n m (d : list (str * str)) : dget m (filter (fun kv => negb (str_eqb (fst kv) n)) d) = if str_eqb m n then None else dget m d.
Proof.
  induction d as [|[k v] d IH]; cbn [filter dget fst]; [destruct (str_eqb m n); reflexivity|]. destruct (str_eqb k n) eqn:E; cbn [negb].
  - apply str_eqb_eq in E. subst k. rewrite IH. destruct (str_eqb m n); reflexivity.
  - cbn [dget]. rewrite IH. destruct (str_eqb m k) eqn:E2; [|reflexivity]. apply str_eqb_eq in E2. subst k. rewrite E. reflexivity.
Qed.
Lemma retag_ok attrs n v : dict_wf attrs -> retagged attrs n v (sort_attrs (dset n v attrs)).
Proof.
  intros W. pose proof (dict_wf_dset n v _ W) as W'. destruct (sort_ok _ W') as [A B]. split; [exact A|]. split; [rewrite B; apply dget_dset_same|]. intros m M. rewrite B. apply dget_dset_other. congruence.
Qed.
Lemma retag_filter attrs n v : dict_wf attrs -> retagged attrs n v (sort_attrs (dset n v (filter (fun kv => negb (str_eqb (fst kv) n)) attrs))).
Proof. intros W. destruct (retag_ok _ n v (wf_filter (fun kv => negb (str_eqb (fst kv) n)) attrs W)) as (A & B & C). split; [exact A|]. split; [exact B|]. intros m M. rewrite C by exact M. rewrite get_filter. apply str_eqb_neq in M. rewrite M. reflexivity. Qed.
Lemma retagged_get attrs attrs2 n v a : (forall m, m <> n -> dget m attrs = dget m attrs2) -> retagged attrs n v a -> retagged attrs2 n v a.
Proof. intros E (A & B & C). split; [exact A|]. split; [exact B|]. intros m M. rewrite C by exact M. apply E. exact M. Qed.

(** * The kinds of tokens *)
Lemma canonical_inner_iff t name attr attrs : canonical_inner t = Some (name, attr, attrs) <-> hint t name attrs attr.
Proof.
  split.
  - destruct t as [n0 a0|n0|n0 a0|x|x|x|x]; cbn [canonical_inner]; try discriminate. destruct (str_eqb n0 (lit "link")) eqn:E1.
    + apply str_eqb_eq in E1. subst n0. destruct (dget (lit "rel") a0) as [r|] eqn:Er; [|discriminate]. destruct (str_eqb r (lit "canonical")) eqn:E2; [|discriminate]. apply str_eqb_eq in E2. subst r. intros E. injection E as <- <- <-. apply HintLink. exact Er.
    + destruct (str_eqb n0 (lit "meta")) eqn:E2; [|discriminate]. apply str_eqb_eq in E2. subst n0. destruct (dget (lit "property") a0) as [r|] eqn:Er; [|discriminate]. destruct (str_eqb r (lit "og:url")) eqn:E3; [|discriminate]. apply str_eqb_eq in E3. subst r. intros E. injection E as <- <- <-. apply HintMeta. exact Er.
  - intros [a H|a H]; unfold canonical_inner; [rewrite str_eqb_refl, H, str_eqb_refl; reflexivity|]. change (str_eqb (lit "meta") (lit "link")) with false. rewrite str_eqb_refl, H, str_eqb_refl. reflexivity.
Qed.
Definition others (n : str) (attrs : list (str * str)) : list (str * str) := filter (fun kv => negb (str_eqb (fst kv) n)) attrs.
Lemma local_dec attrs n : local_hint attrs n <-> match dget n attrs with Some u => starts_with (lit "http") u = false | None => True end.
Proof.
  unfold local_hint. split.
  - intros H. destruct (dget n attrs) as [u|]; [|exact I]. destruct (starts_with (lit "http") u) eqn:E; [|reflexivity]. apply starts_with_iff in E. destruct E as [r E]. destruct (H u r eq_refl E).
  - intros H u r E. rewrite E in H. intros ->. assert (X : starts_with (lit "http") (lit "http" ++ r) = true) by (apply starts_with_iff; eauto). congruence.
Qed.
Lemma canonical_some t x : canonical_tag t = Some x <-> exists name attrs n, hint t name attrs n /\ local_hint attrs n /\ x = (name, n, dget n attrs, others n attrs).
Proof.
  unfold canonical_tag. split.
  - destruct (canonical_inner t) as [[[name attr] attrs]|] eqn:E; [|discriminate]. apply canonical_inner_iff in E. intros H. exists name, attrs, attr. split; [exact E|]. rewrite local_dec. destruct (dget attr attrs) as [h|] eqn:G; [destruct (starts_with (lit "http") h); [discriminate|]|]; injection H as <-; auto.
  - intros (name & attrs & n & H & L & ->). apply canonical_inner_iff in H. rewrite H. rewrite local_dec in L. destruct (dget n attrs) as [h|]; [rewrite L|]; reflexivity.
Qed.
Lemma existsb_quest path : existsb (fun c => (c =? 63) || (c =? 35)) path = false <-> ~ In 63 path /\ ~ In 35 path.
Proof.
  induction path as [|c r IH]; [cbn; intuition|]. cbn [existsb In]. destruct ((c =? 63) || (c =? 35)) eqn:E; cbn [orb].
  - split; [discriminate|]. intros [A B]. exfalso. destruct (c =? 63) eqn:E1; [apply A; left; lia|apply B; left; lia].
  - rewrite IH. split; intros [A B]; split; intros X; [destruct X as [X|X]; [lia|auto]|destruct X as [X|X]; [lia|auto]|auto|auto].
Qed.
Definition link_found (attr : str) (attrs : list (str * str)) : option (str * str * list (str * str)) :=
  match dget attr attrs with
  | Some (c :: path) => if (c =? 47) && negb (existsb (fun c => (c =? 63) || (c =? 35)) (c :: path)) then Some (attr, path, others (lit "href") attrs) else None
  | _ => None
  end.
Lemma link_found_some attr attrs x : link_found attr attrs = Some x <-> exists path, site_path attrs attr path /\ x = (attr, path, others (lit "href") attrs).
Proof.
  unfold link_found, site_path. split.
  - destruct (dget attr attrs) as [[|c path]|]; try discriminate. destruct (c =? 47) eqn:E; cbn [andb]; [|discriminate]. assert (c = 47) by lia. subst c. destruct (existsb _ (47 :: path)) eqn:Q; cbn [negb]; [discriminate|]. intros H. injection H as <-. exists path. split; [|reflexivity]. split; [reflexivity|].
    apply existsb_quest in Q. cbn [In] in Q. split; intros X; [apply (proj1 Q)|apply (proj2 Q)]; right; exact X.
  - intros (path & (E & A & B) & ->). rewrite E. assert (Q : existsb (fun c => (c =? 63) || (c =? 35)) (47 :: path) = false) by (apply existsb_quest; cbn [In]; split; intros [X|X]; [discriminate X|auto|discriminate X|auto]). rewrite Q. reflexivity.
Qed.
Lemma link_some t x : link_dependency t = Some x <-> exists attrs n path, reference t attrs n /\ site_path attrs n path /\ x = (n, path, others (lit "href") attrs).
Proof.
  assert (X : forall attrs n, link_found n attrs = Some x -> reference t attrs n -> exists attrs n path, reference t attrs n /\ site_path attrs n path /\ x = (n, path, others (lit "href") attrs)).
  { intros attrs n H R. apply link_found_some in H. destruct H as (path & P & ->). exists attrs, n, path. auto. }
  split.
  - destruct t as [n0 a0|n0|n0 a0|y|y|y|y]; unfold link_dependency; try discriminate.
    + destruct (str_eqb n0 (lit "script")) eqn:E; [|discriminate]. apply str_eqb_eq in E. subst n0. intros H. exact (X _ _ H (RefScript a0)).
    + destruct (str_eqb n0 (lit "link")) eqn:E; [|discriminate]. apply str_eqb_eq in E. subst n0. destruct (dget (lit "rel") a0) as [r|] eqn:Er; [|discriminate]. destruct (str_eqb r (lit "stylesheet") || str_eqb r (lit "preload")) eqn:E; [|discriminate].
      intros H. apply (X _ _ H). apply RefLink. apply orb_true_iff in E. destruct E as [E|E]; apply str_eqb_eq in E; subst r; auto.
  - intros (attrs & n & path & R & P & ->). assert (L : link_found n attrs = Some (n, path, others (lit "href") attrs)) by (apply link_found_some; eauto). destruct R as [a Hr|a].
    + unfold link_dependency. rewrite str_eqb_refl. destruct Hr as [Hr|Hr]; rewrite Hr; rewrite str_eqb_refl; [cbn [orb]|rewrite orb_true_r]; exact L.
    + unfold link_dependency. rewrite str_eqb_refl. exact L.
Qed.
Lemma script_some t attrs : inline_script t = Some attrs <-> t = HStart (lit "script") attrs /\ dget (lit "src") attrs = None.
Proof.
  assert (M : forall a : list (str * str), dmem (lit "src") a = match dget (lit "src") a with Some _ => true | None => false end) by (intros a; apply (dmem_get (lit "src") a)).
  split.
  - destruct t; unfold inline_script; try discriminate. destruct (str_eqb name (lit "script")) eqn:E; cbn [andb]; [|discriminate]. apply str_eqb_eq in E. subst name. rewrite M. destruct (dget (lit "src") attrs0) eqn:G; cbn [negb]; [discriminate|]. intros H. injection H as <-. auto.
  - intros [-> H]. unfold inline_script. rewrite str_eqb_refl, M, H. reflexivity.
Qed.
Lemma style_some t attrs : inline_style t = Some attrs <-> t = HStart (lit "style") attrs.
Proof.
  split.
  - destruct t; unfold inline_style; try discriminate. destruct (str_eqb name (lit "style")) eqn:E; [|discriminate]. apply str_eqb_eq in E. subst name. intros H. injection H as <-. reflexivity.
  - intros ->. unfold inline_style. rewrite str_eqb_refl. reflexivity.
Qed.

(** * Commands *)
Lemma lstrip_spaces a s : spaces a -> lstrip (a ++ s) = lstrip s.
Proof. induction 1 as [|c r H _ IH]; [reflexivity|]. cbn [app lstrip]. rewrite H. exact IH. Qed.
Lemma lstrip_split s : exists a, spaces a /\ s = a ++ lstrip s.
Proof. induction s as [|c r (a & A & E)]; [exists []; split; [constructor|reflexivity]|]. cbn [lstrip]. destruct (py_space c) eqn:P; [exists (c :: a); split; [constructor; assumption|cbn; congruence]|exists []; split; [constructor|reflexivity]]. Qed.
Lemma lstrip_head c s : py_space c = false -> lstrip (c :: s) = c :: s.
Proof. intros H. cbn [lstrip]. rewrite H. reflexivity. Qed.
Lemma lstrip_lit x s : py_space (hd 0 x) = false -> x <> [] -> lstrip (x ++ s) = x ++ s.
Proof. destruct x as [|c x]; intros P N; [contradiction|]. cbn [app]. apply lstrip_head. exact P. Qed.
Lemma spaces_rev a : spaces a -> spaces (rev a).
Proof. apply Forall_rev. Qed.
Lemma spaces_no a x : py_space x = false -> spaces a -> ~ In x a.
Proof. intros P H X. unfold spaces in H. rewrite Forall_forall in H. rewrite (H x X) in P. discriminate. Qed.
Lemma lstrip_first s z t : lstrip s = z :: t -> py_space z = false.
Proof. revert z t. induction s as [|c s IH]; intros z t H; [discriminate|]. cbn [lstrip] in H. destruct (py_space c) eqn:E; [exact (IH _ _ H)|]. injection H as <- _. exact E. Qed.
Definition name_ok (name : str) : Prop := name <> [] /\ py_space (hd 0 name) = false.
Lemma rule_args_ok dotall name s args : name_ok name -> rule_args dotall name s = Some args -> rule name s args /\ (dotall = false -> ~ In 10 args).
Proof.
  intros [N1 N2]. unfold rule_args. destruct (lstrip_split s) as (a & A & Ea). destruct (lstrip s) as [|c s1]; [discriminate|]. destruct (negb (c =? 91)) eqn:C; [discriminate|]. assert (c = 91) by (destruct (c =? 91) eqn:X; [lia|discriminate C]). subst c. clear C.
  destruct (lstrip_split s1) as (b & B & Eb). set (s2 := lstrip s1) in *. destruct (starts_with name s2) eqn:St; cbn [negb]; [|discriminate]. apply starts_with_iff in St. destruct St as [s3 E3]. rewrite E3, skipn_app, skipn_all, Nat.sub_diag. cbn [app skipn].
  destruct (lstrip_split s3) as (c & C & Ec). destruct (lstrip s3) as [|d [|w s4]]; [discriminate|discriminate|]. destruct (negb (d =? 58) || negb (py_space w)) eqn:D; [discriminate|]. apply orb_false_iff in D. destruct D as [D W]. apply negb_false_iff in D. apply negb_false_iff in W. assert (d = 58) by lia. subst d.
  destruct (lstrip_split s4) as (d & Dd & Ed). destruct (lstrip_split (rev (lstrip s4))) as (e & E & Ee). destruct (lstrip (rev (lstrip s4))) as [|x r] eqn:R; [discriminate|]. destruct (negb (x =? 93)) eqn:X; [discriminate|]. assert (x = 93) by (destruct (x =? 93) eqn:Y; [lia|discriminate X]). subst x.
  destruct (negb dotall && existsb (N.eqb 10) r) eqn:Nl; [discriminate|]. intros H. injection H as <-. 
  assert (L4 : lstrip s4 = rev r ++ 93 :: rev e) by (rewrite <- (rev_involutive (lstrip s4)), Ee, rev_app_distr; cbn [rev]; rewrite <- app_assoc; reflexivity).
  split; [split|].
  - intros x q Er. destruct (py_space x) eqn:Py; [|reflexivity]. exfalso. rewrite Er, <- app_comm_cons in L4. rewrite (lstrip_first _ _ _ L4) in Py. discriminate.
  - exists a, b, c, (w :: d), (rev e). do 3 (split; [assumption|]). split; [constructor; assumption|]. split; [discriminate|]. split; [apply spaces_rev; exact E|].
    rewrite Ea at 1. change (lit "[") with [91]. change (lit ":") with [58]. change (lit "]") with [93]. cbn [app]. f_equal. f_equal. rewrite Eb at 1. f_equal. rewrite E3. f_equal. rewrite Ec at 1. f_equal. f_equal. f_equal. rewrite Ed at 1. f_equal. rewrite L4. reflexivity.
  - intros ->. cbn [negb andb] in Nl. intros Y. apply in_rev in Y. assert (Z : existsb (N.eqb 10) r = true) by (apply existsb_exists; exists 10; split; [exact Y|reflexivity]). congruence.
Qed.
Lemma rule_args_rule dotall name s args : name_ok name -> rule name s args -> (dotall = false -> ~ In 10 args) -> rule_args dotall name s = Some args.
Proof.
  intros [N1 N2] (First & a & b & c & d & e & A & B & C & D & Dn & E & ->) Nl. unfold rule_args. rewrite lstrip_spaces by exact A. change (lit "[") with [91]. change (lit ":") with [58]. change (lit "]") with [93]. cbn [app]. rewrite (lstrip_head 91) by reflexivity. change (negb (91 =? 91)) with false. cbv iota.
  rewrite lstrip_spaces by exact B. rewrite lstrip_lit by assumption. replace (starts_with name (name ++ _)) with true by (symmetry; apply starts_with_iff; eauto). cbn [negb]. rewrite skipn_app, skipn_all, Nat.sub_diag. cbn [app skipn].
  rewrite lstrip_spaces by exact C. rewrite (lstrip_head 58) by reflexivity. destruct d as [|w d]; [contradiction|]. cbn [app]. inversion D as [|x y Dw Dd]; subst. rewrite Dw. change (negb (58 =? 58) || negb true) with false. cbv iota.
  rewrite lstrip_spaces by exact Dd.
  assert (L : lstrip (args ++ 93 :: e) = args ++ 93 :: e) by (destruct args as [|z t]; [reflexivity|cbn [app]; apply lstrip_head; exact (First _ _ eq_refl)]).
  rewrite L, rev_app_distr. cbn [rev]. rewrite <- app_assoc. rewrite lstrip_spaces by (apply spaces_rev; exact E). cbn [app]. rewrite (lstrip_head 93) by reflexivity. change (negb (93 =? 93)) with false. cbv iota.
  assert (Nx : negb dotall && existsb (N.eqb 10) (rev args) = false).
  { destruct dotall; [reflexivity|]. cbn [negb andb]. destruct (existsb (N.eqb 10) (rev args)) eqn:X; [|reflexivity]. exfalso. apply existsb_exists in X. destruct X as (x & X & Y). assert (x = 10) by lia. subst x. apply in_rev in X. exact (Nl eq_refl X). }
  rewrite Nx, rev_involutive. reflexivity.
Qed.
Lemma stack_some t c l : stack_command t = Some (c, l) <-> stack_cmd t c l.
Proof.
  assert (N : name_ok (lit "STACK")) by (split; [discriminate|reflexivity]). unfold stack_command, get_command. split.
  - destruct t; try discriminate. destruct (rule_args false (lit "STACK") text) as [args|] eqn:E; [|discriminate]. apply rule_args_ok in E; [|exact N]. destruct E as [R L]. destruct (json_load args) as [v|] eqn:J; cbn [option_map]; [|discriminate]. intros H.
    apply (StackCmd text args v); [exact R|exact (L eq_refl)|exact J|]. destruct (jnorm v) as [| | | |[|[| | |c0| |] l0]|]; try discriminate. injection H as <- <-. reflexivity.
  - intros [text args v c0 l0 R L J Jn]. rewrite (rule_args_rule false _ _ _ N R (fun _ => L)), J. cbn [option_map]. rewrite Jn. reflexivity.
Qed.
Lemma template_some t c l : template_command t = Some (c, l) <-> template_cmd t c l.
Proof.
  assert (N : name_ok (lit "TEMPLATE")) by (split; [discriminate|reflexivity]). unfold template_command, get_command. split.
  - destruct t; try discriminate. destruct (rule_args true (lit "TEMPLATE") text) as [args|] eqn:E; [|discriminate]. apply rule_args_ok in E; [|exact N]. destruct E as [R L]. destruct (json_load args) as [v|] eqn:J; cbn [option_map]; [|discriminate]. intros H.
    apply (TemplateCmd text args v); [exact R|exact J|]. destruct (jnorm v) as [| | | |[|[| | |c0| |] l0]|]; try discriminate. injection H as <- <-. reflexivity.
  - intros [text args v c0 l0 R J Jn]. rewrite (rule_args_rule true _ _ _ N R ltac:(discriminate)), J. cbn [option_map]. rewrite Jn. reflexivity.
Qed.
(** a comment is not both *)
Lemma stack_not_template t c l c' l' : stack_cmd t c l -> template_cmd t c' l' -> False.
Proof.
  intros [text args v c0 l0 (_ & a & b & x & d & e & A & B & X & D & Dn & E & T) _ _ _] H. inversion H as [text' args' v' c1 l1 (_ & a' & b' & x' & d' & e' & A' & B' & X' & D' & Dn' & E' & T') _ _]; subst.
  assert (Q : lstrip (a ++ lit "[" ++ b ++ lit "STACK" ++ x ++ lit ":" ++ d ++ args ++ lit "]" ++ e) = lstrip (a' ++ lit "[" ++ b' ++ lit "TEMPLATE" ++ x' ++ lit ":" ++ d' ++ args' ++ lit "]" ++ e')) by (rewrite T'; reflexivity).
  rewrite (lstrip_spaces a), (lstrip_spaces a') in Q by assumption. change (lit "[") with [91] in Q. cbn [app] in Q. rewrite !(lstrip_head 91) in Q by reflexivity. injection Q as Q. apply (f_equal lstrip) in Q. rewrite (lstrip_spaces b), (lstrip_spaces b') in Q by assumption. rewrite (lstrip_head 83), (lstrip_head 84) in Q by reflexivity. discriminate Q.
Qed.
