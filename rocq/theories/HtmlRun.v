(** Proofs about whole html pages. *)
From Verif Require Import Base Graph Json JsonProofs PyPath PyNorm PyNormProofs CssVersion Builder BuilderSpec BuilderProofs Handlers OutlineData OutlineDataProofs Html HtmlSpec HtmlProofs.
From Coq Require Import String ZArith NArith Bool List Sorted Lia ZifyN ZifyBool ZifyNat.
Import ListNotations.
Open Scope list_scope.
Open Scope N_scope.

(** * Kinds of tokens *)
Lemma none_iff {A} (o : option A) (P : A -> Prop) : (forall x, o = Some x <-> P x) -> (o = None <-> forall x, ~ P x).
Proof. intros H. split; [intros -> x X; apply H in X; discriminate|]. intros N. destruct o as [x|]; [|reflexivity]. destruct (N x). apply H. reflexivity. Qed.
Lemma ordinary_none t : ordinary t <-> canonical_tag t = None /\ link_dependency t = None /\ inline_script t = None /\ inline_style t = None /\ stack_command t = None /\ template_command t = None.
Proof.
  rewrite (none_iff _ _ (canonical_some t)), (none_iff _ _ (link_some t)), (none_iff _ _ (script_some t)), (none_iff _ _ (style_some t)).
  rewrite (none_iff (stack_command t) (fun x => stack_cmd t (fst x) (snd x))) by (intros [c l]; apply stack_some).
  rewrite (none_iff (template_command t) (fun x => template_cmd t (fst x) (snd x))) by (intros [c l]; apply template_some).
  unfold ordinary. split; intros (A & B & C & D & E & F); (split; [|split; [|split; [|split; [|split]]]]).
  - intros x (name & attrs & n & H & L & _). exact (A _ _ _ H L).
  - intros x (attrs & n & path & H & L & _). exact (B _ _ _ H L).
  - intros attrs [H L]. exact (C _ H L).
  - exact D.
  - intros [c l]. apply E.
  - intros [c l]. apply F.
  - intros name attrs n H L. eapply A. exists name, attrs, n. split; [exact H|]. split; [exact L|reflexivity].
  - intros attrs n path H L. eapply B. exists attrs, n, path. split; [exact H|]. split; [exact L|reflexivity].
  - intros attrs H L. exact (C attrs (conj H L)).
  - exact D.
  - intros c l. exact (E (c, l)).
  - intros c l. exact (F (c, l)).
Qed.
Lemma hint_alone t name attrs n : hint t name attrs n -> link_dependency t = None /\ inline_script t = None /\ inline_style t = None /\ stack_command t = None /\ template_command t = None.
Proof.
  intros [a H|a H]; (split; [|repeat split]); unfold link_dependency; [|reflexivity].
  rewrite str_eqb_refl, H. reflexivity.
Qed.
Lemma ref_alone t attrs n path : reference t attrs n -> site_path attrs n path -> canonical_tag t = None /\ inline_script t = None /\ inline_style t = None /\ stack_command t = None /\ template_command t = None.
Proof.
  intros [a H|a] [P _]; (split; [|repeat split]).
  - unfold canonical_tag, canonical_inner. rewrite str_eqb_refl. destruct H as [H|H]; rewrite H; reflexivity.
  - reflexivity.
  - apply (none_iff _ _ (script_some _)). intros x [E S]. injection E as <-. congruence.
Qed.
Lemma script_alone attrs : dget (lit "src") attrs = None -> canonical_tag (HStart (lit "script") attrs) = None /\ link_dependency (HStart (lit "script") attrs) = None.
Proof. intros H. split; [reflexivity|]. change (link_dependency (HStart (lit "script") attrs)) with (link_found (lit "src") attrs). unfold link_found. rewrite H. reflexivity. Qed.
Lemma comment_alone t c l : stack_cmd t c l \/ template_cmd t c l -> canonical_tag t = None /\ link_dependency t = None /\ inline_script t = None /\ inline_style t = None.
Proof. intros [[]|[]]; repeat split. Qed.
Lemma stack_alone t c l : stack_cmd t c l -> template_command t = None.
Proof. intros H. apply (none_iff (template_command t) (fun x => template_cmd t (fst x) (snd x))); [intros [c0 l0]; apply template_some|]. intros [c0 l0] X. exact (stack_not_template _ _ _ _ _ H X). Qed.
Lemma template_alone t c l : template_cmd t c l -> stack_command t = None.
Proof. intros H. apply (none_iff (stack_command t) (fun x => stack_cmd t (fst x) (snd x))); [intros [c0 l0]; apply stack_some|]. intros [c0 l0] X. exact (stack_not_template _ _ _ _ _ X H). Qed.
Lemma kinds t : ordinary t \/ (exists name attrs n, hint t name attrs n /\ local_hint attrs n) \/ (exists attrs n path, reference t attrs n /\ site_path attrs n path) \/
  (exists attrs, t = HStart (lit "script") attrs /\ dget (lit "src") attrs = None) \/ (exists attrs, t = HStart (lit "style") attrs) \/ (exists c l, stack_cmd t c l) \/ (exists c l, template_cmd t c l).
Proof.
  destruct (canonical_tag t) as [x|] eqn:E1; [apply canonical_some in E1; destruct E1 as (name & attrs & n & A & B & _); right; left; eauto|].
  destruct (link_dependency t) as [x|] eqn:E2; [apply link_some in E2; destruct E2 as (attrs & n & path & A & B & _); do 2 right; left; eauto|].
  destruct (inline_script t) as [x|] eqn:E3; [apply script_some in E3; do 3 right; left; eauto|].
  destruct (inline_style t) as [x|] eqn:E4; [apply style_some in E4; do 4 right; left; eauto|].
  destruct (stack_command t) as [[c l]|] eqn:E5; [apply stack_some in E5; do 5 right; left; eauto|].
  destruct (template_command t) as [[c l]|] eqn:E6; [apply template_some in E6; do 6 right; eauto|].
  left. apply ordinary_none. repeat split; assumption.
Qed.

(** * Paths *)
Lemma splitext_ext ext dir name : ~ In 47 ext -> ~ In 46 ext -> ~ In 47 name -> (exists c, In c name /\ c <> 46) -> splitext_root ((dir ++ [47]) ++ name ++ 46 :: ext) = (dir ++ [47]) ++ name.
Proof.
  intros E1 E2 S (c & Hc & D). unfold splitext_root. rewrite <- app_assoc. change ([47] ++ name ++ 46 :: ext) with (47 :: (name ++ 46 :: ext)).
  rewrite cut_last_slash by (intros X; apply in_app_iff in X; destruct X as [X|[X|X]]; [contradiction|discriminate X|contradiction]).
  rewrite before_last_dot_app by exact E2.
  destruct (forallb (N.eqb 46) name) eqn:E; [|reflexivity]. rewrite forallb_forall in E. specialize (E c Hc). apply N.eqb_eq in E. congruence.
Qed.
Lemma page_path relpath p : page_file relpath p -> path_in_gen relpath = p /\ p <> [] /\ (forall r, p <> 47 :: r) /\ last p 0 <> 47.
Proof.
  intros (dir & name & -> & D & S & (c & Hc & Nc) & ->).
  assert (Nn : name <> []) by (intros ->; exact Hc). assert (Hl : last (dir ++ name) 0 <> 47).
  { destruct (exists_last Nn) as (a & x & ->). rewrite app_assoc, last_last. intros ->. apply S, in_app_iff. right. left. reflexivity. }
  split; [|split; [|split; [|exact Hl]]].
  - unfold path_in_gen. replace (lit "src/public/" ++ (dir ++ name) ++ lit ".html") with ((((lit "src/public" ++ (match dir with [] => [] | _ => [47] end)) ++ removelast dir) ++ [47]) ++ name ++ lit ".html").
    + change (lit ".html") with (46 :: lit "html"). rewrite splitext_ext; [|intros X; repeat (destruct X as [X|X]; [discriminate X|]); exact X|intros X; repeat (destruct X as [X|X]; [discriminate X|]); exact X|exact S|eauto].
      replace ((((lit "src/public" ++ (match dir with [] => [] | _ => [47] end)) ++ removelast dir) ++ [47]) ++ name) with (lit "src/public" ++ 47 :: dir ++ name).
      * destruct (starts_with (lit "src/public") (lit "src/public" ++ 47 :: dir ++ name)) eqn:E; [reflexivity|]. exfalso. assert (X : starts_with (lit "src/public") (lit "src/public" ++ 47 :: dir ++ name) = true) by (apply starts_with_iff; eauto). congruence.
      * destruct D as [-> |(d & -> & _)]; [reflexivity|]. rewrite removelast_last. destruct (d ++ [47]) eqn:E; [destruct d; discriminate|]. rewrite <- E, <- !app_assoc. reflexivity.
    + destruct D as [-> |(d & -> & _)]; [reflexivity|]. rewrite removelast_last. destruct (d ++ [47]) eqn:E; [destruct d; discriminate|]. rewrite <- E, <- !app_assoc. reflexivity.
  - intros H. apply app_eq_nil in H. destruct H. contradiction.
  - intros r H. destruct D as [-> |(d & -> & X)]; [|apply X; destruct d as [|y d]; [eexists; reflexivity|injection H as -> _; eexists; reflexivity]]. cbn [app] in H. subst name. apply S. left. reflexivity.
Qed.
Lemma join_plain a b c r : a <> [] -> last a 0 <> 47 -> b = c :: r -> c <> 47 -> join2 a b = a ++ lit "/" ++ b.
Proof.
  intros A L -> C. unfold join2. destruct (c =? 47) eqn:E; [lia|]. destruct a as [|x a]; [contradiction|]. destruct (last (x :: a) 0 =? 47) eqn:El; [lia|]. reflexivity.
Qed.
Lemma last_app_nonnil (a b : str) : b <> [] -> last (a ++ b) 0 = last b 0.
Proof. intros H. destruct (exists_last H) as (q & x & ->). rewrite app_assoc, !last_last. reflexivity. Qed.
Lemma numbered folder p n ext : folder <> [] -> last folder 0 <> 47 -> p <> [] -> (forall r, p <> 47 :: r) -> last p 0 <> 47 ->
  join2 (join2 folder p) (print_N n ++ ext) = folder ++ lit "/" ++ p ++ lit "/" ++ print_N n ++ ext.
Proof.
  intros F L N S Lp. destruct p as [|c r]; [contradiction|]. rewrite (join_plain folder (c :: r) c r); [|exact F|exact L|reflexivity|intros ->; exact (S r eq_refl)].
  destruct (print_N_head n) as (d & q & Ep & Hd). rewrite (join_plain _ (print_N n ++ ext) d (q ++ ext)).
  - rewrite <- !app_assoc. reflexivity.
  - intros X. apply app_eq_nil in X. destruct X as [X _]. contradiction.
  - rewrite app_assoc, last_app_nonnil by discriminate. exact Lp.
  - rewrite Ep. reflexivity.
  - intros ->. discriminate.
Qed.
Lemma src_script relpath p i : page_file relpath p -> join2 (src_folder relpath (lit "js")) (print_N (N.of_nat i + 1) ++ lit ".js") = lit "src/public" ++ script_url p i.
Proof.
  intros H. apply page_path in H. destruct H as (E & A & B & C). unfold src_folder, join_path. rewrite E. cbn [fold_left]. change (join2 (join2 (join2 (lit "src") (lit "public")) (lit "js")) (lit "gen")) with (lit "src/public/js/gen").
  rewrite numbered by (try assumption; discriminate). unfold script_url. replace (N.of_nat (i + 1)) with (N.of_nat i + 1) by lia. reflexivity.
Qed.
Lemma out_script relpath p i : page_file relpath p -> join2 (out_folder relpath (lit "js")) (print_N (N.of_nat i + 1) ++ lit ".js") = lit "out/www" ++ script_url p i.
Proof.
  intros H. apply page_path in H. destruct H as (E & A & B & C). unfold out_folder, join_path. rewrite E. cbn [fold_left]. change (join2 (join2 (join2 (lit "out") (lit "www")) (lit "js")) (lit "gen")) with (lit "out/www/js/gen").
  rewrite numbered by (try assumption; discriminate). unfold script_url. replace (N.of_nat (i + 1)) with (N.of_nat i + 1) by lia. reflexivity.
Qed.
Lemma src_style relpath p i : page_file relpath p -> join2 (src_folder relpath (lit "css")) (print_N (N.of_nat i + 1) ++ lit ".css") = lit "src/public" ++ style_url p i.
Proof.
  intros H. apply page_path in H. destruct H as (E & A & B & C). unfold src_folder, join_path. rewrite E. cbn [fold_left]. change (join2 (join2 (join2 (lit "src") (lit "public")) (lit "css")) (lit "gen")) with (lit "src/public/css/gen").
  rewrite numbered by (try assumption; discriminate). unfold style_url. replace (N.of_nat (i + 1)) with (N.of_nat i + 1) by lia. reflexivity.
Qed.
Lemma out_style relpath p i : page_file relpath p -> join2 (out_folder relpath (lit "css")) (print_N (N.of_nat i + 1) ++ lit ".css") = lit "out/www" ++ style_url p i.
Proof.
  intros H. apply page_path in H. destruct H as (E & A & B & C). unfold out_folder, join_path. rewrite E. cbn [fold_left]. change (join2 (join2 (join2 (lit "out") (lit "www")) (lit "css")) (lit "gen")) with (lit "out/www/css/gen").
  rewrite numbered by (try assumption; discriminate). unfold style_url. replace (N.of_nat (i + 1)) with (N.of_nat i + 1) by lia. reflexivity.
Qed.

(** * Page events *)
Lemma page_same fragment show fr st t ts evs fr' st' : ordinary t -> page fragment show fr st (t :: ts) evs fr' st' -> exists evs1, evs = Same t :: evs1 /\ page fragment show fr st ts evs1 fr' st'.
Proof.
  intros (A & B & C & D & E & F) H. inversion H; subst; try (exfalso; match goal with
  | H1 : hint _ _ _ _, H2 : local_hint _ _ |- _ => exact (A _ _ _ H1 H2)
  | H1 : reference _ _ _, H2 : site_path _ _ _ |- _ => exact (B _ _ _ H1 H2)
  | H1 : stack_cmd _ _ _ |- _ => exact (E _ _ H1)
  | H1 : template_cmd _ _ _ |- _ => exact (F _ _ H1)
  | H1 : dget (lit "src") _ = None |- _ => exact (C _ eq_refl H1)
  | _ => exact (D _ eq_refl)
  end).
  eauto.
Qed.
Definition refs_of (evs : list event) : list str := flat_map (fun e => match e with Ref _ _ _ path => [in_public path] | _ => [] end) evs.
Definition temps_of (evs : list event) : list str := flat_map (fun e => match e with Template path _ => [path] | _ => [] end) evs.
Lemma refs_of_iff evs q : In q (refs_of evs) <-> referred evs q.
Proof.
  unfold refs_of, referred. rewrite in_flat_map. split.
  - intros (e & He & H). destruct e; try contradiction. destruct H as [<-|[]]. eauto 7.
  - intros (t & attrs & n & path & H & ->). exists (Ref t attrs n path). split; [exact H|left; reflexivity].
Qed.
Lemma temps_of_iff evs q : In q (temps_of evs) <-> templates evs q.
Proof.
  unfold temps_of, templates. rewrite in_flat_map. split.
  - intros (e & He & H). destruct e; try contradiction. destruct H as [<-|[]]. eauto.
  - intros (text & H). exists (Template q text). split; [exact H|left; reflexivity].
Qed.
Lemma add_In x l y : In y (set_add x l) <-> In y l \/ y = x.
Proof. unfold set_add. destruct (mem x l) eqn:E; [apply mem_In in E; split; [auto|intros [H| ->]; auto]|]. rewrite in_app_iff. cbn. intuition. Qed.
Lemma set_update_In l : forall s q, In q (set_update l s) <-> In q s \/ In q l.
Proof. unfold set_update. induction l as [|x l IH]; intros s q; cbn [fold_left In]; [tauto|]. rewrite IH, add_In. split; [intros [[H|H]|H]; auto|intros [H|[H|H]]; auto]. Qed.
Lemma ddel_dset (k v : str) f : ddel k (dset k v f) = ddel k f.
Proof.
  induction f as [|[k' v'] f IH]; cbn [dset ddel]; [rewrite str_eqb_refl; reflexivity|].
  destruct (str_eqb k k') eqn:E; cbn [ddel]; rewrite E; [reflexivity|]. rewrite IH. reflexivity.
Qed.

Section Run.
Context (h relpath p : str) (fragment : str -> list htoken) (show : str -> str).
Context (js_scan css_scan : str -> fs -> res scanned) (js_build css_build : str -> fs -> res (built * fs)) (scan : bool).
Notation canonical := (canonical (Some h) relpath scan).
Notation link_hash := (link_hash scan).
Notation outline := (outline relpath js_scan css_scan js_build css_build scan).
Notation outline_close := (outline_close relpath js_scan css_scan js_build css_build scan).
Notation outline_handle := (outline_handle js_scan css_scan js_build css_build scan).
Notation template := (template fragment show).
Notation ms := (manipulators (Some h) relpath fragment show js_scan css_scan js_build css_build scan).
Definition linked (path : str) (s : hstate) : hstate := with_links (set_add (in_public path) (links s)) s.

Lemma fm_ordinary t s : ordinary t -> find_mark ms t s = Ret (None, s).
Proof.
  intros O. apply ordinary_none in O. destruct O as (A & B & C & D & E & F). unfold manipulators. cbn [find_mark start_mark Html.canonical Html.link_hash Html.outline Html.template].
  unfold canonical_start, link_start, outline_start, template_start. rewrite A. cbn [find_mark]. rewrite B, C, D, E, F. reflexivity.
Qed.
Lemma fm_hint t name attrs n s : hint t name attrs n -> local_hint attrs n -> find_mark ms t s = if scan then Ret (None, s) else Ret (Some canonical, s).
Proof.
  intros Hi L. destruct (hint_alone _ _ _ _ Hi) as (B & C & D & E & F). unfold manipulators. cbn [find_mark start_mark Html.canonical Html.link_hash Html.outline Html.template].
  unfold canonical_start, link_start, outline_start, template_start. assert (X : canonical_tag t = Some (name, n, dget n attrs, others n attrs)) by (apply canonical_some; eauto 7). rewrite X, B, C, D, E, F. destruct scan; reflexivity.
Qed.
Lemma fm_ref t attrs n path s : reference t attrs n -> site_path attrs n path -> find_mark ms t s = Ret (if scan then None else Some link_hash, linked path s).
Proof.
  intros R P. destruct (ref_alone _ _ _ _ R P) as (A & C & D & E & F). unfold manipulators. cbn [find_mark start_mark Html.canonical Html.link_hash Html.outline Html.template].
  unfold canonical_start, link_start, outline_start, template_start. assert (X : link_dependency t = Some (n, path, others (lit "href") attrs)) by (apply link_some; eauto 7). rewrite A, X, C, D, E, F. destruct scan; reflexivity.
Qed.
Lemma fm_script attrs s : dget (lit "src") attrs = None -> find_mark ms (HStart (lit "script") attrs) s = Ret (Some outline, s).
Proof.
  intros N. destruct (script_alone _ N) as (A & B). unfold manipulators. cbn [find_mark start_mark Html.canonical Html.link_hash Html.outline].
  unfold canonical_start, link_start, outline_start. rewrite A, B. rewrite (proj2 (script_some (HStart (lit "script") attrs) attrs) (conj eq_refl N)). reflexivity.
Qed.
Lemma fm_style attrs s : find_mark ms (HStart (lit "style") attrs) s = Ret (Some outline, s).
Proof. reflexivity. Qed.
Lemma fm_stack t c l s : stack_cmd t c l -> find_mark ms t s = Ret (Some template, s).
Proof.
  intros H. destruct (comment_alone _ _ _ (or_introl H)) as (A & B & C & D). apply stack_some in H. unfold manipulators. cbn [find_mark start_mark Html.canonical Html.link_hash Html.outline Html.template].
  unfold canonical_start, link_start, outline_start, template_start. rewrite A, B, C, D, H. reflexivity.
Qed.
Lemma fm_template t c l s : template_cmd t c l -> find_mark ms t s = Ret (Some template, s).
Proof.
  intros H. destruct (comment_alone _ _ _ (or_intror H)) as (A & B & C & D). pose proof (template_alone _ _ _ H) as E. apply template_some in H. unfold manipulators. cbn [find_mark start_mark Html.canonical Html.link_hash Html.outline Html.template].
  unfold canonical_start, link_start, outline_start, template_start. rewrite A, B, C, D, E, H. reflexivity.
Qed.

(** ** Hints and references *)
Lemma https_not_local (attrs : list (str * str)) n u : dget n attrs = Some (lit "https://" ++ u) -> ~ local_hint attrs n.
Proof. intros H L. apply (L _ (lit "s://" ++ u) H). reflexivity. Qed.
Lemma empty_ordinary name attrs : (forall n, hint (HEmpty name attrs) name attrs n -> ~ local_hint attrs n) -> (forall n path, reference (HEmpty name attrs) attrs n -> ~ site_path attrs n path) -> ordinary (HEmpty name attrs).
Proof.
  intros A B. split; [|split; [|split; [|split; [|split]]]].
  - intros name0 attrs0 n H. assert (name0 = name /\ attrs0 = attrs) as [-> ->] by (inversion H; subst; auto). exact (A n H).
  - intros attrs0 n path H. assert (attrs0 = attrs) as -> by (inversion H; subst; auto). exact (B n path H).
  - discriminate.
  - discriminate.
  - intros c l H. inversion H.
  - intros c l H. inversion H.
Qed.
Lemma hint_out t name attrs n s : page_file relpath p -> tag_ok t -> hint t name attrs n -> local_hint attrs n ->
  exists u attrs', hint_url h p attrs n u /\ retagged attrs n u attrs' /\ continue_mark canonical t s = Ret (Some [HEmpty name attrs'], s) /\ ordinary (HEmpty name attrs') /\ dict_wf attrs'.
Proof.
  intros Pf W Hi L. assert (X : canonical_tag t = Some (name, n, dget n attrs, others n attrs)) by (apply canonical_some; eauto 7).
  assert (Wa : dict_wf attrs) by (destruct Hi; exact W).
  assert (Hu : exists u, hint_url h p attrs n (lit "https://" ++ u) /\ continue_mark canonical t s = Ret (Some [HEmpty name (sort_attrs (dset n (lit "https://" ++ u) (others n attrs)))], s)).
  { cbn [continue_mark Html.canonical]. unfold canonical_continue. rewrite X. destruct (dget n attrs) as [u|] eqn:E.
    - exists (h ++ u). split; [apply UrlGiven; exact E|reflexivity].
    - exists (h ++ lit "/" ++ p ++ lit ".html"). split; [apply UrlOwn; exact E|]. destruct Pf as (dir & name0 & -> & _ & _ & _ & ->). reflexivity. }
  destruct Hu as (u & U & C). pose proof (retag_filter attrs n (lit "https://" ++ u) Wa) as R. exists (lit "https://" ++ u), (sort_attrs (dset n (lit "https://" ++ u) (others n attrs))). split; [exact U|]. split; [exact R|]. split; [exact C|]. fold (others n attrs) in R.
  destruct R as (S & G & O). split; [|apply sorted_wf; exact S].
  apply empty_ordinary.
  - intros m Hm. assert (m = n) as -> by (inversion Hm; subst; inversion Hi; reflexivity). exact (https_not_local _ _ _ G).
  - intros m path Hr. exfalso. inversion Hr as [a Hrel|]; subst. inversion Hi as [a0 Hc|]; subst. rewrite !O in Hrel by discriminate. rewrite Hc in Hrel. destruct Hrel as [Y|Y]; discriminate Y.
Qed.
Lemma version_quest url v : In 63 (version url v).
Proof. unfold version. apply in_app_iff. right. left. reflexivity. Qed.
Lemma has_quest (attrs : list (str * str)) n (v path : str) : dget n attrs = Some v -> In 63 v -> ~ site_path attrs n path.
Proof. intros E Q (P & M & _). pose proof (eq_trans (eq_sym E) P) as X. injection X as ->. destruct Q as [Q|Q]; [discriminate|contradiction]. Qed.
Lemma script_ordinary (attrs : list (str * str)) (v : str) : dget (lit "src") attrs = Some v -> In 63 v -> ordinary (HStart (lit "script") attrs).
Proof.
  intros E Q. split; [|split; [|split; [|split; [|split]]]].
  - intros name0 attrs0 n H. inversion H.
  - intros attrs0 n path H. inversion H; subst. exact (has_quest _ _ _ _ E Q).
  - intros attrs0 H. injection H as <-. congruence.
  - discriminate.
  - intros c l H. inversion H.
  - intros c l H. inversion H.
Qed.
Lemma new_ref_fun t n v a b : new_ref t n v a -> new_ref t n v b -> a = b.
Proof. intros A B. destruct A as [attrs v a A|attrs v a A]; inversion B as [attrs0 v0 b0 B0|attrs0 v0 b0 B0]; subst; f_equal; exact (retagged_fun _ _ _ _ _ A B0). Qed.
Lemma filter_others_del (attrs : list (str * str)) n m : dict_wf attrs -> dget m (others n attrs) = dget m (ddel n attrs).
Proof. intros W. unfold others. rewrite get_filter, (dget_ddel _ _ _ W). reflexivity. Qed.
Lemma ref_out t attrs n path s : tag_ok t -> reference t attrs n -> site_path attrs n path ->
  continue_mark link_hash t s = match dget (in_output path ++ lit ".hash") (files s) with
    | None => Raise AssertionError
    | Some v => Ret (Some [match t with
        | HStart name _ => HStart name (sort_attrs (dset n (version (47 :: path) (strip v)) (others (lit "href") attrs)))
        | HEmpty name _ => HEmpty name (sort_attrs (dset n (version (47 :: path) (strip v)) (others (lit "href") attrs)))
        | t => t end], s)
    end /\
  forall v, exists t', t' = match t with
        | HStart name _ => HStart name (sort_attrs (dset n (version (47 :: path) v) (others (lit "href") attrs)))
        | HEmpty name _ => HEmpty name (sort_attrs (dset n (version (47 :: path) v) (others (lit "href") attrs)))
        | t => t end /\ new_ref t n (version (47 :: path) v) t' /\ ordinary t' /\ tag_ok t'.
Proof.
  intros W R P. split.
  - cbn [continue_mark Html.link_hash]. unfold link_continue. rewrite (proj2 (link_some t (n, path, others (lit "href") attrs))) by eauto 7. reflexivity.
  - intros v. eexists. split; [reflexivity|]. destruct R as [a Hr|a]; cbn [tag_ok] in W |- *.
    + pose proof (retag_filter a (lit "href") (version (47 :: path) v) W) as Rt. fold (others (lit "href") a) in Rt. split; [apply NewLink; exact Rt|]. destruct Rt as (S & G & O). split; [|apply sorted_wf; exact S].
      apply empty_ordinary.
      * intros m Hm. exfalso. inversion Hm as [a0 Hc|]; subst. rewrite O in Hc by discriminate. rewrite Hc in Hr. destruct Hr as [Y|Y]; discriminate Y.
      * intros m path0 Hm. inversion Hm; subst. exact (has_quest _ _ _ _ G (version_quest _ _)).
    + pose proof (retag_ok (others (lit "href") a) (lit "src") (version (47 :: path) v) (wf_filter _ _ W)) as Rt. 
      split; [apply NewScript; apply (retagged_get (others (lit "href") a)); [intros m M; apply filter_others_del; exact W|exact Rt]|]. destruct Rt as (S & G & O). split; [|apply sorted_wf; exact S].
      exact (script_ordinary _ _ G (version_quest _ _)).
Qed.

(** ** Inline scripts and stylesheets *)
Definition report := (list str * list str * list str)%type.
Definition add_text (o : outlining) (x : str) : outlining := {| o_script := o_script o; o_path := o_path o; o_text := o_text o ++ x; o_attrs := o_attrs o |}.
Lemma close_some o s r s2 : outline_close o s = Ret (r, s2) -> exists repl, r = Some repl.
Proof.
  unfold Html.outline_close. destruct (outline_handle o s) as [s1|]; [|discriminate]. cbv zeta. destruct (if scan then _ else _) as [x|]; [|discriminate]. intros H. apply Ret_inj in H. exists (if o_script o then [HStart (lit "script") (sort_attrs (dset (lit "src") x (o_attrs o))); HEnd (lit "script")] else [HEmpty (lit "link") (sort_attrs (dset (lit "rel") (lit "stylesheet") (dset (lit "href") x (o_attrs o))))]).
  destruct (o_script o); congruence.
Qed.
Lemma add_text_nil o : add_text o [] = o.
Proof. destruct o. unfold add_text. cbn. rewrite app_nil_r. reflexivity. Qed.
Lemma add_text_app o x y : add_text (add_text o x) y = add_text o (x ++ y).
Proof. unfold add_text. cbn. rewrite app_assoc. reflexivity. Qed.
Lemma with_outline_same o s : o_open s = o -> with_outline o (scripts s) (styles s) s = s.
Proof. intros <-. destruct s. reflexivity. Qed.
Lemma with_outline_twice o i j o' i' j' s : with_outline o i j (with_outline o' i' j' s) = with_outline o i j s.
Proof. reflexivity. Qed.
Lemma outline_rest seg : forall o s repl s2, o_open s = Some o ->
  (replaces outline s seg repl s2 <-> exists inner texts name, seg = inner ++ [HEnd name] /\ Forall2 is_text inner texts /\
    outline_close (add_text o (concat texts)) (with_outline (Some (add_text o (concat texts))) (scripts s) (styles s) s) = Ret (Some repl, s2)).
Proof.
  induction seg as [|t seg IH]; intros o s repl s2 Ho.
  { split; [intros H; inversion H|]. intros (inner & texts & name & E & _). destruct inner; discriminate. }
  assert (Text : forall x, is_text t x -> continue_mark outline t s = Ret (None, with_outline (Some (add_text o x)) (scripts s) (styles s) s)).
  { intros x X. cbn [continue_mark Html.outline]. unfold outline_continue. rewrite Ho. destruct X; reflexivity. }
  split.
  - intros H. inversion H as [t0 s0 repl0 s1 C|t0 s0 s1 seg0 repl0 s3 C H1]; subst.
    + exists [], []. cbn [continue_mark Html.outline] in C. unfold outline_continue in C. rewrite Ho in C. cbn [concat]. rewrite add_text_nil, with_outline_same by exact Ho. destruct t; try discriminate. exists name. split; [reflexivity|]. split; [constructor|exact C].
    + assert (X : exists x, is_text t x).
      { cbn [continue_mark Html.outline] in C. unfold outline_continue in C. rewrite Ho in C. destruct t; try discriminate; [apply close_some in C; destruct C; discriminate|eexists; constructor|eexists; constructor]. }
      destruct X as [x X]. rewrite (Text x X) in C. apply Ret_inj in C. assert (s1 = with_outline (Some (add_text o x)) (scripts s) (styles s) s) as -> by congruence. clear C.
      apply (IH (add_text o x)) in H1; [|reflexivity]. destruct H1 as (inner & texts & name & -> & F & C). exists (t :: inner), (x :: texts), name. split; [reflexivity|]. split; [constructor; assumption|]. cbn [concat]. rewrite <- add_text_app. exact C.
  - intros (inner & texts & name & E & F & C). destruct inner as [|t0 inner]; cbn [app] in E; injection E as -> ->.
    + inversion F; subst. cbn [concat] in C. rewrite add_text_nil, with_outline_same in C by exact Ho. apply ReplEnd. cbn [continue_mark Html.outline]. unfold outline_continue. rewrite Ho. exact C.
    + inversion F as [|t1 x l1 texts1 Hx Hl]; subst. cbn [concat] in C. rewrite <- add_text_app in C. apply (ReplMore _ _ _ _ _ _ _ (Text x Hx)). apply (IH (add_text o x)); [reflexivity|]. exists inner, texts1, name. split; [reflexivity|]. split; [exact Hl|exact C].
Qed.
Definition start_of (i : nat) (attrs : list (str * str)) (text : str) : outlining := {| o_script := true; o_path := lit "src/public" ++ script_url p i; o_text := text; o_attrs := attrs |}.
Definition style_of (j : nat) (text : str) : outlining := {| o_script := false; o_path := lit "src/public" ++ style_url p j; o_text := text; o_attrs := [] |}.
Definition ready (i j : nat) (s : hstate) : Prop := o_open s = None /\ scripts s = N.of_nat i /\ styles s = N.of_nat j.
Lemma outline_script i j attrs s seg repl s2 : page_file relpath p -> ready i j s -> dget (lit "src") attrs = None ->
  (replaces outline s (HStart (lit "script") attrs :: seg) repl s2 <-> exists inner texts name, seg = inner ++ [HEnd name] /\ Forall2 is_text inner texts /\
    outline_close (start_of i attrs (concat texts)) (with_outline (Some (start_of i attrs (concat texts))) (N.of_nat (i + 1)) (N.of_nat j) s) = Ret (Some repl, s2)).
Proof.
  intros Pf (Ho & Hi & Hj) Hs.
  assert (C : continue_mark outline (HStart (lit "script") attrs) s = Ret (None, with_outline (Some (start_of i attrs [])) (N.of_nat (i + 1)) (N.of_nat j) s)).
  { cbn [continue_mark Html.outline]. unfold outline_continue, outline_open. rewrite Ho. rewrite (proj2 (script_some (HStart (lit "script") attrs) attrs) (conj eq_refl Hs)), Hi, Hj. cbv zeta. rewrite (src_script _ _ _ Pf). replace (N.of_nat (i + 1)) with (N.of_nat i + 1) by lia. reflexivity. }
  pose proof (fun r => outline_rest seg (start_of i attrs []) (with_outline (Some (start_of i attrs [])) (N.of_nat (i + 1)) (N.of_nat j) s) r s2 eq_refl) as R. split.
  - intros H. inversion H as [t0 s0 repl0 s1 C1|t0 s0 s1 seg0 repl0 s3 C1 H1]; subst; rewrite C in C1; apply Ret_inj in C1; [discriminate|]. assert (s1 = with_outline (Some (start_of i attrs [])) (N.of_nat (i + 1)) (N.of_nat j) s) as -> by congruence. apply R in H1. exact H1.
  - intros H. apply (ReplMore _ _ _ _ _ _ _ C). apply R. exact H.
Qed.
Lemma outline_style i j attrs s seg repl s2 : page_file relpath p -> ready i j s ->
  (replaces outline s (HStart (lit "style") attrs :: seg) repl s2 <-> attrs = [] /\ exists inner texts name, seg = inner ++ [HEnd name] /\ Forall2 is_text inner texts /\
    outline_close (style_of j (concat texts)) (with_outline (Some (style_of j (concat texts))) (N.of_nat i) (N.of_nat (j + 1)) s) = Ret (Some repl, s2)).
Proof.
  intros Pf (Ho & Hi & Hj).
  assert (C : continue_mark outline (HStart (lit "style") attrs) s = match attrs with [] => Ret (None, with_outline (Some (style_of j [])) (N.of_nat i) (N.of_nat (j + 1)) s) | _ => Raise TypeError end).
  { cbn [continue_mark Html.outline]. unfold outline_continue, outline_open. rewrite Ho. cbn [inline_script]. change (str_eqb (lit "style") (lit "script")) with false. cbn [andb]. rewrite (proj2 (style_some (HStart (lit "style") attrs) attrs) eq_refl), Hi, Hj. destruct attrs; [|reflexivity]. cbv zeta. rewrite (src_style _ _ _ Pf). replace (N.of_nat (j + 1)) with (N.of_nat j + 1) by lia. reflexivity. }
  pose proof (fun r => outline_rest seg (style_of j []) (with_outline (Some (style_of j [])) (N.of_nat i) (N.of_nat (j + 1)) s) r s2 eq_refl) as R. split.
  - intros H. destruct attrs as [|x attrs]; [split; [reflexivity|]|]; inversion H as [t0 s0 repl0 s1 C1|t0 s0 s1 seg0 repl0 s3 C1 H1]; subst; rewrite C in C1; try discriminate C1; apply Ret_inj in C1. assert (s1 = with_outline (Some (style_of j [])) (N.of_nat i) (N.of_nat (j + 1)) s) as -> by congruence. apply R in H1. exact H1.
  - intros [-> H]. apply (ReplMore _ _ _ _ _ _ _ C). apply R. exact H.
Qed.

Definition script_to (i : nat) (f : fs) (attrs : list (str * str)) (text : str) (r : report) (f2 : fs) (t : htoken) : Prop :=
  let path := lit "src/public" ++ script_url p i in
  if scan then exists r0 attrs', js_scan path (dset path text f) = Ret r0 /\ r = (dependencies r0, produces r0, []) /\ f2 = ddel path f /\ retagged attrs (lit "src") (script_url p i ++ lit "?v=tmp&pv=1") attrs' /\ t = HStart (lit "script") attrs'
  else exists r0 f1 v attrs', js_build path (dset path text f) = Ret (r0, f1) /\ r = (children r0, produced r0, reused r0) /\ dmem path f1 = true /\ f2 = ddel path f1 /\
    dget (lit "out/www" ++ script_url p i ++ lit ".hash") f2 = Some v /\ retagged attrs (lit "src") (version (script_url p i) v) attrs' /\ t = HStart (lit "script") attrs'.
Definition style_to (j : nat) (f : fs) (text : str) (r : report) (f2 : fs) (t : htoken) : Prop :=
  let path := lit "src/public" ++ style_url p j in
  if scan then exists r0, css_scan path (dset path text f) = Ret r0 /\ r = (dependencies r0, produces r0, []) /\ f2 = ddel path f /\ t = HEmpty (lit "link") [(lit "href", style_url p j ++ lit "?v=tmp&pv=1"); (lit "rel", lit "stylesheet")]
  else exists r0 f1 v, css_build path (dset path text f) = Ret (r0, f1) /\ r = (children r0, produced r0, reused r0) /\ dmem path f1 = true /\ f2 = ddel path f1 /\
    dget (lit "out/www" ++ style_url p j ++ lit ".hash") f2 = Some v /\ t = HEmpty (lit "link") [(lit "href", version (style_url p j) v); (lit "rel", lit "stylesheet")].
Definition done (r : report) (f : fs) (i j : nat) (s : hstate) : hstate :=
  with_outline None (N.of_nat i) (N.of_nat j) (with_results f (set_update (fst (fst r)) (o_seen s)) (set_update (snd (fst r)) (o_made s)) (set_update (snd r) (o_reused s)) s).
Lemma dmem_dset (k v : str) f : dmem k (dset k v f) = true.
Proof. rewrite dmem_get, dget_dset_same. reflexivity. Qed.
Lemma close_script i j attrs text s repl s2 : page_file relpath p -> dict_wf attrs -> 
  (outline_close (start_of i attrs text) (with_outline (Some (start_of i attrs text)) (N.of_nat (i + 1)) (N.of_nat j) s) = Ret (Some repl, s2) <->
   exists r f2 t, script_to i (files s) attrs text r f2 t /\ repl = [t; HEnd (lit "script")] /\ s2 = done r f2 (i + 1) j s).
Proof.
  intros Pf W. unfold Html.outline_close, Html.outline_handle, script_to. cbn [with_outline files o_seen o_made o_reused scripts styles start_of o_path o_text o_script o_attrs]. set (path := lit "src/public" ++ script_url p i).
  change (skipn (length (lit "src/public")) path) with (script_url p i). replace (N.of_nat (i + 1)) with (N.of_nat i + 1) by lia.
  destruct scan.
  - split.
    + destruct (js_scan path (dset path text (files s))) as [r0|e] eqn:E; [|discriminate]. rewrite dmem_dset. cbn [with_results with_outline files scripts styles]. intros H. apply Ret_inj in H. pose proof (retag_ok attrs (lit "src") (script_url p i ++ lit "?v=tmp&pv=1") W) as R.
      exists (dependencies r0, produces r0, []), (ddel path (files s)), (HStart (lit "script") (sort_attrs (dset (lit "src") (script_url p i ++ lit "?v=tmp&pv=1") attrs))). split; [eauto 9|]. split; [congruence|].
      unfold done. cbn [fst snd set_update fold_left]. replace (N.of_nat (i + 1)) with (N.of_nat i + 1) by lia. rewrite ddel_dset in H. injection H as _ <-. reflexivity.
    + intros (r & f2 & t & (r0 & attrs' & E & -> & -> & R & ->) & -> & ->). rewrite E, dmem_dset. cbn [with_results with_outline files scripts styles]. rewrite (retagged_fun _ _ _ _ _ R (retag_ok attrs _ _ W)), ddel_dset. unfold done. replace (N.of_nat (i + 1)) with (N.of_nat i + 1) by lia. reflexivity.
  - split.
    + destruct (js_build path (dset path text (files s))) as [[r0 f1]|e] eqn:E; [|discriminate]. destruct (dmem path f1) eqn:Dm; [|discriminate]. cbn [with_results with_outline files scripts styles]. rewrite (out_script _ _ _ Pf), <- app_assoc. destruct (dget _ (ddel path f1)) as [v|] eqn:G; [|discriminate]. intros H. apply Ret_inj in H. fold (version (script_url p i) v) in H. pose proof (retag_ok attrs (lit "src") (version (script_url p i) v) W) as R.
      exists (children r0, produced r0, reused r0), (ddel path f1), (HStart (lit "script") (sort_attrs (dset (lit "src") (version (script_url p i) v) attrs))). split; [exists r0, f1, v; eexists; do 5 (split; [eauto|]); split; [exact R|reflexivity]|]. split; [injection H as <- _; reflexivity|].
      unfold done. cbn [fst snd]. replace (N.of_nat (i + 1)) with (N.of_nat i + 1) by lia. injection H as _ <-. reflexivity.
    + intros (r & f2 & t & (r0 & f1 & v & attrs' & E & -> & Dm & -> & G & R & ->) & -> & ->). rewrite E, Dm. cbn [with_results with_outline files scripts styles]. rewrite (out_script _ _ _ Pf), <- app_assoc, G. fold (version (script_url p i) v). rewrite (retagged_fun _ _ _ _ _ R (retag_ok attrs _ _ W)). unfold done. replace (N.of_nat (i + 1)) with (N.of_nat i + 1) by lia. reflexivity.
Qed.
Lemma close_style i j text s repl s2 : page_file relpath p ->
  (outline_close (style_of j text) (with_outline (Some (style_of j text)) (N.of_nat i) (N.of_nat (j + 1)) s) = Ret (Some repl, s2) <->
   exists r f2 t, style_to j (files s) text r f2 t /\ repl = [t] /\ s2 = done r f2 i (j + 1) s).
Proof.
  intros Pf. unfold Html.outline_close, Html.outline_handle, style_to. cbn [with_outline files o_seen o_made o_reused scripts styles style_of o_path o_text o_script o_attrs]. set (path := lit "src/public" ++ style_url p j).
  change (skipn (length (lit "src/public")) path) with (style_url p j). replace (N.of_nat (j + 1)) with (N.of_nat j + 1) by lia.
  destruct scan.
  - split.
    + destruct (css_scan path (dset path text (files s))) as [r0|e] eqn:E; [|discriminate]. rewrite dmem_dset. cbn [with_results with_outline files scripts styles]. intros H. apply Ret_inj in H.
      eexists (dependencies r0, produces r0, []), (ddel path (files s)), _. split; [exists r0; do 3 (split; [eauto|]); reflexivity|]. split; [injection H as <- _; reflexivity|].
      unfold done. cbn [fst snd set_update fold_left]. replace (N.of_nat (j + 1)) with (N.of_nat j + 1) by lia. rewrite ddel_dset in H. injection H as _ <-. reflexivity.
    + intros (r & f2 & t & (r0 & E & -> & -> & ->) & -> & ->). rewrite E, dmem_dset. cbn [with_results with_outline files scripts styles]. rewrite ddel_dset. unfold done. replace (N.of_nat (j + 1)) with (N.of_nat j + 1) by lia. reflexivity.
  - split.
    + destruct (css_build path (dset path text (files s))) as [[r0 f1]|e] eqn:E; [|discriminate]. destruct (dmem path f1) eqn:Dm; [|discriminate]. cbn [with_results with_outline files scripts styles]. rewrite (out_style _ _ _ Pf), <- app_assoc. destruct (dget _ (ddel path f1)) as [v|] eqn:G; [|discriminate]. intros H. apply Ret_inj in H. 
      eexists (children r0, produced r0, reused r0), (ddel path f1), _. split; [exists r0, f1, v; do 5 (split; [eauto|]); reflexivity|]. split; [injection H as <- _; reflexivity|].
      unfold done. cbn [fst snd]. replace (N.of_nat (j + 1)) with (N.of_nat j + 1) by lia. injection H as _ <-. reflexivity.
    + intros (r & f2 & t & (r0 & f1 & v & E & -> & Dm & -> & G & ->) & -> & ->). rewrite E, Dm. cbn [with_results with_outline files scripts styles]. rewrite (out_style _ _ _ Pf), <- app_assoc, G. unfold done. replace (N.of_nat (j + 1)) with (N.of_nat j + 1) by lia. reflexivity.
Qed.

(** ** Commands *)
Lemma stack_result c l s repl s2 : handle_stack show c l s = Ret (repl, s2) <->
  (exists q r, c = lit "push" /\ l = JStr q :: r /\ repl = [] /\ s2 = with_frames (t_frame s :: t_stack s) {| fr_path := q; fr_vars := [] |} s) \/
  (c = lit "pop" /\ exists fr1 st, t_stack s = fr1 :: st /\ repl = [] /\ s2 = with_frames st fr1 s) \/
  (exists k v, c = lit "define" /\ l = [JStr k; v] /\ repl = [] /\ s2 = with_frames (t_stack s) {| fr_path := fr_path (t_frame s); fr_vars := dset k v (fr_vars (t_frame s)) |} s) \/
  (exists k v x, k <> [] /\ c = lit "retrieve" /\ l = [JStr k] /\ dget k (fr_vars (t_frame s)) = Some v /\ shown show v x /\ repl = [HChars x] /\ s2 = s) \/
  ((c = lit "push" -> forall p r, l <> JStr p :: r) /\ c <> lit "pop" /\ (c = lit "define" -> forall k v, l <> [JStr k; v]) /\ (c = lit "retrieve" -> forall k, k <> [] -> l <> [JStr k]) /\ repl = [] /\ s2 = s).
Proof.
  unfold handle_stack. split.
  - destruct (str_eqb c (lit "push")) eqn:E1.
    { apply str_eqb_eq in E1. subst c. change (str_eqb (lit "push") (lit "pop")) with false. change (str_eqb (lit "push") (lit "define")) with false. change (str_eqb (lit "push") (lit "retrieve")) with false. cbv iota.
      destruct l as [|[| | |q| |] r]; intros H; apply Ret_inj in H; try (do 4 right; split; [intros _ p0 r0; discriminate|]; split; [discriminate|]; split; [discriminate|]; split; [discriminate|]; split; congruence).
      left. exists q, r. split; [reflexivity|]. split; [reflexivity|]. split; congruence. }
    assert (C1 : c = lit "push" -> forall p r, l <> JStr p :: r) by (intros ->; discriminate E1).
    destruct (str_eqb c (lit "pop")) eqn:E2.
    { apply str_eqb_eq in E2. right. left. split; [exact E2|]. destruct (t_stack s) as [|fr1 st]; [discriminate|]. apply Ret_inj in H. exists fr1, st. split; [reflexivity|]. split; congruence. }
    apply str_eqb_neq in E2. destruct (str_eqb c (lit "define")) eqn:E3.
    { apply str_eqb_eq in E3. subst c. intros H. destruct l as [|[| | |k| |] [|v [|? ?]]]; apply Ret_inj in H; try (do 4 right; split; [exact C1|]; split; [exact E2|]; split; [intros _ k0 v0; discriminate|]; split; [discriminate|]; split; congruence).
      do 2 right. left. exists k, v. split; [reflexivity|]. split; [reflexivity|]. split; congruence. }
    assert (C3 : c = lit "define" -> forall k v, l <> [JStr k; v]) by (intros ->; discriminate E3).
    destruct (str_eqb c (lit "retrieve")) eqn:E4.
    { apply str_eqb_eq in E4. subst c. intros H. destruct l as [|[| | |[|k0 k]| |] [|v l]]; try (apply Ret_inj in H; do 4 right; split; [exact C1|]; split; [exact E2|]; split; [exact C3|]; split; [intros _ k1 K1 X; congruence|]; split; congruence).
      do 3 right. left. destruct (dget (k0 :: k) (fr_vars (t_frame s))) as [v|] eqn:G; [|discriminate]. exists (k0 :: k), v. 
      destruct v as [|b|raw|x| |]; try discriminate; apply Ret_inj in H; eexists; (split; [discriminate|]); (split; [reflexivity|]); (split; [reflexivity|]); (split; [exact G|]); (split; [|split; [|congruence]]); [|injection H as <- _; reflexivity| |injection H as <- _; reflexivity| |injection H as <- _; reflexivity]; [destruct b; constructor|constructor|constructor]. }
    intros H. apply Ret_inj in H. do 4 right. split; [exact C1|]. split; [exact E2|]. split; [exact C3|]. split; [intros ->; discriminate E4|]. split; congruence.
  - intros [H|[H|[H|[H|H]]]].
    + destruct H as (q & r & -> & -> & -> & ->). rewrite str_eqb_refl. reflexivity.
    + destruct H as (-> & fr1 & st & E & -> & ->). change (str_eqb (lit "pop") (lit "push")) with false. rewrite str_eqb_refl, E. reflexivity.
    + destruct H as (k & v & -> & -> & -> & ->). change (str_eqb (lit "define") (lit "push")) with false. change (str_eqb (lit "define") (lit "pop")) with false. rewrite str_eqb_refl. reflexivity.
    + destruct H as (k & v & x & N & -> & -> & G & Sh & -> & ->). change (str_eqb (lit "retrieve") (lit "push")) with false. change (str_eqb (lit "retrieve") (lit "pop")) with false. change (str_eqb (lit "retrieve") (lit "define")) with false. rewrite str_eqb_refl. destruct k as [|k0 k]; [contradiction|]. rewrite G. destruct Sh; reflexivity.
    + destruct H as (C1 & C2 & C3 & C4 & -> & ->). apply str_eqb_neq in C2. destruct (str_eqb c (lit "push")) eqn:E1.
      * apply str_eqb_eq in E1. subst c. change (str_eqb (lit "push") (lit "pop")) with false. change (str_eqb (lit "push") (lit "define")) with false. change (str_eqb (lit "push") (lit "retrieve")) with false. cbv iota. destruct l as [|[| | |q| |] r]; try reflexivity. destruct (C1 eq_refl q r eq_refl).
      * rewrite C2. destruct (str_eqb c (lit "define")) eqn:E3.
        { apply str_eqb_eq in E3. destruct l as [|[| | |k| |] [|v [|? ?]]]; try reflexivity. destruct (C3 E3 k v eq_refl). }
        destruct (str_eqb c (lit "retrieve")) eqn:E4; [|reflexivity]. apply str_eqb_eq in E4. destruct l as [|[| | |[|k0 k]| |] [|v l]]; try reflexivity. destruct (C4 E4 (k0 :: k) ltac:(discriminate) eq_refl).
Qed.
Lemma resolve_passed vars v x : resolve_variable vars v = x <-> passed vars v x.
Proof.
  assert (D : (exists n, names_variable v n /\ resolve_variable vars v = match dget n vars with Some x => x | None => v end) \/ ((forall n, ~ names_variable v n) /\ resolve_variable vars v = v)).
  { destruct v as [| | | | |l]; try (right; split; [intros n (l1 & E & _); discriminate|reflexivity]). cbn [resolve_variable].
    destruct (dget (lit "type") l) as [ty|] eqn:E1; [|right; split; [intros n (l9 & E & A & B); injection E as <-; congruence|reflexivity]].
    destruct ty as [| | |ty| |]; try (right; split; [intros n (l9 & E & A & B); injection E as <-; congruence|destruct (dget (lit "name") l) as [[]|]; reflexivity]).
    destruct (dget (lit "name") l) as [nm|] eqn:E2; [|right; split; [intros n (l9 & E & A & B); injection E as <-; congruence|reflexivity]].
    destruct nm as [| | |nm| |]; try (right; split; [intros n (l9 & E & A & B); injection E as <-; congruence|reflexivity]).
    destruct (str_eqb ty (lit "variable")) eqn:Et.
    - apply str_eqb_eq in Et. subst ty. left. exists nm. split; [exists l; auto|reflexivity].
    - apply str_eqb_neq in Et. right. split; [intros n (l9 & E & A & B); injection E as <-; congruence|reflexivity]. }
  assert (U : forall n m, names_variable v n -> names_variable v m -> n = m) by (intros n m (l & E & A & B) (l' & E' & A' & B'); congruence).
  destruct D as [(n & V & ->)|[Nv ->]]; split.
  - intros <-. destruct (dget n vars) as [x|] eqn:G; [exact (PassedVar _ _ n x V G)|]. apply PassedSelf. intros m M. rewrite (U m n M V). exact G.
  - intros Ps. inversion Ps as [v0 m y M G|v0 M]; subst; [rewrite (U n m V M), G; reflexivity|rewrite (M n V); reflexivity].
  - intros <-. apply PassedSelf. intros m M. destruct (Nv m M).
  - intros Ps. inversion Ps as [v0 m y M G|v0 M]; subst; [destruct (Nv m M)|reflexivity].
Qed.
Lemma resolve_all vars args res : map (fun kv => (fst kv, resolve_variable vars (snd kv))) args = res <-> passed_all vars args res.
Proof.
  revert res. unfold passed_all. induction args as [|[k v] args IH]; intros res; cbn [map fst snd]; split.
  - intros <-. constructor.
  - intros H. inversion H. reflexivity.
  - intros <-. constructor; [split; [reflexivity|apply resolve_passed; reflexivity]|apply IH; reflexivity].
  - intros H. inversion H as [|a b l1 l2 [E P] R]; subst. apply resolve_passed in P. cbn [fst snd] in E, P. apply IH in R. subst. destruct b as [k0 v0]. cbn [fst snd] in *. subst. reflexivity.
Qed.
Lemma import_some fr c l path vars : template_import fr c l = Some (path, vars) <-> exists args, template_args l args /\ passed_all (fr_vars fr) args vars /\ template_path (fr_path fr) c path.
Proof.
  assert (P : forall q, (match c with c0 :: c1 => if c0 =? 47 then join_path (lit "src") [lit "partials"; c1] else join2 (fr_path fr) c | [] => join2 (fr_path fr) c end = q) <-> template_path (fr_path fr) c q).
  { intros q. destruct c as [|c0 c1]; [|destruct (c0 =? 47) eqn:E].
    - split; [intros <-; apply PathRelative; discriminate|]. intros H. inversion H; reflexivity.
    - assert (c0 = 47) by lia. subst c0. split; [intros <-; apply PathPartials|]. intros H. inversion H as [c2|c2 N]; subst; [reflexivity|destruct (N c1 eq_refl)].
    - split; [intros <-; apply PathRelative; intros r X; injection X as -> _; discriminate E|]. intros H. inversion H as [c2|c2 N]; subst; [discriminate E|reflexivity]. }
  unfold template_import. split.
  - intros H. assert (X : exists args, template_args l args /\ match l with [] => Some [] | JObj vars :: _ => Some vars | _ => None end = Some args).
    { destruct l as [|[| | | | |l0] r]; try discriminate; [exists []|exists l0]; split; (constructor || reflexivity). }
    destruct X as (args & A & E). rewrite E in H. injection H as H1 H2. exists args. split; [exact A|]. split; [apply resolve_all; exact H2|apply P; exact H1].
  - intros (args & A & V & T). apply P in T. apply resolve_all in V. rewrite T. destruct A; rewrite V; reflexivity.
Qed.
Lemma import_none fr c l : template_import fr c l = None <-> forall args, ~ template_args l args.
Proof.
  unfold template_import. split.
  - intros H args A. destruct A; discriminate.
  - intros N. destruct l as [|[| | | | |l0] r]; try reflexivity; [destruct (N [] ArgsNone)|destruct (N l0 (ArgsDict l0 r))].
Qed.
Lemma template_stack t c l s : stack_cmd t c l -> continue_mark template t s = match handle_stack show c l s with Raise e => Raise e | Ret (ts, s) => Ret (Some ts, s) end.
Proof. intros H. apply stack_some in H. cbn [continue_mark Html.template]. unfold template_continue. rewrite H. reflexivity. Qed.
Lemma template_template t c l s : template_cmd t c l -> continue_mark template t s = match handle_template fragment c l s with Raise e => Raise e | Ret (ts, s) => Ret (Some ts, s) end.
Proof. intros H. pose proof (template_alone _ _ _ H) as E. apply template_some in H. cbn [continue_mark Html.template]. unfold template_continue. rewrite E, H. reflexivity. Qed.
Lemma replaces_one (m : manip htoken hstate) s t seg repl s2 r0 s0 : continue_mark m t s = Ret (Some r0, s0) -> replaces m s (t :: seg) repl s2 -> seg = [] /\ repl = r0 /\ s2 = s0.
Proof. intros C H. inversion H as [t1 s1 repl1 s3 C1|t1 s1 s3 seg1 repl1 s4 C1 H1]; subst; rewrite C in C1; apply Ret_inj in C1; [split; [reflexivity|split; congruence]|discriminate]. Qed.
Lemma replaces_some (m : manip htoken hstate) s t seg repl s2 : replaces m s (t :: seg) repl s2 -> (forall s1, continue_mark m t s <> Ret (None, s1)) -> seg = [] /\ continue_mark m t s = Ret (Some repl, s2).
Proof. intros H N. inversion H as [t1 s1 repl1 s3 C1|t1 s1 s3 seg1 repl1 s4 C1 H1]; subst; [auto|destruct (N _ C1)]. Qed.

(** ** Whole pages *)
Definition hint_to (name : str) (attrs : list (str * str)) (n : str) (t : htoken) : Prop :=
  if scan then t = HEmpty name attrs else exists u attrs', hint_url h p attrs n u /\ retagged attrs n u attrs' /\ t = HEmpty name attrs'.
Definition ref_to (f : fs) (t : htoken) (n path : str) (t' : htoken) : Prop :=
  if scan then t' = t else exists v, dget (in_output path ++ lit ".hash") f = Some v /\ new_ref t n (version (47 :: path) (strip v)) t'.
Inductive wr : nat -> nat -> fs -> list event -> list htoken -> fs -> list report -> Prop :=
| wr_end i j f : wr i j f [] [] f []
| wr_same i j f t evs out f' rs : wr i j f evs out f' rs -> wr i j f (Same t :: evs) (t :: out) f' rs
| wr_said i j f x evs out f' rs : wr i j f evs out f' rs -> wr i j f (Said x :: evs) (HChars x :: out) f' rs
| wr_hint i j f name attrs n t evs out f' rs : hint_to name attrs n t -> wr i j f evs out f' rs -> wr i j f (Hint name attrs n :: evs) (t :: out) f' rs
| wr_ref i j f t attrs n path t' evs out f' rs : ref_to f t n path t' -> wr i j f evs out f' rs -> wr i j f (Ref t attrs n path :: evs) (t' :: out) f' rs
| wr_script i j f attrs text r f2 t evs out f' rs : script_to i f attrs text r f2 t -> wr (i + 1) j f2 evs out f' rs -> wr i j f (Script attrs text :: evs) (t :: HEnd (lit "script") :: out) f' (r :: rs)
| wr_style i j f text r f2 t evs out f' rs : style_to j f text r f2 t -> wr i (j + 1) f2 evs out f' rs -> wr i j f (Style text :: evs) (t :: out) f' (r :: rs)
| wr_template i j f path text evs out f' rs : dget path f = Some text -> wr i j f evs out f' rs -> wr i j f (Template path text :: evs) out f' rs.
Record track (s s' : hstate) (evs : list event) (rs : list report) : Prop := {
  tr_links : forall q, In q (links s') <-> In q (links s) \/ In q (refs_of evs);
  tr_seen : forall q, In q (t_seen s') <-> In q (t_seen s) \/ In q (temps_of evs);
  tr_children : forall q, In q (o_seen s') <-> In q (o_seen s) \/ In q (flat_map (fun r => fst (fst r)) rs);
  tr_made : forall q, In q (o_made s') <-> In q (o_made s) \/ In q (flat_map (fun r => snd (fst r)) rs);
  tr_reused : forall q, In q (o_reused s') <-> In q (o_reused s) \/ In q (flat_map (fun r => snd r) rs) }.
Lemma track_end s : track s s [] [].
Proof. constructor; cbn; tauto. Qed.
(** an event that adds nothing *)
Lemma track_none e s s1 s' evs rs : refs_of [e] = [] -> temps_of [e] = [] -> links s1 = links s -> t_seen s1 = t_seen s -> o_seen s1 = o_seen s -> o_made s1 = o_made s -> o_reused s1 = o_reused s ->
  track s1 s' evs rs -> track s s' (e :: evs) rs.
Proof.
  intros E1 E2 L T A B C [TL TT TA TB TC]. constructor; [| |rewrite <- A; exact TA|rewrite <- B; exact TB|rewrite <- C; exact TC].
  - change (refs_of (e :: evs)) with (refs_of ([e] ++ evs)). unfold refs_of in *. rewrite flat_map_app, E1. cbn [app]. rewrite <- L. exact TL.
  - change (temps_of (e :: evs)) with (temps_of ([e] ++ evs)). unfold temps_of in *. rewrite flat_map_app, E2. cbn [app]. rewrite <- T. exact TT.
Qed.
Lemma track_drop s s1 s' evs rs : links s1 = links s -> t_seen s1 = t_seen s -> o_seen s1 = o_seen s -> o_made s1 = o_made s -> o_reused s1 = o_reused s -> track s1 s' evs rs -> track s s' evs rs.
Proof. intros L T A B C [TL TT TA TB TC]. constructor; [rewrite <- L|rewrite <- T|rewrite <- A|rewrite <- B|rewrite <- C]; assumption. Qed.
Lemma track_ref t attrs n path s s' evs rs : track (linked path s) s' evs rs -> track s s' (Ref t attrs n path :: evs) rs.
Proof.
  intros [TL TT TA TB TC]. constructor; try assumption. intros q. rewrite TL. cbn [linked with_links links refs_of flat_map app In]. rewrite add_In. fold (refs_of evs). intuition.
Qed.
Lemma track_temp path text s s' evs rs : track (with_templates (set_add path (t_seen s)) s) s' evs rs -> track s s' (Template path text :: evs) rs.
Proof.
  intros [TL TT TA TB TC]. constructor; try assumption. intros q. rewrite TT. cbn [with_templates t_seen temps_of flat_map app In]. rewrite add_In. fold (temps_of evs). intuition.
Qed.
Lemma track_done e r f i j s s' evs rs : refs_of [e] = [] -> temps_of [e] = [] -> track (done r f i j s) s' evs rs -> track s s' (e :: evs) (r :: rs).
Proof.
  intros E1 E2 [TL TT TA TB TC]. constructor.
  - intros q. rewrite TL. change (refs_of (e :: evs)) with (refs_of ([e] ++ evs)). unfold refs_of in *. rewrite flat_map_app, E1. reflexivity.
  - intros q. rewrite TT. change (temps_of (e :: evs)) with (temps_of ([e] ++ evs)). unfold temps_of in *. rewrite flat_map_app, E2. reflexivity.
  - intros q. rewrite TA. cbn [done with_outline with_results o_seen flat_map]. rewrite set_update_In, in_app_iff. tauto.
  - intros q. rewrite TB. cbn [done with_outline with_results o_made flat_map]. rewrite set_update_In, in_app_iff. tauto.
  - intros q. rewrite TC. cbn [done with_outline with_results o_reused flat_map]. rewrite set_update_In, in_app_iff. tauto.
Qed.
Lemma wr_same_inv i j f t evs out f' rs : wr i j f (Same t :: evs) out f' rs -> exists out1, out = t :: out1 /\ wr i j f evs out1 f' rs.
Proof. intros H. inversion H; subst. eauto. Qed.
Lemma track_same_inv t s s' evs rs : track s s' (Same t :: evs) rs -> track s s' evs rs.
Proof. intros [A B C D E]. constructor; assumption. Qed.
Lemma script_to_ok i f attrs text r f2 t : script_to i f attrs text r f2 t -> ordinary t /\ tag_ok t.
Proof.
  unfold script_to. assert (X : forall v attrs', retagged attrs (lit "src") v attrs' -> In 63 v -> t = HStart (lit "script") attrs' -> ordinary t /\ tag_ok t).
  { intros v attrs' (S & G & O) Q ->. split; [exact (script_ordinary _ _ G Q)|]. apply sorted_wf. exact S. }
  destruct scan.
  - intros (r0 & attrs' & _ & _ & _ & R & E). apply (X _ _ R); [|exact E]. apply in_app_iff. right. left. reflexivity.
  - intros (r0 & f1 & v & attrs' & _ & _ & _ & _ & _ & R & E). exact (X _ _ R (version_quest _ _) E).
Qed.
Lemma sheet_ordinary v : In 63 v -> ordinary (HEmpty (lit "link") [(lit "href", v); (lit "rel", lit "stylesheet")]) /\ tag_ok (HEmpty (lit "link") [(lit "href", v); (lit "rel", lit "stylesheet")]).
Proof.
  intros Q. split.
  - apply empty_ordinary; intros n H.
    + inversion H as [a Hc|]; subst. discriminate Hc.
    + intros H0. inversion H0; subst. apply (has_quest _ _ v); [reflexivity|exact Q].
  - cbn [tag_ok]. unfold dict_wf, dkeys. cbn [map fst]. repeat constructor; cbn [In]; intros X; repeat (destruct X as [X|X]; [discriminate X|]); exact X.
Qed.
Lemma style_to_ok j f text r f2 t : style_to j f text r f2 t -> ordinary t /\ tag_ok t.
Proof.
  unfold style_to. destruct scan.
  - intros (r0 & _ & _ & _ & ->). apply sheet_ordinary. apply in_app_iff. right. left. reflexivity.
  - intros (r0 & f1 & v & _ & _ & _ & _ & _ & ->). apply sheet_ordinary. apply version_quest.
Qed.
Lemma plain_ordinary t : match t with HEnd _ | HChars _ | HSpace _ | HOther _ => True | _ => False end -> ordinary t.
Proof. intros H. apply ordinary_none. destruct t; try contradiction; repeat split. Qed.
Lemma comment_ok x : tag_ok (HComment x).
Proof. exact I. Qed.
Context (Page : page_file relpath p) (Frag : forall text, Forall tag_ok (fragment text)).
Lemma template_repl_ok path (vars : list (str * json)) text : Forall tag_ok (push_cmd path :: map (fun kv => define_cmd (fst kv) (snd kv)) vars ++ fragment text ++ [pop_cmd]).
Proof. constructor; [exact I|]. apply Forall_app. split; [apply Forall_forall; intros t H; apply in_map_iff in H; destruct H as (x & <- & _); exact I|]. apply Forall_app. split; [apply Frag|repeat constructor]. Qed.
Lemma forward s ts out lost s' : rewrites ms s ts out lost s' -> lost = [] -> Forall tag_ok ts -> forall i j, ready i j s ->
  exists evs rs, page fragment show (t_frame s) (t_stack s) ts evs (t_frame s') (t_stack s') /\ wr i j (files s) evs out (files s') rs /\ track s s' evs rs /\ o_open s' = None.
Proof.
  induction 1 as [s|t s s1 ts out lost s2 D H IH|t m s s1 seg repl s2 ts out lost s3 M R H IH|t m s s1 seg s2 M R]; intros Lost Ok i j Rd; [| | |discriminate].
  - exists [], []. split; [apply PgEnd|]. split; [apply wr_end|]. split; [apply track_end|apply Rd].
  - inversion Ok as [|x y Ok1 Ok2]; subst x y. apply find_mark_declined in D. destruct (kinds t) as [K|[K|[K|[K|[K|[K|K]]]]]].
    + rewrite (fm_ordinary _ _ K) in D. apply Ret_inj in D. assert (s1 = s) as -> by congruence. destruct (IH Lost Ok2 i j Rd) as (evs & rs & P1 & W1 & T1 & O1). exists (Same t :: evs), rs. split; [apply PgSame; assumption|]. split; [apply wr_same; exact W1|]. split; [|exact O1]. apply (track_none _ s s); try reflexivity. exact T1.
    + destruct K as (name & attrs & n & Hi & L). rewrite (fm_hint _ _ _ _ _ Hi L) in D. destruct scan eqn:Sc; [|discriminate]. apply Ret_inj in D. assert (s1 = s) as -> by congruence. destruct (IH Lost Ok2 i j Rd) as (evs & rs & P1 & W1 & T1 & O1).
      exists (Hint name attrs n :: evs), rs. split; [apply (PgHint _ _ _ _ t); assumption|]. split; [apply wr_hint; [unfold hint_to; rewrite Sc; destruct Hi; reflexivity|exact W1]|]. split; [|exact O1]. apply (track_none _ s s); try reflexivity. exact T1.
    + destruct K as (attrs & n & path & Rf & Sp). rewrite (fm_ref _ _ _ _ _ Rf Sp) in D. destruct scan eqn:Sc; [|discriminate]. apply Ret_inj in D. assert (s1 = linked path s) as -> by congruence. destruct (IH Lost Ok2 i j Rd) as (evs & rs & P1 & W1 & T1 & O1).
      exists (Ref t attrs n path :: evs), rs. split; [apply PgRef; assumption|]. split; [apply wr_ref; [unfold ref_to; rewrite Sc; reflexivity|exact W1]|]. split; [|exact O1]. apply track_ref. exact T1.
    + destruct K as (attrs & -> & Sr). rewrite (fm_script _ _ Sr) in D. discriminate.
    + destruct K as (attrs & ->). rewrite fm_style in D. discriminate.
    + destruct K as (c & l & K). rewrite (fm_stack _ _ _ _ K) in D. discriminate.
    + destruct K as (c & l & K). rewrite (fm_template _ _ _ _ K) in D. discriminate.
  - cbn [app] in Ok. inversion Ok as [|x y Ok1 Ok2]; subst x y. apply Forall_app in Ok2. destruct Ok2 as [Ok2 Ok3]. apply find_mark_marked in M. destruct (kinds t) as [K|[K|[K|[K|[K|[K|K]]]]]].
    + rewrite (fm_ordinary _ _ K) in M. discriminate.
    + destruct K as (name & attrs & n & Hi & L). rewrite (fm_hint _ _ _ _ _ Hi L) in M. destruct scan eqn:Sc; [discriminate|]. apply Ret_inj in M. assert (m = canonical /\ s1 = s) as [-> ->] by (rewrite Sc; split; congruence). rewrite Sc in R.
      destruct (hint_out t name attrs n s Page Ok1 Hi L) as (u & attrs' & Hu & Hr & C & Oo & Wf). rewrite Sc in C. destruct (replaces_one _ _ _ _ _ _ _ _ C R) as (-> & -> & ->). cbn [app] in *.
      destruct (IH Lost (Forall_cons _ (Wf : tag_ok (HEmpty name attrs')) Ok3) i j Rd) as (evs0 & rs & P1 & W1 & T1 & O1). apply page_same in P1; [|exact Oo]. destruct P1 as (evs & -> & P1). apply wr_same_inv in W1. destruct W1 as (out1 & -> & W1). apply track_same_inv in T1.
      exists (Hint name attrs n :: evs), rs. split; [apply (PgHint _ _ _ _ t); assumption|]. split; [apply wr_hint; [unfold hint_to; rewrite Sc; eauto|exact W1]|]. split; [|exact O1]. apply (track_none _ s s); try reflexivity. exact T1.
    + destruct K as (attrs & n & path & Rf & Sp). rewrite (fm_ref _ _ _ _ _ Rf Sp) in M. destruct scan eqn:Sc; [discriminate|]. apply Ret_inj in M. assert (m = link_hash /\ s1 = linked path s) as [-> ->] by (rewrite Sc; split; congruence). rewrite Sc in R.
      destruct (ref_out t attrs n path (linked path s) Ok1 Rf Sp) as (C & Hn). rewrite Sc in C. destruct (dget (in_output path ++ lit ".hash") (files (linked path s))) as [v|] eqn:G; [|inversion R; subst; congruence].
      destruct (Hn (strip v)) as (t' & Et & Nr & Oo & Wf). rewrite <- Et in C. destruct (replaces_one _ _ _ _ _ _ _ _ C R) as (-> & -> & ->). cbn [app] in *.
      destruct (IH Lost (Forall_cons _ Wf Ok3) i j Rd) as (evs0 & rs & P1 & W1 & T1 & O1). apply page_same in P1; [|exact Oo]. destruct P1 as (evs & -> & P1). apply wr_same_inv in W1. destruct W1 as (out1 & -> & W1). apply track_same_inv in T1.
      exists (Ref t attrs n path :: evs), rs. split; [apply PgRef; assumption|]. split; [apply wr_ref; [unfold ref_to; rewrite Sc; exists v; split; [exact G|exact Nr]|exact W1]|]. split; [|exact O1]. apply track_ref. exact T1.
    + destruct K as (attrs & -> & Sr). rewrite (fm_script _ _ Sr) in M. apply Ret_inj in M. assert (m = outline /\ s1 = s) as [-> ->] by (split; congruence).
      apply (outline_script i j) in R; try assumption. destruct R as (inner & texts & name & -> & Tx & C). apply close_script in C; try assumption. destruct C as (r & f2 & t' & St & -> & ->). destruct (script_to_ok _ _ _ _ _ _ _ St) as [Oo Wf]. cbn [app] in *.
      destruct (IH Lost (Forall_cons _ Wf (Forall_cons _ (I : tag_ok (HEnd (lit "script"))) Ok3)) (i + 1)%nat j) as (evs0 & rs & P1 & W1 & T1 & O1); [split; [reflexivity|split; reflexivity]|]. apply page_same in P1; [|exact Oo]. destruct P1 as (evs1 & -> & P1). apply page_same in P1; [|apply plain_ordinary; exact I]. destruct P1 as (evs & -> & P1).
      apply wr_same_inv in W1. destruct W1 as (out1 & -> & W1). apply wr_same_inv in W1. destruct W1 as (out2 & -> & W1). apply track_same_inv, track_same_inv in T1.
      exists (Script attrs (concat texts) :: evs), (r :: rs). split; [rewrite <- app_assoc; cbn [app]; apply PgScript; assumption|]. split; [apply (wr_script _ _ _ _ _ _ f2); assumption|]. split; [|exact O1]. apply (track_done _ _ f2 (i + 1) j); try reflexivity. exact T1.
    + destruct K as (attrs & ->). rewrite fm_style in M. apply Ret_inj in M. assert (m = outline /\ s1 = s) as [-> ->] by (split; congruence).
      apply (outline_style i j) in R; try assumption. destruct R as (-> & inner & texts & name & -> & Tx & C). apply close_style in C; try assumption. destruct C as (r & f2 & t' & St & -> & ->). destruct (style_to_ok _ _ _ _ _ _ St) as [Oo Wf]. cbn [app] in *.
      destruct (IH Lost (Forall_cons _ Wf Ok3) i (j + 1)%nat) as (evs0 & rs & P1 & W1 & T1 & O1); [split; [reflexivity|split; reflexivity]|]. apply page_same in P1; [|exact Oo]. destruct P1 as (evs & -> & P1).
      apply wr_same_inv in W1. destruct W1 as (out1 & -> & W1). apply track_same_inv in T1.
      exists (Style (concat texts) :: evs), (r :: rs). split; [rewrite <- app_assoc; cbn [app]; apply PgStyle; assumption|]. split; [apply (wr_style _ _ _ _ _ f2); assumption|]. split; [|exact O1]. apply (track_done _ _ f2 i (j + 1)); try reflexivity. exact T1.
    + destruct K as (c & l & K). rewrite (fm_stack _ _ _ _ K) in M. apply Ret_inj in M. assert (m = template /\ s1 = s) as [-> ->] by (split; congruence).
      apply replaces_some in R; [|intros s4; rewrite (template_stack _ _ _ _ K); destruct (handle_stack show c l s) as [[a b]|]; congruence]. destruct R as [-> R]. rewrite (template_stack _ _ _ _ K) in R. destruct (handle_stack show c l s) as [[repl0 s4]|] eqn:E; [|discriminate]. apply Ret_inj in R. assert (repl0 = repl /\ s4 = s2) as [-> ->] by (split; congruence). clear R.
      apply stack_result in E. destruct E as [E|[E|[E|[E|E]]]].
      * destruct E as (q & r & -> & -> & -> & ->). destruct (IH Lost Ok3 i j Rd) as (evs & rs & P1 & W1 & T1 & O1). exists evs, rs. split; [apply (PgPush _ _ _ _ _ q r); assumption|]. split; [exact W1|]. split; [|exact O1]. eapply track_drop; [..|exact T1]; reflexivity.
      * destruct E as (-> & fr1 & st & Es & -> & ->). destruct (IH Lost Ok3 i j Rd) as (evs & rs & P1 & W1 & T1 & O1). exists evs, rs. split; [rewrite Es; apply (PgPop _ _ _ _ _ _ l); assumption|]. split; [exact W1|]. split; [|exact O1]. eapply track_drop; [..|exact T1]; reflexivity.
      * destruct E as (k & v & -> & -> & -> & ->). destruct (IH Lost Ok3 i j Rd) as (evs & rs & P1 & W1 & T1 & O1). exists evs, rs. split; [apply (PgDefine _ _ _ _ _ k v); assumption|]. split; [exact W1|]. split; [|exact O1]. eapply track_drop; [..|exact T1]; reflexivity.
      * destruct E as (k & v & x & N & -> & -> & G & Sh & -> & ->). destruct (IH Lost (Forall_cons _ (I : tag_ok (HChars x)) Ok3) i j Rd) as (evs0 & rs & P1 & W1 & T1 & O1). apply page_same in P1; [|apply plain_ordinary; exact I]. destruct P1 as (evs & -> & P1). apply wr_same_inv in W1. destruct W1 as (out1 & -> & W1). apply track_same_inv in T1.
        exists (Said x :: evs), rs. split; [apply (PgRetrieve _ _ _ _ _ k v); assumption|]. split; [apply wr_said; exact W1|]. split; [|exact O1]. apply (track_none _ s s); try reflexivity. exact T1.
      * destruct E as (C1 & C2 & C3 & C4 & -> & ->). destruct (IH Lost Ok3 i j Rd) as (evs & rs & P1 & W1 & T1 & O1). exists evs, rs. split; [apply (PgIgnored _ _ _ _ _ c l); assumption|]. split; [exact W1|]. split; [|exact O1]. eapply track_drop; [..|exact T1]; reflexivity.
    + destruct K as (c & l & K). rewrite (fm_template _ _ _ _ K) in M. apply Ret_inj in M. assert (m = template /\ s1 = s) as [-> ->] by (split; congruence).
      apply replaces_some in R; [|intros s4; rewrite (template_template _ _ _ _ K); destruct (handle_template fragment c l s) as [[a b]|]; congruence]. destruct R as [-> R]. rewrite (template_template _ _ _ _ K) in R. destruct (handle_template fragment c l s) as [[repl0 s4]|] eqn:E; [|discriminate]. apply Ret_inj in R. assert (repl0 = repl /\ s4 = s2) as [-> ->] by (split; congruence). clear R.
      unfold handle_template in E. destruct (template_import (t_frame s) c l) as [[path vars]|] eqn:Im.
      * apply import_some in Im. destruct Im as (args & A & Pa & Tp). cbv zeta in E. cbn [with_templates files] in E. destruct (dget path (files s)) as [text|] eqn:G; [|discriminate]. apply Ret_inj in E.
        assert (repl = push_cmd path :: map (fun kv => define_cmd (fst kv) (snd kv)) vars ++ fragment text ++ [pop_cmd] /\ s2 = with_templates (set_add path (t_seen s)) s) as [-> ->] by (injection E as <- <-; split; reflexivity). clear E.
        destruct (IH Lost (proj2 (Forall_app _ _ _) (conj (template_repl_ok path vars text) Ok3)) i j Rd) as (evs & rs & P1 & W1 & T1 & O1).
        exists (Template path text :: evs), rs. split; [apply (PgTemplate _ _ _ _ t c l args vars); try assumption; cbn [app] in P1; rewrite <- !app_assoc in P1; cbn [app] in P1; exact P1|]. split; [apply wr_template; assumption|]. split; [|exact O1]. apply track_temp. exact T1.
      * apply Ret_inj in E. assert (repl = [] /\ s2 = s) as [-> ->] by (split; congruence). destruct (IH Lost Ok3 i j Rd) as (evs & rs & P1 & W1 & T1 & O1). exists evs, rs. split; [apply (PgNoTemplate _ _ _ _ t c l); [exact K|apply (import_none (t_frame s) c); exact Im|exact P1]|]. split; [exact W1|]. split; [|exact O1]. eapply track_drop; [..|exact T1]; reflexivity.
Qed.
Definition ends (s : hstate) (ts out : list htoken) (evs : list event) (rs : list report) (fr' : frame) (st' : list frame) (f' : fs) : Prop :=
  exists s', rewrites ms s ts out [] s' /\ t_frame s' = fr' /\ t_stack s' = st' /\ files s' = f' /\ track s s' evs rs /\ o_open s' = None.
Lemma mark_one m s s1 t ts out s3 repl s2 : find_mark ms t s = Ret (Some m, s1) -> continue_mark m t s1 = Ret (Some repl, s2) -> rewrites ms s2 (repl ++ ts) out [] s3 -> rewrites ms s (t :: ts) out [] s3.
Proof. intros F C R. apply find_mark_marked in F. change (t :: ts) with ((t :: []) ++ ts). apply (RwMark _ t m s s1 [] repl s2); [exact F|apply ReplEnd; exact C|exact R]. Qed.
Lemma pass_ordinary t s ts out s' : ordinary t -> rewrites ms s ts out [] s' -> rewrites ms s (t :: ts) (t :: out) [] s'.
Proof. intros O R. apply (RwPass _ t s s); [apply find_mark_declined, fm_ordinary; exact O|exact R]. Qed.
Lemma backward fr st ts evs fr' st' : page fragment show fr st ts evs fr' st' -> Forall tag_ok ts -> forall i j s out f' rs, t_frame s = fr -> t_stack s = st -> ready i j s -> wr i j (files s) evs out f' rs ->
  ends s ts out evs rs fr' st' f'.
Proof.
  induction 1 as [fr st|fr st t ts evs fr' st' O H IH|fr st t name attrs n ts evs fr' st' Hi L H IH|fr st t attrs n path ts evs fr' st' Rf Sp H IH|fr st attrs inner texts name ts evs fr' st' Sr Tx H IH|fr st inner texts name ts evs fr' st' Tx H IH
    |fr st t q l ts evs fr' st' K H IH|fr fr1 st t l ts evs fr' st' K H IH|fr st t k v ts evs fr' st' K H IH|fr st t k v x ts evs fr' st' N K G Sh H IH|fr st t c l ts evs fr' st' K C1 C2 C3 C4 H IH
    |fr st t c l args vars path text ts evs fr' st' K A Pa Tp H IH|fr st t c l ts evs fr' st' K A H IH]; intros Ok i j s out f' rs Ef Es Rd W.
  - inversion W; subst. exists s. split; [apply RwEnd|]. split; [reflexivity|]. split; [reflexivity|]. split; [reflexivity|]. split; [apply track_end|apply Rd].
  - inversion Ok as [|x y Ok1 Ok2]; subst x y. apply wr_same_inv in W. destruct W as (out1 & -> & W). destruct (IH Ok2 i j s out1 f' rs Ef Es Rd W) as (s' & R & E1 & E2 & E3 & T & Oe). exists s'. split; [apply pass_ordinary; assumption|]. do 3 (split; [assumption|]). split; [|exact Oe]. apply (track_none _ s s); try reflexivity. exact T.
  - inversion Ok as [|x y Ok1 Ok2]; subst x y. inversion W as [| | |i0 j0 f0 name0 attrs0 n0 t' evs0 out1 f1 rs0 Ht W1| | | |]; subst. destruct (IH Ok2 i j s out1 f' rs eq_refl eq_refl Rd W1) as (s' & R & E1 & E2 & E3 & T & Oe). exists s'. split; [|do 3 (split; [assumption|]); split; [|exact Oe]; apply (track_none _ s s); try reflexivity; exact T].
    unfold hint_to in Ht. pose proof (fm_hint _ _ _ _ s Hi L) as F. destruct scan eqn:Sc.
    + subst t'. assert (t = HEmpty name attrs) as <- by (destruct Hi; reflexivity). rewrite ?Sc in F, R |- *. apply (RwPass _ t s s); [apply find_mark_declined; exact F|exact R].
    + destruct Ht as (u & attrs' & Hu & Hr & ->). destruct (hint_out t name attrs n s Page Ok1 Hi L) as (u0 & attrs0 & Hu0 & Hr0 & C & Oo & Wf).
      assert (u0 = u) as -> by (destruct Hu; inversion Hu0; subst; congruence). assert (attrs0 = attrs') as -> by exact (retagged_fun _ _ _ _ _ Hr0 Hr). rewrite <- Sc in F, R |- *. pose proof (pass_ordinary _ _ _ _ _ Oo R) as X. exact (mark_one _ _ _ _ _ _ _ _ _ F C X).
  - inversion Ok as [|x y Ok1 Ok2]; subst x y. inversion W as [| | | |i0 j0 f0 t0 attrs0 n0 path0 t' evs0 out1 f1 rs0 Ht W1| | |]; subst. destruct (IH Ok2 i j (linked path s) out1 f' rs eq_refl eq_refl Rd W1) as (s' & R & E1 & E2 & E3 & T & Oe). exists s'. split; [|do 3 (split; [assumption|]); split; [|exact Oe]; apply track_ref; exact T].
    unfold ref_to in Ht. pose proof (fm_ref _ _ _ _ s Rf Sp) as F. destruct scan eqn:Sc.
    + subst t'. rewrite ?Sc in F, R |- *. apply (RwPass _ t s (linked path s)); [apply find_mark_declined; exact F|exact R].
    + destruct Ht as (v & G & Nr). destruct (ref_out t attrs n path (linked path s) Ok1 Rf Sp) as (C & Hn). change (files (linked path s)) with (files s) in C. rewrite G in C. destruct (Hn (strip v)) as (t0 & Et & Nr0 & Oo & Wf). rewrite <- Et in C. assert (t0 = t') as -> by exact (new_ref_fun _ _ _ _ _ Nr0 Nr).
      rewrite <- Sc in F, R |- *. pose proof (pass_ordinary _ _ _ _ _ Oo R) as X. exact (mark_one _ _ _ _ _ _ _ _ _ F C X).
  - inversion Ok as [|x y Ok1 Ok2]; subst x y. apply Forall_app in Ok2. destruct Ok2 as [_ Ok2]. inversion Ok2 as [|x y _ Ok3]; subst x y. inversion W as [| | | | |i0 j0 f0 attrs0 text r f2 t' evs0 out1 f1 rs0 Ht W1| |]; subst. destruct (script_to_ok _ _ _ _ _ _ _ Ht) as [Oo Wf].
    destruct (IH Ok3 (i + 1)%nat j (done r f2 (i + 1) j s) out1 f' rs0 eq_refl eq_refl (conj eq_refl (conj eq_refl eq_refl)) W1) as (s' & R & E1 & E2 & E3 & T & Oe). exists s'. split; [|do 3 (split; [assumption|]); split; [|exact Oe]; apply (track_done _ _ f2 (i + 1) j); try reflexivity; exact T].
    replace (HStart (lit "script") attrs :: inner ++ HEnd name :: ts) with ((HStart (lit "script") attrs :: (inner ++ [HEnd name])) ++ ts) by (cbn [app]; rewrite <- app_assoc; reflexivity).
    apply (RwMark _ _ outline s s _ [t'; HEnd (lit "script")] (done r f2 (i + 1) j s)); [apply find_mark_marked, fm_script; exact Sr| |].
    + apply (outline_script i j); try assumption. exists inner, texts, name. split; [reflexivity|]. split; [exact Tx|]. apply close_script; try assumption. eauto 7.
    + cbn [app]. apply pass_ordinary; [exact Oo|]. apply pass_ordinary; [apply plain_ordinary; exact I|exact R].
  - inversion Ok as [|x y Ok1 Ok2]; subst x y. apply Forall_app in Ok2. destruct Ok2 as [_ Ok2]. inversion Ok2 as [|x y _ Ok3]; subst x y. inversion W as [| | | | | |i0 j0 f0 text r f2 t' evs0 out1 f1 rs0 Ht W1|]; subst. destruct (style_to_ok _ _ _ _ _ _ Ht) as [Oo Wf].
    destruct (IH Ok3 i (j + 1)%nat (done r f2 i (j + 1) s) out1 f' rs0 eq_refl eq_refl (conj eq_refl (conj eq_refl eq_refl)) W1) as (s' & R & E1 & E2 & E3 & T & Oe). exists s'. split; [|do 3 (split; [assumption|]); split; [|exact Oe]; apply (track_done _ _ f2 i (j + 1)); try reflexivity; exact T].
    replace (HStart (lit "style") [] :: inner ++ HEnd name :: ts) with ((HStart (lit "style") [] :: (inner ++ [HEnd name])) ++ ts) by (cbn [app]; rewrite <- app_assoc; reflexivity).
    apply (RwMark _ _ outline s s _ [t'] (done r f2 i (j + 1) s)); [apply find_mark_marked, fm_style| |].
    + apply (outline_style i j); try assumption. split; [reflexivity|]. exists inner, texts, name. split; [reflexivity|]. split; [exact Tx|]. apply close_style; try assumption. eauto 7.
    + cbn [app]. apply pass_ordinary; [exact Oo|exact R].
  - inversion Ok as [|x y Ok1 Ok2]; subst x y fr st. destruct (IH Ok2 i j (with_frames (t_frame s :: t_stack s) {| fr_path := q; fr_vars := [] |} s) out f' rs eq_refl eq_refl Rd W) as (s' & R & E1 & E2 & E3 & T & Oe). exists s'. split; [|do 3 (split; [assumption|]); split; [|exact Oe]; eapply track_drop; [..|exact T]; reflexivity].
    refine (mark_one _ _ _ _ _ _ _ [] _ (fm_stack _ _ _ s K) _ R). rewrite (template_stack _ _ _ _ K). rewrite (proj2 (stack_result (lit "push") (JStr q :: l) s [] (with_frames (t_frame s :: t_stack s) {| fr_path := q; fr_vars := [] |} s))) by (left; exists q, l; do 3 (split; [reflexivity|]); reflexivity). reflexivity.
  - inversion Ok as [|x y Ok1 Ok2]; subst x y fr. destruct (IH Ok2 i j (with_frames st fr1 s) out f' rs eq_refl eq_refl Rd W) as (s' & R & E1 & E2 & E3 & T & Oe). exists s'. split; [|do 3 (split; [assumption|]); split; [|exact Oe]; eapply track_drop; [..|exact T]; reflexivity].
    refine (mark_one _ _ _ _ _ _ _ [] _ (fm_stack _ _ _ s K) _ R). rewrite (template_stack _ _ _ _ K). rewrite (proj2 (stack_result (lit "pop") l s [] (with_frames st fr1 s))) by (right; left; split; [reflexivity|]; exists fr1, st; split; [exact Es|]; split; reflexivity). reflexivity.
  - inversion Ok as [|x y Ok1 Ok2]; subst x y fr st. destruct (IH Ok2 i j (with_frames (t_stack s) {| fr_path := fr_path (t_frame s); fr_vars := dset k v (fr_vars (t_frame s)) |} s) out f' rs eq_refl eq_refl Rd W) as (s' & R & E1 & E2 & E3 & T & Oe). exists s'. split; [|do 3 (split; [assumption|]); split; [|exact Oe]; eapply track_drop; [..|exact T]; reflexivity].
    refine (mark_one _ _ _ _ _ _ _ [] _ (fm_stack _ _ _ s K) _ R). rewrite (template_stack _ _ _ _ K). rewrite (proj2 (stack_result (lit "define") [JStr k; v] s [] (with_frames (t_stack s) {| fr_path := fr_path (t_frame s); fr_vars := dset k v (fr_vars (t_frame s)) |} s))) by (right; right; left; exists k, v; do 3 (split; [reflexivity|]); reflexivity). reflexivity.
  - inversion Ok as [|y z Ok1 Ok2]; subst y z fr st. inversion W as [| |i0 j0 f0 x0 evs0 out1 f1 rs0 W1| | | | |]; subst. destruct (IH Ok2 i j s out1 f' rs eq_refl eq_refl Rd W1) as (s' & R & E1 & E2 & E3 & T & Oe). exists s'. split; [|do 3 (split; [assumption|]); split; [|exact Oe]; apply (track_none _ s s); try reflexivity; exact T].
    refine (mark_one _ _ _ _ _ _ _ [HChars x] s (fm_stack _ _ _ s K) _ _); [|cbn [app]; apply pass_ordinary; [apply plain_ordinary; exact I|exact R]]. rewrite (template_stack _ _ _ _ K). rewrite (proj2 (stack_result (lit "retrieve") [JStr k] s [HChars x] s)) by (do 3 right; left; exists k, v, x; split; [exact N|]; do 2 (split; [reflexivity|]); split; [exact G|]; split; [exact Sh|]; split; reflexivity). reflexivity.
  - inversion Ok as [|x y Ok1 Ok2]; subst x y fr st. destruct (IH Ok2 i j s out f' rs eq_refl eq_refl Rd W) as (s' & R & E1 & E2 & E3 & T & Oe). exists s'. split; [|do 3 (split; [assumption|]); split; [exact T|exact Oe]].
    refine (mark_one _ _ _ _ _ _ _ [] s (fm_stack _ _ _ s K) _ R). rewrite (template_stack _ _ _ _ K). rewrite (proj2 (stack_result c l s [] s)) by (do 4 right; do 4 (split; [assumption|]); split; reflexivity). reflexivity.
  - inversion Ok as [|x y Ok1 Ok2]; subst x y fr st. inversion W as [| | | | | | |i0 j0 f0 path0 text0 evs0 out1 f1 rs0 G W1]; subst.
    assert (Oq : Forall tag_ok (push_cmd path :: map (fun kv => define_cmd (fst kv) (snd kv)) vars ++ fragment text ++ pop_cmd :: ts)).
    { pose proof (proj2 (Forall_app _ _ _) (conj (template_repl_ok path vars text) Ok2)) as X. cbn [app] in X. rewrite <- !app_assoc in X. exact X. }
    destruct (IH Oq i j (with_templates (set_add path (t_seen s)) s) out f' rs eq_refl eq_refl Rd W1) as (s' & R & E1 & E2 & E3 & T & Oe). exists s'. split; [|do 3 (split; [assumption|]); split; [|exact Oe]; apply track_temp; exact T].
    refine (mark_one _ _ _ _ _ _ _ (push_cmd path :: map (fun kv => define_cmd (fst kv) (snd kv)) vars ++ fragment text ++ [pop_cmd]) (with_templates (set_add path (t_seen s)) s) (fm_template _ _ _ s K) _ _).
    + rewrite (template_template _ _ _ _ K). unfold handle_template. rewrite (proj2 (import_some (t_frame s) c l path vars)) by eauto. cbv zeta. cbn [with_templates files]. rewrite G. reflexivity.
    + cbn [app]. rewrite <- !app_assoc. exact R.
  - inversion Ok as [|x y Ok1 Ok2]; subst x y fr st. destruct (IH Ok2 i j s out f' rs eq_refl eq_refl Rd W) as (s' & R & E1 & E2 & E3 & T & Oe). exists s'. split; [|do 3 (split; [assumption|]); split; [exact T|exact Oe]].
    refine (mark_one _ _ _ _ _ _ _ [] s (fm_template _ _ _ s K) _ R). rewrite (template_template _ _ _ _ K). unfold handle_template. rewrite (proj2 (import_none (t_frame s) c l) A). reflexivity.
Qed.
End Run.
