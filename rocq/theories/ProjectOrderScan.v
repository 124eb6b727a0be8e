(** What the scan of a page finds, its build finds. *)
From Verif Require Import Base Graph Json PyStr PyPath PyNorm CssVersion Builder BuilderProofs Handlers OutlineData Html HtmlProofs Page Hot ProjectPage.
From Coq Require Import String ZArith NArith Bool List Lia.
Import ListNotations.
Open Scope list_scope.

(** * Sorted attributes are looked up as before *)
Lemma leb_refl a : str_leb a a = true.
Proof. induction a as [|x a IH]; [reflexivity|]. cbn [str_leb]. rewrite N.ltb_irrefl. exact IH. Qed.
Lemma insert_lookup k v l m : dget m (insert_attr k v l) = if str_eqb m k then Some v else dget m l.
Proof.
  induction l as [|[k' v'] l IH]; cbn [insert_attr dget]; [reflexivity|]. destruct (str_leb k k') eqn:L; [reflexivity|]. cbn [dget]. rewrite IH.
  destruct (str_eqb m k') eqn:E; [|reflexivity]. apply str_eqb_eq in E. subst k'. destruct (str_eqb m k) eqn:E2; [|reflexivity]. apply str_eqb_eq in E2. subst k. rewrite leb_refl in L. discriminate.
Qed.
Lemma sort_lookup d m : dget m (sort_attrs d) = dget m d.
Proof. induction d as [|[k v] d IH]; [reflexivity|]. cbn [sort_attrs fold_right fst snd]. fold (sort_attrs d). rewrite insert_lookup, IH. reflexivity. Qed.

(** * The tags written are not taken again *)
Section Pages.
Context (host : option str) (p : str) (fragment : str -> list htoken) (show : str -> str).
Lemma canonical_once t s s1 out : canonical_continue host p t s = Ret (out, s1) ->
  exists t', out = Some [t'] /\ canonical_tag t' = None /\ link_dependency t' = None /\ page_left_out t' = false /\ stack_command t' = None /\ template_command t' = None.
Proof.
  unfold canonical_continue. destruct (canonical_tag t) as [[[[name attr] href] oth]|] eqn:E; [|discriminate]. unfold canonical_tag in E. destruct (canonical_inner t) as [[[name0 attr0] attrs]|] eqn:I; [|discriminate].
  intros H. injection H as <- <-. eexists. split; [reflexivity|].
  assert (Ev : name0 = name /\ attr0 = attr /\ oth = filter (fun kv => negb (str_eqb (fst kv) attr)) attrs).
  { destruct (dget attr0 attrs) as [h|]; [destruct (starts_with (lit "http") h); [discriminate|]|]; injection E as <- <- _ <-; auto. }
  destruct Ev as (-> & -> & ->). clear E. set (new := match href with None => _ | Some _ => _ end). assert (Hn : starts_with (lit "http") new = true) by (unfold new; destruct href; reflexivity). clearbody new.
  apply canonical_inner_iff in I.
  destruct I as [a Ha|a Ha].
  - assert (R : dget (lit "rel") (sort_attrs (dset (lit "href") new (filter (fun kv => negb (str_eqb (fst kv) (lit "href"))) a))) = Some (lit "canonical")).
    { rewrite sort_lookup, dget_dset_other by discriminate. rewrite get_filter. exact Ha. }
    assert (V : dget (lit "href") (sort_attrs (dset (lit "href") new (filter (fun kv => negb (str_eqb (fst kv) (lit "href"))) a))) = Some new) by (rewrite sort_lookup; apply dget_dset_same).
    unfold canonical_tag, canonical_inner, link_dependency. rewrite !str_eqb_refl, R. cbn [str_eqb]. rewrite str_eqb_refl. rewrite V, Hn. repeat split.
  - assert (V : dget (lit "content") (sort_attrs (dset (lit "content") new (filter (fun kv => negb (str_eqb (fst kv) (lit "content"))) a))) = Some new) by (rewrite sort_lookup; apply dget_dset_same).
    unfold canonical_tag, canonical_inner, link_dependency. change (str_eqb (lit "meta") (lit "link")) with false. rewrite str_eqb_refl. cbv iota.
    match goal with |- context [dget (lit "property") ?x] => destruct (dget (lit "property") x) as [r|] end; [destruct (str_eqb r _); [rewrite V, Hn|]|]; repeat split.
Qed.
Lemma link_once read t s s1 out : page_link_continue read t s = Ret (out, s1) ->
  exists t', out = Some [t'] /\ canonical_tag t' = None /\ link_dependency t' = None /\ page_left_out t' = false /\ stack_command t' = None /\ template_command t' = None.
Proof.
  unfold page_link_continue. destruct (link_dependency t) as [[[attr path] attrs0]|] eqn:E; [|discriminate]. destruct (read (page_link_file path)) as [h|]; [|discriminate]. intros H. injection H as <- _. eexists. split; [reflexivity|].
  apply link_some in E. destruct E as (attrs & n & path' & R & _ & E). injection E as -> -> ->. match goal with |- context [dset _ (47%N :: path' ++ 63%N :: ?x)] => set (q := x) end.
  assert (Q : existsb (fun c => (c =? 63) || (c =? 35))%N (47%N :: path' ++ 63%N :: q) = true) by (cbn [existsb]; rewrite existsb_app; cbn; rewrite orb_true_r; reflexivity).
  set (u := 47%N :: path' ++ 63%N :: q) in *. assert (Hu : u = 47%N :: path' ++ 63%N :: q) by reflexivity. clearbody u. destruct R as [a Ha|a].
  - set (d := sort_attrs _). assert (V : dget (lit "href") d = Some u) by (unfold d; rewrite sort_lookup; apply dget_dset_same).
    assert (Hr : dget (lit "rel") d = Some (lit "stylesheet") \/ dget (lit "rel") d = Some (lit "preload")).
    { assert (X : dget (lit "rel") d = dget (lit "rel") a) by (unfold d; rewrite sort_lookup, dget_dset_other by discriminate; apply get_filter). rewrite X. exact Ha. }
    clearbody d. assert (L : link_dependency (HEmpty (lit "link") d) = None).
    { unfold link_dependency. rewrite str_eqb_refl. destruct Hr as [Hr|Hr]; rewrite Hr; change (link_found (lit "href") d = None); unfold link_found; rewrite V, Hu; rewrite <- Hu, Q; rewrite andb_false_r; reflexivity. }
    split; [unfold canonical_tag, canonical_inner; rewrite str_eqb_refl; destruct Hr as [Hr|Hr]; rewrite Hr; reflexivity|]. split; [exact L|]. repeat split.
  - set (d := sort_attrs _). assert (V : dget (lit "src") d = Some u) by (unfold d; rewrite sort_lookup; apply dget_dset_same). clearbody d.
    split; [reflexivity|]. split; [|split; [|split; reflexivity]].
    + change (link_found (lit "src") d = None). unfold link_found. rewrite V, Hu. rewrite <- Hu, Q, andb_false_r. reflexivity.
    + unfold page_left_out, inline_script, inline_style. rewrite str_eqb_refl. unfold dmem. rewrite V. reflexivity.
Qed.
(** a tag like that is written *)
Lemma once_written read t s : canonical_tag t = None -> link_dependency t = None -> page_left_out t = false -> stack_command t = None -> template_command t = None ->
  find_mark (page_manips host p fragment show read false) t s = Ret (None, s).
Proof.
  intros A B C D E. unfold page_manips. cbn [find_mark start_mark canonical page_links page_guard page_templates]. unfold canonical_start, link_start, template_start. rewrite A, B, C, D, E. reflexivity.
Qed.
Section Both.
Context (read read2 : str -> option str).
Notation scans := (page_manips host p fragment show read true).
Notation builds := (page_manips host p fragment show read2 false).
(** what the two do with a token *)
Lemma both_found t s x y : find_mark scans t s = Ret x -> find_mark builds t s = Ret y ->
  (x = (None, snd y) /\ (fst y = None \/ fst y = Some (canonical host p false) \/ fst y = Some (page_links read2 false))) \/
  (x = (Some (page_templates fragment show read), s) /\ y = (Some (page_templates fragment show read2), s)).
Proof.
  unfold page_manips. cbn [find_mark start_mark canonical page_links page_guard page_templates]. unfold canonical_start. destruct (canonical_tag t) as [z|] eqn:E1.
  - destruct host; [|discriminate]. apply canonical_some in E1. destruct E1 as (name & attrs & n & Hi & _). destruct Hi as [a Ha|a Ha].
    + assert (L : link_dependency (HEmpty (lit "link") a) = None) by (unfold link_dependency; rewrite str_eqb_refl, Ha; reflexivity). unfold link_start. rewrite L. cbn. intros H1 H2. injection H1 as <-. injection H2 as <-. left. cbn. auto.
    + cbn. intros H1 H2. injection H1 as <-. injection H2 as <-. left. cbn. auto.
  - unfold link_start. destruct (link_dependency t) as [[[attr path] attrs]|] eqn:E2; cbn [negb].
    + destruct (page_left_out t); [discriminate|]. unfold template_start. apply link_some in E2. destruct E2 as (a & n & path' & R & _). destruct R; cbn; intros H1 H2; injection H1 as <-; injection H2 as <-; left; cbn; auto.
    + destruct (page_left_out t); [discriminate|]. unfold template_start. destruct (match stack_command t with Some _ => _ | None => _ end); intros H1 H2; injection H1 as <-; injection H2 as <-; [right|left]; cbn; auto.
Qed.
Lemma loop_grows f stack o s b' : loop builds f stack {| b_out := o; b_mark := None; b_st := s |} = Ret b' -> page_grows s (b_st b').
Proof. intros H. exact (proj1 (proj2 (loop_agree _ _ page_grows (page_agree read2 read2) (fun s => conj (incl_refl _) (incl_refl _)) page_grows_trans (page_agree_back read2 read2) (page_step host p fragment show read2 read2 false) f stack o s b' H))). Qed.
Lemma loop_both f : forall g stack o o2 s b1 b2, loop scans f stack {| b_out := o; b_mark := None; b_st := s |} = Ret b1 -> loop builds g stack {| b_out := o2; b_mark := None; b_st := s |} = Ret b2 ->
  (forall x, In x (t_seen (b_st b2)) -> read2 x = read x) -> b_mark b1 = None /\ b_mark b2 = None /\ b_st b1 = b_st b2.
Proof.
  induction f as [|f IH]; intros g [|t rest] o o2 s b1 b2 L1 L2 A; cbn [loop] in L1; try discriminate.
  1, 2: injection L1 as <-; destruct g; cbn [loop] in L2; injection L2 as <-; auto.
  destruct g as [|g]; cbn [loop] in L2; [discriminate|]. cbn [b_mark b_st b_out] in *.
  destruct (find_mark scans t s) as [x|] eqn:E1; [|discriminate]. destruct (find_mark builds t s) as [y|] eqn:E2; [|discriminate].
  assert (Once : forall s' k t', loop builds k (t' :: rest) {| b_out := o2; b_mark := None; b_st := s' |} = Ret b2 -> canonical_tag t' = None -> link_dependency t' = None -> page_left_out t' = false -> stack_command t' = None -> template_command t' = None ->
    exists k', loop builds k' rest {| b_out := o2 ++ [t']; b_mark := None; b_st := s' |} = Ret b2).
  { intros s' [|k] t' H H1 H2 H3 H4 H5; cbn [loop] in H; [discriminate|]. cbn [b_mark b_st b_out] in H. rewrite (once_written read2 t' s' H1 H2 H3 H4 H5) in H. eauto. }
  destruct (both_found t s x y E1 E2) as [(-> & Hy)|(-> & ->)].
  - destruct y as [r s']. cbn [fst snd] in *. destruct Hy as [-> |[-> | ->]].
    + eapply IH; eassumption.
    + destruct (continue_mark (canonical host p false) t s') as [[out s1]|] eqn:Ec; [|discriminate]. cbn [continue_mark canonical] in Ec. pose proof (canonical_takes _ _ _ _ _ _ Ec) as (_ & ->).
      destruct (canonical_once t s' s' out Ec) as (t' & -> & H1 & H2 & H3 & H4 & H5). cbn [app] in L2. destruct (Once _ _ _ L2 H1 H2 H3 H4 H5) as (k & L3). eapply IH; eassumption.
    + destruct (continue_mark (page_links read2 false) t s') as [[out s1]|] eqn:Ec; [|discriminate]. cbn [continue_mark page_links] in Ec. pose proof (link_takes read2 _ _ _ _ Ec) as (_ & -> & _).
      destruct (link_once read2 t s' s' out Ec) as (t' & -> & H1 & H2 & H3 & H4 & H5). cbn [app] in L2. destruct (Once _ _ _ L2 H1 H2 H3 H4 H5) as (k & L3). eapply IH; eassumption.
  - destruct (continue_mark (page_templates fragment show read) t s) as [[out s1]|] eqn:C1; [|discriminate]. destruct (continue_mark (page_templates fragment show read2) t s) as [[out2 s2]|] eqn:C2; [|discriminate]. cbn [continue_mark page_templates] in C1, C2.
    pose proof (template_takes p fragment show read2 _ _ _ _ C2) as (N2 & _ & T2). destruct out2 as [repl|]; [|contradiction]. pose proof (loop_grows _ _ _ _ _ L2) as (_ & G).
    assert (X : (out, s1) = (Some repl, s2)).
    { assert (Y : page_template_continue fragment show read t s = Ret (Some repl, s2)); [|congruence]. rewrite <- C2. unfold page_template_continue in C2 |- *. destruct (stack_command t) as [[c l]|]; [reflexivity|]. destruct (template_command t) as [[c l]|]; [|reflexivity].
      unfold page_template in C2 |- *. destruct (template_import (t_frame s) c l) as [[path vars]|]; [|reflexivity]. rewrite (A path); [reflexivity|]. apply G. destruct (read2 path); [|discriminate]. injection C2 as _ <-. apply add_in. }
    injection X as -> ->. eapply IH; eassumption.
Qed.
Lemma pump_both f g : forall ts s o1 b1 o2 b2, pump scans f ts (new_builder s) = Ret (o1, b1) -> pump builds g ts (new_builder s) = Ret (o2, b2) ->
  (forall x, In x (t_seen (b_st b2)) -> read2 x = read x) -> b_st b1 = b_st b2.
Proof.
  induction ts as [|t ts IH]; intros s o1 b1 o2 b2 L1 L2 A; cbn [pump] in *; [injection L1 as _ <-; injection L2 as _ <-; reflexivity|]. unfold handle_token, new_builder in *.
  destruct (loop scans f [t] _) as [c1|] eqn:E1; [|discriminate]. destruct (loop builds g [t] _) as [c2|] eqn:E2; [|discriminate]. cbn [consume_tokens] in *.
  destruct (pump scans f ts _) as [[p1 d1]|] eqn:P1; [|discriminate]. destruct (pump builds g ts _) as [[p2 d2]|] eqn:P2; [|discriminate]. injection L1 as _ <-. injection L2 as _ <-.
  assert (M2 : b_mark c2 = None) by exact (proj1 (loop_agree _ _ page_grows (page_agree read2 read2) (fun s => conj (incl_refl _) (incl_refl _)) page_grows_trans (page_agree_back read2 read2) (page_step host p fragment show read2 read2 false) g [t] [] s c2 E2)).
  rewrite M2 in P2. pose proof (pump_agree _ _ page_grows (page_agree read2 read2) (fun s => conj (incl_refl _) (incl_refl _)) page_grows_trans (page_agree_back read2 read2) (page_step host p fragment show read2 read2 false) g ts _ _ _ P2) as ((_ & G) & _).
  destruct (loop_both f g [t] [] [] s c1 c2 E1 E2) as (M1 & _ & S); [intros x Hx; apply A, G, Hx|]. rewrite M1, S in P1. eapply IH; eassumption.
Qed.
End Both.
End Pages.
