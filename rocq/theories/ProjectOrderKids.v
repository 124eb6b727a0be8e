(** What the build of a file reports depends on the sources it looks at only. *)
From Verif Require Import Base Graph GraphSpec PyStr PyPath PyNorm PathSpec Json Css Nest NestSpec NestProofs Page Html HtmlSpec HtmlProofs HtmlTemplate Js Builder CssVersion CssVersionSpec CssVersionProofs JsYield JsManip JsManipSpec Handlers Hot HotSpec HotGraphs HotResultSpec HotResultProofs HotWantSpec HotWantProofs
  Project ProjectSpec ProjectPaths ProjectPump ProjectPage ProjectEdit ProjectFiles ProjectSeen ProjectMain ProjectOrderFiles ProjectOrderSpec ProjectOrderScan ProjectOrderSheet.
From Coq Require Import String ZArith NArith Bool List Relations Lia.
Import ListNotations.
Open Scope list_scope.

Section Pages.
Context (host : option str) (p : str) (fragment : str -> list htoken) (show : str -> str) (read read2 : str -> option str).
Notation one := (page_manips host p fragment show read false).
Notation two := (page_manips host p fragment show read2 false).
Lemma two_found t s x y : find_mark one t s = Ret x -> find_mark two t s = Ret y ->
  x = y /\ (fst x = None \/ fst x = Some (canonical host p false)) \/
  (exists s', x = (Some (page_links read false), s') /\ y = (Some (page_links read2 false), s')) \/
  (exists s', x = (Some (page_templates fragment show read), s') /\ y = (Some (page_templates fragment show read2), s')).
Proof.
  unfold page_manips. cbn [find_mark start_mark canonical page_links page_guard page_templates]. destruct (canonical_start _ _ _ _) as [[[|] s1]|]; [intros H1 H2; injection H1 as <-; injection H2 as <-; left; cbn; auto| |discriminate].
  destruct (link_start _ _ _) as [[[|] s2]|]; [intros H1 H2; injection H1 as <-; injection H2 as <-; right; left; eauto| |discriminate].
  destruct (page_left_out t); [discriminate|]. unfold template_start. destruct (match stack_command t with Some _ => _ | None => _ end); intros H1 H2; injection H1 as <-; injection H2 as <-; [right; right; eauto|left; cbn; auto].
Qed.
Lemma once read3 rest o s' k t' b2 : loop (page_manips host p fragment show read3 false) k (t' :: rest) {| b_out := o; b_mark := None; b_st := s' |} = Ret b2 -> canonical_tag t' = None -> link_dependency t' = None -> page_left_out t' = false -> stack_command t' = None -> template_command t' = None ->
  exists k', loop (page_manips host p fragment show read3 false) k' rest {| b_out := o ++ [t']; b_mark := None; b_st := s' |} = Ret b2 /\ (k' < k)%nat.
Proof. destruct k as [|k]; intros H H1 H2 H3 H4 H5; cbn [loop] in H; [discriminate|]. cbn [b_mark b_st b_out] in H. rewrite (once_written host p fragment show read3 t' s' H1 H2 H3 H4 H5) in H. exists k. split; [exact H|lia]. Qed.
Lemma loop_two f : forall g stack o o2 s b1 b2, loop one f stack {| b_out := o; b_mark := None; b_st := s |} = Ret b1 -> loop two g stack {| b_out := o2; b_mark := None; b_st := s |} = Ret b2 ->
  (forall x, In x (t_seen (b_st b1)) -> read2 x = read x) -> b_mark b1 = None /\ b_mark b2 = None /\ b_st b1 = b_st b2.
Proof.
  induction f as [f IH] using lt_wf_ind. intros g [|t rest] o o2 s b1 b2 L1 L2 A.
  { destruct f; cbn [loop] in L1; injection L1 as <-; destruct g; cbn [loop] in L2; injection L2 as <-; auto. }
  destruct f as [|f]; cbn [loop] in L1; [discriminate|]. destruct g as [|g]; cbn [loop] in L2; [discriminate|]. cbn [b_mark b_st b_out] in *.
  destruct (find_mark one t s) as [x|] eqn:E1; [|discriminate]. destruct (find_mark two t s) as [y|] eqn:E2; [|discriminate].
  destruct (two_found t s x y E1 E2) as [(<- & Hx)|[(s' & -> & ->)|(s' & -> & ->)]].
  - destruct x as [r s']. cbn [fst] in Hx. destruct Hx as [-> | ->].
    + eapply (IH f); [lia|eassumption..].
    + destruct (continue_mark (canonical host p false) t s') as [[out s1]|] eqn:Ec; [|discriminate]. cbn [continue_mark canonical] in Ec. destruct (canonical_once host p t s' s1 out Ec) as (t' & -> & H1 & H2 & H3 & H4 & H5). cbn [app] in L1, L2.
      destruct (once _ _ _ _ _ _ _ L1 H1 H2 H3 H4 H5) as (k1 & L3 & Hk). destruct (once _ _ _ _ _ _ _ L2 H1 H2 H3 H4 H5) as (k2 & L4 & _). eapply (IH k1); [lia|eassumption..].
  - destruct (continue_mark (page_links read false) t s') as [[out s1]|] eqn:Ec; [|discriminate]. destruct (continue_mark (page_links read2 false) t s') as [[out2 s2]|] eqn:Ec2; [|discriminate]. cbn [continue_mark page_links] in Ec, Ec2.
    pose proof (link_takes read _ _ _ _ Ec) as (_ & -> & _). pose proof (link_takes read2 _ _ _ _ Ec2) as (_ & -> & _).
    destruct (link_once read t s' s' out Ec) as (t1 & -> & H1 & H2 & H3 & H4 & H5). destruct (link_once read2 t s' s' out2 Ec2) as (t2 & -> & G1 & G2 & G3 & G4 & G5). cbn [app] in L1, L2.
    destruct (once _ _ _ _ _ _ _ L1 H1 H2 H3 H4 H5) as (k1 & L3 & Hk). destruct (once _ _ _ _ _ _ _ L2 G1 G2 G3 G4 G5) as (k2 & L4 & _). eapply (IH k1); [lia|eassumption..].
  - destruct (continue_mark (page_templates fragment show read) t s') as [[out s1]|] eqn:C1; [|discriminate]. destruct (continue_mark (page_templates fragment show read2) t s') as [[out2 s2]|] eqn:C2; [|discriminate]. cbn [continue_mark page_templates] in C1, C2.
    pose proof (template_takes p fragment show read _ _ _ _ C1) as (N1 & _ & T1). destruct out as [repl|]; [|contradiction]. pose proof (loop_grows host p fragment show read _ _ _ _ _ L1) as (_ & G).
    assert (X : (out2, s2) = (Some repl, s1)).
    { assert (Y : page_template_continue fragment show read2 t s' = Ret (Some repl, s1)); [|congruence]. rewrite <- C1. unfold page_template_continue in C1 |- *. destruct (stack_command t) as [[c l]|]; [reflexivity|]. destruct (template_command t) as [[c l]|]; [|reflexivity].
      unfold page_template in C1 |- *. destruct (template_import (t_frame s') c l) as [[path vars]|]; [|reflexivity]. rewrite (A path); [reflexivity|]. apply G. destruct (read path); [|discriminate]. injection C1 as _ <-. apply add_in. }
    injection X as -> ->. eapply (IH f); [lia|eassumption..].
Qed.
Lemma pump_two f g : forall ts s o1 b1 o2 b2, pump one f ts (new_builder s) = Ret (o1, b1) -> pump two g ts (new_builder s) = Ret (o2, b2) ->
  (forall x, In x (t_seen (b_st b1)) -> read2 x = read x) -> b_st b1 = b_st b2.
Proof.
  induction ts as [|t ts IH]; intros s o1 b1 o2 b2 L1 L2 A; cbn [pump] in *; [injection L1 as _ <-; injection L2 as _ <-; reflexivity|]. unfold handle_token, new_builder in *.
  destruct (loop one f [t] _) as [c1|] eqn:E1; [|discriminate]. destruct (loop two g [t] _) as [c2|] eqn:E2; [|discriminate]. cbn [consume_tokens] in *.
  destruct (pump one f ts _) as [[p1 d1]|] eqn:P1; [|discriminate]. destruct (pump two g ts _) as [[p2 d2]|] eqn:P2; [|discriminate]. injection L1 as _ <-. injection L2 as _ <-.
  assert (M1 : b_mark c1 = None) by exact (proj1 (loop_agree _ _ page_grows (page_agree read read) (fun s => conj (incl_refl _) (incl_refl _)) page_grows_trans (page_agree_back read read) (page_step host p fragment show read read false) f [t] [] s c1 E1)).
  rewrite M1 in P1. pose proof (pump_agree _ _ page_grows (page_agree read read) (fun s => conj (incl_refl _) (incl_refl _)) page_grows_trans (page_agree_back read read) (page_step host p fragment show read read false) f ts _ _ _ P1) as ((_ & G) & _).
  destruct (loop_two f g [t] [] [] s c1 c2 E1 E2) as (_ & M2 & S); [intros x Hx; apply A, G, Hx|]. rewrite M2, <- S in P2. eapply IH; eassumption.
Qed.
End Pages.

Section Sheets.
Context (K : setting) (p : str) (read read2 : fs).
Notation ctoken := (token (F := k_float K)).
Notation cstate := (nstate (F := k_float K) * vstate)%type.
Notation one := (css_manips K p read false).
Notation two := (css_manips K p read2 false).
Notation plain := (Forall (fun t : ctoken => get_import (k_css K) t = None)).
(** a url that gets its hash *)
Lemma stamped (r : fs) g (t : ctoken) rest o n u l w h b : url_of u t = Some w -> CssVersion.hash_path p w = Some h ->
  loop (css_manips K p r false) g (t :: rest) {| b_out := o; b_mark := None; b_st := (n, {| v_in_url := u; v_seen := l |}) |} = Ret b -> get_import (k_css K) t = None ->
  exists g' o' n', (g' < g)%nat /\ n_seen n' = n_seen n /\ loop (css_manips K p r false) g' rest {| b_out := o'; b_mark := None; b_st := (n', {| v_in_url := u; v_seen := CssVersion.set_add h l |}) |} = Ret b.
Proof.
  intros U Hh L2 Ht. destruct g as [|g]; cbn [loop] in L2; [discriminate|]. cbn [b_mark b_st b_out] in *.
  destruct (find_mark (css_manips K p r false) t (n, _)) as [y|] eqn:E2; [|discriminate]. destruct (sheet_found K p _ _ _ _ _ _ Ht E2) as (n2' & r2 & v2' & V2 & N2 & ->).
  destruct (start_some p u l t w h U Hh) as (S1 & S2 & Nf). rewrite S1 in V2. injection V2 as <- <-.
  unfold lift_snd in L2. cbn [continue_mark version_urls fst snd] in L2. unfold v_continue in L2.
  assert (Hv : value_of t = Some w) by (destruct u, t; cbn in U |- *; congruence). rewrite Hv, Hh in L2. destruct (r h) as [hash|]; [|discriminate]. cbn [app] in L2. change (v_in_url {| v_in_url := u; v_seen := l |}) with u in L2. change (v_seen {| v_in_url := u; v_seen := l |}) with l in L2.
  set (t' := with_value t _) in L2. destruct g as [|g]; cbn [loop] in L2; [discriminate|]. cbn [b_mark b_st b_out] in L2.
  assert (Ht' : get_import (k_css K) t' = None) by (destruct u, t; try discriminate U; reflexivity). destruct (find_mark (css_manips K p r false) t' _) as [y|] eqn:E3; [|discriminate].
  destruct (sheet_found K p _ _ _ _ _ _ Ht' E3) as (n3 & r3 & v3 & V3 & N3 & ->).
  assert (U' : url_of u t' = Some (w ++ suffix hash)) by (unfold t'; destruct u, t; cbn in U |- *; try discriminate U; injection U as ->; reflexivity).
  assert (Nf' : next_flag u t' = u) by (unfold t'; destruct u, t; try discriminate U; reflexivity).
  pose proof (start_none p false u (CssVersion.set_add h l) t') as X. rewrite X in V3 by (intros z Z; rewrite U' in Z; injection Z as <-; apply stamped_not_wanted). injection V3 as <- <-. rewrite Nf' in L2.
  eexists g, _, n3. split; [lia|]. split; [congruence|exact L2].
Qed.
Lemma unstamped (r : fs) g (t : ctoken) rest o n u l b : (forall z, url_of u t = Some z -> CssVersion.hash_path p z = None) ->
  loop (css_manips K p r false) g (t :: rest) {| b_out := o; b_mark := None; b_st := (n, {| v_in_url := u; v_seen := l |}) |} = Ret b -> get_import (k_css K) t = None ->
  exists g' o' n', (g' < g)%nat /\ n_seen n' = n_seen n /\ loop (css_manips K p r false) g' rest {| b_out := o'; b_mark := None; b_st := (n', {| v_in_url := next_flag u t; v_seen := l |}) |} = Ret b.
Proof.
  intros U L2 Ht. destruct g as [|g]; cbn [loop] in L2; [discriminate|]. cbn [b_mark b_st b_out] in *.
  destruct (find_mark (css_manips K p r false) t (n, _)) as [y|] eqn:E2; [|discriminate]. destruct (sheet_found K p _ _ _ _ _ _ Ht E2) as (n2' & r2 & v2' & V2 & N2 & ->).
  rewrite (start_none p false u l t U) in V2. injection V2 as <- <-. eexists g, _, n2'. split; [lia|]. split; [exact N2|exact L2].
Qed.
Lemma loop_sheets f : forall g stack o o2 n n2 v b1 b2, plain stack -> n_seen n = n_seen n2 -> loop one f stack {| b_out := o; b_mark := None; b_st := (n, v) |} = Ret b1 -> loop two g stack {| b_out := o2; b_mark := None; b_st := (n2, v) |} = Ret b2 ->
  b_mark b1 = None /\ b_mark b2 = None /\ n_seen (fst (b_st b1)) = n_seen (fst (b_st b2)) /\ snd (b_st b1) = snd (b_st b2).
Proof.
  induction f as [f IH] using lt_wf_ind. intros g [|t rest] o o2 n n2 v b1 b2 Hp Hn L1 L2.
  { destruct f; cbn [loop] in L1; injection L1 as <-; destruct g; cbn [loop] in L2; injection L2 as <-; auto. }
  inversion Hp as [|x y Ht Hr]; subst. destruct v as [u l].
  destruct (url_of u t) as [w|] eqn:U; [destruct (CssVersion.hash_path p w) as [h|] eqn:Hh|].
  - destruct (stamped _ _ _ _ _ _ _ _ _ _ _ U Hh L1 Ht) as (g1 & o1 & n1 & X1 & Y1 & Z1). destruct (stamped _ _ _ _ _ _ _ _ _ _ _ U Hh L2 Ht) as (g2 & o3 & n3 & X2 & Y2 & Z2). eapply (IH g1 X1); [exact Hr| |exact Z1|exact Z2]. congruence.
  - assert (X : forall z, url_of u t = Some z -> CssVersion.hash_path p z = None) by (intros z Z; rewrite U in Z; injection Z as <-; exact Hh).
    destruct (unstamped _ _ _ _ _ _ _ _ _ X L1 Ht) as (g1 & o1 & n1 & X1 & Y1 & Z1). destruct (unstamped _ _ _ _ _ _ _ _ _ X L2 Ht) as (g2 & o3 & n3 & X2 & Y2 & Z2). eapply (IH g1 X1); [exact Hr| |exact Z1|exact Z2]. congruence.
  - assert (X : forall z, url_of u t = Some z -> CssVersion.hash_path p z = None) by (intros z Z; rewrite U in Z; discriminate).
    destruct (unstamped _ _ _ _ _ _ _ _ _ X L1 Ht) as (g1 & o1 & n1 & X1 & Y1 & Z1). destruct (unstamped _ _ _ _ _ _ _ _ _ X L2 Ht) as (g2 & o3 & n3 & X2 & Y2 & Z2). eapply (IH g1 X1); [exact Hr| |exact Z1|exact Z2]. congruence.
Qed.
Lemma pump_sheets f g : forall ts n n2 v o1 b1 o2 b2, plain ts -> n_seen n = n_seen n2 -> pump one f ts (new_builder (n, v)) = Ret (o1, b1) -> pump two g ts (new_builder (n2, v)) = Ret (o2, b2) ->
  n_seen (fst (b_st b1)) = n_seen (fst (b_st b2)) /\ snd (b_st b1) = snd (b_st b2).
Proof.
  induction ts as [|t ts IH]; intros n n2 v o1 b1 o2 b2 Hp Hn L1 L2; cbn [pump] in *; [injection L1 as _ <-; injection L2 as _ <-; auto|]. unfold handle_token, new_builder in *. inversion Hp as [|x y Ht Hr]; subst.
  destruct (loop one f [t] _) as [c1|] eqn:E1; [|discriminate]. destruct (loop two g [t] _) as [c2|] eqn:E2; [|discriminate]. cbn [consume_tokens] in *.
  destruct (pump one f ts _) as [[p1 d1]|] eqn:P1; [|discriminate]. destruct (pump two g ts _) as [[p2 d2]|] eqn:P2; [|discriminate]. injection L1 as _ <-. injection L2 as _ <-.
  destruct (loop_sheets f g [t] [] [] n n2 v c1 c2 ltac:(repeat constructor; exact Ht) Hn E1 E2) as (M1 & M2 & N & V). rewrite M1 in P1. rewrite M2 in P2. destruct (b_st c1) as [m1 w1], (b_st c2) as [m2 w2]. cbn [fst snd] in *. subst w2. eapply IH; eassumption.
Qed.
End Sheets.

Section Files.
Context (c : constants) (K : setting).
Lemma edit_sources f s s2 o1 ch1 rs1 o2 ch2 rs2 : (forall x, In x rs1 -> is_out x = false -> s2 x = s x) -> is_out f = false -> simple c K s f ->
  edit_file c K false f s = Some (o1, ch1, rs1) -> edit_file c K false f s2 = Some (o2, ch2, rs2) -> incl ch2 ch1.
Proof.
  intros Hs Hf (S1 & S2) H1 H2.
  assert (Ef : s2 f = s f).
  { apply Hs; [|exact Hf]. unfold edit_file in H1. destruct (build_with (c_relpath c) f) eqn:B; try discriminate.
    - unfold page_run in H1. destruct (s f); [|discriminate]. destruct (pump _ _ _ _) as [[? ?]|]; [|discriminate]. destruct (t_stack _); [|discriminate]. destruct (_ || _); [discriminate|]. injection H1 as _ _ <-. left. reflexivity.
    - unfold css_run in H1. destruct (s f); [|discriminate]. destruct (tokenize _ _ _ _) as [? [?|]]; [discriminate|]. destruct (pump _ _ _ _) as [[? ?]|]; [|discriminate]. destruct (existsb _ _); [discriminate|]. injection H1 as _ _ <-. left. reflexivity.
    - destruct (js_run K false f s) as [[? ?]|]; [|discriminate]. injection H1 as _ _ <-. left. reflexivity. }
  unfold edit_file in *. destruct (build_with (c_relpath c) f) eqn:B; try discriminate.
  - unfold page_run in *. rewrite Ef in H2. destruct (s f) as [text|]; [|discriminate].
    destruct (pump (page_manips (k_host K) f (k_fragment K) (k_show K) s false) _ _ _) as [[p1 b1]|] eqn:P1; [|discriminate]. destruct (pump (page_manips (k_host K) f (k_fragment K) (k_show K) s2 false) _ _ _) as [[p2 b2]|] eqn:P2; [|discriminate].
    destruct (t_stack (b_st b1)); [|discriminate]. destruct (existsb _ (links (b_st b1)) || existsb is_out (t_seen (b_st b1))) eqn:X; [discriminate|]. injection H1 as _ <- <-. apply orb_false_iff in X. destruct X as (_ & X).
    destruct (t_stack (b_st b2)); [|discriminate]. destruct (existsb _ (links (b_st b2)) || _); [discriminate|]. injection H2 as _ <- _.
    rewrite (pump_two _ _ _ _ _ _ _ _ _ _ _ _ _ _ P1 P2); [apply incl_refl|]. intros x Hx. apply Hs; [right; apply in_or_app; right; exact Hx|]. destruct (is_out x) eqn:Eo; [|reflexivity]. assert (Y : existsb is_out (t_seen (b_st b1)) = true) by (apply existsb_exists; eauto). congruence.
  - unfold css_run in *. rewrite Ef in H2. destruct (s f) as [text|] eqn:Et; [|discriminate]. destruct (tokenize _ _ _ text) as [ts [err|]] eqn:T; [discriminate|].
    destruct (pump (css_manips K f s false) _ _ _) as [[p1 b1]|] eqn:P1; [|discriminate]. destruct (pump (css_manips K f s2 false) _ _ _) as [[p2 b2]|] eqn:P2; [|discriminate].
    destruct (existsb _ (n_seen (fst (b_st b1)))); [discriminate|]. injection H1 as _ <- _. destruct (existsb _ (n_seen (fst (b_st b2)))); [discriminate|]. injection H2 as _ <- _.
    destruct (pump_sheets K f s s2 _ _ _ _ _ _ _ _ _ _ ltac:(apply Forall_forall; intros t Ht; apply import_none; exact (S2 eq_refl text ts eq_refl T t Ht)) eq_refl P1 P2) as (N & V). rewrite N, V. apply incl_refl.
  - destruct (js_run K false f s) as [[out1 l1]|] eqn:J1; [|discriminate]. destruct (js_run K false f s2) as [[out2 l2]|] eqn:J2; [|discriminate]. injection H1 as _ <- _. injection H2 as _ <- _.
    destruct (run_tokens K _ _ _ _ _ J1) as (text & ts & T1 & T2). intros x Hx. apply (run_seen K f s text ts out1 l1 J1 T1 T2); [exact (S1 eq_refl text ts T1 T2)|]. apply (run_seen K f s2 text ts out2 l2 J2); [congruence|exact T2|exact (S1 eq_refl text ts T1 T2)|exact Hx].
Qed.
Lemma kids_sources sha dev f s s2 rs ws : file_want sha c dev K f s = Some (rs, ws) -> (forall x, In x rs -> is_out x = false -> s2 x = s x) -> is_out f = false -> simple c K s f -> incl (kids c K f s2) (kids c K f s).
Proof.
  intros W Hs Hf Hsi. unfold kids. destruct (copy_target f) as [t|] eqn:Et; [|intros x []]. destruct (edit_file c K false f s2) as [[[o2 ch2] rs2]|] eqn:E2; [|intros x []].
  assert (E1 : exists o1 ch1, edit_file c K false f s = Some (o1, ch1, rs)).
  { unfold file_want in W. rewrite Et in W. pose proof E2 as B. unfold edit_file in B. destruct (build_with (c_relpath c) f); try discriminate; destruct (edit_file c K false f s) as [[[o1 ch1] rs1]|]; try discriminate; injection W as -> _; eauto. }
  destruct E1 as (o1 & ch1 & E1). rewrite E1. eapply edit_sources; eassumption.
Qed.
End Files.
