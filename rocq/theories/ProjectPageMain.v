(** What page_run writes. *)
From Verif Require Import Base Graph GraphSpec Json PyPath PyNorm CssVersion Builder BuilderProofs Handlers JsYield OutlineData Html HtmlSpec HtmlMain HtmlTemplate ImgSize ImgSettings ImgExport ImgCommand Page PageWhole Hot ColdSpec Project ProjectSpec ProjectPump ProjectPage ProjectPageSpec ProjectPageSim ProjectEdit.
From Coq Require Import String ZArith NArith Bool List Lia.
Import ListNotations.
Open Scope list_scope.

(** the files of a run as a dictionary *)
Definition files_of (s : Hot.fs) (rs : list str) : Handlers.fs := flat_map (fun x => match s x with Some t => [(x, t)] | None => [] end) rs.
Lemma files_of_some s rs x t : dget x (files_of s rs) = Some t -> s x = Some t.
Proof.
  unfold files_of. induction rs as [|y rs IH]; [discriminate|]. cbn [flat_map]. destruct (s y) as [u|] eqn:E; [|exact IH]. cbn [app dget]. destruct (str_eqb x y) eqn:B; [|exact IH]. apply str_eqb_eq in B. subst y. intros H. injection H as <-. exact E.
Qed.
Lemma files_of_all s rs x : In x rs -> dget x (files_of s rs) = s x.
Proof.
  intros H. destruct (dget x (files_of s rs)) as [t|] eqn:E; [symmetry; exact (files_of_some _ _ _ _ E)|]. destruct (s x) as [t|] eqn:Es; [|reflexivity]. exfalso. revert H E. unfold files_of. induction rs as [|y rs IH]; [intros []|]. cbn [flat_map In]. intros [->|H].
  - rewrite Es. cbn [app dget]. rewrite str_eqb_refl. discriminate.
  - destruct (s y) as [u|]; [|auto]. cbn [app dget]. destruct (str_eqb x y); [discriminate|auto].
Qed.
Section Run.
Context (K : setting) (scan : bool) (f : str) (s : Hot.fs) (out : str) (ch rs : list str).
Lemma run_dict : page_run K scan f s = Some (out, ch, rs) ->
  exists text res b, s f = Some text /\ pump (page_manips (k_host K) f (k_fragment K) (k_show K) (fun x => dget x (files_of s rs)) scan) (k_fuel K) (k_document K text) (new_builder (h_init f [])) = Ret (res, b) /\
    out = k_write K res ++ [10%N] /\ ch = links (b_st b) ++ t_seen (b_st b) /\ t_stack (b_st b) = [] /\ (forall x, In x (links (b_st b)) -> starts_with (lit "/") x = false) /\
    (forall x, In x (t_seen (b_st b)) -> is_out x = false).
Proof.
  unfold page_run. destruct (s f) as [text|] eqn:Es; [|discriminate]. destruct (pump _ _ _ _) as [[res b]|] eqn:E; [|discriminate]. destruct (t_stack (b_st b)) eqn:Et; [|discriminate]. destruct (existsb _ (links _) || _) eqn:X; [discriminate|]. intros H. injection H as <- <- Hrs.
  apply orb_false_iff in X. destruct X as (X1 & X2). assert (Y1 : forall x, In x (links (b_st b)) -> starts_with (lit "/") x = false).
  { intros x Hx. destruct (starts_with (lit "/") x) eqn:Y; [|reflexivity]. assert (T : existsb (starts_with (lit "/")) (links (b_st b)) = true) by (apply existsb_exists; eauto). congruence. }
  assert (Y2 : forall x, In x (t_seen (b_st b)) -> is_out x = false).
  { intros x Hx. destruct (is_out x) eqn:Y; [|reflexivity]. assert (T : existsb is_out (t_seen (b_st b)) = true) by (apply existsb_exists; eauto). congruence. }
  destruct (page_reads _ _ _ _ s (fun x => dget x (files_of s rs)) scan _ _ _ _ _ E) as (b2 & E2 & B2).
  { split; intros x Hx; [|apply files_of_all; subst rs; right; apply in_or_app; right; exact Hx]. split; [exact (Y1 x Hx)|apply files_of_all; subst rs; right; apply in_or_app; left; apply in_map_iff; eauto]. }
  exists text, res, b2. rewrite B2. auto 9.
Qed.
End Run.
Definition host_text (K : setting) : str := match k_host K with Some h => h | None => lit "None" end.
Section Written.
Context (K : setting) (f p : str) (s : Hot.fs).
Definition ver_of (path : str) : option str := option_map strip (s (www (path ++ lit ".hash"))).
Context (Hp : page_file f p) (Hfrag : forall text, Forall tag_ok (k_fragment K text)) (Hdoc : forall text, Forall tag_ok (k_document K text)).
Lemma writes_shows rs i j evs res f' bs : (forall q, referred evs q -> starts_with (lit "/") q = false) ->
  writes (host_text K) p (fun _ _ => Raise ValueError) (fun _ _ => Raise ValueError) i j (files_of s rs) evs res f' bs -> shows (host_text K) p ver_of s evs res.
Proof.
  intros N W. remember (files_of s rs) as F eqn:EF. assert (T : forall e l, (forall q, referred (e :: l) q -> starts_with (lit "/") q = false) -> forall q, referred l q -> starts_with (lit "/") q = false).
  { intros e l X q (t0 & a0 & n0 & p0 & I0 & Q0). apply X. exists t0, a0, n0, p0. split; [right; exact I0|exact Q0]. }
  revert N EF. induction W; intros N EF; subst; try discriminate; try (specialize (IHW (T _ _ N) eq_refl)).
  - constructor.
  - constructor. exact IHW.
  - constructor. exact IHW.
  - econstructor; eassumption.
  - assert (Y : starts_with (lit "/") (in_public path) = false). { apply N. exists t, attrs, n, path. split; [left; reflexivity|reflexivity]. }
    assert (Z : in_output path = www path). { destruct (public_join path Y) as (_ & E2). unfold in_output. pose proof (www_join path) as X. rewrite E2 in X. exact X. }
    apply files_of_some in H. rewrite Z in H. apply ShRef with (v := strip h).
    + unfold ver_of. replace (www (path ++ lit ".hash")) with (www path ++ lit ".hash") by (unfold www; rewrite <- app_assoc; reflexivity). rewrite H. reflexivity.
    + replace (lit "/" ++ path ++ lit "?v=" ++ quote_plus (strip h) ++ lit "&pv=1.3.2") with (version (47%N :: path) (strip h)) by reflexivity. exact H0.
    + exact IHW.
  - constructor; [exact (files_of_some _ _ _ _ H)|exact IHW].
Qed.
Lemma page_written out ch rs : page_run K false f s = Some (out, ch, rs) ->
  exists text evs res fr, s f = Some text /\ page (k_fragment K) (k_show K) {| fr_path := f; fr_vars := [] |} [] (k_document K text) evs fr [] /\ shows (host_text K) p ver_of s evs res /\ out = k_write K res ++ [10%N] /\
    (forall q, In q ch <-> referred evs q \/ templates evs q).
Proof.
  intros H. destruct (run_dict K false f s out ch rs H) as (text & res & b & A1 & A2 & A3 & A4 & A5 & A6 & A7). apply (html_run (k_host K) f (k_fragment K) (k_show K) (files_of s rs) false (fun _ _ => Raise ValueError) (fun _ _ => Raise ValueError) (fun _ _ => Raise ValueError) (fun _ _ => Raise ValueError)) in A2.
  destruct A2 as (b2 & B1 & B2 & B3). assert (P : passes (Some (host_text K)) f (k_fragment K) (k_show K) (fun _ _ => Raise ValueError) (fun _ _ => Raise ValueError) (fun _ _ => Raise ValueError) (fun _ _ => Raise ValueError) false (files_of s rs) (k_document K text) res (b_st b2)).
  { exists (k_fuel K), b2. split; [|auto]. unfold host_text. destruct (k_host K); exact B1. }
  destruct (build_page _ _ _ _ _ _ _ _ _ Hp Hfrag _ _ _ _ (Hdoc text) P) as (evs & bs & C1 & C2 & C3 & C4 & _). rewrite B3 in C1, C3, C4. cbn [with_files with_results t_frame t_stack links t_seen] in C1, C3, C4. rewrite A5 in C1.
  exists text, evs, res, (t_frame (b_st b)). split; [exact A1|]. split; [exact C1|]. split; [|split; [exact A3|]].
  - eapply writes_shows; [|exact C2]. intros q Hq. apply A6, C3, Hq.
  - intros q. rewrite A4, in_app_iff, C3, C4. reflexivity.
Qed.
End Written.
(** nothing of the outlines is changed *)
Definition no_outline (s : hstate) : Prop := o_seen s = [] /\ o_made s = [] /\ o_reused s = [].
Lemma stack_outline show c l s ts s' : handle_stack show c l s = Ret (ts, s') -> no_outline s -> no_outline s'.
Proof.
  unfold handle_stack. destruct (if str_eqb c (lit "push") then _ else _); [intros H; injection H as <- <-; exact (fun x => x)|]. destruct (str_eqb c (lit "pop")); [destruct (t_stack s); [discriminate|intros H; injection H as <- <-; exact (fun x => x)]|].
  destruct (str_eqb c (lit "define")); [destruct l as [|[] [|? [|]]]; intros H; injection H as <- <-; exact (fun x => x)|]. destruct (str_eqb c (lit "retrieve")); [|intros H; injection H as <- <-; exact (fun x => x)].
  destruct l as [|[|?|?|[|k0 k]|?|?] [|]]; try (intros H; injection H as <- <-; exact (fun x => x)). destruct (dget _ _) as [[]|]; try discriminate; intros H; injection H as <- <-; exact (fun x => x).
Qed.
Lemma outline_kept host p fragment show read scan : follows_one (page_manips host p fragment show read scan) (page_manips host p fragment show read scan) (fun a b => b = a /\ no_outline a).
Proof.
  intros t s s2 r s' (-> & N) E. pose proof E as E0. revert E0. unfold page_manips. cbn [find_mark start_mark canonical page_links page_guard page_templates].
  destruct (canonical_start host scan t s) as [[[|] s1]|] eqn:E1; [| |discriminate]; apply canonical_keeps in E1; subst s1.
  { intros H. injection H as <- <-. intros r2 s3 Ec. pose proof Ec as Ed. cbn [continue_mark canonical] in Ec. apply canonical_takes in Ec. destruct Ec as (A & ->). split; [exact A|]. eexists _, _, _. split; [reflexivity|]. split; [exact Ed|auto]. }
  destruct (link_start scan t s) as [[b s2]|] eqn:E2; [|discriminate]. apply link_start_cases in E2. assert (G : no_outline s2) by (destruct (link_dependency t) as [[[? path] ?]|]; destruct E2 as (_ & ->); exact N). destruct b.
  { intros H. injection H as <- <-. intros r2 s3 Ec. pose proof Ec as Ed. cbn [continue_mark page_links] in Ec. apply link_takes in Ec. destruct Ec as (A & -> & _). split; [exact A|]. eexists _, _, _. split; [reflexivity|]. split; [exact Ed|auto]. }
  destruct (page_left_out t); [discriminate|]. unfold template_start. destruct (match stack_command t with Some _ => _ | None => _ end); intros H; injection H as <- <-; [|eauto].
  intros r2 s3 Ec. pose proof Ec as Ed. cbn [continue_mark page_templates] in Ec. assert (A : r2 <> None) by (apply (template_takes p) in Ec; apply Ec). split; [exact A|]. eexists _, _, _. split; [reflexivity|]. split; [exact Ed|]. split; [reflexivity|].
  unfold page_template_continue in Ec. destruct (stack_command t) as [[c l]|].
  - destruct (handle_stack show c l s2) as [[ts s4]|] eqn:Eh; [|discriminate]. injection Ec as <- <-. exact (stack_outline _ _ _ _ _ _ Eh G).
  - destruct (template_command t) as [[c l]|]; [|injection Ec as <- <-; exact G]. unfold page_template in Ec. destruct (template_import _ c l) as [[path vars]|]; [|injection Ec as <- <-; exact G]. destruct (read path); [|discriminate]. injection Ec as <- <-. exact G.
Qed.
(** the five manipulators together *)
Lemma page_whole_agrees K scan f s out ch rs : page_run K scan f s = Some (out, ch, rs) ->
  forall folder js_scan css_scan js_build css_build (M : Type) int_high dims scan_one export picture (i : pstate) cwd, exists text res b, s f = Some text /\
    pump (page_whole (M := M) (k_host K) f folder cwd (k_fragment K) (k_show K) js_scan css_scan js_build css_build int_high dims scan_one export picture scan) (k_fuel K) (k_document K text) (new_builder (h_init f (files_of s rs), i)) = Ret (res, b) /\
    out = k_write K res ++ [10%N] /\ ch = links (fst (b_st b)) ++ t_seen (fst (b_st b)) /\ t_stack (fst (b_st b)) = [] /\ b_mark b = None /\ Html.files (fst (b_st b)) = files_of s rs /\
    o_seen (fst (b_st b)) = [] /\ o_made (fst (b_st b)) = [] /\ o_reused (fst (b_st b)) = [] /\ snd (b_st b) = i.
Proof.
  intros H folder js_scan css_scan js_build css_build M int_high dims scan_one export picture i cwd. destruct (run_dict K scan f s out ch rs H) as (text & res & b & A1 & A2 & A3 & A4 & A5 & _).
  destruct (pump_one _ _ _ (outline_kept _ _ _ _ _ _) _ _ (new_builder (h_init f [])) (new_builder (h_init f [])) _ _ ltac:(repeat split) A2) as (_ & _ & (_ & _ & _ & _ & N1 & N2 & N3)).
  destruct (whole_run (k_host K) f (k_fragment K) (k_show K) (files_of s rs) scan js_scan css_scan js_build css_build folder cwd int_high dims scan_one export picture i _ _ _ _ A2) as (b2 & B1 & B2 & B3).
  exists text, res, b2. rewrite B3. auto 12.
Qed.
