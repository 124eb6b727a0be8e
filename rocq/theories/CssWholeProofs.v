(** Without icons and data images the four manipulators of stylesheets do what the two do. *)
From Verif Require Import Base Graph PyPath PyNorm Css CssVersion Builder BuilderSpec BuilderProofs Handlers OutlineData IconManip Nest Js JsYield JsManip Hot Project CssWhole.
From Coq Require Import String ZArith NArith Bool List.
Import ListNotations.
Open Scope list_scope.

Lemma tokens_eof {F} (float_of : str -> option F) hd ih fuel : forall s ts, tokens float_of hd ih fuel s = (ts, None) -> exists l, ts = l ++ [TEof].
Proof.
  induction fuel as [|n IH]; intros s ts; destruct s as [|a s]; cbn [tokens]; intros H; try discriminate; try (injection H as <-; exists []; reflexivity).
  destruct (next_token _ _ _ _ a s) as [[t rest]|]; [|discriminate]. destruct (tokens _ _ _ n rest) as [l e] eqn:E. injection H as <- ->. destruct (IH _ _ E) as (m & ->). exists (t :: m). reflexivity.
Qed.

Section Whole.
Context (K : setting) (sha : str -> str) (cfg : icon_settings) (decode : list N -> str) (lexists : Handlers.fs -> str -> bool) (p : str) (s : fs) (scan : bool).
Notation ctoken := (token (F := k_float K)).
Notation cstate := (nstate (F := k_float K) * vstate)%type.
Notation ms := (css_manips K p s scan).
Notation ws := (whole_manips K sha cfg decode lexists p s scan).
Notation nst := (nest_start (k_css K) p scan).
Notation vst := (v_start p scan).
Notation nestm := (nest (k_float_of K) (k_float_str K) (k_high_digit K) (k_int_high K) (k_css K) p s (k_pick K) (k_fuel K) scan).
Notation versionm := (version_urls p s scan).
Notation iconm := (icons (k_float_of K) (k_high_digit K) (k_int_high K) sha cfg (k_css K) p scan).
Notation outm := (outline_data decode sha lexists p scan).

Lemma guard_icon (t : ctoken) i : left_out K t = false -> start_mark iconm t i = Ret (false, i).
Proof. intros H. cbn. unfold i_start, get_icon_command_args. destruct t; try reflexivity. cbn in H. destruct (args_text v); [discriminate|reflexivity]. Qed.
Lemma declined3 t a a1 : declined ms t a a1 -> exists n, nst t (fst a) = Ret (false, n) /\ left_out K t = false /\ exists v, vst t (snd a) = Ret (false, v) /\ a1 = (n, v).
Proof.
  intros H. inversion H as [|m r t0 s0 s1 s2 H1 H2]; subst. cbn in H1. destruct (nst t (fst a)) as [[b n]|]; [|discriminate]. injection H1 as -> <-. exists n. split; [reflexivity|].
  inversion H2 as [|m r t0 s0 s1 s2 H3 H4]; subst. cbn in H3. destruct (left_out K t); [discriminate|]. injection H3 as <-. split; [reflexivity|].
  inversion H4 as [|m r t0 s0 s1 s2 H5 H6]; subst. cbn in H5. destruct (vst t (snd a)) as [[b v]|]; [|discriminate]. injection H5 as -> <-. inversion H6; subst. eauto.
Qed.
Lemma marked3 t a m a1 : marked ms t a m a1 ->
  (exists n, nst t (fst a) = Ret (true, n) /\ a1 = (n, snd a) /\ m = lift_fst nestm) \/
  (exists n v, nst t (fst a) = Ret (false, n) /\ left_out K t = false /\ vst t (snd a) = Ret (true, v) /\ a1 = (n, v) /\ m = lift_snd versionm).
Proof.
  intros H. inversion H as [m0 r t0 s0 s1 H1|m0 m1 r t0 s0 s1 s2 H1 H2]; subst; cbn in H1; destruct (nst t (fst a)) as [[b n]|] eqn:E; try discriminate; injection H1 as -> <-.
  - left. exists n. auto.
  - right. inversion H2 as [m0 r t0 s0 s1 H3|m0 m1 r t0 s0 s1 s2 H3 H4]; subst; cbn in H3; destruct (left_out K t); try discriminate. injection H3 as <-.
    inversion H4 as [m0 r t0 s0 s1 H5|m0 m1 r t0 s0 s1 s2 H5 H6]; subst; cbn in H5; destruct (vst t (snd a)) as [[b v]|] eqn:Ev; try discriminate; injection H5 as -> <-; [|inversion H6].
    exists n, v. auto 6.
Qed.
(** both take one token *)
Lemma nest_takes t a r n : nest_continue (k_float_of K) (k_float_str K) (k_high_digit K) (k_int_high K) (k_css K) p s (k_pick K) (k_fuel K) t a = Ret (r, n) -> r <> None /\ t <> TEof.
Proof.
  unfold nest_continue. destruct (get_import _ t) eqn:E; [|discriminate]. destruct (ensure_resolved _ _ _ _ _ _ _ _ _ _ _) as [x|]; [|discriminate]. destruct (rget _ _); [|discriminate]. intros H. injection H as <- <-. split; [discriminate|]. intros ->. discriminate E.
Qed.
Lemma version_takes (t : ctoken) a r v : v_continue p s t a = Ret (r, v) -> r <> None /\ t <> TEof.
Proof.
  unfold v_continue. destruct (value_of t) as [w|] eqn:E; [|discriminate]. intros H. split; [|intros ->; discriminate E]. destruct (hash_path p w) as [h|]; [destruct (s h); [|discriminate]|]; injection H as <- <-; discriminate.
Qed.
Lemma nest_replaces t (a a1 : cstate) seg repl : replaces (lift_fst nestm) a (t :: seg) repl a1 -> seg = [] /\ t <> TEof /\ exists n, continue_mark nestm t (fst a) = Ret (Some repl, n) /\ a1 = (n, snd a).
Proof.
  intros H. inversion H as [t0 s0 repl0 s1 H1|t0 s0 s1 seg0 repl0 s2 H1 H2]; subst; cbn in H1; destruct (nest_continue _ _ _ _ _ _ _ _ _ t (fst a)) as [[r n]|] eqn:E; try discriminate; injection H1 as -> <-; apply nest_takes in E as E2; destruct E2 as (E2 & E3); [|destruct (E2 eq_refl)].
  split; [reflexivity|]. split; [exact E3|]. exists n. split; [exact E|reflexivity].
Qed.
Lemma version_replaces (t : ctoken) (a a1 : cstate) seg repl : replaces (lift_snd versionm) a (t :: seg) repl a1 -> seg = [] /\ t <> TEof /\ exists v, continue_mark versionm t (snd a) = Ret (Some repl, v) /\ a1 = (fst a, v).
Proof.
  intros H. inversion H as [t0 s0 repl0 s1 H1|t0 s0 s1 seg0 repl0 s2 H1 H2]; subst; cbn in H1; destruct (v_continue p s t (snd a)) as [[r n]|] eqn:E; try discriminate; injection H1 as -> <-; apply version_takes in E as E2; destruct E2 as (E2 & E3); [|destruct (E2 eq_refl)].
  split; [reflexivity|]. split; [exact E3|]. exists n. split; [exact E|reflexivity].
Qed.
Lemma never_open t a m a1 seg a2 : marked ms t a m a1 -> holds m a1 (t :: seg) a2 -> False.
Proof.
  intros M H. apply marked3 in M. inversion H as [|t0 s0 s1 seg0 s2 H1 H2]; subst. destruct M as [(n & _ & -> & ->)|(n & v & _ & _ & _ & -> & ->)]; cbn in H1.
  - destruct (nest_continue _ _ _ _ _ _ _ _ _ t _) as [[r x]|] eqn:E; [|discriminate]. injection H1 as -> <-. apply nest_takes in E. destruct (proj1 E eq_refl).
  - destruct (v_continue _ _ _ _) as [[r x]|] eqn:E; [|discriminate]. injection H1 as -> <-. apply version_takes in E. destruct (proj1 E eq_refl).
Qed.
Lemma next_fine a v ts out lost a' : rewrites ms a (TString v :: ts) out lost a' -> image_data v = None.
Proof.
  assert (X : left_out K (TString v) = false -> image_data v = None) by (cbn; destruct (image_data v); [discriminate|reflexivity]).
  assert (M : forall m a1, marked ms (TString v) a m a1 -> image_data v = None). { intros m a1 M. apply marked3 in M. destruct M as [(n & E & _)|(n & w & _ & E & _)]; [discriminate E|exact (X E)]. }
  intros H. inversion H as [|t s0 s1 ts0 out0 lost0 s2 D R|t m s0 s1 seg repl s2 ts0 out0 lost0 s3 Mk RP R|t m s0 s1 seg s2 Mk HD]; subst; eauto.
  apply declined3 in D. destruct D as (n & _ & L & _). exact (X L).
Qed.

Definition ends (ts : list ctoken) : Prop := ts = [] \/ exists l, ts = l ++ [TEof].
Lemma ends_tail t ts : ends (t :: ts) -> ends ts.
Proof. intros [H|(l & H)]; [discriminate|]. destruct l as [|x l]; injection H as -> ->; [left; reflexivity|right; eauto]. Qed.
Lemma ends_more t ts : ends (t :: ts) -> t <> TEof -> exists t1 r, ts = t1 :: r.
Proof. intros [H|(l & H)] N; [discriminate|]. destruct l as [|x l]; injection H as -> ->; [congruence|]. destruct l; eexists _, _; reflexivity. Qed.
Lemma ends_app l ts : ends ts -> ts <> [] -> ends (l ++ ts).
Proof. intros [->|(m & ->)] N; [congruence|]. right. exists (l ++ m). apply app_assoc. Qed.

(** an open bracket for an url *)
Definition opens (t : ctoken) : bool := match t with TFunction n => str_eqb n (lit "url") | _ => false end.
Lemma out_passes (t : ctoken) d : opens t = false -> start_mark outm t d = Ret (false, d).
Proof. intros H. cbn. unfold d_start. destruct t; try reflexivity. cbn in H. rewrite H. reflexivity. Qed.
Lemma whole_declined t a a1 i d d1 : declined ms t a a1 -> start_mark outm t d = Ret (false, d1) -> declined ws t (a, (i, d)) (a1, (i, d1)).
Proof.
  intros D O. apply declined3 in D. destruct D as (n & D1 & D2 & v & D3 & ->). unfold whole_manips. destruct a as [n0 v0]. cbn [fst snd] in *.
  econstructor; [cbn; rewrite D1; reflexivity|]. econstructor; [cbn; pose proof (guard_icon t i D2) as G; cbn in G; rewrite G; reflexivity|]. econstructor; [cbn; cbn in O; rewrite O; reflexivity|]. econstructor; [cbn; rewrite D3; reflexivity|]. constructor.
Qed.
Theorem whole_rewrites a ts out lost a' : rewrites ms a ts out lost a' -> ends ts -> forall i d, d_skip d = false -> d_stack d = None -> lost = [] /\ rewrites ws (a, (i, d)) ts out [] (a', (i, d)).
Proof.
  intros H. induction H as [a|t a a1 ts out lost a2 D R IH|t m a a1 seg repl a2 ts out lost a3 M RP R IH|t m a a1 seg a2 M HD]; intros EN i d D1 D2.
  - split; [reflexivity|constructor].
  - destruct (IH (ends_tail _ _ EN) i d D1 D2) as (-> & W). split; [reflexivity|]. destruct (opens t) eqn:O.
    + assert (T : t <> TEof) by (intros ->; discriminate O). destruct (ends_more _ _ EN T) as (t1 & r & ->).
      set (skip := ({| d_seen := d_seen d; d_made := d_made d; d_reused := d_reused d; d_by_data := d_by_data d; d_count := d_count d; d_skip := true; d_stack := None; d_files := d_files d |} : dstate (F := k_float K))).
      assert (S : d = {| d_seen := d_seen d; d_made := d_made d; d_reused := d_reused d; d_by_data := d_by_data d; d_count := d_count d; d_skip := false; d_stack := None; d_files := d_files d |}) by (destruct d; cbn in D1, D2; subst; reflexivity).
      destruct t; try discriminate O. cbn in O.
      assert (G : d_continue decode sha lexists p scan t1 {| d_seen := d_seen d; d_made := d_made d; d_reused := d_reused d; d_by_data := d_by_data d; d_count := d_count d; d_skip := d_skip d; d_stack := Some (TFunction v); d_files := d_files d |} = Ret (Some [TFunction v; t1], skip)).
      { destruct t1; try reflexivity. cbn. rewrite (next_fine _ _ _ _ _ _ R). reflexivity. }
      eapply (RwMark _ (TFunction v) (lift_snd (lift_snd outm)) _ (a, (i, d)) [t1] [TFunction v; t1] (a, (i, skip)) r).
      * eapply MarkLater; [reflexivity|]. eapply MarkLater; [reflexivity|]. destruct a. eapply MarkHere. cbn. rewrite O. cbn. rewrite D1, S. reflexivity.
      * eapply ReplMore; [cbn; unfold d_continue; rewrite D2, O; reflexivity|]. eapply ReplEnd. cbn [continue_mark lift_snd fst snd outline_data]. rewrite G. reflexivity.
      * eapply RwPass; [|exact W]. apply whole_declined; [exact D|]. cbn. rewrite O. cbn. rewrite <- S. reflexivity.
    + eapply RwPass; [apply whole_declined; [exact D|apply out_passes; exact O]|exact W].
  - pose proof M as M0. apply marked3 in M. destruct M as [(n & M1 & -> & ->)|(n & v & M1 & M2 & M3 & -> & ->)].
    + apply nest_replaces in RP. destruct RP as (-> & T & n2 & C & ->). destruct (ends_more _ _ EN T) as (t1 & r & E). destruct (IH (ends_app repl ts (ends_tail _ _ EN) ltac:(rewrite E; discriminate)) i d D1 D2) as (-> & W). split; [reflexivity|].
      eapply (RwMark _ t (lift_fst (lift_fst nestm))); [apply MarkHere; cbn; rewrite M1; reflexivity| |exact W]. apply ReplEnd. cbn in C |- *. rewrite C. reflexivity.
    + apply version_replaces in RP. destruct RP as (-> & T & v2 & C & ->). destruct (ends_more _ _ EN T) as (t1 & r & E). destruct (IH (ends_app repl ts (ends_tail _ _ EN) ltac:(rewrite E; discriminate)) i d D1 D2) as (-> & W). split; [reflexivity|].
      assert (O : opens t = false). { destruct t; try reflexivity. cbn in C. discriminate C. }
      eapply (RwMark _ t (lift_fst (lift_snd versionm))); [| |exact W].
      * destruct a as [n0 v0]. eapply MarkLater; [cbn in M1 |- *; rewrite M1; reflexivity|]. eapply MarkLater; [pose proof (guard_icon t i M2) as G; cbn in G |- *; rewrite G; reflexivity|]. eapply MarkLater; [pose proof (out_passes t d O) as G; cbn in G |- *; rewrite G; reflexivity|]. apply MarkHere. cbn in M3 |- *. rewrite M3. reflexivity.
      * apply ReplEnd. cbn in C |- *. rewrite C. reflexivity.
  - destruct (never_open _ _ _ _ _ _ M HD).
Qed.
(** as runs *)
Theorem whole_run fuel ts out b fl1 fl2 : ends ts -> pump ms fuel ts (new_builder (nest_init, v_init)) = Ret (out, b) ->
  exists fuel2 b2, pump ws fuel2 ts (new_builder ((nest_init, v_init), (i_init fl1, d_init fl2))) = Ret (out, b2) /\ b_st b2 = (b_st b, (i_init fl1, d_init fl2)).
Proof.
  intros EN H. assert (X : exists lost, rewrites ms (nest_init, v_init) ts out lost (b_st b)) by (apply pump_rewrites; exists fuel, b; auto). destruct X as (lost & X).
  destruct (whole_rewrites _ _ _ _ _ X EN (i_init fl1) (d_init fl2) eq_refl eq_refl) as (_ & W). apply (pump_rewrites ws). exists []. exact W.
Qed.
End Whole.

Lemma whole_css K sha cfg decode lexists scan p s out ch rs fl1 fl2 : css_run K scan p s = Some (out, ch, rs) ->
  exists text ts fuel res b, s p = Some text /\ tokenize (k_float_of K) (k_high_digit K) (k_int_high K) text = (ts, None) /\
    pump (whole_manips K sha cfg decode lexists p s scan) fuel ts (new_builder ((nest_init, v_init), (i_init fl1, d_init fl2))) = Ret (res, b) /\
    out = serialize_many (k_float_str K) res /\ ch = n_seen (fst (fst (b_st b))) ++ v_seen (snd (fst (b_st b))) /\ snd (b_st b) = (i_init fl1, d_init fl2).
Proof.
  unfold css_run. destruct (s p) as [text|]; [|discriminate]. destruct (tokenize _ _ _ text) as [ts [e|]] eqn:ET; [discriminate|]. destruct (pump _ _ _ _) as [[res b]|] eqn:E; [|discriminate]. destruct (existsb _ _); [discriminate|]. intros H. injection H as <- <- <-.
  exists text, ts. assert (EN : ends K ts) by (right; exact (tokens_eof _ _ _ _ _ _ ET)). destruct (whole_run K sha cfg decode lexists p s scan _ _ _ _ fl1 fl2 EN E) as (fuel2 & b2 & W & B). exists fuel2, res, b2. rewrite B. auto 7.
Qed.
