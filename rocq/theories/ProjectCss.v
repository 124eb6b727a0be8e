(** The run over a stylesheet depends only on the files it reports, the imported stylesheets
    that were built and itself. *)
From Verif Require Import Base Graph PyPath PyNorm Css CssVersion CssVersionSpec CssVersionProofs Builder BuilderSpec BuilderProofs Handlers OutlineData IconManip Nest NestSpec NestText NestProofs NestSound Js JsYield JsManip Hot Project ProjectPump ProjectNest.
From Coq Require Import String ZArith NArith Bool List.
Import ListNotations.
Open Scope list_scope.

Lemma seen_in (x y : str) l : In x (if mem y l then l else l ++ [y]) <-> In x l \/ x = y.
Proof.
  destruct (mem y l) eqn:E; [|rewrite in_app_iff; cbn [In]; intuition congruence]. apply mem_In in E. split; [auto|]. intros [H| ->]; assumption.
Qed.

Section Css.
Context (K : setting) (p : str) (s s2 : fs).
Notation ctoken := (token (F := k_float K)).
Notation cstate := (nstate (F := k_float K) * vstate)%type.
Notation get_import := (get_import (k_css K)).
Notation ms := (css_manips K p s false).
Notation ms2 := (css_manips K p s2 false).
Definition css_grows (a b : cstate) : Prop := incl (n_seen (fst a)) (n_seen (fst b)) /\ incl (v_seen (snd a)) (v_seen (snd b)).
Definition css_agree (a : cstate) : Prop := (forall x, In x (n_seen (fst a)) -> s2 (out_file x) = s (out_file x)) /\ forall h, In h (v_seen (snd a)) -> s2 h = s h.
Definition css_pre (m : manip ctoken cstate) (t : ctoken) (a : cstate) : Prop := forall imp, get_import t = Some imp -> fst imp = p \/ In (fst imp) (n_seen (fst a)).
Lemma css_grows_refl a : css_grows a a.
Proof. split; apply incl_refl. Qed.
Lemma css_grows_trans a b d : css_grows a b -> css_grows b d -> css_grows a d.
Proof. intros (A & B) (C & D). split; eapply incl_tran; eassumption. Qed.
Lemma css_agree_back a b : css_grows a b -> css_agree b -> css_agree a.
Proof. intros (A & B) (C & D). split; auto. Qed.
Lemma nest_start_seen t (a : nstate (F := k_float K)) r a' : nest_start (k_css K) p false t a = Ret (r, a') -> incl (n_seen a) (n_seen a') /\
  (forall x, In x (n_seen a') -> In x (n_seen a) \/ x <> p /\ exists imp, get_import t = Some imp /\ fst imp = x) /\
  (r = true -> forall imp, get_import t = Some imp -> fst imp = p \/ In (fst imp) (n_seen a')) /\ (r = false -> n_seen a' = n_seen a /\ get_import t = None) /\ n_rules a' = n_rules a /\ (forall x g, dget x (resumable a') = Some g -> dget x (resumable a) = Some g).
Proof.
  unfold nest_start. intros H.
  assert (T : t = TEof /\ r = false /\ a' = mkNest (n_rules a) [] (n_seen a) (n_clock a) \/
    match get_import t with None => Ret (false, a) | Some imp => Ret (negb false, if str_eqb (fst imp) p then a else mkNest (n_rules a) (resumable a) (if mem (fst imp) (n_seen a) then n_seen a else n_seen a ++ [fst imp]) (n_clock a)) end = Ret (r, a')).
  { destruct t; try (right; exact H). left. injection H as <- <-. auto. }
  destruct T as [(-> & -> & ->)|T].
  - split; [apply incl_refl|]. split; [auto|]. split; [discriminate|]. split; [intros _; split; reflexivity|]. split; [reflexivity|]. intros x g X. discriminate X.
  - destruct (get_import t) as [imp|] eqn:I.
    + injection T as <- <-. destruct (str_eqb (fst imp) p) eqn:E.
      * apply str_eqb_eq in E. split; [apply incl_refl|]. split; [auto|]. split; [intros _ i X; injection X as <-; auto|]. split; [discriminate|]. split; [reflexivity|auto].
      * apply str_eqb_neq in E. cbn [n_seen n_rules resumable]. split; [intros x X; apply seen_in; auto|]. split; [|split; [intros _ i X; injection X as <-; right; apply seen_in; auto|split; [discriminate|split; [reflexivity|auto]]]].
        intros x X. apply seen_in in X. destruct X as [X| ->]; [auto|right]. split; [exact E|]. exists imp. auto.
    + injection T as <- <-. split; [apply incl_refl|]. split; [auto|]. split; [discriminate|]. split; [auto|]. split; [reflexivity|auto].
Qed.
Lemma version_start_seen (t : ctoken) a r a' : v_start p false t a = Ret (r, a') -> v_seen a' = v_seen a /\ (r = true -> get_import t = None /\ a' = a).
Proof.
  unfold v_start. destruct a as [b l]. cbn [v_in_url v_seen]. destruct b.
  - destruct t; try (intros H; injection H as <- <-; split; [reflexivity|discriminate]). destruct (hash_path p v); intros H; injection H as <- <-; (split; [reflexivity|]); [intros _; split; reflexivity|discriminate].
  - destruct t; try (intros H; injection H as <- <-; split; [reflexivity|discriminate]); [destruct (is_url_name v); intros H; injection H as <- <-; (split; [reflexivity|discriminate])|].
    destruct (hash_path p v); intros H; injection H as <- <-; (split; [reflexivity|]); [intros _; split; reflexivity|discriminate].
Qed.
Lemma version_continue_seen (f : fs) (t : ctoken) a r a' : v_continue p f t a = Ret (r, a') -> r <> None /\ incl (v_seen a) (v_seen a') /\ v_in_url a' = v_in_url a /\
  (forall h, In h (v_seen a') -> In h (v_seen a) \/ f h <> None /\ exists rel, h = join_path (lit "out") [lit "www"; rel ++ lit ".hash"] /\ join_path (lit "src") [lit "public"; rel] <> p) /\
  forall g, (forall h, In h (v_seen a') -> g h = f h) -> v_continue p g t a = Ret (r, a').
Proof.
  unfold v_continue. destruct (value_of t) as [v|]; [|discriminate]. destruct (hash_path p v) as [h|] eqn:E.
  - destruct (f h) as [hash|] eqn:Ef; [|discriminate]. intros H. injection H as <- <-. cbn [v_seen v_in_url]. split; [discriminate|]. split; [intros x X; apply (set_add_In p f); auto|]. split; [reflexivity|]. split.
    + intros x X. apply (set_add_In p f) in X. destruct X as [X| ->]; [auto|right]. split; [congruence|]. apply hash_path_some in E. destruct E as ((rel & E1 & _ & E2) & rel2 & E3 & E4). exists rel2. split; [exact E4|]. rewrite E1 in E3. injection E3 as <-. exact E2.
    + intros g Hg. rewrite (Hg h) by (apply (set_add_In p f); auto). rewrite Ef. reflexivity.
  - intros H. injection H as <- <-. split; [discriminate|]. split; [apply incl_refl|]. split; [reflexivity|]. split; [auto|reflexivity].
Qed.
Context (Hself : s2 p = s p).
Lemma css_start m m2 t a : pairs ms ms2 m m2 -> start_mark m2 t a = start_mark m t a /\ forall r a', start_mark m t a = Ret (r, a') -> css_grows a a' /\ (r = true -> css_pre m t a').
Proof.
  intros [H|[H|[H|[]]]]; injection H as <- <-; (split; [reflexivity|]); intros r a'; cbn [start_mark lift_fst lift_snd no_icons_or_images nest version_urls].
  - destruct (nest_start (k_css K) p false t (fst a)) as [[b x]|] eqn:E; [|discriminate]. intros H. injection H as <- <-. apply nest_start_seen in E. destruct E as (E1 & _ & E2 & _). split; [split; [exact E1|apply incl_refl]|exact E2].
  - destruct (left_out K t); [discriminate|]. intros H. injection H as <- <-. split; [apply css_grows_refl|discriminate].
  - destruct (v_start p false t (snd a)) as [[b x]|] eqn:E; [|discriminate]. intros H. injection H as <- <-. apply version_start_seen in E. destruct E as (E1 & E2). split; [split; cbn [fst snd]; [apply incl_refl|rewrite E1; apply incl_refl]|].
    intros -> imp X. destruct (E2 eq_refl) as (Y & _). congruence.
Qed.
Lemma css_continue m m2 t a r a' : pairs ms ms2 m m2 -> css_pre m t a -> continue_mark m t a = Ret (r, a') ->
  css_grows a a' /\ (r = None -> forall t', css_pre m t' a') /\ (css_agree a' -> continue_mark m2 t a = Ret (r, a')).
Proof.
  intros [H|[H|[H|[]]]]; injection H as <- <-; intros Hp; cbn [continue_mark lift_fst lift_snd no_icons_or_images nest version_urls]; [| |].
  - destruct (nest_continue (k_float_of K) (k_float_str K) (k_high_digit K) (k_int_high K) (k_css K) p s (k_pick K) (k_fuel K) t (fst a)) as [[b x]|] eqn:E; [|discriminate]. intros H. injection H as <- <-.
    destruct (continue_seen _ _ _ _ _ _ _ _ _ _ _ _ _ E) as (Hn & Hs). split; [split; cbn [fst snd]; [rewrite Hs; apply incl_refl|apply incl_refl]|]. split; [intros X; contradiction|]. intros (Ha & _). cbn [fst] in Ha.
    destruct (get_import t) as [imp|] eqn:I; [|unfold nest_continue in E; rewrite I in E; discriminate]. rewrite (continue_same _ _ _ _ _ _ s s2 _ _ imp t (fst a) I); [rewrite E; reflexivity|].
    unfold file_of. destruct (str_eqb (fst imp) p) eqn:X; [exact Hself|]. apply str_eqb_neq in X. apply Ha. rewrite Hs. destruct (Hp imp I) as [Y|Y]; [contradiction|exact Y].
  - discriminate.
  - destruct (v_continue p s t (snd a)) as [[b x]|] eqn:E; [|discriminate]. intros H. injection H as <- <-. apply version_continue_seen in E. destruct E as (Hn & Hi & _ & _ & Hg). split; [split; cbn [fst snd]; [apply incl_refl|exact Hi]|]. split; [intros X; contradiction|].
    intros (_ & Ha). cbn [snd] in Ha. rewrite (Hg s2 Ha). reflexivity.
Qed.
Lemma css_step f ts a out b : pump ms f ts (new_builder a) = Ret (out, b) -> css_agree (b_st b) -> exists b2, pump ms2 f ts (new_builder a) = Ret (out, b2) /\ b_st b2 = b_st b.
Proof.
  intros H Ha. destruct (pump_step ms ms2 css_grows css_agree css_pre css_grows_refl css_grows_trans css_agree_back eq_refl css_start css_continue f ts _ _ _ _ H (new_alike _ _ _ _) Ha) as (b2 & E & (_ & B & _)). eauto.
Qed.
End Css.

(** what is reported *)
Section Reported.
Context (K : setting) (p : str) (s : fs).
Notation ctoken := (token (F := k_float K)).
Notation cstate := (nstate (F := k_float K) * vstate)%type.
Notation get_import := (get_import (k_css K)).
Notation ms := (css_manips K p s false).
Definition import_name (x : str) : Prop := x = k_css K \/ exists y, x = join_path (lit "src") [lit "public"; y].
Definition reported (a : cstate) : Prop := opened p s (fst a) /\
  (forall x, In x (n_seen (fst a)) -> import_name x /\ s (out_file x) <> None) /\
  forall h, In h (v_seen (snd a)) -> s h <> None /\ exists rel, h = join_path (lit "out") [lit "www"; rel ++ lit ".hash"] /\ join_path (lit "src") [lit "public"; rel] <> p.
Lemma import_named (t : ctoken) imp : get_import t = Some imp -> import_name (fst imp).
Proof.
  unfold Nest.get_import. destruct t; try discriminate. destruct (import_args v) as [args|]; [|discriminate]. destruct (cut_from args) as [[x y]|]; [|intros H; injection H as <-; left; reflexivity].
  destruct (negb _ || _); [discriminate|]. intros H. injection H as <-. right. eexists. reflexivity.
Qed.
(** a token that every manipulator declines *)
Lemma css_declined t a a' : declined ms t a a' -> get_import t = None /\ left_out K t = false /\ n_rules (fst a') = n_rules (fst a) /\ (forall x g, dget x (resumable (fst a')) = Some g -> dget x (resumable (fst a)) = Some g) /\ n_seen (fst a') = n_seen (fst a) /\
  v_start p false t (snd a) = Ret (false, snd a').
Proof.
  unfold css_manips. intros H. inversion H as [|m r t' x y z S1 D1]; subst. inversion D1 as [|m r t' x z0 z1 S2 D2]; subst. inversion D2 as [|m r t' x z2 z3 S3 D3]; subst. inversion D3; subst. cbn [start_mark lift_fst lift_snd no_icons_or_images nest version_urls] in *.
  destruct (nest_start (k_css K) p false t (fst a)) as [[b1 x1]|] eqn:E1; [|discriminate]. injection S1 as -> <-. destruct (left_out K t); [discriminate|]. injection S2 as <-. cbn [snd fst] in S3.
  destruct (v_start p false t (snd a)) as [[b3 x3]|] eqn:E3; [|discriminate]. injection S3 as -> <-. apply nest_start_seen in E1. destruct E1 as (_ & _ & _ & E4 & E5 & E6). destruct (E4 eq_refl) as (E7 & E8). cbn [fst snd]. auto 10.
Qed.
(** a token that some manipulator marks *)
Lemma css_marked t a m a' : marked ms t a m a' ->
  (m = lift_fst (nest (k_float_of K) (k_float_str K) (k_high_digit K) (k_int_high K) (k_css K) p s (k_pick K) (k_fuel K) false) /\ exists x, nest_start (k_css K) p false t (fst a) = Ret (true, x) /\ a' = (x, snd a)) \/
  (m = lift_snd (version_urls p s false) /\ get_import t = None /\ n_rules (fst a') = n_rules (fst a) /\ (forall x g, dget x (resumable (fst a')) = Some g -> dget x (resumable (fst a)) = Some g) /\ n_seen (fst a') = n_seen (fst a) /\
     v_start p false t (snd a) = Ret (true, snd a') /\ snd a' = snd a).
Proof.
  unfold css_manips. intros H. inversion H as [m0 r t' x y S1|m0 m1 r t' x y z S1 M1]; subst; cbn [start_mark lift_fst nest] in S1; (destruct (nest_start (k_css K) p false t (fst a)) as [[b1 x1]|] eqn:E1; [|discriminate]); injection S1 as -> <-; [left; split; [reflexivity|eauto]|right].
  inversion M1 as [m0 r t' x y S2|m0 m1 r t' x y z S2 M2]; subst; cbn [start_mark no_icons_or_images] in S2; (destruct (left_out K t); [discriminate|]); [discriminate S2|]. injection S2 as <-.
  inversion M2 as [m0 r t' x y S3|m0 m1 r t' x y z S3 M3]; subst; [|inversion M3]. cbn [start_mark lift_snd version_urls fst snd] in S3. destruct (v_start p false t (snd a)) as [[b3 x3]|] eqn:E3; [|discriminate]. injection S3 as -> <-.
  apply nest_start_seen in E1. destruct E1 as (_ & _ & _ & E4 & E5 & E6). destruct (E4 eq_refl) as (E7 & E8). pose proof (version_start_seen K p t _ _ _ E3) as (_ & E9). destruct (E9 eq_refl) as (E10 & ->). cbn [fst snd]. auto 10.
Qed.
Notation nested := (nest_continue (k_float_of K) (k_float_str K) (k_high_digit K) (k_int_high K) (k_css K) p s (k_pick K) (k_fuel K)).
(** the replacement of a token by the manipulator that marks it; no mark takes a second token *)
Lemma css_replaced t a m a1 : marked ms t a m a1 ->
  (forall seg a2, ~ holds m a1 (t :: seg) a2) /\
  forall seg repl a2, replaces m a1 (t :: seg) repl a2 -> seg = [] /\
   ((exists x y, nest_start (k_css K) p false t (fst a) = Ret (true, x) /\ nested t x = Ret (Some repl, y) /\ a2 = (y, snd a)) \/
    (get_import t = None /\ n_rules (fst a2) = n_rules (fst a) /\ (forall x g, dget x (resumable (fst a2)) = Some g -> dget x (resumable (fst a)) = Some g) /\ n_seen (fst a2) = n_seen (fst a) /\
       v_start p false t (snd a) = Ret (true, snd a) /\ v_continue p s t (snd a) = Ret (Some repl, snd a2))).
Proof.
  intros M. destruct (css_marked _ _ _ _ M) as [(-> & x & Ex & ->)|(-> & E1 & E2 & E3 & E4 & E5 & E6)].
  - assert (HC : forall r b, continue_mark (lift_fst (nest (k_float_of K) (k_float_str K) (k_high_digit K) (k_int_high K) (k_css K) p s (k_pick K) (k_fuel K) false)) t (x, snd a) = Ret (r, b) -> r <> None /\ exists y, nested t x = Ret (r, y) /\ b = (y, snd a)).
    { intros r b. cbn [continue_mark lift_fst nest fst snd]. destruct (nested t x) as [[o y]|] eqn:E; [|discriminate]. intros H. injection H as <- <-. destruct (continue_seen _ _ _ _ _ _ _ _ _ _ _ _ _ E) as (N & _). eauto. }
    split.
    + intros seg a2 H. inversion H as [|? ? ? ? ? C _]; subst. destruct (HC _ _ C) as (N & _). destruct (N eq_refl).
    + intros seg repl a2 H. inversion H as [? ? ? ? C|? ? ? ? ? ? C _]; subst; destruct (HC _ _ C) as (N & y & Ey & Eb); [|destruct (N eq_refl)]. split; [reflexivity|left]. eauto.
  - assert (HC : forall r b, continue_mark (lift_snd (version_urls p s false)) t a1 = Ret (r, b) -> r <> None /\ exists y, v_continue p s t (snd a1) = Ret (r, y) /\ b = (fst a1, y)).
    { intros r b. cbn [continue_mark lift_snd version_urls]. destruct (v_continue p s t (snd a1)) as [[o y]|] eqn:E; [|discriminate]. intros H. injection H as <- <-. apply version_continue_seen in E. destruct E as (N & _). eauto. }
    split.
    + intros seg a2 H. inversion H as [|? ? ? ? ? C _]; subst. destruct (HC _ _ C) as (N & _). destruct (N eq_refl).
    + intros seg repl a2 H. inversion H as [? ? ? ? C|? ? ? ? ? ? C _]; subst; destruct (HC _ _ C) as (N & y & Ey & ->); [|destruct (N eq_refl)]. split; [reflexivity|right]. cbn [fst snd]. rewrite E6 in E5, Ey. auto 10.
Qed.
Lemma css_reported a ts out lost a' : rewrites ms a ts out lost a' -> reported a -> reported a'.
Proof.
  intros H. induction H as [a|t a a1 ts out lost a2 D R IH|t m a a1 seg repl a2 ts out lost a3 M RP R IH|t m a a1 seg a2 M HD]; intros HR.
  - exact HR.
  - apply IH. apply css_declined in D. destruct D as (_ & _ & D1 & D2 & D3 & D4). apply version_start_seen in D4. destruct D4 as (D4 & _). destruct HR as ((R1 & R1') & R2 & R3). unfold reported, opened. rewrite D1, D3, D4. split; [split; [exact R1|]|split; assumption].
    intros file g X. exact (R1' file g (D2 _ _ X)).
  - apply IH. destruct (css_replaced _ _ _ _ M) as (_ & X). destruct (X _ _ _ RP) as (_ & [(x & y & E1 & E2 & ->)|(_ & D1 & D2 & D3 & _ & D4)]); destruct HR as ((R1 & R1') & R2 & R3).
    + apply nest_start_seen in E1. destruct E1 as (_ & S2 & _ & _ & S3 & S4).
      assert (O : opened p s x) by (split; [rewrite S3; exact R1|intros file g Y; exact (R1' file g (S4 _ _ Y))]).
      destruct (continue_kept _ _ _ _ _ _ _ _ _ _ _ _ _ O E2) as (imp & v & I & _ & F & O' & Hs). split; [exact O'|]. split; [|exact R3]. cbn [fst]. rewrite Hs. intros z Hz. destruct (S2 z Hz) as [Y|(Y & imp' & I' & <-)]; [exact (R2 z Y)|].
      assert (imp' = imp) as -> by congruence. split; [exact (import_named _ _ I)|]. unfold file_of in F. apply str_eqb_neq in Y. rewrite Y in F. exact F.
    + apply version_continue_seen in D4. destruct D4 as (_ & _ & _ & D4 & _). unfold reported, opened. rewrite D1, D3. split; [split; [exact R1|]; intros file g Y; exact (R1' file g (D2 _ _ Y))|]. split; [exact R2|]. intros h Hh. destruct (D4 h Hh) as [Y|Y]; [exact (R3 h Y)|exact Y].
  - destruct (css_replaced _ _ _ _ M) as (X & _). destruct (X _ _ HD).
Qed.
Lemma css_pump_reported f ts out b : pump ms f ts (new_builder (nest_init, v_init)) = Ret (out, b) -> reported (b_st b).
Proof.
  intros H. assert (X : exists lost, rewrites ms (nest_init, v_init) ts out lost (b_st b)) by (apply pump_rewrites; exists f, b; split; [exact H|reflexivity]). destruct X as (lost & X). apply (css_reported _ _ _ _ _ X). split; [apply init_opened|]. split; intros x [].
Qed.
End Reported.
