(** What a page looks at, and what it reports. *)
From Verif Require Import Base Graph Json PyStr PyPath PyNorm Handlers Hot Builder BuilderProofs Nest OutlineData Html Page Project ProjectSpec ProjectPump CssVersion.
From Coq Require Import String ZArith NArith Bool List Lia.
Import ListNotations.
Open Scope list_scope.

(** * Names *)
Lemma head_slash (a : N) y : starts_with (lit "/") (a :: y) = (a =? 47)%N.
Proof. change (starts_with (lit "/") (a :: y)) with ((47 =? a)%N && true). rewrite andb_true_r. apply N.eqb_sym. Qed.
Lemma public_join y : starts_with (lit "/") (join_path (lit "src") [lit "public"; y]) = false -> join_path (lit "src") [lit "public"; y] = lit "src/public/" ++ y /\ starts_with (lit "/") y = false.
Proof.
  change (join_path (lit "src") [lit "public"; y]) with (join2 (lit "src/public") y). destruct y as [|a y]; [intros _; split; reflexivity|]. unfold join2. destruct (a =? 47)%N eqn:E; [apply N.eqb_eq in E; subst a; intros H; discriminate H|].
  intros _. split; [reflexivity|]. rewrite head_slash. exact E.
Qed.
Lemma www_join y : join_path (lit "out") [lit "www"; y] = if starts_with (lit "/") y then y else www y.
Proof.
  change (join_path (lit "out") [lit "www"; y]) with (join2 (lit "out/www") y). destruct y as [|a y]; [reflexivity|]. unfold join2. rewrite head_slash. destruct (a =? 47)%N; reflexivity.
Qed.
Lemma out_file_text y : starts_with (lit "/") y = false -> out_file (lit "src/public/" ++ y) = www y.
Proof. intros H. unfold out_file. change (skipn 11 (lit "src/public/" ++ y)) with y. rewrite www_join, H. reflexivity. Qed.
Lemma slash_out (y : str) : starts_with (lit "/") y = true -> is_out y = false.
Proof. intros H. apply starts_with_iff in H. destruct H as (r & ->). reflexivity. Qed.

(** * Pipelines whose marks take one token *)
Section Single.
Context {tok S S2 : Type} (ms : list (manip tok S)) (ms2 : list (manip tok S2)) (R : S -> S2 -> Prop).
Definition follows_one : Prop := forall t s s2 r s', R s s2 -> find_mark ms t s = Ret (r, s') ->
  match r with
  | None => exists s2', find_mark ms2 t s2 = Ret (None, s2') /\ R s' s2'
  | Some m => forall r2 s1, continue_mark m t s' = Ret (r2, s1) -> r2 <> None /\ exists m2 s2' s3, find_mark ms2 t s2 = Ret (Some m2, s2') /\ continue_mark m2 t s2' = Ret (r2, s3) /\ R s1 s3
  end.
Context (H : follows_one).
Definition beside (b : builder tok S) (b2 : builder tok S2) : Prop := b_out b2 = b_out b /\ b_mark b = None /\ b_mark b2 = None /\ R (b_st b) (b_st b2).
Lemma loop_one f : forall stack b b2 b', beside b b2 -> loop ms f stack b = Ret b' -> exists b2', loop ms2 f stack b2 = Ret b2' /\ beside b' b2'.
Proof.
  induction f as [|f IH]; intros [|t rest] b b2 b' B L; cbn [loop] in *; try discriminate; [injection L as <-; eauto|injection L as <-; eauto|].
  pose proof B as (B1 & B2 & B3 & B4). rewrite B2 in L. rewrite B3. destruct (find_mark ms t (b_st b)) as [[r s']|] eqn:E; [|discriminate]. pose proof (H t _ _ _ _ B4 E) as X. destruct r as [m|].
  - destruct (continue_mark m t s') as [[r2 s1]|] eqn:Ec; [|discriminate]. destruct (X _ _ eq_refl) as (N & m2 & s2' & s3 & E2 & E3 & R3). rewrite E2, E3. destruct r2 as [repl|]; [|contradiction].
    apply (IH _ _ {| b_out := b_out b2; b_mark := None; b_st := s3 |} _) in L; [exact L|]. repeat split; cbn; assumption.
  - destruct X as (s2' & E2 & R2). rewrite E2. apply (IH _ _ {| b_out := b_out b2 ++ [t]; b_mark := None; b_st := s2' |} _) in L; [exact L|]. repeat split; cbn; [rewrite B1; reflexivity|assumption].
Qed.
Lemma pump_one f : forall ts b b2 out b', beside b b2 -> pump ms f ts b = Ret (out, b') -> exists b2', pump ms2 f ts b2 = Ret (out, b2') /\ beside b' b2'.
Proof.
  induction ts as [|t ts IH]; intros b b2 out b' B L; cbn [pump] in *; [injection L as <- <-; eauto|]. unfold handle_token in *. destruct (loop ms f [t] b) as [b1|] eqn:E; [|discriminate].
  destruct (loop_one f [t] b b2 b1 B E) as (b3 & E3 & (C1 & C2 & C3 & C4)). rewrite E3. cbn [consume_tokens] in *. destruct (pump ms f ts _) as [[o2 b4]|] eqn:Ep; [|discriminate]. injection L as <- <-.
  apply (IH _ {| b_out := []; b_mark := b_mark b3; b_st := b_st b3 |}) in Ep; [|repeat split; cbn; assumption]. destruct Ep as (b5 & E5 & B5). rewrite E5, C1. eauto.
Qed.
End Single.

Section Agree.
Context {tok S : Type} (ms ms2 : list (manip tok S)) (grows : S -> S -> Prop) (agree : S -> Prop).
Context (grows_refl : forall s, grows s s) (grows_trans : forall a b c, grows a b -> grows b c -> grows a c) (agree_back : forall s s', grows s s' -> agree s' -> agree s).
Context (step : forall t s r s', find_mark ms t s = Ret (r, s') ->
  match r with
  | None => grows s s' /\ find_mark ms2 t s = Ret (None, s')
  | Some m => forall r2 s1, continue_mark m t s' = Ret (r2, s1) -> r2 <> None /\ grows s s1 /\ (agree s1 -> exists m2, find_mark ms2 t s = Ret (Some m2, s') /\ continue_mark m2 t s' = Ret (r2, s1))
  end).
Lemma loop_agree f : forall stack o s b', loop ms f stack {| b_out := o; b_mark := None; b_st := s |} = Ret b' ->
  b_mark b' = None /\ grows s (b_st b') /\ (agree (b_st b') -> exists b2, loop ms2 f stack {| b_out := o; b_mark := None; b_st := s |} = Ret b2 /\ b_out b2 = b_out b' /\ b_mark b2 = None /\ b_st b2 = b_st b').
Proof.
  induction f as [|f IH]; intros [|t rest] o s b' L; cbn [loop] in *; try discriminate; [injection L as <-; cbn; eauto 8|injection L as <-; cbn; eauto 8|]. cbn [b_mark b_st b_out] in *.
  destruct (find_mark ms t s) as [[r s']|] eqn:E; [|discriminate]. pose proof (step t s r s' E) as X. destruct r as [m|].
  - destruct (continue_mark m t s') as [[r2 s1]|] eqn:Ec; [|discriminate]. destruct (X _ _ eq_refl) as (N & G & A). destruct r2 as [repl|]; [|contradiction]. destruct (IH _ _ _ _ L) as (M & G2 & A2). split; [exact M|]. split; [eapply grows_trans; eassumption|].
    intros Ha. destruct (A (agree_back _ _ G2 Ha)) as (m2 & E2 & E3). rewrite E2, E3. exact (A2 Ha).
  - destruct X as (G & E2). destruct (IH _ _ _ _ L) as (M & G2 & A2). split; [exact M|]. split; [eapply grows_trans; eassumption|]. intros Ha. rewrite E2. exact (A2 Ha).
Qed.
Lemma pump_agree f : forall ts s out b', pump ms f ts (new_builder s) = Ret (out, b') ->
  grows s (b_st b') /\ (agree (b_st b') -> exists b2, pump ms2 f ts (new_builder s) = Ret (out, b2) /\ b_st b2 = b_st b').
Proof.
  induction ts as [|t ts IH]; intros s out b' L; cbn [pump] in *; [injection L as <- <-; cbn; eauto|]. unfold handle_token, new_builder in *. destruct (loop ms f [t] _) as [b1|] eqn:E; [|discriminate].
  destruct (loop_agree f [t] [] s b1 E) as (M & G & A). cbn [consume_tokens] in *. rewrite M in L. destruct (pump ms f ts _) as [[o2 b3]|] eqn:Ep; [|discriminate]. injection L as <- <-. destruct (IH _ _ _ Ep) as (G2 & A2). split; [eapply grows_trans; eassumption|].
  intros Ha. destruct (A (agree_back _ _ G2 Ha)) as (b4 & E4 & O4 & M4 & S4). rewrite E4. cbn [consume_tokens]. rewrite M4, S4, O4. destruct (A2 Ha) as (b5 & E5 & S5). rewrite E5. eauto.
Qed.
End Agree.

(** * The manipulators of pages *)
Section Pages.
Context (host : option str) (p : str) (fragment : str -> list htoken) (show : str -> str).
Notation manips read scan := (page_manips host p fragment show read scan).
Lemma link_start_cases scan t s b s' : link_start scan t s = Ret (b, s') ->
  match link_dependency t with
  | None => b = false /\ s' = s
  | Some (_, path, _) => b = negb scan /\ s' = with_links (set_add (join_path (lit "src") [lit "public"; path]) (links s)) s
  end.
Proof. unfold link_start. destruct (link_dependency t) as [[[? path] ?]|]; intros H; injection H as <- <-; auto. Qed.
Lemma stack_keeps c l s ts s' : handle_stack show c l s = Ret (ts, s') -> links s' = links s /\ t_seen s' = t_seen s.
Proof.
  unfold handle_stack. destruct (if str_eqb c (lit "push") then _ else _); [intros H; injection H as _ <-; split; reflexivity|]. destruct (str_eqb c (lit "pop")); [destruct (t_stack s); [discriminate|intros H; injection H as _ <-; split; reflexivity]|].
  destruct (str_eqb c (lit "define")); [destruct l as [|[] [|? [|]]]; intros H; injection H as _ <-; split; reflexivity|]. destruct (str_eqb c (lit "retrieve")); [|intros H; injection H as _ <-; split; reflexivity].
  destruct l as [|[|?|?|[|k0 k]|?|?] [|]]; try (intros H; injection H as _ <-; split; reflexivity). destruct (dget _ _) as [[]|]; try discriminate; intros H; injection H as _ <-; split; reflexivity.
Qed.
Definition page_grows (a b : hstate) : Prop := incl (links a) (links b) /\ incl (t_seen a) (t_seen b).
Lemma add_incl x l : incl l (set_add x l).
Proof. intros y H. unfold set_add. destruct (mem x l); [exact H|]. apply in_or_app. auto. Qed.
Lemma add_in x l : In x (set_add x l).
Proof. unfold set_add. destruct (mem x l) eqn:E; [apply mem_In, E|]. apply in_or_app. right. left. reflexivity. Qed.
Lemma stack_cases c l s r : match handle_stack show c l s with Raise e => Raise e | Ret (ts, s) => Ret (Some ts, s) end = Ret r -> fst r <> None /\ links (snd r) = links s /\ t_seen (snd r) = t_seen s.
Proof. destruct (handle_stack show c l s) as [[ts s1]|] eqn:E; [|discriminate]. intros H. injection H as <-. cbn. split; [discriminate|]. exact (stack_keeps _ _ _ _ _ E). Qed.
Lemma canonical_keeps scan t s b s' : canonical_start host scan t s = Ret (b, s') -> s' = s.
Proof. unfold canonical_start. destruct (canonical_tag t); [|intros H; injection H; auto]. destruct scan; [|intros H; injection H; auto]. destruct host; [intros H; injection H; auto|discriminate]. Qed.
Lemma canonical_takes t s r s' : canonical_continue host p t s = Ret (r, s') -> r <> None /\ s' = s.
Proof. unfold canonical_continue. destruct (canonical_tag t) as [[[[? ?] ?] ?]|]; [|discriminate]. intros H. injection H as <- <-. split; [discriminate|reflexivity]. Qed.
Section Read.
Context (read : str -> option str) (scan : bool).
Lemma link_takes t s r s' : page_link_continue read t s = Ret (r, s') -> r <> None /\ s' = s /\ exists attr path attrs, link_dependency t = Some (attr, path, attrs) /\ read (page_link_file path) <> None.
Proof.
  unfold page_link_continue. destruct (link_dependency t) as [[[attr path] attrs]|] eqn:E; [|discriminate]. destruct (read (page_link_file path)) eqn:Er; [|discriminate]. intros H. injection H as <- <-. split; [discriminate|]. split; [reflexivity|].
  exists attr, path, attrs. split; [reflexivity|congruence].
Qed.
Lemma template_takes t s r s' : page_template_continue fragment show read t s = Ret (r, s') -> r <> None /\ links s' = links s /\
  (t_seen s' = t_seen s \/ exists path, t_seen s' = set_add path (t_seen s) /\ read path <> None).
Proof.
  unfold page_template_continue. destruct (stack_command t) as [[c l]|].
  - intros H. apply stack_cases in H. cbn [fst snd] in H. tauto.
  - destruct (template_command t) as [[c l]|]; [|intros H; injection H as <- <-; split; [discriminate|auto]]. unfold page_template. destruct (template_import (t_frame s) c l) as [[path vars]|]; [|intros H; injection H as <- <-; split; [discriminate|auto]].
    destruct (read path) eqn:Er; [|discriminate]. intros H. injection H as <- <-. split; [discriminate|]. split; [reflexivity|]. right. exists path. split; [reflexivity|congruence].
Qed.
(** links with their hash files, templates with their files *)
Definition page_known (s : hstate) : Prop :=
  (forall x, In x (links s) -> exists path, x = join_path (lit "src") [lit "public"; path] /\ (scan = false -> read (page_link_file path) <> None)) /\ forall x, In x (t_seen s) -> read x <> None.
Lemma page_found t s r s' : find_mark (manips read scan) t s = Ret (r, s') ->
  match r with
  | None => page_left_out t = false /\ (s' = s /\ (link_dependency t = None) \/ scan = true /\ exists attr path attrs, link_dependency t = Some (attr, path, attrs) /\ s' = with_links (set_add (join_path (lit "src") [lit "public"; path]) (links s)) s)
  | Some m => (m = canonical host p scan /\ s' = s) \/ (m = page_links read scan /\ scan = false /\ exists attr path attrs, link_dependency t = Some (attr, path, attrs) /\ s' = with_links (set_add (join_path (lit "src") [lit "public"; path]) (links s)) s) \/
     (m = page_templates fragment show read /\ page_left_out t = false /\ s' = s /\ exists text, t = HComment text)
  end.
Proof.
  unfold page_manips. cbn [find_mark start_mark canonical page_links page_guard page_templates]. destruct (canonical_start host scan t s) as [[[|] s1]|] eqn:E1; [| |discriminate]; apply canonical_keeps in E1; subst s1; [intros H; injection H as <- <-; auto|].
  destruct (link_start scan t s) as [[b s2]|] eqn:E2; [|discriminate]. apply link_start_cases in E2. destruct (link_dependency t) as [[[attr path] attrs]|] eqn:D.
  - destruct E2 as (-> & ->). destruct scan; cbn [negb].
    + destruct (page_left_out t) eqn:L; [discriminate|]. unfold template_start. destruct (match stack_command t with Some _ => _ | None => _ end) eqn:X.
      * exfalso. destruct t; cbn in D, X; discriminate.
      * intros H. injection H as <- <-. split; [reflexivity|]. right. split; [reflexivity|]. eauto.
    + intros H. injection H as <- <-. right. left. split; [reflexivity|]. split; [reflexivity|]. eauto.
  - destruct E2 as (-> & ->). destruct (page_left_out t) eqn:L; [discriminate|]. unfold template_start. destruct (match stack_command t with Some _ => _ | None => _ end) eqn:X; intros H; injection H as <- <-.
    + right. right. split; [reflexivity|]. split; [reflexivity|]. split; [reflexivity|]. destruct t; try discriminate X. eauto.
    + auto.
Qed.
Lemma page_known_kept : follows_one (manips read scan) (manips read scan) (fun s s2 => s2 = s /\ page_known s).
Proof.
  intros t s s2 r s' (-> & K1 & K2) E. pose proof (page_found t s r s' E) as X. rewrite E. destruct r as [m|].
  - intros r2 s1 Ec. assert (Y : r2 <> None /\ page_known s1).
    { destruct X as [(-> & ->)|[(-> & Hs & attr & path & attrs & D & ->)|(-> & _ & -> & _)]].
      - apply canonical_takes in Ec. destruct Ec as (N & ->). split; [exact N|split; assumption].
      - apply link_takes in Ec. destruct Ec as (N & -> & attr2 & path2 & attrs2 & D2 & Hr). split; [exact N|]. assert (path2 = path) by congruence. subst path2. split; [|exact K2]. cbn [links with_links]. intros x Hx. unfold set_add in Hx. destruct (mem _ _); [auto|]. apply in_app_or in Hx. destruct Hx as [Hx|[<-|[]]]; [auto|]. eauto.
      - apply template_takes in Ec. destruct Ec as (N & L & T). split; [exact N|]. split; [rewrite L; exact K1|]. destruct T as [T|(path & T & Hr)]; rewrite T; [exact K2|]. intros x Hx. unfold set_add in Hx. destruct (mem _ _); [auto|]. apply in_app_or in Hx. destruct Hx as [Hx|[<-|[]]]; auto. }
    destruct Y as (N & Y). split; [exact N|]. exists m, s', s1. auto.
  - exists s'. split; [reflexivity|]. split; [reflexivity|]. destruct X as (_ & [(-> & _)|(Hs & attr & path & attrs & D & ->)]); [split; assumption|]. split; [|exact K2]. cbn [links with_links]. intros x Hx. unfold set_add in Hx. destruct (mem _ _); [auto|].
    apply in_app_or in Hx. destruct Hx as [Hx|[<-|[]]]; [auto|]. exists path. split; [reflexivity|]. rewrite Hs. discriminate.
Qed.
Lemma page_pump_known f ts out b F : pump (manips read scan) f ts (new_builder (h_init p F)) = Ret (out, b) -> b_mark b = None /\ page_known (b_st b).
Proof.
  intros H. destruct (pump_one _ _ _ page_known_kept f ts _ (new_builder (h_init p F)) _ _ ltac:(repeat split; intros x []) H) as (b2 & _ & (_ & M & _ & _ & Kn)). auto.
Qed.
End Read.
(** the run depends on those files only *)
Section Reads.
Context (read read2 : str -> option str) (scan : bool).
Definition page_agree (s : hstate) : Prop :=
  (forall x, In x (links s) -> starts_with (lit "/") x = false /\ read2 (out_file x ++ lit ".hash") = read (out_file x ++ lit ".hash")) /\ forall x, In x (t_seen s) -> read2 x = read x.
Lemma link_file_of path : starts_with (lit "/") (join_path (lit "src") [lit "public"; path]) = false -> page_link_file path = out_file (join_path (lit "src") [lit "public"; path]) ++ lit ".hash".
Proof. intros H. destruct (public_join path H) as (-> & E). rewrite out_file_text by exact E. unfold page_link_file. rewrite www_join, E. reflexivity. Qed.
Lemma page_grows_trans a b c : page_grows a b -> page_grows b c -> page_grows a c.
Proof. intros (A & B) (C & D). split; eapply incl_tran; eassumption. Qed.
Lemma page_agree_back s s' : page_grows s s' -> page_agree s' -> page_agree s.
Proof. intros (A & B) (C & D). split; intros x Hx; [apply C, A, Hx|apply D, B, Hx]. Qed.
Lemma page_step t s r s' : find_mark (manips read scan) t s = Ret (r, s') ->
  match r with
  | None => page_grows s s' /\ find_mark (manips read2 scan) t s = Ret (None, s')
  | Some m => forall r2 s1, continue_mark m t s' = Ret (r2, s1) -> r2 <> None /\ page_grows s s1 /\ (page_agree s1 -> exists m2, find_mark (manips read2 scan) t s = Ret (Some m2, s') /\ continue_mark m2 t s' = Ret (r2, s1))
  end.
Proof.
  unfold page_manips. cbn [find_mark start_mark canonical page_links page_guard page_templates]. destruct (canonical_start host scan t s) as [[[|] s1]|] eqn:E1; [| |discriminate]; apply canonical_keeps in E1; subst s1.
  { intros H. injection H as <- <-. intros r2 s1 Ec. cbn [continue_mark canonical] in Ec. pose proof (canonical_takes _ _ _ _ Ec) as (N & ->). split; [exact N|]. split; [split; apply incl_refl|]. intros _. eexists. split; [reflexivity|exact Ec]. }
  destruct (link_start scan t s) as [[b s2]|] eqn:E2; [|discriminate]. apply link_start_cases in E2. assert (G : page_grows s s2) by (destruct (link_dependency t) as [[[? path] ?]|]; destruct E2 as (_ & ->); split; cbn; try apply incl_refl; apply add_incl).
  destruct b.
  { intros H. injection H as <- <-. intros r2 s1 Ec. cbn [continue_mark page_links] in Ec. pose proof (link_takes read _ _ _ _ Ec) as (N & -> & attr & path & attrs & D & _). split; [exact N|]. split; [exact G|]. intros (A & _). eexists. split; [reflexivity|]. cbn [continue_mark page_links page_templates].
    rewrite D in E2. destruct E2 as (_ & ->). unfold page_link_continue in Ec |- *. rewrite D in Ec |- *. assert (Er : read2 (page_link_file path) = read (page_link_file path)); [|rewrite Er; exact Ec].
    destruct (A (join_path (lit "src") [lit "public"; path])) as (A1 & A2); [apply add_in|]. rewrite link_file_of by exact A1. exact A2. }
  destruct (page_left_out t); [discriminate|]. unfold template_start. destruct (match stack_command t with Some _ => _ | None => _ end); intros H; injection H as <- <-; [|split; [exact G|reflexivity]].
  intros r2 s1 Ec. cbn [continue_mark page_templates] in Ec. pose proof (template_takes read _ _ _ _ Ec) as (N & L & T). split; [exact N|]. split.
  { split; [rewrite L; apply G|]. destruct T as [-> |(path & -> & _)]; [apply G|]. eapply incl_tran; [apply G|apply add_incl]. }
  intros (_ & A). eexists. split; [reflexivity|]. cbn [continue_mark page_links page_templates]. unfold page_template_continue in Ec |- *. destruct (stack_command t) as [[c l]|]; [exact Ec|]. destruct (template_command t) as [[c l]|]; [|exact Ec]. unfold page_template in Ec |- *.
  destruct (template_import (t_frame s2) c l) as [[path vars]|]; [|exact Ec]. destruct (read path) eqn:Er; [|discriminate]. rewrite (A path), Er; [exact Ec|]. injection Ec as <- <-. cbn [t_seen with_templates]. apply add_in.
Qed.
Lemma page_reads f ts out b F : pump (manips read scan) f ts (new_builder (h_init p F)) = Ret (out, b) -> page_agree (b_st b) -> exists b2, pump (manips read2 scan) f ts (new_builder (h_init p F)) = Ret (out, b2) /\ b_st b2 = b_st b.
Proof. intros H. exact (proj2 (pump_agree _ _ page_grows page_agree (fun s => conj (incl_refl _) (incl_refl _)) page_grows_trans page_agree_back page_step f ts _ _ _ H)). Qed.
End Reads.
End Pages.
