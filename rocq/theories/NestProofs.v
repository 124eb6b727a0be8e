(** Imports are replaced by the expansion of their rule (C26). *)
From Verif Require Import Base Graph PyPath PyNorm Css Builder BuilderSpec BuilderProofs Handlers Nest NestSpec NestText.
From Coq Require Import String ZArith NArith Bool List Lia.
Import ListNotations.
Open Scope list_scope.
Open Scope N_scope.

(** * References *)
Lemma ref_eqb_eq a b : ref_eqb a b = true <-> a = b.
Proof. unfold ref_eqb. rewrite andb_true_iff, !str_eqb_eq. destruct a, b. cbn. split; [intros [-> ->]; reflexivity|intros [= -> ->]; split; reflexivity]. Qed.
Lemma ref_eqb_refl a : ref_eqb a a = true. Proof. apply ref_eqb_eq. reflexivity. Qed.
Lemma ref_eqb_neq a b : ref_eqb a b = false <-> a <> b.
Proof. rewrite <- ref_eqb_eq. destruct (ref_eqb a b); split; congruence. Qed.
Lemma ref_eq_dec (a b : ref) : {a = b} + {a <> b}.
Proof. destruct (ref_eqb a b) eqn:E; [left; apply ref_eqb_eq; exact E|right; apply ref_eqb_neq; exact E]. Qed.
Lemma rmem_iff r l : rmem r l = true <-> In r l.
Proof. unfold rmem. rewrite existsb_exists. split; [intros (x & I & E); apply ref_eqb_eq in E; subst; exact I|intros I; exists r; split; [exact I|apply ref_eqb_refl]]. Qed.
Lemma rmem_false r l : rmem r l = false <-> ~ In r l.
Proof. rewrite <- rmem_iff. destruct (rmem r l); split; congruence. Qed.
Lemma radd_in r l x : In x (radd r l) <-> x = r \/ In x l.
Proof. unfold radd. destruct (rmem r l) eqn:E; [apply rmem_iff in E; split; [auto|intros [->|I]; assumption]|rewrite in_app_iff; cbn; intuition congruence]. Qed.
Lemma rdiscard_in r l x : In x (rdiscard r l) <-> x <> r /\ In x l.
Proof. unfold rdiscard. rewrite filter_In, negb_true_iff, ref_eqb_neq. intuition congruence. Qed.
Lemma rminus_in a b x : In x (rminus a b) <-> In x a /\ ~ In x b.
Proof. unfold rminus. rewrite filter_In, negb_true_iff, rmem_false. reflexivity. Qed.
Lemma rget_rset_same {A} k (v : A) d : rget k (rset k v d) = Some v.
Proof. induction d as [|[x w] d IH]; cbn; [rewrite ref_eqb_refl; reflexivity|]. destruct (ref_eqb k x) eqn:E; cbn; rewrite E; [reflexivity|exact IH]. Qed.
Lemma rget_rset_other {A} k k' (v : A) d : k' <> k -> rget k' (rset k v d) = rget k' d.
Proof. intros N. apply ref_eqb_neq in N. induction d as [|[x w] d IH]; cbn; [rewrite N; reflexivity|]. destruct (ref_eqb k x) eqn:E; cbn; [apply ref_eqb_eq in E; subst; rewrite N; reflexivity|]. rewrite IH. reflexivity. Qed.
Lemma rget_rdel_same {A} k (d : list (ref * A)) : rget k (rdel k d) = None.
Proof. induction d as [|[x w] d IH]; cbn; [reflexivity|]. destruct (ref_eqb k x) eqn:E; cbn; [exact IH|rewrite E; exact IH]. Qed.
Lemma rget_rdel_other {A} k k' (d : list (ref * A)) : k' <> k -> rget k' (rdel k d) = rget k' d.
Proof. intros N. induction d as [|[x w] d IH]; cbn; [reflexivity|]. destruct (ref_eqb k x) eqn:E; cbn; [apply ref_eqb_eq in E; subst; apply ref_eqb_neq in N; rewrite N; exact IH|]. destruct (ref_eqb k' x); [reflexivity|exact IH]. Qed.

Section Nest.
Context {F : Type} (float_of : str -> option F) (float_str : F -> str).
Context (high_digit : N -> bool) (int_high : str -> option Z).
Notation token := (token (F := F)).
Context (default_css self : str) (f : str -> option str).
Notation get_import := (get_import default_css).
Notation import := (import default_css).
Notation tokenize := (tokenize float_of high_digit int_high).

Lemma import_none (t : token) : get_import t = None <-> forall r, ~ import t r.
Proof. split; [intros E r H; apply get_import_iff in H; congruence|]. intros H. destruct (get_import t) as [r|] eqn:E; [|reflexivity]. apply get_import_iff in E. destruct (H r E). Qed.
Notation file_of := (file_of self).
Notation is_sheet := (is_sheet float_of high_digit int_high f).
Notation rule_of := (rule_of float_of float_str high_digit int_high self f).
Notation expands := (expands rule_of import).
Notation expanded := (expanded rule_of import).
(** tokens without imports, braces or end *)
Definition plain (l : list token) : Prop := Forall (fun t => get_import t = None /\ ~ curly t /\ t <> TEof) l.
Definition flat (l : list token) : Prop := Forall (fun t => ~ curly t /\ t <> TEof) l.

Lemma expanded_app a x b y : expanded a x -> expanded b y -> expanded (a ++ b) (x ++ y).
Proof.
  revert x. induction a as [|t a IH]; intros x A B; inversion A as [|? ? out N A'|? r v ? out I E A']; subst; cbn [app]; [exact B|apply ExpandedToken; [exact N|apply IH; assumption]|].
  rewrite <- app_assoc. apply (ExpandedImport _ _ _ r); [exact I|exact E|apply IH; assumption].
Qed.
Lemma expanded_plain a : (forall t, In t a -> get_import t = None) -> expanded a a.
Proof. induction a as [|t a IH]; intros H; [constructor|]. apply ExpandedToken; [apply import_none, H; left; reflexivity|apply IH; intros x I; apply H; right; exact I]. Qed.
Lemma expanded_plain_inv a b w : (forall t, In t a -> get_import t = None) -> expanded (a ++ b) w -> exists y, w = a ++ y /\ expanded b y.
Proof.
  revert w. induction a as [|t a IH]; intros w H E; [exists w; split; [reflexivity|exact E]|]. cbn [app] in E. inversion E as [|? ? out N A'|? r v ? out I E' A']; subst.
  - destruct (IH _ (fun x I => H x (or_intror I)) A') as (y & -> & Y). exists y. split; [reflexivity|exact Y].
  - apply get_import_iff in I. rewrite (H t (or_introl eq_refl)) in I. discriminate.
Qed.
Lemma expanded_app_inv a : forall b w, expanded (a ++ b) w -> exists x y, w = x ++ y /\ expanded a x /\ expanded b y.
Proof.
  induction a as [|t a IH]; intros b w H; [exists [], w; split; [reflexivity|split; [constructor|exact H]]|]. cbn [app] in H. inversion H as [|? ? out N A'|? r v ? out I E' A']; subst.
  - destruct (IH _ _ A') as (x & y & -> & X & Y). exists (t :: x), y. split; [reflexivity|]. split; [apply ExpandedToken; assumption|exact Y].
  - destruct (IH _ _ A') as (x & y & -> & X & Y). exists (v ++ x), y. split; [rewrite app_assoc; reflexivity|]. split; [apply (ExpandedImport _ _ _ r); assumption|exact Y].
Qed.

(** * One file *)
(** [b] stands for the block [b0]: expanding it gives the expansion of [b0] up to blanks at the ends *)
Definition stands (b0 b : list token) : Prop := forall w, expanded b w -> exists a c, blank a /\ blank c /\ expanded b0 (a ++ w ++ c).
Definition good_rules (av : list (ref * list token)) : Prop := forall r v, rget r av = Some v -> expands r v /\ plain v.

Lemma fill_sound av n : good_rules av -> forall stack acc v, flat stack -> Forall (fun t => get_import t = None /\ ~ curly t /\ t <> TEof) acc -> fill default_css n av stack acc = Ret v -> exists w, v = acc ++ w /\ expanded stack w /\ plain v.
Proof.
  intros G. induction n as [|n IH]; intros stack acc v FS A; cbn [fill]; [discriminate|]. destruct stack as [|t r].
  - intros [= <-]. exists []. rewrite app_nil_r. split; [reflexivity|]. split; [constructor|exact A].
  - inversion FS as [|? ? Ft Fr]; subst. destruct (get_import t) as [i|] eqn:I.
    + destruct (rget i av) as [b|] eqn:R; [|discriminate]. destruct (G _ _ R) as [X P]. intros H. apply IH in H; [|apply Forall_app; split; [|exact Fr]; eapply Forall_impl; [|exact P]; cbn; tauto|exact A].
      destruct H as (w & -> & E & Q). apply expanded_plain_inv in E; [|intros x Hx; unfold plain in P; rewrite Forall_forall in P; exact (proj1 (P x Hx))]. destruct E as (y & -> & Y). exists (b ++ y). split; [reflexivity|]. split; [|exact Q].
      apply (ExpandedImport _ _ _ i); [apply get_import_iff; exact I|exact X|exact Y].
    + intros H. apply IH in H; [|exact Fr|apply Forall_app; split; [exact A|constructor; [split; [exact I|exact Ft]|constructor]]]. destruct H as (w & -> & E & Q). exists (t :: w). rewrite <- app_assoc in *. split; [reflexivity|]. split; [apply ExpandedToken; [apply import_none; exact I|exact E]|exact Q].
Qed.

Lemma white_true (t : token) : is_white t = true <-> exists v, t = TWhitespace v.
Proof. split; [destruct t; try discriminate; eauto|intros [v ->]; reflexivity]. Qed.
Lemma curly_case (t : token) : (t = TLCurly \/ t = TRCurly \/ t = TEof) \/ (~ curly t /\ t <> TEof /\ t <> TLCurly /\ t <> TRCurly).
Proof. unfold curly. destruct t; try (left; tauto); right; (split; [intros [X|X]; discriminate X|]); repeat split; intros X; discriminate X. Qed.

(** reading a block *)
Lemma read_block_sound av n : good_rules av -> forall stack b r value missing v m g, plain stack -> flat b -> read_block default_css n av stack (b ++ TRCurly :: r, None) value missing = Ret (v, m, g) ->
  g = (r, None) /\ exists x, v = value ++ x /\ flat x /\ (forall i, In i m <-> In i missing \/ (rget i av = None /\ exists t, In t x /\ get_import t = Some i)) /\
    (forall t i, In t x -> get_import t = Some i -> In i m /\ In t b) /\
    forall w, expanded x w -> exists a, blank a /\ (value <> [] -> a = []) /\ expanded (stack ++ b) (a ++ w).
Proof.
  intros G. induction n as [|n IH]; intros stack b r value missing v m g PS FB; cbn [read_block]; [discriminate|].
  assert (Main : forall t stack0 b', plain stack0 -> flat b' -> (~ curly t /\ t <> TEof) -> (forall y, expanded (t :: stack0 ++ b') y -> expanded (stack ++ b) y) -> (get_import t <> None -> stack0 = []) -> incl b' b -> (get_import t <> None -> In t b) ->
    (if match value with [] => is_white t | _ => false end then read_block default_css n av stack0 (b' ++ TRCurly :: r, None) value missing
     else match get_import t with
          | Some i => match rget i av with Some b0 => read_block default_css n av (b0 ++ stack0) (b' ++ TRCurly :: r, None) value missing | None => read_block default_css n av stack0 (b' ++ TRCurly :: r, None) (value ++ [t]) (radd i missing) end
          | None => read_block default_css n av stack0 (b' ++ TRCurly :: r, None) (value ++ [t]) missing
          end) = Ret (v, m, g) ->
     g = (r, None) /\ exists x, v = value ++ x /\ flat x /\ (forall i, In i m <-> In i missing \/ (rget i av = None /\ exists t, In t x /\ get_import t = Some i)) /\
    (forall t i, In t x -> get_import t = Some i -> In i m /\ In t b) /\
    forall w, expanded x w -> exists a, blank a /\ (value <> [] -> a = []) /\ expanded (stack ++ b) (a ++ w)).
  { intros t stack0 b' P0 F0 Ft Q S0 B1 B2. destruct (match value with [] => is_white t | _ => false end) eqn:W.
    - destruct value; [|discriminate]. apply white_true in W. destruct W as [wv ->]. intros H. apply IH in H; [|exact P0|exact F0]. destruct H as (-> & x & -> & Fx & M & M2 & X). split; [reflexivity|]. exists x. split; [reflexivity|]. split; [exact Fx|]. split; [exact M|]. split; [intros u j Iu Eu; destruct (M2 u j Iu Eu) as [M3 M4]; split; [exact M3|apply B1; exact M4]|]. intros w Ew. destruct (X w Ew) as (a & Ba & _ & Ea). exists (TWhitespace wv :: a). split; [constructor; [eauto|exact Ba]|]. split; [congruence|]. apply Q. cbn [app]. apply ExpandedToken; [|exact Ea]. apply import_none. reflexivity.
    - destruct (get_import t) as [i|] eqn:I.
      + rewrite (S0 ltac:(discriminate)) in *. clear S0. destruct (rget i av) as [b0|] eqn:R.
        * destruct (G _ _ R) as [Xi Pi]. intros H. rewrite app_nil_r in H. apply IH in H; [|exact Pi|exact F0]. destruct H as (-> & x & -> & Fx & M & M2 & X). split; [reflexivity|]. exists x. split; [reflexivity|]. split; [exact Fx|]. split; [exact M|]. split; [intros u j Iu Eu; destruct (M2 u j Iu Eu) as [M3 M4]; split; [exact M3|apply B1; exact M4]|]. intros w Ew. destruct (X w Ew) as (a & Ba & Na & Ea). exists a. split; [exact Ba|]. split; [exact Na|]. apply Q. cbn [app].
          apply expanded_plain_inv in Ea; [|intros y Hy; unfold plain in Pi; rewrite Forall_forall in Pi; exact (proj1 (Pi y Hy))]. destruct Ea as (y & -> & Y). apply (ExpandedImport _ _ _ i); [apply get_import_iff; exact I|exact Xi|exact Y].
        * intros H. apply IH in H; [|exact P0|exact F0]. destruct H as (-> & x & -> & Fx & M & M2 & X). split; [reflexivity|]. exists (t :: x). rewrite <- app_assoc. split; [reflexivity|]. split; [constructor; assumption|]. split; [|split].
          -- intros j. rewrite M, radd_in. split.
             ++ intros [[->|J]|(Rj & u & Iu & Eu)]; [right; split; [exact R|]; exists t; split; [left; reflexivity|exact I]|left; exact J|right; split; [exact Rj|]; exists u; split; [right; exact Iu|exact Eu]].
             ++ intros [J|(Rj & u & [<-|Iu] & Eu)]; [left; right; exact J|left; left; congruence|right; split; [exact Rj|]; exists u; split; assumption].
          -- intros u j [<-|Iu] Eu; [split; [apply M; left; apply radd_in; left; congruence|apply B2; congruence]|destruct (M2 u j Iu Eu) as [M3 M4]; split; [exact M3|apply B1; exact M4]].
          -- intros w Ew. inversion Ew as [|? ? out N A'|? i' v' ? out I' E' A']; subst; [apply get_import_iff in I; destruct (N _ I)|]. destruct (X out A') as (a & Ba & Na & Ea). rewrite (Na ltac:(destruct value; discriminate)) in Ea. exists []. split; [constructor|]. split; [reflexivity|]. cbn [app] in *. apply Q. apply (ExpandedImport _ _ _ i'); assumption.
      + intros H. apply IH in H; [|exact P0|exact F0]. destruct H as (-> & x & -> & Fx & M & M2 & X). split; [reflexivity|]. exists (t :: x). rewrite <- app_assoc. split; [reflexivity|]. split; [constructor; assumption|]. split; [|split].
        -- intros j. rewrite M. split; (intros [J|(Rj & u & Iu & Eu)]; [left; exact J|right; split; [exact Rj|]; exists u]); [split; [right; exact Iu|exact Eu]|]. destruct Iu as [<-|Iu]; [congruence|split; assumption].
        -- intros u j [<-|Iu] Eu; [congruence|destruct (M2 u j Iu Eu) as [M3 M4]; split; [exact M3|apply B1; exact M4]].
        -- intros w Ew. inversion Ew as [|? ? out N A'|? i' v' ? out I' E' A']; subst; [|apply get_import_iff in I'; congruence]. destruct (X out A') as (a & Ba & Na & Ea). rewrite (Na ltac:(destruct value; discriminate)) in Ea. exists []. split; [constructor|]. split; [reflexivity|]. cbn [app] in *. apply Q. apply ExpandedToken; [apply import_none; exact I|exact Ea]. }
  destruct stack as [|t stack].
  - destruct b as [|t b]; cbn [app next].
    + cbn [is_white get_import]. replace (match value with [] => false | _ => false end) with false by (destruct value; reflexivity). intros [= <- <- <-]. split; [reflexivity|]. exists []. rewrite app_nil_r. split; [reflexivity|]. split; [constructor|]. split; [|split].
      * intros i. split; [auto|intros [J|(_ & u & [] & _)]; exact J].
      * intros u j [].
      * intros w Ew. inversion Ew; subst. exists []. split; [constructor|]. split; [reflexivity|constructor].
    + inversion FB as [|? ? Ft Fb]; subst. intros H. apply (Main t [] b); [constructor|exact Fb|exact Ft|intros y Y; exact Y|reflexivity|intros y Y; right; exact Y|intros _; left; reflexivity|]. destruct (curly_case t) as [[ -> |[ -> | -> ]]|(_ & N1 & N2 & N3)]; [destruct (proj1 Ft); left; reflexivity|destruct (proj1 Ft); right; reflexivity|destruct (proj2 Ft); reflexivity|].
      destruct t; try congruence; exact H.
  - inversion PS as [|? ? Pt Ps]; subst. destruct Pt as (I & Ft). intros H. apply (Main t stack b); [exact Ps|exact FB|exact Ft|intros y Y; exact Y|congruence|apply incl_refl|congruence|]. destruct (curly_case t) as [[ -> |[ -> | -> ]]|(_ & N1 & N2 & N3)]; [destruct (proj1 Ft); left; reflexivity|destruct (proj1 Ft); right; reflexivity|destruct (proj2 Ft); reflexivity|].
    rewrite I in *. destruct t; try congruence; exact H.
Qed.
End Nest.
