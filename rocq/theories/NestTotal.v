(** Which imports can be resolved, and that the order does not matter (C26). *)
From Verif Require Import Base Graph PyPath PyNorm Css Builder BuilderSpec BuilderProofs Handlers Nest NestSpec NestText NestProofs NestSound NestBook NestFuel.
From Coq Require Import String ZArith NArith Bool List Lia.
Import ListNotations.
Open Scope list_scope.
Open Scope N_scope.

(** * The rules of a file are determined *)
Lemma sheet_unique {F} (ts : list (token (F := F))) l : sheet ts l -> forall l', sheet ts l' -> l = l'.
Proof.
  intros H. induction H as [|v r l H IH|v r l H IH|a r l N E H IH|v a b r l N E B H IH|t a b r l T N E Fb H IH]; intros l' H'.
  - inversion H' as [| | | | |t ? ? ? ? T]; subst; [reflexivity|]. destruct T as (T & _). congruence.
  - inversion H' as [| | | | |t ? ? ? ? T]; subst; [apply IH; assumption|]. destruct T as (_ & _ & _ & _ & _ & T). destruct (T _ eq_refl).
  - inversion H' as [| | | | |t ? ? ? ? T]; subst; [apply IH; assumption|]. destruct T as (_ & _ & _ & _ & T & _). destruct (T _ eq_refl).
  - inversion H' as [| | |a' r' ? N' E' H1| |t ? ? ? ? T]; subst; [|destruct T as (_ & T & _); congruence]. apply IH.
    assert (X : forall a r, ~ In TCDC a -> ~ In TEof a -> read_to (fun t : token (F := F) => match t with TCDC => true | _ => false end) (a ++ TCDC :: r) None = Ret (r, None)) by (intros x y Nx Ex; apply read_to_app; [intros t I; destruct t; try reflexivity; contradiction|exact Ex|discriminate|reflexivity]).
    pose proof (X a r N E) as X1. match goal with K : a' ++ _ = a ++ _ |- _ => rewrite <- K in X1 end. rewrite (X a' r' N' E') in X1. injection X1 as <-. exact H1.
  - inversion H' as [| | | |v' a' b' r' ? N' E' B' H1|t ? ? ? ? T]; subst; [|destruct T as (_ & _ & _ & T & _); destruct (T _ eq_refl)]. apply IH.
    match goal with K : a' ++ _ = a ++ _ |- _ => rename K into Q end. pose proof (read_prelude_app a (b ++ TRCurly :: r) None N E) as X1. rewrite <- Q, read_prelude_app in X1 by assumption. injection X1 as X1 X2. pose proof (read_nested_end b r None B) as X3. rewrite <- X2, read_nested_end in X3 by exact B'. injection X3 as _ <-. exact H1.
  - remember ((t :: a) ++ TLCurly :: b ++ TRCurly :: r) as ts0 eqn:Q. destruct H' as [|v' r' l' H'|v' r' l' H'|a' r' l' N' E' H'|v' a' b' r' l' N' E' B' H'|t' a' b' r' l' T' N' E' Fb' H'].
    + injection Q as <- _. destruct T as (T & _). congruence.
    + injection Q as <- _. destruct T as (_ & _ & _ & _ & _ & T). destruct (T _ eq_refl).
    + injection Q as <- _. destruct T as (_ & _ & _ & _ & T & _). destruct (T _ eq_refl).
    + injection Q as <- _. destruct T as (_ & T & _). congruence.
    + injection Q as <- _. destruct T as (_ & _ & _ & T & _). destruct (T _ eq_refl).
    + injection Q as <- Q. pose proof (read_prelude_app a (b ++ TRCurly :: r) None N E) as X1. rewrite <- Q, read_prelude_app in X1 by assumption. injection X1 as -> X2.
      assert (Bal : forall x : list (token (F := F)), (forall u, In u x -> ~ curly u /\ u <> TEof) -> balanced x) by (intros x; induction x as [|u x IHx]; intros Hx; [constructor|]; apply BalancedToken; [apply Hx; left; reflexivity|apply Hx; left; reflexivity|apply IHx; intros w Iw; apply Hx; right; exact Iw]).
      pose proof (read_nested_end b r None (Bal b Fb)) as X3. rewrite <- X2, read_nested_end in X3 by (apply Bal; exact Fb'). injection X3 as X3 <-. apply app_inj_tail in X3. destruct X3 as [-> _]. f_equal. apply IH. exact H'.
Qed.
Lemma sheet_eof {F} (ts : list (token (F := F))) l : sheet ts l -> exists body, ts = body ++ [TEof] /\ ~ In TEof body.
Proof.
  assert (Bal : forall x : list (token (F := F)), balanced x -> ~ In TEof x) by (intros x B; induction B as [|t b C E B IH|a b A IHa B IHb]; cbn; [tauto|intros [X|X]; [congruence|exact (IH X)]|]; intros [X|X]; [discriminate|]; apply in_app_iff in X; destruct X as [X|[X|X]]; [exact (IHa X)|discriminate|exact (IHb X)]).
  intros H. induction H as [|v r l H (body & -> & IH)|v r l H (body & -> & IH)|a r l N E H (body & -> & IH)|v a b r l N E B H (body & -> & IH)|t a b r l T N E Fb H (body & -> & IH)].
  - exists []. split; [reflexivity|intros []].
  - exists (TWhitespace v :: body). split; [reflexivity|]. intros [X|X]; [discriminate|exact (IH X)].
  - exists (TComment v :: body). split; [reflexivity|]. intros [X|X]; [discriminate|exact (IH X)].
  - exists (TCDO :: a ++ TCDC :: body). split; [cbn; rewrite <- app_assoc; reflexivity|]. intros [X|X]; [discriminate|]. apply in_app_iff in X. destruct X as [X|[X|X]]; [exact (E X)|discriminate|exact (IH X)].
  - exists (TAt v :: a ++ TLCurly :: b ++ TRCurly :: body). split; [cbn; rewrite <- app_assoc; cbn; rewrite <- app_assoc; reflexivity|]. intros [X|X]; [discriminate|]. apply in_app_iff in X. destruct X as [X|[X|X]]; [exact (E X)|discriminate|]. apply in_app_iff in X. destruct X as [X|[X|X]]; [exact (Bal b B X)|discriminate|exact (IH X)].
  - exists ((t :: a) ++ TLCurly :: b ++ TRCurly :: body). split; [cbn; rewrite <- app_assoc; cbn; rewrite <- app_assoc; reflexivity|]. intros X. apply in_app_iff in X. destruct X as [[X|X]|[X|X]]; [destruct T; congruence|exact (E X)|discriminate|]. apply in_app_iff in X. destruct X as [X|[X|X]]; [exact (proj2 (Fb _ X) eq_refl)|discriminate|exact (IH X)].
Qed.

Section Nest.
Context {F : Type} (float_of : str -> option F) (float_str : F -> str).
Context (high_digit : N -> bool) (int_high : str -> option Z).
Notation token := (token (F := F)).
Notation rules := (rules (F := F)).
Notation nstate := (nstate (F := F)).
Context (default_css self : str) (f : str -> option str).
Notation get_import := (get_import default_css).
Notation import := (import (F := F) default_css).
Notation tokenize := (tokenize float_of high_digit int_high).
Notation file_of := (file_of self).
Notation is_sheet := (is_sheet float_of high_digit int_high f).
Notation rule_of := (rule_of float_of float_str high_digit int_high self f).
Notation expands := (expands rule_of import).
Notation expanded := (expanded rule_of import).
Notation ready := (ready rule_of import).
Notation plain := (plain default_css).
Notation good_rules := (good_rules float_of float_str high_digit int_high default_css self f).
Notation good := (good float_of float_str high_digit int_high default_css self f).
Notation stands := (stands float_of float_str high_digit int_high default_css self f).
Notation consistent := (consistent import).
Notation filled := (filled default_css).
Notation splice := (splice default_css).
Notation sel e := (selector_of float_str (fst e)).

(** the stylesheets that are imported from: their files are different, and are stylesheets
    that have no two rules with the same selector *)
Context (paths : str -> Prop).
Context (paths_sheets : forall p, paths p -> exists ts l, is_sheet (file_of p) ts l /\ NoDup (map (fun e => sel e) l)).

Lemma is_sheet_unique file ts l ts' l' : is_sheet file ts l -> is_sheet file ts' l' -> ts = ts' /\ l = l'.
Proof. intros (x & D & T & S) (x' & D' & T' & S'). rewrite D in D'. injection D' as <-. rewrite T in T'. injection T' as <-. split; [reflexivity|exact (sheet_unique _ _ S _ S')]. Qed.
Lemma nodup_map_inj {A B} (g : A -> B) l x y : NoDup (map g l) -> In x l -> In y l -> g x = g y -> x = y.
Proof. induction l as [|z l IH]; cbn; [tauto|]. intros N. inversion N as [|? ? NI N']; subst. intros [->|X] [->|Y] E; [reflexivity|destruct NI; rewrite E; apply in_map; exact Y|destruct NI; rewrite <- E; apply in_map; exact X|exact (IH N' X Y E)]. Qed.
Lemma rule_unique r b b' : paths (fst r) -> rule_of r b -> rule_of r b' -> b = b'.
Proof.
  intros P (ts & l & p & S & I & E) (ts' & l' & p' & S' & I' & E'). destruct (is_sheet_unique _ _ _ _ _ S S') as [<- <-]. destruct (paths_sheets _ P) as (ts2 & l2 & S2 & N). destruct (is_sheet_unique _ _ _ _ _ S S2) as [<- <-].
  assert (X : (p, b) = (p', b')) by (apply (nodup_map_inj (fun e => sel e) l); [exact N|exact I|exact I'|exact (eq_trans E (eq_sym E'))]). congruence.
Qed.

(** * The invariant *)
Definition known (rs : rules) (r : ref) : Prop := rget r (available rs) <> None \/ rget r (unresolved rs) <> None.
Record okay (rs : rules) : Prop := {
  ok_good : good rs;
  ok_book : consistent rs;
  ok_source : forall r b m, rget r (unresolved rs) = Some (b, m) -> forall t i, In t b -> get_import t = Some i -> exists b0, rule_of r b0 /\ In t b0;
  ok_paths : forall r, known rs r -> paths (fst r) }.
Lemma ok_filled rs : okay rs -> filled (available rs).
Proof. intros [[G _] _ _ _] r v H. exact (proj2 (G r v H)). Qed.

(** a step that only makes an unresolved rule available *)
Record forward (rs rs' : rules) : Prop := {
  fw_okay : okay rs';
  fw_known : forall r, known rs' r <-> known rs r;
  fw_available : forall r v, rget r (available rs) = Some v -> rget r (available rs') = Some v;
  fw_block : forall r b m, rget r (unresolved rs') = Some (b, m) -> exists m', rget r (unresolved rs) = Some (b, m') }.
Lemma forward_refl rs : okay rs -> forward rs rs.
Proof. intros O. constructor; [exact O|tauto|trivial|eauto]. Qed.
Lemma forward_trans a b c : forward a b -> forward b c -> forward a c.
Proof. intros [O1 K1 A1 B1] [O2 K2 A2 B2]. constructor; [exact O2|intros r; rewrite K2; apply K1|auto|]. intros r x m H. destruct (B2 _ _ _ H) as (m1 & H1). exact (B1 _ _ _ H1). Qed.

Lemma resolvable_splice r rs : okay rs -> In r (resolvable rs) -> exists b v, rget r (unresolved rs) = Some (b, []) /\ splice (available rs) b = Some v.
Proof.
  intros [G B S P] I. apply (resolvable_ok _ _ B) in I. destruct I as (b & U). destruct (missing_ok _ _ B _ _ _ U) as [_ M]. destruct (splice_total default_css (available rs) b) as (v & E); [|exists b, v; split; assumption].
  intros t i It Ei X. apply (M i). split; [exact X|]. exists t. split; [exact It|apply get_import_iff; exact Ei].
Qed.
Lemma resolve_forward fuel r rs rs' : okay rs -> In r (resolvable rs) -> resolve default_css fuel r rs = Ret rs' ->
  forward rs rs' /\ (length (unresolved rs') < length (unresolved rs))%nat /\ exists b v, rget r (unresolved rs) = Some (b, []) /\ splice (available rs) b = Some v /\ available rs' = rset r v (available rs).
Proof.
  intros O I H. pose proof (ok_filled rs O) as FL. destruct (resolvable_splice r rs O I) as (b & v & U & E). pose proof (resolve_sound float_of float_str high_digit int_high default_css self f fuel r rs rs' (ok_good _ O) H) as G'. unfold resolve in H. rewrite U in H. destruct (fill default_css fuel (available rs) b []) as [w|] eqn:FI; [|discriminate].
  apply (fill_is_splice default_css _ _ FL) in FI. destruct FI as (w' & E' & ->). cbn [app] in H. rewrite E in E'. injection E' as <-. destruct O as [G B S P].
  assert (NA : rget r (available rs) = None) by (destruct (rget r (available rs)) eqn:X; [|reflexivity]; assert (Y : rget r (unresolved rs) = None) by (apply (not_both _ _ B); congruence); congruence).
  destruct (set_available_ok default_css r v rs B NA) as (rs1 & E1 & B1 & A1 & U1 & K1 & L1); [intros x m X; congruence|]. rewrite H in E1. injection E1 as <-.
  assert (Kn : forall k, known rs' k <-> known rs k).
  { intros k. unfold known. rewrite A1. destruct (ref_eq_dec k r) as [->|N]; [rewrite rget_rset_same; split; intros _; [right; congruence|left; discriminate]|]. rewrite rget_rset_other by exact N. pose proof (K1 k N) as Kk. destruct (rget k (unresolved rs)) as [[x m]|], (rget k (unresolved rs')) as [[y m']|]; try contradiction; split; intros [X|X]; auto; right; discriminate. }
  assert (Bl : forall k x m, rget k (unresolved rs') = Some (x, m) -> exists m', rget k (unresolved rs) = Some (x, m')).
  { intros k x m X. destruct (ref_eq_dec k r) as [->|N]; [congruence|]. pose proof (K1 k N) as Kk. rewrite X in Kk. destruct (rget k (unresolved rs)) as [[y m']|]; [|contradiction]. subst y. eauto. }
  split; [|split].
  - constructor; [|exact Kn| |exact Bl].
    + constructor; [exact G'|exact B1| |intros k X; apply P, Kn; exact X]. intros k x m X. destruct (Bl _ _ _ X) as (m' & X'). exact (S _ _ _ X').
    + intros k x X. rewrite A1. rewrite rget_rset_other by congruence. exact X.
  - rewrite L1. apply (rdel_shorter _ _ _ U).
  - exists b, v. repeat split; assumption.
Qed.
Lemma resolve_total r rs : okay rs -> In r (resolvable rs) -> exists fuel rs', resolve default_css fuel r rs = Ret rs'.
Proof.
  intros O I. destruct (resolvable_splice r rs O I) as (b & v & U & E). destruct (fill_splice default_css _ _ (ok_filled rs O) v E) as (n & FI). exists n. unfold resolve. rewrite U, FI. cbn [app]. destruct O as [G B S P].
  assert (NA : rget r (available rs) = None) by (destruct (rget r (available rs)) eqn:X; [|reflexivity]; assert (Y : rget r (unresolved rs) = None) by (apply (not_both _ _ B); congruence); congruence).
  destruct (set_available_ok default_css r v rs B NA) as (rs1 & E1 & _); [intros x m X; congruence|]. exists rs1. exact E1.
Qed.
Lemma pick_in {A} n (d : A) l : In (nth n (d :: l) d) (d :: l).
Proof. destruct (nth_in_or_default n (d :: l) d) as [H|H]; [exact H|rewrite H; left; reflexivity]. Qed.
Lemma resolve_all_forward pick fuel n : forall clock rs clock' rs', okay rs -> resolve_all default_css pick fuel n clock rs = Ret (clock', rs') -> forward rs rs' /\ resolvable rs' = [].
Proof.
  induction n as [|n IH]; intros clock rs clock' rs' G; cbn [resolve_all]; destruct (resolvable rs) as [|d l] eqn:R; try discriminate; try (intros [= <- <-]; split; [apply forward_refl; exact G|exact R]).
  set (r := nth (pick clock (d :: l)) (d :: l) d). assert (Ir : In r (resolvable rs)) by (rewrite R; apply pick_in). destruct (resolve default_css fuel r rs) as [rs1|] eqn:E; [|discriminate]. destruct (resolve_forward fuel r rs rs1 G Ir E) as (FW & _). intros H. apply IH in H; [|exact (fw_okay _ _ FW)]. destruct H as [FW' R']. split; [exact (forward_trans _ _ _ FW FW')|exact R'].
Qed.
Lemma resolve_all_total pick k : forall rs clock, okay rs -> (length (unresolved rs) <= k)%nat -> exists n x, resolve_all default_css pick n n clock rs = Ret x.
Proof.
  induction k as [|k IH]; intros rs clock O L; (destruct (resolvable rs) as [|d l] eqn:R; [exists 0%nat, (clock, rs); cbn; rewrite R; reflexivity|]).
  - assert (X : In d (resolvable rs)) by (rewrite R; left; reflexivity). apply (resolvable_ok _ _ (ok_book _ O)) in X. destruct X as (b & X). destruct (unresolved rs); [discriminate|cbn in L; lia].
  - set (r := nth (pick clock (d :: l)) (d :: l) d). assert (Ir : In r (resolvable rs)) by (rewrite R; apply pick_in). destruct (resolve_total r rs O Ir) as (n1 & rs1 & E). destruct (resolve_forward n1 r rs rs1 O Ir E) as (FW & Ls & _). destruct (IH rs1 (S clock) (fw_okay _ _ FW) (proj1 (Nat.lt_succ_r _ _) (Nat.lt_le_trans _ _ _ Ls L))) as (n2 & x & E2).
    exists (S (max n1 n2)), x. cbn [resolve_all]. rewrite R. fold r. rewrite (resolve_more default_css n1 (S (max n1 n2)) r rs rs1 ltac:(lia) E). apply (resolve_all_more default_css pick n2 (S (max n1 n2)) n2 (max n1 n2)); [lia|lia|exact E2].
Qed.

(** * Reading a file *)
(** [dn] are the rules of the stylesheet [p] that were read, the rest is in [g] *)
Definition placed (p : str) (g : list token * option exn) (rs : rules) (dn : list (list token * list token)) (ts : list token) (l : list (list token * list token)) : Prop :=
  (exists ts0, is_sheet (file_of p) ts0 (dn ++ l)) /\ g = (ts, None) /\ sheet ts l /\ forall x, known rs (p, x) <-> In x (map (fun e => sel e) dn).
Lemma placed_forward p g rs rs' dn ts l : forward rs rs' -> placed p g rs dn ts l -> placed p g rs' dn ts l.
Proof. intros FW (A & B & C & D). split; [exact A|]. split; [exact B|]. split; [exact C|]. intros x. rewrite (fw_known _ _ FW). apply D. Qed.
Lemma placed_nodup p g rs dn ts l : paths p -> placed p g rs dn ts l -> NoDup (map (fun e => sel e) (dn ++ l)).
Proof. intros P ((ts0 & S) & _). destruct (paths_sheets p P) as (ts1 & l1 & S1 & N). destruct (is_sheet_unique _ _ _ _ _ S S1) as [_ ->]. exact N. Qed.

(** what setting a rule that was read does *)
Record added (r : ref) (rs rs' : rules) : Prop := {
  ad_okay : okay rs';
  ad_known : forall k, known rs' k <-> known rs k \/ k = r;
  ad_available : forall k v, rget k (available rs) = Some v -> rget k (available rs') = Some v }.
Lemma set_item p e x m rs dn ts l ts' : paths p -> okay rs -> resolvable rs = [] -> placed p (ts, None) rs dn ts (e :: l) -> flat x -> stands (snd e) x -> NoDup m ->
  (forall i, In i m <-> rget i (available rs) = None /\ exists t, In t x /\ get_import t = Some i) -> (forall t i, In t x -> get_import t = Some i -> In i m /\ In t (snd e)) -> sheet ts' l ->
  exists rs', set_rule (p, sel e) x m rs = Ret rs' /\ added (p, sel e) rs rs' /\ placed p (ts', None) rs' (dn ++ [e]) ts' l /\
    match m with [] => available rs' = rset (p, sel e) x (available rs) /\ (forall k, option_map fst (rget k (unresolved rs')) = option_map fst (rget k (unresolved rs))) | _ => available rs' = available rs /\ unresolved rs' = rset (p, sel e) (x, m) (unresolved rs) end.
Proof.
  intros P O RV PL Fx ST ND M M2 SH. pose proof (placed_nodup _ _ _ _ _ _ P PL) as NS. destruct PL as ((ts0 & S0) & _ & _ & KN). destruct O as [G B S OP].
  set (r := (p, sel e)). assert (NK : ~ known rs r). { intros X. apply KN in X. rewrite map_app in NS. cbn [map] in NS. apply NoDup_remove_2 in NS. apply NS. apply in_app_iff. left. exact X. }
  assert (NA : rget r (available rs) = None) by (destruct (rget r (available rs)) eqn:X; [destruct NK; left; congruence|reflexivity]). assert (NU : rget r (unresolved rs) = None) by (destruct (rget r (unresolved rs)) eqn:X; [destruct NK; right; congruence|reflexivity]).
  assert (RO : rule_of r (snd e)) by (exists ts0, (dn ++ e :: l), (fst e); split; [exact S0|]; split; [apply in_app_iff; right; left; destruct e; reflexivity|reflexivity]).
  assert (Fin : forall rs', good rs' -> consistent rs' -> (forall k, known rs' k <-> known rs k \/ k = r) -> (forall k v, rget k (available rs) = Some v -> rget k (available rs') = Some v) -> (forall k b m0, rget k (unresolved rs') = Some (b, m0) -> (exists m1, rget k (unresolved rs) = Some (b, m1)) \/ (k = r /\ b = x)) ->
    added r rs rs' /\ placed p (ts', None) rs' (dn ++ [e]) ts' l).
  { intros rs' G' B' K' A' U'. split.
    - constructor; [|exact K'|exact A']. constructor; [exact G'|exact B'| |intros k X; apply K' in X; destruct X as [X| ->]; [exact (OP k X)|exact P]]. intros k b m0 X t i It Ei. destruct (U' _ _ _ X) as [(m1 & X1)|[-> ->]]; [exact (S _ _ _ X1 t i It Ei)|]. exists (snd e). split; [exact RO|exact (proj2 (M2 t i It Ei))].
    - split; [exists ts0; rewrite <- app_assoc; exact S0|]. split; [reflexivity|]. split; [exact SH|]. intros y. rewrite K', KN, map_app, in_app_iff. cbn [map In]. unfold r. split; (intros [Y|Y]; [left; exact Y|right]); [left; congruence|destruct Y as [<-|[]]; reflexivity]. }
  destruct m as [|m0 m'].
  - destruct (set_available_ok default_css r x rs B NA) as (rs' & E & B' & A' & U' & K' & L'); [intros y k X; congruence|]. exists rs'. split; [exact E|]. destruct (Fin rs') as [Ad Pl].
    + apply (set_available float_of float_str high_digit int_high default_css self f r x rs rs' G); [| |exact E].
      * destruct (ST x) as (a & c & Ba & Bc & X); [apply expanded_plain; intros t I; destruct (get_import t) as [i|] eqn:Ei; [|reflexivity]; destruct (proj1 (M2 t i I Ei))|]. exact (Expands _ _ _ _ _ _ _ RO X Ba Bc).
      * apply Forall_forall. intros t I. unfold flat in Fx. rewrite Forall_forall in Fx. split; [|exact (Fx t I)]. destruct (get_import t) as [i|] eqn:Ei; [destruct (proj1 (M2 t i I Ei))|reflexivity].
    + exact B'.
    + intros k. unfold known. rewrite A'. destruct (ref_eq_dec k r) as [->|N]; [rewrite rget_rset_same; split; [auto|left; discriminate]|]. rewrite rget_rset_other by exact N. pose proof (K' k N) as Kk. assert (Q : rget k (unresolved rs') <> None <-> rget k (unresolved rs) <> None) by (destruct (rget k (unresolved rs)) as [[y1 y2]|], (rget k (unresolved rs')) as [[y3 y4]|]; try contradiction; split; congruence). tauto.
    + intros k v X. rewrite A'. rewrite rget_rset_other by congruence. exact X.
    + intros k b m1 X. left. destruct (ref_eq_dec k r) as [->|N]; [congruence|]. pose proof (K' k N) as Kk. rewrite X in Kk. destruct (rget k (unresolved rs)) as [[y1 y2]|]; [|contradiction]. subst. eauto.
    + split; [exact Ad|]. split; [exact Pl|]. split; [exact A'|]. intros k. destruct (ref_eq_dec k r) as [->|N]; [rewrite U', NU; reflexivity|]. pose proof (K' k N) as Kk. destruct (rget k (unresolved rs)) as [[y1 y2]|], (rget k (unresolved rs')) as [[y3 y4]|]; try contradiction; cbn; congruence.
  - set (m := m0 :: m') in *. destruct (set_unresolved_ok default_css r x m rs B NA NU ltac:(discriminate) ND) as (rs' & E & B' & A' & U' & R').
    { intros i. rewrite M. split; (intros [X (t & It & Et)]; split; [exact X|]; exists t; split; [exact It|]; apply get_import_iff; exact Et). }
    exists rs'. split; [exact E|]. destruct (Fin rs') as [Ad Pl].
    + apply (set_unresolved float_of float_str high_digit int_high default_css self f r x m (snd e) rs rs' G Fx RO ST ltac:(discriminate) E).
    + exact B'.
    + intros k. unfold known. rewrite A', U'. destruct (ref_eq_dec k r) as [->|N]; [rewrite rget_rset_same; split; [auto|right; discriminate]|]. rewrite rget_rset_other by exact N. tauto.
    + rewrite A'. trivial.
    + intros k b m1. rewrite U'. destruct (ref_eq_dec k r) as [->|N]; [rewrite rget_rset_same; intros [= <- _]; right; split; reflexivity|rewrite rget_rset_other by exact N; eauto].
    + split; [exact Ad|]. split; [exact Pl|]. split; [exact A'|exact U'].
Qed.
End Nest.
