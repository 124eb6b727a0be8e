(** The bookkeeping of rules stays consistent (C26). *)
From Verif Require Import Base Graph PyPath PyNorm Css Builder BuilderSpec BuilderProofs Handlers Nest NestSpec NestText NestProofs NestSound.
From Coq Require Import String ZArith NArith Bool List Lia.
Import ListNotations.
Open Scope list_scope.
Open Scope N_scope.

Section Book.
Context {F : Type}.
Notation token := (token (F := F)).
Notation rules := (rules (F := F)).
Context (default_css : str).
Notation get_import := (get_import default_css).
Notation import := (import (F := F) default_css).
Notation consistent := (consistent import).

Lemma rget_set_length {A} k (v w : A) d : rget k d = Some w -> length (rset k v d) = length d.
Proof. induction d as [|[x y] d IH]; cbn; [discriminate|]. destruct (ref_eqb k x); [reflexivity|]. intros H. cbn. rewrite IH by exact H. reflexivity. Qed.
Lemma filter_length {A} (g : A -> bool) l : (length (filter g l) <= length l)%nat.
Proof. induction l as [|x l IH]; cbn; [lia|]. destruct (g x); cbn; lia. Qed.
Lemma rdel_length {A} k (d : list (ref * A)) : (length (rdel k d) <= length d)%nat. Proof. apply filter_length. Qed.
Lemma rdel_shorter {A} k v (d : list (ref * A)) : rget k d = Some v -> (length (rdel k d) < length d)%nat.
Proof. induction d as [|[x y] d IH]; cbn; [discriminate|]. destruct (ref_eqb k x) eqn:E; cbn; [intros _; pose proof (rdel_length k d); unfold rdel in *; lia|]. intros H. specialize (IH H). unfold rdel in IH. lia. Qed.

(** * The counts *)
Definition cnt (p : str) (c : list (str * Z)) : Z := match dget p c with Some n => n | None => 0%Z end.
Definition counted (w : list (ref * list ref)) (c : list (str * Z)) : Prop := dict_wf c /\ (forall p n, dget p c = Some n -> (1 <= n)%Z) /\ forall p, (awaited p w <= cnt p c)%Z.
Lemma awaited_cons p e w : awaited p (e :: w) = ((if str_eqb p (fst (fst e)) then 1 else 0) + awaited p w)%Z.
Proof. unfold awaited, ref in *. cbn [filter]. destruct (str_eqb p (fst (fst e))); cbn [length]; lia. Qed.
Lemma awaited_pos p w : (0 <= awaited p w)%Z. Proof. unfold awaited. lia. Qed.
Lemma awaited_rdel p r w : (awaited p (rdel r w) <= awaited p w)%Z.
Proof. unfold rdel. induction w as [|e w IH]; cbn [filter]; [lia|]. destruct (negb (ref_eqb r (fst e))); rewrite ?awaited_cons; destruct (str_eqb p (fst (fst e))); lia. Qed.
Lemma awaited_rdel_in r v w : rget r w = Some v -> (awaited (fst r) (rdel r w) + 1 <= awaited (fst r) w)%Z.
Proof.
  induction w as [|[x y] w IH]; cbn [rget]; [discriminate|]. unfold rdel. cbn [filter fst]. destruct (ref_eqb r x) eqn:E.
  - intros _. apply ref_eqb_eq in E. subst x. cbn [negb]. rewrite awaited_cons. cbn [fst]. rewrite str_eqb_refl. pose proof (awaited_rdel (fst r) r w). unfold rdel in *. lia.
  - intros H. cbn [negb]. rewrite !awaited_cons. specialize (IH H). unfold rdel in IH. lia.
Qed.
Lemma awaited_rset p i v w : (awaited p (rset i v w) <= awaited p w + (if str_eqb p (fst i) then 1 else 0))%Z.
Proof. induction w as [|[x y] w IH]; cbn [rset]; [rewrite awaited_cons; cbn [fst]; unfold awaited; cbn; lia|]. destruct (ref_eqb i x); rewrite !awaited_cons; cbn [fst]; destruct (str_eqb p (fst x)), (str_eqb p (fst i)); lia. Qed.
Lemma decrement_ok r v w c : counted w c -> rget r w = Some v -> exists c', decrement (fst r) c = Ret c' /\ counted (rdel r w) c'.
Proof.
  intros (D & P & C) R. unfold decrement. pose proof (awaited_rdel_in r v w R) as A. pose proof (C (fst r)) as Cr. unfold cnt in Cr. pose proof (awaited_pos (fst r) (rdel r w)). destruct (dget (fst r) c) as [n|] eqn:G; [|lia].
  destruct (n - 1 =? 0)%Z eqn:E.
  - eexists. split; [reflexivity|]. split; [apply dict_wf_ddel; exact D|]. split.
    + intros p k. rewrite dget_ddel by exact D. destruct (str_eqb p (fst r)); [discriminate|apply P].
    + intros p. unfold cnt. rewrite dget_ddel by exact D. destruct (str_eqb p (fst r)) eqn:S; [apply str_eqb_eq in S; subst p; lia|]. pose proof (C p). pose proof (awaited_rdel p r w). unfold cnt in *. lia.
  - eexists. split; [reflexivity|]. split; [apply dict_wf_dset; exact D|]. split.
    + intros p k. destruct (list_eq_dec N.eq_dec p (fst r)) as [->|N]; [rewrite dget_dset_same; intros [= <-]; pose proof (P _ _ G); lia|rewrite dget_dset_other by congruence; apply P].
    + intros p. unfold cnt. destruct (list_eq_dec N.eq_dec p (fst r)) as [->|N]; [rewrite dget_dset_same; lia|rewrite dget_dset_other by congruence]. pose proof (C p). pose proof (awaited_rdel p r w). unfold cnt in *. lia.
Qed.
Lemma increment_ok i v w c : counted w c -> counted (rset i v w) (dset (fst i) (cnt (fst i) c + 1)%Z c).
Proof.
  intros (D & P & C). pose proof (C (fst i)). pose proof (awaited_pos (fst i) w). assert (Q : (1 <= cnt (fst i) c + 1)%Z) by lia. split; [apply dict_wf_dset; exact D|]. split.
  - intros p k. destruct (list_eq_dec N.eq_dec p (fst i)) as [->|N]; [rewrite dget_dset_same; intros [= <-]; exact Q|rewrite dget_dset_other by congruence; apply P].
  - intros p. pose proof (awaited_rset p i v w) as A. pose proof (C p). unfold cnt. destruct (list_eq_dec N.eq_dec p (fst i)) as [->|N]; [rewrite dget_dset_same; rewrite str_eqb_refl in A; unfold cnt in *; lia|rewrite dget_dset_other by congruence]. apply str_eqb_neq in N. rewrite N in A. unfold cnt in *. lia.
Qed.

(** * Waking *)
Lemma wake_ok r l : forall s : rules, NoDup l -> (forall w, In w l -> exists b m, rget w (unresolved s) = Some (b, m) /\ In r m) ->
  exists s', wake r l s = Ret s' /\ available s' = available s /\ waiting s' = waiting s /\ counts s' = counts s /\ length (unresolved s') = length (unresolved s) /\
    (forall k, rget k (unresolved s') = match rget k (unresolved s) with Some (b, m) => Some (b, if rmem k l then rdiscard r m else m) | None => None end) /\
    (forall x, In x (resolvable s') <-> In x (resolvable s) \/ (In x l /\ exists b, rget x (unresolved s') = Some (b, []))).
Proof.
  induction l as [|w l IH]; intros s ND W; cbn [wake].
  - exists s. do 5 (split; [reflexivity|]). split; [intros k; destruct (rget k (unresolved s)) as [[b m]|]; reflexivity|]. intros x. cbn. tauto.
  - inversion ND as [|? ? NI ND']; subst. destruct (W w (or_introl eq_refl)) as (b & m & R & I). rewrite R. assert (Rm : rmem r m = true) by (apply rmem_iff; exact I). rewrite Rm. cbn [negb].
    set (s1 := mkRules (available s) (rset w (b, rdiscard r m) (unresolved s)) (waiting s) (counts s) (match rdiscard r m with [] => radd w (resolvable s) | _ => resolvable s end)).
    destruct (IH s1 ND') as (s' & E & A & Wt & C & L & U & Rs).
    { intros k Ik. assert (k <> w) by congruence. cbn [unresolved s1]. rewrite rget_rset_other by assumption. apply W. right. exact Ik. }
    assert (U' : forall k, rget k (unresolved s') = match rget k (unresolved s) with Some (b, m) => Some (b, if rmem k (w :: l) then rdiscard r m else m) | None => None end).
    { intros k. rewrite U. cbn [unresolved s1]. destruct (ref_eq_dec k w) as [->|N].
      - rewrite rget_rset_same, R. assert (X : rmem w l = false) by (apply rmem_false; exact NI). rewrite X. cbn [rmem existsb]. rewrite ref_eqb_refl. reflexivity.
      - rewrite rget_rset_other by exact N. destruct (rget k (unresolved s)) as [[b' m']|]; [|reflexivity]. unfold rmem. cbn [existsb]. apply ref_eqb_neq in N. rewrite N. reflexivity. }
    exists s'. split; [exact E|]. split; [exact A|]. split; [exact Wt|]. split; [exact C|]. split; [rewrite L; cbn [unresolved s1]; apply (rget_set_length _ _ _ _ R)|]. split; [exact U'|].
    intros x. rewrite Rs. cbn [resolvable s1]. assert (Xw : forall b', rget w (unresolved s') = Some (b', []) <-> b' = b /\ rdiscard r m = []).
    { intros b'. rewrite U', R. unfold rmem. cbn [existsb]. rewrite ref_eqb_refl. cbn [orb]. split; [intros [= -> ->]; split; reflexivity|intros [-> ->]; reflexivity]. }
    split.
    + intros [I'|[I' X]]; [|right; split; [right; exact I'|exact X]]. destruct (rdiscard r m) eqn:D; [apply radd_in in I'; destruct I' as [->|I']; [right; split; [left; reflexivity|]; exists b; apply Xw; split; reflexivity|left; exact I']|left; exact I'].
    + intros [I'|[[<-|I'] X]].
      * left. destruct (rdiscard r m); [apply radd_in; right; exact I'|exact I'].
      * left. destruct X as [b' X]. apply Xw in X. destruct X as [_ X]. rewrite X. apply radd_in. left. reflexivity.
      * right. split; assumption.
Qed.
Lemma await_ok r l : forall s : rules, NoDup l -> (forall i w, In i l -> rget i (waiting s) = Some w -> ~ In r w) -> counted (waiting s) (counts s) -> (forall i w, rget i (waiting s) = Some w -> NoDup w) ->
  counted (waiting (await r l s)) (counts (await r l s)) /\ (forall i w, rget i (waiting (await r l s)) = Some w -> NoDup w) /\
  (forall i x, (exists w, rget i (waiting (await r l s)) = Some w /\ In x w) <-> (exists w, rget i (waiting s) = Some w /\ In x w) \/ (In i l /\ x = r)).
Proof.
  induction l as [|j l IH]; intros s ND H C W; cbn [await].
  - split; [exact C|]. split; [exact W|]. intros i x. split; [auto|]. intros [X|[[] _]]; exact X.
  - inversion ND as [|? ? NI ND']; subst. set (w0 := match rget j (waiting s) with None => [] | Some w => w end). set (s1 := mkRules _ _ _ _ _).
    assert (W0 : NoDup (w0 ++ [r])). { assert (~ In r w0 /\ NoDup w0) as [A B]; [|clear -A B; induction w0 as [|y w IH]; [constructor; [intros []|constructor]|]; inversion B; subst; cbn; constructor; [rewrite in_app_iff; cbn; intros [X|[X|[]]]; [contradiction|subst; apply A; left; reflexivity]|apply IH; [intros X; apply A; right; exact X|assumption]]]. unfold w0. destruct (rget j (waiting s)) as [w|] eqn:E; [split; [exact (H j w (or_introl eq_refl) E)|exact (W j w E)]|split; [intros []|constructor]]. }
    destruct (IH s1 ND') as (C1 & W1 & X1).
    + intros i w I. cbn [waiting s1]. assert (i <> j) by congruence. rewrite rget_rset_other by assumption. apply H. right. exact I.
    + apply increment_ok. exact C.
    + intros i w. cbn [waiting s1]. destruct (ref_eq_dec i j) as [->|N]; [rewrite rget_rset_same; intros [= <-]; exact W0|rewrite rget_rset_other by exact N; apply W].
    + split; [exact C1|]. split; [exact W1|]. intros i x. rewrite X1. cbn [waiting s1]. destruct (ref_eq_dec i j) as [->|N].
      * rewrite rget_rset_same. split.
        -- intros [(w & [= <-] & I)|[I _]]; [|contradiction]. apply in_app_iff in I. destruct I as [I|[<-|[]]]; [|right; split; [left; reflexivity|reflexivity]]. left. unfold w0 in I. destruct (rget j (waiting s)) as [w|]; [exists w; split; [reflexivity|exact I]|destruct I].
        -- intros [(w & E & I)|[_ ->]]; left; eexists; (split; [reflexivity|]); apply in_app_iff; [left; unfold w0; rewrite E; exact I|right; left; reflexivity].
      * rewrite rget_rset_other by exact N. split; (intros [X|[I E]]; [left; exact X|right]); [split; [right; exact I|exact E]|]. destruct I as [I|I]; [congruence|split; assumption].
Qed.

(** * Setting a rule *)
Lemma counted_iff (rs : rules) : consistent rs -> counted (waiting rs) (counts rs).
Proof. intros H. split; [exact (counts_once _ _ H)|]. split; [exact (counts_pos _ _ H)|exact (counts_ok _ _ H)]. Qed.
Lemma set_available_ok r b (rs : rules) : consistent rs -> rget r (available rs) = None -> (forall x m, rget r (unresolved rs) = Some (x, m) -> m = []) ->
  exists rs', set_rule r b [] rs = Ret rs' /\ consistent rs' /\ available rs' = rset r b (available rs) /\ rget r (unresolved rs') = None /\
    (forall k, k <> r -> match rget k (unresolved rs), rget k (unresolved rs') with Some (x, _), Some (y, _) => x = y | None, None => True | _, _ => False end) /\
    length (unresolved rs') = length (rdel r (unresolved rs)).
Proof.
  intros K A U. unfold set_rule. rewrite A. pose proof (counted_iff rs K) as C0. destruct K as [NB MO WO W1 RO CO CP CK].
  set (s1 := mkRules (rset r b (available rs)) (rdel r (unresolved rs)) (rdel r (waiting rs)) (counts rs) (rdiscard r (resolvable rs))).
  set (l := match rget r (waiting rs) with Some l => l | None => [] end).
  assert (Hl : forall k, In k l <-> exists b m, rget k (unresolved rs) = Some (b, m) /\ In r m) by (intros k; rewrite <- WO; unfold l; destruct (rget r (waiting rs)) as [w|]; split; [intros I; exists w; split; [reflexivity|exact I]|intros (w' & [= <-] & I); exact I|intros []|intros (w & X & _); discriminate]).
  assert (Nr : ~ In r l) by (intros I; apply Hl in I; destruct I as (x & m & E & I); rewrite (U _ _ E) in I; exact I).
  assert (Nl : NoDup l) by (unfold l; destruct (rget r (waiting rs)) as [w|] eqn:E; [exact (W1 _ _ E)|constructor]).
  assert (Main : forall c, counted (rdel r (waiting rs)) c -> exists rs', wake r l (mkRules (available s1) (unresolved s1) (waiting s1) c (resolvable s1)) = Ret rs' /\ consistent rs' /\ available rs' = rset r b (available rs) /\ rget r (unresolved rs') = None /\
    (forall k, k <> r -> match rget k (unresolved rs), rget k (unresolved rs') with Some (x, _), Some (y, _) => x = y | None, None => True | _, _ => False end) /\ length (unresolved rs') = length (rdel r (unresolved rs))).
  { intros c Cc. destruct (wake_ok r l (mkRules (available s1) (unresolved s1) (waiting s1) c (resolvable s1)) Nl) as (rs' & E & Ea & Ew & Ec & L & Eu & Er).
    { intros w I. assert (w <> r) by congruence. cbn [unresolved s1]. rewrite rget_rdel_other by assumption. apply Hl. exact I. }
    cbn [available unresolved waiting counts resolvable s1] in *.
    assert (Ur : rget r (unresolved rs') = None) by (rewrite Eu, rget_rdel_same; reflexivity).
    assert (Uk : forall k, k <> r -> rget k (unresolved rs') = match rget k (unresolved rs) with Some (x, m) => Some (x, if rmem k l then rdiscard r m else m) | None => None end) by (intros k N; rewrite Eu, rget_rdel_other by exact N; reflexivity).
    assert (Mk : forall k x m, k <> r -> rget k (unresolved rs) = Some (x, m) -> forall i, In i (if rmem k l then rdiscard r m else m) <-> i <> r /\ In i m).
    { intros k x m N G i. destruct (rmem k l) eqn:Rl; [rewrite rdiscard_in; reflexivity|]. apply rmem_false in Rl. split; [|tauto]. intros I. split; [|exact I]. intros ->. apply Rl. apply Hl. exists x, m. split; assumption. }
    exists rs'. split; [exact E|]. split; [|split; [exact Ea|split; [exact Ur|split; [|exact L]]]].
    - constructor.
      + intros k. rewrite Ea. destruct (ref_eq_dec k r) as [->|N]; [intros _; exact Ur|]. rewrite rget_rset_other by exact N. intros X. rewrite Uk by exact N. rewrite (NB k X). reflexivity.
      + intros k x m G. destruct (ref_eq_dec k r) as [->|N]; [congruence|]. rewrite Uk in G by exact N. destruct (rget k (unresolved rs)) as [[y m0]|] eqn:G0; [|discriminate]. injection G as -> <-. destruct (MO _ _ _ G0) as [ND M]. split; [destruct (rmem k l); [apply NoDup_filter; exact ND|exact ND]|].
        intros i. rewrite (Mk k x m0 N G0), M, Ea. destruct (ref_eq_dec i r) as [->|Ni]; [rewrite rget_rset_same; split; [tauto|intros [X _]; discriminate]|rewrite rget_rset_other by exact Ni; tauto].
      + intros i k. rewrite Ew. destruct (ref_eq_dec i r) as [->|Ni].
        * rewrite rget_rdel_same. split; [intros (w & X & _); discriminate|]. intros (x & m & G & I). destruct (ref_eq_dec k r) as [->|N]; [congruence|]. rewrite Uk in G by exact N. destruct (rget k (unresolved rs)) as [[y m0]|] eqn:G0; [|discriminate]. injection G as -> <-. apply (Mk k x m0 N G0) in I. tauto.
        * rewrite rget_rdel_other by exact Ni. rewrite WO. destruct (ref_eq_dec k r) as [->|N]; [split; [intros (x & m & G & I); rewrite (U _ _ G) in I; destruct I|intros (x & m & G & I); congruence]|]. rewrite Uk by exact N. destruct (rget k (unresolved rs)) as [[y m0]|] eqn:G0; [|split; intros (x & m & G & I); discriminate].
          pose proof (Mk k y m0 N G0 i) as Mi. split; [intros (x & m & [= <- <-] & I); eexists _, _; split; [reflexivity|]; apply Mi; split; assumption|intros (x & m & [= <- <-] & I); eexists _, _; split; [reflexivity|]; apply Mi; exact I].
      + intros i w. rewrite Ew. destruct (ref_eq_dec i r) as [->|Ni]; [rewrite rget_rdel_same; discriminate|rewrite rget_rdel_other by exact Ni; apply W1].
      + intros k. rewrite Er. rewrite rdiscard_in, RO. split.
        * intros [[N (x & G)]|[_ X]]; [|exact X]. exists x. rewrite Uk by exact N. rewrite G. destruct (rmem k l); reflexivity.
        * intros (x & G). destruct (ref_eq_dec k r) as [->|N]; [congruence|]. destruct (rmem k l) eqn:Rl; [right; split; [apply rmem_iff; exact Rl|eauto]|left; split; [exact N|]]. rewrite Uk, Rl in G by exact N. destruct (rget k (unresolved rs)) as [[y m0]|]; [|discriminate]. injection G as -> ->. eauto.
      + rewrite Ec. apply Cc.
      + rewrite Ec. apply Cc.
      + rewrite Ec, Ew. apply Cc.
    - intros k N. rewrite Uk by exact N. destruct (rget k (unresolved rs)) as [[y m0]|]; [reflexivity|exact I]. }
  unfold l in *. destruct (rget r (waiting rs)) as [w|] eqn:Wr.
  - destruct (decrement_ok r w _ _ C0 Wr) as (c & -> & Cc). exact (Main c Cc).
  - destruct (Main (counts rs)) as (rs' & E & X); [destruct C0 as (D & P & Ck); split; [exact D|]; split; [exact P|]; intros p; pose proof (awaited_rdel p r (waiting rs)); pose proof (Ck p); lia|]. cbn [wake] in E. exists rs'. split; [exact E|exact X].
Qed.
Lemma set_unresolved_ok r b m (rs : rules) : consistent rs -> rget r (available rs) = None -> rget r (unresolved rs) = None -> m <> [] -> NoDup m -> (forall i, In i m <-> rget i (available rs) = None /\ exists t, In t b /\ import t i) ->
  exists rs', set_rule r b m rs = Ret rs' /\ consistent rs' /\ available rs' = available rs /\ unresolved rs' = rset r (b, m) (unresolved rs) /\ resolvable rs' = resolvable rs.
Proof.
  intros K A U N ND M. pose proof (counted_iff rs K) as C0. destruct K as [NB MO WO W1 RO CO CP CK]. unfold set_rule. rewrite A, U. destruct m as [|m0 m']; [congruence|]. set (m := m0 :: m') in *.
  assert (E0 : rminus m [] = m) by (clear; induction m as [|x l IH]; [reflexivity|]; change (rminus (x :: l) []) with (x :: rminus l []); rewrite IH; reflexivity). rewrite E0. cbn [rminus filter forgo].
  assert (E1 : rdel r (unresolved rs) = unresolved rs). { clear -U. induction (unresolved rs) as [|[x v] l IH]; cbn in *; [reflexivity|]. destruct (ref_eqb r x) eqn:E; [discriminate|]. cbn. unfold rdel in IH. rewrite IH by exact U. reflexivity. } rewrite E1.
  set (s1 := mkRules (available rs) (rset r (b, m) (unresolved rs)) (waiting rs) (counts rs) (resolvable rs)).
  destruct (await_frame r m s1) as (Fa & Fu & Fr).
  destruct (await_ok r m s1 ND) as (Cc & Wn & X); [|exact C0|exact W1|].
  { intros i w _ G I. cbn [waiting s1] in G. assert (Y : exists b m, rget r (unresolved rs) = Some (b, m) /\ In i m) by (apply WO; exists w; split; assumption). destruct Y as (? & ? & Y & _). congruence. }
  eexists. split; [reflexivity|]. split; [|split; [exact Fa|split; [exact Fu|exact Fr]]]. cbn [available unresolved waiting counts resolvable s1] in *. constructor.
  - intros k. rewrite Fa, Fu. intros Y. destruct (ref_eq_dec k r) as [->|Nk]; [congruence|]. rewrite rget_rset_other by exact Nk. exact (NB k Y).
  - intros k x m1. rewrite Fa, Fu. destruct (ref_eq_dec k r) as [->|Nk]; [rewrite rget_rset_same; intros [= <- <-]; split; assumption|rewrite rget_rset_other by exact Nk; apply MO].
  - intros i k. rewrite X, Fu, WO. destruct (ref_eq_dec k r) as [->|Nk]; [rewrite rget_rset_same|rewrite rget_rset_other by exact Nk].
    + split; [intros [(x & m1 & G & _)|[I _]]; [congruence|eexists _, _; split; [reflexivity|exact I]]|intros (x & m1 & [= <- <-] & I); right; split; [exact I|reflexivity]].
    + split; [intros [Y|[_ Y]]; [exact Y|congruence]|auto].
  - exact Wn.
  - intros k. rewrite Fr, Fu, RO. destruct (ref_eq_dec k r) as [->|Nk]; [rewrite rget_rset_same; split; [intros (x & G); congruence|intros (x & [= _ Y]); unfold m in Y; discriminate]|rewrite rget_rset_other by exact Nk; reflexivity].
  - apply Cc.
  - apply Cc.
  - apply Cc.
Qed.
Lemma no_rules_consistent : consistent no_rules.
Proof.
  constructor; cbn.
  - intros r _. reflexivity.
  - intros r b m X. discriminate.
  - intros i r. split; [intros (w & X & _); discriminate|intros (b & m & X & _); discriminate].
  - intros i w X. discriminate.
  - intros r. split; [intros []|intros (b & X); discriminate].
  - constructor.
  - intros p n X. discriminate.
  - intros p. unfold awaited. cbn. lia.
Qed.
End Book.
