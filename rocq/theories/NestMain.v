(** Stylesheets with imports (C26). *)
From Verif Require Import Base Graph PyPath PyNorm Css Builder BuilderSpec BuilderProofs Handlers Nest NestSpec NestText NestProofs NestSound NestBook NestFuel NestTotal NestOrder.
From Coq Require Import String ZArith NArith Bool List Lia Relations Wellfounded.Transitive_Closure.
Import ListNotations.
Open Scope list_scope.
Open Scope N_scope.

Section Nest.
Context {F : Type} (float_of : str -> option F) (float_str : F -> str).
Context (high_digit : N -> bool) (int_high : str -> option Z).
Notation token := (token (F := F)).
Notation rules := (rules (F := F)).
Notation nstate := (nstate (F := F)).
Context (default_css self : str) (f : str -> option str).
Notation get_import := (get_import default_css).
Notation import := (import (F := F) default_css).
Notation tokenize := (tokenize float_of high_digit int_high).
Notation file_of := (file_of self).
Notation is_sheet := (is_sheet float_of high_digit int_high f).
Notation rule_of := (rule_of float_of float_str high_digit int_high self f).
Notation expands := (expands rule_of import).
Notation expanded := (expanded rule_of import).
Notation ready := (ready rule_of import).
Notation sel e := (selector_of float_str (fst e)).
Notation nest pick fuel scan := (nest float_of float_str high_digit int_high default_css self f pick fuel scan).

(** * The expansion is determined up to blanks *)
Lemma solid_app (a b : list token) : solid (a ++ b) = solid a ++ solid b. Proof. apply filter_app. Qed.
Lemma solid_blank (a : list token) : blank a -> solid a = [].
Proof. intros B. induction B as [|t a [v ->] B IH]; [reflexivity|exact IH]. Qed.
Scheme expands_min := Minimality for NestSpec.expands Sort Prop with expanded_min := Minimality for NestSpec.expanded Sort Prop.
Theorem expanded_unique : (forall file ts l, is_sheet file ts l -> NoDup (map (fun e => sel e) l)) -> forall ts out, expanded ts out -> forall out', expanded ts out' -> solid out = solid out'.
Proof.
  intros N. apply (expanded_min _ rule_of import (fun r v => forall v', expands r v' -> solid v = solid v') (fun ts out => forall out', expanded ts out' -> solid out = solid out')).
  - intros r b a v c RO _ IH Ba Bc v' H. inversion H as [? b' a' ? c' RO' E' Ba' Bc']; subst. assert (b = b') as <-.
    { destruct RO as (ts1 & l1 & p1 & S1 & I1 & E1), RO' as (ts2 & l2 & p2 & S2 & I2 & E2). destruct (is_sheet_unique _ _ _ _ _ _ _ _ _ S1 S2) as [<- <-]. assert (X : (p1, b) = (p2, b')) by (apply (nodup_map_inj (fun e => sel e) l1); [exact (N _ _ _ S1)|exact I1|exact I2|exact (eq_trans E1 (eq_sym E2))]). congruence. }
    apply IH in E'. rewrite !solid_app, !(solid_blank _ Ba), !(solid_blank _ Bc), !(solid_blank _ Ba'), !(solid_blank _ Bc') in E'. cbn [app] in E'. rewrite !app_nil_r in E'. exact E'.
  - intros out' H. inversion H. reflexivity.
  - intros t ts out NI _ IH out' H. inversion H as [|? ? o NI' H'|? r v ? o I' V H']; subst; [|destruct (NI _ I')]. change (t :: out) with ([t] ++ out). change (t :: o) with ([t] ++ o). rewrite !solid_app, (IH _ H'). reflexivity.
  - intros t r v ts out I _ IHv _ IH out' H. inversion H as [|? ? o NI' H'|? r' v' ? o I' V H']; subst; [destruct (NI' _ I)|]. assert (r = r') as <- by (apply get_import_iff in I, I'; congruence). rewrite !solid_app, (IH _ H'), (IHv _ V). reflexivity.
Qed.

(** * Stylesheets whose imports are ready *)
Section Paths.
Context (paths : str -> Prop).
Context (paths_inj : forall p q, paths p -> paths q -> file_of p = file_of q -> p = q).
Context (paths_sheets : forall p, paths p -> exists ts l, is_sheet (file_of p) ts l /\ NoDup (map (fun e => sel e) l)).
Notation finv := (finv float_of float_str high_digit int_high default_css self f paths).
Lemma finv_init : finv nest_init.
Proof.
  split; [constructor; cbn|intros q _; intros x [X|X]; apply X; reflexivity].
  - split; [intros r v X; discriminate|intros r b m X; discriminate].
  - apply no_rules_consistent.
  - intros r b m X. discriminate.
  - intros r [X|X]; destruct X; reflexivity.
Qed.
Lemma start_finv pick fuel t s : t <> TEof -> exists s1, start_mark (nest pick fuel false) t s = Ret (match get_import t with None => false | Some _ => true end, s1) /\ n_rules s1 = n_rules s /\ resumable s1 = resumable s.
Proof. intros NE. cbn [start_mark Nest.nest]. unfold nest_start. destruct t; try (eexists; repeat split; reflexivity); [congruence|]. destruct (get_import (TComment v)) as [i|]; [|eexists; repeat split; reflexivity]. destruct (str_eqb (fst i) self); eexists; repeat split; reflexivity. Qed.
Lemma start_fuel pick fuel fuel' t s : start_mark (nest pick fuel false) t s = start_mark (nest pick fuel' false) t s.
Proof. reflexivity. Qed.
Lemma rewrites_plain pick fuel a : forall s b out lost s', (forall t, In t a -> get_import t = None /\ t <> TEof) -> rewrites [nest pick fuel false] s b out lost s' -> rewrites [nest pick fuel false] s (a ++ b) (a ++ out) lost s'.
Proof.
  induction a as [|t a IH]; intros s b out lost s' H R; [exact R|]. destruct (H t (or_introl eq_refl)) as [I NE]. cbn [app]. apply (RwPass _ _ _ s); [|apply IH; [intros x Hx; apply H; right; exact Hx|exact R]]. apply (DeclCons _ _ _ _ s); [|constructor]. cbn [start_mark Nest.nest]. unfold nest_start. destruct t; try reflexivity; [congruence|]. rewrite I. reflexivity.
Qed.
Lemma finv_plain s r v : finv s -> rget r (available (n_rules s)) = Some v -> forall t, In t v -> get_import t = None /\ t <> TEof.
Proof. intros [O _] A t I. pose proof (ok_filled _ _ _ _ _ _ _ _ _ O r v A) as P. unfold plain in P. rewrite Forall_forall in P. destruct (P t I) as (X & _ & Y). split; assumption. Qed.
Lemma rewrites_total pick : forall body before s, finv s -> ~ In TEof body -> (forall t r, In t body -> import t r -> paths (fst r)) ->
  (forall u i, In u before -> import u i -> rget i (available (n_rules s)) <> None) ->
  (forall a t c r, body = a ++ t :: c -> import t r -> ready (fun i => exists u, In u (before ++ a) /\ import u i) r) ->
  exists fuel out s', rewrites [nest pick fuel false] s (body ++ [TEof]) out [] s'.
Proof.
  induction body as [|t body IH]; intros before s FI NE PT AV RD.
  - exists 0%nat, [TEof]. eexists. apply (RwPass _ _ _ (mkNest (n_rules s) [] (n_seen s) (n_clock s))); [|apply RwEnd]. apply (DeclCons _ _ _ _ (mkNest (n_rules s) [] (n_seen s) (n_clock s))); [reflexivity|constructor].
  - assert (Nt : t <> TEof) by (intros ->; apply NE; left; reflexivity). assert (NE' : ~ In TEof body) by (intros X; apply NE; right; exact X).
    destruct (start_finv pick 0 t s Nt) as (s1 & ST & R1 & R2). assert (F1 : finv s1) by (destruct FI as [O J]; split; [rewrite R1; exact O|intros q Pq; rewrite R1, R2; exact (J q Pq)]).
    assert (Next : forall s2, finv s2 -> (forall k v, rget k (available (n_rules s)) = Some v -> rget k (available (n_rules s2)) = Some v) -> (forall r, get_import t = Some r -> rget r (available (n_rules s2)) <> None) -> exists fuel out s', rewrites [nest pick fuel false] s2 (body ++ [TEof]) out [] s').
    { intros s2 F2 A2 A3. apply (IH (before ++ [t]) s2 F2 NE').
      - intros x r Ix. apply PT. right. exact Ix.
      - intros u i Iu Ii. apply in_app_iff in Iu. destruct Iu as [Iu|[<-|[]]]; [pose proof (AV u i Iu Ii); destruct (rget i (available (n_rules s))) as [v|] eqn:E; [rewrite (A2 _ _ E); discriminate|congruence]|]. apply A3, get_import_iff. exact Ii.
      - intros a x c r -> Ix. rewrite <- app_assoc. apply (RD (t :: a) x c r); [reflexivity|exact Ix]. }
    destruct (get_import t) as [r|] eqn:I.
    + assert (Pr : paths (fst r)) by (apply (PT t r); [left; reflexivity|apply get_import_iff; exact I]).
      destruct (continue_total float_of float_str high_digit int_high default_css self f paths paths_inj paths_sheets pick (fun i => exists u, In u before /\ import u i) t r s1 F1 Pr I) as (n1 & [o s2] & C).
      * intros i (u & Iu & Ii). rewrite R1. exact (AV u i Iu Ii).
      * pose proof (RD [] t body r eq_refl (proj1 (get_import_iff _ _ _) I)) as X. rewrite app_nil_r in X. exact X.
      * destruct (continue_keeps float_of float_str high_digit int_high default_css self f paths paths_inj paths_sheets pick n1 t r s1 o s2 F1 Pr I C) as (F2 & A2 & v & -> & Av). rewrite R1 in A2.
        destruct (Next s2 F2 A2) as (n2 & out & s' & R); [intros k [= <-]; congruence|]. exists (max n1 n2), (v ++ out), s'. apply (RwMark _ _ (nest pick (max n1 n2) false) _ s1 [] v s2); [apply MarkHere; exact ST|apply ReplEnd; cbn [continue_mark Nest.nest]; apply (continue_more float_str default_css float_of high_digit int_high self f pick n1); [lia|exact C]|].
        apply rewrites_plain; [exact (finv_plain s2 r v F2 Av)|]. apply (rewrites_more float_str default_css float_of high_digit int_high self f pick n2); [lia|exact R].
    + destruct (Next s1 F1) as (n2 & out & s' & R); [rewrite R1; trivial|intros r X; discriminate|]. exists n2, (t :: out), s'. apply (RwPass _ _ _ s1); [|exact R]. apply (DeclCons _ _ _ _ s1); [exact ST|constructor].
Qed.

(** * Two runs *)
Notation okay := (okay float_of float_str high_digit int_high default_css self f paths).
Notation placed := (placed float_of float_str high_digit int_high self f).
Definition alike_states (a b : nstate) : Prop := same (n_rules a) (n_rules b) /\ (forall k, dget k (resumable a) = dget k (resumable b)) /\ n_seen a = n_seen b.
Lemma alike_rset {A} (d d' : list (ref * A)) r v : alike d d' -> alike (rset r v d) (rset r v d').
Proof. intros H k. destruct (ref_eq_dec k r) as [->|N]; [rewrite !rget_rset_same; reflexivity|rewrite !rget_rset_other by exact N; apply H]. Qed.
Lemma ensure_using_same p1 p2 f1 f2 n1 : forall n2 imp g a b a' b', paths (fst imp) -> okay (n_rules a) -> okay (n_rules b) -> (exists dn ts l, placed (fst imp) g (n_rules a) dn ts l) -> (exists dn ts l, placed (fst imp) g (n_rules b) dn ts l) -> alike_states a b ->
  ensure_using float_str default_css p1 f1 n1 imp (file_of (fst imp)) g a = Ret a' -> ensure_using float_str default_css p2 f2 n2 imp (file_of (fst imp)) g b = Ret b' -> alike_states a' b'.
Proof.
  induction n1 as [|n1 IH]; intros n2 imp g a b a' b' P Oa Ob Pa Pb (S1 & S2 & S3); destruct n2 as [|n2]; cbn [ensure_using];
    (destruct (resolve_all default_css p1 f1 f1 (n_clock a) (n_rules a)) as [[c1 ra]|] eqn:Ra; [|discriminate]); (destruct (resolve_all default_css p2 f2 f2 (n_clock b) (n_rules b)) as [[c2 rb]|] eqn:Rb; [|discriminate]);
    pose proof (resolve_all_same float_of float_str high_digit int_high default_css self f paths _ _ _ _ _ _ _ _ _ _ _ _ _ _ Oa Ob S1 Ra Rb) as S1'; rewrite (proj1 S1' imp);
    (destruct (rget imp (available rb)); [intros [= <-] [= <-]; split; [exact S1'|split; [|exact S3]]; cbn [resumable]; intros k; destruct (list_eq_dec N.eq_dec k (file_of (fst imp))) as [->|N]; [rewrite !dget_dset_same; reflexivity|rewrite !dget_dset_other by congruence; apply S2]|]); try discriminate.
  apply (resolve_all_forward float_of float_str high_digit int_high default_css self f paths) in Ra; [|exact Oa]. apply (resolve_all_forward float_of float_str high_digit int_high default_css self f paths) in Rb; [|exact Ob]. destruct Ra as [Fa Va], Rb as [Fb Vb].
  destruct Pa as (da & tsa & la & Pa). destruct Pb as (db & tsb & lb & Pb). pose proof (placed_forward _ _ _ _ _ _ _ _ _ _ _ _ _ _ _ Fa Pa) as Pa'. pose proof (placed_forward _ _ _ _ _ _ _ _ _ _ _ _ _ _ _ Fb Pb) as Pb'.
  pose proof (fw_okay _ _ _ _ _ _ _ _ _ _ Fa) as Oa'. pose proof (fw_okay _ _ _ _ _ _ _ _ _ _ Fb) as Ob'.
  destruct (read_item float_str default_css f1 (available ra) g) as [[oa ga]|] eqn:Ia; [|discriminate]. destruct (read_item float_str default_css f2 (available rb) g) as [[ob gb]|] eqn:Ib; [|intros _; discriminate].
  pose proof (read_item_same float_str default_css _ _ _ _ _ _ _ (proj1 S1') Ia Ib) as X. injection X as -> ->.
  apply (read_step float_of float_str high_digit int_high default_css self f paths paths_sheets _ (fst imp) _ _ da tsa la) in Ia; [|exact P|exact Oa'|exact Va|exact Pa']. apply (read_step float_of float_str high_digit int_high default_css self f paths paths_sheets _ (fst imp) _ _ db tsb lb) in Ib; [|exact P|exact Ob'|exact Vb|exact Pb'].
  destruct Ia as (_ & Ia), Ib as (_ & Ib). destruct ob as [[[sl x] m]|].
  - destruct Ia as (ra' & Ea & Ada & Pa2 & Xa), Ib as (rb' & Eb & Adb & Pb2 & Xb). rewrite Ea, Eb. intros Ha Hb. refine (IH n2 imp gb (mkNest ra' (resumable a) (n_seen a) c1) (mkNest rb' (resumable b) (n_seen b) c2) a' b' P _ _ Pa2 Pb2 _ Ha Hb); cbn [n_rules]; [exact (ad_okay _ _ _ _ _ _ _ _ _ _ _ Ada)|exact (ad_okay _ _ _ _ _ _ _ _ _ _ _ Adb)|]. split; [|split; assumption]. cbn [n_rules]. destruct m as [|m0 m].
    + destruct Xa as [Aa Ua], Xb as [Ab Ub]. split; [rewrite Aa, Ab; apply alike_rset, S1'|]. intros k. rewrite Ua, Ub. apply S1'.
    + destruct Xa as [Aa Ua], Xb as [Ab Ub]. split; [rewrite Aa, Ab; apply S1'|]. intros k. rewrite Ua, Ub. destruct (ref_eq_dec k (fst imp, sl)) as [->|N]; [rewrite !rget_rset_same; reflexivity|rewrite !rget_rset_other by exact N; apply S1'].
  - destruct Ia as (ta & Ia), Ib as (tb & Ib). intros Ha Hb. refine (IH n2 imp gb (mkNest ra (resumable a) (n_seen a) c1) (mkNest rb (resumable b) (n_seen b) c2) a' b' P _ _ _ _ _ Ha Hb); cbn [n_rules]; [exact Oa'|exact Ob'|exists da, ta, la; exact Ia|exists db, tb, lb; exact Ib|]. split; [exact S1'|split; assumption].
Qed.
Lemma alike_fields ra rb res seen c1 c2 rs' : same ra rb -> (forall k : str, dget k res = dget k rs') -> alike_states (mkNest ra res seen c1) (mkNest rb rs' seen c2).
Proof. intros A B. split; [exact A|]. split; [exact B|reflexivity]. Qed.
Lemma continue_same p1 p2 f1 f2 t r a b o1 o2 a' b' : finv a -> finv b -> alike_states a b -> paths (fst r) -> get_import t = Some r ->
  nest_continue float_of float_str high_digit int_high default_css self f p1 f1 t a = Ret (o1, a') -> nest_continue float_of float_str high_digit int_high default_css self f p2 f2 t b = Ret (o2, b') -> o1 = o2 /\ alike_states a' b'.
Proof.
  intros Fa Fb S P I Ha Hb. pose proof (continue_keeps float_of float_str high_digit int_high default_css self f paths paths_inj paths_sheets _ _ _ _ _ _ _ Fa P I Ha) as (_ & _ & va & -> & Ava). pose proof (continue_keeps float_of float_str high_digit int_high default_css self f paths paths_inj paths_sheets _ _ _ _ _ _ _ Fb P I Hb) as (_ & _ & vb & -> & Avb).
  assert (X : alike_states a' b'); [|split; [|exact X]; destruct X as [[Al _] _]; rewrite (Al r) in Ava; congruence]. clear Ava Avb. destruct Fa as [Oa Ja], Fb as [Ob Jb]. destruct S as (S1 & S2 & S3).
  unfold nest_continue in Ha, Hb. rewrite I in Ha, Hb. unfold ensure_resolved in Ha, Hb.
  destruct (resolve_all default_css p1 f1 f1 (n_clock a) (n_rules a)) as [[c1 ra]|] eqn:Ra; [|discriminate]. destruct (resolve_all default_css p2 f2 f2 (n_clock b) (n_rules b)) as [[c2 rb]|] eqn:Rb; [|discriminate].
  pose proof (resolve_all_same float_of float_str high_digit int_high default_css self f paths _ _ _ _ _ _ _ _ _ _ _ _ _ _ Oa Ob S1 Ra Rb) as S1'. rewrite <- (proj1 S1' r) in Hb.
  apply (resolve_all_forward float_of float_str high_digit int_high default_css self f paths) in Ra; [|exact Oa]. apply (resolve_all_forward float_of float_str high_digit int_high default_css self f paths) in Rb; [|exact Ob]. destruct Ra as [Fa Va], Rb as [Fb Vb]. pose proof (fw_okay _ _ _ _ _ _ _ _ _ _ Fa) as Oa'. pose proof (fw_okay _ _ _ _ _ _ _ _ _ _ Fb) as Ob'.
  assert (Ja' : place float_of float_str high_digit int_high self f (fst r) ra (resumable a)) by (apply (place_ext float_of float_str high_digit int_high self f (fst r) (n_rules a)); [intros x; apply (fw_known _ _ _ _ _ _ _ _ _ _ Fa)|exact (Ja _ P)]).
  assert (Jb' : place float_of float_str high_digit int_high self f (fst r) rb (resumable b)) by (apply (place_ext float_of float_str high_digit int_high self f (fst r) (n_rules b)); [intros x; apply (fw_known _ _ _ _ _ _ _ _ _ _ Fb)|exact (Jb _ P)]).
  destruct (rget r (available ra)) as [v|] eqn:A.
  - cbn [n_rules] in Ha, Hb. rewrite A in Ha. rewrite <- (proj1 S1' r), A in Hb. injection Ha as _ <-. injection Hb as _ <-. split; [exact S1'|split; assumption].
  - unfold ensure_import_resolved in Ha, Hb. fold (file_of (fst r)) in Ha, Hb. cbn [resumable n_rules n_seen n_clock] in Ha, Hb. unfold place in Ja', Jb'. rewrite <- (S2 (file_of (fst r))) in Hb, Jb'. destruct (dget (file_of (fst r)) (resumable a)) as [g|] eqn:RS.
    + destruct (ensure_using float_str default_css p1 f1 f1 r (file_of (fst r)) g _) as [s1|] eqn:Ea; [|discriminate]. destruct (ensure_using float_str default_css p2 f2 f2 r (file_of (fst r)) g _) as [s2|] eqn:Eb; [|discriminate].
      assert (X : alike_states s1 s2) by (refine (ensure_using_same p1 p2 f1 f2 f1 f2 r g (mkNest ra (resumable a) (n_seen a) c1) (mkNest rb (resumable b) (n_seen b) c2) s1 s2 P _ _ _ _ _ Ea Eb); cbn [n_rules]; [exact Oa'|exact Ob'|exact Ja'|exact Jb'|split; [exact S1'|split; assumption]]).
      destruct (rget r (available (n_rules s1))); [|discriminate]. destruct (rget r (available (n_rules s2))); [|discriminate]. injection Ha as _ <-. injection Hb as _ <-. exact X.
    + destruct (f (file_of (fst r))) as [text|] eqn:DF; [|discriminate]. destruct (paths_sheets _ P) as (ts0 & l0 & SH & _). pose proof SH as SH0. destruct SH as (text' & D' & T' & SH). rewrite DF in D'. injection D' as <-. rewrite T' in Ha, Hb.
      assert (PLa : exists dn ts l, placed (fst r) (ts0, None) ra dn ts l) by (exists [], ts0, l0; split; [exists ts0; exact SH0|]; split; [reflexivity|]; split; [exact SH|]; intros x; cbn; split; [apply Ja'|intros []]).
      assert (PLb : exists dn ts l, placed (fst r) (ts0, None) rb dn ts l) by (exists [], ts0, l0; split; [exists ts0; exact SH0|]; split; [reflexivity|]; split; [exact SH|]; intros x; cbn; split; [apply Jb'|intros []]).
      destruct (ensure_using float_str default_css p1 f1 f1 r (file_of (fst r)) (ts0, None) _) as [s1|] eqn:Ea; [|discriminate]. destruct (ensure_using float_str default_css p2 f2 f2 r (file_of (fst r)) (ts0, None) _) as [s2|] eqn:Eb; [|discriminate].
      assert (X : alike_states s1 s2) by (refine (ensure_using_same p1 p2 f1 f2 f1 f2 r (ts0, None) (mkNest ra (dset (file_of (fst r)) (ts0, None) (resumable a)) (n_seen a) c1) (mkNest rb (dset (file_of (fst r)) (ts0, None) (resumable b)) (n_seen b) c2) s1 s2 P _ _ PLa PLb _ Ea Eb); cbn [n_rules]; [exact Oa'|exact Ob'|]; split; [exact S1'|split; [|exact S3]]; cbn [resumable]; intros k; destruct (list_eq_dec N.eq_dec k (file_of (fst r))) as [->|N]; [rewrite !dget_dset_same; reflexivity|rewrite !dget_dset_other by congruence; apply S2]).
      destruct (rget r (available (n_rules s1))); [|discriminate]. destruct (rget r (available (n_rules s2))); [|discriminate]. injection Ha as _ <-. injection Hb as _ <-. exact X.
Qed.
Lemma start_alike p1 p2 f1 f2 t a b x y a1 b1 : t <> TEof -> finv a -> finv b -> alike_states a b -> start_mark (nest p1 f1 false) t a = Ret (x, a1) -> start_mark (nest p2 f2 false) t b = Ret (y, b1) -> x = y /\ finv a1 /\ finv b1 /\ alike_states a1 b1 /\ (x = true <-> get_import t <> None).
Proof.
  intros NE Fa Fb (S1 & S2 & S3) Ha Hb. destruct (start_finv p1 f1 t a NE) as (a2 & Ea & Ra1 & Ra2). destruct (start_finv p2 f2 t b NE) as (b2 & Eb & Rb1 & Rb2). rewrite Ea in Ha. rewrite Eb in Hb. injection Ha as <- <-. injection Hb as <- <-.
  split; [reflexivity|]. split; [destruct Fa as [O J]; split; [rewrite Ra1; exact O|intros q Q; rewrite Ra1, Ra2; exact (J q Q)]|]. split; [destruct Fb as [O J]; split; [rewrite Rb1; exact O|intros q Q; rewrite Rb1, Rb2; exact (J q Q)]|]. split.
  - unfold alike_states. rewrite Ra1, Ra2, Rb1, Rb2. split; [exact S1|]. split; [exact S2|]. cbn [start_mark Nest.nest] in Ea, Eb. unfold nest_start in Ea, Eb. destruct t; try (injection Ea as <-; injection Eb as <-; exact S3); try congruence.
    destruct (get_import (TComment v)) as [i|]; [|injection Ea as <-; injection Eb as <-; exact S3]. destruct (str_eqb (fst i) self); injection Ea as <-; injection Eb as <-; [exact S3|]. cbn [n_seen]. rewrite S3. reflexivity.
  - destruct (get_import t); split; congruence.
Qed.
Lemma rewrites_same p1 p2 f1 f2 a ts out1 lost1 a' : rewrites [nest p1 f1 false] a ts out1 lost1 a' -> forall b out2 lost2 b', rewrites [nest p2 f2 false] b ts out2 lost2 b' -> finv a -> finv b -> alike_states a b -> (forall x y, ts = x ++ TEof :: y -> y = []) -> (forall t r, In t ts -> import t r -> paths (fst r)) -> out1 = out2.
Proof.
  intros H. induction H as [s|t s s1 ts out lost s2 D R IH|t m s s1 seg repl s2 ts out lost s3 M RP R IH|t m s s1 seg s2 M HD]; intros b out2 lost2 b' H2 Fa Fb S E PT.
  - inversion H2. reflexivity.
  - inversion D as [|? ? ? ? sa sb ST D']; subst. inversion D'; subst. assert (Et : t = TEof \/ t <> TEof) by (destruct t; ((left; reflexivity) || (right; discriminate))). inversion H2 as [|? ? b1 ? out' ? ? Db Rb|? m ? b1 seg repl b2 ? out' ? ? Mb RPb Rb|? m ? b1 seg b2 Mb HDb]; subst.
    + inversion Db as [|? ? ? ? sc sd STb Db']; subst. inversion Db'; subst. destruct Et as [->|NE].
      * rewrite (E [] ts eq_refl) in *. inversion R; subst. inversion Rb; subst. reflexivity.
      * destruct (start_alike p1 p2 f1 f2 t s b _ _ _ _ NE Fa Fb S ST STb) as (_ & Fa1 & Fb1 & S' & _). f_equal. apply (IH _ _ _ _ Rb Fa1 Fb1 S'); [intros x y Q; apply (E (t :: x) y); rewrite Q; reflexivity|intros u r Iu; apply PT; right; exact Iu].
    + exfalso. assert (STb : start_mark (nest p2 f2 false) t b = Ret (true, b1)) by (inversion Mb as [|? ? ? ? ? ? ? ? M']; subst; [assumption|inversion M']). destruct Et as [->|NE]; [discriminate STb|]. destruct (start_alike p1 p2 f1 f2 t s b _ _ _ _ NE Fa Fb S ST STb) as (X & _). discriminate X.
    + exfalso. assert (STb : start_mark (nest p2 f2 false) t b = Ret (true, b1)) by (inversion Mb as [|? ? ? ? ? ? ? ? M']; subst; [assumption|inversion M']). destruct Et as [->|NE]; [discriminate STb|]. destruct (start_alike p1 p2 f1 f2 t s b _ _ _ _ NE Fa Fb S ST STb) as (X & _). discriminate X.
  - assert (X : m = nest p1 f1 false /\ start_mark (nest p1 f1 false) t s = Ret (true, s1)) by (inversion M as [|? ? ? ? ? ? ? ? M']; subst; [split; [reflexivity|assumption]|inversion M']). destruct X as [-> ST]. assert (NE : t <> TEof) by (intros ->; discriminate ST).
    assert (Known : forall y b1, start_mark (nest p2 f2 false) t b = Ret (y, b1) -> exists r, get_import t = Some r /\ y = true /\ paths (fst r) /\ finv s1 /\ finv b1 /\ alike_states s1 b1).
    { intros y b1 STb. destruct (start_alike p1 p2 f1 f2 t s b _ _ _ _ NE Fa Fb S ST STb) as (<- & Fa1 & Fb1 & S' & I). destruct (get_import t) as [r|] eqn:Ir; [|destruct (proj1 I eq_refl); reflexivity]. exists r. split; [reflexivity|]. split; [reflexivity|]. split; [apply (PT t r); [left; reflexivity|apply get_import_iff; exact Ir]|]. exact (conj Fa1 (conj Fb1 S')). }
    inversion H2 as [|? ? b1 ? out' ? ? Db Rb|? m ? b1 seg' repl' b2 ? out' ? ? Mb RPb Rb|? m ? b1 seg' b2 Mb HDb]; subst.
    + exfalso. inversion Db as [|? ? ? ? sc sd STb Db']; subst. destruct (Known _ _ STb) as (r & _ & X & _). discriminate X.
    + assert (X : m = nest p2 f2 false /\ start_mark (nest p2 f2 false) t b = Ret (true, b1)) by (inversion Mb as [|? ? ? ? ? ? ? ? M']; subst; [split; [reflexivity|assumption]|inversion M']). destruct X as [-> STb]. destruct (Known _ _ STb) as (r & Ir & _ & Pr & Fa1 & Fb1 & S').
      assert (Ca : seg = [] /\ nest_continue float_of float_str high_digit int_high default_css self f p1 f1 t s1 = Ret (Some repl, s2)).
      { inversion RP as [? ? rp s4 C|? ? s4 sg rp s5 C RP']; subst; cbn [continue_mark Nest.nest] in C; [split; [reflexivity|exact C]|]. destruct (continue_keeps float_of float_str high_digit int_high default_css self f paths paths_inj paths_sheets _ _ _ _ _ _ _ Fa1 Pr Ir C) as (_ & _ & v & X & _). discriminate X. }
      assert (Cb : seg' = [] /\ nest_continue float_of float_str high_digit int_high default_css self f p2 f2 t b1 = Ret (Some repl', b2)).
      { inversion RPb as [? ? rp s4 C|? ? s4 sg rp s5 C RP']; subst; cbn [continue_mark Nest.nest] in C; [split; [reflexivity|exact C]|]. destruct (continue_keeps float_of float_str high_digit int_high default_css self f paths paths_inj paths_sheets _ _ _ _ _ _ _ Fb1 Pr Ir C) as (_ & _ & v & X & _). discriminate X. }
      destruct Ca as [-> Ca], Cb as [-> Cb]. cbn [app] in *. destruct (continue_same p1 p2 f1 f2 t r _ _ _ _ _ _ Fa1 Fb1 S' Pr Ir Ca Cb) as [X S2]. injection X as <-.
      destruct (continue_keeps float_of float_str high_digit int_high default_css self f paths paths_inj paths_sheets _ _ _ _ _ _ _ Fa1 Pr Ir Ca) as (Fa2 & _ & v & Ev & Av). injection Ev as <-. destruct (continue_keeps float_of float_str high_digit int_high default_css self f paths paths_inj paths_sheets _ _ _ _ _ _ _ Fb1 Pr Ir Cb) as (Fb2 & _).
      match goal with K : ts = _ |- _ => subst | K : _ = ts |- _ => subst | _ => idtac end. apply (IH _ _ _ _ Rb Fa2 Fb2 S2).
      * intros x y Q. assert (Y : exists x', x = repl ++ x'). { clear -Q Av Fa2. pose proof (finv_plain _ _ _ Fa2 Av) as Pl. clear Av Fa2. revert x Q Pl. induction repl as [|u rp IHr]; intros x Q Pl; [exists x; reflexivity|]. destruct x as [|w x]; cbn [app] in Q; injection Q as Q1 Q2; [destruct (proj2 (Pl u (or_introl eq_refl)) Q1)|]. subst w. destruct (IHr x Q2) as (x' & ->); [intros z Iz; apply Pl; right; exact Iz|]. exists x'. reflexivity. }
        destruct Y as (x' & ->). rewrite <- app_assoc in Q. apply app_inv_head in Q. apply (E (t :: x') y). rewrite Q. reflexivity.
      * intros u k Iu Ik. apply in_app_iff in Iu. destruct Iu as [Iu|Iu]; [apply get_import_iff in Ik; rewrite (proj1 (finv_plain _ _ _ Fa2 Av u Iu)) in Ik; discriminate|apply (PT u k); [right; exact Iu|exact Ik]].
    + exfalso. assert (X : m = nest p2 f2 false /\ start_mark (nest p2 f2 false) t b = Ret (true, b1)) by (inversion Mb as [|? ? ? ? ? ? ? ? M']; subst; [split; [reflexivity|assumption]|inversion M']). destruct X as [-> STb]. destruct (Known _ _ STb) as (r & Ir & _ & Pr & Fa1 & Fb1 & S').
      inversion HDb as [|? ? s4 sg s5 C HD']; subst. cbn [continue_mark Nest.nest] in C. destruct (continue_keeps float_of float_str high_digit int_high default_css self f paths paths_inj paths_sheets _ _ _ _ _ _ _ Fb1 Pr Ir C) as (_ & _ & v & X & _). discriminate X.
  - exfalso. assert (X : m = nest p1 f1 false /\ start_mark (nest p1 f1 false) t s = Ret (true, s1)) by (inversion M as [|? ? ? ? ? ? ? ? M']; subst; [split; [reflexivity|assumption]|inversion M']). destruct X as [-> ST]. assert (NE : t <> TEof) by (intros ->; discriminate ST).
    destruct (start_finv p1 f1 t s NE) as (s4 & Ea & Ra1 & Ra2). rewrite Ea in ST. injection ST as I <-. destruct (get_import t) as [r|] eqn:Ir; [|discriminate I]. assert (Pr : paths (fst r)) by (apply (PT t r); [left; reflexivity|apply get_import_iff; exact Ir]).
    assert (F4 : finv s4) by (destruct Fa as [O J]; split; [rewrite Ra1; exact O|intros q Q; rewrite Ra1, Ra2; exact (J q Q)]). inversion HD as [|? ? s5 sg s6 C HD']; subst. cbn [continue_mark Nest.nest] in C. destruct (continue_keeps float_of float_str high_digit int_high default_css self f paths paths_inj paths_sheets _ _ _ _ _ _ _ F4 Pr Ir C) as (_ & _ & v & X & _). discriminate X.
Qed.
End Paths.

(** * The theorems *)
Notation proper_imports := (proper_imports float_of float_str high_digit int_high default_css self f).
Definition imported_paths (ts : list token) (p : str) : Prop := exists t r, In t ts /\ import t r /\ fst r = p.
Lemma imported_inj ts : proper_imports ts -> forall p q, imported_paths ts p -> imported_paths ts q -> file_of p = file_of q -> p = q.
Proof. intros [_ H] p q (t & r & It & Ir & <-) (t' & r' & It' & Ir' & <-) E. exact (H t t' r r' It It' Ir Ir' E). Qed.
Lemma imported_sheets ts : proper_imports ts -> forall p, imported_paths ts p -> exists ts' l, is_sheet (file_of p) ts' l /\ NoDup (map (fun e => sel e) l).
Proof. intros [H _] p (t & r & It & Ir & <-). exact (H t r It Ir). Qed.
Theorem nest_complete pick ts l : sheet ts l -> proper_imports ts ->
  (forall a t c r, ts = a ++ t :: c -> import t r -> ready (fun i => exists u, In u a /\ import u i) r) ->
  exists enough, forall fuel, (enough <= fuel)%nat -> exists n out b, pump [nest pick fuel false] n ts (new_builder nest_init) = Ret (out, b).
Proof.
  intros SH PI RD. destruct (sheet_eof ts l SH) as (body & -> & NE).
  destruct (rewrites_total (imported_paths (body ++ [TEof])) (imported_inj _ PI) (imported_sheets _ PI) pick body [] nest_init (finv_init _)) as (fuel & out & s' & R); [exact NE|intros t r It Ir; exists t, r; split; [apply in_app_iff; left; exact It|split; [exact Ir|reflexivity]]|intros u i []| |].
  - intros a t c r -> Ir. cbn [app]. apply (RD a t (c ++ [TEof]) r); [rewrite <- app_assoc; reflexivity|exact Ir].
  - exists fuel. intros fuel' L. apply (rewrites_more float_str default_css float_of high_digit int_high self f pick fuel fuel') in R; [|exact L]. destruct (proj2 (pump_rewrites [nest pick fuel' false] nest_init (body ++ [TEof]) out s') (ex_intro _ [] R)) as (n & b & P & _). exists n, out, b. exact P.
Qed.
Theorem nest_order p1 p2 f1 f2 n1 n2 ts l out1 out2 b1 b2 : sheet ts l -> proper_imports ts ->
  pump [nest p1 f1 false] n1 ts (new_builder nest_init) = Ret (out1, b1) -> pump [nest p2 f2 false] n2 ts (new_builder nest_init) = Ret (out2, b2) -> out1 = out2.
Proof.
  intros SH PI H1 H2. assert (X1 : exists lost, rewrites [nest p1 f1 false] nest_init ts out1 lost (b_st b1)) by (apply pump_rewrites; exists n1, b1; split; [exact H1|reflexivity]). assert (X2 : exists lost, rewrites [nest p2 f2 false] nest_init ts out2 lost (b_st b2)) by (apply pump_rewrites; exists n2, b2; split; [exact H2|reflexivity]).
  destruct X1 as (lost1 & X1), X2 as (lost2 & X2). refine (rewrites_same (imported_paths ts) (imported_inj _ PI) (imported_sheets _ PI) p1 p2 f1 f2 _ _ _ _ _ X1 _ _ _ _ X2 (finv_init _) (finv_init _) _ _ _).
  - split; [split; intros r; reflexivity|]. split; reflexivity.
  - destruct (sheet_eof ts l SH) as (body & -> & NE). intros x y Q. destruct (rev y) as [|z y'] eqn:Ry; [apply (f_equal (@rev _)) in Ry; rewrite rev_involutive in Ry; exact Ry|]. exfalso. apply (f_equal (@rev _)) in Ry. rewrite rev_involutive in Ry. cbn [rev] in Ry. subst y.
    change (x ++ TEof :: rev y' ++ [z]) with (x ++ (TEof :: rev y') ++ [z]) in Q. rewrite app_assoc in Q. apply app_inj_tail in Q. destruct Q as [-> _]. apply NE. apply in_app_iff. right. left. reflexivity.
  - intros t r It Ir. exists t, r. split; [exact It|split; [exact Ir|reflexivity]].
Qed.

(** * Cycles and missing rules *)
Lemma expanded_acc ts out : expanded ts out -> forall t i, In t ts -> import t i -> Acc (fun i r => needs float_of float_str high_digit int_high default_css self f r i) i.
Proof.
  revert ts out. apply (expanded_min _ rule_of import (fun r v => Acc (fun i r => needs float_of float_str high_digit int_high default_css self f r i) r) (fun ts out => forall t i, In t ts -> import t i -> Acc (fun i r => needs float_of float_str high_digit int_high default_css self f r i) i)).
  - intros r b a v c RO _ IH _ _. constructor. intros i N. destruct (N b RO) as (t & It & Ii). exact (IH t i It Ii).
  - intros t i [].
  - intros t ts out N _ IH u i [<-|I] H; [contradiction (N i H)|exact (IH u i I H)].
  - intros t r v ts out Ir _ A _ IH u i [<-|I] H; [|exact (IH u i I H)]. apply get_import_iff in Ir, H. assert (i = r) as -> by congruence. exact A.
Qed.
Theorem nest_cycle pick fuel n ts t r x : (forall t r, In t ts -> import t r -> readable float_of high_digit int_high self f r) -> In t ts -> import t r ->
  clos_refl_trans _ (needs float_of float_str high_digit int_high default_css self f) r x -> clos_trans _ (needs float_of float_str high_digit int_high default_css self f) x x ->
  forall out b, pump [nest pick fuel false] n ts (new_builder nest_init) <> Ret (out, b).
Proof.
  intros RD It Ir P C out b H. destruct (nest_sheet _ _ _ _ _ _ _ pick fuel n ts out b RD H) as (E & _ & _). pose proof (expanded_acc ts out E t r It Ir) as A.
  assert (Ax : Acc (fun i r => needs float_of float_str high_digit int_high default_css self f r i) x). { clear -P A. induction P as [r x N|r|r y z P1 IH1 P2 IH2]; [exact (Acc_inv A N)|exact A|exact (IH2 (IH1 A))]. }
  apply Acc_clos_trans in Ax. assert (C' : forall a c, clos_trans _ (needs float_of float_str high_digit int_high default_css self f) a c -> clos_trans _ (fun i r => needs float_of float_str high_digit int_high default_css self f r i) c a). { clear. intros a c C. induction C as [x y N|x y z _ IH1 _ IH2]; [apply t_step; exact N|exact (t_trans _ _ _ _ _ IH2 IH1)]. }
  apply C' in C. clear -Ax C. induction Ax as [x _ IH]. exact (IH x C C).
Qed.
End Nest.
