(** The order in which rules are resolved does not matter; rules that are ready are found (C26). *)
From Verif Require Import Base Graph PyPath PyNorm Css Builder BuilderSpec BuilderProofs Handlers Nest NestSpec NestText NestProofs NestSound NestBook NestFuel NestTotal.
From Coq Require Import String ZArith NArith Bool List Lia.
Import ListNotations.
Open Scope list_scope.
Open Scope N_scope.

Section Nest.
Context {F : Type} (float_of : str -> option F) (float_str : F -> str).
Context (high_digit : N -> bool) (int_high : str -> option Z).
Notation token := (token (F := F)).
Notation rules := (rules (F := F)).
Notation nstate := (nstate (F := F)).
Context (default_css self : str) (f : str -> option str).
Notation get_import := (get_import default_css).
Notation import := (import (F := F) default_css).
Notation tokenize := (tokenize float_of high_digit int_high).
Notation file_of := (file_of self).
Notation is_sheet := (is_sheet float_of high_digit int_high f).
Notation rule_of := (rule_of float_of float_str high_digit int_high self f).
Notation expands := (expands rule_of import).
Notation expanded := (expanded rule_of import).
Notation ready := (ready rule_of import).
Notation plain := (plain default_css).
Notation filled := (filled default_css).
Notation splice := (splice default_css).
Notation sel e := (selector_of float_str (fst e)).
Context (paths : str -> Prop).
Context (paths_inj : forall p q, paths p -> paths q -> file_of p = file_of q -> p = q).
Context (paths_sheets : forall p, paths p -> exists ts l, is_sheet (file_of p) ts l /\ NoDup (map (fun e => sel e) l)).
Notation okay := (okay float_of float_str high_digit int_high default_css self f paths).
Notation forward := (forward float_of float_str high_digit int_high default_css self f paths).
Notation placed := (placed float_of float_str high_digit int_high self f).
Notation added := (added float_of float_str high_digit int_high default_css self f paths).
Notation resolve_all_forward := (resolve_all_forward float_of float_str high_digit int_high default_css self f paths).
Notation resolve_forward := (resolve_forward float_of float_str high_digit int_high default_css self f paths).
Notation read_item_sound := (read_item_sound float_of float_str high_digit int_high default_css self f).
Notation set_item := (set_item float_of float_str high_digit int_high default_css self f paths paths_sheets).

(** * The value of a rule *)
Inductive val (rs : rules) : ref -> list token -> Prop :=
| ValAvailable r v : rget r (available rs) = Some v -> val rs r v
| ValUnresolved r b m v : rget r (unresolved rs) = Some (b, m) -> vexp rs b v -> val rs r v
with vexp (rs : rules) : list token -> list token -> Prop :=
| VNil : vexp rs [] []
| VToken t ts out : get_import t = None -> vexp rs ts out -> vexp rs (t :: ts) (t :: out)
| VImport t i v ts out : get_import t = Some i -> val rs i v -> vexp rs ts out -> vexp rs (t :: ts) (v ++ out).
Scheme val_min := Minimality for val Sort Prop with vexp_min := Minimality for vexp Sort Prop.
Combined Scheme val_vexp from val_min, vexp_min.

Lemma splice_vexp (rs : rules) av b : (forall i v, rget i av = Some v -> val rs i v) -> forall v, splice av b = Some v -> vexp rs b v.
Proof.
  intros H. induction b as [|t b IH]; intros v; cbn [NestFuel.splice]; [intros [= <-]; constructor|]. destruct (get_import t) as [i|] eqn:I.
  - destruct (rget i av) as [w|] eqn:R; [|discriminate]. destruct (splice av b) as [x|]; [|discriminate]. intros [= <-]. apply (VImport _ _ i); [exact I|exact (H _ _ R)|apply IH; reflexivity].
  - destruct (splice av b) as [x|]; [|discriminate]. intros [= <-]. apply VToken; [exact I|apply IH; reflexivity].
Qed.
Lemma val_functional rs : okay rs -> (forall r v, val rs r v -> forall v', val rs r v' -> v = v') /\ (forall b v, vexp rs b v -> forall v', vexp rs b v' -> v = v').
Proof.
  intros [_ B _ _]. apply val_vexp.
  - intros r v A v' H. inversion H as [? ? A'|? b m ? U' X]; subst; [congruence|]. assert (Y : rget r (unresolved rs) = None) by (apply (not_both _ _ B); congruence). congruence.
  - intros r b m v U _ IH v' H. inversion H as [? ? A'|? b' m' ? U' X]; subst; [assert (Y : rget r (unresolved rs) = None) by (apply (not_both _ _ B); congruence); congruence|]. rewrite U in U'. injection U' as <- <-. exact (IH _ X).
  - intros v' H. inversion H. reflexivity.
  - intros t ts out N _ IH v' H. inversion H as [|? ? out' N' H'|]; subst; [rewrite (IH _ H'); reflexivity|congruence].
  - intros t i v ts out N _ IHv _ IH v' H. inversion H as [| |? i' w ? out' N' W H']; subst; [congruence|]. rewrite N in N'. injection N' as <-. rewrite (IHv _ W), (IH _ H'). reflexivity.
Qed.
Lemma resolve_val fuel r rs rs' : okay rs -> In r (resolvable rs) -> resolve default_css fuel r rs = Ret rs' -> forall k v, val rs' k v <-> val rs k v.
Proof.
  intros O I H. destruct (resolve_forward fuel r rs rs' O I H) as (FW & _ & b & v & U & E & A).
  assert (V : val rs r v) by (apply (ValUnresolved _ _ b [] v); [exact U|]; apply (splice_vexp rs (available rs)); [intros i w R; apply ValAvailable; exact R|exact E]).
  assert (Back : (forall k x, val rs' k x -> val rs k x) /\ (forall y x, vexp rs' y x -> vexp rs y x)).
  { apply val_vexp.
    - intros k x Ak. rewrite A in Ak. destruct (ref_eq_dec k r) as [->|N]; [rewrite rget_rset_same in Ak; injection Ak as <-; exact V|rewrite rget_rset_other in Ak by exact N; apply ValAvailable; exact Ak].
    - intros k y m x Uk _ IH. destruct (fw_block _ _ _ _ _ _ _ _ _ _ FW _ _ _ Uk) as (m' & Uk'). exact (ValUnresolved _ _ y m' x Uk' IH).
    - constructor.
    - intros t ts out N _ IH. apply VToken; assumption.
    - intros t i w ts out N _ IHv _ IH. apply (VImport _ _ i); assumption. }
  intros k x. split; [apply Back|]. revert k x. apply (val_min rs (fun k x => val rs' k x) (fun y x => vexp rs' y x)).
  - intros k x Ak. apply ValAvailable. exact (fw_available _ _ _ _ _ _ _ _ _ _ FW _ _ Ak).
  - intros k y m x Uk X IH. destruct (ref_eq_dec k r) as [->|N].
    + assert (x = v) by (apply (proj1 (val_functional rs O) r); [exact (ValUnresolved _ _ _ _ _ Uk X)|exact V]). subst x. apply ValAvailable. rewrite A, rget_rset_same. reflexivity.
    + assert (Kk : known rs' k) by (apply (fw_known _ _ _ _ _ _ _ _ _ _ FW); right; congruence). destruct (rget k (unresolved rs')) as [[y' m']|] eqn:Uk'.
      * destruct (fw_block _ _ _ _ _ _ _ _ _ _ FW _ _ _ Uk') as (m2 & Uk2). rewrite Uk in Uk2. injection Uk2 as <- <-. exact (ValUnresolved _ _ y m' x Uk' IH).
      * destruct Kk as [Kk|Kk]; [|congruence]. rewrite A in Kk. rewrite rget_rset_other in Kk by exact N. assert (Y : rget k (unresolved rs) = None) by (apply (not_both _ _ (ok_book _ _ _ _ _ _ _ _ _ O)); exact Kk). congruence.
  - constructor.
  - intros t ts out N _ IH. apply VToken; assumption.
  - intros t i w ts out N _ IHv _ IH. apply (VImport _ _ i); assumption.
Qed.
Lemma resolve_all_val pick fuel n : forall clock rs clock' rs', okay rs -> resolve_all default_css pick fuel n clock rs = Ret (clock', rs') -> forall k v, val rs' k v <-> val rs k v.
Proof.
  induction n as [|n IH]; intros clock rs clock' rs' G; cbn [resolve_all]; destruct (resolvable rs) as [|d l] eqn:R; try discriminate; try (intros [= <- <-]; reflexivity).
  set (r := nth (pick clock (d :: l)) (d :: l) d). assert (Ir : In r (resolvable rs)) by (rewrite R; apply pick_in). destruct (resolve default_css fuel r rs) as [rs1|] eqn:E; [|discriminate]. destruct (resolve_forward fuel r rs rs1 G Ir E) as (FW & _). intros H k v. rewrite (IH _ _ _ _ (fw_okay _ _ _ _ _ _ _ _ _ _ FW) H). apply (resolve_val fuel r); assumption.
Qed.
(** when nothing can be resolved any more, every rule that has a value is available *)
Lemma settled_val rs : okay rs -> resolvable rs = [] -> forall k v, val rs k v <-> rget k (available rs) = Some v.
Proof.
  intros [G B S P] R k v. split; [|apply ValAvailable]. revert k v. apply (val_min rs (fun k v => rget k (available rs) = Some v) (fun b v => forall t i, In t b -> get_import t = Some i -> rget i (available rs) <> None)).
  - trivial.
  - intros r b m v U _ IH. exfalso. assert (X : m = []). { destruct (missing_ok _ _ B _ _ _ U) as [_ M]. destruct m as [|i m]; [reflexivity|]. exfalso. destruct (proj1 (M i) (or_introl eq_refl)) as (A & t & It & Ei). apply get_import_iff in Ei. exact (IH t i It Ei A). }
    subst m. assert (Y : In r (resolvable rs)) by (apply (resolvable_ok _ _ B); eauto). rewrite R in Y. exact Y.
  - intros t i [].
  - intros t ts out N _ IH u i [<-|I] E; [congruence|exact (IH u i I E)].
  - intros t i v ts out N _ IHv _ IH u j [<-|I] E; [congruence|exact (IH u j I E)].
Qed.

(** * Two runs *)
Definition same (a b : rules) : Prop := alike (available a) (available b) /\ forall r, option_map fst (rget r (unresolved a)) = option_map fst (rget r (unresolved b)).
Lemma same_sym a b : same a b -> same b a. Proof. intros [A B]. split; intros r; symmetry; [apply A|apply B]. Qed.
Lemma same_known a b k : same a b -> (known a k <-> known b k).
Proof. intros [A B]. unfold known. rewrite (A k). specialize (B k). destruct (rget k (unresolved a)), (rget k (unresolved b)); cbn in B; try discriminate; split; intros [X|X]; auto; right; congruence. Qed.
Lemma same_val a b : same a b -> forall k v, val a k v -> val b k v.
Proof.
  intros [A B]. apply (val_min a (fun k v => val b k v) (fun x v => vexp b x v)).
  - intros r v H. apply ValAvailable. rewrite <- (A r). exact H.
  - intros r x m v U _ IH. specialize (B r). rewrite U in B. destruct (rget r (unresolved b)) as [[x' m']|] eqn:U'; [|discriminate]. injection B as <-. exact (ValUnresolved _ _ _ _ _ U' IH).
  - constructor.
  - intros t ts out N _ IH. apply VToken; assumption.
  - intros t i w ts out N _ IHv _ IH. apply (VImport _ _ i); assumption.
Qed.
Lemma forward_unresolved a a' : okay a -> forward a a' -> forall k, option_map fst (rget k (unresolved a')) = match rget k (available a') with Some _ => None | None => option_map fst (rget k (unresolved a)) end.
Proof.
  intros O FW k. pose proof (fw_known _ _ _ _ _ _ _ _ _ _ FW k) as K. pose proof (ok_book _ _ _ _ _ _ _ _ _ (fw_okay _ _ _ _ _ _ _ _ _ _ FW)) as B'.
  destruct (rget k (available a')) as [v|] eqn:A'; [rewrite (not_both _ _ B' k) by congruence; reflexivity|]. destruct (rget k (unresolved a')) as [[x m]|] eqn:U'; [destruct (fw_block _ _ _ _ _ _ _ _ _ _ FW _ _ _ U') as (m' & U); rewrite U; reflexivity|].
  destruct (rget k (unresolved a)) as [[x m]|] eqn:U; [|reflexivity]. exfalso. assert (X : known a' k) by (apply K; right; congruence). destruct X; congruence.
Qed.
Lemma resolve_all_same p1 p2 f1 f2 n1 n2 c1 c2 a b c1' c2' a' b' : okay a -> okay b -> same a b -> resolve_all default_css p1 f1 n1 c1 a = Ret (c1', a') -> resolve_all default_css p2 f2 n2 c2 b = Ret (c2', b') -> same a' b'.
Proof.
  intros Oa Ob S Ha Hb. destruct (resolve_all_forward p1 f1 n1 _ _ _ _ Oa Ha) as [Fa Ra]. destruct (resolve_all_forward p2 f2 n2 _ _ _ _ Ob Hb) as [Fb Rb].
  pose proof (fw_okay _ _ _ _ _ _ _ _ _ _ Fa) as Oa'. pose proof (fw_okay _ _ _ _ _ _ _ _ _ _ Fb) as Ob'.
  assert (A : forall k v, rget k (available a') = Some v <-> rget k (available b') = Some v).
  { intros k v. rewrite <- (settled_val a' Oa' Ra), <- (settled_val b' Ob' Rb), (resolve_all_val _ _ _ _ _ _ _ Oa Ha), (resolve_all_val _ _ _ _ _ _ _ Ob Hb). split; apply same_val; [exact S|exact (same_sym _ _ S)]. }
  assert (Al : alike (available a') (available b')) by (intros k; destruct (rget k (available a')) as [v|] eqn:E; [symmetry; apply A; exact E|]; destruct (rget k (available b')) as [v|] eqn:E'; [apply A in E'; congruence|reflexivity]).
  split; [exact Al|]. intros k. rewrite (forward_unresolved a a' Oa Fa), (forward_unresolved b b' Ob Fb), (Al k), (proj2 S k). reflexivity.
Qed.

(** * Reading a file *)
Definition place (q : str) (rs : rules) (res : list (str * (list token * option exn))) : Prop :=
  match dget (file_of q) res with Some g => exists dn ts l, placed q g rs dn ts l | None => forall x, ~ known rs (q, x) end.
Definition finv (s : nstate) : Prop := okay (n_rules s) /\ forall q, paths q -> place q (n_rules s) (resumable s).
Lemma place_ext q rs rs' res : (forall x, known rs' (q, x) <-> known rs (q, x)) -> place q rs res -> place q rs' res.
Proof.
  intros K. unfold place. destruct (dget (file_of q) res) as [g|]; [|intros H x X; apply K in X; exact (H x X)]. intros (dn & ts & l & (A & B & C & D)). exists dn, ts, l. split; [exact A|]. split; [exact B|]. split; [exact C|]. intros x. rewrite K. apply D.
Qed.
Lemma place_other q file g rs res : file_of q <> file -> place q rs res -> place q rs (dset file g res).
Proof. intros N. unfold place. rewrite dget_dset_other by congruence. trivial. Qed.
Lemma read_step fuel p g rs dn ts l o g' : paths p -> okay rs -> resolvable rs = [] -> placed p g rs dn ts l -> read_item float_str default_css fuel (available rs) g = Ret (o, g') ->
  (exists ts', (length ts' < length ts)%nat /\ g' = (ts', None)) /\
  match o with
  | None => exists ts', placed p g' rs dn ts' l
  | Some (s, x, m) => exists rs', set_rule (p, s) x m rs = Ret rs' /\ added (p, s) rs rs' /\ (exists dn' ts' l', placed p g' rs' dn' ts' l') /\
      match m with [] => available rs' = rset (p, s) x (available rs) /\ (forall k, option_map fst (rget k (unresolved rs')) = option_map fst (rget k (unresolved rs))) | _ => available rs' = available rs /\ unresolved rs' = rset (p, s) (x, m) (unresolved rs) end
  end.
Proof.
  intros P O R PL H. pose proof PL as (S0 & -> & SH & KN). pose proof H as H0. apply (read_item_sound _ _ _ l) in H; [|exact (proj1 (ok_good _ _ _ _ _ _ _ _ _ O))|exact SH]. destruct H as (ts' & l' & -> & IT).
  inversion IT as [av ? l1 ? LT S1|av ? pr b0 l1 ? x m LT S1 Fx ST M M2]; subst.
  - split; [exists ts'; split; [exact LT|reflexivity]|]. exists ts'. split; [exact S0|]. split; [reflexivity|]. split; [exact S1|exact KN].
  - split; [exists ts'; split; [exact LT|reflexivity]|]. pose proof (read_item_nodup _ _ _ _ _ _ _ _ _ H0) as ND. destruct (set_item p (pr, b0) x m rs dn ts l' ts' P O R PL Fx ST ND M M2 S1) as (rs' & E & Ad & Pl & X). exists rs'. split; [exact E|]. split; [exact Ad|]. split; [exists (dn ++ [(pr, b0)]), ts', l'; exact Pl|exact X].
Qed.
Lemma ensure_using_keeps pick fuel n : forall imp g s s', paths (fst imp) -> okay (n_rules s) -> (exists dn ts l, placed (fst imp) g (n_rules s) dn ts l) -> (forall q, paths q -> q <> fst imp -> place q (n_rules s) (resumable s)) ->
  ensure_using float_str default_css pick fuel n imp (file_of (fst imp)) g s = Ret s' -> finv s' /\ (forall k v, rget k (available (n_rules s)) = Some v -> rget k (available (n_rules s')) = Some v) /\ rget imp (available (n_rules s')) <> None.
Proof.
  induction n as [|n IH]; intros imp g s s' P O PL OT; cbn [ensure_using]; destruct (resolve_all default_css pick fuel fuel (n_clock s) (n_rules s)) as [[clock rs]|] eqn:RA; try discriminate; apply resolve_all_forward in RA; try exact O; destruct RA as [FW RV];
    (assert (PL' : exists dn ts l, placed (fst imp) g rs dn ts l) by (destruct PL as (dn & ts & l & PL); exists dn, ts, l; exact (placed_forward _ _ _ _ _ _ _ _ _ _ _ _ _ _ _ FW PL)));
    (assert (OT' : forall q, paths q -> q <> fst imp -> place q rs (resumable s)) by (intros q Pq N; apply (place_ext q (n_rules s)); [intros x; apply (fw_known _ _ _ _ _ _ _ _ _ _ FW)|exact (OT q Pq N)]));
    (destruct (rget imp (available rs)) as [v|] eqn:A; [intros [= <-]; cbn [n_rules resumable]; split; [split; [exact (fw_okay _ _ _ _ _ _ _ _ _ _ FW)|]|split; [apply (fw_available _ _ _ _ _ _ _ _ _ _ FW)|cbn [n_rules]; congruence]];
       cbn [n_rules resumable]; intros q Pq; destruct (list_eq_dec N.eq_dec q (fst imp)) as [->|N]; [unfold place; rewrite dget_dset_same; exact PL'|apply place_other; [intros X; apply N; exact (paths_inj q (fst imp) Pq P X)|exact (OT' q Pq N)]]|]); [discriminate|].
  destruct PL' as (dn & ts & l & PL'). destruct (read_item float_str default_css fuel (available rs) g) as [[o g']|] eqn:RI; [|discriminate]. apply (read_step _ (fst imp) _ _ dn ts l) in RI; [|exact P|exact (fw_okay _ _ _ _ _ _ _ _ _ _ FW)|exact RV|exact PL']. destruct RI as ((ts' & _ & ->) & RI). destruct o as [[[sl x] m]|].
  - destruct RI as (rs' & E & Ad & PL2 & _). rewrite E. intros H. apply IH in H; [|exact P|exact (ad_okay _ _ _ _ _ _ _ _ _ _ _ Ad)|exact PL2|].
    + destruct H as (H1 & H2 & H3). split; [exact H1|]. split; [|exact H3]. intros k v Av. apply H2. cbn [n_rules]. apply (ad_available _ _ _ _ _ _ _ _ _ _ _ Ad). apply (fw_available _ _ _ _ _ _ _ _ _ _ FW). exact Av.
    + cbn [n_rules resumable]. intros q Pq N. apply (place_ext q rs); [intros y; rewrite (ad_known _ _ _ _ _ _ _ _ _ _ _ Ad); split; [intros [Y|Y]; [exact Y|congruence]|auto]|exact (OT' q Pq N)].
  - destruct RI as (ts2 & RI). intros H. apply IH in H; [|exact P|exact (fw_okay _ _ _ _ _ _ _ _ _ _ FW)|exists dn, ts2, l; exact RI|exact OT']. destruct H as (H1 & H2 & H3). split; [exact H1|]. split; [|exact H3]. intros k v Av. apply H2. cbn [n_rules]. apply (fw_available _ _ _ _ _ _ _ _ _ _ FW). exact Av.
Qed.

(** * Rules that are ready are found *)
Lemma ready_induction seen (Q : ref -> Prop) : (forall r b, rule_of r b -> (forall t i, In t b -> import t i -> seen i \/ (fst i = fst r /\ Q i)) -> Q r) -> forall r, ready seen r -> Q r.
Proof. intros H. fix IH 2. intros r [r' b RO K]. apply (H r' b RO). intros t i It Ii. destruct (K t i It Ii) as [S|[E R]]; [left; exact S|right; split; [exact E|exact (IH i R)]]. Qed.
Lemma ready_available (seen : ref -> Prop) p g rs dn : paths p -> okay rs -> resolvable rs = [] -> placed p g rs dn [TEof] [] -> (forall i, seen i -> rget i (available rs) <> None) -> forall r, ready seen r -> fst r = p -> rget r (available rs) <> None.
Proof.
  intros P O R PL SE. apply (ready_induction seen (fun r => fst r = p -> rget r (available rs) <> None)). intros r b RO IH E A. subst p.
  destruct PL as ((ts0 & S0) & _ & _ & KN). rewrite app_nil_r in S0. assert (K : known rs r). { destruct RO as (ts1 & l1 & pr & S1 & I1 & E1). destruct (is_sheet_unique _ _ _ _ _ _ _ _ _ S0 S1) as [_ <-]. destruct r as [pa sl]. cbn [fst snd] in *. apply KN. rewrite <- E1. apply (in_map (fun e => sel e) dn (pr, b)). exact I1. }
  destruct K as [K|K]; [congruence|]. destruct (rget r (unresolved rs)) as [[x m]|] eqn:U; [|congruence]. pose proof (ok_book _ _ _ _ _ _ _ _ _ O) as B. destruct (missing_ok _ _ B _ _ _ U) as [_ M]. destruct m as [|i m].
  - assert (Y : In r (resolvable rs)) by (apply (resolvable_ok _ _ B); eauto). rewrite R in Y. exact Y.
  - destruct (proj1 (M i) (or_introl eq_refl)) as (Ai & t & It & Ei). apply get_import_iff in Ei. destruct (ok_source _ _ _ _ _ _ _ _ _ O _ _ _ U t i It Ei) as (b0 & RO' & It'). rewrite (rule_unique float_of float_str high_digit int_high self f paths paths_sheets r b0 b P RO' RO) in It'.
    destruct (IH t i It' (proj1 (get_import_iff _ _ _) Ei)) as [Si|[Fi Qi]]; [exact (SE i Si Ai)|exact (Qi Fi Ai)].
Qed.
Lemma ensure_using_total pick (seen : ref -> Prop) k : forall imp g ts dn l s, (length ts <= k)%nat -> paths (fst imp) -> okay (n_rules s) -> placed (fst imp) g (n_rules s) dn ts l -> (forall i, seen i -> rget i (available (n_rules s)) <> None) -> ready seen imp ->
  exists n s', ensure_using float_str default_css pick n n imp (file_of (fst imp)) g s = Ret s'.
Proof.
  induction k as [|k IH]; intros imp g ts dn l s L P O PL SE RD.
  { destruct PL as (_ & _ & SH & _). destruct ts; [inversion SH|cbn in L; lia]. }
  destruct (resolve_all_total float_of float_str high_digit int_high default_css self f paths paths_sheets pick _ (n_rules s) (n_clock s) O (le_n _)) as (n1 & [clock rs] & RA). pose proof RA as RA'. apply resolve_all_forward in RA'; [|exact O]. destruct RA' as [FW RV]. pose proof (placed_forward _ _ _ _ _ _ _ _ _ _ _ _ _ _ _ FW PL) as PL'. pose proof (fw_okay _ _ _ _ _ _ _ _ _ _ FW) as O'.
  assert (SE' : forall i, seen i -> rget i (available rs) <> None) by (intros i Si; pose proof (SE i Si); destruct (rget i (available (n_rules s))) as [v|] eqn:E; [rewrite (fw_available _ _ _ _ _ _ _ _ _ _ FW _ _ E); discriminate|congruence]).
  destruct (rget imp (available rs)) as [v|] eqn:A.
  { exists n1. eexists. destruct n1; cbn [ensure_using]; rewrite RA, A; reflexivity. }
  assert (NE : ts <> [TEof]). { intros ->. pose proof PL' as (_ & _ & SH & _). assert (l = []) by (inversion SH as [| | | | |t ? ? ? ? T]; subst; [reflexivity|destruct a; discriminate]). subst l. exact (ready_available seen _ _ _ _ P O' RV PL' SE' imp RD eq_refl A). }
  pose proof PL' as (_ & -> & SH & _). destruct (read_item_total float_str default_css (available rs) ts l (ok_filled _ _ _ _ _ _ _ _ _ O') SH NE) as (n2 & [o g'] & RI).
  pose proof RI as RI'. apply (read_step _ (fst imp) _ _ dn ts l) in RI'; [|exact P|exact O'|exact RV|exact PL']. destruct RI' as ((ts' & Lt & ->) & RI').
  assert (N3 : exists n3 s', match o with None => ensure_using float_str default_css pick n3 n3 imp (file_of (fst imp)) (ts', None) (mkNest rs (resumable s) (n_seen s) clock) | Some (p, b, m) => match set_rule (fst imp, p) b m rs with Raise e => Raise e | Ret rs => ensure_using float_str default_css pick n3 n3 imp (file_of (fst imp)) (ts', None) (mkNest rs (resumable s) (n_seen s) clock) end end = Ret s').
  { destruct o as [[[sl x] m]|].
    - destruct RI' as (rs' & E & Ad & (dn2 & ts2 & l2 & PL2) & _). rewrite E. pose proof PL2 as (_ & X & _). injection X as <-. apply (IH imp (ts', None) ts' dn2 l2); [lia|exact P|exact (ad_okay _ _ _ _ _ _ _ _ _ _ _ Ad)|exact PL2| |exact RD]. cbn [n_rules]. intros i Si. pose proof (SE' i Si). destruct (rget i (available rs)) as [v|] eqn:Ev; [rewrite (ad_available _ _ _ _ _ _ _ _ _ _ _ Ad _ _ Ev); discriminate|congruence].
    - destruct RI' as (ts2 & PL2). pose proof PL2 as (_ & X & _). injection X as <-. apply (IH imp (ts', None) ts' dn l); [lia|exact P|exact O'|exact PL2|exact SE'|exact RD]. }
  destruct N3 as (n3 & s' & E3). set (N := max n1 (max n2 n3)). exists (S N), s'. cbn [ensure_using]. rewrite (resolve_all_more default_css pick n1 (S N) n1 (S N) _ _ _ ltac:(lia) ltac:(lia) RA), A. rewrite (read_item_more float_str default_css n2 (S N) _ _ _ ltac:(lia) RI).
  destruct o as [[[sl x] m]|]; [destruct (set_rule (fst imp, sl) x m rs); [|discriminate]|]; apply (ensure_using_more float_str default_css pick n3 (S N) n3 N); try lia; exact E3.
Qed.
Lemma continue_keeps pick fuel t r s o s' : finv s -> paths (fst r) -> get_import t = Some r -> nest_continue float_of float_str high_digit int_high default_css self f pick fuel t s = Ret (o, s') ->
  finv s' /\ (forall k v, rget k (available (n_rules s)) = Some v -> rget k (available (n_rules s')) = Some v) /\ exists v, o = Some v /\ rget r (available (n_rules s')) = Some v.
Proof.
  intros [O J] P I. unfold nest_continue. rewrite I. unfold ensure_resolved. destruct (resolve_all default_css pick fuel fuel (n_clock s) (n_rules s)) as [[clock rs]|] eqn:RA; [|discriminate]. apply resolve_all_forward in RA; [|exact O]. destruct RA as [FW _].
  assert (J' : forall q, paths q -> place q rs (resumable s)) by (intros q Pq; apply (place_ext q (n_rules s)); [intros x; apply (fw_known _ _ _ _ _ _ _ _ _ _ FW)|exact (J q Pq)]). pose proof (fw_okay _ _ _ _ _ _ _ _ _ _ FW) as O'.
  assert (Fin : forall s1, finv s1 -> (forall k v, rget k (available rs) = Some v -> rget k (available (n_rules s1)) = Some v) -> match rget r (available (n_rules s1)) with Some b => Ret (Some b, s1) | None => Raise KeyError end = Ret (o, s') -> finv s' /\ (forall k v, rget k (available (n_rules s)) = Some v -> rget k (available (n_rules s')) = Some v) /\ exists v, o = Some v /\ rget r (available (n_rules s')) = Some v).
  { intros s1 F1 A1. destruct (rget r (available (n_rules s1))) as [b|] eqn:A; [|discriminate]. intros [= <- <-]. split; [exact F1|]. split; [intros k v X; apply A1; exact (fw_available _ _ _ _ _ _ _ _ _ _ FW _ _ X)|]. exists b. split; [reflexivity|exact A]. }
  destruct (rget r (available rs)) as [b|] eqn:A; [cbn [n_rules]; apply (Fin (mkNest rs (resumable s) (n_seen s) clock)); [split; [exact O'|exact J']|trivial]|].
  unfold ensure_import_resolved. fold (file_of (fst r)). cbn [resumable n_rules n_seen n_clock]. pose proof (J' (fst r) P) as Jr. unfold place in Jr. destruct (dget (file_of (fst r)) (resumable s)) as [g|] eqn:RS.
  - destruct (ensure_using float_str default_css pick fuel fuel r (file_of (fst r)) g _) as [s1|] eqn:EU; [|discriminate]. apply ensure_using_keeps in EU; [|exact P|exact O'|exact Jr|intros q Pq _; exact (J' q Pq)]. destruct EU as (F1 & A1 & _). exact (Fin s1 F1 A1).
  - destruct (f (file_of (fst r))) as [text|] eqn:DF; [|discriminate]. destruct (paths_sheets _ P) as (ts0 & l0 & SH & _). destruct SH as (text' & D' & T' & SH). rewrite DF in D'. injection D' as <-. rewrite T'.
    destruct (ensure_using float_str default_css pick fuel fuel r (file_of (fst r)) (ts0, None) _) as [s1|] eqn:EU; [|discriminate]. apply ensure_using_keeps in EU; [|exact P|exact O'| |].
    + destruct EU as (F1 & A1 & _). exact (Fin s1 F1 A1).
    + exists [], ts0, l0. split; [exists ts0, text; split; [exact DF|split; [exact T'|exact SH]]|]. split; [reflexivity|]. split; [exact SH|]. intros x. cbn. split; [apply Jr|intros []].
    + cbn [n_rules resumable]. intros q Pq N. apply place_other; [intros X; apply N; exact (paths_inj q (fst r) Pq P X)|exact (J' q Pq)].
Qed.
Lemma continue_total pick (seen : ref -> Prop) t r s : finv s -> paths (fst r) -> get_import t = Some r -> (forall i, seen i -> rget i (available (n_rules s)) <> None) -> ready seen r ->
  exists fuel x, nest_continue float_of float_str high_digit int_high default_css self f pick fuel t s = Ret x.
Proof.
  intros [O J] P I SE RD. destruct (resolve_all_total float_of float_str high_digit int_high default_css self f paths paths_sheets pick _ (n_rules s) (n_clock s) O (le_n _)) as (n1 & [clock rs] & RA). pose proof RA as RA'. apply resolve_all_forward in RA'; [|exact O]. destruct RA' as [FW RV]. pose proof (fw_okay _ _ _ _ _ _ _ _ _ _ FW) as O'.
  assert (SE' : forall i, seen i -> rget i (available rs) <> None) by (intros i Si; pose proof (SE i Si); destruct (rget i (available (n_rules s))) as [v|] eqn:E; [rewrite (fw_available _ _ _ _ _ _ _ _ _ _ FW _ _ E); discriminate|congruence]).
  assert (J' : forall q, paths q -> place q rs (resumable s)) by (intros q Pq; apply (place_ext q (n_rules s)); [intros x; apply (fw_known _ _ _ _ _ _ _ _ _ _ FW)|exact (J q Pq)]).
  destruct (rget r (available rs)) as [b|] eqn:A.
  { exists n1. eexists. unfold nest_continue, ensure_resolved. rewrite I, RA, A. cbn [n_rules]. rewrite A. reflexivity. }
  assert (X : exists n s1, ensure_import_resolved float_of float_str high_digit int_high default_css self f pick n r (mkNest rs (resumable s) (n_seen s) clock) = Ret s1 /\ rget r (available (n_rules s1)) <> None).
  { unfold ensure_import_resolved. fold (file_of (fst r)). cbn [resumable n_rules n_seen n_clock]. pose proof (J' (fst r) P) as Jr. unfold place in Jr. destruct (dget (file_of (fst r)) (resumable s)) as [g|] eqn:RS.
    - destruct Jr as (dn & ts & l & PL). destruct (ensure_using_total pick seen (length ts) r g ts dn l (mkNest rs (resumable s) (n_seen s) clock) (le_n _) P O' PL SE' RD) as (n & s1 & E). exists n, s1. split; [exact E|]. apply ensure_using_keeps in E; [apply E|exact P|exact O'|exists dn, ts, l; exact PL|intros q Pq _; exact (J' q Pq)].
    - destruct (paths_sheets _ P) as (ts0 & l0 & (text & DF & T' & SH) & _). rewrite DF, T'. set (s0 := mkNest rs (dset (file_of (fst r)) (ts0, None) (resumable s)) (n_seen s) clock).
      assert (PL : placed (fst r) (ts0, None) rs [] ts0 l0) by (split; [exists ts0, text; split; [exact DF|split; [exact T'|exact SH]]|]; split; [reflexivity|]; split; [exact SH|]; intros x; cbn; split; [apply Jr|intros []]).
      destruct (ensure_using_total pick seen (length ts0) r (ts0, None) ts0 [] l0 s0 (le_n _) P O' PL SE' RD) as (n & s1 & E). exists n, s1. split; [exact E|]. apply ensure_using_keeps in E; [apply E|exact P|exact O'|exists [], ts0, l0; exact PL|]. cbn [n_rules resumable s0]. intros q Pq N. apply place_other; [intros X; apply N; exact (paths_inj q (fst r) Pq P X)|exact (J' q Pq)]. }
  destruct X as (n & s1 & E & A1). destruct (rget r (available (n_rules s1))) as [b|] eqn:A2; [|congruence]. exists (max n1 n), (Some b, s1). unfold nest_continue, ensure_resolved. rewrite I. rewrite (resolve_all_more default_css pick n1 (max n1 n) n1 (max n1 n) _ _ _ ltac:(lia) ltac:(lia) RA), A.
  assert (E' : ensure_import_resolved float_of float_str high_digit int_high default_css self f pick (max n1 n) r (mkNest rs (resumable s) (n_seen s) clock) = Ret s1).
  { revert E. unfold ensure_import_resolved. destruct (dget _ (resumable _)); [apply ensure_using_more; lia|]. destruct (f _); [apply ensure_using_more; lia|trivial]. }
  rewrite E', A2. reflexivity.
Qed.
End Nest.
