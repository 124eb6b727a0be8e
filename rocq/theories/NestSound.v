(** Imports are replaced by the expansion of their rule (C26): the whole stylesheet. *)
From Verif Require Import Base Graph PyPath PyNorm Css Builder BuilderSpec BuilderProofs Handlers Nest NestSpec NestText NestProofs.
From Coq Require Import String ZArith NArith Bool List Lia.
Import ListNotations.
Open Scope list_scope.
Open Scope N_scope.

(** * The records of rules *)
Section Rules.
Context {F : Type}.
Notation token := (token (F := F)).
Notation rules := (rules (F := F)).
Lemma wake_frame r l : forall (s s' : rules), wake r l s = Ret s' -> available s' = available s /\ waiting s' = waiting s /\ counts s' = counts s /\
  forall k b m', rget k (unresolved s') = Some (b, m') -> exists m, rget k (unresolved s) = Some (b, m).
Proof.
  induction l as [|w l IH]; intros s s'; cbn [wake].
  - intros [= <-]. repeat split. eauto.
  - destruct (rget w (unresolved s)) as [[b m]|] eqn:E; [|discriminate]. destruct (rmem r m); [|discriminate]. cbn [negb]. intros H. apply IH in H. destruct H as (-> & -> & -> & H). repeat split. intros k b' m' K. apply H in K. destruct K as (m2 & K). cbn [unresolved] in K. destruct (ref_eq_dec k w) as [->|N].
    + rewrite rget_rset_same in K. injection K as <- _. eauto.
    + rewrite rget_rset_other in K by exact N. eauto.
Qed.
Lemma await_frame r l : forall s : rules, available (await r l s) = available s /\ unresolved (await r l s) = unresolved s /\ resolvable (await r l s) = resolvable s.
Proof. induction l as [|m l IH]; intros s; cbn [await]; [repeat split|]. destruct (IH (mkRules (available s) (unresolved s) (rset m (match rget m (waiting s) with None => [] | Some w => w end ++ [r]) (waiting s)) (dset (fst m) (match dget (fst m) (counts s) with None => 0%Z | Some n => n end + 1)%Z (counts s)) (resolvable s))) as (-> & -> & ->). repeat split. Qed.
Lemma forgo_frame r l : forall s s' : rules, forgo r l s = Ret s' -> available s' = available s /\ unresolved s' = unresolved s /\ resolvable s' = resolvable s.
Proof.
  induction l as [|m l IH]; intros s s'; cbn [forgo]; [intros [= <-]; repeat split|]. destruct (rget m (waiting s)) as [w|]; [|discriminate]. destruct (rremove r w) as [[|w0 w']|]; [|intros H; apply IH in H; exact H|discriminate].
  destruct (decrement (fst m) (counts s)) as [c|]; [|discriminate]. intros H. apply IH in H. exact H.
Qed.
Lemma set_rule_frame r b m (s s' : rules) : set_rule r b m s = Ret s' -> rget r (available s) = None /\
  match m with
  | [] => available s' = rset r b (available s) /\ forall k x m', rget k (unresolved s') = Some (x, m') -> k <> r /\ exists m, rget k (unresolved s) = Some (x, m)
  | _ => available s' = available s /\ unresolved s' = rset r (b, m) (rdel r (unresolved s)) /\ resolvable s' = resolvable s
  end.
Proof.
  unfold set_rule. destruct (rget r (available s)); [discriminate|]. intros H. split; [reflexivity|]. destruct m as [|m0 m].
  - assert (D : forall k x m', rget k (rdel r (unresolved s)) = Some (x, m') -> k <> r /\ exists m, rget k (unresolved s) = Some (x, m)) by (intros k x m' K; destruct (ref_eq_dec k r) as [->|N]; [rewrite rget_rdel_same in K; discriminate|]; rewrite rget_rdel_other in K by exact N; split; [exact N|eauto]).
    destruct (rget r (waiting s)) as [l|]; [|injection H as <-; split; [reflexivity|exact D]]. destruct (decrement (fst r) (counts s)) as [c|]; [|discriminate]. apply wake_frame in H. destruct H as (-> & _ & _ & H). split; [reflexivity|]. intros k x m' K. apply H in K. destruct K as (m & K). exact (D _ _ _ K).
  - apply forgo_frame in H. destruct H as (-> & -> & ->). destruct (await_frame r (rminus (m0 :: m) match rget r (unresolved s) with Some (_, m) => m | None => [] end) (mkRules (available s) (rset r (b, m0 :: m) (rdel r (unresolved s))) (waiting s) (counts s) (resolvable s))) as (-> & -> & ->). repeat split.
Qed.
End Rules.

Section Nest.
Context {F : Type} (float_of : str -> option F) (float_str : F -> str).
Context (high_digit : N -> bool) (int_high : str -> option Z).
Notation token := (token (F := F)).
Notation rules := (rules (F := F)).
Notation nstate := (nstate (F := F)).
Context (default_css self : str) (f : str -> option str).
Notation get_import := (get_import default_css).
Notation import := (import default_css).
Notation tokenize := (tokenize float_of high_digit int_high).
Notation file_of := (file_of self).
Notation is_sheet := (is_sheet float_of high_digit int_high f).
Notation rule_of := (rule_of float_of float_str high_digit int_high self f).
Notation expands := (expands rule_of import).
Notation expanded := (expanded rule_of import).
Notation plain := (plain default_css).
Notation good_rules := (good_rules float_of float_str high_digit int_high default_css self f).
Notation stands := (stands float_of float_str high_digit int_high default_css self f).

(** * Reading a file *)
Lemma read_to_app (stop : token -> bool) a x r e : (forall t, In t a -> stop t = false) -> ~ In TEof a -> x <> TEof -> stop x = true -> read_to stop (a ++ x :: r) e = Ret (r, e).
Proof.
  intros S E X Sx. induction a as [|t a IH]; cbn [app read_to].
  - rewrite Sx. destruct x; try reflexivity. congruence.
  - rewrite (S t (or_introl eq_refl)). rewrite IH; [|intros y Y; apply S; right; exact Y|intros Y; apply E; right; exact Y]. destruct t; try reflexivity. destruct E; left; reflexivity.
Qed.
Lemma read_prelude_app (a : list token) r e : ~ In TLCurly a -> ~ In TEof a -> read_prelude (a ++ TLCurly :: r) e = Ret (a, (r, e)).
Proof.
  intros N E. induction a as [|t a IH]; cbn [app read_prelude]; [reflexivity|]. rewrite IH; [|intros Y; apply N; right; exact Y|intros Y; apply E; right; exact Y].
  destruct t; try reflexivity; [destruct N; left; reflexivity|destruct E; left; reflexivity].
Qed.
Lemma read_nested_balanced (b : list token) : balanced b -> forall k r e, read_nested (S k) (b ++ r) e = match read_nested (S k) r e with Raise x => Raise x | Ret (l, g) => Ret (b ++ l, g) end.
Proof.
  intros B. induction B as [|t b C E B IH|a b A IHa B IHb]; intros k r e.
  - cbn [app]. destruct (read_nested (S k) r e) as [[l g]|]; reflexivity.
  - cbn [app]. assert (X : read_nested (S k) (t :: b ++ r) e = match read_nested (S k) (b ++ r) e with Raise x => Raise x | Ret (l, g) => Ret (t :: l, g) end) by (destruct t; try reflexivity; [destruct C; left; reflexivity|destruct C; right; reflexivity|destruct E; reflexivity]).
    rewrite X, IH. destruct (read_nested (S k) r e) as [[l g]|]; reflexivity.
  - cbn [app]. rewrite <- app_assoc. cbn [read_nested]. rewrite IHa. cbn [app]. cbn [read_nested Nat.pred]. rewrite IHb. destruct (read_nested (S k) r e) as [[l g]|]; [|reflexivity]. rewrite <- app_assoc. reflexivity.
Qed.
Lemma read_nested_end (b r : list token) e : balanced b -> read_nested 1 (b ++ TRCurly :: r) e = Ret (b ++ [TRCurly], (r, e)).
Proof. intros B. rewrite (read_nested_balanced b B 0). reflexivity. Qed.
Lemma drop_white_spec (l : list token) : exists a, blank a /\ l = a ++ drop_white l.
Proof. induction l as [|t l (a & B & E)]; [exists []; split; [constructor|reflexivity]|]. cbn [drop_white]. destruct (is_white t) eqn:W; [exists (t :: a); split; [constructor; [apply white_true; exact W|exact B]|cbn; rewrite <- E; reflexivity]|exists []; split; [constructor|reflexivity]]. Qed.
Lemma rstrip_white_spec (l : list token) : exists c, blank c /\ l = rstrip_white l ++ c.
Proof. destruct (drop_white_spec (rev l)) as (a & B & E). exists (rev a). split; [apply Forall_rev; exact B|]. unfold rstrip_white. rewrite <- rev_app_distr, <- E, rev_involutive. reflexivity. Qed.
Lemma blank_imports a : blank a -> forall t : token, In t a -> get_import t = None.
Proof. intros B t I. unfold blank in B. rewrite Forall_forall in B. destruct (B t I) as [v ->]. reflexivity. Qed.

(** what one turn of the loop reads *)
Inductive item : list (ref * list token) -> list token -> list (list token * list token) -> option (str * list token * list ref) -> list token -> list (list token * list token) -> Prop :=
| ItemOther av ts l ts' : (length ts' < length ts)%nat -> sheet ts' l -> item av ts l None ts' l
| ItemRule av ts p b0 l ts' x m : (length ts' < length ts)%nat -> sheet ts' l -> flat x -> stands b0 x ->
    (forall i, In i m <-> rget i av = None /\ exists t, In t x /\ get_import t = Some i) ->
    (forall t i, In t x -> get_import t = Some i -> In i m /\ In t b0) -> item av ts ((p, b0) :: l) (Some (selector_of float_str p, x, m)) ts' l.
Lemma read_item_sound fuel av ts l o g : good_rules av -> sheet ts l -> read_item float_str default_css fuel av (ts, None) = Ret (o, g) -> exists ts' l', g = (ts', None) /\ item av ts l o ts' l'.
Proof.
  intros G H. unfold read_item. destruct H as [|v r l H|v r l H|a r l N E H|v a b r l N E B H|t a b r l T N E Fb H]; cbn [next fst snd app].
  - discriminate.
  - intros [= <- <-]. exists r, l. split; [reflexivity|]. apply ItemOther; [cbn; lia|exact H].
  - intros [= <- <-]. exists r, l. split; [reflexivity|]. apply ItemOther; [cbn; lia|exact H].
  - rewrite read_to_app; [|intros t I; destruct t; try reflexivity; contradiction|exact E|discriminate|reflexivity]. intros [= <- <-]. exists r, l. split; [reflexivity|]. apply ItemOther; [cbn; rewrite app_length; cbn; lia|exact H].
  - rewrite read_to_app; [|intros t I; destruct t; try reflexivity; contradiction|exact E|discriminate|reflexivity]. cbn [fst snd]. rewrite read_nested_end by exact B. intros [= <- <-]. exists r, l. split; [reflexivity|]. apply ItemOther; [cbn; rewrite app_length; cbn; rewrite app_length; cbn; lia|exact H].
  - destruct T as (T1 & T2 & T3 & T4 & T5 & T6). intros Q.
    assert (R : match read_prelude (a ++ TLCurly :: b ++ TRCurly :: r) None with Raise e => Raise e | Ret (p, g) => match read_block default_css fuel av [] g [] [] with Raise e => Raise e | Ret (value, missing, g) => Ret (Some (strip (serialize_many float_str (t :: p)), rstrip_white value, missing), g) end end = Ret (o, g)) by (destruct t; try exact Q; exfalso; try congruence; first [exact (T4 _ eq_refl)|exact (T5 _ eq_refl)|exact (T6 _ eq_refl)]).
    clear Q. rewrite read_prelude_app in R by assumption. destruct (read_block default_css fuel av [] (b ++ TRCurly :: r, None) [] []) as [[[value m] g']|] eqn:RB; [|discriminate]. injection R as <- <-.
    assert (FB : flat b) by (apply Forall_forall; exact Fb). apply (read_block_sound float_of float_str high_digit int_high default_css self f) in RB; [|exact G|constructor|exact FB]. destruct RB as (-> & x & -> & Fx & M & M2 & X). cbn [app] in *. exists r, l. split; [reflexivity|].
    destruct (rstrip_white_spec x) as (c & Bc & Ec). set (x1 := rstrip_white x) in *.
    apply ItemRule; [cbn; rewrite app_length; cbn; rewrite app_length; cbn; lia|exact H| | | |].
    + rewrite Ec in Fx. apply Forall_app in Fx. exact (proj1 Fx).
    + intros w Ew. destruct (X (w ++ c)) as (a0 & Ba & _ & Ea); [rewrite Ec; apply expanded_app; [exact Ew|apply expanded_plain; intros y Y; apply (blank_imports c Bc y Y)]|]. exists a0, c. repeat split; [exact Ba|exact Bc|exact Ea].
    + intros i. rewrite M. split.
      * intros [[]|(Ri & u & Iu & Eu)]. split; [exact Ri|]. exists u. split; [|exact Eu]. rewrite Ec in Iu. apply in_app_iff in Iu. destruct Iu as [Iu|Iu]; [exact Iu|]. rewrite (blank_imports c Bc u Iu) in Eu. discriminate.
      * intros (Ri & u & Iu & Eu). right. split; [exact Ri|]. exists u. split; [rewrite Ec; apply in_app_iff; left; exact Iu|exact Eu].
    + intros u i Iu Eu. apply M2; [rewrite Ec; apply in_app_iff; left; exact Iu|exact Eu].
Qed.

(** * The invariant *)
Definition good (rs : rules) : Prop := good_rules (available rs) /\ forall r b m, rget r (unresolved rs) = Some (b, m) -> flat b /\ exists b0, rule_of r b0 /\ stands b0 b.
Lemma set_available r b rs rs' : good rs -> expands r b -> plain b -> set_rule r b [] rs = Ret rs' -> good rs'.
Proof.
  intros [G1 G2] E P H. apply set_rule_frame in H. destruct H as (_ & EA & H). unfold good. rewrite EA. split.
  - intros k v. destruct (ref_eq_dec k r) as [->|N]; [rewrite rget_rset_same; intros [= <-]; split; assumption|rewrite rget_rset_other by exact N; apply G1].
  - intros k x m K. apply H in K. destruct K as (_ & m' & K). exact (G2 _ _ _ K).
Qed.
Lemma set_unresolved r b m b0 rs rs' : good rs -> flat b -> rule_of r b0 -> stands b0 b -> m <> [] -> set_rule r b m rs = Ret rs' -> good rs'.
Proof.
  intros [G1 G2] Fb R S N H. apply set_rule_frame in H. destruct H as (_ & H). destruct m as [|m0 m]; [congruence|]. destruct H as (EA & EU & _). unfold good. rewrite EA, EU. split; [exact G1|].
  intros k x m'. destruct (ref_eq_dec k r) as [->|N']; [rewrite rget_rset_same; intros [= <- _]; split; [exact Fb|eauto]|rewrite rget_rset_other, rget_rdel_other by exact N'; apply G2].
Qed.
Lemma resolve_sound fuel r rs rs' : good rs -> resolve default_css fuel r rs = Ret rs' -> good rs'.
Proof.
  intros G. unfold resolve. destruct (rget r (unresolved rs)) as [[b m]|] eqn:U; [|discriminate]. destruct (fill default_css fuel (available rs) b []) as [v|] eqn:FL; [|discriminate].
  destruct G as [G1 G2]. destruct (G2 _ _ _ U) as (Fb & b0 & R & S). apply (fill_sound float_of float_str high_digit int_high default_css self f) in FL; [|exact G1|exact Fb|constructor]. destruct FL as (w & -> & E & P). cbn [app] in *. destruct (S w E) as (a & c & Ba & Bc & X).
  apply set_available; [split; assumption| |exact P]. exact (Expands _ _ _ _ _ _ _ R X Ba Bc).
Qed.
Lemma resolve_all_sound pick fuel n : forall clock rs clock' rs', good rs -> resolve_all default_css pick fuel n clock rs = Ret (clock', rs') -> good rs' /\ resolvable rs' = [].
Proof.
  induction n as [|n IH]; intros clock rs clock' rs' G; cbn [resolve_all]; destruct (resolvable rs) as [|d l] eqn:R; try discriminate; try (intros [= <- <-]; split; [exact G|exact R]).
  destruct (resolve default_css fuel (nth (pick clock (d :: l)) (d :: l) d) rs) as [rs1|] eqn:E; [|discriminate]. intros H. apply IH in H; [exact H|]. exact (resolve_sound _ _ _ _ G E).
Qed.
(** [g] is what is left of the file after some of its rules *)
Definition left_of (file : str) (g : list token * option exn) : Prop := exists ts0 done ts l, is_sheet file ts0 (done ++ l) /\ g = (ts, None) /\ sheet ts l.
Definition fine (s : nstate) : Prop := good (n_rules s) /\ forall file g, dget file (resumable s) = Some g -> left_of file g.

Lemma ensure_using_sound pick fuel n : forall imp g s s', good (n_rules s) -> (forall file g, dget file (resumable s) = Some g -> left_of file g) -> left_of (file_of (fst imp)) g ->
  ensure_using float_str default_css pick fuel n imp (file_of (fst imp)) g s = Ret s' -> fine s' /\ n_seen s' = n_seen s.
Proof.
  induction n as [|n IH]; intros imp g s s' G J L; cbn [ensure_using]; destruct (resolve_all default_css pick fuel fuel (n_clock s) (n_rules s)) as [[clock rs]|] eqn:RA; try discriminate; apply resolve_all_sound in RA; try exact G; destruct RA as [G' _];
    (destruct (rget imp (available rs)); [intros [= <-]; split; [split; [exact G'|]|reflexivity]; cbn [resumable]; intros file g'; destruct (list_eq_dec N.eq_dec file (file_of (fst imp))) as [->|NE]; [rewrite dget_dset_same; intros [= <-]; exact L|rewrite dget_dset_other by congruence; apply J]|]); [discriminate|].
  destruct (read_item float_str default_css fuel (available rs) g) as [[o g']|] eqn:RI; [|discriminate]. destruct L as (ts0 & dn & ts & l & SH & -> & SL). apply (read_item_sound _ _ _ l) in RI; [|exact (proj1 G')|exact SL]. destruct RI as (ts' & l' & -> & IT).
  inversion IT as [av ? l1 ? LT S1|av ? p b0 l1 ? x m LT S1 Fx ST M M2]; subst.
  - intros H. apply IH in H; [exact H|exact G'|exact J|]. exists ts0, dn, ts', l'. repeat split; assumption.
  - destruct (set_rule (fst imp, selector_of float_str p) x m rs) as [rs1|] eqn:SR; [|discriminate]. intros H. 
    assert (RO : rule_of (fst imp, selector_of float_str p) b0) by (exists ts0, (dn ++ (p, b0) :: l'), p; split; [exact SH|split; [apply in_app_iff; right; left; reflexivity|reflexivity]]).
    apply IH in H; [exact H| |exact J|].
    + cbn [n_rules]. destruct m as [|m0 m].
      * assert (PX : plain x). { apply Forall_forall. intros t I. unfold flat in Fx. rewrite Forall_forall in Fx. split; [|exact (Fx t I)]. destruct (get_import t) as [i|] eqn:Ei; [|reflexivity]. destruct (proj1 (M2 t i I Ei)). }
        apply (set_available _ _ _ _ G') in SR; [exact SR| |exact PX]. destruct (ST x) as (a & c & Ba & Bc & X); [apply expanded_plain; intros t I; unfold NestProofs.plain in PX; rewrite Forall_forall in PX; exact (proj1 (PX t I))|]. exact (Expands _ _ _ _ _ _ _ RO X Ba Bc).
      * apply (set_unresolved _ _ _ b0 _ _ G') in SR; [exact SR|exact Fx|exact RO|exact ST|discriminate].
    + exists ts0, (dn ++ [(p, b0)]), ts', l'. rewrite <- app_assoc. repeat split; assumption.
Qed.

Notation readable := (readable float_of high_digit int_high self f).
Lemma continue_sound pick fuel t r s o s' : fine s -> get_import t = Some r -> readable r -> nest_continue float_of float_str high_digit int_high default_css self f pick fuel t s = Ret (o, s') ->
  exists v, o = Some v /\ expands r v /\ plain v /\ fine s' /\ n_seen s' = n_seen s.
Proof.
  intros [G J] I R. unfold nest_continue. rewrite I. unfold ensure_resolved. destruct (resolve_all default_css pick fuel fuel (n_clock s) (n_rules s)) as [[clock rs]|] eqn:RA; [|discriminate]. apply resolve_all_sound in RA; [|exact G]. destruct RA as [G' _].
  assert (Fin : forall s1, fine s1 -> n_seen s1 = n_seen s -> match rget r (available (n_rules s1)) with Some b => Ret (Some b, s1) | None => Raise KeyError end = Ret (o, s') -> exists v, o = Some v /\ expands r v /\ plain v /\ fine s' /\ n_seen s' = n_seen s).
  { intros s1 F1 Sn. destruct (rget r (available (n_rules s1))) as [b|] eqn:A; [|discriminate]. intros [= <- <-]. destruct (proj1 (proj1 F1) _ _ A) as [E P]. exists b. exact (conj eq_refl (conj E (conj P (conj F1 Sn)))). }
  destruct (rget r (available rs)) as [b|] eqn:A.
  - cbn [n_rules]. apply (Fin (mkNest rs (resumable s) (n_seen s) clock)); [split; assumption|reflexivity].
  - unfold ensure_import_resolved. fold (file_of (fst r)). cbn [resumable n_rules n_seen n_clock]. destruct (dget (file_of (fst r)) (resumable s)) as [g|] eqn:RS.
    + destruct (ensure_using float_str default_css pick fuel fuel r (file_of (fst r)) g _) as [s1|] eqn:EU; [|discriminate]. apply ensure_using_sound in EU; [|exact G'|exact J|exact (J _ _ RS)]. destruct EU as [F1 Sn]. exact (Fin s1 F1 Sn).
    + destruct (f (file_of (fst r))) as [text|] eqn:DF; [|discriminate]. destruct (R text DF) as (ts & l & TK & SH). rewrite TK.
      assert (L : left_of (file_of (fst r)) (ts, None)) by (exists ts, [], ts, l; repeat split; [exists text; repeat split; assumption|exact SH]).
      destruct (ensure_using float_str default_css pick fuel fuel r (file_of (fst r)) (ts, None) _) as [s1|] eqn:EU; [|discriminate]. apply ensure_using_sound in EU; [|exact G'| |exact L]. 
      * destruct EU as [F1 Sn]. exact (Fin s1 F1 Sn).
      * cbn [resumable]. intros file g. destruct (list_eq_dec N.eq_dec file (file_of (fst r))) as [->|NE]; [rewrite dget_dset_same; intros [= <-]; exact L|rewrite dget_dset_other by congruence; apply J].
Qed.

(** * The stylesheet *)
Notation nest pick fuel scan := (nest float_of float_str high_digit int_high default_css self f pick fuel scan).
Notation others := (others default_css self).
Definition saw (ts : list token) (s s' : nstate) : Prop := forall p, In p (n_seen s') <-> In p (n_seen s) \/ others ts p.

Lemma see_in (r : ref) l p : In p (if mem (fst r) l then l else l ++ [fst r]) <-> In p l \/ p = fst r.
Proof. destruct (mem (fst r) l) eqn:E; [apply mem_In in E; split; [auto|intros [I| ->]; assumption]|]. rewrite in_app_iff. cbn. intuition congruence. Qed.
Lemma start_spec pick fuel scan t s b s' : start_mark (nest pick fuel scan) t s = Ret (b, s') -> (fine s -> fine s') /\ saw [t] s s' /\ (b = true <-> scan = false /\ get_import t <> None).
Proof.
  cbn [start_mark Nest.nest]. unfold nest_start. intros H.
  assert (K : t = TEof \/ (t <> TEof /\ match get_import t with None => Ret (false, s) | Some imp => Ret (negb scan, if str_eqb (fst imp) self then s else mkNest (n_rules s) (resumable s) (if mem (fst imp) (n_seen s) then n_seen s else n_seen s ++ [fst imp]) (n_clock s)) end = Ret (b, s'))) by (destruct t; try (right; split; [discriminate|exact H]); left; reflexivity).
  destruct K as [->|(NE & K)].
  - injection H as <- <-. split; [|split].
    + destruct scan; [auto|]. intros [G J]. split; [exact G|]. intros file g X. discriminate X.
    + intros p. assert (X : n_seen (if scan then s else mkNest (n_rules s) [] (n_seen s) (n_clock s)) = n_seen s) by (destruct scan; reflexivity). rewrite X. split; [auto|]. intros [I|(_ & t & r & [<-|[]] & I & _)]; [exact I|]. apply get_import_iff in I. discriminate.
    + split; [discriminate|intros [_ X]; destruct X; reflexivity].
  - destruct (get_import t) as [imp|] eqn:I.
    + injection K as <- <-. split; [|split].
      * destruct (str_eqb (fst imp) self); [auto|]. intros [G J]. split; assumption.
      * intros p. destruct (str_eqb (fst imp) self) eqn:E.
        -- apply str_eqb_eq in E. split; [auto|]. intros [Ip|(N & t' & r & [<-|[]] & Ir & <-)]; [exact Ip|]. apply get_import_iff in Ir. congruence.
        -- apply str_eqb_neq in E. cbn [n_seen]. rewrite see_in. split; (intros [Ip|X]; [left; exact Ip|right]).
           ++ split; [congruence|]. exists t, imp. split; [left; reflexivity|]. split; [apply get_import_iff; exact I|congruence].
           ++ destruct X as (N & t' & r & [<-|[]] & Ir & <-). apply get_import_iff in Ir. congruence.
      * destruct scan; split; try discriminate; [intros [X _]; discriminate|intros _; split; [reflexivity|discriminate]|reflexivity].
    + injection K as <- <-. split; [auto|]. split; [|split; [discriminate|intros [_ X]; congruence]]. intros p. split; [auto|]. intros [Ip|(N & t' & r & [<-|[]] & Ir & _)]; [exact Ip|]. apply get_import_iff in Ir. congruence.
Qed.
Lemma saw_refl s : saw [] s s. Proof. intros p. split; [auto|]. intros [I|(_ & t & r & [] & _)]; exact I. Qed.
Lemma saw_app a b s s1 s2 : saw a s s1 -> saw b s1 s2 -> saw (a ++ b) s s2.
Proof.
  intros A B p. rewrite (B p), (A p). split.
  - intros [[I|(N & t & r & It & X)]|(N & t & r & It & X)]; [left; exact I|right; split; [exact N|]; exists t, r; split; [apply in_app_iff; left; exact It|exact X]|right; split; [exact N|]; exists t, r; split; [apply in_app_iff; right; exact It|exact X]].
  - intros [I|(N & t & r & It & X)]; [auto|]. apply in_app_iff in It. destruct It as [It|It]; [left; right|right]; (split; [exact N|]; exists t, r; split; [exact It|exact X]).
Qed.

Lemma rewrites_expanded pick fuel : forall s ts out lost s', rewrites [nest pick fuel false] s ts out lost s' -> fine s -> (forall t r, In t ts -> import t r -> readable r) -> expanded ts out /\ lost = [] /\ saw ts s s' /\ (forall t, In t out -> get_import t = None).
Proof.
  intros s ts out lost s' H. induction H as [s|t s s1 ts out lost s2 D R IH|t m s s1 seg repl s2 ts out lost s3 M RP R IH|t m s s1 seg s2 M HD]; intros FN RD.
  - split; [constructor|]. split; [reflexivity|]. split; [apply saw_refl|intros t []].
  - inversion D as [|m r t' s' sa sb ST D']; subst. inversion D'; subst. apply start_spec in ST. destruct ST as (FI & SW & B). destruct IH as (E & -> & S2 & O); [exact (FI FN)|intros x r I; apply RD; right; exact I|]. assert (GN : get_import t = None) by (destruct (get_import t); [|reflexivity]; assert (X : false = true) by (apply B; split; [reflexivity|discriminate]); discriminate).
    split; [apply ExpandedToken; [apply import_none; exact GN|exact E]|]. split; [reflexivity|]. split; [exact (saw_app [t] ts _ _ _ SW S2)|]. intros x [<-|I]; [exact GN|exact (O x I)].
  - assert (X : m = nest pick fuel false /\ start_mark (nest pick fuel false) t s = Ret (true, s1)) by (inversion M as [|? ? ? ? ? ? ? ? M']; subst; [split; [reflexivity|assumption]|inversion M']). destruct X as [-> ST]. apply start_spec in ST. destruct ST as (FI & SW & B). destruct (proj1 B eq_refl) as [_ GI]. destruct (get_import t) as [r|] eqn:I; [|congruence].
    assert (RR : readable r) by (apply (RD t r); [left; reflexivity|apply get_import_iff; exact I]).
    inversion RP as [t0 s0 rp s4 C|t0 s0 s4 sg rp s5 C RP']; subst; cbn [continue_mark Nest.nest] in C; apply (continue_sound pick fuel t r _ _ _ (FI FN) I RR) in C; destruct C as (v & Ev & X & P & F2 & Sn); [|discriminate Ev]. injection Ev as <-.
    assert (GP : forall x, In x repl -> get_import x = None) by (intros x Hx; unfold NestProofs.plain in P; rewrite Forall_forall in P; exact (proj1 (P x Hx))).
    destruct IH as (E & -> & S3 & O); [exact F2|intros x rx Ix Hx; apply in_app_iff in Ix; destruct Ix as [Ix|Ix]; [apply get_import_iff in Hx; rewrite (GP x Ix) in Hx; discriminate|apply (RD x rx); [right; exact Ix|exact Hx]]|].
    apply expanded_plain_inv in E; [|exact GP]. destruct E as (y & -> & Y). split; [apply (ExpandedImport _ _ _ r); [apply get_import_iff; exact I|exact X|exact Y]|]. split; [reflexivity|]. split; [|exact O].
    apply (saw_app [t] ts s s2 s3).
    + intros p. rewrite Sn. exact (SW p).
    + intros p. rewrite (S3 p). split; (intros [Ip|(N & x & rx & Ix & Hx & Ex)]; [left; exact Ip|right; split; [exact N|]; exists x, rx; split; [|split; [exact Hx|exact Ex]]]); [|apply in_app_iff; right; exact Ix]. apply in_app_iff in Ix. destruct Ix as [Ix|Ix]; [|exact Ix]. apply get_import_iff in Hx. rewrite (GP x Ix) in Hx. discriminate.
  - exfalso. assert (X : m = nest pick fuel false /\ start_mark (nest pick fuel false) t s = Ret (true, s1)) by (inversion M as [|? ? ? ? ? ? ? ? M']; subst; [split; [reflexivity|assumption]|inversion M']). destruct X as [-> ST]. apply start_spec in ST. destruct ST as (FI & SW & B). destruct (proj1 B eq_refl) as [_ GI]. destruct (get_import t) as [r|] eqn:I; [|congruence].
    inversion HD as [|t0 s0 s4 sg s5 C HD']; subst. cbn [continue_mark Nest.nest] in C. apply (continue_sound pick fuel t r _ _ _ (FI FN) I) in C; [destruct C as (v & Ev & _); discriminate Ev|]. apply (RD t r); [left; reflexivity|apply get_import_iff; exact I].
Qed.
Lemma init_fine : fine nest_init.
Proof. split; [split|]; cbn; intros; discriminate. Qed.
(** a stylesheet that is built has all its imports replaced *)
Theorem nest_sheet pick fuel n ts out b : (forall t r, In t ts -> import t r -> readable r) -> pump [nest pick fuel false] n ts (new_builder nest_init) = Ret (out, b) ->
  expanded ts out /\ (forall t r, In t out -> ~ import t r) /\ (forall p, In p (n_seen (b_st b)) <-> others ts p).
Proof.
  intros RD H. assert (X : exists lost, rewrites [nest pick fuel false] nest_init ts out lost (b_st b)) by (apply pump_rewrites; exists n, b; split; [exact H|reflexivity]). destruct X as (lost & X). apply rewrites_expanded in X; [|exact init_fine|exact RD]. destruct X as (E & _ & S & O).
  split; [exact E|]. split; [intros t r I J; apply get_import_iff in J; rewrite (O t I) in J; discriminate|]. intros p. rewrite (S p). cbn. tauto.
Qed.
(** scanning leaves the tokens alone and finds the same stylesheets *)
Lemma rewrites_scan pick fuel : forall ts s, exists s', rewrites [nest pick fuel true] s ts ts [] s' /\ saw ts s s'.
Proof.
  induction ts as [|t ts IH]; intros s; [exists s; split; [constructor|apply saw_refl]|].
  assert (X : exists s1, start_mark (nest pick fuel true) t s = Ret (false, s1)) by (cbn [start_mark Nest.nest]; unfold nest_start; destruct t; try (eexists; reflexivity); destruct (get_import (TComment v)); eexists; reflexivity).
  destruct X as (s1 & X). destruct (IH s1) as (s2 & R & S). exists s2. split; [apply (RwPass _ _ _ s1); [apply (DeclCons _ _ _ _ s1); [exact X|constructor]|exact R]|]. apply start_spec in X. destruct X as (_ & X & _). exact (saw_app [t] ts _ _ _ X S).
Qed.
Theorem nest_scan pick fuel ts : exists n b, pump [nest pick fuel true] n ts (new_builder nest_init) = Ret (ts, b) /\ forall p, In p (n_seen (b_st b)) <-> others ts p.
Proof.
  destruct (rewrites_scan pick fuel ts nest_init) as (s' & R & S). destruct (proj2 (pump_rewrites [nest pick fuel true] nest_init ts ts s') (ex_intro _ [] R)) as (n & b & P & E). exists n, b. split; [exact P|]. subst s'. intros p. rewrite (S p). cbn. tauto.
Qed.
End Nest.
