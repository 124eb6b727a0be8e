From Verif Require Import Base Graph IoUtil IoUtilSpec.
From Coq Require Import List NArith ZArith Bool Lia.
Import ListNotations.
Open Scope list_scope.
Open Scope Z_scope.

(** what is left to read *)
Definition view (p : peekable) : str := buffer p ++ file p.
Definition pwf (p : peekable) : Prop := seen_eof p = true -> file p = [].

Lemma len_nonneg s : 0 <= len s. Proof. unfold len. lia. Qed.
Lemma len_app a b : len (a ++ b) = len a + len b. Proof. unfold len. rewrite app_length. lia. Qed.
Lemma len_nil s : len s = 0 -> s = [].
Proof. unfold len. destruct s; [reflexivity|]. simpl. lia. Qed.
Lemma firstn_app_le {A} n (a b : list A) : (n <= length a)%nat -> firstn n (a ++ b) = firstn n a.
Proof. intros H. rewrite firstn_app. replace (n - length a)%nat with 0%nat by lia. simpl. apply app_nil_r. Qed.
Lemma skipn_app_le {A} n (a b : list A) : (n <= length a)%nat -> skipn n (a ++ b) = skipn n a ++ b.
Proof. intros H. rewrite skipn_app. replace (n - length a)%nat with 0%nat by lia. reflexivity. Qed.
Lemma firstn_app_ge {A} n (a b : list A) : (length a <= n)%nat -> firstn n (a ++ b) = a ++ firstn (n - length a) b.
Proof. intros H. rewrite firstn_app, firstn_all2 by lia. reflexivity. Qed.
Lemma skipn_app_ge {A} n (a b : list A) : (length a <= n)%nat -> skipn n (a ++ b) = skipn (n - length a) b.
Proof. intros H. rewrite skipn_app, skipn_all2 by lia. reflexivity. Qed.

Lemma read_view n p : 0 <= n -> pwf p ->
  let '(a, p1) := read n p in
  pwf p1 /\ view p1 = skipn (Z.to_nat n) (view p) /\
  ((a = None /\ view p = [] /\ seen_eof p = true) \/ (a = Some (firstn (Z.to_nat n) (view p)) /\ ~ (view p = [] /\ seen_eof p = true))) /\
  (seen_eof p = true -> seen_eof p1 = true) /\ (0 < n -> view p = [] -> seen_eof p1 = true) /\ (len (firstn (Z.to_nat n) (view p)) < n -> seen_eof p1 = true).
Proof.
  intros Hn Hw. unfold read, view. destruct (seen_eof p) eqn:Es.
  - rewrite (Hw Es). rewrite !app_nil_r. destruct (buffer p) as [|c r] eqn:Eb; cbn [nonempty negb].
    + rewrite Eb. rewrite firstn_nil, skipn_nil. split; [exact Hw|]. split; [rewrite (Hw Es); reflexivity|]. split; [left; auto|]. auto.
    + assert (E1 : Z.eqb n (-1) = false) by lia. rewrite E1. cbn [orb]. destruct (Z.leb (len (c :: r)) n) eqn:El; cbn [file buffer seen_eof].
      * apply Z.leb_le in El. unfold len in El. split; [exact (fun _ => eq_refl)|]. split; [rewrite skipn_all2 by lia; reflexivity|].
        split; [right; split; [rewrite firstn_all2 by lia; reflexivity|intros ([=] & _)]|]. auto.
      * unfold prefix_to, suffix_from. assert (E2 : Z.ltb n 0 = false) by lia. rewrite E2. rewrite !app_nil_r. split; [exact (fun _ => eq_refl)|]. split; [reflexivity|].
        split; [right; split; [reflexivity|intros ([=] & _)]|]. auto.
  - assert (E1 : Z.eqb n (-1) = false) by lia. rewrite E1. destruct (Z.leb n (len (buffer p))) eqn:El; cbn [file buffer seen_eof].
    + apply Z.leb_le in El. unfold len in El. unfold prefix_to, suffix_from. assert (E2 : Z.ltb n 0 = false) by lia. rewrite E2.
      split; [intros [=]|]. rewrite firstn_app_le, skipn_app_le by lia. split; [reflexivity|]. split; [right; split; [reflexivity|intros (_ & [=])]|]. split; [discriminate|].
      split.
      * intros H1 H2. apply app_eq_nil in H2. destruct H2 as (H2 & _). rewrite H2 in El. simpl in El. lia.
      * unfold len. rewrite firstn_length. lia.
    + apply Z.leb_gt in El. unfold len in *. unfold take, drop. set (w := n - Z.of_nat (length (buffer p))) in *. assert (E2 : Z.ltb w 0 = false) by lia. rewrite E2.
      assert (Ew : (Z.to_nat n - length (buffer p) = Z.to_nat w)%nat) by lia.
      split; [intros X; apply Z.ltb_lt in X; cbn [file]; apply length_zero_iff_nil; rewrite firstn_length in X; rewrite skipn_length; lia|].
      rewrite firstn_app_ge, skipn_app_ge by lia. rewrite Ew. cbn [app]. split; [reflexivity|]. split; [right; split; [reflexivity|intros (_ & [=])]|]. split; [discriminate|].
      split.
      * intros _ X. apply app_eq_nil in X. destruct X as (X1 & X2). rewrite X2. rewrite firstn_nil. simpl. apply Z.ltb_lt. unfold w. rewrite X1 in *. simpl in *. lia.
      * rewrite app_length. intros X. apply Z.ltb_lt. assert (Dw : w = n - Z.of_nat (length (buffer p))) by reflexivity. lia.
Qed.
Lemma peek_view n p : 0 <= n -> pwf p ->
  let '(a, p1) := peek n p in
  pwf p1 /\ view p1 = view p /\
  ((a = None /\ view p = [] /\ seen_eof p = true) \/ (a = Some (firstn (Z.to_nat n) (view p)) /\ ~ (view p = [] /\ seen_eof p = true))) /\
  (seen_eof p = true -> seen_eof p1 = true) /\ (0 < n -> view p = [] -> seen_eof p1 = true).
Proof.
  intros Hn Hw. unfold peek, view. destruct (seen_eof p) eqn:Es.
  - rewrite (Hw Es). rewrite !app_nil_r. destruct (buffer p) as [|c r] eqn:Eb; cbn [nonempty negb].
    + rewrite Eb, (Hw Es). split; [exact Hw|]. auto 8.
    + assert (E1 : Z.eqb n (-1) = false) by lia. rewrite E1. cbn [orb]. destruct (Z.leb (len (c :: r)) n) eqn:El.
      * apply Z.leb_le in El. unfold len in El. split; [exact Hw|]. rewrite (Hw Es), Eb, app_nil_r. split; [reflexivity|].
        split; [right; split; [rewrite firstn_all2 by lia; reflexivity|intros ([=] & _)]|]. auto.
      * unfold prefix_to. assert (E2 : Z.ltb n 0 = false) by lia. rewrite E2. split; [exact Hw|]. rewrite (Hw Es), Eb, app_nil_r. split; [reflexivity|].
        split; [right; split; [reflexivity|intros ([=] & _)]|]. auto.
  - destruct (Z.leb n (len (buffer p))) eqn:El; cbn [file buffer seen_eof].
    + apply Z.leb_le in El. unfold len in El. unfold prefix_to. assert (E2 : Z.ltb n 0 = false) by lia. rewrite E2.
      split; [exact Hw|]. rewrite firstn_app_le by lia. split; [reflexivity|]. split; [right; split; [reflexivity|intros (_ & [=])]|]. split; [discriminate|].
      intros H1 H2. apply app_eq_nil in H2. destruct H2 as (H2 & _). rewrite H2 in El. simpl in El. lia.
    + apply Z.leb_gt in El. unfold len in *. unfold take, drop. set (w := n - Z.of_nat (length (buffer p))) in *. assert (E2 : Z.ltb w 0 = false) by lia. rewrite E2.
      assert (Ew : (Z.to_nat n - length (buffer p) = Z.to_nat w)%nat) by lia.
      split; [intros X; apply Z.ltb_lt in X; cbn [file]; apply length_zero_iff_nil; rewrite firstn_length in X; rewrite skipn_length; lia|].
      rewrite firstn_app_ge by lia. rewrite Ew. rewrite <- app_assoc, firstn_skipn. split; [reflexivity|]. split; [right; split; [reflexivity|intros (_ & [=])]|]. split; [discriminate|].
      intros _ X. apply app_eq_nil in X. destruct X as (X1 & X2). rewrite X2. rewrite firstn_nil. simpl. apply Z.ltb_lt. unfold w. rewrite X1 in *. simpl in *. lia.
Qed.

Lemma read_all_view p : pwf p ->
  let '(a, p1) := read (-1) p in
  pwf p1 /\ view p1 = [] /\ seen_eof p1 = true /\ ((a = None /\ view p = [] /\ seen_eof p = true) \/ (a = Some (view p) /\ ~ (view p = [] /\ seen_eof p = true))).
Proof.
  intros Hw. unfold read, view. change (Z.eqb (-1) (-1)) with true. cbn [orb]. destruct (seen_eof p) eqn:Es.
  - rewrite (Hw Es), app_nil_r. destruct (buffer p) as [|c r] eqn:Eb; cbn [nonempty negb file buffer seen_eof app].
    + rewrite Eb, (Hw Es). split; [exact Hw|]. split; [reflexivity|]. split; [exact Es|]. left. auto.
    + split; [exact (fun _ => eq_refl)|]. split; [reflexivity|]. split; [reflexivity|]. right. split; [reflexivity|intros ([=] & _)].
  - cbn [file buffer seen_eof app]. split; [exact (fun _ => eq_refl)|]. split; [reflexivity|]. split; [reflexivity|]. right. split; [reflexivity|intros (_ & [=])].
Qed.
Lemma upto_nonneg n t : 0 <= n -> upto n t = firstn (Z.to_nat n) t.
Proof. intros H. unfold upto. assert (E : Z.ltb n 0 = false) by lia. rewrite E. reflexivity. Qed.
Lemma beyond_nonneg n t : 0 <= n -> beyond n t = skipn (Z.to_nat n) t.
Proof. intros H. unfold beyond. assert (E : Z.ltb n 0 = false) by lia. rewrite E. reflexivity. Qed.
Lemma upto_beyond n t : upto n t ++ beyond n t = t.
Proof. unfold upto, beyond. destruct (Z.ltb n 0); [apply app_nil_r|apply firstn_skipn]. Qed.
Lemma upto_nil n : upto n [] = [].
Proof. unfold upto. destruct (Z.ltb n 0); [reflexivity|apply firstn_nil]. Qed.
Lemma beyond_nil n : beyond n [] = [].
Proof. unfold beyond. destruct (Z.ltb n 0); [reflexivity|apply skipn_nil]. Qed.
Lemma read_sensible n p : -1 <= n -> pwf p ->
  let '(a, p1) := read n p in
  pwf p1 /\ view p1 = beyond n (view p) /\ ((a = None /\ view p = [] /\ seen_eof p = true) \/ (a = Some (upto n (view p)) /\ ~ (view p = [] /\ seen_eof p = true))).
Proof.
  intros Hn Hw. destruct (Z.eq_dec n (-1)) as [->|Hn1].
  - pose proof (read_all_view p Hw) as H. destruct (read (-1) p) as [a p1]. destruct H as (A & B & _ & C). auto.
  - pose proof (read_view n p ltac:(lia) Hw) as H. destruct (read n p) as [a p1]. destruct H as (A & B & C & _). rewrite upto_nonneg, beyond_nonneg by lia. auto.
Qed.
(** ** C19 *)
Definition near (a b : option str) : Prop := a = b \/ (a = Some [] /\ b = None).
Lemma near_answer n (v : str) (b : bool) a : (a = None /\ v = [] /\ b = true) \/ (a = Some (upto n v) /\ ~ (v = [] /\ b = true)) -> near a (answer n v).
Proof. intros [(-> & -> & _)|(-> & N)]; [left; reflexivity|]. unfold answer. destruct v; [right; rewrite upto_nil; auto|left; reflexivity]. Qed.
Lemma calls_faithful cs : forall p, pwf p -> Forall sensible cs -> forall answers p1, calls cs p = (answers, p1) ->
  consumed cs answers ++ view p1 = view p /\ length answers = length cs /\ Forall2 near answers (ideal cs (view p)).
Proof.
  induction cs as [|c r IH]; intros p Hw Hn answers p1 H; cbn [calls] in H.
  - injection H as <- <-. split; [reflexivity|]. split; [reflexivity|constructor].
  - inversion Hn as [|? ? Hc Hr]. subst. destruct c as [n|n]; cbn [sensible] in Hc.
    + pose proof (read_sensible n p Hc Hw) as HR. destruct (read n p) as [a p2] eqn:Er. destruct HR as (W2 & V2 & A). destruct (calls r p2) as [l p3] eqn:Ec. injection H as <- <-.
      destruct (IH p2 W2 Hr l p3 Ec) as (B1 & B2 & B3). cbn [ideal]. rewrite V2 in *. split; [|split; [simpl; lia|constructor; [|exact B3]]].
      * cbn [consumed]. destruct A as [(-> & E & _)|(-> & _)]; [|rewrite <- app_assoc, B1; apply upto_beyond]. rewrite B1, E. apply beyond_nil.
      * exact (near_answer n _ _ _ A).
    + pose proof (peek_view n p Hc Hw) as HR. destruct (peek n p) as [a p2] eqn:Er. destruct HR as (W2 & V2 & A & _). destruct (calls r p2) as [l p3] eqn:Ec. injection H as <- <-.
      destruct (IH p2 W2 Hr l p3 Ec) as (B1 & B2 & B3). cbn [ideal]. rewrite V2 in *. split; [|split; [simpl; lia|constructor; [|exact B3]]].
      * cbn [consumed]. exact B1.
      * rewrite <- upto_nonneg in A by assumption. exact (near_answer n _ _ _ A).
Qed.
Lemma open_faithful text cs answers p1 : Forall sensible cs -> calls cs (open_peekable text) = (answers, p1) ->
  (exists rest, consumed cs answers ++ rest = text) /\ Forall2 (fun a b => a = b \/ (a = Some [] /\ b = None)) answers (ideal cs text).
Proof.
  intros Hn H. assert (W : pwf (open_peekable text)) by (intros [=]). destruct (calls_faithful cs _ W Hn _ _ H) as (A & _ & B). split; [exists (view p1); exact A|exact B].
Qed.

(** ** C20 *)
Lemma no_crlf_skip n s : no_crlf s -> no_crlf (skipn n s).
Proof. intros H a b E. apply (H (firstn n s ++ a) b). rewrite <- app_assoc, <- E. symmetry. apply firstn_skipn. Qed.
Lemma no_crlf_first n s : no_crlf s -> no_crlf (firstn n s).
Proof. intros H a b E. apply (H a (b ++ skipn n s)). rewrite <- (firstn_skipn n s) at 1. rewrite E, <- app_assoc. reflexivity. Qed.
Lemma newlines_plain s : no_crlf s -> newlines s = map (fun c => if N.eqb c 13 || N.eqb c 12 then 10%N else c) s.
Proof.
  induction s as [|c r IH]; intros H; [reflexivity|]. assert (Hr : no_crlf r) by (intros a b E; apply (H (c :: a) b); rewrite E; reflexivity).
  cbn [newlines map]. rewrite <- (IH Hr). destruct (N.eqb c 13) eqn:E13; cbn [orb].
  - apply N.eqb_eq in E13. subst c. destruct r as [|d r']; [reflexivity|]. destruct (N.eqb d 10) eqn:Ed; [|reflexivity].
    apply N.eqb_eq in Ed. subst d. exfalso. apply (H [] r'). reflexivity.
  - destruct (N.eqb c 12); reflexivity.
Qed.
Lemma clean_plain s : no_crlf s -> clean s = map subst1 s.
Proof.
  intros H. unfold clean. rewrite newlines_plain by assumption. rewrite map_map. apply map_ext. intros c. unfold subst1, is_surrogate.
  destruct (N.eqb c 13 || N.eqb c 12); reflexivity.
Qed.
Lemma clean_len s : no_crlf s -> len (clean s) = len s.
Proof. intros H. rewrite clean_plain by assumption. unfold len. rewrite map_length. reflexivity. Qed.
Lemma rev_last_is c s : last_is c s = true -> exists a, s = a ++ [c].
Proof.
  unfold last_is. destruct (rev s) as [|x r] eqn:E; [discriminate|]. intros H. apply N.eqb_eq in H. subst x. exists (rev r). rewrite <- (rev_involutive s), E. reflexivity.
Qed.
Lemma ends_crlf_no s : no_crlf s -> ends_crlf s = false.
Proof.
  intros H. unfold ends_crlf. destruct (rev s) as [|x [|y r]] eqn:E; [reflexivity|reflexivity|].
  destruct (N.eqb x 10) eqn:Ex; [|reflexivity]. destruct (N.eqb y 13) eqn:Ey; [|reflexivity]. apply N.eqb_eq in Ex, Ey. subst.
  exfalso. apply (H (rev r) []). rewrite <- (rev_involutive s), E. simpl. rewrite <- app_assoc. reflexivity.
Qed.
Lemma removelast_firstn n (s : str) : removelast (firstn (S n) s) = if (length s <=? n)%nat then removelast s else firstn n s.
Proof.
  revert s. induction n as [|n IH]; intros s.
  - destruct s as [|a [|b s]]; try reflexivity.
  - destruct s as [|a s]; [reflexivity|]. change (firstn (S (S n)) (a :: s)) with (a :: firstn (S n) s).
    destruct s as [|b s]; [reflexivity|]. change (firstn (S n) (b :: s)) with (b :: firstn n s) in *.
    change (removelast (a :: b :: firstn n s)) with (a :: removelast (b :: firstn n s)). change (b :: firstn n s) with (firstn (S n) (b :: s)). rewrite IH.
    change (length (a :: b :: s) <=? S n)%nat with (length (b :: s) <=? n)%nat. destruct (length (b :: s) <=? n)%nat; reflexivity.
Qed.

(** the preprocessed reader [p] stands for the text [t] *)
Definition stands (p : peekable) (t : str) : Prop := pwf p /\ no_crlf (view p) /\ map subst1 (view p) = t.
Lemma stands_open text : no_crlf text -> stands (open_peekable text) (map subst1 text).
Proof. intros H. split; [intros [=]|]. split; [exact H|reflexivity]. Qed.

Lemma pre_read1_ok n p t : 0 < n -> stands p t ->
  exists a p1, pre_read1 n p = Ret (a, p1) /\ stands p1 (skipn (Z.to_nat n) t) /\
    ((a = None /\ t = [] /\ seen_eof p = true) \/ a = Some (firstn (Z.to_nat n) t)) /\ (len (firstn (Z.to_nat n) t) < n -> seen_eof p1 = true).
Proof.
  intros Hn (Hw & Hc & Et). pose proof (read_view n p (Z.lt_le_incl _ _ Hn) Hw) as HR. unfold pre_read1. destruct (read n p) as [r p1]. destruct HR as (W1 & V1 & A & E1 & _ & E2).
  assert (S1 : stands p1 (skipn (Z.to_nat n) t)). { split; [exact W1|]. rewrite V1. split; [apply no_crlf_skip; assumption|]. rewrite <- Et. symmetry. apply skipn_map. }
  assert (Elen : len (firstn (Z.to_nat n) t) = len (firstn (Z.to_nat n) (view p))) by (rewrite <- Et, firstn_map; unfold len; rewrite map_length; reflexivity).
  destruct A as [(-> & V & Es)|(-> & _)].
  - exists None, p1. split; [reflexivity|]. split; [exact S1|]. split; [left; rewrite V in Et; auto|]. intros _. auto.
  - set (s := firstn (Z.to_nat n) (view p)) in *. assert (Hs : no_crlf s) by (apply no_crlf_first; assumption).
    assert (Ec : clean s = firstn (Z.to_nat n) t) by (rewrite clean_plain by assumption; rewrite <- Et, firstn_map; reflexivity).
    destruct (Z.eqb (len s) n) eqn:El.
    + apply Z.eqb_eq in El. destruct s as [|c0 s0] eqn:Eqs; [unfold len in El; simpl in El; lia|]. rewrite <- Eqs in *.
      destruct (last_is 13 s) eqn:L.
      * pose proof (peek_view 1 p1 ltac:(lia) W1) as HP. destruct (peek 1 p1) as [q p2]. destruct HP as (W2 & V2 & B & _ & _).
        assert (S2 : stands p2 (skipn (Z.to_nat n) t)) by (destruct S1 as (_ & X & Y); split; [exact W2|]; rewrite V2; auto).
        assert (Hq : q <> Some [10%N]).
        { intros ->. destruct B as [([=] & _)|([= B] & _)]. apply rev_last_is in L. destruct L as (u & Eu). rewrite V1 in B.
          destruct (skipn (Z.to_nat n) (view p)) as [|d v] eqn:Ev; [discriminate|]. simpl in B. injection B as <-.
          apply (Hc u v). rewrite <- (firstn_skipn (Z.to_nat n) (view p)), Ev. unfold s in Eu. rewrite Eu. rewrite <- app_assoc. reflexivity. }
        assert (Er : match q with Some t => if str_eqb t [10%N] then Ret (Some (clean (removelast s)), p2) else Ret (Some (clean s), p2) | None => Ret (Some (clean s), p2) end = Ret (Some (clean s), p2)).
        { destruct q as [x|]; [|reflexivity]. destruct (str_eqb x [10%N]) eqn:Ex; [|reflexivity]. apply str_eqb_eq in Ex. subst x. exfalso. apply Hq. reflexivity. }
        exists (Some (clean s)), p2. split; [destruct s; [discriminate|exact Er]|]. split; [exact S2|]. split; [right; rewrite Ec; reflexivity|]. rewrite Elen. lia.
      * exists (Some (clean s)), p1. split; [destruct s; [discriminate|reflexivity]|]. split; [exact S1|]. split; [right; rewrite Ec; reflexivity|]. rewrite Elen. lia.
    + exists (Some (clean s)), p1. split; [reflexivity|]. split; [exact S1|]. split; [right; rewrite Ec; reflexivity|]. intros X. apply E2. unfold s in *. rewrite <- Elen. exact X.
Qed.
Lemma pre_peek1_ok n p t : 0 < n -> stands p t ->
  exists a p1, pre_peek1 n p = (a, p1) /\ stands p1 t /\ ((a = None /\ t = [] /\ seen_eof p = true) \/ (a = Some (firstn (Z.to_nat n) t) /\ ~ (t = [] /\ seen_eof p = true))).
Proof.
  intros Hn (Hw & Hc & Et). unfold pre_peek1. assert (E1 : Z.ltb n 1 = false) by lia. rewrite E1.
  pose proof (peek_view (n + 1) p ltac:(lia) Hw) as HP. destruct (peek (n + 1) p) as [r p1]. destruct HP as (W1 & V1 & A & _ & _).
  assert (S1 : stands p1 t) by (split; [exact W1|]; rewrite V1; auto).
  destruct A as [(-> & V & Es)|(-> & Hne)].
  - exists None, p1. split; [reflexivity|]. split; [exact S1|]. left. rewrite V in Et. auto.
  - assert (Hne' : ~ (t = [] /\ seen_eof p = true)) by (intros (X & Y); apply Hne; split; [subst t; destruct (view p); [reflexivity|discriminate]|assumption]).
    assert (E2 : Z.leb 1 n = true) by lia. rewrite E2. cbn [andb]. set (s := firstn (Z.to_nat (n + 1)) (view p)). assert (Hs : no_crlf s) by (apply no_crlf_first; assumption).
    rewrite ends_crlf_no by assumption. eexists. exists p1. split; [reflexivity|]. split; [exact S1|]. right. split; [|exact Hne'].
    f_equal. rewrite <- Et, firstn_map. assert (Esn : Z.to_nat (n + 1) = S (Z.to_nat n)) by lia. destruct (Z.eqb (len s) (n + 1)) eqn:El.
    + apply Z.eqb_eq in El. unfold s, len in *. rewrite Esn in *. rewrite removelast_firstn. rewrite firstn_length in El.
      assert (X : (length (view p) <=? Z.to_nat n)%nat = false) by (apply Nat.leb_gt; lia). rewrite X. apply clean_plain. apply no_crlf_first. assumption.
    + apply Z.eqb_neq in El. unfold s, len in *. rewrite Esn in *. rewrite firstn_length in El. rewrite !firstn_all2 by lia. apply clean_plain. assumption.
Qed.
Lemma pre_read_ok fuel n p t : (2 <= fuel)%nat -> 0 < n -> stands p t -> exists p1, pre_read fuel n p = Ret (answer n t, p1) /\ stands p1 (skipn (Z.to_nat n) t).
Proof.
  intros Hf Hn HS. destruct (pre_read1_ok n p t Hn HS) as (a & p1 & E & S1 & A & Ee). unfold pre_read. rewrite E. destruct A as [(-> & -> & _)| ->].
  - exists p1. split; [reflexivity|exact S1].
  - assert (E1 : Z.ltb n 1 = false) by lia. rewrite E1. cbn [orb]. destruct (Z.eqb (len (firstn (Z.to_nat n) t)) n) eqn:El.
    + exists p1. split; [|exact S1]. apply Z.eqb_eq in El. unfold answer. rewrite upto_nonneg by lia. destruct t; [|reflexivity]. rewrite firstn_nil in El. unfold len in El. simpl in El. lia.
    + apply Z.eqb_neq in El. destruct t as [|c t'].
      * rewrite firstn_nil. cbn [nonempty negb]. exists p1. split; [reflexivity|exact S1].
      * assert (Hne : nonempty (firstn (Z.to_nat n) (c :: t')) = true) by (destruct (Z.to_nat n) eqn:En; [lia|reflexivity]). rewrite Hne. cbn [negb].
        assert (Hlen : (length (c :: t') <= Z.to_nat n)%nat) by (unfold len in El; rewrite firstn_length in El; lia).
        assert (Hshort : len (c :: t') < n) by (unfold len in *; rewrite firstn_all2 in El by assumption; lia).
        rewrite firstn_all2 in Ee |- * by assumption. specialize (Ee Hshort). rewrite skipn_all2 in S1 |- * by assumption.
        destruct fuel as [|f]; [lia|]. cbn [read_more]. assert (E2 : Z.ltb (len (c :: t')) n = true) by lia. rewrite E2.
        destruct (pre_read1_ok (n - len (c :: t')) p1 [] ltac:(lia) S1) as (a2 & p2 & R2 & S2 & A2 & Ee2). rewrite R2. rewrite skipn_nil in S2. rewrite firstn_nil in *.
        destruct A2 as [(-> & _ & _)| ->].
        -- exists p2. split; [|exact S2]. unfold answer. rewrite upto_nonneg by lia. rewrite firstn_all2 by assumption. reflexivity.
        -- rewrite app_nil_r. destruct f as [|f]; [lia|]. cbn [read_more]. rewrite E2.
           assert (Es2 : seen_eof p2 = true) by (apply Ee2; unfold len in *; simpl in *; lia).
           destruct (pre_read1_ok (n - len (c :: t')) p2 [] ltac:(lia) S2) as (a3 & p3 & R3 & S3 & A3 & Ee3).
           assert (a3 = None).
           { destruct A3 as [(-> & _)| ->]; [reflexivity|]. exfalso. unfold pre_read1 in R3. pose proof (read_view (n - len (c :: t')) p2 ltac:(lia) (proj1 S2)) as HR. destruct (read _ p2) as [r p4]. destruct HR as (_ & _ & B & _).
             assert (V2 : view p2 = []) by (destruct S2 as (_ & _ & X); destruct (view p2); [reflexivity|discriminate]).
             destruct B as [(-> & _)|(_ & B)]; [discriminate R3|]. apply B. auto. }
           subst a3. rewrite R3. rewrite skipn_nil in S3. exists p3. split; [|exact S3]. unfold answer. rewrite upto_nonneg by lia. rewrite firstn_all2 by assumption. reflexivity.
Qed.
Lemma pre_peek_ok fuel n p t : (1 <= fuel)%nat -> 0 < n -> stands p t -> exists p1, pre_peek fuel n p = Ret (answer n t, p1) /\ stands p1 t.
Proof.
  intros Hf Hn HS. destruct (pre_peek1_ok n p t Hn HS) as (a & p1 & E & S1 & A). unfold pre_peek. rewrite E. destruct A as [(-> & -> & _)|(-> & _)].
  - exists p1. split; [reflexivity|exact S1].
  - assert (E1 : Z.ltb n 1 = false) by lia. rewrite E1. cbn [orb]. destruct (Z.eqb (len (firstn (Z.to_nat n) t)) n) eqn:El.
    + exists p1. split; [|exact S1]. apply Z.eqb_eq in El. unfold answer. rewrite upto_nonneg by lia. destruct t; [|reflexivity]. rewrite firstn_nil in El. unfold len in El. simpl in El. lia.
    + apply Z.eqb_neq in El. destruct t as [|c t'].
      * rewrite firstn_nil. cbn [nonempty negb]. exists p1. split; [reflexivity|exact S1].
      * assert (Hne : nonempty (firstn (Z.to_nat n) (c :: t')) = true) by (destruct (Z.to_nat n) eqn:En; [lia|reflexivity]). rewrite Hne. cbn [negb].
        assert (Hlen : (length (c :: t') <= Z.to_nat n)%nat) by (unfold len in El; rewrite firstn_length in El; lia).
        rewrite firstn_all2 in El |- * by assumption. assert (Hshort : len (c :: t') < n) by (unfold len in *; lia).
        destruct fuel as [|f]; [lia|]. cbn [peek_more]. set (w := n + (n - len (c :: t'))). destruct (pre_peek1_ok w p1 (c :: t') ltac:(unfold w; lia) S1) as (a2 & p2 & R2 & S2 & A2). rewrite R2.
        destruct A2 as [(_ & [=] & _)|(-> & _)]. rewrite firstn_all2 by (unfold w, len in *; lia). rewrite Z.eqb_refl, orb_true_r. exists p2. split; [|exact S2].
        unfold answer. rewrite upto_nonneg by lia. rewrite firstn_all2 by assumption. reflexivity.
Qed.
Lemma pre_calls_ideal fuel cs : (2 <= fuel)%nat -> Forall at_least_one cs -> forall p t, stands p t -> pre_calls fuel cs p = Ret (ideal cs t).
Proof.
  intros Hf. induction cs as [|c r IH]; intros Hp p t HS; [reflexivity|]. inversion Hp as [|? ? Hc Hr]. subst. cbn [pre_calls ideal]. destruct c as [n|n]; cbn [at_least_one] in Hc.
  - destruct (pre_read_ok fuel n p t Hf Hc HS) as (p1 & -> & S1). rewrite (IH Hr p1 _ S1). rewrite beyond_nonneg by lia. reflexivity.
  - destruct (pre_peek_ok fuel n p t ltac:(lia) Hc HS) as (p1 & -> & S1). rewrite (IH Hr p1 _ S1). reflexivity.
Qed.
Lemma pre_faithful text cs fuel : no_crlf text -> (2 <= fuel)%nat -> Forall at_least_one cs -> pre_calls fuel cs (open_peekable text) = Ret (ideal cs (map subst1 text)).
Proof. intros Hc Hf Hp. apply pre_calls_ideal; [assumption|assumption|]. apply stands_open. assumption. Qed.

(** reading everything at once *)
Lemma newlines_app_free a b : no_crlf a -> ~ In 13%N a -> newlines (a ++ b) = newlines a ++ newlines b.
Proof.
  intros _. induction a as [|c r IH]; intros H; [reflexivity|]. assert (Hc : N.eqb c 13 = false) by (apply N.eqb_neq; intros ->; apply H; left; reflexivity).
  cbn [app newlines]. rewrite Hc. rewrite IH by (intros X; apply H; right; exact X). destruct (N.eqb c 12); reflexivity.
Qed.
Lemma pre_read_all p : pwf p -> ~ (view p = [] /\ seen_eof p = true) -> exists p1, pre_read 0 (-1) p = Ret (Some (clean (view p)), p1) /\ view p1 = [].
Proof.
  intros Hw Hne. pose proof (read_all_view p Hw) as H. unfold pre_read, pre_read1. destruct (read (-1) p) as [a p1]. destruct H as (_ & V & _ & [(_ & A & B)|(-> & _)]); [exfalso; auto|].
  assert (E : Z.eqb (len (view p)) (-1) = false) by (pose proof (len_nonneg (view p)); lia). rewrite E. exists p1. split; [reflexivity|exact V].
Qed.
Lemma open_read_all text : exists p1, pre_read 0 (-1) (open_peekable text) = Ret (Some (clean text), p1).
Proof.
  destruct (pre_read_all (open_peekable text)) as (p1 & E & _); [intros [=]|intros (_ & [=])|]. exists p1. exact E.
Qed.
