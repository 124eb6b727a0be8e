(** The text of an import (C26). *)
From Verif Require Import Base Graph PyPath PyNorm Css Handlers IconManip IconManipSpec IconManipProofs Nest NestSpec.
From Coq Require Import String ZArith NArith Bool List Lia.
Import ListNotations.
Open Scope list_scope.
Open Scope N_scope.

Lemma strip_spec s : exists a b, blanks a /\ blanks b /\ s = a ++ strip s ++ b /\ stripped (strip s).
Proof.
  unfold strip. destruct (lstrip_spec s) as (a & A & Ea & Na). destruct (lstrip_spec (rev (lstrip s))) as (b & B & Eb & Nb).
  set (m := lstrip (rev (lstrip s))) in *.
  assert (E : lstrip s = rev m ++ rev b) by (rewrite <- (rev_involutive (lstrip s)), Eb, rev_app_distr; reflexivity).
  exists a, (rev b). split; [exact A|]. split; [unfold blanks; apply Forall_rev; exact B|]. split; [rewrite Ea at 1; rewrite E; reflexivity|]. split.
  - intros c r H. apply (Na c (r ++ rev b)). rewrite E, H. reflexivity.
  - intros c r H. apply (Nb c (rev r)). rewrite <- (rev_involutive m), H, rev_app_distr. reflexivity.
Qed.
Lemma strip_unique a b s : blanks a -> blanks b -> stripped s -> strip (a ++ s ++ b) = s.
Proof.
  intros A B [S1 S2]. unfold strip. assert (L : forall w x, blanks w -> lstrip (w ++ x) = lstrip x) by (intros w x W; induction W as [|c w Hc W IH]; cbn [app lstrip]; [reflexivity|rewrite Hc; exact IH]).
  rewrite L by exact A. destruct s as [|c s].
  - cbn [app]. replace (lstrip b) with (@nil N); [reflexivity|]. rewrite <- (app_nil_r b), L by exact B. reflexivity.
  - cbn [app lstrip]. rewrite (S1 c s eq_refl). replace (c :: s ++ b) with ((c :: s) ++ b) by reflexivity. rewrite rev_app_distr, L by (apply Forall_rev; exact B).
    destruct (rev (c :: s)) as [|d r] eqn:E; [apply (f_equal (@length N)) in E; rewrite rev_length in E; discriminate|]. cbn [lstrip].
    assert (X : c :: s = rev r ++ [d]) by (rewrite <- (rev_involutive (c :: s)), E; reflexivity). rewrite (S2 _ _ X), X. cbn [rev]. reflexivity.
Qed.
Lemma strip_stripped s : stripped s -> strip s = s.
Proof. intros S. rewrite <- (app_nil_r s) at 1. apply (strip_unique [] []); [constructor|constructor|exact S]. Qed.
Lemma stripped_nil : stripped []. Proof. split; intros c r H; [discriminate|destruct r; discriminate]. Qed.

Lemma existsb_in c s : existsb (N.eqb c) s = true <-> In c s.
Proof. rewrite existsb_exists. split; [intros (x & I & E); apply N.eqb_eq in E; subst; exact I|intros I; exists c; split; [exact I|apply N.eqb_refl]]. Qed.
Lemma existsb_notin c s : existsb (N.eqb c) s = false <-> ~ In c s.
Proof. rewrite <- existsb_in. destruct (existsb _ _); split; congruence. Qed.

Lemma import_args_iff v a : import_args v = Some a <-> import_comment v a.
Proof.
  unfold import_args, import_comment. rewrite obind_some. split.
  - intros (s1 & H1 & H). apply (after_lstrip_iff 33 []) in H1; [|reflexivity]. destruct H1 as (w1 & W1 & ->).
    apply obind_some in H. destruct H as (s2 & H2 & H). apply (after_lstrip_iff 80 (lit "REPROCESSOR")) in H2; [|reflexivity]. destruct H2 as (w2 & W2 & ->).
    apply obind_some in H. destruct H as (s3 & H3 & H). apply (after_lstrip_iff 58 []) in H3; [|reflexivity]. destruct H3 as (w3 & W3 & ->).
    apply obind_some in H. destruct H as (s4 & H4 & H). apply after_space_iff in H4. destruct H4 as (w4 & W4 & N4 & -> & _).
    apply obind_some in H. destruct H as (s5 & H5 & H). apply after_iff in H5. subst s4. apply obind_some in H. destruct H as (s6 & H6 & H). apply after_space_iff in H6. destruct H6 as (w5 & W5 & N5 & -> & N).
    destruct (existsb (N.eqb 10) (strip s6)) eqn:E; [discriminate|]. injection H as <-. destruct (strip_spec s6) as (x & w6 & X & W6 & E6 & S). split; [exact S|]. split; [apply existsb_notin; exact E|].
    exists w1, w2, w3, w4, (w5 ++ x), w6. repeat (split; [first [assumption|apply Forall_app; split; assumption]|]). split; [destruct w5; [contradiction|discriminate]|].
    rewrite <- app_assoc. rewrite E6 at 1. reflexivity.
  - intros (S & NL & w1 & w2 & w3 & w4 & w5 & w6 & W1 & W2 & W3 & W4 & W5 & W6 & N4 & N5 & ->).
    eexists. split; [apply (after_lstrip_iff 33 []); [reflexivity|]; exists w1; split; [exact W1|reflexivity]|].
    apply obind_some. eexists. split; [apply (after_lstrip_iff 80 (lit "REPROCESSOR")); [reflexivity|]; exists w2; split; [exact W2|reflexivity]|].
    apply obind_some. eexists. split; [apply (after_lstrip_iff 58 []); [reflexivity|]; exists w3; split; [exact W3|reflexivity]|].
    apply obind_some. eexists. split; [apply after_space_iff; exists w4; repeat (split; [eassumption|]); split; [reflexivity|intros c t [= <- _]; reflexivity]|].
    apply obind_some. eexists. split; [apply after_iff; reflexivity|]. apply obind_some.
    assert (R : exists s6 x, after_space (w5 ++ a ++ w6) = Some s6 /\ strip s6 = a /\ x = s6).
    { destruct w5 as [|c w5]; [contradiction|]. inversion W5 as [|? ? C W5' ]; subst. cbn [app]. unfold after_space. rewrite C. eexists. eexists. split; [reflexivity|]. split; [|reflexivity].
      assert (L : lstrip (w5 ++ a ++ w6) = lstrip (a ++ w6)) by (clear - W5'; induction W5' as [|c w Hc W IH]; cbn [app lstrip]; [reflexivity|rewrite Hc; exact IH]). rewrite L.
      destruct (lstrip_spec (a ++ w6)) as (y & Y & E & NS). destruct S as [S1 S2]. destruct a as [|c' a].
      - cbn [app] in *. assert (Z : lstrip w6 = []). { clear - W6. induction W6 as [|c w Hc W IH]; cbn; [reflexivity|rewrite Hc; exact IH]. } rewrite Z. reflexivity.
      - cbn [app lstrip]. rewrite (S1 _ _ eq_refl). exact (strip_unique [] w6 (c' :: a) ltac:(constructor) W6 (conj S1 S2)). }
    destruct R as (s6 & x & R1 & R2 & _). exists s6. split; [exact R1|]. cbn beta. rewrite R2. apply existsb_notin in NL. rewrite NL. reflexivity.
Qed.

Lemma from_word_length w : from_word w -> length w = 4%nat.
Proof. unfold from_word. intros H. apply (f_equal (@length N)) in H. rewrite map_length in H. exact H. Qed.
Lemma cut_from_some s : forall a b, cut_from s = Some (a, b) <-> exists w, s = a ++ w ++ b /\ from_word w /\ forall x y z, a ++ w = x ++ y ++ z -> from_word y -> z = [].
Proof.
  induction s as [|c s IH]; intros a b.
  - split; [discriminate|]. intros (w & E & W & _). apply from_word_length in W. apply (f_equal (@length N)) in E. rewrite !app_length, W in E. cbn in E. lia.
  - cbn [cut_from]. destruct (str_eqb (map lower (firstn 4 (c :: s))) (lit "from")) eqn:E.
    + apply str_eqb_eq in E. split.
      * intros [= <- <-]. exists (firstn 4 (c :: s)). split; [symmetry; apply (firstn_skipn 4 (c :: s))|]. split; [exact E|]. cbn [app]. intros x y z H W. assert (L := from_word_length _ W). apply from_word_length in E. apply (f_equal (@length N)) in H. rewrite E, !app_length, L in H. destruct z; [reflexivity|cbn in H; lia].
      * intros (w & H & W & M). assert (L := from_word_length _ W). assert (A : a = []).
        { destruct a as [|a0 a]; [reflexivity|]. exfalso. assert (LL := from_word_length _ E). 
          assert (X : exists z, (a0 :: a) ++ w = [] ++ firstn 4 (c :: s) ++ z /\ z <> []).
          { exists (skipn 4 ((a0 :: a) ++ w)). split.
            - cbn [app]. rewrite H. replace (firstn 4 ((a0 :: a) ++ w ++ b)) with (firstn 4 ((a0 :: a) ++ w)); [symmetry; apply (firstn_skipn 4)|]. rewrite app_assoc. rewrite (firstn_app 4 ((a0 :: a) ++ w)). replace (4 - length ((a0 :: a) ++ w))%nat with O by (rewrite app_length, L; change (length (a0 :: a)) with (S (length a)); lia). cbn [firstn]. rewrite app_nil_r. reflexivity.
            - intros Z. apply (f_equal (@length N)) in Z. rewrite skipn_length, app_length, L in Z. cbn in Z. lia. }
          destruct X as (z & X & Z). exact (Z (M _ _ _ X E)). }
        subst a. cbn [app] in H. assert (Fw : firstn 4 (c :: s) = w) by (rewrite H, <- L, firstn_app, firstn_all, PeanoNat.Nat.sub_diag; cbn [firstn]; apply app_nil_r).
        assert (Fb : skipn 4 (c :: s) = b) by (rewrite H, <- L, skipn_app, skipn_all, PeanoNat.Nat.sub_diag; reflexivity). rewrite Fb. reflexivity.
    + apply str_eqb_neq in E. assert (NW : forall w t, c :: s = w ++ t -> ~ from_word w). { intros w t H W. apply E. assert (L := from_word_length _ W). rewrite H, <- L, firstn_app, firstn_all, PeanoNat.Nat.sub_diag. cbn [firstn]. rewrite app_nil_r. exact W. }
      split.
      * destruct (cut_from s) as [[a' b']|] eqn:C; [|discriminate]. intros [= <- <-]. destruct (proj1 (IH a' b') eq_refl) as (w & H & W & M). exists w. split; [rewrite H; reflexivity|]. split; [exact W|]. intros x y z X Y. destruct x as [|x0 x].
        -- exfalso. apply (NW y (z ++ b')); [|exact Y]. rewrite H. cbn [app] in X. rewrite !app_assoc. rewrite <- X. cbn [app]. rewrite <- app_assoc. reflexivity.
        -- cbn [app] in X. injection X as _ X. exact (M _ _ _ X Y).
      * intros (w & H & W & M). destruct a as [|a0 a]; [exfalso; exact (NW w b H W)|]. cbn [app] in H. injection H as -> H. destruct (IH a b) as [_ IH2]. rewrite IH2; [reflexivity|]. exists w. split; [exact H|]. split; [exact W|]. intros x y z X Y. apply (M (a0 :: x) y z); [cbn [app]; rewrite X; reflexivity|exact Y].
Qed.
Lemma cut_from_none s : cut_from s = None <-> without_from s.
Proof.
  split.
  - intros H a w b E W. revert a E. induction s as [|c s IH]; intros a E.
    + apply from_word_length in W. apply (f_equal (@length N)) in E. rewrite !app_length, W in E. cbn in E. lia.
    + cbn [cut_from] in H. destruct (str_eqb (map lower (firstn 4 (c :: s))) (lit "from")) eqn:Q; [discriminate|]. apply str_eqb_neq in Q. destruct (cut_from s) as [[? ?]|] eqn:C; [discriminate|].
      destruct a as [|a0 a]; [|injection E as _ E; exact (IH eq_refl a E)]. apply Q. assert (L := from_word_length _ W). rewrite E, <- L. cbn [app]. rewrite firstn_app, firstn_all, PeanoNat.Nat.sub_diag. cbn [firstn]. rewrite app_nil_r. exact W.
  - intros H. destruct (cut_from s) as [[a b]|] eqn:C; [|reflexivity]. apply cut_from_some in C. destruct C as (w & E & W & _). exfalso. exact (H _ _ _ E W).
Qed.

Section Import.
Context {F : Type}.
Notation token := (token (F := F)).
(** the token asks for the rule [r] *)

Lemma blank_end x b : stripped (x ++ b) -> blanks b -> b = [].
Proof.
  intros [_ S] B. destruct b as [|b0 b]; [reflexivity|]. destruct (@exists_last _ (b0 :: b)) as [l [z Z]]; [discriminate|]. rewrite Z in *. unfold blanks in B. apply Forall_app in B. destruct B as [_ B]. inversion B as [|? ? B3 _]; subst.
  rewrite (S z (x ++ l)) in B3; [discriminate|apply app_assoc].
Qed.
Theorem get_import_iff default_css (t : token) r : get_import default_css t = Some r <-> import default_css t r.
Proof.
  unfold import. split.
  - destruct t; try discriminate. cbn [get_import]. destruct (import_args v) as [args|] eqn:A; [|discriminate]. apply import_args_iff in A. destruct (cut_from args) as [[a b]|] eqn:C.
    + apply cut_from_some in C. destruct C as (w & E & W & M). destruct (negb (starts_with (lit "/") (strip b)) || existsb (N.eqb 32) (strip b)) eqn:Q; [discriminate|]. apply orb_false_iff in Q. destruct Q as [Q1 Q2]. apply negb_false_iff in Q1. apply starts_with_iff in Q1. destruct Q1 as [path P]. intros [= <-].
      exists v. split; [reflexivity|]. destruct (strip_spec b) as (b1 & b2 & B1 & B2 & Eb & Sb). destruct (strip_spec a) as (a1 & a2 & A1 & A2 & Ea & Sa).
      pose proof (proj1 A) as SA.
      assert (Z2 : b2 = []) by (apply (blank_end (a ++ w ++ b1 ++ strip b)); [|exact B2]; rewrite <- !app_assoc, <- Eb, <- E; exact SA).
      assert (Z1 : a1 = []).
      { destruct A1 as [|z a1 Hz A1]; [reflexivity|]. exfalso. destruct SA as [SA _]. rewrite (SA z (a1 ++ strip a ++ a2 ++ w ++ b)) in Hz; [discriminate|]. rewrite E, Ea at 1. cbn [app]. rewrite <- !app_assoc. reflexivity. }
      subst a1 b2. cbn [app] in Ea. rewrite app_nil_r in Eb. rewrite P. cbn [tl app]. apply (AsksFrom _ _ (strip a) a2 w b1 path).
      * rewrite <- P, <- Eb, (app_assoc (strip a)), <- Ea, <- E. exact A.
      * exact Sa.
      * exact A2.
      * exact W.
      * exact B1.
      * rewrite P in Q2. apply existsb_notin in Q2. intros I. apply Q2. right. exact I.
      * rewrite app_assoc, <- Ea. exact M.
    + apply cut_from_none in C. intros [= <-]. exists v. split; [reflexivity|]. rewrite strip_stripped by (exact (proj1 A)). apply AsksDefault; assumption.
  - intros (v & -> & H). cbn [get_import]. inversion H as [v' sel A WF|v' sel w1 from w2 path A S W1 FW W2 NS M]; subst.
    + apply import_args_iff in A. rewrite A. apply cut_from_none in WF. rewrite WF. apply import_args_iff in A. rewrite strip_stripped by (exact (proj1 A)). reflexivity.
    + pose proof (proj1 A) as SA. apply import_args_iff in A. rewrite A. assert (C : cut_from (sel ++ w1 ++ from ++ w2 ++ lit "/" ++ path) = Some (sel ++ w1, w2 ++ lit "/" ++ path)).
      { apply cut_from_some. exists from. split; [rewrite <- !app_assoc; reflexivity|]. split; [exact FW|]. rewrite <- app_assoc. exact M. }
      rewrite C. assert (SP : stripped (lit "/" ++ path)).
      { split; [intros c r [= <- _]; reflexivity|]. intros c r E. apply (proj2 SA c (sel ++ w1 ++ from ++ w2 ++ r)). rewrite E. rewrite <- !app_assoc. reflexivity. }
      assert (S2 : strip (w2 ++ lit "/" ++ path) = lit "/" ++ path) by (rewrite <- (app_nil_r (lit "/" ++ path)) at 1; apply strip_unique; [exact W2|constructor|exact SP]). rewrite S2.
      assert (Q : existsb (N.eqb 32) (lit "/" ++ path) = false) by (apply existsb_notin; intros [I|I]; [discriminate|exact (NS I)]). rewrite Q.
      change (starts_with (lit "/") (lit "/" ++ path)) with true. cbn [negb orb]. assert (S1 : strip (sel ++ w1) = sel) by (apply (strip_unique [] w1 sel); [constructor|exact W1|exact S]). rewrite S1. reflexivity.
Qed.
End Import.
