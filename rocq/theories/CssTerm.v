From Verif Require Import Base Graph PyStr Json Css CssSpec CssSound.
From Coq Require Import List NArith ZArith Bool Lia ZifyN ZifyBool.
Import ListNotations.
Open Scope list_scope.
Open Scope N_scope.

Section Term.
Context {F : Type} (float_of : str -> option F).
Context (high_digit : N -> bool) (int_high : str -> option Z).
Notation denotes := (denotes float_of high_digit int_high).
Notation numeral := (numeral float_of high_digit int_high).
Notation number := (number float_of high_digit int_high).
Notation next_token := (next_token float_of high_digit int_high).
Notation tokens := (tokens float_of high_digit int_high).
Notation ident_like := (@Css.ident_like F).
Definition py (e : exn) : Prop := e = TypeError \/ e = ValueError.

Lemma ident_sequence_py s e : ident_sequence s = Raise e -> py e.
Proof. destruct s as [|a [|b [|c r]]]; cbn; intros [= <-]. left. reflexivity. Qed.
Lemma to_int_py p r e : @to_int F int_high p r = Raise e -> py e.
Proof. unfold to_int. destruct (int_of int_high p); [discriminate|]. intros [= <-]. right. reflexivity. Qed.
Lemma to_float_py p r e : to_float float_of p r = Raise e -> py e.
Proof. unfold to_float. destruct (float_of p); [discriminate|]. intros [= <-]. right. reflexivity. Qed.
Lemma exponent_py p b s e : exponent float_of high_digit int_high p b s = Raise e -> py e.
Proof.
  unfold exponent. destruct s as [|a [|c r]]; [apply to_float_py|apply to_float_py|]. match goal with |- (if ?x then _ else _) = _ -> _ => destruct x end; [destruct (span _ r); apply to_float_py|].
  destruct b; [apply to_float_py|apply to_int_py].
Qed.
Lemma number_py s e : number s = Raise e -> py e.
Proof.
  unfold Css.number. destruct s as [|c s']; [intros [= <-]; left; reflexivity|]. destruct (sign_digits high_digit (c :: s')) as [p s1]. destruct s1 as [|a [|b r]].
  - destruct p as [|x [|y p]]; [intros [= <-]; left; reflexivity| |apply to_int_py]. destruct (_ || _); [intros [= <-]; left; reflexivity|apply to_int_py].
  - apply to_int_py.
  - destruct (_ && _); [|apply exponent_py]. destruct (span _ r) as [ds s2]. destruct s2; [apply to_float_py|apply exponent_py].
Qed.
Lemma numeric_token_py fuel s e : numeric_start high_digit s -> (length s < fuel)%nat -> numeric_token float_of high_digit int_high fuel s = Raise e -> py e.
Proof.
  intros HN Hl. unfold numeric_token. destruct (number s) as [[[v f] rest]|e'] eqn:E; [|intros [= <-]; exact (number_py _ _ E)].
  destruct (number_spec float_of high_digit int_high _ _ _ _ HN E) as (p & Eq & _ & _). destruct (ident_sequence rest) as [[|]|e'] eqn:Ei; [|destruct rest as [|c r]; [discriminate|destruct (c =? 37); discriminate]|intros [= <-]; exact (ident_sequence_py _ _ Ei)].
  destruct (ident_seq_total high_digit fuel rest) as (u & r2 & ->); [apply (f_equal (@length N)) in Eq; rewrite app_length in Eq; lia|discriminate].
Qed.
Lemma bad_url_rest_py fuel : forall s e, (length s < fuel)%nat -> bad_url_rest fuel s = Raise e -> py e.
Proof.
  induction fuel as [|k IH]; intros s e Hl H; [lia|]. cbn [bad_url_rest] in H. destruct s as [|c s']; [discriminate|]. simpl in Hl. destruct (c =? 41); [discriminate|].
  destruct s' as [|d s'']; [injection H as <-; left; reflexivity|]. destruct (valid_escape [c; d]); [|apply (IH (d :: s'')); [lia|exact H]].
  destruct (escaped (d :: s'')) as [x r] eqn:Ee. cbn [snd] in H. destruct (escaped_cons _ _ _ _ Ee) as (p & Eq & _ & _). apply (IH r); [|exact H]. apply (f_equal (@length N)) in Eq. rewrite app_length in Eq. lia.
Qed.
Lemma url_body_py fuel : forall s e, (S (length s) < fuel)%nat -> url_body fuel s = Raise e -> py e.
Proof.
  induction fuel as [|k IH]; intros s e Hl H; [lia|]. cbn [url_body] in H. destruct s as [|c s']; [discriminate|]. simpl in Hl. destruct (c =? 41); [discriminate|].
  destruct (is_space c); [apply (IH s'); [lia|exact H]|]. destruct (_ || non_printable c).
  - destruct (bad_url_rest k (c :: s')) eqn:Eb; [discriminate|]. injection H as <-. eapply bad_url_rest_py; [|exact Eb]. simpl. lia.
  - destruct ((c =? 92) && valid_escape (c :: s')) eqn:E.
    + apply andb_prop in E. destruct E as (_ & E). destruct (valid_escape_spec _ E) as (d & t & X & _). injection X as -> ->. destruct (escaped (d :: t)) as [x r] eqn:Ee. destruct (escaped_cons _ _ _ _ Ee) as (p & Eq & _ & _).
      destruct (url_body k r) as [[[v|] rest]|] eqn:Eu; try discriminate. injection H as <-. apply (IH r); [|exact Eu]. apply (f_equal (@length N)) in Eq. rewrite app_length in Eq. simpl in *. lia.
    + destruct (url_body k s') as [[[v|] rest]|] eqn:Eu; try discriminate. injection H as <-. apply (IH s'); [lia|exact Eu].
Qed.
Lemma url_space_length s : (length (url_space s) <= length s)%nat.
Proof. destruct (url_space_spec s) as (w & E & _). apply (f_equal (@length N)) in E. rewrite app_length in E. lia. Qed.
Lemma ident_like_py fuel s e : (length s < fuel)%nat -> ident_like high_digit fuel s = Raise e -> py e.
Proof.
  intros Hl. unfold Css.ident_like. destruct (ident_seq_total high_digit fuel s Hl) as (v & rest & E). rewrite E. destruct (ident_seq_spec _ _ _ _ _ E) as (p & Eq & A). destruct rest as [|c r]; [discriminate|]. destruct (c =? 40); [|discriminate].
  destruct (is_url_name v) eqn:Eu; [|discriminate]. pose proof (url_space_length r) as Hs. destruct (url_space r) as [|a t] eqn:Er; [discriminate|]. destruct (_ || _); [discriminate|].
  destruct (url_body fuel (a :: t)) as [[[u|] rest2]|e'] eqn:Eb; try discriminate. intros [= <-]. eapply url_body_py; [|exact Eb].
  assert (Hp : p <> []). { intros ->. inversion A. subst v. discriminate. } apply (f_equal (@length N)) in Eq. rewrite app_length in Eq. destruct p; [congruence|]. simpl in *. lia.
Qed.
Lemma next_token_py fuel c r e : (S (length r) < fuel)%nat -> next_token fuel c r = Raise e -> py e.
Proof.
  intros Hl. unfold Css.next_token.
  destruct (_ && match r with d :: _ => d =? 42 | [] => false end); [destruct (comment_body (tl r)) as [[v rest]|]; discriminate|].
  destruct (is_space c); [destruct (span is_space (c :: r)); discriminate|].
  assert (HS : forall q, string_token (F := F) fuel q r = Raise e -> py e) by (intros q; unfold string_token; destruct (string_body_total q fuel r ltac:(lia)) as (b & v & rest & ->); discriminate).
  destruct (c =? 34); [apply HS|]. destruct (c =? 35).
  { destruct r as [|d r']; [intros [= <-]; left; reflexivity|]. destruct (_ || _); [|discriminate]. destruct (ident_sequence (d :: r')) as [i|e'] eqn:Ei; [|intros [= <-]; exact (ident_sequence_py _ _ Ei)].
    destruct (ident_seq_total high_digit fuel (d :: r') ltac:(simpl in *; lia)) as (v & rest & ->). discriminate. }
  destruct (c =? 39); [apply HS|]. destruct (c =? 40); [discriminate|]. destruct (c =? 41); [discriminate|].
  assert (HN : is_number high_digit (c :: r) = true -> numeric_token float_of high_digit int_high fuel (c :: r) = Raise e -> py e) by (intros X; apply numeric_token_py; [left; exact X|simpl; lia]).
  destruct (c =? 43); [destruct (is_number high_digit (c :: r)) eqn:En; [apply HN; reflexivity|discriminate]|]. destruct (c =? 44); [discriminate|].
  destruct (c =? 45). { destruct (is_number high_digit (c :: r)) eqn:En; [apply HN; reflexivity|]. destruct (starts_with _ _); [discriminate|].
    destruct (ident_sequence (c :: r)) as [[|]|e'] eqn:Ei; [apply ident_like_py; simpl; lia|discriminate|intros [= <-]; exact (ident_sequence_py _ _ Ei)]. }
  destruct (c =? 46); [destruct (is_number high_digit (c :: r)) eqn:En; [apply HN; reflexivity|discriminate]|]. destruct (c =? 58); [discriminate|]. destruct (c =? 59); [discriminate|].
  destruct (c =? 60); [destruct (starts_with _ _); discriminate|]. destruct (c =? 64).
  { destruct (ident_sequence r) as [[|]|e'] eqn:Ei; [|discriminate|intros [= <-]; exact (ident_sequence_py _ _ Ei)]. destruct (ident_seq_total high_digit fuel r ltac:(lia)) as (v & rest & ->). discriminate. }
  destruct (c =? 91); [discriminate|]. destruct (c =? 92); [destruct (valid_escape (c :: r)); [apply ident_like_py; simpl; lia|discriminate]|]. destruct (c =? 93); [discriminate|]. destruct (c =? 123); [discriminate|]. destruct (c =? 125); [discriminate|].
  destruct (is_dec high_digit c) eqn:Ed; [apply numeric_token_py; [right; eauto|simpl; lia]|]. destruct (ident_start c); [apply ident_like_py; simpl; lia|discriminate].
Qed.
Lemma denotes_not_eof t p rest : denotes t p rest -> t <> TEof.
Proof. destruct 1; discriminate. Qed.
(** ** C21 *)
Lemma tokens_end fuel : forall s ts o, (S (length s) < fuel)%nat -> tokens fuel s = (ts, o) ->
  (length ts <= S (length s))%nat /\
  match o with
  | None => exists l, ts = l ++ [TEof] /\ ~ In TEof l
  | Some e => py e /\ ~ In TEof ts
  end.
Proof.
  induction fuel as [|k IH]; intros s ts o Hl H; [lia|]. cbn [Css.tokens] in H. destruct s as [|c r]; [injection H as <- <-; split; [simpl; lia|]; exists []; split; [reflexivity|intros []]|].
  destruct (next_token (S k) c r) as [[t rest]|e] eqn:E.
  - destruct (tokens k rest) as [l o'] eqn:El. injection H as <- <-. destruct (next_token_sound _ _ _ _ _ _ _ _ E) as (p & _ & _ & D). apply denotes_not_eof in D.
    pose proof (next_token_progress _ _ _ _ _ _ _ _ E) as P. simpl in Hl. destruct (IH rest l o' ltac:(lia) El) as (A & B). split; [simpl; lia|]. destruct o' as [e|].
    + destruct B as (B1 & B2). split; [exact B1|]. intros [X|X]; [congruence|contradiction].
    + destruct B as (l' & -> & B). exists (t :: l'). split; [reflexivity|]. intros [X|X]; [congruence|contradiction].
  - injection H as <- <-. split; [simpl; lia|]. split; [eapply next_token_py; [|exact E]; simpl in Hl; lia|intros []].
Qed.
Lemma tokenize_end s ts o : tokenize float_of high_digit int_high s = (ts, o) ->
  (length ts <= S (length s))%nat /\
  match o with
  | None => exists l, ts = l ++ [TEof] /\ ~ In TEof l
  | Some e => (e = TypeError \/ e = ValueError) /\ ~ In TEof ts
  end.
Proof. intros H. apply (tokens_end (2 + length s) s ts o); [lia|exact H]. Qed.

(** * Tidy texts raise nothing *)
Hypothesis float_ok : forall p, float_text p -> float_of p <> None.
Lemma tidy_suffix p s : tidy high_digit (p ++ s) -> tidy high_digit s.
Proof.
  intros (A & B & C & D). split; [|split; [intros X; apply B; apply in_or_app; auto|split]].
  - destruct s as [|c s'] using rev_ind; [left; reflexivity|]. right. destruct A as [A|(a & A)]; [apply app_eq_nil in A; destruct A as (_ & A); apply app_eq_nil in A; destruct A; discriminate|].
    rewrite app_assoc in A. apply app_inj_tail in A. destruct A as (_ & ->). eauto.
  - intros a b E. apply (C (p ++ a) b). rewrite E, app_assoc. reflexivity.
  - intros c Hc. apply D. apply in_or_app. auto.
Qed.
Lemma tidy_dec s c : tidy high_digit s -> In c s -> is_dec high_digit c = true -> digit c.
Proof. intros (_ & _ & _ & D) Hc H. unfold is_dec in H. destruct (c <? 128) eqn:E; [apply json_digit_iff; exact H|]. rewrite (D c Hc) in H by lia. discriminate. Qed.
Lemma parse_N_total ds : ds <> [] -> Forall digit ds -> exists n, parse_N ds = Some n.
Proof.
  intros Hne H. unfold parse_N. destruct ds as [|c ds]; [congruence|]. clear Hne. revert H. generalize (c :: ds). intros l H. generalize 0. induction l as [|x l IH]; intros m; [exists m; reflexivity|].
  inversion H as [|? ? Hx Hl]. subst. cbn [fold_left]. apply json_digit_iff in Hx. rewrite Hx. apply IH. exact Hl.
Qed.
Lemma to_int_total sg ds rest : sign sg -> ds <> [] -> Forall digit ds -> exists v, @to_int F int_high (sg ++ ds) rest = Ret (v, false, rest).
Proof.
  intros Hs Hne Hd. destruct (parse_N_total ds Hne Hd) as (n & Hn). unfold to_int, int_of.
  assert (Ha : is_ascii (sg ++ ds) = true). { unfold is_ascii. rewrite forallb_app. apply andb_true_intro. split; [destruct Hs as [->|[->| ->]]; reflexivity|]. apply forallb_forall. intros c Hc. rewrite Forall_forall in Hd. specialize (Hd c Hc). unfold digit in Hd. lia. }
  rewrite Ha. destruct ds as [|c ds']; [congruence|]. inversion Hd as [|? ? Hc _]. subst. unfold digit in Hc.
  destruct Hs as [->|[->| ->]]; cbn [app].
  - assert (E1 : (c =? 43) = false) by lia. rewrite E1. unfold parse_Z. assert (E2 : (c =? c_minus) = false) by (unfold c_minus; lia). rewrite E2, Hn. eauto.
  - change (43 =? 43) with true. cbv iota. rewrite Hn. eauto.
  - change (45 =? 43) with false. cbv iota. unfold parse_Z. change (45 =? c_minus) with true. cbv iota. rewrite Hn. eauto.
Qed.
Lemma to_float_total p rest : float_text p -> exists v, to_float float_of p rest = Ret (v, true, rest).
Proof. intros H. unfold to_float. pose proof (float_ok p H). destruct (float_of p); [eauto|congruence]. Qed.
Lemma decs_tidy s ds : tidy high_digit s -> (forall c, In c ds -> In c s) -> Forall (fun c => is_dec high_digit c = true) ds -> Forall digit ds.
Proof. intros HT Hin H. apply Forall_forall. intros c Hc. rewrite Forall_forall in H. eapply tidy_dec; eauto. Qed.
Lemma exponent_total sg ds fr frac s : tidy high_digit s -> sign sg -> Forall digit ds ->
  (frac = false /\ fr = [] /\ ds <> [] \/ frac = true /\ exists fs, fr = 46 :: fs /\ fs <> [] /\ Forall digit fs) -> (frac = true \/ (2 <= length s)%nat) ->
  exists x, exponent float_of high_digit int_high (sg ++ ds ++ fr) frac s = Ret x.
Proof.
  intros HT Hs Hd Hf Hl. assert (Hf' : fr = [] /\ ds <> [] \/ exists fs, fr = 46 :: fs /\ fs <> [] /\ Forall digit fs) by tauto.
  assert (HF : frac = true -> float_text (sg ++ ds ++ fr)) by (intros _; exists sg, ds, fr, []; rewrite !app_nil_r; auto 7).
  unfold exponent. destruct s as [|a [|b r]].
  - destruct Hl as [->|X]; [|simpl in X; lia]. destruct (to_float_total _ [] (HF eq_refl)) as (v & ->). eauto.
  - destruct Hl as [->|X]; [|simpl in X; lia]. destruct (to_float_total _ [a] (HF eq_refl)) as (v & ->). eauto.
  - match goal with |- context [if ?c then _ else _] => destruct c eqn:Ec end.
    + destruct (span (is_dec high_digit) r) as [es rest] eqn:Es. destruct (span_spec _ _ _ _ Es) as (-> & A & B). apply andb_prop in Ec. destruct Ec as (Ea & Eb). apply orb_prop in Eb. assert (Ha : a = 101 \/ a = 69) by lia.
      assert (Ad : Forall digit es) by (eapply decs_tidy; [exact HT| |exact A]; intros c Hc; right; right; apply in_or_app; auto).
      assert (Hex : exists esg es', b :: es = esg ++ es' /\ sign esg /\ es' <> [] /\ Forall digit es').
      { destruct Eb as [Eb|Eb].
        - exists [], (b :: es). split; [reflexivity|]. split; [left; reflexivity|]. split; [discriminate|]. constructor; [eapply tidy_dec; [exact HT|right; left; reflexivity|exact Eb]|exact Ad].
        - apply andb_prop in Eb. destruct Eb as (Eb & Ec). exists [b], es. split; [reflexivity|]. split; [right; assert (b = 43 \/ b = 45) as [->| ->] by lia; auto|].
          split; [|exact Ad]. destruct es; [|discriminate]. cbn [app] in Ec. destruct rest as [|c rest']; [discriminate|]. congruence. }
      destruct Hex as (esg & es' & Hbe & Hsg & Hes & Hds). rewrite Hbe. destruct (to_float_total ((sg ++ ds ++ fr) ++ a :: esg ++ es') rest) as (v & ->); [|eauto].
      exists sg, ds, fr, (a :: esg ++ es'). rewrite <- !app_assoc. split; [reflexivity|]. split; [assumption|]. split; [assumption|]. split; [assumption|]. right. exists a, esg, es'. auto.
    + destruct frac; [destruct (to_float_total _ (a :: b :: r) (HF eq_refl)) as (v & ->); eauto|]. destruct Hf as [(_ & -> & Hne)|(X & _)]; [|discriminate]. rewrite app_nil_r. destruct (to_int_total sg ds (a :: b :: r) Hs Hne Hd) as (v & ->). eauto.
Qed.
Lemma number_total s : numeric_start high_digit s -> tidy high_digit s -> exists v f r, number s = Ret (v, f, r).
Proof.
  intros HN HT. unfold Css.number. destruct s as [|c0 s0] eqn:Es; [destruct HN as [X|(c & r & X & _)]; discriminate|]. rewrite <- Es in *.
  destruct (sign_digits high_digit s) as [repr s1] eqn:Esd. destruct (sign_digits_spec _ _ _ _ Esd) as (Eq & sg & ds & Er & Hsg & Hds & Hb).
  assert (Hd : Forall digit ds) by (eapply decs_tidy; [exact HT| |exact Hds]; intros c Hc; rewrite Eq, Er; apply in_or_app; left; apply in_or_app; auto).
  assert (HT1 : tidy high_digit s1) by (apply (tidy_suffix repr); rewrite <- Eq; exact HT).
  assert (HF : ds = [] -> exists b rr, s1 = 46 :: b :: rr /\ is_dec high_digit b = true).
  { intros ->. rewrite app_nil_r in Er. subst repr.
    assert (Hdot : is_dec high_digit 43 = false /\ is_dec high_digit 45 = false /\ is_dec high_digit 46 = false) by (repeat split; reflexivity). destruct Hdot as (D1 & D2 & D3).
    destruct HN as [HN|(c & t & X & Hc)].
    - destruct s as [|a [|b [|c t]]]; try discriminate. cbn [is_number] in HN. destruct Hsg as [->|[->| ->]]; cbn [app] in Eq.
      + subst s1. destruct ((a =? 43) || (a =? 45)) eqn:Ea.
        * exfalso. unfold sign_digits in Esd. rewrite Ea in Esd. destruct (span (is_dec high_digit) (b :: c :: t)). discriminate.
        * destruct (a =? 46) eqn:Ea2; [|congruence]. apply N.eqb_eq in Ea2. subst a. exists b, (c :: t). auto.
      + injection Eq as -> <-. change ((43 =? 43) || (43 =? 45)) with true in HN. cbv iota in HN. apply orb_prop in HN. destruct HN as [HN|HN]; [congruence|]. apply andb_prop in HN. destruct HN as (E1 & E2). apply N.eqb_eq in E1. subst b. eauto.
      + injection Eq as -> <-. change ((45 =? 43) || (45 =? 45)) with true in HN. cbv iota in HN. apply orb_prop in HN. destruct HN as [HN|HN]; [congruence|]. apply andb_prop in HN. destruct HN as (E1 & E2). apply N.eqb_eq in E1. subst b. eauto.
    - exfalso. rewrite X in Eq. destruct Hsg as [->|[->| ->]]; cbn [app] in Eq; [|injection Eq as -> _; congruence|injection Eq as -> _; congruence].
      destruct s1 as [|c' s1']; [discriminate|]. injection Eq as -> _. congruence. }
  destruct s1 as [|a [|b rr]].
  - assert (Hne : ds <> []) by (intros X; destruct (HF X) as (? & ? & ? & _); discriminate). destruct (to_int_total sg ds [] Hsg Hne Hd) as (v & Ev). subst repr.
    assert (Hx : exists c t, ds = c :: t /\ digit c) by (destruct ds as [|c t]; [congruence|]; inversion Hd; subst; eauto). destruct Hx as (c & t & -> & Hc). unfold digit in Hc.
    destruct Hsg as [->|[->| ->]]; cbn [app] in *; [|eauto|eauto]. destruct t; [|eauto]. assert (E1 : ((c =? 43) || (c =? 45)) = false) by lia. rewrite E1. eauto.
  - assert (Hne : ds <> []) by (intros X; destruct (HF X) as (? & ? & ? & _); discriminate). destruct (to_int_total sg ds [a] Hsg Hne Hd) as (v & Ev). subst repr. eauto.
  - destruct ((a =? 46) && is_dec high_digit b) eqn:Ea.
    + apply andb_prop in Ea. destruct Ea as (Ea & Eb). apply N.eqb_eq in Ea. subst a. destruct (span (is_dec high_digit) rr) as [fs s2] eqn:Ef. destruct (span_spec _ _ _ _ Ef) as (-> & A & B).
      assert (Hfs : Forall digit (b :: fs)). { constructor; [eapply tidy_dec; [exact HT1|right; left; reflexivity|exact Eb]|]. eapply decs_tidy; [exact HT1| |exact A]. intros c Hc. right. right. apply in_or_app. auto. }
      assert (HT2 : tidy high_digit s2) by (apply (tidy_suffix (46 :: b :: fs)); exact HT1).
      assert (Hrepr : repr ++ 46 :: b :: fs = sg ++ ds ++ (46 :: b :: fs)) by (rewrite Er, <- app_assoc; reflexivity). rewrite Hrepr. destruct s2 as [|d s2'].
      * destruct (to_float_total (sg ++ ds ++ 46 :: b :: fs) []) as (v & ->); [|eauto]. exists sg, ds, (46 :: b :: fs), []. rewrite !app_nil_r. split; [reflexivity|]. split; [assumption|]. split; [assumption|]. split; [|auto]. right. exists (b :: fs). split; [reflexivity|]. split; [discriminate|exact Hfs].
      * destruct (exponent_total sg ds (46 :: b :: fs) true (d :: s2') HT2 Hsg Hd) as ([[v f] r] & E); [right; split; [reflexivity|]; exists (b :: fs); split; [reflexivity|]; split; [discriminate|exact Hfs]|left; reflexivity|]. rewrite E. eauto.
    + assert (Hne : ds <> []). { intros X. destruct (HF X) as (b' & rr' & Y & Hb'). injection Y as -> -> ->. rewrite Hb' in Ea. discriminate. }
      destruct (exponent_total sg ds [] false (a :: b :: rr) HT1 Hsg Hd) as ([[v f] r] & E); [left; auto|right; simpl; lia|]. rewrite app_nil_r in E. rewrite Er, E. eauto.
Qed.
Lemma dec_not_newline c : dec high_digit c -> c <> 10.
Proof. intros [H|(H & _)]; [unfold digit in H; lia|lia]. Qed.
Lemma digits_no_newline ds : digits high_digit ds -> ~ In 10 ds.
Proof. intros H X. unfold digits in H. rewrite Forall_forall in H. exact (dec_not_newline _ (H _ X) eq_refl). Qed.
Lemma dec_reads_digits ds n : dec_reads ds n -> Forall digit ds.
Proof. induction 1; [constructor|]. apply Forall_app. split; [assumption|]. constructor; [assumption|constructor]. Qed.
Lemma sign_no_newline sg : sign sg -> ~ In 10 sg.
Proof. intros [->|[->| ->]]; cbn; intros X; intuition discriminate. Qed.
Lemma numeral_no_newline p v f : numeral p v f -> ~ In 10 p.
Proof.
  destruct 1 as [sg ds n Hs Hne Hd|sg ds z Hs Hne Hd _ _|sg ds fr ex x Hs Hd Hf He _ _]; intros X; apply in_app_or in X.
  - destruct X as [X|X]; [exact (sign_no_newline _ Hs X)|]. apply dec_reads_digits in Hd. rewrite Forall_forall in Hd. specialize (Hd _ X). unfold digit in Hd. lia.
  - destruct X as [X|X]; [exact (sign_no_newline _ Hs X)|exact (digits_no_newline _ Hd X)].
  - destruct X as [X|X]; [exact (sign_no_newline _ Hs X)|]. apply in_app_or in X. destruct X as [X|X]; [exact (digits_no_newline _ Hd X)|]. apply in_app_or in X. destruct X as [X|X].
    + destruct Hf as [(-> & _)|(fs & -> & _ & Hfs)]; [exact X|]. destruct X as [X|X]; [discriminate|exact (digits_no_newline _ Hfs X)].
    + destruct He as [->|(e & esg & es & -> & Ha & Hsg & _ & Hes)]; [exact X|]. destruct X as [X|X]; [destruct Ha; subst; discriminate|]. apply in_app_or in X. destruct X as [X|X]; [exact (sign_no_newline _ Hsg X)|exact (digits_no_newline _ Hes X)].
Qed.
Lemma tidy_tail p rest : tidy high_digit (p ++ rest) -> p <> [] -> ~ In 10 p -> rest <> [].
Proof.
  intros (A & _) Hp Hn ->. rewrite app_nil_r in A. destruct A as [A|(a & ->)]; [contradiction|]. apply Hn. apply in_or_app. right. left. reflexivity.
Qed.
Lemma ident_sequence_total s : s <> [] -> exists b, ident_sequence s = Ret b.
Proof. destruct s as [|a [|b [|c r]]]; [congruence| | |]; intros _; cbn [ident_sequence]; eauto. Qed.
Lemma numeric_token_total fuel s : numeric_start high_digit s -> tidy high_digit s -> (length s < fuel)%nat -> exists t r, numeric_token float_of high_digit int_high fuel s = Ret (t, r).
Proof.
  intros HN HT Hl. destruct (number_total s HN HT) as (v & f & rest & E). unfold numeric_token. rewrite E. destruct (number_spec float_of high_digit int_high _ _ _ _ HN E) as (p & Eq & Hp & N). subst s.
  pose proof (tidy_tail p rest HT Hp (numeral_no_newline _ _ _ N)) as Hr. destruct (ident_sequence_total rest Hr) as ([|] & ->).
  - destruct (ident_seq_total high_digit fuel rest) as (u & r2 & ->); [rewrite app_length in Hl; lia|]. eauto.
  - destruct rest as [|c r]; [eauto|]. destruct (c =? 37); eauto.
Qed.
Lemma bad_url_rest_total fuel : forall s, (length s < fuel)%nat -> ~ In 92 s -> In 41 s -> exists r, bad_url_rest fuel s = Ret r.
Proof.
  induction fuel as [|k IH]; intros s Hl Hb Hp; [lia|]. cbn [bad_url_rest]. destruct s as [|c s']; [eauto|]. destruct (c =? 41) eqn:E; [eauto|]. apply N.eqb_neq in E.
  assert (Hp' : In 41 s') by (destruct Hp; [congruence|assumption]). destruct s' as [|d s'']; [destruct Hp'|]. assert (Hc : c <> 92) by (intros ->; apply Hb; left; reflexivity).
  cbn [valid_escape]. assert (E2 : (c =? 92) = false) by lia. rewrite E2. cbn [andb]. apply IH; [simpl in *; lia|intros X; apply Hb; right; exact X|exact Hp'].
Qed.
Lemma url_body_total fuel : forall s, (S (length s) < fuel)%nat -> ~ In 92 s -> In 41 s -> exists o r, url_body fuel s = Ret (o, r).
Proof.
  induction fuel as [|k IH]; intros s Hl Hb Hp; [lia|]. cbn [url_body]. destruct s as [|c s']; [eauto|]. simpl in Hl. destruct (c =? 41) eqn:E; [eauto|]. apply N.eqb_neq in E.
  assert (Hp' : In 41 s') by (destruct Hp; [congruence|assumption]). assert (Hb' : ~ In 92 s') by (intros X; apply Hb; right; exact X).
  destruct (is_space c); [apply IH; [lia|assumption|assumption]|]. destruct (_ || non_printable c).
  - destruct (bad_url_rest_total k (c :: s') ltac:(simpl; lia) Hb Hp) as (r & ->). eauto.
  - assert (Hc : c <> 92) by (intros ->; apply Hb; left; reflexivity). assert (E2 : (c =? 92) = false) by lia. rewrite E2. cbn [andb].
    destruct (IH s' ltac:(lia) Hb' Hp') as ([v|] & r & ->); eauto.
Qed.
Lemma ident_like_total fuel s : tidy high_digit s -> (length s < fuel)%nat -> exists t r, ident_like high_digit fuel s = Ret (t, r).
Proof.
  intros HT Hl. unfold Css.ident_like. destruct (ident_seq_total high_digit fuel s Hl) as (v & rest & E). rewrite E. destruct (ident_seq_spec _ _ _ _ _ E) as (p & Eq & A). destruct rest as [|c r]; [eauto|]. destruct (c =? 40) eqn:Ec; [|eauto]. apply N.eqb_eq in Ec. subst c.
  destruct (is_url_name v) eqn:Eu; [|eauto]. destruct (url_space_spec r) as (w & Ew & Hw). destruct (url_space r) as [|a t] eqn:Er; [eauto|]. destruct (_ || _); [eauto|].
  assert (Hp : p <> []). { intros ->. inversion A. subst v. discriminate. }
  destruct HT as (_ & Hb & Hc & _). specialize (Hc p r Eq). rewrite Ew in Hc. apply in_app_or in Hc. destruct Hc as [Hc|Hc]; [rewrite Forall_forall in Hw; specialize (Hw _ Hc); destruct Hw as [X|[X|X]]; discriminate|].
  assert (Hb' : ~ In 92 (a :: t)). { intros X. apply Hb. rewrite Eq. apply in_or_app. right. right. rewrite Ew. apply in_or_app. right. exact X. }
  destruct (url_body_total fuel (a :: t)) as ([u|] & r2 & ->); [|assumption|assumption|eauto|eauto]. pose proof (url_space_length r) as Hs. rewrite Er in Hs. apply (f_equal (@length N)) in Eq. rewrite app_length in Eq. destruct p; [congruence|]. simpl in *. lia.
Qed.
Lemma next_token_total fuel c r : tidy high_digit (c :: r) -> (S (length r) < fuel)%nat -> exists t rest, next_token fuel c r = Ret (t, rest).
Proof.
  intros HT Hl. unfold Css.next_token.
  assert (Hr : c <> 10 -> r <> []) by (intros Hc; apply (tidy_tail [c] r); [exact HT|discriminate|intros [X|[]]; congruence]).
  destruct (_ && match r with d :: _ => d =? 42 | [] => false end); [destruct (comment_body (tl r)) as [[v rest]|]; eauto|].
  destruct (is_space c); [destruct (span is_space (c :: r)); eauto|].
  assert (HS : forall q, exists t rest, string_token (F := F) fuel q r = Ret (t, rest)) by (intros q; unfold string_token; destruct (string_body_total q fuel r ltac:(lia)) as (b & v & rest & ->); eauto).
  destruct (c =? 34); [apply HS|]. destruct (c =? 35) eqn:E35.
  { destruct r as [|d r']; [exfalso; apply Hr; [lia|reflexivity]|]. destruct (_ || _); [|eauto]. destruct (ident_sequence_total (d :: r') ltac:(discriminate)) as (i & ->).
    destruct (ident_seq_total high_digit fuel (d :: r') ltac:(simpl in *; lia)) as (v & rest & ->). eauto. }
  destruct (c =? 39); [apply HS|]. destruct (c =? 40); [eauto|]. destruct (c =? 41); [eauto|].
  assert (HN : is_number high_digit (c :: r) = true -> exists t rest, numeric_token float_of high_digit int_high fuel (c :: r) = Ret (t, rest)) by (intros X; apply numeric_token_total; [left; exact X|exact HT|simpl; lia]).
  destruct (c =? 43); [destruct (is_number high_digit (c :: r)) eqn:En; [apply HN; reflexivity|eauto]|]. destruct (c =? 44); [eauto|].
  destruct (c =? 45). { destruct (is_number high_digit (c :: r)) eqn:En; [apply HN; reflexivity|]. destruct (starts_with _ _); [eauto|].
    destruct (ident_sequence_total (c :: r) ltac:(discriminate)) as ([|] & ->); [apply ident_like_total; [exact HT|simpl; lia]|eauto]. }
  destruct (c =? 46); [destruct (is_number high_digit (c :: r)) eqn:En; [apply HN; reflexivity|eauto]|]. destruct (c =? 58); [eauto|]. destruct (c =? 59); [eauto|].
  destruct (c =? 60); [destruct (starts_with _ _); eauto|]. destruct (c =? 64) eqn:E64.
  { destruct (ident_sequence_total r (Hr ltac:(lia))) as ([|] & ->); [|eauto]. destruct (ident_seq_total high_digit fuel r ltac:(lia)) as (v & rest & ->). eauto. }
  destruct (c =? 91); [eauto|]. destruct (c =? 92); [destruct (valid_escape (c :: r)); [apply ident_like_total; [exact HT|simpl; lia]|eauto]|]. destruct (c =? 93); [eauto|]. destruct (c =? 123); [eauto|]. destruct (c =? 125); [eauto|].
  destruct (is_dec high_digit c) eqn:Ed; [apply numeric_token_total; [right; eauto|exact HT|simpl; lia]|]. destruct (ident_start c); [apply ident_like_total; [exact HT|simpl; lia]|eauto].
Qed.
Lemma tokens_total fuel : forall s, tidy high_digit s -> (S (length s) < fuel)%nat -> snd (tokens fuel s) = None.
Proof.
  induction fuel as [|k IH]; intros s HT Hl; [lia|]. cbn [Css.tokens]. destruct s as [|c r]; [reflexivity|]. simpl in Hl. destruct (next_token_total (S k) c r HT ltac:(lia)) as (t & rest & E). rewrite E.
  destruct (next_token_sound _ _ _ _ _ _ _ _ E) as (p & Eq & _ & _). pose proof (next_token_progress _ _ _ _ _ _ _ _ E) as P. rewrite Eq in HT. specialize (IH rest (tidy_suffix _ _ HT) ltac:(lia)). destruct (tokens k rest). exact IH.
Qed.
Lemma tokenize_tidy s : tidy high_digit s -> exists ts, tokenize float_of high_digit int_high s = (ts, None).
Proof. intros HT. pose proof (tokens_total (2 + length s) s HT ltac:(lia)) as H. unfold tokenize. destruct (tokens (2 + length s) s) as [ts o]. cbn [snd] in H. subst o. eauto. Qed.
End Term.
