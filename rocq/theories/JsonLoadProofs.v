(** What json.loads returns can be written by json.dumps and read again. *)
From Verif Require Import Base Json JsonProofs.
From Coq Require Import String ZArith NArith Bool List Lia ZifyN ZifyBool ZifyNat.
Import ListNotations.
Open Scope list_scope.
Open Scope N_scope.

Definition scalar (c : N) : Prop := c < 1114112 /\ ~ (55296 <= c <= 57343).
Lemma hex_val_lt c v : hex_val c = Some v -> v < 16.
Proof. unfold hex_val. destruct ((48 <=? c) && (c <=? 57)) eqn:E1; [intros [= <-]; lia|]. destruct ((97 <=? c) && (c <=? 102)) eqn:E2; [intros [= <-]; lia|]. destruct ((65 <=? c) && (c <=? 70)) eqn:E3; [intros [= <-]; lia|discriminate]. Qed.
Lemma take_hex4_ok s u r : take_hex4 s = Some (u, r) -> u < 65536 /\ (Forall scalar s -> Forall scalar r).
Proof.
  destruct s as [|a [|b [|c [|d q]]]]; cbn [take_hex4]; try discriminate. destruct (hex_val a) as [a'|] eqn:A; [|discriminate]. destruct (hex_val b) as [b'|] eqn:B; [|discriminate]. destruct (hex_val c) as [c'|] eqn:C; [|discriminate]. destruct (hex_val d) as [d'|] eqn:D; [|discriminate].
  apply hex_val_lt in A, B, C, D. intros [= <- <-]. split; [lia|]. intros H. repeat (inversion H as [|? ? _ H']; subst; clear H; rename H' into H). exact H.
Qed.
Lemma safe_cons c t : c < 1114112 -> (forall d t', t = d :: t' -> is_high c = true -> is_low d = false) -> json_safe t -> json_safe (c :: t).
Proof. intros A B C. cbn [json_safe]. split; [exact A|]. split; [|exact C]. destruct t as [|d t']; [exact I|]. exact (B d t' eq_refl). Qed.
Lemma scan_ok fuel : forall s t rest, Forall scalar s -> scan_str fuel s = Some (t, rest) ->
  json_safe t /\ Forall scalar rest /\ (forall d t', t = d :: t' -> is_low d = true -> exists r u, s = c_bs :: 117 :: r /\ take_hex4 r = Some (d, u)).
Proof.
  induction fuel as [|fuel IH]; intros s t rest F H; [discriminate|]. cbn [scan_str] in H. destruct s as [|c r]; [discriminate|]. inversion F as [|x y Fc Fr]; subst x y.
  destruct (c =? c_quote) eqn:E1; [injection H as <- <-; split; [exact I|]; split; [exact Fr|]; discriminate|].
  destruct (c =? c_bs) eqn:E2.
  - apply N.eqb_eq in E2. subst c. destruct r as [|e r2]; [discriminate|]. inversion Fr as [|x y Fe F2]; subst x y. destruct (e =? 117) eqn:E3.
    + apply N.eqb_eq in E3. subst e. destruct (take_hex4 r2) as [[u r3]|] eqn:T1; [|discriminate]. destruct (take_hex4_ok _ _ _ T1) as [U1 F3]. specialize (F3 F2).
      assert (Alone : (is_high u = true -> forall b x r4 u2 r5, r3 = b :: x :: r4 -> b = c_bs -> x = 117 -> take_hex4 r4 = Some (u2, r5) -> is_low u2 = false) ->
        match scan_str fuel r3 with Some (t, rest) => Some (u :: t, rest) | None => None end = Some (t, rest) ->
        json_safe t /\ Forall scalar rest /\ (forall d t', t = d :: t' -> is_low d = true -> exists r u, c_bs :: 117 :: r2 = c_bs :: 117 :: r /\ take_hex4 r = Some (d, u))).
      { intros Hh HA. destruct (scan_str fuel r3) as [[t0 rest0]|] eqn:S; [|discriminate]. injection HA as <- <-. destruct (IH _ _ _ F3 S) as (A & B & C). split; [|split; [exact B|]].
        - apply safe_cons; [lia| |exact A]. intros d t' -> Hi. destruct (is_low d) eqn:Lo; [|reflexivity]. destruct (C d t' eq_refl Lo) as (r & w & Er & Et). rewrite <- Lo; eapply Hh; [exact Hi|exact Er|reflexivity|reflexivity|exact Et].
        - intros d t' [= <- <-] Lo. exists r2, r3. auto. }
      cbv zeta in H. destruct ((55296 <=? u) && (u <=? 56319)) eqn:Hi.
      * destruct r3 as [|b [|x r4]]; [apply Alone; [discriminate|exact H]|apply Alone; [discriminate|exact H]|].
        destruct ((b =? c_bs) && (x =? 117)) eqn:Ebx; [|apply Alone; [|exact H]; intros _ b0 x0 r0 u2 r5 [= <- <- <-] -> ->; discriminate Ebx].
        destruct (take_hex4 r4) as [[u2 r5]|] eqn:T2; [|discriminate]. destruct (take_hex4_ok _ _ _ T2) as [U2 F5]. destruct ((56320 <=? u2) && (u2 <=? 57343)) eqn:Lo.
        -- inversion F3 as [|? ? _ F4]; subst. inversion F4 as [|? ? _ F4']; subst. specialize (F5 F4'). destruct (scan_str fuel r5) as [[t0 rest0]|] eqn:S; [|discriminate]. assert (H1 : t = 65536 + (u - 55296) * 1024 + (u2 - 56320) :: t0) by congruence. assert (H2 : rest = rest0) by congruence. clear H. subst t rest. destruct (IH _ _ _ F5 S) as (A & B & C). split; [|split; [exact B|]].
           ++ apply safe_cons; [lia| |exact A]. intros d t' _ X. unfold is_high in X. lia.
           ++ intros d t' E X. assert (Ed : d = 65536 + (u - 55296) * 1024 + (u2 - 56320)) by congruence. rewrite Ed in X. unfold is_low in X. lia.
        -- apply Alone; [|exact H]. intros _ b0 x0 r0 u3 r6 [= <- <- <-] _ _ X. rewrite T2 in X. injection X as <- <-. exact Lo.
      * apply Alone; [|exact H]. intros X. unfold is_high in X. congruence.
    + cbv zeta in H.
      set (simple := if e =? c_quote then Some c_quote else if e =? c_bs then Some c_bs else if e =? 47 then Some 47 else if e =? 98 then Some 8 else if e =? 102 then Some 12 else if e =? 110 then Some 10 else if e =? 114 then Some 13 else if e =? 116 then Some 9 else None) in H.
      assert (Hs : forall d, simple = Some d -> d < 128).
      { intros d. unfold simple, c_quote, c_bs. repeat match goal with |- context [if ?b then _ else _] => destruct b end; intros [= <-]; lia. }
      destruct simple as [d|]; [|discriminate]. specialize (Hs d eq_refl). destruct (scan_str fuel r2) as [[t0 rest0]|] eqn:S; [|discriminate]. injection H as <- <-. destruct (IH _ _ _ F2 S) as (A & B & C). split; [|split; [exact B|]].
      * apply safe_cons; [lia| |exact A]. intros d0 t' _ X. unfold is_high in X. lia.
      * intros d0 t' [= <- <-] X. unfold is_low in X. lia.
  - destruct (c <? 32) eqn:E3; [discriminate|]. destruct (scan_str fuel r) as [[t0 rest0]|] eqn:S; [|discriminate]. injection H as <- <-. destruct (IH _ _ _ Fr S) as (A & B & C). destruct Fc as [Fc1 Fc2]. split; [|split; [exact B|]].
    + apply safe_cons; [exact Fc1| |exact A]. intros d0 t' _ X. unfold is_high in X. lia.
    + intros d0 t' [= <- <-] X. unfold is_low in X. lia.
Qed.
(** numbers *)
Lemma span_ok s d t : span_digits s = (d, t) -> Forall (fun c => is_digit c = true) d /\ s = d ++ t /\ match t with c :: _ => is_digit c = false | [] => True end.
Proof.
  revert d t. induction s as [|c s IH]; intros d t; cbn [span_digits]; [intros [= <- <-]; repeat constructor|]. destruct (is_digit c) eqn:E; [|intros [= <- <-]; repeat constructor; exact E].
  destruct (span_digits s) as [d0 t0]. intros [= <- <-]. destruct (IH _ _ eq_refl) as (A & -> & B). split; [constructor; assumption|]. split; [reflexivity|exact B].
Qed.
Lemma span_again d : Forall (fun c => is_digit c = true) d -> forall t, match t with c :: _ => is_digit c = false | [] => True end -> span_digits (d ++ t) = (d, t).
Proof.
  induction 1 as [|c d Hc Hd IH]; intros t Ht; cbn [app span_digits].
  - destruct t as [|c t]; [reflexivity|]. cbn [span_digits]. rewrite Ht. reflexivity.
  - rewrite Hc, (IH t Ht). reflexivity.
Qed.
Lemma exp_ok s e t : scan_exp s = (e, t) -> s = e ++ t /\ scan_exp e = (e, []) /\ ~ In 10 e /\ (forall c r, e = c :: r -> is_digit c = false /\ c <> c_dot).
Proof.
  assert (Nd : forall d, Forall (fun c => is_digit c = true) d -> ~ In 10 d) by (intros d F X; rewrite Forall_forall in F; apply F in X; discriminate).
  assert (Hd : forall c, (c =? 101) || (c =? 69) = true -> is_digit c = false /\ c <> c_dot /\ c <> 10) by (intros c E; unfold is_digit, c_dot; lia).
  unfold scan_exp at 1. destruct s as [|c r]; [intros [= <- <-]; repeat split; [intros []|discriminate..]|]. destruct ((c =? 101) || (c =? 69)) eqn:E; [|intros [= <- <-]; repeat split; [intros []|discriminate..]].
  destruct (Hd c E) as (Hd1 & Hd2 & Hd3). destruct r as [|g r2]; [intros [= <- <-]; repeat split; [intros []|discriminate..]|].
  destruct ((g =? c_minus) || (g =? c_plus)) eqn:Eg.
  - destruct (span_digits r2) as [d t0] eqn:S. destruct (span_ok _ _ _ S) as (F & -> & Q). destruct d as [|x d]; [intros [= <- <-]; repeat split; [intros []|discriminate..]|]. intros [= <- <-]. split; [reflexivity|]. split.
    + unfold scan_exp. rewrite E, Eg. rewrite <- (app_nil_r (x :: d)) at 1. rewrite (span_again _ F [] I). reflexivity.
    + split; [intros [X|[X|X]]; [congruence|unfold c_minus, c_plus in Eg; lia|exact (Nd _ F X)]|]. intros c0 r0 [= <- <-]. auto.
  - destruct (span_digits (g :: r2)) as [d t0] eqn:S. destruct (span_ok _ _ _ S) as (F & Es & Q). destruct d as [|x d]; [intros [= <- <-]; repeat split; [intros []|discriminate..]|]. intros [= <- <-]. split; [cbn [app]; rewrite Es; reflexivity|]. cbn [app] in Es. injection Es as <- Es. split.
    + unfold scan_exp. rewrite E, Eg. rewrite <- (app_nil_r (g :: d)) at 1. rewrite (span_again _ F [] I). reflexivity.
    + split; [intros [X|X]; [congruence|exact (Nd _ F X)]|]. intros c0 r0 [= <- <-]. auto.
Qed.
Lemma number_ok s n t : scan_number s = Some (n, t) -> is_num n /\ ~ In 10 n /\ exists q, s = q ++ t.
Proof.
  assert (Nd : forall d, Forall (fun c => is_digit c = true) d -> ~ In 10 d) by (intros d F X; rewrite Forall_forall in F; apply F in X; discriminate).
  unfold is_num, scan_number. set (sg := match s with c :: r => if c =? c_minus then ([c_minus], r) else ([], s) | [] => ([], s) end). assert (Hs : exists sign s1, sg = (sign, s1) /\ s = sign ++ s1 /\ (sign = [c_minus] \/ sign = [])).
  { unfold sg. destruct s as [|c r]; [exists [], []; auto|]. destruct (c =? c_minus) eqn:E; [apply N.eqb_eq in E; subst c; exists [c_minus], r; auto|exists [], (c :: r); auto]. }
  destruct Hs as (sign & s1 & -> & -> & Hsign). destruct (scan_int_part s1) as [[i s2]|] eqn:Ei; [|discriminate].
  destruct (scan_frac s2) as [f s3] eqn:Ef. destruct (scan_exp s3) as [e s4] eqn:Ee. intros [= <- <-]. destruct (exp_ok _ _ _ Ee) as (-> & E1 & E2 & E3).
  assert (Hf : s2 = f ++ e ++ s4 /\ scan_frac (f ++ e) = (f, e) /\ ~ In 10 f /\ (forall c r, f ++ e = c :: r -> is_digit c = false)).
  { unfold scan_frac in Ef. destruct s2 as [|c r].
    - injection Ef as <- Ef. symmetry in Ef. apply app_eq_nil in Ef. destruct Ef as [-> ->]. repeat split; [intros []|discriminate].
    - destruct (c =? c_dot) eqn:Ec.
      + apply N.eqb_eq in Ec. subst c. destruct (span_digits r) as [d q] eqn:S. destruct (span_ok _ _ _ S) as (F & -> & Q). destruct d as [|x d].
        * injection Ef as <- Ef. destruct e as [|y e]; [|exfalso; injection Ef as <- _; apply (E3 _ _ eq_refl); reflexivity]. cbn [app] in Ef. subst s4. repeat split; [intros []|discriminate].
        * injection Ef as <- Ef. subst q. split; [reflexivity|]. split; [|split].
          -- unfold scan_frac. cbn [app]. change (c_dot =? c_dot) with true. cbv iota. change (x :: d ++ e) with ((x :: d) ++ e). rewrite (span_again _ F); [reflexivity|]. destruct e as [|y e]; [exact I|]. apply (E3 y e eq_refl).
          -- intros [X|X]; [discriminate|exact (Nd _ F X)].
          -- intros c r [= <- _]. reflexivity.
      + injection Ef as <- Ef. cbn [app]. split; [rewrite <- Ef; reflexivity|]. split; [|split; [intros []|intros c0 r0 H; apply (E3 _ _ H)]]. unfold scan_frac. destruct e as [|y e]; [reflexivity|]. destruct (y =? c_dot) eqn:Ey; [|reflexivity]. apply N.eqb_eq in Ey. subst y. destruct (proj2 (E3 _ _ eq_refl) eq_refl). }
  destruct Hf as (-> & F1 & F2 & F3).
  assert (Hi : exists i', s1 = i ++ f ++ e ++ s4 /\ scan_int_part (i ++ f ++ e) = Some (i, f ++ e) /\ ~ In 10 i /\ i' = i /\ match i with c :: _ => c <> c_minus | [] => False end).
  { exists i. unfold scan_int_part in Ei. destruct s1 as [|c r]; [discriminate|]. destruct (c =? 48) eqn:E0.
    - apply N.eqb_eq in E0. subst c. injection Ei as <- ->. split; [reflexivity|]. split; [reflexivity|]. split; [intros [X|[]]; discriminate|]. split; [reflexivity|discriminate].
    - destruct (is_digit c) eqn:Ed; [|discriminate]. destruct (span_digits r) as [d q] eqn:S. destruct (span_ok _ _ _ S) as (F & -> & Q). injection Ei as <- ->. split; [reflexivity|]. split.
      + cbn [app scan_int_part]. rewrite E0, Ed, (span_again _ F); [reflexivity|]. destruct (f ++ e) as [|y w] eqn:X; [exact I|]. exact (F3 y w eq_refl).
      + split; [intros [X|X]; [subst c; discriminate Ed|exact (Nd _ F X)]|]. split; [reflexivity|]. intros ->. discriminate Ed. }
  destruct Hi as (i' & -> & I1 & I2 & -> & I3).
  split.
  { destruct Hsign as [-> | ->]; cbn [app].
    - rewrite N.eqb_refl, I1, F1, E1. reflexivity.
    - destruct i as [|c i]; [contradiction|]. cbn [app] in *. apply N.eqb_neq in I3. rewrite I3, I1, F1, E1. reflexivity. }
  split.
  - intros X. repeat (apply in_app_iff in X; destruct X as [X|X]); try contradiction. destruct Hsign as [-> | ->]; [destruct X as [X|[]]; discriminate|contradiction].
  - exists (sign ++ i ++ f ++ e). rewrite <- !app_assoc. reflexivity.
Qed.
Lemma skip_ws_scalar s : Forall scalar s -> Forall scalar (skip_ws s).
Proof. induction 1 as [|c s Hc Hs IH]; [constructor|]. cbn [skip_ws]. destruct (is_ws c); [exact IH|constructor; assumption]. Qed.
Lemma skipn_scalar n s : Forall scalar s -> Forall scalar (skipn n s).
Proof. revert s. induction n as [|n IH]; intros s H; [exact H|]. destruct s as [|c s]; [exact H|]. inversion H; subst. cbn [skipn]. auto. Qed.
Lemma parse_ok fuel : 
  (forall s v rest, Forall scalar s -> parse_value fuel s = Some (v, rest) -> json_ok v /\ Forall scalar rest) /\
  (forall s l rest, Forall scalar s -> parse_pairs fuel s = Some (l, rest) -> json_ok (JObj l) /\ Forall scalar rest) /\
  (forall s l rest, Forall scalar s -> parse_items fuel s = Some (l, rest) -> json_ok (JList l) /\ Forall scalar rest).
Proof.
  assert (Tl : forall c r, Forall scalar (c :: r) -> Forall scalar r) by (intros c r F; inversion F; assumption).
  induction fuel as [|fuel (IHv & IHp & IHi)]; [repeat split; discriminate|]. split; [|split].
  - intros s v rest F H. cbn [parse_value] in H. destruct s as [|c r]; [discriminate|]. pose proof (Tl _ _ F) as Fr. pose proof (skip_ws_scalar _ Fr) as Fw. destruct (c =? c_quote).
    { destruct (scan_str (S (length r)) r) as [[t0 q]|] eqn:S; [|discriminate]. injection H as <- <-. destruct (scan_ok _ _ _ _ Fr S) as (A & B & _). auto. }
    destruct (c =? c_lbrace).
    { destruct (skip_ws r) as [|x r']; [discriminate|]. pose proof (Tl _ _ Fw) as F'. destruct (x =? c_rbrace); [injection H as <- <-; split; [exact I|exact F']|]. destruct (x =? c_quote); [|discriminate]. destruct (parse_pairs fuel r') as [[l q]|] eqn:E; [|discriminate]. injection H as <- <-. exact (IHp _ _ _ F' E). }
    destruct (c =? c_lbrack).
    { destruct (skip_ws r) as [|x r']; [discriminate|]. pose proof (Tl _ _ Fw) as F'. destruct (x =? c_rbrack); [injection H as <- <-; split; [exact I|exact F']|]. destruct (parse_items fuel (x :: r')) as [[l q]|] eqn:E; [|discriminate]. injection H as <- <-. exact (IHi _ _ _ Fw E). }
    unfold strip_prefix in H. destruct (starts_with (lit "null") (c :: r)); [injection H as <- <-; split; [exact I|exact (skipn_scalar 4 _ F)]|].
    destruct (starts_with (lit "true") (c :: r)); [injection H as <- <-; split; [exact I|exact (skipn_scalar 4 _ F)]|].
    destruct (starts_with (lit "false") (c :: r)); [injection H as <- <-; split; [exact I|exact (skipn_scalar 5 _ F)]|].
    destruct (scan_number (c :: r)) as [[n q]|] eqn:E; [|discriminate]. injection H as <- <-. destruct (number_ok _ _ _ E) as (A & _ & p & Ep). split; [exact A|]. rewrite Ep in F. apply Forall_app in F. apply F.
  - intros s l rest F H. cbn [parse_pairs] in H. destruct (scan_str (S (length s)) s) as [[k s1]|] eqn:S; [|discriminate]. destruct (scan_ok _ _ _ _ F S) as (A & F1 & _). apply skip_ws_scalar in F1. destruct (skip_ws s1) as [|c s2]; [discriminate|]. apply Tl in F1. destruct (c =? c_colon); [|discriminate]. apply skip_ws_scalar in F1.
    destruct (parse_value fuel (skip_ws s2)) as [[v s3]|] eqn:V; [|discriminate]. destruct (IHv _ _ _ F1 V) as [Ov F3]. apply skip_ws_scalar in F3. destruct (skip_ws s3) as [|d s4]; [discriminate|]. apply Tl in F3. destruct (d =? c_rbrace); [injection H as <- <-; split; [exact (conj A (conj Ov I))|exact F3]|]. destruct (d =? c_comma); [|discriminate].
    apply skip_ws_scalar in F3. destruct (skip_ws s4) as [|q s5]; [discriminate|]. apply Tl in F3. destruct (q =? c_quote); [|discriminate]. destruct (parse_pairs fuel s5) as [[l0 q0]|] eqn:P; [|discriminate]. injection H as <- <-. destruct (IHp _ _ _ F3 P) as [Ol F5]. split; [exact (conj A (conj Ov Ol))|exact F5].
  - intros s l rest F H. cbn [parse_items] in H. destruct (parse_value fuel s) as [[v s1]|] eqn:V; [|discriminate]. destruct (IHv _ _ _ F V) as [Ov F1]. apply skip_ws_scalar in F1. destruct (skip_ws s1) as [|d s2]; [discriminate|]. apply Tl in F1. destruct (d =? c_rbrack); [injection H as <- <-; split; [exact (conj Ov I)|exact F1]|]. destruct (d =? c_comma); [|discriminate].
    apply skip_ws_scalar in F1. destruct (parse_items fuel (skip_ws s2)) as [[l0 q0]|] eqn:P; [|discriminate]. injection H as <- <-. destruct (IHi _ _ _ F1 P) as [Ol F5]. split; [exact (conj Ov Ol)|exact F5].
Qed.
Lemma json_load_ok s v : Forall scalar s -> json_load s = Some v -> json_ok v.
Proof.
  intros F. unfold json_load. destruct (parse_value (S (2 * length s)) (skip_ws s)) as [[w rest]|] eqn:E; [|discriminate]. destruct (skip_ws rest); [|discriminate]. intros [= <-].
  exact (proj1 (proj1 (parse_ok _) _ _ _ (skip_ws_scalar _ F) E)).
Qed.
(** json.dumps writes no newline *)
Lemma escape_no_newline c : ~ In 10 (escape_char c).
Proof.
  assert (Hx : forall n, hex_digit (n mod 16) <> 10) by (intros n; unfold hex_digit; destruct (n mod 16 <? 10); lia).
  assert (H4 : forall n, ~ In 10 (hex4 n)) by (intros n [X|[X|[X|[X|[]]]]]; exact (Hx _ X)).
  unfold escape_char. repeat match goal with |- context [if ?b then _ else _] => destruct b eqn:?E end; cbn [app In]; unfold c_quote, c_bs; cbv zeta; intros X; repeat (destruct X as [X|X]; [lia|]); try contradiction.
  - exact (H4 _ X).
  - apply in_app_iff in X. destruct X as [X|X]; [exact (H4 _ X)|]. repeat (destruct X as [X|X]; [lia|]). exact (H4 _ X).
Qed.
Lemma dump_str_no_newline s : ~ In 10 (dump_str s).
Proof. unfold dump_str. intros X. apply in_app_iff in X. destruct X as [[X|[]]|X]; [discriminate|]. apply in_app_iff in X. destruct X as [X|[X|[]]]; [|discriminate]. apply in_flat_map in X. destruct X as (c & _ & X). exact (escape_no_newline c X). Qed.
Lemma join_no_newline l : (forall x, In x l -> ~ In 10 x) -> ~ In 10 (join (lit ", ") l).
Proof.
  induction l as [|x [|y l] IH]; intros H; [intros []|exact (H x (or_introl eq_refl))|]. change (join (lit ", ") (x :: y :: l)) with (x ++ lit ", " ++ join (lit ", ") (y :: l)). intros X. apply in_app_iff in X. destruct X as [X|X]; [exact (H x (or_introl eq_refl) X)|].
  apply in_app_iff in X. destruct X as [X|X]; [repeat (destruct X as [X|X]; [discriminate|]); exact X|]. revert X. apply IH. intros z Z. apply H. right. exact Z.
Qed.
Lemma dump_no_newline n : forall v, (json_size v <= n)%nat -> json_ok v -> ~ In 10 (dump v).
Proof.
  induction n as [|n IH]; intros v Hn Ok; [pose proof (json_size_pos v); lia|]. destruct v as [|[|]|raw|s|l|l]; cbn [dump].
  - intros X; repeat (destruct X as [X|X]; [discriminate|]); exact X.
  - intros X; repeat (destruct X as [X|X]; [discriminate|]); exact X.
  - intros X; repeat (destruct X as [X|X]; [discriminate|]); exact X.
  - apply (number_ok raw raw [] Ok).
  - apply dump_str_no_newline.
  - intros X. apply in_app_iff in X. destruct X as [[X|[]]|X]; [discriminate|]. apply in_app_iff in X. destruct X as [X|[X|[]]]; [|discriminate]. revert X. apply join_no_newline. intros x Hx. apply in_map_iff in Hx. destruct Hx as (v & <- & Hv). simpl in Hn. revert Hn Ok. induction l as [|y l IHl]; intros Hn Ok; [destruct Hv|]. simpl in Hn. cbn [json_ok] in Ok. destruct Ok as [O1 O2]. destruct Hv as [-> |Hv]; [apply IH; [lia|exact O1]|]. apply (IHl Hv); [simpl; lia|exact O2].
  - intros X. apply in_app_iff in X. destruct X as [[X|[]]|X]; [discriminate|]. apply in_app_iff in X. destruct X as [X|[X|[]]]; [|discriminate]. revert X. apply join_no_newline. intros x Hx. apply in_map_iff in Hx. destruct Hx as ([k v] & <- & Hv). simpl in Hn. cbn [fst snd]. intros X. apply in_app_iff in X. destruct X as [X|X]; [exact (dump_str_no_newline _ X)|]. apply in_app_iff in X. destruct X as [X|X]; [repeat (destruct X as [X|X]; [discriminate|]); exact X|]. revert X.
    revert Hn Ok. induction l as [|[k0 y] l IHl]; intros Hn Ok; [destruct Hv|]. simpl in Hn. cbn [json_ok] in Ok. destruct Ok as (O0 & O1 & O2). destruct Hv as [E|Hv]; [injection E as -> ->; apply IH; [lia|exact O1]|]. apply (IHl Hv); [simpl; lia|exact O2].
Qed.
