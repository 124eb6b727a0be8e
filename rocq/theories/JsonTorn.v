(** A json text that is cut off is no json text. *)
From Verif Require Import Base Json JsonProofs JsonReads.
From Coq Require Import String ZArith NArith Bool List Lia ZifyN ZifyBool ZifyNat.
Import ListNotations.
Open Scope list_scope.
Open Scope N_scope.

Lemma hex4_ext s u r q : take_hex4 s = Some (u, r) -> take_hex4 (s ++ q) = Some (u, r ++ q).
Proof.
  destruct s as [|a [|b [|c [|d t]]]]; cbn [take_hex4 app]; try discriminate. destruct (hex_val a); [|discriminate]. destruct (hex_val b); [|discriminate]. destruct (hex_val c); [|discriminate]. destruct (hex_val d); [|discriminate]. intros H. injection H as <- <-. reflexivity.
Qed.
Lemma scan_ext fuel : forall s t rest, scan_str fuel s = Some (t, rest) -> forall fuel' q, (fuel <= fuel')%nat -> scan_str fuel' (s ++ q) = Some (t, rest ++ q).
Proof.
  induction fuel as [|fuel IH]; intros s t rest H fuel' q L; [discriminate|]. destruct fuel' as [|fuel']; [lia|]. assert (L' : (fuel <= fuel')%nat) by lia. clear L. destruct s as [|c r]; [discriminate|]. cbn [scan_str app] in *.
  destruct (c =? c_quote); [injection H as <- <-; reflexivity|]. destruct (c =? c_bs).
  - destruct r as [|e r2]; [discriminate|]. cbn [app]. destruct (e =? 117).
    + destruct (take_hex4 r2) as [[u r3]|] eqn:T; [|discriminate]. rewrite (hex4_ext _ _ _ q T).
      assert (A : match scan_str fuel r3 with Some (t, rest) => Some (u :: t, rest) | None => None end = Some (t, rest) -> match scan_str fuel' (r3 ++ q) with Some (t, rest) => Some (u :: t, rest) | None => None end = Some (t, rest ++ q)).
      { destruct (scan_str fuel r3) as [[t1 rest1]|] eqn:S; [|discriminate]. intros X. injection X as <- <-. rewrite (IH _ _ _ S fuel' q L'). reflexivity. }
      destruct ((55296 <=? u) && (u <=? 56319)); [|exact (A H)].
      destruct r3 as [|b [|x r4]].
      * exfalso. destruct fuel; cbn [scan_str] in H; discriminate.
      * assert (B : b = c_quote). { destruct fuel as [|fuel]; cbn [scan_str] in H; [discriminate|]. destruct (b =? c_quote) eqn:Q; [apply N.eqb_eq; exact Q|]. exfalso. destruct (b =? c_bs); [discriminate|]. destruct (b <? 32); [discriminate|]. destruct fuel; cbn [scan_str] in H; discriminate. }
        subst b. specialize (A H). cbn [app] in *. destruct q as [|x q]; [exact A|]. exact A.
      * cbn [app] in *. destruct ((b =? c_bs) && (x =? 117)); [|exact (A H)]. destruct (take_hex4 r4) as [[u2 r5]|] eqn:T2; [|discriminate]. rewrite (hex4_ext _ _ _ q T2). destruct ((56320 <=? u2) && (u2 <=? 57343)); [|exact (A H)].
        destruct (scan_str fuel r5) as [[t1 rest1]|] eqn:S; [|discriminate]. injection H as <- <-. rewrite (IH _ _ _ S fuel' q L'). reflexivity.
    + match type of H with match ?x with Some _ => _ | None => _ end = _ => destruct x as [d|]; [|discriminate] end. destruct (scan_str fuel r2) as [[t1 rest1]|] eqn:S; [|discriminate]. injection H as <- <-. rewrite (IH _ _ _ S fuel' q L'). reflexivity.
  - destruct (c <? 32); [discriminate|]. destruct (scan_str fuel r) as [[t1 rest1]|] eqn:S; [|discriminate]. injection H as <- <-. rewrite (IH _ _ _ S fuel' q L'). reflexivity.
Qed.
Lemma skip_ext s c r q : skip_ws s = c :: r -> skip_ws (s ++ q) = c :: r ++ q.
Proof. induction s as [|x s IH]; [discriminate|]. cbn [skip_ws app]. destruct (is_ws x); [exact IH|]. intros H. injection H as -> ->. reflexivity. Qed.
Lemma skip_value s c r q : skip_ws s = c :: r -> skip_ws (s ++ q) = skip_ws s ++ q.
Proof. intros H. rewrite (skip_ext s c r q H), H. reflexivity. Qed.
(** what follows a value inside of a text *)
Lemma inner_stop s c r q : skip_ws s = c :: r -> c = c_comma \/ c = c_rbrack \/ c = c_rbrace -> num_stop (s ++ q).
Proof.
  intros H C. destruct s as [|x s]; [discriminate|]. cbn [app]. apply follow_num_stop. cbn [skip_ws] in H. cbn [follow]. destruct (is_ws x) eqn:W; [right; right; right; reflexivity|]. injection H as -> _. destruct C as [C|[C|C]]; auto.
Qed.
Definition steady (v : json) (s : str) : Prop := forall raw, v = JNum raw -> num_stop s.
Lemma parse_ext fuel :
  (forall s v rest, parse_value fuel s = Some (v, rest) -> forall fuel' q, (fuel <= fuel')%nat -> steady v (rest ++ q) -> parse_value fuel' (s ++ q) = Some (v, rest ++ q)) /\
  (forall s l rest, parse_pairs fuel s = Some (l, rest) -> forall fuel' q, (fuel <= fuel')%nat -> parse_pairs fuel' (s ++ q) = Some (l, rest ++ q)) /\
  (forall s l rest, parse_items fuel s = Some (l, rest) -> forall fuel' q, (fuel <= fuel')%nat -> parse_items fuel' (s ++ q) = Some (l, rest ++ q)).
Proof.
  induction fuel as [|fuel (IHv & IHp & IHi)]; [split; [|split]; discriminate|]. split; [|split].
  - intros s v rest H fuel' q L St. destruct fuel' as [|fuel']; [lia|]. assert (L' : (fuel <= fuel')%nat) by lia. clear L. destruct s as [|c r]; [discriminate|]. cbn [parse_value] in H.
    destruct (c =? c_quote) eqn:C1.
    { cbn [app parse_value]. rewrite C1. destruct (scan_str (S (length r)) r) as [[t rest1]|] eqn:S1; [|discriminate]. injection H as <- <-. rewrite (scan_ext _ _ _ _ S1 (S (length (r ++ q))) q); [reflexivity|]. rewrite app_length. lia. }
    destruct (c =? c_lbrace) eqn:C2.
    { cbn [app parse_value]. rewrite C1, C2. destruct (skip_ws r) as [|x r'] eqn:W; [discriminate|]. rewrite (skip_ext _ _ _ q W). destruct (x =? c_rbrace); [injection H as <- <-; reflexivity|]. destruct (x =? c_quote); [|discriminate].
      destruct (parse_pairs fuel r') as [[l rest1]|] eqn:P; [|discriminate]. injection H as <- <-. rewrite (IHp _ _ _ P fuel' q L'). reflexivity. }
    destruct (c =? c_lbrack) eqn:C3.
    { cbn [app parse_value]. rewrite C1, C2, C3. destruct (skip_ws r) as [|x r'] eqn:W; [discriminate|]. rewrite (skip_ext _ _ _ q W). destruct (x =? c_rbrack); [injection H as <- <-; reflexivity|].
      destruct (parse_items fuel (x :: r')) as [[l rest1]|] eqn:P; [|discriminate]. injection H as <- <-. change (x :: r' ++ q) with ((x :: r') ++ q). rewrite (IHi _ _ _ P fuel' q L'). reflexivity. }
    unfold strip_prefix in H. destruct (starts_with (lit "null") (c :: r)) eqn:P1.
    { apply starts_with_iff in P1. destruct P1 as [t E]. rewrite E in H. injection H as <- <-. rewrite E. reflexivity. }
    destruct (starts_with (lit "true") (c :: r)) eqn:P2.
    { apply starts_with_iff in P2. destruct P2 as [t E]. rewrite E in H. injection H as <- <-. rewrite E. reflexivity. }
    destruct (starts_with (lit "false") (c :: r)) eqn:P3.
    { apply starts_with_iff in P3. destruct P3 as [t E]. rewrite E in H. injection H as <- <-. rewrite E. reflexivity. }
    destruct (scan_number (c :: r)) as [[n rest1]|] eqn:N; [|discriminate]. injection H as <- <-. apply scan_number_own in N. destruct N as [N E]. rewrite E, <- app_assoc. apply parse_number_value; [exact N|]. exact (St n eq_refl).
  - intros s l rest H fuel' q L. destruct fuel' as [|fuel']; [lia|]. assert (L' : (fuel <= fuel')%nat) by lia. clear L. cbn [parse_pairs] in *.
    destruct (scan_str (S (length s)) s) as [[k s1]|] eqn:S1; [|discriminate]. rewrite (scan_ext _ _ _ _ S1 (S (length (s ++ q))) q); [|rewrite app_length; lia].
    destruct (skip_ws s1) as [|c s2] eqn:W; [discriminate|]. rewrite (skip_ext _ _ _ q W). destruct (c =? c_colon); [|discriminate].
    destruct (skip_ws s2) as [|y s2'] eqn:W2; [destruct fuel; discriminate|]. rewrite (skip_value _ _ _ q W2), W2.
    destruct (parse_value fuel (y :: s2')) as [[v s3]|] eqn:V; [|discriminate]. destruct (skip_ws s3) as [|d s4] eqn:W3; [discriminate|].
    destruct (d =? c_rbrace) eqn:D1.
    + apply N.eqb_eq in D1. rewrite (IHv _ _ _ V fuel' q L'); [|intros raw _; eapply inner_stop; [exact W3|auto]]. rewrite (skip_ext _ _ _ q W3). subst d. cbn [N.eqb]. injection H as <- <-. reflexivity.
    + destruct (d =? c_comma) eqn:D2; [|discriminate]. apply N.eqb_eq in D2. rewrite (IHv _ _ _ V fuel' q L'); [|intros raw _; eapply inner_stop; [exact W3|auto]]. rewrite (skip_ext _ _ _ q W3), D1. subst d. rewrite N.eqb_refl.
      destruct (skip_ws s4) as [|z s5] eqn:W4; [discriminate|]. rewrite (skip_ext _ _ _ q W4). destruct (z =? c_quote); [|discriminate]. destruct (parse_pairs fuel s5) as [[l1 rest1]|] eqn:P; [|discriminate]. injection H as <- <-. rewrite (IHp _ _ _ P fuel' q L'). reflexivity.
  - intros s l rest H fuel' q L. destruct fuel' as [|fuel']; [lia|]. assert (L' : (fuel <= fuel')%nat) by lia. clear L. cbn [parse_items] in *.
    destruct (parse_value fuel s) as [[v s3]|] eqn:V; [|discriminate]. destruct (skip_ws s3) as [|d s4] eqn:W3; [discriminate|].
    destruct (d =? c_rbrack) eqn:D1.
    + apply N.eqb_eq in D1. rewrite (IHv _ _ _ V fuel' q L'); [|intros raw _; eapply inner_stop; [exact W3|auto]]. rewrite (skip_ext _ _ _ q W3). subst d. cbn [N.eqb]. injection H as <- <-. reflexivity.
    + destruct (d =? c_comma) eqn:D2; [|discriminate]. apply N.eqb_eq in D2. rewrite (IHv _ _ _ V fuel' q L'); [|intros raw _; eapply inner_stop; [exact W3|auto]]. rewrite (skip_ext _ _ _ q W3), D1. subst d. rewrite N.eqb_refl.
      destruct (skip_ws s4) as [|z s5] eqn:W4; [destruct fuel; [discriminate|destruct fuel; discriminate]|]. rewrite (skip_value _ _ _ q W4), W4. destruct (parse_items fuel (z :: s5)) as [[l1 rest1]|] eqn:P; [|discriminate]. injection H as <- <-. rewrite (IHi _ _ _ P fuel' q L'). reflexivity.
Qed.
Lemma skip_app w s : skip_ws w = [] -> skip_ws (w ++ s) = skip_ws s.
Proof. induction w as [|x w IH]; [reflexivity|]. cbn [skip_ws app]. destruct (is_ws x); [exact IH|discriminate]. Qed.
Theorem torn p q v : json_load (p ++ q) = Some v -> (forall raw, v <> JNum raw) -> skip_ws q <> [] -> json_load p = None.
Proof.
  intros H NN Q. destruct (json_load p) as [v'|] eqn:P; [|reflexivity]. exfalso. unfold json_load in P, H.
  destruct (skip_ws p) as [|c r] eqn:W; [cbn in P; discriminate|]. rewrite (skip_value _ _ _ q W), W in H.
  destruct (parse_value (S (2 * length p)) (c :: r)) as [[v1 rest]|] eqn:V; [|discriminate]. destruct (skip_ws rest) as [|y rest'] eqn:R; [|discriminate]. injection P as ->.
  destruct v' as [|b|raw|s|l|l].
  3:{ (* a number, which the rest may continue *)
    destruct (parse_value (S (2 * length (p ++ q))) ((c :: r) ++ q)) as [[v2 rest2]|] eqn:V2; [|discriminate]. destruct (skip_ws rest2); [|discriminate]. injection H as ->.
    assert (X : c = c_minus \/ is_digit c = true).
    { cbn [parse_value] in V. destruct (c =? c_quote); [destruct (scan_str _ r) as [[? ?]|]; discriminate|]. destruct (c =? c_lbrace); [destruct (skip_ws r) as [|x t]; [discriminate|]; destruct (x =? c_rbrace); [discriminate|]; destruct (x =? c_quote); [|discriminate]; destruct (parse_pairs _ t) as [[? ?]|]; discriminate|].
      destruct (c =? c_lbrack); [destruct (skip_ws r) as [|x t]; [discriminate|]; destruct (x =? c_rbrack); [discriminate|]; destruct (parse_items _ (x :: t)) as [[? ?]|]; discriminate|].
      destruct (strip_prefix (lit "null") (c :: r)); [discriminate|]. destruct (strip_prefix (lit "true") (c :: r)); [discriminate|]. destruct (strip_prefix (lit "false") (c :: r)); [discriminate|].
      destruct (scan_number (c :: r)) as [[n t]|] eqn:N; [|discriminate]. apply scan_number_own in N. destruct N as [N E]. apply is_num_head in N. destruct N as (c' & r' & -> & N). injection E as -> _. exact N. }
    cbn [app parse_value] in V2. assert (K : (c =? c_quote) = false /\ (c =? c_lbrace) = false /\ (c =? c_lbrack) = false /\ c <> 110 /\ c <> 116 /\ c <> 102) by (unfold c_minus, is_digit, c_quote, c_lbrace, c_lbrack in *; lia).
    destruct K as (K1 & K2 & K3 & K4 & K5 & K6). rewrite K1, K2, K3 in V2. unfold strip_prefix in V2.
    assert (Hp : forall x t, x <> c -> starts_with (x :: t) (c :: r ++ q) = false) by (intros x t Hx; cbn [starts_with]; apply N.eqb_neq in Hx; rewrite Hx; reflexivity).
    change (lit "null") with (110 :: lit "ull") in V2. change (lit "true") with (116 :: lit "rue") in V2. change (lit "false") with (102 :: lit "alse") in V2. rewrite !Hp in V2 by congruence.
    destruct (scan_number (c :: r ++ q)) as [[n t]|]; [|discriminate]. injection V2 as <- _. exact (NN n eq_refl). }
  all: rewrite (proj1 (parse_ext _) _ _ _ V) in H; [|rewrite app_length; lia|intros raw X; discriminate X]; rewrite skip_app in H by exact R; destruct (skip_ws q); [contradiction|discriminate].
Qed.
