(** Whatever json.load reads from a text without surrogates can be written again. *)
From Verif Require Import Base Graph Json JsonProofs Html GlueJson.
From Coq Require Import String ZArith NArith Bool List Lia ZifyN ZifyBool ZifyNat.
Import ListNotations.
Open Scope list_scope.
Open Scope N_scope.

Definition scalar (c : N) : Prop := c < 1114112 /\ ~ 55296 <= c <= 57343.
Definition low_head (t : str) : bool := match t with d :: _ => is_low d | [] => false end.
Lemma hex_val_lt c n : hex_val c = Some n -> n < 16.
Proof. unfold hex_val. destruct (_ && _) eqn:A; [intros H; injection H as <-; lia|]. destruct ((97 <=? c) && _) eqn:B; [intros H; injection H as <-; lia|]. destruct ((65 <=? c) && _) eqn:C; [intros H; injection H as <-; lia|discriminate]. Qed.
Lemma take_hex4_ok s u r : take_hex4 s = Some (u, r) -> u < 65536 /\ exists a, s = a ++ r.
Proof.
  unfold take_hex4. destruct s as [|a [|b [|c [|d s]]]]; try discriminate. destruct (hex_val a) as [x|] eqn:A; [|discriminate]. destruct (hex_val b) as [y|] eqn:B; [|discriminate]. destruct (hex_val c) as [z|] eqn:C; [|discriminate]. destruct (hex_val d) as [w|] eqn:D; [|discriminate].
  apply hex_val_lt in A, B, C, D. intros H. injection H as <- <-. split; [lia|]. exists [a; b; c; d]. reflexivity.
Qed.
Lemma Forall_tail {A} (P : A -> Prop) a b : Forall P (a ++ b) -> Forall P b. Proof. intros H. apply Forall_app in H. tauto. Qed.
Lemma safe_cons c t : c < 1114112 -> json_safe t -> (is_high c = true -> low_head t = false) -> json_safe (c :: t).
Proof. intros A B C. cbn [json_safe]. split; [exact A|]. split; [|exact B]. destruct t; [exact I|exact C]. Qed.
(** a low surrogate comes first only if it is written as an escape *)
Definition low_escape (s : str) : Prop := exists s' u r, s = 92 :: 117 :: s' /\ take_hex4 s' = Some (u, r) /\ is_low u = true.
Lemma scan_str_safe fuel : forall s t rest, Forall scalar s -> scan_str fuel s = Some (t, rest) -> json_safe t /\ Forall scalar rest /\ (low_head t = true -> low_escape s).
Proof.
  induction fuel as [|fuel IH]; intros s t rest F H; [discriminate|]. cbn [scan_str] in H. destruct s as [|c r]; [discriminate|]. inversion F as [|c' r' Fc Fr]; subst.
  destruct (c =? c_quote) eqn:Q; [injection H as <- <-; split; [exact I|]; split; [exact Fr|discriminate]|]. destruct (c =? c_bs) eqn:B.
  - destruct r as [|e r2]; [discriminate|]. inversion Fr as [|e' r2' Fe Fr2]; subst. apply N.eqb_eq in B. subst c. destruct (e =? 117) eqn:U.
    + apply N.eqb_eq in U. subst e. destruct (take_hex4 r2) as [[u r3]|] eqn:T; [|discriminate]. destruct (take_hex4_ok _ _ _ T) as (Lu & a & ->). pose proof (Forall_tail _ _ _ Fr2) as F3.
      assert (alone : (is_high u = true -> ~ low_escape r3) -> forall t rest, match scan_str fuel r3 with Some (t, rest) => Some (u :: t, rest) | None => None end = Some (t, rest) -> json_safe t /\ Forall scalar rest /\ (low_head t = true -> low_escape (c_bs :: 117 :: a ++ r3))).
      { intros NL t0 rest0 H0. destruct (scan_str fuel r3) as [[t1 rest1]|] eqn:S; [|discriminate]. injection H0 as <- <-. destruct (IH _ _ _ F3 S) as (P1 & P2 & P3). split; [apply safe_cons; [lia|exact P1|]|split; [exact P2|]].
        - intros Hu. destruct (low_head t1) eqn:LH; [|reflexivity]. exfalso. exact (NL Hu (P3 eq_refl)).
        - cbn [low_head]. intros L. exists (a ++ r3), u, r3. auto. }
      cbv zeta in H. fold (is_high u) in H. destruct (is_high u) eqn:Hi; [|apply alone in H; [exact H|discriminate]].
      destruct r3 as [|b [|x r4]]; [apply alone in H; [exact H|intros _ (s' & u' & r' & X & _); discriminate X]|apply alone in H; [exact H|intros _ (s' & u' & r' & X & _); discriminate X]|].
      destruct ((b =? c_bs) && (x =? 117)) eqn:BX; [|apply alone in H; [exact H|intros _ (s' & u' & r' & X & _); injection X as -> -> ->; discriminate BX]].
      destruct (take_hex4 r4) as [[u2 r5]|] eqn:T2; [|discriminate]. fold (is_low u2) in H. destruct (is_low u2) eqn:Lo; [|apply alone in H; [exact H|intros _ (s' & u' & r' & X & Y & Z); injection X as -> -> ->; congruence]].
      destruct (take_hex4_ok _ _ _ T2) as (L2 & a2 & ->). destruct (scan_str fuel r5) as [[t1 rest1]|] eqn:S; [|discriminate]. assert (E1 : t = 65536 + (u - 55296) * 1024 + (u2 - 56320) :: t1) by congruence. assert (E2 : rest = rest1) by congruence. subst t rest. clear H. destruct (IH r5 t1 rest1) as (P1 & P2 & P3); [do 2 apply Forall_inv_tail in F3; exact (Forall_tail _ _ _ F3)|exact S|]. unfold is_high, is_low in Hi, Lo.
            split; [apply safe_cons; [lia|exact P1|unfold is_high; lia]|]. split; [exact P2|]. cbn [low_head]. unfold is_low. lia.
    + cbv zeta in H. destruct (if e =? c_quote then _ else _) as [d|] eqn:D; [|discriminate]. destruct (scan_str fuel r2) as [[t1 rest1]|] eqn:S; [|discriminate]. injection H as <- <-. destruct (IH _ _ _ Fr2 S) as (P1 & P2 & P3).
      assert (Ld : d < 128) by (revert D; repeat (match goal with |- context [if ?b then _ else _] => destruct b end; [intros X; injection X as <-; reflexivity|]); discriminate).
            split; [apply safe_cons; [lia|exact P1|unfold is_high; lia]|]. split; [exact P2|]. cbn [low_head]. unfold is_low. lia.
  - destruct (c <? 32) eqn:C; [discriminate|]. destruct (scan_str fuel r) as [[t1 rest1]|] eqn:S; [|discriminate]. injection H as <- <-. destruct (IH _ _ _ Fr S) as (P1 & P2 & P3). destruct Fc as [Fc1 Fc2]. split; [apply safe_cons; [exact Fc1|exact P1|unfold is_high; lia]|]. split; [exact P2|]. cbn [low_head]. unfold is_low. lia.
Qed.

(** * Numbers *)
Lemma span_digits_own s : forall d t, span_digits s = (d, t) -> span_digits d = (d, []).
Proof. induction s as [|c s IH]; intros d t H; cbn [span_digits] in H; [injection H as <- <-; reflexivity|]. destruct (is_digit c) eqn:E; [|injection H as <- <-; reflexivity]. destruct (span_digits s) as [d1 t1]. injection H as <- <-. cbn [span_digits]. rewrite E, (IH _ _ eq_refl). reflexivity. Qed.
Lemma scan_int_own s d t : scan_int_part s = Some (d, t) -> scan_int_part d = Some (d, []) /\ s = d ++ t.
Proof.
  unfold scan_int_part. destruct s as [|c r]; [discriminate|]. destruct (c =? 48) eqn:E; [intros H; injection H as <- <-; apply N.eqb_eq in E; subst c; split; reflexivity|]. destruct (is_digit c) eqn:D; [|discriminate].
  destruct (span_digits r) as [d1 t1] eqn:S. intros H. injection H as <- <-. rewrite E, D, (span_digits_own _ _ _ S), (span_digits_split _ _ _ S). split; reflexivity.
Qed.
Lemma scan_frac_own s d t : scan_frac s = (d, t) -> scan_frac d = (d, []) /\ s = d ++ t.
Proof.
  unfold scan_frac. destruct s as [|c r]; [intros H; injection H as <- <-; split; reflexivity|]. destruct (c =? c_dot) eqn:E; [|intros H; injection H as <- <-; split; reflexivity].
  destruct (span_digits r) as [[|x d1] t1] eqn:S; intros H; injection H as <- <-; [split; reflexivity|]. rewrite E, (span_digits_own _ _ _ S), (span_digits_split _ _ _ S). split; reflexivity.
Qed.
Lemma scan_exp_own s d t : scan_exp s = (d, t) -> scan_exp d = (d, []) /\ s = d ++ t.
Proof.
  unfold scan_exp. destruct s as [|c r]; [intros H; injection H as <- <-; split; reflexivity|]. destruct ((c =? 101) || (c =? 69)) eqn:E; [|intros H; injection H as <- <-; split; reflexivity].
  destruct r as [|sg r2]; [intros H; injection H as <- <-; split; reflexivity|]. destruct ((sg =? c_minus) || (sg =? c_plus)) eqn:G.
  - destruct (span_digits r2) as [[|x d1] t1] eqn:S; intros H; injection H as <- <-; [split; reflexivity|]. rewrite E, G, (span_digits_own _ _ _ S), (span_digits_split _ _ _ S). split; reflexivity.
  - destruct (span_digits (sg :: r2)) as [[|x d1] t1] eqn:S; intros H; injection H as <- <-; [split; reflexivity|]. pose proof (span_digits_split _ _ _ S) as X. injection X as -> ->. rewrite E, G, (span_digits_own _ _ _ S). split; reflexivity.
Qed.
Definition undigit (s : str) : Prop := match s with c :: _ => is_digit c = false | [] => True end.
Lemma span_stop d rest : span_digits d = (d, []) -> undigit rest -> span_digits (d ++ rest) = (d, rest).
Proof. intros S U. rewrite (span_digits_app d d [] rest S); [reflexivity|right; exact U]. Qed.
Lemma int_stop d rest : scan_int_part d = Some (d, []) -> undigit rest -> scan_int_part (d ++ rest) = Some (d, rest).
Proof.
  unfold scan_int_part. destruct d as [|c r]; [discriminate|]. cbn [app]. destruct (c =? 48); [intros H _; inversion H; subst; reflexivity|]. destruct (is_digit c); [|discriminate]. destruct (span_digits r) as [d1 t1] eqn:S. intros H U. injection H as -> ->. rewrite (span_stop _ _ S U). reflexivity.
Qed.
Lemma frac_stop d rest : scan_frac d = (d, []) -> undigit rest -> (forall r, rest <> c_dot :: r) -> scan_frac (d ++ rest) = (d, rest).
Proof.
  unfold scan_frac. destruct d as [|c r]; cbn [app].
  - intros _ _ N. destruct rest as [|c r]; [reflexivity|]. destruct (c =? c_dot) eqn:E; [apply N.eqb_eq in E; subst c; exfalso; exact (N r eq_refl)|reflexivity].
  - destruct (c =? c_dot); [|discriminate]. destruct (span_digits r) as [[|x d1] t1] eqn:S; [discriminate|]. intros H U _. injection H as <- ->. rewrite (span_stop _ _ S U). reflexivity.
Qed.
Lemma exp_head e : scan_exp e = (e, []) -> undigit e /\ forall r, e <> c_dot :: r.
Proof.
  unfold scan_exp. destruct e as [|c r]; [intros _; split; [exact I|discriminate]|]. destruct ((c =? 101) || (c =? 69)) eqn:E; [|discriminate]. intros _. split; [cbn; unfold is_digit; lia|]. intros r' X. injection X as -> _. discriminate E.
Qed.
Lemma frac_head f e : scan_frac f = (f, []) -> undigit e -> undigit (f ++ e).
Proof. destruct f as [|c r]; [intros _ H; exact H|]. unfold scan_frac. destruct (c =? c_dot) eqn:E; [|discriminate]. intros _ _. cbn. apply N.eqb_eq in E. subst c. reflexivity. Qed.
Lemma scan_number_own s n t : scan_number s = Some (n, t) -> is_num n /\ s = n ++ t.
Proof.
  unfold scan_number, is_num. intros H.
  set (sg := match s with c :: r => if c =? c_minus then ([c_minus], r) else ([], s) | [] => ([], s) end) in *.
  assert (X : s = fst sg ++ snd sg /\ (fst sg = [] \/ fst sg = [c_minus])).
  { subst sg. destruct s as [|c r]; [split; [reflexivity|left; reflexivity]|]. destruct (c =? c_minus) eqn:E; [apply N.eqb_eq in E; subst c|]; split; try reflexivity; auto. }
  destruct sg as [sign s1]. cbn [fst snd] in X. destruct X as [-> X]. destruct (scan_int_part s1) as [[i s2]|] eqn:I; [|discriminate]. destruct (scan_frac s2) as [f s3] eqn:F. destruct (scan_exp s3) as [e s4] eqn:E. injection H as <- <-.
  apply scan_int_own in I. apply scan_frac_own in F. apply scan_exp_own in E. destruct I as [I ->], F as [F ->], E as [E ->]. split; [|rewrite !app_assoc; reflexivity].
  destruct (exp_head _ E) as [U D]. pose proof (int_stop i (f ++ e) I (frac_head _ _ F U)) as SI. pose proof (frac_stop f e F U D) as SF. destruct X as [->| ->]; cbn [app].
  - destruct (i ++ f ++ e) as [|c r] eqn:Z; [discriminate SI|]. cbv iota beta. destruct (c =? c_minus) eqn:M.
    + exfalso. apply N.eqb_eq in M. subst c. discriminate SI.
    + unfold scan_number. rewrite M. rewrite SI, SF, E. cbn [app]. rewrite Z. reflexivity.
  - unfold scan_number. rewrite N.eqb_refl, SI, SF, E. reflexivity.
Qed.

(** * Values *)
Lemma skip_scalar s : Forall scalar s -> Forall scalar (skip_ws s).
Proof. induction 1 as [|c s C F IH]; [constructor|]. cbn [skip_ws]. destruct (is_ws c); [exact IH|constructor; assumption]. Qed.
Lemma strip_scalar p s rest : Forall scalar s -> strip_prefix p s = Some rest -> Forall scalar rest.
Proof. unfold strip_prefix. destruct (starts_with p s); [|discriminate]. intros F H. injection H as <-. rewrite <- (firstn_skipn (length p) s) in F. exact (Forall_tail _ _ _ F). Qed.
Definition pair_ok (x : str * json) : Prop := json_safe (fst x) /\ json_ok (snd x).
Lemma parse_ok fuel :
  (forall s v rest, Forall scalar s -> parse_value fuel s = Some (v, rest) -> json_ok v /\ Forall scalar rest) /\
  (forall s l rest, Forall scalar s -> parse_pairs fuel s = Some (l, rest) -> Forall pair_ok l /\ Forall scalar rest) /\
  (forall s l rest, Forall scalar s -> parse_items fuel s = Some (l, rest) -> Forall json_ok l /\ Forall scalar rest).
Proof.
  induction fuel as [|fuel (IV & IP & II)]; [split; [|split]; discriminate|]. split; [|split].
  - intros s v rest F H. cbn [parse_value] in H. destruct s as [|c r]; [discriminate|]. inversion F as [|c' r' Fc Fr]; subst. destruct (c =? c_quote).
    { destruct (scan_str _ r) as [[t rest1]|] eqn:S; [|discriminate]. injection H as <- <-. apply scan_str_safe in S; [|exact Fr]. split; tauto. }
    destruct (c =? c_lbrace).
    { pose proof (skip_scalar _ Fr) as G. destruct (skip_ws r) as [|x r1]; [discriminate|]. apply Forall_inv_tail in G. destruct (x =? c_rbrace); [injection H as <- <-; split; [exact I|exact G]|]. destruct (x =? c_quote); [|discriminate].
      destruct (parse_pairs fuel r1) as [[l rest1]|] eqn:P; [|discriminate]. injection H as <- <-. apply IP in P; [|exact G]. split; [apply ok_obj|]; tauto. }
    destruct (c =? c_lbrack).
    { pose proof (skip_scalar _ Fr) as G. destruct (skip_ws r) as [|x r1]; [discriminate|]. destruct (x =? c_rbrack); [injection H as <- <-; apply Forall_inv_tail in G; split; [exact I|exact G]|].
      destruct (parse_items fuel (x :: r1)) as [[l rest1]|] eqn:P; [|discriminate]. injection H as <- <-. apply II in P; [|exact G]. split; [apply ok_list|]; tauto. }
    destruct (strip_prefix (lit "null") (c :: r)) as [rest1|] eqn:P1; [injection H as <- <-; split; [exact I|exact (strip_scalar _ _ _ F P1)]|].
    destruct (strip_prefix (lit "true") (c :: r)) as [rest1|] eqn:P2; [injection H as <- <-; split; [exact I|exact (strip_scalar _ _ _ F P2)]|].
    destruct (strip_prefix (lit "false") (c :: r)) as [rest1|] eqn:P3; [injection H as <- <-; split; [exact I|exact (strip_scalar _ _ _ F P3)]|].
    destruct (scan_number (c :: r)) as [[n rest1]|] eqn:N; [|discriminate]. injection H as <- <-. apply scan_number_own in N. destruct N as [N E]. rewrite E in F. split; [exact N|exact (Forall_tail _ _ _ F)].
  - intros s l rest F H. cbn [parse_pairs] in H. destruct (scan_str _ s) as [[k s1]|] eqn:S; [|discriminate]. apply scan_str_safe in S; [|exact F]. destruct S as (K & F1 & _). apply skip_scalar in F1. destruct (skip_ws s1) as [|c s2]; [discriminate|]. destruct (c =? c_colon); [|discriminate]. apply Forall_inv_tail, skip_scalar in F1.
    destruct (parse_value fuel (skip_ws s2)) as [[v s3]|] eqn:V; [|discriminate]. apply IV in V; [|exact F1]. destruct V as [V F3]. apply skip_scalar in F3. destruct (skip_ws s3) as [|d s4]; [discriminate|]. apply Forall_inv_tail in F3. destruct (d =? c_rbrace); [injection H as <- <-; split; [repeat constructor; assumption|exact F3]|].
    destruct (d =? c_comma); [|discriminate]. apply skip_scalar in F3. destruct (skip_ws s4) as [|q s5]; [discriminate|]. apply Forall_inv_tail in F3. destruct (q =? c_quote); [|discriminate]. destruct (parse_pairs fuel s5) as [[l1 rest1]|] eqn:P; [|discriminate]. injection H as <- <-. apply IP in P; [|exact F3]. destruct P as [P F5]. split; [constructor; [split; assumption|exact P]|exact F5].
  - intros s l rest F H. cbn [parse_items] in H. destruct (parse_value fuel s) as [[v s1]|] eqn:V; [|discriminate]. apply IV in V; [|exact F]. destruct V as [V F1]. apply skip_scalar in F1. destruct (skip_ws s1) as [|d s2]; [discriminate|]. apply Forall_inv_tail in F1. destruct (d =? c_rbrack); [injection H as <- <-; split; [repeat constructor; assumption|exact F1]|].
    destruct (d =? c_comma); [|discriminate]. apply skip_scalar in F1. destruct (parse_items fuel (skip_ws s2)) as [[l1 rest1]|] eqn:P; [|discriminate]. injection H as <- <-. apply II in P; [|exact F1]. destruct P as [P F5]. split; [constructor; assumption|exact F5].
Qed.
Theorem load_ok s v : Forall scalar s -> json_load s = Some v -> json_ok v.
Proof.
  unfold json_load. intros F H. destruct (parse_value _ (skip_ws s)) as [[w rest]|] eqn:P; [|discriminate]. apply parse_ok in P; [|apply skip_scalar; exact F]. destruct (skip_ws rest); [|discriminate]. injection H as <-. tauto.
Qed.
Lemma dset_pair k v d : pair_ok (k, v) -> Forall pair_ok d -> Forall pair_ok (dset k v d).
Proof. intros K. induction 1 as [|[a w] d A D IH]; cbn [dset]; [repeat constructor; apply K|]. destruct (str_eqb k a) eqn:E; constructor; try assumption. apply str_eqb_eq in E. subst a. exact K. Qed.
Lemma norm_ok v : json_ok v -> json_ok (jnorm v).
Proof.
  remember (depth v) as n eqn:E. assert (L : (depth v <= n)%nat) by lia. clear E. revert v L. induction n as [|n IH]; intros v L K.
  - destruct v; try exact K; cbn [depth] in L; lia.
  - destruct v as [|b|raw|s|l|l]; try exact K; cbn [jnorm].
    + apply ok_list. apply ok_list in K. rewrite Forall_forall in K. apply Forall_forall. intros x X. apply in_map_iff in X. destruct X as (y & <- & Y). apply IH; [|exact (K y Y)]. pose proof (depth_list l y Y). lia.
    + apply ok_obj. apply ok_obj in K. assert (G : forall y k, In (k, y) l -> (depth y <= n)%nat) by (intros y k Y; pose proof (depth_obj l k y Y); lia).
      assert (Z : forall d, Forall pair_ok d -> Forall pair_ok (fold_left (fun d kv => dset (fst kv) (jnorm (snd kv)) d) l d)); [|exact (Z [] (Forall_nil _))].
      clear L. induction K as [|[k x] l [K1 K2] K IHl]; intros d D; [exact D|]. cbn [fold_left fst snd]. apply IHl; [intros y q Y; apply (G y q); right; exact Y|]. apply dset_pair; [split; [exact K1|]; cbn [snd]; apply IH; [apply (G x k); left; reflexivity|exact K2]|exact D].
Qed.
