From Verif Require Import Base Graph PyStr Json JsonProofs Css CssSpec CssSound CssRoundSpec.
From Coq Require Import List NArith ZArith Bool Lia ZifyN ZifyBool.
Import ListNotations.
Open Scope list_scope.
Open Scope N_scope.

Lemma span_app p a rest : Forall (fun c => p c = true) a -> match rest with c :: _ => p c = false | [] => True end -> span p (a ++ rest) = (a, rest).
Proof.
  induction a as [|c a IH]; intros H R; cbn [app].
  - destruct rest as [|c r]; [reflexivity|]. cbn [span]. rewrite R. reflexivity.
  - inversion H as [|? ? Hc Ha]. subst. cbn [span]. rewrite Hc, (IH Ha R). reflexivity.
Qed.
Lemma comment_body_app v rest : (forall a b, v <> a ++ 42 :: 47 :: b) -> comment_body (v ++ 42 :: 47 :: rest) = Some (v, rest).
Proof.
  induction v as [|c v IH]; intros H; [reflexivity|]. assert (H' : forall a b, v <> a ++ 42 :: 47 :: b) by (intros a b ->; apply (H (c :: a) b); reflexivity).
  cbn [app comment_body]. rewrite (IH H'). destruct (v ++ 42 :: 47 :: rest) as [|d r] eqn:E; [destruct v; discriminate|].
  destruct ((c =? 42) && (d =? 47)) eqn:Ec; [|reflexivity]. exfalso. assert (c = 42 /\ d = 47) as (-> & ->) by lia. destruct v as [|x v']; [discriminate|]. cbn [app] in E. injection E as -> E. apply (H [] v'). reflexivity.
Qed.
Definition q_simple (q c : N) : bool := existsb (N.eqb c) ([q] ++ [92]).
Lemma simple_string q : q = 34 \/ q = 39 -> forall v rest fuel, Forall printable v -> (length (flat_map (serialize_char (q_simple q)) v) < fuel)%nat ->
  string_body fuel q (flat_map (serialize_char (q_simple q)) v ++ q :: rest) = Ret (true, v, rest).
Proof.
  intros Hq. induction v as [|c v IH]; intros rest fuel Hp Hl; cbn [flat_map app].
  - destruct fuel as [|k]; [simpl in Hl; lia|]. cbn [string_body]. rewrite N.eqb_refl. reflexivity.
  - inversion Hp as [|? ? Hc Hv]. subst. cbn [flat_map] in Hl. rewrite app_length in Hl. unfold printable in Hc.
    assert (Ec : (exists x, serialize_char (q_simple q) c = [92; c] /\ (c = q \/ c = 92) /\ x = c) \/ (serialize_char (q_simple q) c = [c] /\ c <> q /\ c <> 92)).
    { unfold serialize_char, q_simple. cbn [existsb app]. destruct ((c =? q) || ((c =? 92) || false)) eqn:E; [left; exists c; split; [reflexivity|]; split; [lia|reflexivity]|].
      right. unfold special. destruct (c =? 10) eqn:E1; [lia|]. destruct (c =? 13) eqn:E2; [lia|]. destruct (c =? 9) eqn:E3; [lia|]. destruct (c =? 8) eqn:E4; [lia|]. destruct (c =? 12) eqn:E5; [lia|]. destruct (c =? 11) eqn:E6; [lia|]. destruct (c =? 0) eqn:E7; [lia|].
      destruct (c <=? 8) eqn:E8; [lia|]. destruct ((14 <=? c) && (c <=? 31)) eqn:E9; [lia|]. destruct (127 <=? c) eqn:E10; [lia|]. cbn [orb]. split; [reflexivity|lia]. }
    destruct Ec as [(x & E & Hx & _)|(E & H1 & H2)]; rewrite E in *.
    + cbn [app length] in *. destruct fuel as [|k]; [lia|]. cbn [string_body]. assert (E1 : (92 =? q) = false) by lia. rewrite E1. change (92 =? 10) with false. change (92 =? 92) with true. cbv iota.
      assert (E2 : (c =? 10) = false) by lia. rewrite E2. cbn [escaped]. assert (E3 : is_hex c = false) by (destruct Hx as [->| ->]; [destruct Hq as [->| ->]; reflexivity|reflexivity]). rewrite E3.
      assert (L : (length (flat_map (serialize_char (q_simple q)) v) < k)%nat) by lia. pose proof (IH rest k Hv L) as IH'. cbn [app] in IH'. rewrite IH'. reflexivity.
    + cbn [app length] in *. destruct fuel as [|k]; [lia|]. cbn [string_body]. assert (E1 : (c =? q) = false) by lia. rewrite E1. assert (E2 : (c =? 10) = false) by lia. rewrite E2. assert (E3 : (c =? 92) = false) by lia. rewrite E3.
      assert (L : (length (flat_map (serialize_char (q_simple q)) v) < k)%nat) by lia. pose proof (IH rest k Hv L) as IH'. cbn [app] in IH'. rewrite IH'. reflexivity.
Qed.
Lemma auto_quote_shape v : exists q, (q = 34 \/ q = 39) /\ auto_quote v = q :: flat_map (serialize_char (q_simple q)) v ++ [q].
Proof. unfold auto_quote, serialize_string. destruct (negb (existsb (N.eqb 34) v)); [exists 34; auto|]. destruct (negb (existsb (N.eqb 39) v)); [exists 39; auto|exists 34; auto]. Qed.

Definition url_simple (c : N) : bool := existsb (N.eqb c) ([] ++ [34; 39; 40; 92]).
Lemma simple_url : forall v rest fuel, Forall (fun c => 33 <= c <= 126 /\ c <> 41) v -> (length (flat_map (serialize_char url_simple) v) < fuel)%nat ->
  url_body fuel (flat_map (serialize_char url_simple) v ++ 41 :: rest) = Ret (Some v, rest).
Proof.
  induction v as [|c v IH]; intros rest fuel Hp Hl; cbn [flat_map app].
  - destruct fuel as [|k]; [simpl in Hl; lia|]. cbn [url_body]. reflexivity.
  - inversion Hp as [|? ? (Hc & Hc2) Hv]. subst. cbn [flat_map] in Hl. rewrite app_length in Hl.
    assert (Ec : (serialize_char url_simple c = [92; c] /\ (c = 34 \/ c = 39 \/ c = 40 \/ c = 92)) \/ (serialize_char url_simple c = [c] /\ c <> 34 /\ c <> 39 /\ c <> 40 /\ c <> 92)).
    { unfold serialize_char, url_simple. cbn [existsb app]. destruct ((c =? 34) || _) eqn:E; [left; split; [reflexivity|lia]|].
      right. unfold special. destruct (c =? 10) eqn:E1; [lia|]. destruct (c =? 13) eqn:E2; [lia|]. destruct (c =? 9) eqn:E3; [lia|]. destruct (c =? 8) eqn:E4; [lia|]. destruct (c =? 12) eqn:E5; [lia|]. destruct (c =? 11) eqn:E6; [lia|]. destruct (c =? 0) eqn:E7; [lia|].
      destruct (c <=? 8) eqn:E8; [lia|]. destruct ((14 <=? c) && (c <=? 31)) eqn:E9; [lia|]. destruct (127 <=? c) eqn:E10; [lia|]. cbn [orb]. split; [reflexivity|lia]. }
    destruct Ec as [(E & Hx)|(E & Hx)]; rewrite E in *; cbn [app length] in *; (destruct fuel as [|k]; [lia|]); cbn [url_body].
    + change (92 =? 41) with false. change (is_space 92) with false. change ((92 =? 34) || (92 =? 39) || (92 =? 40) || non_printable 92) with false. cbv iota. cbn [valid_escape].
      change (92 =? 92) with true. assert (E2 : (c =? 10) = false) by lia. rewrite E2. cbn [andb negb escaped]. assert (E3 : is_hex c = false) by (destruct Hx as [->|[->|[->| ->]]]; reflexivity). rewrite E3. rewrite (IH rest k Hv) by lia. reflexivity.
    + assert (E1 : (c =? 41) = false) by lia. rewrite E1. assert (E2 : is_space c = false) by (unfold is_space; lia). rewrite E2.
      assert (E3 : ((c =? 34) || (c =? 39) || (c =? 40) || non_printable c) = false) by (unfold non_printable; lia). rewrite E3. assert (E4 : (c =? 92) = false) by lia. rewrite E4. cbn [andb]. rewrite (IH rest k Hv) by lia. reflexivity.
Qed.

Lemma ident_sequence_iff s : s <> [] -> exists b, ident_sequence s = Ret b /\ (b = true <-> name_follows s).
Proof.
  intros Hne. destruct s as [|a [|b [|c t]]]; [congruence|exists false; split; [reflexivity|]; split; [discriminate|intros (? & ? & ? & ? & X & _); discriminate]|exists false; split; [reflexivity|]; split; [discriminate|intros (? & ? & ? & ? & X & _); discriminate]|].
  cbn [ident_sequence]. eexists. split; [reflexivity|]. unfold name_follows. split.
  - intros H. exists a, b, c, t. split; [reflexivity|]. destruct (a =? 45) eqn:E1.
    + right. left. split; [lia|]. cbn [valid_escape] in H. destruct (ident_start b) eqn:E2; [left; apply ident_start_iff; exact E2|]. right. lia.
    + destruct (ident_start a) eqn:E2; [left; apply ident_start_iff; exact E2|]. right. right. cbn [valid_escape] in H. destruct (a =? 92) eqn:E3; lia.
  - intros (a' & b' & c' & t' & X & H). injection X as <- <- <- <-. destruct H as [H|[(-> & H)|(-> & H)]].
    + assert (E1 : (a =? 45) = false) by (unfold name_start, letter in H; lia). rewrite E1. apply ident_start_iff in H. rewrite H. reflexivity.
    + change (45 =? 45) with true. cbv iota. cbn [valid_escape]. destruct H as [H|[->|(-> & H)]]; [apply ident_start_iff in H; rewrite H; reflexivity|rewrite orb_true_iff; left; apply orb_true_r|apply orb_true_iff; right; lia].
    + change (92 =? 45) with false. change (ident_start 92) with false. change (92 =? 92) with true. cbv iota. cbn [valid_escape]. lia.
Qed.
Lemma ident_sequence_yes s : name_follows s -> ident_sequence s = Ret true.
Proof. intros H. destruct (ident_sequence_iff s) as (b & -> & Hb); [destruct H as (? & ? & ? & ? & -> & _); discriminate|]. f_equal. apply Hb. exact H. Qed.
Lemma ident_sequence_no s : s <> [] -> ~ name_follows s -> ident_sequence s = Ret false.
Proof. intros Hne H. destruct (ident_sequence_iff s Hne) as ([|] & -> & Hb); [exfalso; apply H; apply Hb; reflexivity|reflexivity]. Qed.

Lemma json_digits ds : Forall (fun c => Json.is_digit c = true) ds -> Forall digit ds.
Proof. intros H. eapply Forall_impl; [|exact H]. intros c. apply json_digit_iff. Qed.
Lemma ascii_digits ds : Forall digit ds -> is_ascii ds = true.
Proof. intros H. unfold is_ascii. apply forallb_forall. intros c Hc. rewrite Forall_forall in H. specialize (H c Hc). unfold digit in H. lia. Qed.
Section Round.
Context {F : Type} (float_of : str -> option F) (float_str : F -> str).
Context (high_digit : N -> bool) (int_high : str -> option Z).
Notation dec := (dec high_digit).
Notation number := (number float_of high_digit int_high).
Notation next_token := (next_token float_of high_digit int_high).
Notation tokens := (tokens float_of high_digit int_high).
Notation serialize := (serialize float_str).
Notation serialize_many := (serialize_many float_str).
Notation fits := (fits float_of float_str high_digit).
Notation separable := (separable float_of float_str high_digit).

Lemma ident_seq_app v rest fuel : Forall name_char v -> stops rest -> (length v < fuel)%nat -> ident_seq high_digit fuel (v ++ rest) = Ret (v, rest).
Proof.
  revert fuel. induction v as [|c v IH]; intros fuel Hv (R1 & R2) Hl; (destruct fuel as [|k]; [lia|]); cbn [app ident_seq].
  - destruct rest as [|c r]; [reflexivity|]. destruct (ident_cp high_digit c) eqn:E; [exfalso; apply ident_cp_iff in E; exact (R1 _ _ eq_refl E)|].
    destruct (valid_escape (c :: r)) eqn:Ev; [|reflexivity]. destruct (valid_escape_spec _ Ev) as (d & t & X & Hd). injection X as -> ->. exfalso. apply Hd. eapply R2. reflexivity.
  - inversion Hv as [|? ? Hc Hv']. subst. apply (ident_cp_iff high_digit) in Hc. rewrite Hc. rewrite (IH k Hv' (conj R1 R2)) by (simpl in Hl; lia). reflexivity.
Qed.
(** numbers *)
Lemma is_dec_false c : ~ dec c -> is_dec high_digit c = false.
Proof. intros H. destruct (is_dec high_digit c) eqn:E; [|reflexivity]. exfalso. apply H. apply is_dec_iff. exact E. Qed.
Lemma digit_dec c : digit c -> is_dec high_digit c = true.
Proof. intros H. apply is_dec_iff. left. exact H. Qed.
Lemma digits_dec ds : Forall digit ds -> Forall (fun c => is_dec high_digit c = true) ds.
Proof. intros H. eapply Forall_impl; [|exact H]. intros c. apply digit_dec. Qed.
Definition not_dec_head (s : str) : Prop := match s with c :: _ => is_dec high_digit c = false | [] => True end.
Lemma sign_digits_app sg ds rest : sign sg -> Forall digit ds -> not_dec_head rest -> (sg = [] -> match ds ++ rest with c :: _ => c <> 43 /\ c <> 45 | [] => True end) ->
  sign_digits high_digit (sg ++ ds ++ rest) = (sg ++ ds, rest).
Proof.
  intros Hs Hd Hr Hx. pose proof (span_app (is_dec high_digit) ds rest (digits_dec _ Hd) Hr) as E. destruct Hs as [->|[->| ->]]; cbn [app].
  - specialize (Hx eq_refl). unfold sign_digits. destruct (ds ++ rest) as [|c t] eqn:Eq; [injection E as <- <-; reflexivity|]. assert (E1 : ((c =? 43) || (c =? 45)) = false) by lia. rewrite E1. exact E.
  - unfold sign_digits. change ((43 =? 43) || (43 =? 45)) with true. cbv iota. rewrite E. reflexivity.
  - unfold sign_digits. change ((45 =? 43) || (45 =? 45)) with true. cbv iota. rewrite E. reflexivity.
Qed.
Lemma number_ends_head rest : number_ends high_digit rest -> not_dec_head rest.
Proof. intros (A & _). destruct rest as [|c t]; [exact I|]. apply is_dec_false. eapply A. reflexivity. Qed.
(** no exponent *)
Lemma exponent_none repr frac rest : number_ends high_digit rest -> (frac = true \/ (2 <= length rest)%nat) ->
  exponent float_of high_digit int_high repr frac rest = if frac then to_float float_of repr rest else to_int int_high repr rest.
Proof.
  intros (A & B & C & D) Hl. unfold exponent. destruct rest as [|a [|b r]].
  - destruct frac; [reflexivity|]. destruct Hl; [discriminate|simpl in *; lia].
  - destruct frac; [reflexivity|]. destruct Hl; [discriminate|simpl in *; lia].
  - match goal with |- (if ?c then _ else _) = _ => destruct c eqn:Ec end; [|reflexivity]. exfalso. apply andb_prop in Ec. destruct Ec as (Ea & Eb). assert (Ha : a = 101 \/ a = 69) by lia. apply orb_prop in Eb. destruct Eb as [Eb|Eb].
    + apply (C a b r eq_refl Ha). apply is_dec_iff. exact Eb.
    + apply andb_prop in Eb. destruct Eb as (Es & Ed). destruct r as [|c r']; [discriminate|]. apply (D a b c r' eq_refl Ha ltac:(lia)). apply is_dec_iff. exact Ed.
Qed.
Lemma not_dot_dec a b r : number_ends high_digit (a :: b :: r) -> (a =? 46) && is_dec high_digit b = false.
Proof.
  intros (_ & B & _). destruct ((a =? 46) && is_dec high_digit b) eqn:E; [|reflexivity]. exfalso. apply andb_prop in E. destruct E as (E1 & E2). apply N.eqb_eq in E1. subst a. apply (B b r eq_refl). apply is_dec_iff. exact E2.
Qed.
Lemma print_Z_shape z : exists sg ds, print_Z z = sg ++ ds /\ (sg = [] \/ sg = [45]) /\ ds <> [] /\ Forall digit ds /\ forall rest, @to_int F int_high (print_Z z) rest = Ret (NInt z, false, rest).
Proof.
  clear float_of float_str high_digit.
  assert (HD : forall n, print_N n <> [] /\ Forall digit (print_N n)).
  { intros n. destruct (print_N_spec n) as (ds & -> & A & B & C & _). split; [exact C|apply json_digits; exact B]. }
  assert (HI : is_ascii (print_Z z) = true /\ exists sg ds, print_Z z = sg ++ ds /\ (sg = [] \/ sg = [45]) /\ ds <> [] /\ Forall digit ds).
  { destruct z as [|p|p]; cbn [print_Z].
    - split; [reflexivity|]. exists [], [48]. repeat split; auto; [discriminate|]. repeat constructor; unfold digit; lia.
    - destruct (HD (Npos p)) as (A & B). split; [apply ascii_digits; exact B|]. exists [], (print_N (Npos p)). auto.
    - destruct (HD (Npos p)) as (A & B). split; [cbn [is_ascii forallb]; apply ascii_digits in B; exact B|]. exists [45], (print_N (Npos p)). auto. }
  destruct HI as (HA & sg & ds & E & Hs & Hn & Hd). exists sg, ds. repeat (split; [assumption|]). intros rest. unfold to_int, int_of. rewrite HA. pose proof (parse_Z_print z) as P. destruct (print_Z z) as [|c r] eqn:Ez; [discriminate|].
  assert (Ec : (c =? 43) = false). { destruct Hs as [->| ->]; cbn [app] in E; [subst ds; inversion Hd as [|? ? Hc _]; unfold digit in Hc; lia|injection E as -> _; reflexivity]. }
  rewrite Ec, P. reflexivity.
Qed.
Lemma digit_not_sign ds rest : ds <> [] -> Forall digit ds -> match ds ++ rest with c :: _ => c <> 43 /\ c <> 45 | [] => True end.
Proof. intros Hn Hd. destruct ds as [|c r]; [congruence|]. cbn [app]. inversion Hd as [|? ? Hc _]. unfold digit in Hc. lia. Qed.
Lemma number_int z rest : number_ends high_digit rest -> number (print_Z z ++ rest) = Ret (NInt z, false, rest).
Proof.
  intros He. destruct (print_Z_shape z) as (sg & ds & E & Hs & Hn & Hd & HT). unfold Css.number.
  assert (Es : sign_digits high_digit (print_Z z ++ rest) = (print_Z z, rest)).
  { rewrite E, <- app_assoc. apply sign_digits_app; [destruct Hs; unfold sign; auto|exact Hd|apply number_ends_head; exact He|intros _; apply digit_not_sign; assumption]. }
  assert (Hne : print_Z z ++ rest <> []) by (rewrite E; destruct Hs as [->| ->]; [destruct ds; [congruence|discriminate]|discriminate]).
  destruct (print_Z z ++ rest) as [|x y] eqn:Ex; [congruence|]. rewrite Es. clear x y Ex Es Hne. destruct rest as [|a [|b r]].
  - destruct (print_Z z) as [|x [|y t]] eqn:Ez; [destruct Hs as [->| ->]; [symmetry in E; cbn [app] in E; congruence|discriminate]| |apply HT].
    assert (Ex : ((x =? 43) || (x =? 45)) = false). { destruct Hs as [->| ->]; cbn [app] in E; [subst ds; inversion Hd as [|? ? Hc _]; unfold digit in Hc; lia|injection E as -> <-; congruence]. }
    rewrite Ex. apply HT.
  - apply HT.
  - rewrite (not_dot_dec _ _ _ He). rewrite exponent_none; [apply HT|exact He|right; simpl; lia].
Qed.
Lemma exponent_some repr frac e esg es rest : e = 101 \/ e = 69 -> sign esg -> es <> [] -> Forall digit es -> not_dec_head rest ->
  exponent float_of high_digit int_high repr frac ((e :: esg ++ es) ++ rest) = to_float float_of (repr ++ e :: esg ++ es) rest.
Proof.
  intros He Hs Hn Hd Hr. destruct es as [|d es]; [congruence|]. inversion Hd as [|? ? Hd1 Hd2]. subst. pose proof (digit_dec d Hd1) as E1.
  assert (Ee : ((e =? 101) || (e =? 69)) = true) by lia. unfold exponent. destruct Hs as [->|[->| ->]]; cbn [app].
  - rewrite Ee, E1. cbn [andb orb]. rewrite (span_app _ es rest (digits_dec _ Hd2) Hr). reflexivity.
  - rewrite Ee, E1. change ((43 =? 43) || (43 =? 45)) with true. cbn [andb orb]. rewrite orb_true_r. rewrite (span_app _ (d :: es) rest (digits_dec _ Hd) Hr : span (is_dec high_digit) (d :: es ++ rest) = _). reflexivity.
  - rewrite Ee, E1. change ((45 =? 43) || (45 =? 45)) with true. cbn [andb orb]. rewrite orb_true_r. rewrite (span_app _ (d :: es) rest (digits_dec _ Hd) Hr : span (is_dec high_digit) (d :: es ++ rest) = _). reflexivity.
Qed.
Lemma number_float f rest : good_num float_of float_str (NFloat f) true -> number_ends high_digit rest -> number (float_str f ++ rest) = Ret (NFloat f, true, rest).
Proof.
  intros (_ & Hf & sg & ds & fr & ex & E & Hs & Hd & Hn & Hfr & Hex & Hor) He.
  assert (HT : forall r, to_float float_of (sg ++ ds ++ fr ++ ex) r = Ret (NFloat f, true, r)) by (intros r; rewrite <- E; unfold to_float; rewrite Hf; reflexivity).
  rewrite E. unfold Css.number.
  assert (Hh : not_dec_head (fr ++ ex ++ rest)).
  { destruct Hfr as [->|(fs & -> & _)]; [|cbn [app not_dec_head]; apply is_dec_false; intros [X|X]; [unfold digit in X; lia|lia]]. cbn [app]. destruct Hex as [->|(e & esg & es & -> & H101 & _)]; [apply number_ends_head; exact He|]. cbn [app not_dec_head]. apply is_dec_false. intros [X|X]; [unfold digit in X; lia|lia]. }
  assert (Es : sign_digits high_digit ((sg ++ ds ++ fr ++ ex) ++ rest) = (sg ++ ds, fr ++ ex ++ rest)).
  { rewrite <- !app_assoc. apply sign_digits_app; [exact Hs|exact Hd|exact Hh|intros _; apply digit_not_sign; assumption]. }
  assert (Hne : (sg ++ ds ++ fr ++ ex) ++ rest <> []) by (destruct Hs as [->|[->| ->]]; [destruct ds; [congruence|discriminate]|discriminate|discriminate]).
  destruct ((sg ++ ds ++ fr ++ ex) ++ rest) as [|x y] eqn:Ex; [congruence|]. rewrite Es. clear x y Ex Es Hne.
  assert (Hexp : forall repr frac, repr ++ ex = sg ++ ds ++ fr ++ ex -> (ex = [] -> frac = true) -> exponent float_of high_digit int_high repr frac (ex ++ rest) = Ret (NFloat f, true, rest)).
  { intros repr frac Er Hx. destruct Hex as [->|(e & esg & es & -> & H101 & H1 & H2 & H3)].
    - cbn [app]. rewrite (Hx eq_refl). rewrite exponent_none by (auto). rewrite app_nil_r in Er. rewrite Er. apply HT.
    - rewrite (exponent_some repr frac e esg es rest H101 H1 H2 H3 (number_ends_head _ He)). rewrite Er. apply HT. }
  destruct Hfr as [->|(fs & -> & Hfn & Hfd)].
  - cbn [app]. destruct Hor as [X|Hx]; [congruence|]. specialize (Hexp (sg ++ ds) false). cbn [app] in Hexp. rewrite <- app_assoc in Hexp. specialize (Hexp eq_refl ltac:(congruence)).
    destruct Hex as [->|(e & esg & es & -> & H101 & H1 & H2 & H3)]; [congruence|]. destruct (esg ++ es) as [|b t] eqn:Eb; [destruct esg; [cbn [app] in Eb; congruence|discriminate]|]. cbn [app] in *.
    assert (Ed : (e =? 46) && is_dec high_digit b = false) by lia. rewrite Ed. exact Hexp.
  - destruct fs as [|d fs]; [congruence|]. inversion Hfd as [|? ? Hd1 Hd2]. subst. cbn [app]. change (46 =? 46) with true. rewrite (digit_dec d Hd1). cbn [andb].
    assert (Hhx : not_dec_head (ex ++ rest)).
    { destruct Hex as [->|(e & esg & es & -> & H101 & _)]; [apply number_ends_head; exact He|]. cbn [app not_dec_head]. apply is_dec_false. intros [X|X]; [unfold digit in X; lia|lia]. }
    rewrite (span_app _ fs (ex ++ rest) (digits_dec _ Hd2) Hhx). specialize (Hexp ((sg ++ ds) ++ 46 :: d :: fs) true). rewrite <- !app_assoc in Hexp. cbn [app] in Hexp. specialize (Hexp eq_refl ltac:(reflexivity)).
    destruct (ex ++ rest) as [|x y] eqn:Exr; [|rewrite <- app_assoc; exact Hexp]. rewrite <- app_assoc. unfold exponent in Hexp. exact Hexp.
Qed.
Lemma number_good v f rest : good_num float_of float_str v f -> number_ends high_digit rest -> number (num_str float_str v ++ rest) = Ret (v, f, rest).
Proof. intros Hg He. destruct v as [z|x]; [cbn in Hg; subst f; apply number_int; exact He|]. assert (f = true) as -> by apply Hg. apply number_float; assumption. Qed.
(** the first character of a number *)
Lemma num_starts v f rest : good_num float_of float_str v f -> rest <> [] -> exists c r, num_str float_str v ++ rest = c :: r /\ (is_dec high_digit c = true \/ ((c = 43 \/ c = 45) /\ is_number high_digit (c :: r) = true)).
Proof.
  intros Hg Hr. assert (S : exists sg ds t, num_str float_str v = sg ++ ds ++ t /\ sign sg /\ ds <> [] /\ Forall digit ds).
  { destruct v as [z|x]; cbn [num_str].
    - destruct (print_Z_shape z) as (sg & ds & -> & Hs & Hn & Hd & _). exists sg, ds, []. rewrite app_nil_r. unfold sign. destruct Hs; auto 6.
    - destruct Hg as (_ & _ & sg & ds & fr & ex & -> & Hs & Hd & Hn & _). exists sg, ds, (fr ++ ex). auto. }
  destruct S as (sg & ds & t & -> & Hs & Hn & Hd). destruct ds as [|d ds]; [congruence|]. inversion Hd as [|? ? Hd1 Hd2]. subst. pose proof (digit_dec d Hd1) as E1.
  assert (Hlen : exists z w, ds ++ t ++ rest = z :: w) by (destruct ds; [destruct t; [destruct rest; [congruence|]|]|]; do 2 eexists; reflexivity). destruct Hlen as (z & w & Hz).
  destruct Hs as [->|[->| ->]]; cbn [app]; rewrite <- ?app_assoc; rewrite ?Hz; eexists; eexists; (split; [reflexivity|]).
  - left. exact E1.
  - right. split; [left; reflexivity|]. cbn [is_number]. rewrite E1. reflexivity.
  - right. split; [right; reflexivity|]. cbn [is_number]. rewrite E1. reflexivity.
Qed.

Lemma numeric_pct fuel v f rest : good_num float_of float_str v f -> numeric_token float_of high_digit int_high fuel (num_str float_str v ++ 37 :: rest) = Ret (TPercentage v f, rest).
Proof.
  intros Hg. unfold numeric_token. rewrite (number_good v f (37 :: rest) Hg).
  - rewrite ident_sequence_no; [reflexivity|discriminate|]. intros (a & b & c & t & E & H). injection E as <- _. unfold name_start, letter in H. lia.
  - repeat split.
    + intros c t E. injection E as <- _. intros [X|X]; [unfold digit in X; lia|lia].
    + intros c t E. discriminate.
    + intros e c t E Hx. injection E as <- _. lia.
    + intros e s c t E Hx. injection E as <- _. lia.
Qed.
Lemma numeric_num fuel v f rest : fits (TNumber v f) rest -> numeric_token float_of high_digit int_high fuel (num_str float_str v ++ rest) = Ret (TNumber v f, rest).
Proof.
  intros (Hg & Hn & He & Hi & Hp). unfold numeric_token. rewrite (number_good v f rest Hg He). rewrite (ident_sequence_no rest Hn Hi). destruct rest as [|c r]; [congruence|].
  destruct (c =? 37) eqn:E; [|reflexivity]. exfalso. apply N.eqb_eq in E. subst c. apply Hp. exists r. reflexivity.
Qed.
Lemma numeric_dim fuel v f u rest : fits (TDimension v f u) rest -> (length u < fuel)%nat -> numeric_token float_of high_digit int_high fuel (num_str float_str v ++ u ++ rest) = Ret (TDimension v f u, rest).
Proof.
  intros (Hg & Hu & Hi & He & Hne & Hr) Hf. unfold numeric_token. rewrite (number_good v f (u ++ rest) Hg He). rewrite (ident_sequence_yes _ Hi). rewrite (ident_seq_app u rest fuel Hu Hr Hf). reflexivity.
Qed.
(** what the loop does with the first character of a number *)
Lemma next_numeric fuel c r : is_dec high_digit c = true \/ ((c = 43 \/ c = 45) /\ is_number high_digit (c :: r) = true) -> next_token fuel c r = numeric_token float_of high_digit int_high fuel (c :: r).
Proof.
  intros [H|([->| ->] & H)]; unfold Css.next_token; [|rewrite H; reflexivity|rewrite H; reflexivity].
  assert (Hc : (48 <= c <= 57) \/ 128 <= c) by (apply is_dec_iff in H; destruct H as [X|X]; [unfold digit in X; lia|lia]).
  repeat match goal with |- context [c =? ?k] => let E := fresh in assert (E : (c =? k) = false) by lia; rewrite E; clear E end. cbn [andb].
  assert (E : is_space c = false) by (unfold is_space; lia). rewrite E. rewrite H. reflexivity.
Qed.
Lemma name_start_next fuel c r : name_start c -> ~ dec c -> next_token fuel c r = ident_like high_digit fuel (c :: r).
Proof.
  intros Hs Hd. unfold Css.next_token. assert (Hc : (65 <= c <= 90) \/ (97 <= c <= 122) \/ c = 95 \/ 128 <= c) by (unfold name_start, letter in Hs; lia).
  repeat match goal with |- context [c =? ?k] => let E := fresh in assert (E : (c =? k) = false) by lia; rewrite E; clear E end. cbn [andb].
  assert (E : is_space c = false) by (unfold is_space; lia). rewrite E. rewrite (is_dec_false c Hd). apply ident_start_iff in Hs. rewrite Hs. reflexivity.
Qed.
Lemma hyphen_name_next fuel b r : (name_start b /\ ~ dec b) \/ b = 45 -> name_follows (45 :: b :: r) -> ~ starts [45; 45; 62] (45 :: b :: r) -> next_token fuel 45 (b :: r) = ident_like high_digit fuel (45 :: b :: r).
Proof.
  intros Hb Hf Hc. unfold Css.next_token. destruct r as [|c t]; [destruct Hf as (? & ? & ? & ? & X & _); discriminate|].
  assert (E1 : is_number high_digit (45 :: b :: c :: t) = false).
  { cbn [is_number]. change ((45 =? 43) || (45 =? 45)) with true. cbv iota. destruct Hb as [(B1 & B2)| ->].
    - rewrite (is_dec_false b B2). unfold name_start, letter in B1. assert (E : (b =? 46) = false) by lia. rewrite E. reflexivity.
    - rewrite is_dec_false; [reflexivity|]. intros [X|X]; [unfold digit in X; lia|lia]. }
  rewrite E1. destruct (starts_with [45; 45; 62] (45 :: b :: c :: t)) eqn:Ec; [exfalso; apply Hc; eexists; apply starts_with_split; exact Ec|].
  rewrite (ident_sequence_yes _ Hf). reflexivity.
Qed.
Lemma name_next fuel v rest : name high_digit v -> (starts [45] v -> name_follows (v ++ rest) /\ ~ starts [45; 45; 62] (v ++ rest)) -> exists c r, v ++ rest = c :: r /\ next_token fuel c r = ident_like high_digit fuel (v ++ rest).
Proof.
  intros (_ & a & r & -> & [(H1 & H2)|(-> & b & t & -> & Hb)]) Hh; cbn [app].
  - exists a, (r ++ rest). split; [reflexivity|]. apply name_start_next; assumption.
  - exists 45, (b :: t ++ rest). split; [reflexivity|]. destruct (Hh ltac:(exists (b :: t); reflexivity)) as (Hf & Hc). apply hyphen_name_next; assumption.
Qed.
Lemma url_space_quote rest q r : (q = 34 \/ q = 39) -> (rest = q :: r \/ exists w, space w /\ rest = w :: q :: r) -> url_space rest = rest.
Proof.
  intros Hq [->|(w & Hw & ->)]; cbn [url_space].
  - destruct r as [|b t]; [reflexivity|]. assert (E : is_space q = false) by (destruct Hq as [->| ->]; reflexivity). rewrite E. reflexivity.
  - assert (E : is_space q = false) by (destruct Hq as [->| ->]; reflexivity). rewrite E, andb_false_r. reflexivity.
Qed.
Lemma name_follows_app v c rest : name high_digit v -> starts [45] v -> name_follows (v ++ c :: rest).
Proof.
  intros (Hv & a & r & E & H) (t & Et). rewrite E in Et. cbn [app] in Et. injection Et as -> ->. destruct H as [(H & _)|(_ & b & t' & -> & Hb)]; [unfold name_start, letter in H; lia|]. subst v. cbn [app].
  destruct t' as [|d t'']; cbn [app]; (do 4 eexists; split; [reflexivity|right; left; split; [reflexivity|tauto]]).
Qed.

Lemma url_head v rest : Forall (fun c => 33 <= c <= 126 /\ c <> 41) v -> exists a t, flat_map (serialize_char url_simple) v ++ 41 :: rest = a :: t /\ is_space a = false /\ is_quote a = false.
Proof.
  intros H. destruct v as [|c v]; [do 2 eexists; split; [reflexivity|split; reflexivity]|]. inversion H as [|? ? (Hc & _) _]. subst. cbn [flat_map]. unfold serialize_char at 1. destruct (url_simple c) eqn:E; [do 2 eexists; split; [reflexivity|split; reflexivity]|].
  unfold special. repeat match goal with |- context [if c =? ?k then _ else _] => let E := fresh in assert (E : (c =? k) = false) by lia; rewrite E; clear E end. unfold url_simple in E. cbn [existsb app] in E.
  assert (E8 : (c <=? 8) || false || ((14 <=? c) && (c <=? 31)) || (127 <=? c) = false) by lia. rewrite E8. do 2 eexists. split; [reflexivity|]. unfold is_space, is_quote. lia.
Qed.
Lemma url_prefix fuel rest : (4 <= fuel)%nat -> ident_seq high_digit fuel ([117; 114; 108] ++ 40 :: rest) = Ret ([117; 114; 108], 40 :: rest).
Proof.
  intros Hf. apply ident_seq_app.
  - repeat constructor; unfold name_char, name_start, letter; lia.
  - split; [intros x t E2; injection E2 as <- _; unfold name_char, name_start, letter, digit; lia|intros x t E2; discriminate].
  - cbn. lia.
Qed.
Lemma is_number_no s : ~ number_follows high_digit s -> (forall a t, s = a :: t -> a = 43 \/ a = 45 \/ a = 46) -> is_number high_digit s = false.
Proof.
  intros H Ha. destruct s as [|a [|b [|c t]]]; try reflexivity. specialize (Ha a (b :: c :: t) eq_refl). cbn [is_number]. match goal with |- ?x = false => destruct x eqn:E end; [|reflexivity]. exfalso. apply H. exists a, b, c, t. split; [reflexivity|].
  destruct ((a =? 43) || (a =? 45)) eqn:E1.
  - left. split; [lia|]. apply orb_prop in E. destruct E as [E|E]; [left; apply is_dec_iff; exact E|]. apply andb_prop in E. destruct E as (E2 & E3). right. split; [lia|apply is_dec_iff; exact E3].
  - destruct (a =? 46) eqn:E2; [|lia]. right. split; [lia|apply is_dec_iff; exact E].
Qed.
Lemma next_delim fuel c rest : delim_char c -> (c = 47 -> ~ starts [42] rest) -> (c = 35 -> rest <> [] /\ stops rest) -> (c = 43 \/ c = 45 \/ c = 46 -> is_number high_digit (c :: rest) = false) ->
  (c = 45 -> ~ name_follows (c :: rest) /\ ~ starts [45; 62] rest) -> (c = 60 -> ~ starts [33; 45; 45] rest) -> (c = 64 -> rest <> [] /\ ~ name_follows rest) -> (c = 92 -> forall d r, rest = d :: r -> d = 10) ->
  next_token fuel c rest = Ret (TDelim [c], rest).
Proof.
  intros Hc H47 H35 HN H45 H60 H64 H92. unfold delim_char in Hc. destruct Hc as (C1 & C2 & C3 & C4 & Hc).
  assert (E1 : is_space c = false) by (destruct (is_space c) eqn:X; [exfalso; apply C2, is_space_iff; exact X|reflexivity]).
  assert (E2 : is_dec high_digit c = false) by (apply is_dec_false; intros [X|X]; [exact (C3 X)|lia]).
  assert (E3 : ident_start c = false) by (destruct (ident_start c) eqn:X; [exfalso; apply C4, ident_start_iff; exact X|reflexivity]).
  assert (E0 : (c =? 47) && match rest with d :: _ => d =? 42 | [] => false end = false).
  { destruct (c =? 47) eqn:X; [|reflexivity]. apply N.eqb_eq in X. destruct rest as [|d r]; [reflexivity|]. cbn [andb]. destruct (d =? 42) eqn:Y; [|reflexivity]. exfalso. apply N.eqb_eq in Y. subst d. apply (H47 X). exists r. reflexivity. }
  unfold Css.next_token. rewrite E0, E1. clear H47 E0.
  destruct (c =? 35) eqn:X35.
  { apply N.eqb_eq in X35. subst c. destruct (H35 eq_refl) as (Hn & Hs1 & Hs2). destruct rest as [|d r]; [congruence|]. change (35 =? 34) with false. cbv iota.
    destruct (ident_cp high_digit d) eqn:Y; [exfalso; apply ident_cp_iff in Y; exact (Hs1 d r eq_refl Y)|]. destruct (valid_escape (d :: r)) eqn:Z; [|reflexivity]. destruct (valid_escape_spec _ Z) as (x & t & W & Hx). injection W as -> ->. exfalso. apply Hx. eapply Hs2. reflexivity. }
  destruct (c =? 43) eqn:X43. { apply N.eqb_eq in X43. subst c. rewrite HN by auto. reflexivity. }
  destruct (c =? 45) eqn:X45.
  { apply N.eqb_eq in X45. subst c. rewrite HN by auto. destruct (H45 eq_refl) as (Ha & Hb). destruct (starts_with [45; 45; 62] (45 :: rest)) eqn:Y.
    - exfalso. apply Hb. apply starts_with_split in Y. injection Y as Y. eexists. exact Y.
    - rewrite (ident_sequence_no (45 :: rest)); [reflexivity|discriminate|exact Ha]. }
  destruct (c =? 46) eqn:X46. { apply N.eqb_eq in X46. subst c. rewrite HN by auto. reflexivity. }
  destruct (c =? 60) eqn:X60.
  { apply N.eqb_eq in X60. subst c. destruct (starts_with [60; 33; 45; 45] (60 :: rest)) eqn:Y; [|reflexivity]. exfalso. apply (H60 eq_refl). apply starts_with_split in Y. injection Y as Y. eexists. exact Y. }
  destruct (c =? 64) eqn:X64. { apply N.eqb_eq in X64. subst c. destruct (H64 eq_refl) as (Ha & Hb). rewrite (ident_sequence_no rest Ha Hb). reflexivity. }
  destruct (c =? 92) eqn:X92.
  { apply N.eqb_eq in X92. subst c. destruct rest as [|d r]; [reflexivity|]. rewrite (H92 eq_refl d r eq_refl). reflexivity. }
  rewrite E2, E3. repeat match goal with |- context [if c =? ?k then _ else _] => let E := fresh in assert (E : (c =? k) = false) by lia; rewrite E; clear E end. reflexivity.
Qed.
Lemma next_token_round t rest fuel : fits t rest -> (length (serialize t ++ rest) < fuel)%nat -> exists c r, serialize t ++ rest = c :: r /\ next_token fuel c r = Ret (t, rest).
Proof.
  intros H Hf. destruct t as [v|v|v|i v|v| | |v f|v f|v f u| | |v|v|v| | | | |v| | | | | |v]; cbn [Css.serialize] in Hf |- *; try (exfalso; exact H); try (eexists; eexists; split; [reflexivity|reflexivity]).
  - (* whitespace *) destruct H as (Hn & Hs & Hr). destruct v as [|c v]; [congruence|]. exists c, (v ++ rest). split; [reflexivity|].
    assert (Hc : is_space c = true) by (apply is_space_iff; inversion Hs; assumption). unfold Css.next_token. assert (E : (c =? 47) = false) by (unfold is_space in Hc; lia). rewrite E. cbn [andb]. rewrite Hc.
    change (c :: v ++ rest) with ((c :: v) ++ rest). rewrite span_app; [reflexivity| |].
    + eapply Forall_impl; [|exact Hs]. intros x. apply is_space_iff.
    + destruct rest as [|d r]; [exact I|]. destruct (is_space d) eqn:Ed; [|reflexivity]. exfalso. apply (Hr d r eq_refl). apply is_space_iff. exact Ed.
  - (* string *) destruct (auto_quote_shape v) as (q & Hq & E). rewrite E in *. rewrite <- app_comm_cons, <- app_assoc in *. cbn [app] in *. eexists; eexists. split; [reflexivity|].
    assert (HS : @string_token F fuel q (flat_map (serialize_char (q_simple q)) v ++ q :: rest) = Ret (TString v, rest)).
    { unfold string_token. rewrite (simple_string q Hq v rest fuel H); [reflexivity|]. cbn [length] in Hf. rewrite app_length in Hf. lia. }
    destruct Hq as [->| ->]; unfold Css.next_token; exact HS.
  - (* hash *) destruct H as (Hn & Hv & Hr & Hi). exists 35, (v ++ rest). split; [reflexivity|]. unfold Css.next_token. change (35 =? 47) with false. change (is_space 35) with false. change (35 =? 34) with false. change (35 =? 35) with true. cbn [andb]. cbv iota.
    destruct v as [|d v]; [congruence|]. cbn [app] in *. assert (Hd : ident_cp high_digit d = true) by (apply ident_cp_iff; inversion Hv; assumption). rewrite Hd. cbn [orb].
    destruct (ident_sequence_iff (d :: v ++ rest)) as (b & -> & Hb); [discriminate|]. assert (b = i) as -> by (destruct b, i; try reflexivity; [symmetry; apply Hi, Hb; reflexivity|apply Hb, Hi; reflexivity]).
    change (d :: v ++ rest) with ((d :: v) ++ rest). rewrite (ident_seq_app (d :: v) rest fuel Hv Hr); [reflexivity|]. cbn [length] in Hf |- *. rewrite app_length in Hf. lia.
  - (* delim *) destruct H as (c & -> & Hc & H47 & H35 & Hnum & H45 & H60 & H64 & H92). exists c, rest. split; [reflexivity|].
    assert (HN : c = 43 \/ c = 45 \/ c = 46 -> is_number high_digit (c :: rest) = false) by (intros X; apply is_number_no; [apply Hnum; exact X|intros a t Y; injection Y as <- _; exact X]).
    apply next_delim; assumption.
  - (* number *) destruct (num_starts v f rest) as (c & r & E & Hx); [apply H|apply H|]. exists c, r. split; [exact E|]. rewrite (next_numeric fuel c r Hx), <- E. apply numeric_num. exact H.
  - (* percentage *) rewrite <- app_assoc. cbn [app]. destruct (num_starts v f (37 :: rest) H) as (c & r & E & Hx); [discriminate|]. exists c, r. split; [exact E|]. rewrite (next_numeric fuel c r Hx), <- E. apply numeric_pct. exact H.
  - (* dimension *) rewrite <- app_assoc in *. destruct (num_starts v f (u ++ rest)) as (c & r & E & Hx); [apply H|destruct H as (_ & _ & _ & _ & Hu & _); destruct u; [congruence|discriminate]|]. exists c, r. split; [exact E|]. rewrite (next_numeric fuel c r Hx), <- E. apply numeric_dim; [exact H|]. rewrite !app_length in Hf. lia.
  - (* ident *) destruct H as (Hv & Hr & Hp & Hh). destruct (name_next fuel v rest Hv Hh) as (c & r & E & En). exists c, r. split; [exact E|]. rewrite En. unfold ident_like. rewrite (ident_seq_app v rest fuel (proj1 Hv) Hr) by (rewrite app_length in Hf; lia).
    destruct rest as [|p r']; [reflexivity|]. destruct (p =? 40) eqn:Ep; [|reflexivity]. exfalso. apply N.eqb_eq in Ep. subst p. apply Hp. eexists. reflexivity.
  - (* function *) destruct H as (Hv & Hu). rewrite <- app_assoc in *. cbn [app] in *. destruct (name_next fuel v (40 :: rest) Hv) as (c & r & E & En).
    { intros Hs. split; [apply name_follows_app; assumption|]. intros (t & Et). destruct Hs as (t2 & ->). destruct Hv as (Hv & _). destruct t2 as [|x [|y t2]]; cbn [app] in Et; [discriminate|discriminate|]. injection Et as -> -> _. inversion Hv as [|? ? _ Hv1]. inversion Hv1 as [|? ? _ Hv2]. inversion Hv2 as [|? ? Hx _]. unfold name_char, name_start, letter, digit in Hx. lia. }
    exists c, r. split; [exact E|]. rewrite En. unfold ident_like. rewrite (ident_seq_app v (40 :: rest) fuel (proj1 Hv)).
    + change (40 =? 40) with true. cbv iota. destruct (is_url_name v) eqn:Eu; [|reflexivity]. apply is_url_name_iff in Eu. destruct (Hu Eu) as (q & r' & Hq & Hrest). rewrite (url_space_quote rest q r' Hq Hrest). destruct Hrest as [->|(w & Hw & ->)].
      * assert (Eq : is_quote q = true) by (destruct Hq as [->| ->]; reflexivity). rewrite Eq. reflexivity.
      * assert (Eq : is_quote q = true) by (destruct Hq as [->| ->]; reflexivity). apply is_space_iff in Hw. rewrite Hw, Eq, orb_true_r. reflexivity.
    + split; [intros x t E2; injection E2 as <- _; unfold name_char, name_start, letter, digit; lia|intros x t E2; discriminate].
    + rewrite app_length in Hf. lia.
  - (* url *) change (serialize_string None [34; 39; 40; 92] v) with (flat_map (serialize_char url_simple) v ++ []) in *. rewrite app_nil_r in *. cbn [app] in *. rewrite <- app_assoc in *. cbn [app] in *. exists 117. eexists. split; [reflexivity|]. rewrite name_start_next; [|unfold name_start, letter; lia|intros [X|X]; [unfold digit in X; lia|lia]].
    unfold ident_like. change (117 :: 114 :: 108 :: 40 :: flat_map (serialize_char url_simple) v ++ 41 :: rest) with ([117; 114; 108] ++ 40 :: flat_map (serialize_char url_simple) v ++ 41 :: rest).
    assert (Hf4 : (4 <= fuel)%nat) by (cbn [length] in Hf; lia). rewrite (url_prefix fuel _ Hf4). change (40 =? 40) with true. cbv iota. change (is_url_name [117; 114; 108]) with true. cbv iota.
    destruct (url_head v rest H) as (a & t & E & Ha & Hq). rewrite E. assert (Eu : url_space (a :: t) = a :: t) by (cbn [url_space]; destruct t; [reflexivity|]; rewrite Ha; reflexivity). rewrite Eu, Hq, Ha. cbn [orb andb]. rewrite <- E.
    rewrite (simple_url v rest fuel H); [reflexivity|]. cbn [length] in Hf. rewrite app_length in Hf. lia.
  - (* bad url *) cbn [app length] in Hf. exists 117. eexists. split; [reflexivity|]. cbn [app]. rewrite name_start_next; [|unfold name_start, letter; lia|intros [X|X]; [unfold digit in X; lia|lia]].
    unfold ident_like. change (117 :: 114 :: 108 :: 40 :: 40 :: 41 :: rest) with ([117; 114; 108] ++ 40 :: 40 :: 41 :: rest). rewrite url_prefix by lia. change (40 =? 40) with true. cbv iota. change (is_url_name [117; 114; 108]) with true. cbv iota.
    change (url_space (40 :: 41 :: rest)) with (40 :: 41 :: rest). do 4 (destruct fuel as [|fuel]; [lia|]). reflexivity.
  - (* at *) destruct H as (Hv & Hr & Hfo). exists 64, (v ++ rest). split; [reflexivity|]. unfold Css.next_token. change (64 =? 47) with false. cbn [andb]. rewrite (ident_sequence_yes _ Hfo). rewrite (ident_seq_app v rest fuel (proj1 Hv) Hr); [reflexivity|]. cbn [length app] in Hf. rewrite app_length in Hf. lia.
  - (* comment *) rewrite <- !app_assoc in *. cbn [app] in *. do 2 eexists. split; [reflexivity|]. unfold Css.next_token. change (47 =? 47) with true. change (42 =? 42) with true. cbn [andb tl]. cbv iota. rewrite (comment_body_app v rest H). reflexivity.
Qed.
Lemma tokens_round ts : separable ts -> forall fuel, (length (serialize_many ts) < fuel)%nat -> tokens fuel (serialize_many ts) = (ts ++ [TEof], None).
Proof.
  induction ts as [|t ts IH]; intros H fuel Hf.
  - cbn [Css.serialize_many flat_map app]. destruct fuel; reflexivity.
  - destruct H as (Ht & Hts). change (serialize_many (t :: ts)) with (serialize t ++ serialize_many ts) in *. destruct fuel as [|k]; [lia|].
    destruct (next_token_round t (serialize_many ts) (S k) Ht Hf) as (c & r & E & En). rewrite E. cbn [Css.tokens]. rewrite En.
    pose proof (next_token_progress float_of high_digit int_high (S k) c r t (serialize_many ts) En) as Hp.
    assert (Hl : (length (serialize_many ts) < k)%nat) by (rewrite E in Hf; cbn [length] in Hf; lia). rewrite (IH Hts k Hl). reflexivity.
Qed.
Theorem tokenize_round ts : separable ts -> tokenize float_of high_digit int_high (serialize_many ts) = (ts ++ [TEof], None).
Proof. intros H. unfold tokenize. apply tokens_round; [exact H|lia]. Qed.
End Round.
