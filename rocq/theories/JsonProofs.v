(** Round-trip proofs for the JSON model. *)
From Verif Require Import Base Json.
From Coq Require Import List NArith ZArith Bool Ascii String Lia ZifyN ZifyBool.
Import ListNotations.
Open Scope N_scope.

Ltac Zify.zify_post_hook ::= Z.to_euclidean_division_equations.

Lemma hex_val_digit d : d < 16 -> hex_val (hex_digit d) = Some d.
Proof.
  intros H. unfold hex_digit, hex_val. destruct (d <? 10) eqn:E.
  - replace ((48 <=? 48 + d) && (48 + d <=? 57)) with true by lia. f_equal. lia.
  - replace ((48 <=? 87 + d) && (87 + d <=? 57)) with false by lia.
    replace ((97 <=? 87 + d) && (87 + d <=? 102)) with true by lia. f_equal. lia.
Qed.
Lemma mod16 n : n mod 16 < 16. Proof. lia. Qed.
Lemma take_hex4_hex4 n r : n < 65536 -> take_hex4 (hex4 n ++ r) = Some (n, r).
Proof.
  intros H. unfold hex4, take_hex4. cbn [app]. rewrite !hex_val_digit by apply mod16.
  do 2 f_equal. lia.
Qed.

(** a python string that JSON can represent: valid code points, and no high
    surrogate directly followed by a low surrogate (those two would be read
    back as one character) *)
Definition is_high (c : N) : bool := (55296 <=? c) && (c <=? 56319).
Definition is_low (c : N) : bool := (56320 <=? c) && (c <=? 57343).
Fixpoint json_safe (s : str) : Prop :=
  match s with
  | [] => True
  | c :: r => c < 1114112 /\ (match r with d :: _ => is_high c = true -> is_low d = false | [] => True end) /\ json_safe r
  end.

Lemma escape_char_nonempty c : (1 <= List.length (escape_char c))%nat.
Proof.
  unfold escape_char.
  repeat match goal with |- context [if ?b then _ else _] => destruct b end; simpl; lia.
Qed.

Lemma scan_str_escape s : forall fuel rest, json_safe s ->
  (List.length (flat_map escape_char s) < fuel)%nat ->
  scan_str fuel (flat_map escape_char s ++ c_quote :: rest) = Some (s, rest).
Proof.
  induction s as [|c s IH]; intros fuel rest Hs Hf.
  - destruct fuel; [simpl in Hf; lia|]. reflexivity.
  - destruct fuel as [|fuel]; [lia|].
    destruct Hs as (Hc & Hadj & Hs). cbn [flat_map] in *. rewrite app_length in Hf.
    pose proof (escape_char_nonempty c) as Hne.
    assert (IH' : scan_str fuel (flat_map escape_char s ++ c_quote :: rest) = Some (s, rest)) by (apply IH; [assumption|lia]).
    rewrite <- app_assoc. unfold escape_char at 1.
    destruct (c =? c_quote) eqn:E1; [apply N.eqb_eq in E1; subst c; cbn; rewrite IH'; reflexivity|].
    destruct (c =? c_bs) eqn:E2; [apply N.eqb_eq in E2; subst c; cbn; rewrite IH'; reflexivity|].
    destruct (c =? 10) eqn:E3; [apply N.eqb_eq in E3; subst c; cbn; rewrite IH'; reflexivity|].
    destruct (c =? 13) eqn:E4; [apply N.eqb_eq in E4; subst c; cbn; rewrite IH'; reflexivity|].
    destruct (c =? 9) eqn:E5; [apply N.eqb_eq in E5; subst c; cbn; rewrite IH'; reflexivity|].
    destruct (c =? 12) eqn:E6; [apply N.eqb_eq in E6; subst c; cbn; rewrite IH'; reflexivity|].
    destruct (c =? 8) eqn:E7; [apply N.eqb_eq in E7; subst c; cbn; rewrite IH'; reflexivity|].
    destruct ((32 <=? c) && (c <=? 126)) eqn:E8.
    { cbn [app scan_str]. rewrite E1, E2. replace (c <? 32) with false by lia. rewrite IH'. reflexivity. }
    destruct (c <? 65536) eqn:E9.
    + (* \uXXXX *)
      rewrite <- app_assoc. cbn [app scan_str]. cbn [N.eqb c_bs c_quote Pos.eqb].
      rewrite take_hex4_hex4 by lia. rewrite IH'.
      destruct ((55296 <=? c) && (c <=? 56319)) eqn:Eh; [|reflexivity].
      destruct s as [|d s']; [cbn; destruct rest; reflexivity|]. specialize (Hadj Eh).
      cbn [flat_map]. rewrite <- app_assoc. unfold escape_char at 1.
      destruct (d =? c_quote); [reflexivity|]. destruct (d =? c_bs) eqn:Ebs; [reflexivity|].
      destruct (d =? 10); [reflexivity|]. destruct (d =? 13); [reflexivity|]. destruct (d =? 9); [reflexivity|].
      destruct (d =? 12); [reflexivity|]. destruct (d =? 8); [reflexivity|].
      destruct ((32 <=? d) && (d <=? 126)) eqn:Ed.
      { cbn [app]. match goal with |- context [match ?l ++ c_quote :: rest with _ => _ end] => destruct (l ++ c_quote :: rest) eqn:El end; [reflexivity|].
        rewrite Ebs. reflexivity. }
      destruct (d <? 65536) eqn:Ed2.
      * rewrite <- app_assoc. cbn [app]. cbn [N.eqb c_bs Pos.eqb andb].
        rewrite take_hex4_hex4 by lia. change ((56320 <=? d) && (d <=? 57343)) with (is_low d). rewrite Hadj. reflexivity.
      * cbv zeta. rewrite <- !app_assoc. cbn [app]. cbn [N.eqb c_bs Pos.eqb andb].
        destruct Hs as (Hd & _ & _).
        rewrite take_hex4_hex4 by lia.
        replace ((56320 <=? 55296 + (d - 65536) / 1024) && (55296 + (d - 65536) / 1024 <=? 57343)) with false by lia. reflexivity.
    + cbv zeta. rewrite <- !app_assoc. cbn [app scan_str]. cbn [N.eqb c_bs c_quote Pos.eqb].
      rewrite take_hex4_hex4 by lia.
      replace ((55296 <=? 55296 + (c - 65536) / 1024) && (55296 + (c - 65536) / 1024 <=? 56319)) with true by lia.
      cbn [app]. cbn [N.eqb c_bs Pos.eqb andb]. rewrite take_hex4_hex4 by lia.
      replace ((56320 <=? 56320 + (c - 65536) mod 1024) && (56320 + (c - 65536) mod 1024 <=? 57343)) with true by lia.
      rewrite IH'. do 3 f_equal. lia.
Qed.

(** ** numbers *)
Definition is_num (raw : str) : Prop := scan_number raw = Some (raw, []).
Definition num_stop (rest : str) : Prop :=
  match rest with [] => True | c :: _ => is_digit c = false /\ c <> c_dot /\ c <> 101 /\ c <> 69 end.

Lemma span_digits_app s : forall d t rest, span_digits s = (d, t) ->
  (t <> [] \/ match rest with c :: _ => is_digit c = false | [] => True end) ->
  span_digits (s ++ rest) = (d, t ++ rest).
Proof.
  induction s as [|c r IH]; intros d t rest H Hst; simpl in *.
  - injection H as <- <-. destruct Hst as [Hst|Hst]; [congruence|]. destruct rest as [|c r]; [reflexivity|].
    simpl. rewrite Hst. reflexivity.
  - destruct (is_digit c) eqn:E.
    + destruct (span_digits r) as [d' t'] eqn:Es. injection H as <- <-. rewrite (IH d' t' rest eq_refl Hst). reflexivity.
    + injection H as <- <-. reflexivity.
Qed.
Lemma span_digits_split s d t : span_digits s = (d, t) -> s = d ++ t.
Proof.
  revert d t. induction s as [|c r IH]; intros d t H; simpl in H; [injection H as <- <-; reflexivity|].
  destruct (is_digit c); [|injection H as <- <-; reflexivity].
  destruct (span_digits r) as [d' t']. injection H as <- <-. simpl. f_equal. auto.
Qed.

Lemma num_stop_digit rest : num_stop rest -> match rest with c :: _ => is_digit c = false | [] => True end.
Proof. destruct rest; simpl; tauto. Qed.

Lemma scan_frac_app s f t rest : num_stop rest -> scan_frac s = (f, t) -> scan_frac (s ++ rest) = (f, t ++ rest).
Proof.
  intros Hst. destruct s as [|c r]; simpl.
  - intros [= <- <-]. destruct rest as [|c r]; [reflexivity|]. simpl. destruct Hst as (_ & H & _).
    apply N.eqb_neq in H. rewrite H. reflexivity.
  - destruct (c =? c_dot); [|intros [= <- <-]; reflexivity].
    destruct (span_digits r) as [d t'] eqn:E. rewrite (span_digits_app r d t' rest E (or_intror (num_stop_digit _ Hst))).
    destruct d; intros [= <- <-]; reflexivity.
Qed.
Lemma scan_exp_app s f rest : num_stop rest -> scan_exp s = (f, []) -> scan_exp (s ++ rest) = (f, rest).
Proof.
  intros Hst. destruct s as [|c r]; simpl.
  - intros [= <-]. destruct rest as [|c r]; [reflexivity|]. simpl. destruct Hst as (_ & _ & H1 & H2).
    apply N.eqb_neq in H1, H2. rewrite H1, H2. reflexivity.
  - destruct ((c =? 101) || (c =? 69)); [|discriminate].
    destruct r as [|sg r2]; [discriminate|]. cbn [app].
    destruct ((sg =? c_minus) || (sg =? c_plus)).
    + destruct (span_digits r2) as [d t'] eqn:E. rewrite (span_digits_app r2 d t' rest E (or_intror (num_stop_digit _ Hst))).
      destruct d; [discriminate|]. intros [= <- ->]. reflexivity.
    + destruct (span_digits (sg :: r2)) as [d t'] eqn:E.
      change (sg :: r2 ++ rest) with ((sg :: r2) ++ rest).
      rewrite (span_digits_app (sg :: r2) d t' rest E (or_intror (num_stop_digit _ Hst))).
      destruct d; [discriminate|]. intros [= <- ->]. reflexivity.
Qed.
Lemma scan_int_part_app s i t rest : num_stop rest -> scan_int_part s = Some (i, t) -> scan_int_part (s ++ rest) = Some (i, t ++ rest).
Proof.
  intros Hst. destruct s as [|c r]; simpl; [discriminate|].
  destruct (c =? 48); [intros [= <- <-]; reflexivity|]. destruct (is_digit c); [|discriminate].
  destruct (span_digits r) as [d t'] eqn:E. rewrite (span_digits_app r d t' rest E (or_intror (num_stop_digit _ Hst))).
  intros [= <- <-]. reflexivity.
Qed.
Lemma scan_number_app raw rest : is_num raw -> num_stop rest -> scan_number (raw ++ rest) = Some (raw, rest).
Proof.
  unfold is_num, scan_number. intros H Hst.
  destruct raw as [|c r]; [discriminate|]. cbn [app] in *.
  destruct (c =? c_minus) eqn:Em.
  - destruct (scan_int_part r) as [[i s2]|] eqn:E1; [|discriminate].
    rewrite (scan_int_part_app _ _ _ _ Hst E1).
    destruct (scan_frac s2) as [f s3] eqn:E2. rewrite (scan_frac_app _ _ _ _ Hst E2).
    destruct (scan_exp s3) as [e s4] eqn:E3. assert (s4 = []) as -> by congruence. rewrite (scan_exp_app _ _ _ Hst E3).
    cbn [app] in *. injection H as H1 H2. rewrite H1, H2. reflexivity.
  - destruct (scan_int_part (c :: r)) as [[i s2]|] eqn:E1; [|discriminate].
    change (c :: r ++ rest) with ((c :: r) ++ rest). rewrite (scan_int_part_app _ _ _ _ Hst E1).
    destruct (scan_frac s2) as [f s3] eqn:E2. rewrite (scan_frac_app _ _ _ _ Hst E2).
    destruct (scan_exp s3) as [e s4] eqn:E3. assert (s4 = []) as -> by congruence. rewrite (scan_exp_app _ _ _ Hst E3).
    cbn [app] in *. injection H as H1. rewrite H1. reflexivity.
Qed.
Lemma is_num_head raw : is_num raw -> exists c r, raw = c :: r /\ (c = c_minus \/ is_digit c = true).
Proof.
  unfold is_num, scan_number. destruct raw as [|c r]; [discriminate|]. intros H. exists c, r. split; [reflexivity|].
  destruct (c =? c_minus) eqn:Em; [left; apply N.eqb_eq; assumption|]. right.
  cbn [scan_int_part] in H. destruct (c =? 48) eqn:E; [apply N.eqb_eq in E; subst; reflexivity|].
  destruct (is_digit c); [reflexivity|discriminate].
Qed.

(** ** printed values *)
Definition all_ws (w : str) : Prop := Forall (fun c => is_ws c = true) w.

Inductive Prints : json -> str -> Prop :=
| Pr_null : Prints JNull (lit "null")
| Pr_true : Prints (JBool true) (lit "true")
| Pr_false : Prints (JBool false) (lit "false")
| Pr_num raw : is_num raw -> Prints (JNum raw) raw
| Pr_str s : json_safe s -> Prints (JStr s) (dump_str s)
| Pr_list_nil : Prints (JList []) [c_lbrack; c_rbrack]
| Pr_list l t : PrintsItems l t -> Prints (JList l) (c_lbrack :: t)
| Pr_obj_nil : Prints (JObj []) [c_lbrace; c_rbrace]
| Pr_obj l t : PrintsPairs l t -> Prints (JObj l) (c_lbrace :: c_quote :: t)
with PrintsItems : list json -> str -> Prop :=
| Pi_one v t : Prints v t -> PrintsItems [v] (t ++ [c_rbrack])
| Pi_cons v t w l u : Prints v t -> all_ws w -> PrintsItems l u -> PrintsItems (v :: l) (t ++ c_comma :: w ++ u)
with PrintsPairs : list (str * json) -> str -> Prop :=
| Pp_one k v w t : json_safe k -> all_ws w -> Prints v t ->
    PrintsPairs [(k, v)] (flat_map escape_char k ++ c_quote :: c_colon :: w ++ t ++ [c_rbrace])
| Pp_cons k v w t w2 l u : json_safe k -> all_ws w -> Prints v t -> all_ws w2 -> PrintsPairs l u ->
    PrintsPairs ((k, v) :: l) (flat_map escape_char k ++ c_quote :: c_colon :: w ++ t ++ c_comma :: w2 ++ c_quote :: u).

Scheme Prints_mut := Minimality for Prints Sort Prop
with PrintsItems_mut := Minimality for PrintsItems Sort Prop
with PrintsPairs_mut := Minimality for PrintsPairs Sort Prop.
Combined Scheme Prints_all from Prints_mut, PrintsItems_mut, PrintsPairs_mut.

(** what may follow a value inside a document *)
Definition follow (rest : str) : Prop :=
  match rest with [] => True | c :: _ => c = c_comma \/ c = c_rbrack \/ c = c_rbrace \/ is_ws c = true end.
Lemma follow_num_stop rest : follow rest -> num_stop rest.
Proof.
  destruct rest as [|c r]; [auto|]. simpl. unfold is_digit, is_ws, c_dot, c_comma, c_rbrack, c_rbrace. intros H. 
  repeat split; try (intros ->; revert H; vm_compute; intuition discriminate).
  destruct H as [->|[->|[->|H]]]; try reflexivity. lia.
Qed.

Lemma skip_ws_all w s : all_ws w -> skip_ws (w ++ s) = skip_ws s.
Proof. induction 1 as [|c r H _ IH]; simpl; [reflexivity|]. rewrite H. assumption. Qed.

(** values do not start with white space *)
Lemma Prints_head v t : Prints v t -> exists c r, t = c :: r /\ is_ws c = false /\ c <> c_rbrack.
Proof.
  destruct 1; try (do 2 eexists; split; [reflexivity|]; split; [reflexivity|discriminate]).
  apply is_num_head in H. destruct H as (c & r & -> & H). exists c, r. split; [reflexivity|].
  unfold c_minus, is_digit in H. unfold is_ws, c_rbrack. destruct H as [->|H]; [split; [reflexivity|discriminate]|].
  split; [lia|intros ->; discriminate].
Qed.
Lemma skip_ws_value v t s : Prints v t -> skip_ws (t ++ s) = t ++ s.
Proof. intros H. apply Prints_head in H. destruct H as (c & r & -> & H & _). cbn [app skip_ws]. rewrite H. reflexivity. Qed.
Lemma skip_ws_nonws c s : is_ws c = false -> skip_ws (c :: s) = c :: s.
Proof. intros H. simpl. rewrite H. reflexivity. Qed.
Lemma PrintsItems_head l t : PrintsItems l t -> exists c r, t = c :: r /\ is_ws c = false /\ c <> c_rbrack.
Proof.
  destruct 1; apply Prints_head in H; destruct H as (c & r & -> & H); do 2 eexists; (split; [reflexivity|assumption]).
Qed.

Lemma parse_number_value raw rest fuel : is_num raw -> num_stop rest ->
  parse_value (S fuel) (raw ++ rest) = Some (JNum raw, rest).
Proof.
  intros Hn Hst. pose proof (scan_number_app raw rest Hn Hst) as Hs.
  apply is_num_head in Hn. destruct Hn as (c & r & -> & H).
  assert (Hc : (c =? c_quote) = false /\ (c =? c_lbrace) = false /\ (c =? c_lbrack) = false /\ 110 <> c /\ 116 <> c /\ 102 <> c).
  { unfold is_digit, c_minus, c_quote, c_lbrace, c_lbrack in *. destruct H as [->|H]; [repeat split; discriminate|]. lia. }
  destruct Hc as (H1 & H2 & H3 & H4 & H5 & H6).
  cbn [app] in *. cbn [parse_value]. rewrite H1, H2, H3. unfold strip_prefix.
  assert (Hp : forall x p, x <> c -> starts_with (x :: p) (c :: r ++ rest) = false).
  { intros x p Hx. simpl. apply N.eqb_neq in Hx. rewrite Hx. reflexivity. }
  assert (L1 : lit "null" = 110 :: lit "ull") by reflexivity.
  assert (L2 : lit "true" = 116 :: lit "rue") by reflexivity.
  assert (L3 : lit "false" = 102 :: lit "alse") by reflexivity.
  rewrite L1, L2, L3, !Hp by assumption. rewrite Hs. reflexivity.
Qed.

Lemma parse_Prints :
  (forall v t, Prints v t -> forall fuel rest, (2 * List.length t <= fuel)%nat -> follow rest ->
     parse_value fuel (t ++ rest) = Some (v, rest)) /\
  (forall l t, PrintsItems l t -> forall fuel rest, (2 * List.length t <= fuel)%nat ->
     parse_items fuel (t ++ rest) = Some (l, rest)) /\
  (forall l t, PrintsPairs l t -> forall fuel rest, (2 * List.length t <= fuel)%nat ->
     parse_pairs fuel (t ++ rest) = Some (l, rest)).
Proof.
  apply Prints_all.
  - intros fuel rest Hf _. destruct fuel; [simpl in Hf; lia|]. reflexivity.
  - intros fuel rest Hf _. destruct fuel; [simpl in Hf; lia|]. reflexivity.
  - intros fuel rest Hf _. destruct fuel; [simpl in Hf; lia|]. reflexivity.
  - intros raw Hn fuel rest Hf Hr. destruct fuel as [|fuel].
    + apply is_num_head in Hn. destruct Hn as (c & r & -> & _). simpl in Hf. lia.
    + apply parse_number_value; [assumption|apply follow_num_stop; assumption].
  - intros s Hs fuel rest Hf _. destruct fuel; [simpl in Hf; lia|].
    unfold dump_str. rewrite <- !app_assoc. cbn [app parse_value]. cbn [N.eqb c_quote Pos.eqb].
    rewrite scan_str_escape; [reflexivity|assumption|]. rewrite app_length. simpl. lia.
  - intros fuel rest Hf _. destruct fuel; [simpl in Hf; lia|]. reflexivity.
  - intros l t Ht IH fuel rest Hf _. destruct fuel as [|fuel]; [simpl in Hf; lia|].
    cbn [app parse_value]. cbn [N.eqb c_quote c_lbrace c_lbrack Pos.eqb].
    destruct (PrintsItems_head _ _ Ht) as (c & r & E & Hw & Hb). simpl in Hf.
    specialize (IH fuel rest ltac:(lia)). rewrite E in *. cbn [app] in *. rewrite skip_ws_nonws by assumption.
    apply N.eqb_neq in Hb. rewrite Hb, IH. reflexivity.
  - intros fuel rest Hf _. destruct fuel; [simpl in Hf; lia|]. reflexivity.
  - intros l t Ht IH fuel rest Hf _. destruct fuel as [|fuel]; [simpl in Hf; lia|].
    cbn [app parse_value]. cbn [N.eqb c_quote c_lbrace c_lbrack c_rbrace Pos.eqb skip_ws is_ws orb].
    simpl in Hf. rewrite IH by lia. reflexivity.
  - intros v t Ht IH fuel rest Hf. rewrite app_length in Hf. simpl in Hf. destruct fuel as [|fuel]; [lia|].
    rewrite <- app_assoc. cbn [parse_items app]. rewrite IH; [|lia|simpl; auto].
    rewrite skip_ws_nonws by reflexivity. cbn [N.eqb c_rbrack Pos.eqb]. reflexivity.
  - intros v t w l u Ht IH Hw Hu IHu fuel rest Hf. rewrite app_length in Hf. simpl in Hf. rewrite app_length in Hf. destruct fuel as [|fuel]; [lia|].
    rewrite <- app_assoc. cbn [parse_items app]. rewrite IH; [|lia|simpl; auto].
    rewrite skip_ws_nonws by reflexivity. cbn [N.eqb c_rbrack c_comma Pos.eqb]. rewrite <- app_assoc, skip_ws_all by assumption.
    destruct (PrintsItems_head _ _ Hu) as (c & r & E & Hc & _).
    assert (Hsk : skip_ws (u ++ rest) = u ++ rest) by (rewrite E; cbn [app]; apply skip_ws_nonws; assumption).
    rewrite Hsk, IHu by lia. reflexivity.
  - intros k v w t Hk Hw Ht IH fuel rest Hf. rewrite app_length in Hf. simpl in Hf. rewrite !app_length in Hf. destruct fuel as [|fuel]; [lia|].
    rewrite <- app_assoc. cbn [parse_pairs app]. rewrite scan_str_escape; [|assumption|rewrite app_length; simpl; lia].
    rewrite skip_ws_nonws by reflexivity. cbn [N.eqb c_colon Pos.eqb]. rewrite <- !app_assoc, skip_ws_all by assumption.
    rewrite (skip_ws_value _ _ _ Ht). cbn [app]. rewrite IH; [|lia|simpl; auto].
    rewrite skip_ws_nonws by reflexivity. cbn [N.eqb c_rbrace Pos.eqb]. reflexivity.
  - intros k v w t w2 l u Hk Hw Ht IH Hw2 Hu IHu fuel rest Hf.
    rewrite app_length in Hf. simpl in Hf. rewrite !app_length in Hf. simpl in Hf. rewrite !app_length in Hf. simpl in Hf. destruct fuel as [|fuel]; [lia|].
    rewrite <- app_assoc. cbn [parse_pairs app]. rewrite scan_str_escape; [|assumption|rewrite app_length; simpl; lia].
    rewrite skip_ws_nonws by reflexivity. cbn [N.eqb c_colon Pos.eqb]. rewrite <- !app_assoc, skip_ws_all by assumption.
    rewrite (skip_ws_value _ _ _ Ht). cbn [app]. rewrite IH; [|lia|simpl; auto].
    rewrite skip_ws_nonws by reflexivity. cbn [N.eqb c_rbrace c_comma Pos.eqb].
    rewrite <- app_assoc, skip_ws_all by assumption. cbn [app]. rewrite skip_ws_nonws by reflexivity.
    cbn [N.eqb c_quote Pos.eqb]. rewrite IHu by lia. reflexivity.
Qed.

Lemma json_load_Prints v t w : Prints v t -> all_ws w -> json_load (t ++ w) = Some v.
Proof.
  intros H Hw. unfold json_load. rewrite (skip_ws_value _ _ _ H).
  rewrite (proj1 parse_Prints v t H).
  - assert (E : skip_ws w = []). { rewrite <- (app_nil_r w), skip_ws_all by assumption. reflexivity. }
    rewrite E. reflexivity.
  - rewrite app_length. lia.
  - destruct w as [|c r]; [exact I|]. simpl. inversion Hw; subst. auto.
Qed.

(** ** dump prints *)
Fixpoint json_ok (v : json) : Prop :=
  match v with
  | JNull | JBool _ => True
  | JNum raw => is_num raw
  | JStr s => json_safe s
  | JList l => (fix all (l : list json) : Prop := match l with [] => True | x :: r => json_ok x /\ all r end) l
  | JObj l => (fix all (l : list (str * json)) : Prop :=
                 match l with [] => True | (k, x) :: r => json_safe k /\ json_ok x /\ all r end) l
  end.

Lemma all_ws_space : all_ws (lit " ").
Proof. repeat constructor. Qed.

Fixpoint json_size (v : json) : nat :=
  match v with
  | JList l => S ((fix sz (l : list json) : nat := match l with [] => O | x :: r => json_size x + sz r end)%nat l)
  | JObj l => S ((fix sz (l : list (str * json)) : nat := match l with [] => O | (_, x) :: r => json_size x + sz r end)%nat l)
  | _ => 1%nat
  end.
Lemma json_size_pos v : (0 < json_size v)%nat.
Proof. destruct v; simpl; lia. Qed.

Lemma dump_Prints_sz n : forall v, (json_size v <= n)%nat -> json_ok v -> Prints v (dump v).
Proof.
  induction n as [|n IH]; intros v Hn Hok; [pose proof (json_size_pos v); lia|].
  destruct v as [|[|]|raw|s|l|l].
  - constructor. - constructor. - constructor.
  - constructor. exact Hok.
  - apply Pr_str. exact Hok.
  - destruct l as [|x l]; [apply Pr_list_nil|].
    cbn [dump]. apply (Pr_list (x :: l)). cbn [app].
    simpl in Hn. cbn [json_ok] in Hok.
    assert (Hgen : forall l x, (json_size x + (fix sz (l : list json) : nat := match l with [] => O | x :: r => json_size x + sz r end)%nat l <= n)%nat ->
       json_ok x /\ (fix all (l : list json) : Prop := match l with [] => True | x :: r => json_ok x /\ all r end) l ->
       PrintsItems (x :: l) (join (lit ", ") (map dump (x :: l)) ++ [c_rbrack])).
    { clear - IH. induction l as [|y l IHl]; intros x Hs (H1 & H2).
      - apply Pi_one. apply IH; [lia|assumption].
      - change (join (lit ", ") (map dump (x :: y :: l))) with (dump x ++ lit ", " ++ join (lit ", ") (map dump (y :: l))).
        rewrite <- !app_assoc. change (lit ", ") with (c_comma :: lit " ") at 1. cbn [app].
        apply (Pi_cons x (dump x) (lit " ")); [apply IH; [lia|assumption]|apply all_ws_space|].
        apply IHl; [lia|assumption]. }
    apply Hgen; [lia|assumption].
  - destruct l as [|[k x] l]; [apply Pr_obj_nil|].
    cbn [dump]. simpl in Hn. cbn [json_ok] in Hok.
    set (f := fun kv : str * json => dump_str (fst kv) ++ lit ": " ++ dump (snd kv)).
    assert (Hgen : forall l k x, (json_size x + (fix sz (l : list (str * json)) : nat := match l with [] => O | (_, x) :: r => json_size x + sz r end)%nat l <= n)%nat ->
       json_safe k /\ json_ok x /\ (fix all (l : list (str * json)) : Prop :=
                 match l with [] => True | (k, x) :: r => json_safe k /\ json_ok x /\ all r end) l ->
       exists u, join (lit ", ") (map f ((k, x) :: l)) ++ [c_rbrace] = c_quote :: u /\ PrintsPairs ((k, x) :: l) u).
    { clear - IH. induction l as [|[k2 y] l IHl]; intros k x Hs (H0 & H1 & H2).
      - eexists. split.
        + unfold f, dump_str. cbn [map join fst snd]. rewrite <- !app_assoc. reflexivity.
        + apply (Pp_one k x (lit " ")); [assumption|apply all_ws_space|apply IH; [lia|assumption]].
      - change (join (lit ", ") (map f ((k, x) :: (k2, y) :: l))) with (f (k, x) ++ lit ", " ++ join (lit ", ") (map f ((k2, y) :: l))).
        destruct (IHl k2 y) as (u & Eu & Hu); [lia|assumption|].
        eexists. split.
        + rewrite <- !app_assoc, Eu. unfold f, dump_str. cbn [fst snd]. rewrite <- !app_assoc. reflexivity.
        + apply (Pp_cons k x (lit " ") (dump x) (lit " ")); try assumption; try apply all_ws_space. apply IH; [lia|assumption]. }
    destruct (Hgen l k x) as (u & Eu & Hu); [lia|assumption|].
    cbn [app]. fold f. rewrite Eu. apply Pr_obj. assumption.
Qed.
Lemma dump_Prints v : json_ok v -> Prints v (dump v).
Proof. intros H. apply (dump_Prints_sz (json_size v)); auto. Qed.

(** ** integers *)
Definition digits_fold (s : str) (a : option N) : option N :=
  fold_left (fun acc c => match acc with
                                 | Some a => if is_digit c then Some (a * 10 + (c - 48)) else None
                                 | None => None end) s a.
Lemma size_div10 n : n / 10 <> 0 -> N.size (n / 10) < N.size n.
Proof.
  intros H. assert (Hn : n <> 0) by (intros ->; apply H; reflexivity).
  rewrite !N.size_log2 by assumption.
  assert (N.log2 (n / 10) < N.log2 n); [|lia].
  assert (N.log2 (n / 10) <= N.log2 (n / 2)) by (apply N.log2_le_mono; lia).
  assert (Hlt : N.log2 (n / 2) < N.log2 n); [|lia].
  rewrite <- N.div2_div.
  pose proof (N.log2_double (N.div2 n)) as HD.
  assert (Hp : 0 < N.div2 n) by (rewrite N.div2_div; lia). specialize (HD Hp).
  assert (N.log2 (2 * N.div2 n) <= N.log2 n) by (apply N.log2_le_mono; rewrite N.div2_div; lia). lia.
Qed.

Lemma print_digits_acc fuel : forall n acc, (N.to_nat (N.size n) < fuel)%nat ->
  exists ds, print_digits fuel n acc = ds ++ acc /\ (forall a, digits_fold ds (Some a) <> None) /\
    digits_fold ds (Some 0) = Some n /\ Forall (fun c => is_digit c = true) ds /\ ds <> [] /\
    (n <> 0 -> exists c r, ds = c :: r /\ c <> 48) /\ (n = 0 -> ds = [48]).
Proof.
  induction fuel as [|fuel IH]; intros n acc Hf; [lia|]. cbn [print_digits].
  assert (Hd : is_digit (48 + n mod 10) = true) by (unfold is_digit; lia).
  destruct (n / 10 =? 0) eqn:E.
  - exists [48 + n mod 10]. split; [reflexivity|]. cbn [digits_fold fold_left]. split.
    { intros a. unfold digits_fold. cbn [fold_left]. rewrite Hd. discriminate. }
    split. { unfold digits_fold. cbn [fold_left]. rewrite Hd. f_equal. lia. }
    split; [repeat constructor; assumption|]. split; [discriminate|].
    split; [intros Hn; do 2 eexists; split; [reflexivity|lia]|intros ->; reflexivity].
  - apply N.eqb_neq in E. pose proof (size_div10 n E) as Hs.
    destruct (IH (n / 10) ((48 + n mod 10) :: acc)) as (ds & E1 & E2 & E3 & E4 & E5 & E6 & E7); [lia|].
    exists (ds ++ [48 + n mod 10]). split; [rewrite E1, <- app_assoc; reflexivity|].
    unfold digits_fold in *. split.
    { intros a. rewrite fold_left_app. cbn [fold_left]. destruct (fold_left _ ds (Some a)) eqn:Q; [rewrite Hd; discriminate|exfalso; eapply E2; eauto]. }
    split. { rewrite fold_left_app, E3. cbn [fold_left]. rewrite Hd. f_equal. lia. }
    split; [apply Forall_app; split; [assumption|repeat constructor; assumption]|].
    split; [destruct ds; discriminate|]. split.
    + intros _. destruct (E6 E) as (c & r & -> & Hc). exists c. eexists. split; [reflexivity|assumption].
    + intros ->. exfalso. apply E. reflexivity.
Qed.

Lemma print_N_spec n : exists ds, print_N n = ds /\ digits_fold ds (Some 0) = Some n /\
  Forall (fun c => is_digit c = true) ds /\ ds <> [] /\ (n <> 0 -> exists c r, ds = c :: r /\ c <> 48) /\ (n = 0 -> ds = [48]).
Proof.
  destruct (print_digits_acc (S (N.to_nat (N.size n))) n []) as (ds & E1 & _ & E3 & E4 & E5 & E6 & E7); [lia|].
  exists ds. unfold print_N. rewrite E1, app_nil_r. auto 6.
Qed.
Lemma parse_N_print n : parse_N (print_N n) = Some n.
Proof.
  destruct (print_N_spec n) as (ds & -> & E & _ & Hne & _). unfold parse_N. destruct ds; [congruence|exact E].
Qed.
Lemma print_N_head n : exists c r, print_N n = c :: r /\ is_digit c = true.
Proof.
  destruct (print_N_spec n) as (ds & -> & _ & Hf & Hne & _). destruct ds as [|c r]; [congruence|]. inversion Hf; subst. eauto.
Qed.
Lemma parse_Z_print z : parse_Z (print_Z z) = Some z.
Proof.
  destruct z as [|p|p]; [reflexivity| |]; cbn [print_Z].
  - destruct (print_N_head (Npos p)) as (c & r & E & Hd). pose proof (parse_N_print (Npos p)) as H. rewrite E in *.
    cbn [parse_Z]. replace (c =? c_minus) with false by (unfold is_digit, c_minus in *; lia). rewrite H. reflexivity.
  - cbn [parse_Z]. change (c_minus =? c_minus) with true. cbv iota. rewrite parse_N_print. reflexivity.
Qed.

Lemma span_digits_all ds : Forall (fun c => is_digit c = true) ds -> span_digits ds = (ds, []).
Proof. induction 1 as [|c r H _ IH]; simpl; [reflexivity|]. rewrite H, IH. reflexivity. Qed.
Lemma scan_number_digits ds : Forall (fun c => is_digit c = true) ds ->
  (ds = [48] \/ exists c r, ds = c :: r /\ c <> 48) -> scan_int_part ds = Some (ds, []).
Proof.
  intros Hf [->|(c & r & -> & Hc)]; [reflexivity|]. cbn [scan_int_part]. apply N.eqb_neq in Hc. rewrite Hc.
  inversion Hf; subst. rewrite H1, span_digits_all by assumption. reflexivity.
Qed.
Lemma is_num_print_Z z : is_num (print_Z z).
Proof.
  unfold is_num. destruct z as [|p|p]; [reflexivity| |]; cbn [print_Z];
    destruct (print_N_spec (Npos p)) as (ds & -> & _ & Hf & Hne & H1 & _); destruct (H1 ltac:(discriminate)) as (c & r & E & Hc).
  - unfold scan_number. subst ds. inversion Hf; subst.
    replace (c =? c_minus) with false by (unfold is_digit, c_minus in *; lia).
    rewrite scan_number_digits by eauto. cbn [scan_frac scan_exp app]. rewrite app_nil_r. reflexivity.
  - unfold scan_number. change (c_minus =? c_minus) with true. cbv iota.
    rewrite scan_number_digits by eauto. cbn [scan_frac scan_exp app]. rewrite app_nil_r. reflexivity.
Qed.
