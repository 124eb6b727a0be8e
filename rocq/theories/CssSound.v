From Verif Require Import Base Graph PyStr Json Css CssSpec.
From Coq Require Import List NArith ZArith Bool Lia ZifyN ZifyBool.
Import ListNotations.
Open Scope list_scope.
Open Scope N_scope.

Lemma is_space_iff c : is_space c = true <-> space c.
Proof. unfold is_space, space. lia. Qed.
Lemma json_digit_iff c : Json.is_digit c = true <-> digit c.
Proof. unfold Json.is_digit, digit. lia. Qed.
Lemma ident_start_iff c : ident_start c = true <-> name_start c.
Proof. unfold ident_start, name_start, is_letter, letter. lia. Qed.
Lemma ident_cp_iff hd c : ident_cp hd c = true <-> name_char c.
Proof. unfold ident_cp, name_char, is_dec, ident_start, name_start, is_letter, letter, Json.is_digit, digit. destruct (c <? 128) eqn:E; [lia|]. destruct (hd c); lia. Qed.
Lemma is_dec_iff hd c : is_dec hd c = true <-> dec hd c.
Proof. unfold is_dec, dec, Json.is_digit, digit. destruct (c <? 128) eqn:E; [lia|]. intuition lia. Qed.
Lemma is_hex_val c : is_hex c = true -> exists v, Json.hex_val c = Some v /\ hex_is c v.
Proof.
  unfold is_hex, Json.hex_val. intros H. destruct ((48 <=? c) && (c <=? 57)) eqn:E1; [exists (c - 48); split; [reflexivity|constructor; unfold digit; lia]|].
  destruct ((97 <=? c) && (c <=? 102)) eqn:E2; [exists (c - 87); split; [reflexivity|apply HexLower; lia]|].
  destruct ((65 <=? c) && (c <=? 70)) eqn:E3; [exists (c - 55); split; [reflexivity|apply HexUpper; lia]|]. unfold Json.is_digit in H. lia.
Qed.
Lemma is_hex_no c : is_hex c = false -> ~ exists v, hex_is c v.
Proof. unfold is_hex, Json.is_digit. intros H (v & X). inversion X; subst; unfold digit in *; lia. Qed.

Lemma span_spec p s : forall a b, span p s = (a, b) -> s = a ++ b /\ Forall (fun c => p c = true) a /\ match b with c :: _ => p c = false | [] => True end.
Proof.
  induction s as [|c r IH]; intros a b H; cbn [span] in H; [injection H as <- <-; auto|]. destruct (p c) eqn:E.
  - destruct (span p r) as [a' b'] eqn:Es. injection H as <- <-. destruct (IH _ _ eq_refl) as (-> & A & B). split; [reflexivity|]. split; [constructor; assumption|exact B].
  - injection H as <- <-. auto.
Qed.
Lemma comment_body_spec s : forall v r, comment_body s = Some (v, r) -> s = v ++ [42; 47] ++ r /\ (forall a b, v <> a ++ 42 :: 47 :: b).
Proof.
  induction s as [|c r IH]; intros v r' H; [discriminate|]. cbn [comment_body] in H. destruct r as [|d r2]; [discriminate|]. destruct ((c =? 42) && (d =? 47)) eqn:E.
  - injection H as <- <-. assert (c = 42 /\ d = 47) as (-> & ->) by lia. split; [reflexivity|]. intros a b X; destruct a; discriminate.
  - destruct (comment_body (d :: r2)) as [[v' r'']|] eqn:Ec; [|discriminate]. injection H as <- <-. destruct (IH _ _ eq_refl) as (A & B). rewrite A.
    split; [reflexivity|].
    intros a b X. destruct a as [|x a]; cbn [app] in X; injection X as X1 X2; [|exact (B a b X2)]. subst c. subst v'. cbn [app] in A. injection A as A1 A2. subst d. cbn in E. discriminate.
Qed.
Lemma comment_body_none s : comment_body s = None -> forall a b, s <> a ++ 42 :: 47 :: b.
Proof.
  induction s as [|c r IH]; intros H a b X; [destruct a; discriminate|]. cbn [comment_body] in H. destruct r as [|d r2].
  - destruct a as [|x [|y a]]; discriminate.
  - destruct ((c =? 42) && (d =? 47)) eqn:E; [discriminate|]. destruct (comment_body (d :: r2)) as [[v' r'']|] eqn:Ec; [discriminate|].
    destruct a as [|x a]; cbn [app] in X; injection X as X1 X2; [|exact (IH eq_refl a b X2)]. subst. cbn in E. discriminate.
Qed.
Lemma take_hex_spec n : forall s a b, take_hex n s = (a, b) -> s = a ++ b /\ Forall (fun c => is_hex c = true) a /\ (length a <= n)%nat.
Proof.
  induction n as [|n IH]; intros s a b H; cbn [take_hex] in H; [injection H as <- <-; auto|]. destruct s as [|c r]; [injection H as <- <-; split; [reflexivity|split; [constructor|simpl; lia]]|].
  destruct (is_hex c) eqn:E.
  - destruct (take_hex n r) as [a' b'] eqn:Et. injection H as <- <-. destruct (IH _ _ _ Et) as (-> & A & B). split; [reflexivity|]. split; [constructor; assumption|simpl; lia].
  - injection H as <- <-. split; [reflexivity|split; [constructor|simpl; lia]].
Qed.
Lemma hex_num_reads ds : Forall (fun c => is_hex c = true) ds -> hex_reads ds (hex_num ds).
Proof.
  induction ds as [|c ds IH] using rev_ind; intros H; [constructor|]. apply Forall_app in H. destruct H as (H1 & H2). inversion H2 as [|? ? Hc _]. subst.
  unfold hex_num. rewrite fold_left_app. cbn [fold_left]. fold (hex_num ds). destruct (is_hex_val c Hc) as (v & -> & Hv). constructor; auto.
Qed.
Lemma code_point_scalar n : scalar n /\ code_point n = n \/ ~ scalar n /\ code_point n = 65533.
Proof. unfold code_point, scalar. destruct (_ || _ || _) eqn:E; [right|left]; split; lia. Qed.
Lemma escaped_spec s x r : s <> [] -> escaped s = (x, r) -> exists e, s = e ++ r /\ e <> [] /\ escape_of e x.
Proof.
  intros Hne H. destruct s as [|c s']; [congruence|]. cbn [escaped] in H. destruct (is_hex c) eqn:Eh.
  - destruct (take_hex 6 (c :: s')) as [ds rest] eqn:Et. injection H as <- H. destruct (take_hex_spec _ _ _ _ Et) as (A & B & C).
    assert (Hd : ds <> []). { change (take_hex 6 (c :: s')) with (if is_hex c then let '(a, b) := take_hex 5 s' in (c :: a, b) else ([], c :: s')) in Et. rewrite Eh in Et. destruct (take_hex 5 s'). injection Et as <- <-. discriminate. }
    assert (Hw : exists w, rest = w ++ r /\ (w = [] \/ exists c0, w = [c0] /\ space c0)).
    { destruct rest as [|w r2]; [subst r; exists []; auto|]. destruct (is_space w) eqn:Ew; subst r; [exists [w]; split; [reflexivity|right; exists w; split; [reflexivity|apply is_space_iff; assumption]]|exists []; auto]. }
    destruct Hw as (w & -> & Hw). exists (ds ++ w). split; [rewrite A, app_assoc; reflexivity|]. split; [intros X; apply app_eq_nil in X; destruct X as (X & _); contradiction|].
    apply EscHex with (n := hex_num ds); try assumption; [apply hex_num_reads; assumption|apply code_point_scalar].
  - injection H as <- <-. exists [c]. split; [reflexivity|]. split; [discriminate|]. apply EscChar. apply is_hex_no. assumption.
Qed.
Lemma escaped_cons c s x r : escaped (c :: s) = (x, r) -> exists e, c :: s = e ++ r /\ e <> [] /\ escape_of e x.
Proof. apply escaped_spec. discriminate. Qed.
Lemma valid_escape_spec s : valid_escape s = true -> exists c r, s = 92 :: c :: r /\ c <> 10.
Proof. destruct s as [|a [|b r]]; try discriminate. cbn [valid_escape]. intros H. exists b, r. assert (a = 92 /\ b <> 10) as (-> & X) by lia. auto. Qed.
(** escapes that do not start with a newline *)
Lemma escaped_no_newline c r x r2 : c <> 10 -> escaped (c :: r) = (x, r2) -> exists e, c :: r = e ++ r2 /\ e <> [] /\ escape_of e x /\ (forall t, e <> 10 :: t).
Proof.
  intros Hc H. destruct (escaped_spec (c :: r) x r2 ltac:(discriminate) H) as (e & A & B & C). exists e. repeat split; try assumption.
  intros t ->. cbn [app] in A. injection A as A _. contradiction.
Qed.

Set Default Proof Using "Type".
Section Sound.
Context {F : Type} (float_of : str -> option F) (float_str : F -> str).
Context (high_digit : N -> bool) (int_high : str -> option Z).
Notation denotes := (denotes float_of high_digit int_high).
Notation numeral := (numeral float_of high_digit int_high).
Notation number := (number float_of high_digit int_high).

Lemma ident_seq_spec fuel : forall s v r, ident_seq high_digit fuel s = Ret (v, r) -> exists p, s = p ++ r /\ spells p v.
Proof.
  induction fuel as [|k IH]; intros s v r H; [discriminate|]. cbn [ident_seq] in H. destruct s as [|c s']; [injection H as <- <-; exists []; split; [reflexivity|constructor]|].
  destruct (ident_cp high_digit c) eqn:Ec.
  - destruct (ident_seq high_digit k s') as [[v' r']|] eqn:E; [|discriminate]. injection H as <- <-. destruct (IH _ _ _ E) as (p & -> & A). exists (c :: p). split; [reflexivity|].
    constructor; [apply (ident_cp_iff high_digit); assumption|exact A].
  - destruct (valid_escape (c :: s')) eqn:Ev; [|injection H as <- <-; exists []; split; [reflexivity|constructor]]. destruct (valid_escape_spec _ Ev) as (d & t & X & Hd). injection X as -> ->.
    destruct (escaped (d :: t)) as [x r2] eqn:Ee. destruct (ident_seq high_digit k r2) as [[v' r']|] eqn:E; [|discriminate]. injection H as <- <-. destruct (IH _ _ _ E) as (p & -> & A).
    destruct (escaped_no_newline _ _ _ _ Hd Ee) as (e & B & _ & C & D). exists (92 :: e ++ p). split; [rewrite B; cbn [app]; rewrite <- app_assoc; reflexivity|]. constructor; assumption.
Qed.
Lemma ident_seq_total fuel : forall s, (length s < fuel)%nat -> exists v r, ident_seq high_digit fuel s = Ret (v, r).
Proof. clear float_of float_str int_high F.
  induction fuel as [|k IH]; intros s Hl; [lia|]. cbn [ident_seq]. destruct s as [|c s']; [eauto|]. simpl in Hl.
  destruct (ident_cp high_digit c).
  - destruct (IH s' ltac:(lia)) as (v & r & ->). eauto.
  - destruct (valid_escape (c :: s')) eqn:Ev; [|eauto]. destruct (valid_escape_spec _ Ev) as (d & t & X & Hd). injection X as -> ->.
    destruct (escaped (d :: t)) as [x r2] eqn:Ee. destruct (escaped_cons _ _ _ _ Ee) as (e & Eq & _ & _).
    assert (L : (length r2 <= length (d :: t))%nat) by (rewrite Eq, app_length; lia).
    destruct (IH r2 ltac:(lia)) as (v & r & ->). eauto.
Qed.
(** a name that starts like one is not empty *)
Lemma spells_nonempty p v r s fuel : s = p ++ r -> ident_seq high_digit fuel s = Ret (v, r) -> (exists c t, s = c :: t /\ (ident_cp high_digit c = true \/ valid_escape s = true)) -> p <> [].
Proof. clear float_of float_str int_high F.
  intros E H (c & t & -> & Hc) ->. cbn [app] in E. subst r. destruct fuel as [|k]; [discriminate|]. cbn [ident_seq] in H.
  destruct (ident_cp high_digit c) eqn:Ec.
  - destruct (ident_seq high_digit k t) as [[v' r']|] eqn:Ei; [|discriminate]. injection H as _ H. destruct (ident_seq_spec _ _ _ _ Ei) as (p & E & _). apply (f_equal (@length N)) in H. rewrite E in H. simpl in H. rewrite app_length in H. lia.
  - destruct Hc as [Hc|Hc]; [discriminate|]. rewrite Hc in H. destruct (valid_escape_spec _ Hc) as (d & u & X & Hd). injection X as -> ->.
    destruct (escaped (d :: u)) as [x r2] eqn:Ee. destruct (ident_seq high_digit k r2) as [[v' r']|] eqn:Ei; [|discriminate]. injection H as _ H.
    destruct (ident_seq_spec _ _ _ _ Ei) as (p & E & _). destruct (escaped_cons _ _ _ _ Ee) as (e & Eq & _ & _).
    apply (f_equal (@length N)) in H, E, Eq. simpl in *. rewrite !app_length in *. simpl in *. lia.
Qed.
Lemma string_body_spec q fuel : q <> 10 -> q <> 92 -> forall s b v r, string_body fuel q s = Ret (b, v, r) ->
  exists p, str_spells q p v /\
    (b = true /\ s = p ++ q :: r \/ b = true /\ r = [] /\ (s = p \/ s = p ++ [92]) \/ b = false /\ s = p ++ r /\ exists t, r = 10 :: t).
Proof.
  intros Hq Hq2. induction fuel as [|k IH]; intros s b v r H; [discriminate|]. cbn [string_body] in H. destruct s as [|c s']; [injection H as <- <- <-; exists []; split; [constructor|auto 6]|].
  destruct (c =? q) eqn:Eq; [injection H as <- <- <-; apply N.eqb_eq in Eq; subst c; exists []; split; [constructor|auto]|]. apply N.eqb_neq in Eq.
  destruct (c =? 10) eqn:En; [injection H as <- <- <-; apply N.eqb_eq in En; subst c; exists []; split; [constructor|]; right; right; eauto|]. apply N.eqb_neq in En.
  destruct (c =? 92) eqn:Eb.
  - apply N.eqb_eq in Eb. subst c. destruct s' as [|d s''].
    + destruct k as [|k]; [discriminate|]. cbn in H. injection H as <- <- <-. exists []. split; [constructor|]. right. left. auto.
    + destruct (d =? 10) eqn:Ed.
      * apply N.eqb_eq in Ed. subst d. destruct (IH _ _ _ _ H) as (p & A & B). exists (92 :: 10 :: p). split; [constructor; assumption|].
        destruct B as [(-> & ->)|[(-> & -> & [->| ->])|(-> & -> & t & ->)]]; [left; auto|right; left; auto|right; left; auto|right; right; eauto].
      * apply N.eqb_neq in Ed. destruct (escaped (d :: s'')) as [x r3] eqn:Ee. destruct (string_body k q r3) as [[[b' v'] r']|] eqn:Es; [|discriminate]. injection H as <- <- <-.
        destruct (IH _ _ _ _ Es) as (p & A & B). destruct (escaped_no_newline _ _ _ _ Ed Ee) as (e & X & _ & C & D). exists (92 :: e ++ p). split; [constructor; assumption|]. rewrite X.
        destruct B as [(-> & ->)|[(-> & -> & [->| ->])|(-> & -> & t & ->)]]; [left|right; left|right; left|right; right].
        -- split; [reflexivity|]. cbn [app]. rewrite <- app_assoc. reflexivity.
        -- auto.
        -- split; [reflexivity|]. split; [reflexivity|]. right. cbn [app]. rewrite <- app_assoc. reflexivity.
        -- split; [reflexivity|]. split; [cbn [app]; rewrite <- app_assoc; reflexivity|eauto].
  - apply N.eqb_neq in Eb. destruct (string_body k q s') as [[[b' v'] r']|] eqn:Es; [|discriminate]. injection H as <- <- <-.
    destruct (IH _ _ _ _ Es) as (p & A & B). exists (c :: p). split; [constructor; assumption|].
    destruct B as [(-> & ->)|[(-> & -> & [->| ->])|(-> & -> & t & ->)]]; [left; auto|right; left; auto|right; left; auto|right; right; eauto].
Qed.
Lemma string_body_total q fuel : forall s, (length s < fuel)%nat -> exists b v r, string_body fuel q s = Ret (b, v, r).
Proof. clear float_of float_str int_high high_digit F.
  induction fuel as [|k IH]; intros s Hl; [lia|]. cbn [string_body]. destruct s as [|c s']; [eauto|]. simpl in Hl. destruct (c =? q); [eauto|]. destruct (c =? 10); [eauto|]. destruct (c =? 92).
  - destruct s' as [|d s'']; [apply IH; simpl in *; lia|]. destruct (d =? 10); [apply IH; simpl in *; lia|]. destruct (escaped (d :: s'')) as [x r3] eqn:Ee.
    destruct (escaped_cons _ _ _ _ Ee) as (e & Eq & _ & _). assert (L : (length r3 <= length (d :: s''))%nat) by (rewrite Eq, app_length; lia).
    destruct (IH r3 ltac:(lia)) as (b & v & r & ->). eauto.
  - destruct (IH s' ltac:(lia)) as (b & v & r & ->). eauto.
Qed.
Lemma string_token_spec q fuel s t r : q = 34 \/ q = 39 -> string_token fuel q s = Ret (t, r) -> exists p, q :: s = p ++ r /\ p <> [] /\ denotes t p r.
Proof.
  intros Hq H. unfold string_token in H. destruct (string_body fuel q s) as [[[b v] r']|] eqn:E; [|discriminate]. injection H as <- <-.
  destruct (string_body_spec q fuel ltac:(destruct Hq; subst; discriminate) ltac:(destruct Hq; subst; discriminate) _ _ _ _ E) as (p & A & B).
  destruct B as [(-> & ->)|[(-> & -> & B)|(-> & -> & t & ->)]].
  - exists (q :: p ++ [q]). split; [cbn [app]; rewrite <- app_assoc; reflexivity|]. split; [discriminate|]. constructor; assumption.
  - assert (X : exists w, s = p ++ w /\ (w = [] \/ w = [92])) by (destruct B as [->| ->]; [exists []|exists [92]]; rewrite ?app_nil_r; auto). destruct X as (w & -> & Hw).
    exists (q :: p ++ w). split; [rewrite app_nil_r; reflexivity|]. split; [discriminate|]. apply DStringEnd; assumption.
  - exists (q :: p). split; [reflexivity|]. split; [discriminate|]. apply DBadString; assumption.
Qed.

(** numbers *)
Lemma dec_reads_app ds : forall n, Forall (fun c => Json.is_digit c = true) ds ->
  fold_left (fun acc c => match acc with Some a => if Json.is_digit c then Some (a * 10 + (c - 48)) else None | None => None end) ds (Some 0) = Some n -> dec_reads ds n.
Proof. clear float_of float_str int_high high_digit F.
  induction ds as [|c ds IH] using rev_ind; intros n H E; [injection E as <-; constructor|]. apply Forall_app in H. destruct H as (H1 & H2). inversion H2 as [|? ? Hc _]. subst.
  rewrite fold_left_app in E. cbn [fold_left] in E. destruct (fold_left _ ds (Some 0)) as [m|] eqn:Em; [|discriminate]. rewrite Hc in E. injection E as <-.
  replace (m * 10 + (c - 48)) with (10 * m + (c - 48)) by lia. constructor; [apply IH; [assumption|reflexivity]|apply json_digit_iff; assumption].
Qed.
Lemma parse_N_reads ds n : Forall (fun c => Json.is_digit c = true) ds -> parse_N ds = Some n -> ds <> [] /\ dec_reads ds n.
Proof. intros H E. unfold parse_N in E. destruct ds as [|c ds]; [discriminate|]. split; [discriminate|]. apply dec_reads_app; assumption. Qed.
Lemma decs_digits ds : is_ascii ds = true -> Forall (fun c => is_dec high_digit c = true) ds -> Forall (fun c => Json.is_digit c = true) ds.
Proof.
  intros Ha H. apply Forall_forall. intros c Hc. rewrite Forall_forall in H. specialize (H c Hc). unfold is_ascii in Ha. rewrite forallb_forall in Ha. specialize (Ha c Hc). unfold is_dec in H. rewrite Ha in H. exact H.
Qed.
Lemma decs_spec ds : Forall (fun c => is_dec high_digit c = true) ds -> digits high_digit ds.
Proof. intros H. unfold digits. eapply Forall_impl; [|exact H]. intros c. apply is_dec_iff. Qed.
Lemma sign_digits_spec s a b : sign_digits high_digit s = (a, b) -> s = a ++ b /\ exists sg ds, a = sg ++ ds /\ sign sg /\ Forall (fun c => is_dec high_digit c = true) ds /\ match b with c :: _ => is_dec high_digit c = false | [] => True end.
Proof. clear float_of float_str int_high F.
  unfold sign_digits. destruct s as [|c r]; [intros [= <- <-]; split; [reflexivity|]; exists [], []; unfold sign; auto|]. destruct ((c =? 43) || (c =? 45)) eqn:E.
  - destruct (span (is_dec high_digit) r) as [ds rest] eqn:Es. intros [= <- <-]. destruct (span_spec _ _ _ _ Es) as (-> & A & B). split; [reflexivity|]. exists [c], ds. split; [reflexivity|].
    split; [unfold sign; right; assert (c = 43 \/ c = 45) as [->| ->] by lia; auto|]. auto.
  - intros H. destruct (span_spec _ _ _ _ H) as (A & B & C). split; [exact A|]. exists [], a. unfold sign. auto.
Qed.
Lemma to_int_spec repr rest v f r sg ds : to_int int_high repr rest = Ret (v, f, r) -> repr = sg ++ ds -> sign sg -> Forall (fun c => is_dec high_digit c = true) ds -> ds <> [] ->
  r = rest /\ numeral repr v f.
Proof.
  unfold to_int. intros H -> Hs Hd Hne. destruct (int_of int_high (sg ++ ds)) as [z|] eqn:E; [|discriminate]. injection H as <- <- <-. split; [reflexivity|]. unfold int_of in E.
  assert (Ha : is_ascii (sg ++ ds) = is_ascii ds). { unfold is_ascii. rewrite forallb_app. destruct Hs as [->|[->| ->]]; reflexivity. }
  rewrite Ha in E. destruct (is_ascii ds) eqn:Ea.
  - pose proof (decs_digits _ Ea Hd) as Hj. destruct ds as [|c ds']; [congruence|]. inversion Hj as [|? ? Hc _]. subst.
    assert (Hc' : c <> 43 /\ c <> 45) by (apply json_digit_iff in Hc; unfold digit in Hc; lia).
    destruct Hs as [->|[->| ->]]; cbn [app] in E |- *.
    + assert (E1 : (c =? 43) = false) by (apply N.eqb_neq; tauto). rewrite E1 in E. unfold parse_Z in E. assert (E2 : (c =? c_minus) = false) by (apply N.eqb_neq; tauto). rewrite E2 in E.
      destruct (parse_N (c :: ds')) as [n|] eqn:En; [|discriminate]. injection E as <-. destruct (parse_N_reads _ _ Hj En) as (_ & B).
      apply (NumInt _ _ _ [] (c :: ds') n); [left; reflexivity|discriminate|exact B].
    + change (43 =? 43) with true in E. cbv iota in E. destruct (parse_N (c :: ds')) as [n|] eqn:En; [|discriminate]. injection E as <-. destruct (parse_N_reads _ _ Hj En) as (_ & B).
      apply (NumInt _ _ _ [43] (c :: ds') n); [right; left; reflexivity|discriminate|exact B].
    + change (45 =? 43) with false in E. cbv iota in E. unfold parse_Z in E. change (45 =? c_minus) with true in E. cbv iota in E.
      destruct (parse_N (c :: ds')) as [n|] eqn:En; [|discriminate]. injection E as <-. destruct (parse_N_reads _ _ Hj En) as (_ & B).
      apply (NumInt _ _ _ [45] (c :: ds') n); [right; right; reflexivity|discriminate|exact B].
  - apply NumHigh; try assumption; [apply decs_spec; assumption|]. intros X. assert (is_ascii ds = true); [|congruence]. unfold is_ascii. apply forallb_forall. intros c Hc. rewrite Forall_forall in X. apply N.ltb_lt. apply X. exact Hc.
Qed.
Lemma to_float_spec repr rest v f r sg ds fr ex : to_float float_of repr rest = Ret (v, f, r) -> repr = sg ++ ds ++ fr ++ ex -> sign sg -> digits high_digit ds ->
  (fr = [] /\ ds <> [] \/ exists fs, fr = 46 :: fs /\ fs <> [] /\ digits high_digit fs) ->
  (ex = [] \/ exists e esg es, ex = e :: esg ++ es /\ (e = 101 \/ e = 69) /\ sign esg /\ es <> [] /\ digits high_digit es) ->
  (fr <> [] \/ ex <> []) -> r = rest /\ numeral repr v f.
Proof.
  unfold to_float. intros H -> Hs Hd Hf He Hne. destruct (float_of (sg ++ ds ++ fr ++ ex)) as [x|] eqn:E; [|discriminate]. injection H as <- <- <-. split; [reflexivity|]. apply NumFloat; assumption.
Qed.
Lemma exponent_spec repr frac s v f r sg ds fr : exponent float_of high_digit int_high repr frac s = Ret (v, f, r) -> repr = sg ++ ds ++ fr -> sign sg -> digits high_digit ds ->
  Forall (fun c => is_dec high_digit c = true) ds -> (frac = false /\ fr = [] /\ ds <> [] \/ frac = true /\ exists fs, fr = 46 :: fs /\ fs <> [] /\ digits high_digit fs) ->
  (frac = true \/ (2 <= length s)%nat) -> exists p, repr ++ s = p ++ r /\ p <> [] /\ numeral p v f.
Proof.
  intros H -> Hs Hd Hd' Hf Hl. assert (Hf' : fr = [] /\ ds <> [] \/ exists fs, fr = 46 :: fs /\ fs <> [] /\ digits high_digit fs) by tauto.
  assert (Hnil : sg ++ ds ++ fr <> []). { intros X. apply app_eq_nil in X. destruct X as (_ & X). apply app_eq_nil in X. destruct X as (X1 & X2). destruct Hf' as [(_ & Y)|(fs & Y & _)]; [contradiction|congruence]. }
  unfold exponent in H. destruct s as [|a [|b rr]].
  - destruct Hf as [(-> & _)|(_ & Hfr)]; [destruct Hl; [discriminate|simpl in *; lia]|].
    destruct (to_float_spec (sg ++ ds ++ fr) _ _ _ _ sg ds fr [] H ltac:(rewrite !app_nil_r; reflexivity) Hs Hd Hf' ltac:(auto) ltac:(left; destruct Hfr as (fs & -> & _); discriminate)) as (-> & A).
    exists (sg ++ ds ++ fr). auto.
  - destruct Hf as [(-> & _)|(_ & Hfr)]; [destruct Hl; [discriminate|simpl in *; lia]|].
    destruct (to_float_spec (sg ++ ds ++ fr) _ _ _ _ sg ds fr [] H ltac:(rewrite !app_nil_r; reflexivity) Hs Hd Hf' ltac:(auto) ltac:(left; destruct Hfr as (fs & -> & _); discriminate)) as (-> & A).
    exists (sg ++ ds ++ fr). auto.
  - match type of H with (if ?c then _ else _) = _ => destruct c eqn:Ec end.
    + destruct (span (is_dec high_digit) rr) as [es rest] eqn:Es. destruct (span_spec _ _ _ _ Es) as (-> & A & B).
      apply andb_prop in Ec. destruct Ec as (Ea & Eb). apply orb_prop in Eb.
      assert (Ha : a = 101 \/ a = 69) by lia.
      assert (Hex : exists esg es', b :: es = esg ++ es' /\ sign esg /\ es' <> [] /\ digits high_digit es').
      { destruct Eb as [Eb|Eb].
        - exists [], (b :: es). split; [reflexivity|]. split; [left; reflexivity|]. split; [discriminate|]. apply decs_spec. constructor; assumption.
        - apply andb_prop in Eb. destruct Eb as (Eb & Ec). exists [b], es. split; [reflexivity|]. split; [right; assert (b = 43 \/ b = 45) as [->| ->] by lia; auto|].
          split; [|apply decs_spec; assumption]. destruct es; [|discriminate]. cbn [app] in Ec. destruct rest as [|c rest']; [discriminate|]. congruence. }
      destruct Hex as (esg & es' & Hbe & Hsg & Hes & Hds). rewrite Hbe in H.
      destruct (to_float_spec ((sg ++ ds ++ fr) ++ a :: esg ++ es') _ _ _ _ sg ds fr (a :: esg ++ es') H ltac:(rewrite <- !app_assoc; reflexivity) Hs Hd Hf' ltac:(right; exists a, esg, es'; auto) ltac:(right; discriminate)) as (-> & N).
      exists ((sg ++ ds ++ fr) ++ a :: esg ++ es'). split; [rewrite <- Hbe, <- !app_assoc; reflexivity|]. split; [intros X; apply app_eq_nil in X; tauto|exact N].
    + destruct Hf as [(-> & -> & Hne)|(-> & Hfr)].
      * rewrite app_nil_r in *. destruct (to_int_spec (sg ++ ds) _ _ _ _ sg ds H eq_refl Hs Hd' Hne) as (-> & A). exists (sg ++ ds). auto.
      * destruct (to_float_spec (sg ++ ds ++ fr) _ _ _ _ sg ds fr [] H ltac:(rewrite !app_nil_r; reflexivity) Hs Hd Hf' ltac:(auto) ltac:(left; destruct Hfr as (fs & -> & _); discriminate)) as (-> & A).
        exists (sg ++ ds ++ fr). auto.
Qed.
(** what the caller of [number] knows: a digit, or something [is_number] accepts *)
Definition numeric_start (s : str) : Prop := is_number high_digit s = true \/ exists c r, s = c :: r /\ is_dec high_digit c = true.
Lemma span_cons p s c r : s = c :: r -> p c = true -> fst (span p s) <> [].
Proof. intros -> H. cbn [span]. rewrite H. destruct (span p r). discriminate. Qed.
Lemma number_spec s v f r : numeric_start s -> number s = Ret (v, f, r) -> exists p, s = p ++ r /\ p <> [] /\ numeral p v f.
Proof.
  intros HN H. unfold Css.number in H. destruct s as [|c0 s0] eqn:Es; [discriminate|]. rewrite <- Es in *. destruct (sign_digits high_digit s) as [repr s1] eqn:Esd. destruct (sign_digits_spec _ _ _ Esd) as (Eq & sg & ds & Er & Hsg & Hds & Hb).
  (* no digits: a fraction follows *)
  assert (HF : ds = [] -> exists b rr, s1 = 46 :: b :: rr /\ is_dec high_digit b = true).
  { intros ->. rewrite app_nil_r in Er. subst repr.
    assert (Hdot : is_dec high_digit 43 = false /\ is_dec high_digit 45 = false /\ is_dec high_digit 46 = false) by (repeat split; reflexivity). destruct Hdot as (D1 & D2 & D3).
    destruct HN as [HN|(c & t & X & Hc)].
    - destruct s as [|a [|b [|c t]]]; try discriminate. cbn [is_number] in HN. destruct Hsg as [->|[->| ->]]; cbn [app] in Eq.
      + subst s1. destruct ((a =? 43) || (a =? 45)) eqn:Ea.
        * exfalso. unfold sign_digits in Esd. rewrite Ea in Esd. destruct (span (is_dec high_digit) (b :: c :: t)). discriminate.
        * destruct (a =? 46) eqn:Ea2; [|congruence]. apply N.eqb_eq in Ea2. subst a. exists b, (c :: t). auto.
      + injection Eq as -> <-. change ((43 =? 43) || (43 =? 45)) with true in HN. cbv iota in HN. apply orb_prop in HN. destruct HN as [HN|HN]; [congruence|]. apply andb_prop in HN. destruct HN as (E1 & E2). apply N.eqb_eq in E1. subst b. eauto.
      + injection Eq as -> <-. change ((45 =? 43) || (45 =? 45)) with true in HN. cbv iota in HN. apply orb_prop in HN. destruct HN as [HN|HN]; [congruence|]. apply andb_prop in HN. destruct HN as (E1 & E2). apply N.eqb_eq in E1. subst b. eauto.
    - exfalso. rewrite X in Eq. destruct Hsg as [->|[->| ->]]; cbn [app] in Eq; [|injection Eq as -> _; congruence|injection Eq as -> _; congruence].
      destruct s1 as [|c' s1']; [discriminate|]. injection Eq as -> _. congruence. }
  assert (Hdig : digits high_digit ds) by (apply decs_spec; assumption).
  destruct s1 as [|a [|b rr]].
  - assert (ds <> []) by (intros X; destruct (HF X) as (? & ? & ? & _); discriminate).
    assert (H' : to_int int_high repr [] = Ret (v, f, r)).
    { destruct repr as [|c1 [|c2 repr']]; [discriminate| |exact H]. destruct ((c1 =? 43) || (c1 =? 45)); [discriminate|exact H]. }
    destruct (to_int_spec _ _ _ _ _ sg ds H' Er Hsg Hds ltac:(assumption)) as (-> & A). exists repr. split; [exact Eq|]. split; [|exact A]. subst repr. intros X. apply app_eq_nil in X. tauto.
  - assert (ds <> []) by (intros X; destruct (HF X) as (? & ? & ? & _); discriminate).
    destruct (to_int_spec _ _ _ _ _ sg ds H Er Hsg Hds ltac:(assumption)) as (-> & A). exists repr. split; [exact Eq|]. split; [|exact A]. subst repr. intros X. apply app_eq_nil in X. tauto.
  - destruct ((a =? 46) && is_dec high_digit b) eqn:Ea.
    + apply andb_prop in Ea. destruct Ea as (Ea & Eb). apply N.eqb_eq in Ea. subst a. destruct (span (is_dec high_digit) rr) as [fs s2] eqn:Ef. destruct (span_spec _ _ _ _ Ef) as (-> & A & B).
      assert (Hfr : exists fs', 46 :: b :: fs = 46 :: fs' /\ fs' <> [] /\ digits high_digit fs') by (exists (b :: fs); split; [reflexivity|]; split; [discriminate|]; apply decs_spec; constructor; assumption).
      assert (Hrepr : repr ++ 46 :: b :: fs = sg ++ ds ++ (46 :: b :: fs)) by (rewrite Er, <- app_assoc; reflexivity).
      destruct s2 as [|d s2'].
      * destruct (to_float_spec _ _ _ _ _ sg ds (46 :: b :: fs) [] H ltac:(rewrite app_nil_r; exact Hrepr) Hsg Hdig ltac:(right; exact Hfr) ltac:(auto) ltac:(left; discriminate)) as (-> & N).
        exists (repr ++ 46 :: b :: fs). split; [rewrite Eq, !app_nil_r; reflexivity|]. split; [intros X; apply app_eq_nil in X; destruct X; discriminate|exact N].
      * destruct (exponent_spec _ _ _ _ _ _ sg ds (46 :: b :: fs) H Hrepr Hsg Hdig Hds ltac:(right; split; [reflexivity|exact Hfr]) ltac:(left; reflexivity)) as (p & X & Y & Z).
        exists p. split; [|auto]. rewrite <- X, Eq, <- app_assoc. reflexivity.
    + assert (Hne : ds <> []). { intros X. destruct (HF X) as (b' & rr' & Y & Hb'). injection Y as -> -> ->. rewrite Hb' in Ea. discriminate. }
      destruct (exponent_spec _ _ _ _ _ _ sg ds [] H ltac:(rewrite app_nil_r; exact Er) Hsg Hdig Hds ltac:(left; auto) ltac:(right; simpl; lia)) as (p & X & Y & Z).
      exists p. split; [|auto]. rewrite <- X. exact Eq.
Qed.
Lemma ident_sequence_start s : ident_sequence s = Ret true -> exists c t, s = c :: t /\ (ident_cp high_digit c = true \/ valid_escape s = true).
Proof.
  unfold ident_sequence. destruct s as [|a [|b [|c t]]]; try discriminate. intros [= H]. exists a, (b :: c :: t). split; [reflexivity|].
  destruct (a =? 45) eqn:E1; [left; unfold ident_cp; rewrite E1; apply orb_true_r|]. destruct (ident_start a) eqn:E2; [left; unfold ident_cp; rewrite E2; reflexivity|]. right.
  destruct (a =? 92) eqn:E3; [|discriminate]. cbn [valid_escape]. rewrite E3. exact H.
Qed.
Lemma numeric_token_spec fuel s t r : numeric_start s -> numeric_token float_of high_digit int_high fuel s = Ret (t, r) -> exists p, s = p ++ r /\ p <> [] /\ denotes t p r.
Proof.
  intros HN H. unfold numeric_token in H. destruct (number s) as [[[v f] rest]|] eqn:E; [|discriminate]. destruct (number_spec _ _ _ _ HN E) as (p & -> & Hp & N).
  destruct (ident_sequence rest) as [[|]|] eqn:Ei; [| |discriminate].
  - destruct (ident_seq high_digit fuel rest) as [[u r2]|] eqn:Eu; [|discriminate]. injection H as <- <-. destruct (ident_seq_spec _ _ _ _ Eu) as (q & Eq & A).
    pose proof (spells_nonempty q u r2 rest fuel Eq Eu (ident_sequence_start _ Ei)) as Hq. exists (p ++ q). split; [rewrite Eq, app_assoc; reflexivity|]. split; [intros X; apply app_eq_nil in X; tauto|]. apply DDimension; assumption.
  - destruct rest as [|c rest']; [injection H as <- <-; exists p; split; [reflexivity|]; split; [assumption|constructor; assumption]|].
    destruct (c =? 37) eqn:Ec; injection H as <- <-.
    + apply N.eqb_eq in Ec. subst c. exists (p ++ [37]). split; [rewrite <- app_assoc; reflexivity|]. split; [intros X; apply app_eq_nil in X; tauto|constructor; assumption].
    + exists p. split; [reflexivity|]. split; [assumption|constructor; assumption].
Qed.

(** urls *)
Lemma bad_url_rest_suffix fuel : forall s r, bad_url_rest fuel s = Ret r -> exists p, s = p ++ r.
Proof.
  induction fuel as [|k IH]; intros s r H; [discriminate|]. cbn [bad_url_rest] in H. destruct s as [|c s']; [injection H as <-; exists []; reflexivity|].
  destruct (c =? 41); [injection H as <-; exists [c]; reflexivity|]. destruct s' as [|d s'']; [discriminate|]. destruct (valid_escape [c; d]).
  - destruct (escaped (d :: s'')) as [x r2] eqn:Ee. destruct (escaped_cons _ _ _ _ Ee) as (e & Eq & _ & _). destruct (IH _ _ H) as (p & Ep). cbn [snd] in Ep. exists (c :: e ++ p). rewrite Eq, Ep. cbn [app]. rewrite <- app_assoc. reflexivity.
  - destruct (IH _ _ H) as (p & Ep). exists (c :: p). rewrite Ep. reflexivity.
Qed.
Lemma url_body_spec fuel : forall s o r, url_body fuel s = Ret (o, r) ->
  match o with
  | Some v => exists p, url_spells p v /\ (s = p ++ 41 :: r \/ r = [] /\ s = p)
  | None => exists p, s = p ++ r
  end.
Proof. clear float_of float_str int_high high_digit F.
  induction fuel as [|k IH]; intros s o r H; [discriminate|]. cbn [url_body] in H. destruct s as [|c s']; [injection H as <- <-; exists []; split; [constructor|auto]|].
  destruct (c =? 41) eqn:E1; [injection H as <- <-; apply N.eqb_eq in E1; subst c; exists []; split; [constructor|auto]|]. apply N.eqb_neq in E1.
  destruct (is_space c) eqn:E2.
  - specialize (IH _ _ _ H). destruct o as [v|].
    + destruct IH as (p & A & B). exists (c :: p). split; [apply UrlSpace; [apply is_space_iff|]; assumption|]. destruct B as [->|(-> & ->)]; auto.
    + destruct IH as (p & ->). exists (c :: p). reflexivity.
  - assert (Hsp : ~ space c) by (intros X; apply is_space_iff in X; congruence). destruct ((c =? 34) || (c =? 39) || (c =? 40) || non_printable c) eqn:E3.
    + destruct (bad_url_rest k (c :: s')) as [rest|] eqn:Eb; [|discriminate]. injection H as <- <-. exact (bad_url_rest_suffix _ _ _ Eb).
    + destruct ((c =? 92) && valid_escape (c :: s')) eqn:E4.
      * apply andb_prop in E4. destruct E4 as (_ & E4). destruct (valid_escape_spec _ E4) as (d & t & X & Hd). injection X as -> ->. destruct (escaped (d :: t)) as [x r2] eqn:Ee.
        destruct (escaped_no_newline _ _ _ _ Hd Ee) as (e & B & _ & C & D). destruct (url_body k r2) as [[[v|] rest]|] eqn:Eu; [| |discriminate]; injection H as <- <-; specialize (IH _ _ _ Eu); cbn beta iota in IH.
        -- destruct IH as (p & P & Q). exists (92 :: e ++ p). split; [constructor; assumption|]. rewrite B. destruct Q as [->|(-> & ->)]; [left; cbn [app]; rewrite <- app_assoc; reflexivity|right; auto].
        -- destruct IH as (p & ->). exists (92 :: e ++ p). rewrite B. cbn [app]. rewrite <- app_assoc. reflexivity.
      * destruct (url_body k s') as [[[v|] rest]|] eqn:Eu; [| |discriminate]; injection H as <- <-; specialize (IH _ _ _ Eu); cbn beta iota in IH.
        -- destruct IH as (p & P & Q). exists (c :: p). split; [apply UrlChar; try assumption; lia|]. destruct Q as [->|(-> & ->)]; auto.
        -- destruct IH as (p & ->). exists (c :: p). reflexivity.
Qed.
Lemma url_space_spec s : exists w, s = w ++ url_space s /\ Forall space w.
Proof. clear float_of float_str int_high high_digit F.
  induction s as [|a r IH]; [exists []; split; [reflexivity|constructor]|]. cbn [url_space]. destruct r as [|b t]; [exists []; split; [reflexivity|constructor]|].
  destruct (is_space a && is_space b) eqn:E; [|exists []; split; [reflexivity|constructor]]. destruct IH as (w & Ew & Hw). exists (a :: w). split; [cbn [app]; f_equal; exact Ew|]. constructor; [|exact Hw]. apply is_space_iff. lia.
Qed.
Lemma is_url_name_iff v : is_url_name v = true <-> is_url v.
Proof. clear high_digit.
  split.
  - unfold is_url_name. destruct v as [|a [|b [|c [|d v]]]]; try discriminate. intros H. exists a, b, c. split; [reflexivity|]. lia.
  - intros (a & b & c & -> & A & B & C). unfold is_url_name. lia.
Qed.
Lemma ident_like_spec fuel s t r : (exists c u, s = c :: u /\ (ident_cp high_digit c = true \/ valid_escape s = true)) -> ident_like high_digit fuel s = Ret (t, r) -> exists p, s = p ++ r /\ p <> [] /\ denotes t p r.
Proof.
  intros HS H. unfold ident_like in H. destruct (ident_seq high_digit fuel s) as [[v rest]|] eqn:E; [|discriminate]. destruct (ident_seq_spec _ _ _ _ E) as (p & Eq & A).
  pose proof (spells_nonempty p v rest s fuel Eq E HS) as Hp. destruct rest as [|c rest']; [injection H as <- <-; exists p; split; [exact Eq|]; split; [assumption|constructor; assumption]|].
  destruct (c =? 40) eqn:Ec; [|injection H as <- <-; exists p; split; [exact Eq|]; split; [assumption|constructor; assumption]]. apply N.eqb_eq in Ec. subst c.
  destruct (is_url_name v) eqn:Eu.
  - apply is_url_name_iff in Eu. destruct (url_space_spec rest') as (w & Ew & Hw). destruct (url_space rest') as [|a tl] eqn:Er.
    + rewrite app_nil_r in Ew. subst w. injection H as <- <-. destruct rest' as [|x rest''].
      * exists (p ++ [40]). split; [rewrite app_nil_r; exact Eq|]. split; [intros X; apply app_eq_nil in X; tauto|]. apply DIdentEnd; assumption.
      * exfalso. clear - Er. revert x Er. induction rest'' as [|y l IH]; intros x Er; cbn [url_space] in Er; [discriminate|]. destruct (is_space x && is_space y); [apply (IH _ Er)|discriminate].
    + destruct (is_quote a || (is_space a && match tl with b :: _ => is_quote b | [] => false end)) eqn:Ea.
      * injection H as <- <-. exists (p ++ 40 :: w). split; [rewrite Eq, Ew, <- app_assoc; reflexivity|]. split; [intros X; apply app_eq_nil in X; destruct X; discriminate|]. apply DUrlFunction; assumption.
      * destruct (url_body fuel (a :: tl)) as [[[u|] rest2]|] eqn:Eb; [| |discriminate]; injection H as <- <-; pose proof (url_body_spec _ _ _ _ Eb) as HB; cbn beta iota in HB.
        -- assert (Hws : forall l b v, Forall space l -> url_spells b v -> url_spells (l ++ b) v) by (intros l b v0 HL HU; induction HL; [exact HU|cbn [app]; apply UrlSpace; assumption]).
           destruct HB as (b & B1 & [B2|(-> & B2)]); rewrite B2 in Ew.
           ++ exists (p ++ 40 :: (w ++ b) ++ [41]). split; [rewrite Eq, Ew, <- !app_assoc; cbn [app]; rewrite <- !app_assoc; reflexivity|]. split; [intros X; apply app_eq_nil in X; destruct X; discriminate|]. eapply DUrl; [exact A|exact Eu|apply Hws; assumption].
           ++ exists (p ++ 40 :: (w ++ b)). split; [rewrite Eq, Ew, app_nil_r; reflexivity|]. split; [intros X; apply app_eq_nil in X; destruct X; discriminate|]. eapply DUrlEnd; [exact A|exact Eu|apply Hws; assumption].
        -- destruct HB as (b & B). rewrite B in Ew. exists (p ++ 40 :: (w ++ b)). split; [rewrite Eq, Ew; cbn [app]; rewrite <- !app_assoc; cbn [app]; rewrite <- app_assoc; reflexivity|]. split; [intros X; apply app_eq_nil in X; destruct X; discriminate|]. eapply DBadUrl; eassumption.
  - injection H as <- <-. exists (p ++ [40]). split; [rewrite Eq, <- app_assoc; reflexivity|]. split; [intros X; apply app_eq_nil in X; tauto|]. apply DFunction; try assumption. intros X. apply is_url_name_iff in X. congruence.
Qed.

Notation next_token := (next_token float_of high_digit int_high).
Lemma starts_with_split p : forall s, starts_with p s = true -> s = p ++ skipn (length p) s.
Proof.
  induction p as [|a p IH]; intros s H; [reflexivity|]. destruct s as [|b s]; [discriminate|]. cbn [starts_with] in H. apply andb_prop in H. destruct H as (H1 & H2). apply N.eqb_eq in H1. subst b. cbn [app skipn length]. f_equal. apply IH. exact H2.
Qed.
Ltac fixed := match goal with H : Ret _ = Ret _ |- _ => injection H as <- <- end.
Ltac known c := match goal with H : (c =? ?k) = true |- _ => apply N.eqb_eq in H; try subst c end.
Ltac punct c := fixed; known c; eexists [_]; split; [reflexivity|]; split; [discriminate|constructor; unfold delim_char, space, digit, name_start, letter; lia].
Lemma next_token_sound fuel c r t rest : next_token fuel c r = Ret (t, rest) -> exists p, c :: r = p ++ rest /\ p <> [] /\ denotes t p rest.
Proof.
  intros H. unfold Css.next_token in H.
  destruct ((c =? 47) && match r with d :: _ => d =? 42 | [] => false end) eqn:E1.
  { destruct r as [|d r']; [rewrite andb_false_r in E1; discriminate|]. cbn [tl] in H. assert (c = 47 /\ d = 42) as (-> & ->) by lia. destruct (comment_body r') as [[v rest']|] eqn:Ec; injection H as <- <-.
    - destruct (comment_body_spec _ _ _ Ec) as (-> & A). exists ([47; 42] ++ v ++ [42; 47]). split; [cbn [app]; rewrite <- app_assoc; reflexivity|]. split; [discriminate|]. constructor. exact A.
    - exists ([47; 42] ++ r'). split; [rewrite app_nil_r; reflexivity|]. split; [discriminate|]. apply DCommentEnd. apply comment_body_none. exact Ec. }
  destruct (is_space c) eqn:E2.
  { destruct (span is_space (c :: r)) as [w rest'] eqn:Es. injection H as <- <-. destruct (span_spec _ _ _ _ Es) as (A & B & _). exists w. split; [exact A|].
    assert (w <> []) by (cbn [span] in Es; rewrite E2 in Es; destruct (span is_space r); injection Es as <- <-; discriminate). split; [assumption|]. constructor; [assumption|]. eapply Forall_impl; [|exact B]. intros x. apply is_space_iff. }
  destruct (c =? 34) eqn:E3; [known c; apply (string_token_spec 34 fuel r t rest); auto|].
  destruct (c =? 35) eqn:E4.
  { destruct r as [|d r']; [discriminate|]. destruct (ident_cp high_digit d || valid_escape (d :: r')) eqn:Ed; [|punct c].
    destruct (ident_sequence (d :: r')) as [i|]; [|discriminate]. destruct (ident_seq high_digit fuel (d :: r')) as [[v r2]|] eqn:Ei; [|discriminate]. injection H as <- <-. known c.
    destruct (ident_seq_spec _ _ _ _ Ei) as (p & Eq & A). exists (35 :: p). split; [rewrite Eq; reflexivity|]. split; [discriminate|]. constructor; [|exact A].
    apply (spells_nonempty p v r2 (d :: r') fuel Eq Ei). exists d, r'. split; [reflexivity|]. apply orb_prop in Ed. exact Ed. }
  destruct (c =? 39) eqn:E5; [known c; apply (string_token_spec 39 fuel r t rest); auto|].
  destruct (c =? 40) eqn:E6; [punct c|]. destruct (c =? 41) eqn:E7; [punct c|].
  destruct (c =? 43) eqn:E8. { destruct (is_number high_digit (c :: r)) eqn:En; [|punct c]. eapply numeric_token_spec; [left; exact En|exact H]. }
  destruct (c =? 44) eqn:E9; [punct c|].
  destruct (c =? 45) eqn:E10.
  { destruct (is_number high_digit (c :: r)) eqn:En; [eapply numeric_token_spec; [left; exact En|exact H]|].
    destruct (starts_with [45; 45; 62] (c :: r)) eqn:Ew. { injection H as <- <-. apply starts_with_split in Ew. exists [45; 45; 62]. split; [exact Ew|]. split; [discriminate|constructor]. }
    destruct (ident_sequence (c :: r)) as [[|]|] eqn:Ei; [|punct c|discriminate]. eapply ident_like_spec; [exact (ident_sequence_start _ Ei)|exact H]. }
  destruct (c =? 46) eqn:E11. { destruct (is_number high_digit (c :: r)) eqn:En; [|punct c]. eapply numeric_token_spec; [left; exact En|exact H]. }
  destruct (c =? 58) eqn:E12; [punct c|]. destruct (c =? 59) eqn:E13; [punct c|].
  destruct (c =? 60) eqn:E14. { destruct (starts_with [60; 33; 45; 45] (c :: r)) eqn:Ew; [|punct c]. injection H as <- <-. apply starts_with_split in Ew. exists [60; 33; 45; 45]. split; [exact Ew|]. split; [discriminate|constructor]. }
  destruct (c =? 64) eqn:E15.
  { destruct (ident_sequence r) as [[|]|] eqn:Ei; [|punct c|discriminate]. destruct (ident_seq high_digit fuel r) as [[v r2]|] eqn:Es; [|discriminate]. injection H as <- <-. known c.
    destruct (ident_seq_spec _ _ _ _ Es) as (p & Eq & A). exists (64 :: p). split; [rewrite Eq; reflexivity|]. split; [discriminate|]. constructor; [|exact A]. exact (spells_nonempty p v r2 r fuel Eq Es (ident_sequence_start _ Ei)). }
  destruct (c =? 91) eqn:E16; [punct c|].
  destruct (c =? 92) eqn:E17. { destruct (valid_escape (c :: r)) eqn:Ev; [|punct c]. eapply ident_like_spec; [exists c, r; split; [reflexivity|right; exact Ev]|exact H]. }
  destruct (c =? 93) eqn:E18; [punct c|]. destruct (c =? 123) eqn:E19; [punct c|]. destruct (c =? 125) eqn:E20; [punct c|].
  destruct (is_dec high_digit c) eqn:E21; [eapply numeric_token_spec; [right; exists c, r; auto|exact H]|].
  destruct (ident_start c) eqn:E22; [eapply ident_like_spec; [exists c, r; split; [reflexivity|left; unfold ident_cp; rewrite E22; reflexivity]|exact H]|].
  injection H as <- <-. exists [c]. split; [reflexivity|]. split; [discriminate|]. constructor. unfold delim_char, space, digit, name_start, letter.
  unfold is_dec, Json.is_digit, is_space, ident_start, is_letter in *. destruct (c <? 128) eqn:E; lia.
Qed.
Notation tokens := (tokens float_of high_digit int_high).
Lemma tokens_sound fuel : forall s ts, tokens fuel s = (ts, None) -> spelled float_of high_digit int_high ts s.
Proof.
  induction fuel as [|k IH]; intros s ts H; destruct s as [|c r]; cbn [Css.tokens] in H; try discriminate; try (injection H as <-; constructor).
  destruct (next_token (S k) c r) as [[t rest]|] eqn:E; [|discriminate]. destruct (tokens k rest) as [l o] eqn:El. injection H as <- ->.
  destruct (next_token_sound _ _ _ _ _ E) as (p & -> & Hp & D). constructor; [assumption|assumption|apply IH; assumption].
Qed.
Lemma next_token_progress fuel c r t rest : next_token fuel c r = Ret (t, rest) -> (length rest < S (length r))%nat.
Proof.
  intros H. destruct (next_token_sound _ _ _ _ _ H) as (p & E & Hp & _). apply (f_equal (@length N)) in E. rewrite app_length in E. destruct p; [congruence|]. simpl in E. lia.
Qed.
End Sound.
