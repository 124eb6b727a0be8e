From Verif Require Import Base Graph Css CssSpec CssSound CssRound Js JsTables JsSpec.
From Coq Require Import String ZArith NArith Bool List Lia ZifyN ZifyBool ZifyNat.
Import ListNotations.
Open Scope list_scope.
Open Scope N_scope.

(** * The tables *)
Lemma increasing_nth l : increasing l -> forall i j a b c d, nth_error l i = Some (a, b) -> nth_error l j = Some (c, d) -> (i < j)%nat -> b < c.
Proof.
  intros H. induction H as [|lo hi Hl|lo hi lo2 hi2 l Hl Hlt H IH]; intros i j a b c d Hi Hj Hij.
  - destruct i; discriminate.
  - destruct j as [|[|j]]; [lia|discriminate|discriminate].
  - destruct j as [|j]; [lia|]. cbn [nth_error] in Hj. destruct i as [|i]; [|apply (IH i j a b c d); [exact Hi|exact Hj|lia]].
    injection Hi as <- <-. destruct j as [|j]; [injection Hj as <- <-; exact Hlt|]. assert (X : hi2 < c) by (apply (IH 0%nat (S j) lo2 hi2 c d); [reflexivity|exact Hj|lia]).
    inversion H; subst; lia.
Qed.
Lemma increasing_le l : increasing l -> forall i a b, nth_error l i = Some (a, b) -> a <= b.
Proof.
  intros H. induction H as [|lo hi Hl|lo hi lo2 hi2 l Hl Hlt H IH]; intros i a b Hi; [destruct i; discriminate| |].
  - destruct i as [|[|i]]; try discriminate. injection Hi as <- <-. exact Hl.
  - destruct i as [|i]; [injection Hi as <- <-; exact Hl|]. exact (IH i a b Hi).
Qed.
Lemma search_exact ranges c : increasing ranges -> forall fuel left right,
  (0 <= left)%Z -> (right < Z.of_nat (length ranges))%Z -> (Z.to_nat (right - left + 1) < fuel)%nat ->
  (forall i lo hi, nth_error ranges i = Some (lo, hi) -> lo <= c <= hi -> (left <= Z.of_nat i <= right)%Z) ->
  exists b, search fuel ranges c left right = Ret b /\ (b = true <-> exists lo hi, In (lo, hi) ranges /\ lo <= c <= hi).
Proof.
  intros HI. induction fuel as [|k IH]; intros left right H0 Hr Hf Hin; [lia|]. cbn [search]. destruct (left <=? right)%Z eqn:E.
  2:{ exists false. split; [reflexivity|]. split; [discriminate|]. intros (lo & hi & HInr & Hc). apply In_nth_error in HInr. destruct HInr as (i & Hi). specialize (Hin i lo hi Hi Hc). lia. }
  set (mid := ((left + right) / 2)%Z). assert (Hm : (left <= mid <= right)%Z) by (unfold mid; split; [apply Z.div_le_lower_bound; lia|apply Z.div_le_upper_bound; lia]).
  destruct (nth_error ranges (Z.to_nat mid)) as [[lo hi]|] eqn:En; [|apply nth_error_None in En; lia].
  destruct ((lo <=? c) && (c <=? hi)) eqn:Ec.
  - exists true. split; [reflexivity|]. split; [|reflexivity]. intros _. exists lo, hi. split; [eapply nth_error_In; exact En|lia].
  - destruct (c <? lo) eqn:El.
    + apply IH; [exact H0|lia|lia|]. intros i a b Hi Hc. specialize (Hin i a b Hi Hc) as X. split; [lia|]. destruct (Z.le_gt_cases (Z.of_nat i) (mid - 1)) as [|G]; [assumption|exfalso].
      destruct (Nat.eq_dec i (Z.to_nat mid)) as [->|Ne]; [rewrite En in Hi; injection Hi as <- <-; lia|].
      pose proof (increasing_nth _ HI (Z.to_nat mid) i _ _ _ _ En Hi ltac:(lia)). pose proof (increasing_le _ HI _ _ _ En). lia.
    + apply IH; [lia|lia|lia|]. intros i a b Hi Hc. specialize (Hin i a b Hi Hc) as X. split; [|lia]. destruct (Z.le_gt_cases (mid + 1) (Z.of_nat i)) as [|G]; [assumption|exfalso].
      destruct (Nat.eq_dec i (Z.to_nat mid)) as [->|Ne]; [rewrite En in Hi; injection Hi as <- <-; lia|].
      pose proof (increasing_nth _ HI i (Z.to_nat mid) _ _ _ _ Hi En ltac:(lia)). pose proof (increasing_le _ HI _ _ _ Hi). lia.
Qed.
Theorem is_match_exact c exact ranges : increasing ranges -> exists b, is_match c exact ranges = Ret b /\ (b = true <-> in_table exact ranges c).
Proof.
  intros HI. unfold is_match. destruct (existsb (N.eqb c) exact) eqn:E.
  - exists true. split; [reflexivity|]. split; [|reflexivity]. intros _. left. apply existsb_exists in E. destruct E as (x & Hx & E). apply N.eqb_eq in E. subst x. exact Hx.
  - destruct (search_exact ranges c HI (S (length ranges)) 0 (Z.of_nat (length ranges) - 1)) as (b & Eb & Hb); [lia|lia|lia| |].
    + intros i lo hi Hi _. assert (X : nth_error ranges i <> None) by congruence. apply nth_error_Some in X. lia.
    + exists b. split; [exact Eb|]. rewrite Hb. unfold in_table. split; [auto|]. intros [X|X]; [|exact X]. exfalso.
      assert (existsb (N.eqb c) exact = true) by (apply existsb_exists; exists c; split; [exact X|apply N.eqb_refl]). congruence.
Qed.
Fixpoint sortedb (l : list (N * N)) : bool :=
  match l with
  | [] => true
  | (lo, hi) :: r => (lo <=? hi) && match r with (lo2, _) :: _ => (hi <? lo2) | [] => true end && sortedb r
  end.
Lemma sortedb_increasing l : sortedb l = true -> increasing l.
Proof.
  induction l as [|[lo hi] l IH]; intros H; [constructor|]. cbn [sortedb] in H. apply andb_prop in H. destruct H as (H & H2). apply andb_prop in H. destruct H as (H & H1). destruct l as [|[lo2 hi2] l]; constructor; try lia. apply IH. exact H2.
Qed.
Lemma start_increasing : increasing match_ranges_id_start.
Proof. apply sortedb_increasing. vm_compute. reflexivity. Qed.
Lemma continue_increasing : increasing match_ranges_id_continue.
Proof. apply sortedb_increasing. vm_compute. reflexivity. Qed.
Lemma is_id_start_iff c : is_id_start c = true <-> id_start c.
Proof. unfold is_id_start. destruct (is_match_exact c exact_matches_id_start _ start_increasing) as (b & E & H). rewrite E. exact H. Qed.
Lemma is_id_continue_iff c : is_id_continue c = true <-> in_table exact_matches_id_continue match_ranges_id_continue c.
Proof. unfold is_id_continue. destruct (is_match_exact c exact_matches_id_continue _ continue_increasing) as (b & E & H). rewrite E. exact H. Qed.

(** * Character classes *)
Lemma is_whitespace_iff c : is_whitespace c = true <-> js_space c.
Proof. unfold is_whitespace, js_space. cbn [existsb]. lia. Qed.
Lemma is_newline_iff c : is_newline c = true <-> js_newline c.
Proof. unfold is_newline, js_newline. lia. Qed.
Lemma is_newline_false c : is_newline c = false <-> ~ js_newline c.
Proof. rewrite <- is_newline_iff. destruct (is_newline c); split; congruence. Qed.
Lemma is_flag_iff c : is_flag c = true <-> js_flag c.
Proof. unfold is_flag, js_flag. change (lit "igmsuyd") with [105; 103; 109; 115; 117; 121; 100]. change (lit "dgimsuy") with [100; 103; 105; 109; 115; 117; 121]. cbn [existsb In]. lia. Qed.
Definition id_part_b (c : N) : bool := existsb (N.eqb c) [36; 8204; 8205] || is_id_continue c.
Lemma id_part_iff c : id_part_b c = true <-> id_part c.
Proof. unfold id_part_b, id_part. rewrite orb_true_iff, is_id_continue_iff. cbn [existsb]. rewrite !orb_true_iff, !N.eqb_eq. intuition discriminate. Qed.
Lemma not_start c : In c [9; 11; 12; 32; 160; 5760; 8192; 8193; 8194; 8195; 8196; 8197; 8198; 8199; 8200; 8201; 8202; 8239; 8287; 12288; 65279; 10; 8232; 8233; 123; 125; 42; 44; 59; 34; 39; 47; 92] -> is_id_start c = false.
Proof. intros H. repeat (destruct H as [<-|H]; [vm_compute; reflexivity|]). destruct H. Qed.
Lemma start_not_space c : id_start c -> ~ js_space c.
Proof.
  intros H X. apply is_id_start_iff in H. enough (is_id_start c = false) by congruence. apply not_start. unfold js_space in X.
  assert (D : c = 8192 \/ c = 8193 \/ c = 8194 \/ c = 8195 \/ c = 8196 \/ c = 8197 \/ c = 8198 \/ c = 8199 \/ c = 8200 \/ c = 8201 \/ c = 8202 \/ ~ (8192 <= c <= 8202)) by lia. cbn [In]. intuition lia.
Qed.

(** * Escapes *)
Lemma hex_is_b c v : hex_is c v -> is_hex c = true /\ Json.hex_val c = Some v.
Proof.
  intros H. assert (E : is_hex c = true) by (inversion H as [? D|? D|? D]; subst; unfold is_hex, Json.is_digit; unfold digit in *; lia). split; [exact E|].
  destruct (is_hex_val c E) as (w & Ew & Hw). rewrite Ew. f_equal. inversion H as [? D|? D|? D]; inversion Hw as [? D2|? D2|? D2]; subst; unfold digit in *; lia.
Qed.
Lemma hex_num_snoc ds c v : Json.hex_val c = Some v -> hex_num (ds ++ [c]) = 16 * hex_num ds + v.
Proof. intros H. unfold hex_num. rewrite fold_left_app. cbn [fold_left]. rewrite H. reflexivity. Qed.
Lemma hex_reads_num ds n : hex_reads ds n -> Forall (fun c => is_hex c = true) ds /\ hex_num ds = n.
Proof.
  intros H. induction H as [|ds n c v H IH Hc]; [split; [constructor|reflexivity]|]. destruct IH as (I1 & I2). destruct (hex_is_b c v Hc) as (E1 & E2). split.
  - apply Forall_app. split; [exact I1|repeat constructor; exact E1].
  - rewrite (hex_num_snoc _ _ _ E2), I2. reflexivity.
Qed.
Lemma hex_num_bound ds : Forall (fun c => is_hex c = true) ds -> hex_num ds < 16 ^ N.of_nat (length ds).
Proof.
  induction ds as [|c ds IH] using rev_ind; intros H; [reflexivity|]. apply Forall_app in H. destruct H as (H1 & H2). inversion H2 as [|? ? Hc _]; subst. destruct (is_hex_val c Hc) as (v & Ev & Hv).
  rewrite (hex_num_snoc _ _ _ Ev). rewrite app_length. cbn [length]. replace (N.of_nat (length ds + 1)) with (N.succ (N.of_nat (length ds))) by lia. rewrite N.pow_succ_r'. specialize (IH H1).
  assert (v < 16) by (inversion Hv as [? D|? D|? D]; subst; unfold digit in *; lia). lia.
Qed.
Lemma hex_num_small ds : Forall (fun c => is_hex c = true) ds -> (length ds <= 5)%nat -> hex_num ds <= 1114111.
Proof.
  intros H Hl. pose proof (hex_num_bound ds H). assert (16 ^ N.of_nat (length ds) <= 16 ^ 5) by (apply N.pow_le_mono_r; lia). change (16 ^ 5) with 1048576 in *. lia.
Qed.
Lemma brace_escape_iff l : forall acc, Forall (fun c => is_hex c = true) acc ->
  brace_escape acc l = true <-> exists ds c r, l = ds ++ 125 :: c :: r /\ Forall (fun c => is_hex c = true) ds /\ acc ++ ds <> [] /\ hex_num (acc ++ ds) <= 1114111.
Proof.
  induction l as [|c l IH]; intros acc Ha.
  - split; [discriminate|]. intros (ds & c & r & E & _). destruct ds; discriminate.
  - cbn [brace_escape]. destruct l as [|d l]; [split; [discriminate|]; intros (ds & x & r & E & _); destruct ds as [|? [|? ds]]; discriminate|].
    destruct (c =? 125) eqn:Ec.
    + apply N.eqb_eq in Ec. subst c. split.
      * intros H. exists [], d, l. rewrite app_nil_r. destruct acc; [discriminate|]. split; [reflexivity|]. split; [constructor|]. split; [discriminate|lia].
      * intros (ds & x & r & E & Hd & Hn & Hb). destruct ds as [|y ds].
        -- rewrite app_nil_r in *. destruct acc; [congruence|lia].
        -- injection E as <- _. inversion Hd as [|? ? Hy _]; subst. discriminate.
    + destruct (is_hex c) eqn:Eh.
      * rewrite (IH (acc ++ [c])) by (apply Forall_app; split; [exact Ha|repeat constructor; exact Eh]). split.
        -- intros (ds & x & r & E & Hd & Hn & Hb). rewrite E. exists (c :: ds), x, r. rewrite <- app_assoc in *. cbn [app] in *. split; [reflexivity|]. split; [constructor; assumption|]. split; assumption.
        -- intros (ds & x & r & E & Hd & Hn & Hb). destruct ds as [|y ds]; [injection E as -> _; discriminate|]. injection E as <- E. exists ds, x, r. rewrite <- app_assoc. cbn [app]. split; [exact E|]. split; [inversion Hd; assumption|]. split; assumption.
      * split; [discriminate|]. intros (ds & x & r & E & Hd & Hn & Hb). destruct ds as [|y ds]; [injection E as -> _; discriminate|]. injection E as <- _. inversion Hd; congruence.
Qed.
Lemma ahead_inv s : escape_ahead s ->
  (exists ds n r, length ds = 4%nat /\ hex_reads ds n /\ s = 117 :: ds ++ r) \/
  (exists ds n c r, ds <> [] /\ (length ds <= 5)%nat /\ hex_reads ds n /\ s = 117 :: 123 :: ds ++ 125 :: c :: r).
Proof. intros H. destruct H as [ds n r Hl Hr|ds n c r Hn Hl Hr]; [left; exists ds, n, r|right; exists ds, n, c, r]; auto. Qed.
Lemma escape_next_iff r : escape_next r = true <-> escape_ahead r.
Proof.
  unfold escape_next. destruct r as [|u r]; [split; [discriminate|intros H; inversion H]|]. destruct r as [|b r].
  { cbn. split; [discriminate|]. intros H. destruct (ahead_inv _ H) as [(ds & n & r' & Hl & _ & E)|(ds & n & x & r' & _ & _ & _ & E)]; [|discriminate]. destruct ds; discriminate. }
  change (firstn 9 (u :: b :: r)) with (u :: b :: firstn 7 r). cbn [is_unicode_escape]. destruct (negb (u =? 117)) eqn:Eu.
  { split; [discriminate|]. intros H. assert (u = 117) by (inversion H; reflexivity). subst u. discriminate. }
  assert (u = 117) by lia. subst u. clear Eu. destruct (b =? 123) eqn:Eb.
  - apply N.eqb_eq in Eb. subst b. rewrite brace_escape_iff by constructor. split.
    + intros (ds & c & r' & E & Hd & Hn & Hb). cbn [app] in *. assert (Hlen : (length ds <= 5)%nat) by (apply (f_equal (@length N)) in E; rewrite firstn_length, app_length in E; cbn [length] in E; lia).
      rewrite <- (firstn_skipn 7 r), E, <- app_assoc. cbn [app]. apply (AheadBrace ds (hex_num ds)); [exact Hn|exact Hlen|apply hex_num_reads; exact Hd].
    + intros H. destruct (ahead_inv _ H) as [(ds & n & r' & Hl & Hr & E)|(ds & n & c & r' & Hn & Hl & Hr & E)].
      * exfalso. destruct ds as [|x ds]; [discriminate|]. injection E as <- _. apply hex_reads_num in Hr. destruct Hr as (Hr & _). inversion Hr; discriminate.
      * injection E as ->. apply hex_reads_num in Hr. destruct Hr as (Hr & En). assert (Hb : (length (ds ++ [125; c]%N) <= 7)%nat) by (rewrite app_length; cbn; lia).
        change (ds ++ 125 :: c :: r') with (ds ++ [125; c] ++ r'). rewrite app_assoc, firstn_app, (firstn_all2 (n := 7)) by exact Hb.
        exists ds, c, (firstn (7 - length (ds ++ [125; c])) r'). rewrite <- app_assoc. cbn [app]. split; [reflexivity|]. split; [exact Hr|]. split; [exact Hn|]. apply hex_num_small; assumption.
  - rewrite andb_true_iff. split.
    + intros (H1 & H2). cbn [length] in H1. rewrite firstn_length in H1.
      assert (E : exists c d e t, r = c :: d :: e :: t) by (destruct r as [|c [|d [|e t]]]; cbn in H1; try discriminate; eauto). destruct E as (c & d & e & t & ->).
      cbn in H2. change (b :: c :: d :: e :: t) with ([b; c; d; e] ++ t). apply (AheadFour [b; c; d; e] (hex_num [b; c; d; e])); [reflexivity|]. apply hex_num_reads.
      apply Forall_forall. rewrite <- forallb_forall. cbn. exact H2.
    + intros H. destruct (ahead_inv _ H) as [(ds & n & r' & Hl & Hr & E)|(ds & n & c & r' & Hn & Hl & Hr & E)]; [|injection E as -> _; discriminate]. apply hex_reads_num in Hr. destruct Hr as (Hr & _).
      destruct ds as [|x [|c [|d [|e [|? ds]]]]]; try discriminate. injection E as -> E. subst r. split; [reflexivity|]. cbn [firstn app]. apply forallb_forall. apply Forall_forall. exact Hr.
Qed.
Lemma escape_next_false r : escape_next r = false <-> ~ escape_ahead r.
Proof. rewrite <- escape_next_iff. destruct (escape_next r); split; congruence. Qed.
Lemma take_hex_app n : forall ds r, Forall (fun c => is_hex c = true) ds -> length ds = n -> take_hex n (ds ++ r) = (ds, r).
Proof.
  induction n as [|n IH]; intros ds r H Hl; destruct ds as [|c ds]; try discriminate; [reflexivity|]. injection Hl as Hl. inversion H as [|? ? Hc Hd]; subst. cbn [app take_hex]. rewrite Hc, (IH ds r Hd eq_refl). reflexivity.
Qed.
Lemma unicode_escape_ok e x r : uesc e x -> unicode_escape (e ++ r) = Ret (x, r).
Proof.
  intros H. destruct H as [ds n Hl Hr|ds n Hn Hl Hr]; apply hex_reads_num in Hr; destruct Hr as (Hr & <-).
  - cbn [app unicode_escape]. change (negb (117 =? 117)) with false. cbv iota. destruct ds as [|b ds]; [discriminate|]. cbn [app]. inversion Hr as [|? ? Hb Hd]; subst. assert (Eb : b =? 123 = false) by (unfold is_hex, Json.is_digit in Hb; lia). rewrite Eb.
    change (b :: ds ++ r) with ((b :: ds) ++ r). rewrite (take_hex_app 4 (b :: ds) r Hr Hl). cbn [length] in Hl. assert (E4 : (length (b :: ds) <? 4)%nat = false) by (cbn [length]; lia). rewrite E4.
    unfold py_chr. pose proof (hex_num_small (b :: ds) Hr ltac:(cbn [length]; lia)). assert (E5 : 1114111 <? hex_num (b :: ds) = false) by lia. rewrite E5. reflexivity.
  - cbn [app unicode_escape]. change (negb (117 =? 117)) with false. change (123 =? 123) with true. cbv iota. rewrite <- app_assoc. cbn [app].
    rewrite (span_app _ ds (125 :: r)); [|apply (Forall_impl _ (P := fun c => is_hex c = true)); [|exact Hr]; intros c Hc; unfold is_hex, Json.is_digit in Hc; lia|reflexivity].
    assert (Ef : forallb is_hex ds = true) by (apply forallb_forall, Forall_forall; exact Hr). rewrite Ef. cbn [negb]. destruct ds as [|d ds]; [congruence|].
    unfold py_chr. pose proof (hex_num_small (d :: ds) Hr Hl). assert (E5 : 1114111 <? hex_num (d :: ds) = false) by lia. rewrite E5. reflexivity.
Qed.
Lemma ahead_uesc s : escape_ahead s -> exists e x r, s = e ++ r /\ uesc e x.
Proof.
  intros H. destruct H as [ds n r Hl Hr|ds n c r Hn Hl Hr].
  - exists (117 :: ds), n, r. split; [reflexivity|constructor; assumption].
  - exists (117 :: 123 :: ds ++ [125]), n, (c :: r). split; [cbn [app]; rewrite <- app_assoc; reflexivity|constructor; assumption].
Qed.
Lemma uesc_length e x : uesc e x -> (0 < length e)%nat.
Proof. intros H. destruct H; cbn; lia. Qed.

(** * Words *)
Definition goes_on (b : bool) (rest : str) : Prop := (if b then begins id_part rest else begins id_start rest) \/ exists r, rest = 92 :: r /\ escape_ahead r.
Definition full (s : str) : bool := match s with [] => false | _ => true end.
Lemma part_not_backslash c : id_part c -> c <> 92.
Proof. intros H ->. apply id_part_iff in H. vm_compute in H. discriminate. Qed.
Lemma start_not_backslash c : id_start c -> c <> 92.
Proof. intros H ->. apply is_id_start_iff in H. vm_compute in H. discriminate. Qed.
Lemma ident_body_stop fuel b rest : ~ goes_on b rest -> (0 < fuel)%nat -> ident_body fuel b rest = Ret ([], rest).
Proof.
  intros H Hf. destruct fuel as [|k]; [lia|]. cbn [ident_body]. destruct rest as [|c r]; [reflexivity|].
  destruct ((c =? 92) && escape_next r) eqn:E; [exfalso; apply andb_prop in E; destruct E as (E1 & E2); apply N.eqb_eq in E1; apply H; right; exists r; split; [congruence|apply escape_next_iff; exact E2]|].
  destruct b; fold (id_part_b c).
  - destruct (id_part_b c) eqn:E2; [|reflexivity]. exfalso. apply H. left. exists c, r. split; [reflexivity|apply id_part_iff; exact E2].
  - destruct (is_id_start c) eqn:E2; [|reflexivity]. exfalso. apply H. left. exists c, r. split; [reflexivity|apply is_id_start_iff; exact E2].
Qed.
Lemma ident_body_complete rest b p v : id_spells rest b p v -> forall fuel, ~ goes_on (b || full p) rest -> (length (p ++ rest) < fuel)%nat -> ident_body fuel b (p ++ rest) = Ret (v, rest).
Proof.
  intros H. induction H as [b|c p v Hc H IH|c p v Hc H IH|b e x p v He Ha H IH]; intros fuel Hg Hf.
  - cbn [app full] in *. rewrite orb_false_r in Hg. apply ident_body_stop; [exact Hg|lia].
  - destruct fuel as [|k]; [lia|]. cbn [app length ident_body] in *. assert (E : (c =? 92) = false) by (pose proof (start_not_backslash c Hc); lia). rewrite E. cbn [andb]. apply is_id_start_iff in Hc. rewrite Hc.
    rewrite IH; [reflexivity| |lia]. cbn [orb full] in *. exact Hg.
  - destruct fuel as [|k]; [lia|]. cbn [app length ident_body] in *. assert (E : (c =? 92) = false) by (pose proof (part_not_backslash c Hc); lia). rewrite E. cbn [andb]. fold (id_part_b c). apply id_part_iff in Hc. rewrite Hc.
    rewrite IH; [reflexivity| |lia]. exact Hg.
  - destruct fuel as [|k]; [lia|]. pose proof (uesc_length e x He). cbn [app length ident_body] in *. rewrite <- app_assoc in *. change (92 =? 92) with true. cbn [andb]. apply escape_next_iff in Ha. rewrite Ha.
    rewrite (unicode_escape_ok e x _ He). rewrite IH; [reflexivity| |rewrite app_length in Hf; lia]. cbn [orb] in *. destruct b; exact Hg.
Qed.
Lemma ident_body_sound fuel : forall b s, (length s < fuel)%nat -> exists p v rest, s = p ++ rest /\ ident_body fuel b s = Ret (v, rest) /\ id_spells rest b p v /\ ~ goes_on (b || full p) rest /\ full v = full p.
Proof.
  induction fuel as [|k IH]; intros b s Hf; [lia|]. cbn [ident_body]. destruct s as [|c r].
  - exists [], [], []. split; [reflexivity|]. split; [reflexivity|]. split; [constructor|]. split; [|reflexivity]. intros [X|(r & X & _)]; [|discriminate]. destruct (b || full []); destruct X as (? & ? & X & _); discriminate.
  - cbn [length] in Hf. destruct ((c =? 92) && escape_next r) eqn:E.
    + apply andb_prop in E. destruct E as (E1 & E2). apply N.eqb_eq in E1. subst c. apply escape_next_iff in E2. destruct (ahead_uesc r E2) as (e & x & r2 & -> & He). rewrite (unicode_escape_ok e x r2 He). pose proof (uesc_length e x He). rewrite app_length in Hf.
      destruct (IH true r2 ltac:(lia)) as (p & v & rest & -> & Er & Hs & Hg & _). rewrite Er. exists (92 :: e ++ p), (x :: v), rest. split; [cbn; rewrite <- app_assoc; reflexivity|]. split; [reflexivity|].
      split; [constructor; assumption|]. split; [|reflexivity]. cbn [full]. rewrite orb_true_r. exact Hg.
    + destruct (if b then _ else _) eqn:E2.
      * destruct (IH true r ltac:(lia)) as (p & v & rest & -> & Er & Hs & Hg & _). rewrite Er. exists (c :: p), (c :: v), rest. split; [reflexivity|]. split; [reflexivity|].
        split; [destruct b; constructor; try assumption; [apply id_part_iff|apply is_id_start_iff]; exact E2|]. split; [|reflexivity]. cbn [full]. rewrite orb_true_r. exact Hg.
      * exists [], [], (c :: r). split; [reflexivity|]. split; [reflexivity|]. split; [constructor|]. split; [|reflexivity]. cbn [full]. rewrite orb_false_r. intros [X|(t & X & Ha)].
        -- destruct b; destruct X as (d & t & X & Hd); injection X as <- <-; [apply id_part_iff in Hd; unfold id_part_b in Hd|apply is_id_start_iff in Hd]; congruence.
        -- injection X as -> <-. apply escape_next_iff in Ha. rewrite Ha in E. discriminate.
Qed.
Lemma word_iff v t : word_token v t <-> t = word v.
Proof.
  unfold word. split.
  - intros H. destruct H as [| | |v H1 H2 H3]; try reflexivity. apply str_eqb_neq in H1. apply str_eqb_neq in H2. apply str_eqb_neq in H3. rewrite H1, H2, H3. reflexivity.
  - intros ->. destruct (str_eqb v (lit "as")) eqn:E1; [apply str_eqb_eq in E1; subst; constructor|]. destruct (str_eqb v (lit "from")) eqn:E2; [apply str_eqb_eq in E2; subst; constructor|].
    destruct (str_eqb v (lit "import")) eqn:E3; [apply str_eqb_eq in E3; subst; constructor|]. constructor; apply str_eqb_neq; assumption.
Qed.

(** * Strings *)
Lemma simple_escape_iff c x : simple_escape c x <-> x = escaped_char c.
Proof.
  unfold escaped_char. split.
  - intros H. destruct H as [| | | | | | |c H]; try reflexivity. cbn [In] in H. repeat match goal with |- context [if ?b then _ else _] => destruct b eqn:?E end; lia.
  - intros ->. destruct (c =? 110) eqn:E1; [apply N.eqb_eq in E1; subst; constructor|]. destruct (c =? 114) eqn:E2; [apply N.eqb_eq in E2; subst; constructor|]. destruct (c =? 116) eqn:E3; [apply N.eqb_eq in E3; subst; constructor|].
    destruct (c =? 98) eqn:E4; [apply N.eqb_eq in E4; subst; constructor|]. destruct (c =? 102) eqn:E5; [apply N.eqb_eq in E5; subst; constructor|]. destruct (c =? 118) eqn:E6; [apply N.eqb_eq in E6; subst; constructor|].
    destruct (c =? 48) eqn:E7; [apply N.eqb_eq in E7; subst; constructor|]. constructor. cbn [In]. lia.
Qed.
Definition prepend (v : str) (r : res (option str * str * str)) : res (option str * str * str) :=
  match r with Ret (o, w, rest) => Ret (o, v ++ w, rest) | Raise e => Raise e end.
Lemma string_body_app q rest p v : q = 34 \/ q = 39 -> js_spells q rest p v -> forall fuel, (length (p ++ rest) < fuel)%nat -> exists k, (length rest < k)%nat /\ js_string_body fuel q (p ++ rest) = prepend v (js_string_body k q rest).
Proof.
  intros Hq H. induction H as [|c p v H1 H2 H3 H IH|e x p v He Ha H IH|c x p v He Ha H IH]; intros fuel Hf.
  - exists fuel. split; [exact Hf|]. cbn [app]. destruct (js_string_body fuel q rest) as [[[o w] r]|]; reflexivity.
  - destruct fuel as [|k]; [lia|]. cbn [app length] in Hf. destruct (IH k ltac:(lia)) as (j & Hj & E). exists j. split; [exact Hj|]. cbn [app js_string_body]. apply is_newline_false in H2. rewrite H2.
    assert (E1 : (c =? q) = false) by lia. assert (E2 : (c =? 92) = false) by lia. rewrite E1, E2, E. destruct (js_string_body j q rest) as [[[o w] r]|]; reflexivity.
  - destruct fuel as [|k]; [lia|]. pose proof (uesc_length e x He). cbn [app length] in Hf. rewrite <- app_assoc, app_length in Hf. destruct (IH k ltac:(lia)) as (j & Hj & E). exists j. split; [exact Hj|]. cbn [app js_string_body]. change (is_newline 92) with false. cbv iota.
    assert (E1 : (92 =? q) = false) by lia. rewrite E1. change (92 =? 92) with true. cbv iota. rewrite <- app_assoc. apply escape_next_iff in Ha. rewrite Ha, (unicode_escape_ok e x _ He), E. destruct (js_string_body j q rest) as [[[o w] r]|]; reflexivity.
  - destruct fuel as [|k]; [lia|]. cbn [app length] in Hf. destruct (IH k ltac:(lia)) as (j & Hj & E). exists j. split; [exact Hj|]. cbn [app js_string_body]. change (is_newline 92) with false. cbv iota.
    assert (E1 : (92 =? q) = false) by lia. rewrite E1. change (92 =? 92) with true. cbv iota. apply escape_next_false in Ha. rewrite Ha, E. apply simple_escape_iff in He. subst x. destruct (js_string_body j q rest) as [[[o w] r]|]; reflexivity.
Qed.
Lemma string_body_sound q fuel : q = 34 \/ q = 39 -> forall s, (length s < fuel)%nat -> exists o v rest,
  js_string_body fuel q s = Ret (o, v, rest) /\
  match o with
  | None => exists p, s = p ++ q :: rest /\ js_spells q (q :: rest) p v
  | Some x => (x = [] /\ exists p, s = p ++ rest /\ js_spells q rest p v /\ ends_line rest) \/ (x = [92] /\ rest = [] /\ exists p, s = p ++ [92] /\ js_spells q [92] p v)
  end.
Proof.
  intros Hq. induction fuel as [|k IH]; intros s Hf; [lia|]. cbn [js_string_body]. destruct s as [|c r].
  { exists (Some []), [], []. split; [reflexivity|]. left. split; [reflexivity|]. exists []. split; [reflexivity|]. split; [constructor|left; reflexivity]. }
  cbn [length] in Hf. destruct (is_newline c) eqn:En.
  { exists (Some []), [], (c :: r). split; [reflexivity|]. left. split; [reflexivity|]. exists []. split; [reflexivity|]. split; [constructor|right; exists c, r; split; [reflexivity|apply is_newline_iff; exact En]]. }
  destruct (c =? q) eqn:Eq.
  { apply N.eqb_eq in Eq. subst c. exists None, [], r. split; [reflexivity|]. exists []. split; [reflexivity|constructor]. }
  destruct (c =? 92) eqn:Eb.
  - apply N.eqb_eq in Eb. subst c. destruct (escape_next r) eqn:Ee.
    + apply escape_next_iff in Ee. destruct (ahead_uesc r Ee) as (e & x & r2 & -> & He). pose proof (uesc_length e x He). rewrite app_length in Hf. rewrite (unicode_escape_ok e x r2 He). destruct (IH r2 ltac:(lia)) as (o & v & rest & E & Hm). rewrite E. exists o, (x :: v), rest. split; [reflexivity|].
      destruct o as [y|]; [destruct Hm as [(-> & p & -> & Hp & Hl)|(-> & -> & p & -> & Hp)]; [left|right]|].
      * split; [reflexivity|]. exists (92 :: e ++ p). split; [cbn; rewrite <- app_assoc; reflexivity|]. split; [constructor; assumption|exact Hl].
      * split; [reflexivity|]. split; [reflexivity|]. exists (92 :: e ++ p). split; [cbn; rewrite <- app_assoc; reflexivity|constructor; assumption].
      * destruct Hm as (p & -> & Hp). exists (92 :: e ++ p). split; [cbn; rewrite <- app_assoc; reflexivity|constructor; assumption].
    + apply escape_next_false in Ee. destruct r as [|d r].
      * exists (Some [92]), [], []. split; [reflexivity|]. right. split; [reflexivity|]. split; [reflexivity|]. exists []. split; [reflexivity|constructor].
      * cbn [length] in Hf. destruct (IH r ltac:(lia)) as (o & v & rest & E & Hm). rewrite E. exists o, (escaped_char d :: v), rest. split; [reflexivity|]. assert (Hd : simple_escape d (escaped_char d)) by (apply simple_escape_iff; reflexivity).
        destruct o as [y|]; [destruct Hm as [(-> & p & -> & Hp & Hl)|(-> & -> & p & -> & Hp)]; [left|right]|].
        -- split; [reflexivity|]. exists (92 :: d :: p). split; [reflexivity|]. split; [constructor; assumption|exact Hl].
        -- split; [reflexivity|]. split; [reflexivity|]. exists (92 :: d :: p). split; [reflexivity|constructor; assumption].
        -- destruct Hm as (p & -> & Hp). exists (92 :: d :: p). split; [reflexivity|constructor; assumption].
  - destruct (IH r ltac:(lia)) as (o & v & rest & E & Hm). rewrite E. exists o, (c :: v), rest. split; [reflexivity|]. apply is_newline_false in En. apply N.eqb_neq in Eq, Eb.
    destruct o as [y|]; [destruct Hm as [(-> & p & -> & Hp & Hl)|(-> & -> & p & -> & Hp)]; [left|right]|].
    + split; [reflexivity|]. exists (c :: p). split; [reflexivity|]. split; [constructor; assumption|exact Hl].
    + split; [reflexivity|]. split; [reflexivity|]. exists (c :: p). split; [reflexivity|constructor; assumption].
    + destruct Hm as (p & -> & Hp). exists (c :: p). split; [reflexivity|constructor; assumption].
Qed.
Lemma ends_line_stop q rest k : ends_line rest -> (length rest < k)%nat -> js_string_body k q rest = Ret (Some [], [], rest).
Proof. intros H Hk. destruct k as [|k]; [lia|]. destruct H as [->|(c & r & -> & H)]; [reflexivity|]. cbn [js_string_body]. apply is_newline_iff in H. rewrite H. reflexivity. Qed.

(** * Regular expressions *)
Definition prepend3 (v : str) (r : bool * str * str) : bool * str * str := let '(b, w, rest) := r in (b, v ++ w, rest).
Lemma regex_body_app rest l b l2 : rx rest l b l2 -> regex_body l (b ++ rest) = prepend3 b (regex_body l2 rest).
Proof.
  intros H. induction H as [l|l b l2 H IH|l b l2 H IH|l b l2 H IH|l c b l2 H1 H2 H3 H4 H5 H IH].
  - cbn. destruct (regex_body l rest) as [[? ?] ?]. reflexivity.
  - cbn [app regex_body]. change (is_newline 92) with false. change (92 =? 47) with false. rewrite andb_false_r. change ((92 =? 92) && (47 =? 47)) with true. cbv iota. rewrite IH. destruct (regex_body l2 rest) as [[? ?] ?]. reflexivity.
  - cbn [app regex_body]. change (is_newline 91) with false. change (91 =? 47) with false. change (91 =? 93) with false. change (91 =? 91) with true. rewrite !andb_false_r. cbv iota. change (91 =? 92) with false. cbn [andb].
    destruct (b ++ rest) as [|d t]; rewrite IH; destruct (regex_body l2 rest) as [[? ?] ?]; reflexivity.
  - cbn [app regex_body]. change (is_newline 93) with false. change (93 =? 47) with false. change (93 =? 93) with true. change (93 =? 91) with false. rewrite !andb_false_r, andb_true_r. cbv iota. change (93 =? 92) with false. cbn [andb].
    assert (Ep : (if (0 <? l)%nat then pred l else l) = pred l) by (destruct l; reflexivity). rewrite Ep.
    destruct (b ++ rest) as [|d t]; rewrite IH; destruct (regex_body l2 rest) as [[? ?] ?]; reflexivity.
  - cbn [app regex_body]. apply is_newline_false in H1. rewrite H1. assert (E1 : Nat.eqb l 0 && (c =? 47) = false) by (destruct (c =? 47) eqn:Ec; [apply N.eqb_eq in Ec; specialize (H4 Ec); lia|apply andb_false_r]). rewrite E1.
    assert (E2 : (c =? 93) = false) by lia. assert (E3 : (c =? 91) = false) by lia. rewrite E2, E3, andb_false_r.
    destruct (b ++ rest) as [|d t] eqn:Eb; [rewrite IH; destruct (regex_body l2 rest) as [[? ?] ?]; reflexivity|].
    assert (E4 : (c =? 92) && (d =? 47) = false) by (destruct ((c =? 92) && (d =? 47)) eqn:E4; [|reflexivity]; apply andb_prop in E4; destruct E4 as (E4 & E5); apply N.eqb_eq in E4; apply N.eqb_eq in E5; exfalso; apply (H5 E4); exists d, t; auto).
    rewrite E4, IH. destruct (regex_body l2 rest) as [[? ?] ?]. reflexivity.
Qed.
Lemma regex_body_sound n : forall l s, (length s < n)%nat -> exists ok v rest, regex_body l s = (ok, v, rest) /\
  if (ok : bool) then s = v ++ 47 :: rest /\ rx (47 :: rest) l v 0 else s = v ++ rest /\ (exists l2, rx rest l v l2) /\ ends_line rest.
Proof.
  induction n as [|n IH]; intros l s Hf; [lia|]. destruct s as [|c r].
  { exists false, [], []. split; [reflexivity|]. split; [reflexivity|]. split; [exists l; constructor|left; reflexivity]. }
  cbn [regex_body]. cbn [length] in Hf. destruct (is_newline c) eqn:En.
  { exists false, [], (c :: r). split; [reflexivity|]. split; [reflexivity|]. split; [exists l; constructor|right; exists c, r; split; [reflexivity|apply is_newline_iff; exact En]]. }
  destruct (Nat.eqb l 0 && (c =? 47)) eqn:Ec.
  { apply andb_prop in Ec. destruct Ec as (E1 & E2). apply Nat.eqb_eq in E1. apply N.eqb_eq in E2. subst. exists true, [], r. split; [reflexivity|]. split; [reflexivity|constructor]. }
  set (l2 := if c =? 91 then S (if (0 <? l)%nat && (c =? 93) then pred l else l) else if (0 <? l)%nat && (c =? 93) then pred l else l).
  apply is_newline_false in En.
  assert (Step : forall v rest l3, r = v ++ rest -> (c = 92 -> ~ begins (fun d => d = 47) (v ++ rest)) -> rx rest l2 v l3 -> rx rest l (c :: v) l3).
  { intros v rest l3 Er Hb Hr. unfold l2 in Hr. destruct (c =? 91) eqn:E91.
    - apply N.eqb_eq in E91. subst c. change (91 =? 93) with false in Hr. rewrite andb_false_r in Hr. constructor. exact Hr.
    - destruct (c =? 93) eqn:E93.
      + apply N.eqb_eq in E93. subst c. constructor. rewrite andb_true_r in Hr. destruct l; exact Hr.
      + rewrite andb_false_r in Hr. apply RxChar; try assumption; lia. }
  assert (Go : (c = 92 -> ~ begins (fun d => d = 47) r) -> exists ok v rest, (let '(b, v, rest) := regex_body l2 r in (b, c :: v, rest)) = (ok, v, rest) /\
    if (ok : bool) then c :: r = v ++ 47 :: rest /\ rx (47 :: rest) l v 0 else c :: r = v ++ rest /\ (exists l2, rx rest l v l2) /\ ends_line rest).
  { intros Hb. destruct (IH l2 r ltac:(lia)) as (ok & v & rest & E & Hm). rewrite E. exists ok, (c :: v), rest. split; [reflexivity|]. destruct ok.
    - destruct Hm as (-> & Hr). split; [reflexivity|]. apply Step; [reflexivity|exact Hb|exact Hr].
    - destruct Hm as (-> & (l3 & Hr) & He). split; [reflexivity|]. split; [|exact He]. exists l3. apply Step; [reflexivity|exact Hb|exact Hr]. }
  destruct r as [|d r2]; [apply Go; intros _ (? & ? & X & _); discriminate|].
  destruct ((c =? 92) && (d =? 47)) eqn:E4; [|apply Go; intros -> (? & ? & X & ->); injection X as -> <-; discriminate].
  apply andb_prop in E4. destruct E4 as (E4 & E5). apply N.eqb_eq in E4. apply N.eqb_eq in E5. subst c d. cbn [length] in Hf.
  destruct (IH l r2 ltac:(lia)) as (ok & v & rest & E & Hm). rewrite E. exists ok, (92 :: 47 :: v), rest. split; [reflexivity|]. destruct ok.
  - destruct Hm as (-> & Hr). split; [reflexivity|]. constructor. exact Hr.
  - destruct Hm as (-> & (l3 & Hr) & He). split; [reflexivity|]. split; [|exact He]. exists l3. constructor. exact Hr.
Qed.

(** * Comments *)
Lemma no_end_cons c v : no_end v -> ~ (c = 42 /\ begins (fun d => d = 47) v) -> no_end (c :: v).
Proof. intros H Hn a b E. destruct a as [|x a]; [injection E as -> E; apply Hn; split; [reflexivity|exists 47, b; auto]|injection E as -> E; exact (H a b E)]. Qed.
Lemma no_end_tail c v : no_end (c :: v) -> no_end v.
Proof. intros H a b E. apply (H (c :: a) b). rewrite E. reflexivity. Qed.
Lemma block_body_sound s : exists v rest, block_body s = (v, rest) /\ no_end v /\ (s = v ++ 42 :: 47 :: rest \/ s = v /\ rest = []).
Proof.
  induction s as [|c s IH]; [exists [], []; split; [reflexivity|]; split; [intros [|? ?] b; discriminate|right; auto]|]. cbn [block_body]. destruct (_ && _) eqn:E.
  - apply andb_prop in E. destruct E as (E1 & E2). apply N.eqb_eq in E1. destruct s as [|d s]; [discriminate|]. apply N.eqb_eq in E2. subst. exists [], s. split; [reflexivity|]. split; [intros [|? ?] b; discriminate|left; reflexivity].
  - destruct IH as (v & rest & Eb & Hn & Hs). rewrite Eb. exists (c :: v), rest. split; [reflexivity|]. split.
    + apply no_end_cons; [exact Hn|]. intros (-> & d & t & Ev & ->). destruct Hs as [->|(-> & _)]; rewrite Ev in E; discriminate.
    + destruct Hs as [->|(-> & ->)]; [left|right]; auto.
Qed.
Lemma block_body_app v rest : no_end v -> block_body (v ++ 42 :: 47 :: rest) = (v, rest).
Proof.
  induction v as [|c v IH]; intros H; [reflexivity|]. cbn [app block_body]. destruct (_ && _) eqn:E.
  - exfalso. apply andb_prop in E. destruct E as (E1 & E2). apply N.eqb_eq in E1. destruct v as [|d v]; [discriminate|]. apply N.eqb_eq in E2. subst. apply (H [] v). reflexivity.
  - rewrite IH; [reflexivity|]. eapply no_end_tail. exact H.
Qed.
Lemma block_body_end v : no_end v -> block_body v = (v, []).
Proof.
  induction v as [|c v IH]; intros H; [reflexivity|]. cbn [block_body]. destruct (_ && _) eqn:E.
  - exfalso. apply andb_prop in E. destruct E as (E1 & E2). apply N.eqb_eq in E1. destruct v as [|d v]; [discriminate|]. apply N.eqb_eq in E2. subst. apply (H [] v). reflexivity.
  - rewrite IH; [reflexivity|]. eapply no_end_tail. exact H.
Qed.

(** * One token *)
Lemma span_false p c r : p c = false -> span p (c :: r) = ([], c :: r).
Proof. intros H. cbn [span]. rewrite H. reflexivity. Qed.
Lemma space_false c : ~ js_space c -> is_whitespace c = false.
Proof. rewrite <- is_whitespace_iff. destruct (is_whitespace c); congruence. Qed.
Lemma start_false c : ~ id_start c -> is_id_start c = false.
Proof. rewrite <- is_id_start_iff. destruct (is_id_start c); congruence. Qed.
Lemma span_stop {P : N -> Prop} (p : N -> bool) rest : (forall c, p c = true <-> P c) -> ~ begins P rest <-> match rest with c :: _ => p c = false | [] => True end.
Proof.
  intros H. destruct rest as [|c r]; [split; [trivial|intros _ (? & ? & X & _); discriminate]|]. split.
  - intros Hn. destruct (p c) eqn:E; [|reflexivity]. exfalso. apply Hn. exists c, r. split; [reflexivity|apply H; exact E].
  - intros E (d & t & X & Hd). injection X as <- <-. apply H in Hd. congruence.
Qed.
Lemma ends_line_span rest : ends_line rest <-> match rest with c :: _ => negb (is_newline c) = false | [] => True end.
Proof.
  destruct rest as [|c r]; [split; [trivial|left; reflexivity]|]. rewrite negb_false_iff, is_newline_iff. split.
  - intros [X|(d & t & X & H)]; [discriminate|]. injection X as <- <-. exact H.
  - intros H. right. exists c, r. auto.
Qed.
Lemma not_comment c r : ~ (c = 47 /\ comment_next r) -> comment (c :: r) = None.
Proof.
  intros H. unfold comment. destruct r as [|d r]; [reflexivity|]. destruct ((c =? 47) && (d =? 47)) eqn:E1; [exfalso; apply H; split; [lia|exists d, r; split; [reflexivity|lia]]|].
  destruct ((c =? 47) && (d =? 42)) eqn:E2; [exfalso; apply H; split; [lia|exists d, r; split; [reflexivity|lia]]|]. reflexivity.
Qed.
Lemma next_plain fuel c r : ~ js_space c -> ~ (c = 47 /\ comment_next r) -> ~ id_start c -> (c = 92 -> ~ escape_ahead r) -> (0 < fuel)%nat ->
  js_next fuel c r = if is_newline c then Ret (JNewline, r)
              else if c =? 123 then Ret (JOpen, r)
              else if c =? 125 then Ret (JClose, r)
              else if c =? 42 then Ret (JStar, r)
              else if c =? 44 then Ret (JComma, r)
              else if c =? 59 then Ret (JSemi, r)
              else if c =? 34 then string_literal fuel 34 r
              else if c =? 39 then string_literal fuel 39 r
              else if c =? 47 then Ret (regex r)
              else Ret (JInvalid [c], r).
Proof.
  intros H1 H2 H3 H4 Hf. unfold js_next. rewrite (span_false _ c r) by (apply space_false; exact H1). rewrite (not_comment c r H2).
  rewrite (ident_body_stop fuel false (c :: r)); [reflexivity| |exact Hf]. intros [(d & t & X & Hd)|(t & X & Ha)]; [injection X as <- <-; auto|]. injection X as Ec <-. exact (H4 Ec Ha).
Qed.
Lemma punct_facts c : In c [10; 8232; 8233; 123; 125; 42; 44; 59; 34; 39; 47] -> ~ js_space c /\ ~ id_start c /\ c <> 92.
Proof.
  intros H. split; [|split].
  - rewrite <- is_whitespace_iff. repeat (destruct H as [<-|H]; [discriminate|]). destruct H.
  - rewrite <- is_id_start_iff. rewrite not_start; [discriminate|]. repeat (destruct H as [<-|H]; [cbn [In]; tauto|]). destruct H.
  - repeat (destruct H as [<-|H]; [discriminate|]). destruct H.
Qed.
Lemma next_punct fuel c r : In c [10; 8232; 8233; 123; 125; 42; 44; 59; 34; 39; 47] -> ~ (c = 47 /\ comment_next r) -> (0 < fuel)%nat -> 
  js_next fuel c r = if is_newline c then Ret (JNewline, r)
              else if c =? 123 then Ret (JOpen, r)
              else if c =? 125 then Ret (JClose, r)
              else if c =? 42 then Ret (JStar, r)
              else if c =? 44 then Ret (JComma, r)
              else if c =? 59 then Ret (JSemi, r)
              else if c =? 34 then string_literal fuel 34 r
              else if c =? 39 then string_literal fuel 39 r
              else if c =? 47 then Ret (regex r)
              else Ret (JInvalid [c], r).
Proof. intros H Hc Hf. destruct (punct_facts c H) as (H1 & H2 & H3). apply next_plain; try assumption. intros ->. congruence. Qed.
Lemma word_first rest p v : p <> [] -> id_spells rest false p v -> exists c r, p ++ rest = c :: r /\ ~ js_space c /\ c <> 47.
Proof.
  intros Hp H. inversion H as [b E1 E2|c p' v' Hc Hs E1 E2|c p' v' Hc Hs E1 E2|b e x p' v' He Ha Hs E1 E2]; subst; [congruence| |].
  - exists c, (p' ++ rest). split; [reflexivity|]. split; [apply start_not_space; exact Hc|]. intros ->. apply is_id_start_iff in Hc. vm_compute in Hc. discriminate.
  - eexists; eexists. split; [reflexivity|]. split; [rewrite <- is_whitespace_iff; discriminate|discriminate].
Qed.
Lemma js_next_complete t p rest : js_denotes t p rest -> forall fuel c r, p ++ rest = c :: r -> (length (c :: r) < fuel)%nat -> js_next fuel c r = Ret (t, rest).
Proof.
  intros H fuel c r E Hf. assert (F0 : (0 < fuel)%nat) by lia. rewrite <- E in Hf.
  destruct H as [v rest Hv Hs Hr|x rest Hx|v rest Hv Hr|v rest Hv|v Hv|p v t rest Hp Hs Hg Hw|rest|rest|rest|rest|rest|q p v rest Hq Hs|q p v rest Hq Hs He|q p v Hq Hs|b f rest Hb Hc Hr Hfl He|b l rest Hc Hr He|x rest H1 H2 H3 H4 H5].
  - unfold js_next. rewrite <- E. apply (proj1 (span_stop is_whitespace rest is_whitespace_iff)) in Hr. rewrite (span_app _ v rest).
    + destruct v; [congruence|reflexivity].
    + apply (Forall_impl _ (P := js_space)); [|exact Hs]. intros y Hy. apply is_whitespace_iff. exact Hy.
    + exact Hr.
  - cbn [app] in E. injection E as <- <-. rewrite next_punct; [|unfold js_newline in Hx; cbn [In]; intuition|intros (-> & _); unfold js_newline in Hx; lia|exact F0]. apply is_newline_iff in Hx. rewrite Hx. reflexivity.
  - cbn [app] in E. injection E as <- <-. unfold js_next. rewrite span_false by reflexivity. cbn [comment]. change ((47 =? 47) && (47 =? 47)) with true. cbv iota.
    rewrite (span_app _ v rest); [reflexivity| |apply ends_line_span; exact Hr]. apply (Forall_impl _ (P := fun c => ~ js_newline c)); [|exact Hv]. intros y Hy. apply negb_true_iff. apply is_newline_false. exact Hy.
  - cbn [app] in E. injection E as <- <-. unfold js_next. rewrite span_false by reflexivity. cbn [comment]. change ((47 =? 47) && (42 =? 47)) with false. change ((47 =? 47) && (42 =? 42)) with true. cbv iota.
    rewrite <- app_assoc. cbn [app]. rewrite block_body_app by exact Hv. reflexivity.
  - cbn [app] in E. injection E as <- <-. unfold js_next. rewrite span_false by reflexivity. cbn [comment]. change ((47 =? 47) && (42 =? 47)) with false. change ((47 =? 47) && (42 =? 42)) with true. cbv iota.
    rewrite app_nil_r, block_body_end by exact Hv. reflexivity.
  - destruct (word_first rest p v Hp Hs) as (c' & r' & E' & Hn & Hc). rewrite E in E'. injection E' as <- <-. unfold js_next. rewrite span_false by (apply space_false; exact Hn). rewrite not_comment by (intros (X & _); congruence).
    rewrite <- E. rewrite (ident_body_complete rest false p v Hs); [| |exact Hf].
    + apply word_iff in Hw. subst t. inversion Hs; subst; [congruence|reflexivity|reflexivity].
    + destruct p; [congruence|]. exact Hg.
  - cbn [app] in E. injection E as <- <-. rewrite next_punct; [reflexivity|cbn [In]; tauto|intros (X & _); discriminate|exact F0].
  - cbn [app] in E. injection E as <- <-. rewrite next_punct; [reflexivity|cbn [In]; tauto|intros (X & _); discriminate|exact F0].
  - cbn [app] in E. injection E as <- <-. rewrite next_punct; [reflexivity|cbn [In]; tauto|intros (X & _); discriminate|exact F0].
  - cbn [app] in E. injection E as <- <-. rewrite next_punct; [reflexivity|cbn [In]; tauto|intros (X & _); discriminate|exact F0].
  - cbn [app] in E. injection E as <- <-. rewrite next_punct; [reflexivity|cbn [In]; tauto|intros (X & _); discriminate|exact F0].
  - cbn [app] in E. rewrite <- app_assoc in E. injection E as <- <-. cbn [app length] in Hf. rewrite <- app_assoc in Hf. cbn [app] in Hf.
    rewrite next_punct; [|destruct Hq as [->| ->]; cbn [In]; tauto|intros (X & _); destruct Hq; congruence|exact F0].
    assert (Es : string_literal fuel q (p ++ q :: rest) = Ret (JString v, rest)).
    { unfold string_literal. destruct (string_body_app q (q :: rest) p v Hq Hs fuel ltac:(lia)) as (k & Hk & ->). destruct k as [|k]; [lia|]. cbn [js_string_body]. assert (En : is_newline q = false) by (destruct Hq as [->| ->]; reflexivity). rewrite En, N.eqb_refl. cbn [prepend]. rewrite app_nil_r. reflexivity. }
    cbn [app]. destruct Hq as [->| ->]; exact Es.
  - cbn [app] in E. injection E as <- <-. cbn [app length] in Hf.
    rewrite next_punct; [|destruct Hq as [->| ->]; cbn [In]; tauto|intros (X & _); destruct Hq; congruence|exact F0].
    assert (Es : string_literal fuel q (p ++ rest) = Ret (JInvalid (q :: v), rest)).
    { unfold string_literal. destruct (string_body_app q rest p v Hq Hs fuel ltac:(lia)) as (k & Hk & ->). rewrite (ends_line_stop q rest k He Hk). cbn [prepend]. rewrite !app_nil_r. reflexivity. }
    destruct Hq as [->| ->]; exact Es.
  - cbn [app] in E. rewrite app_nil_r in *. injection E as <- <-. cbn [app length] in Hf.
    rewrite next_punct; [|destruct Hq as [->| ->]; cbn [In]; tauto|intros (X & _); destruct Hq; congruence|exact F0].
    assert (Es : string_literal fuel q (p ++ [92]) = Ret (JInvalid (q :: v ++ [92]), [])).
    { unfold string_literal. destruct (string_body_app q [92] p v Hq Hs fuel ltac:(lia)) as (k & Hk & ->). destruct k as [|k]; [cbn [length] in Hk; lia|]. cbn [js_string_body]. change (is_newline 92) with false. change (92 =? 92) with true. assert (Eq : (92 =? q) = false) by lia. rewrite Eq. cbn. rewrite app_nil_r. reflexivity. }
    destruct Hq as [->| ->]; exact Es.
  - cbn [app] in E. rewrite <- app_assoc in E. injection E as <- <-. rewrite next_punct; [|cbn [In]; tauto| |exact F0].
    + cbn. unfold regex. change (b ++ 47 :: f ++ rest) with (b ++ (47 :: f ++ rest)). rewrite (regex_body_app (47 :: f ++ rest) 0 b 0 Hr). cbn [regex_body]. change (is_newline 47) with false. cbn. rewrite app_nil_r.
      rewrite (span_app _ f rest); [reflexivity| |apply (proj1 (span_stop is_flag rest is_flag_iff)); exact He]. apply (Forall_impl _ (P := js_flag)); [|exact Hfl]. intros y Hy. apply is_flag_iff. exact Hy.
    + intros (_ & X). apply Hc. destruct b as [|y b]; [congruence|]. destruct X as (d & t & X & Hd). injection X as <- _. exists y, b. auto.
  - cbn [app] in E. injection E as <- <-. rewrite next_punct; [|cbn [In]; tauto| |exact F0].
    + cbn. unfold regex. rewrite (regex_body_app rest 0 b l Hr). assert (Es : regex_body l rest = (false, [], rest)) by (destruct He as [->|(y & t & -> & Hy)]; [reflexivity|cbn [regex_body]; apply is_newline_iff in Hy; rewrite Hy; reflexivity]). rewrite Es. cbn. rewrite app_nil_r. reflexivity.
    + intros (_ & X). apply Hc. destruct b as [|y b]; [|destruct X as (d & t & X & Hd); injection X as <- _; exists y, b; auto]. cbn [app] in X. destruct X as (d & t & -> & Hd). destruct He as [He|(y & t' & He & Hy)]; [discriminate|]. injection He as <- <-. unfold js_newline in Hy. lia.
  - cbn [app] in E. injection E as <- <-. cbn [In] in H4. rewrite next_plain; try assumption; [|intros (-> & _); tauto].
    apply is_newline_false in H2. rewrite H2. repeat match goal with |- context [x =? ?n] => replace (x =? n) with false by lia end. reflexivity.
Qed.
Lemma js_next_sound fuel c r : (length (c :: r) < fuel)%nat -> exists t p rest, js_next fuel c r = Ret (t, rest) /\ c :: r = p ++ rest /\ p <> [] /\ js_denotes t p rest.
Proof.
  intros Hf. unfold js_next. destruct (span is_whitespace (c :: r)) as [w rest] eqn:Es. destruct (span_spec _ _ _ _ Es) as (E1 & E2 & E3). destruct w as [|x w].
  2:{ exists (JSpace (x :: w)), (x :: w), rest. split; [reflexivity|]. split; [exact E1|]. split; [discriminate|]. constructor; [discriminate| |apply (span_stop is_whitespace rest is_whitespace_iff); exact E3].
      apply (Forall_impl _ (P := fun c => is_whitespace c = true)); [|exact E2]. intros y Hy. apply is_whitespace_iff. exact Hy. }
  cbn [app] in E1. subst rest. assert (Hn : ~ js_space c) by (rewrite <- is_whitespace_iff; congruence). clear Es E2 E3.
  destruct (comment (c :: r)) as [[t rest]|] eqn:Ec.
  { unfold comment in Ec. destruct r as [|d r]; [discriminate|]. destruct ((c =? 47) && (d =? 47)) eqn:E1.
    - assert (c = 47) by lia. assert (d = 47) by lia. subst. destruct (span _ r) as [v rest'] eqn:Es. injection Ec as <- <-. destruct (span_spec _ _ _ _ Es) as (-> & E2 & E3). exists (JComment v), ([47; 47] ++ v), rest'.
      split; [reflexivity|]. split; [reflexivity|]. split; [discriminate|]. constructor; [|apply ends_line_span; exact E3]. apply (Forall_impl _ (P := fun c => negb (is_newline c) = true)); [|exact E2]. intros y Hy. apply is_newline_false, negb_true_iff. exact Hy.
    - destruct ((c =? 47) && (d =? 42)) eqn:E2; [|discriminate]. assert (c = 47) by lia. assert (d = 42) by lia. subst. destruct (block_body_sound r) as (v & rest' & Eb & Hv & Hr). rewrite Eb in Ec. injection Ec as <- <-. destruct Hr as [->|(-> & ->)].
      + exists (JComment v), ([47; 42] ++ v ++ [42; 47]), rest'. split; [reflexivity|]. split; [cbn; rewrite <- app_assoc; reflexivity|]. split; [discriminate|]. constructor. exact Hv.
      + exists (JComment v), ([47; 42] ++ v), []. split; [reflexivity|]. split; [cbn; rewrite app_nil_r; reflexivity|]. split; [discriminate|]. constructor. exact Hv. }
  assert (Hc : ~ (c = 47 /\ comment_next r)).
  { intros (-> & d & t & -> & Hd). unfold comment in Ec. destruct Hd as [->| ->]; cbn in Ec; [destruct (span _ t); discriminate|destruct (block_body t); discriminate]. }
  destruct (ident_body_sound fuel false (c :: r) Hf) as (p & v & rest & E & Er & Hs & Hg & Hv). rewrite Er. destruct v as [|x v].
  2:{ destruct p as [|y p]; [discriminate|]. exists (word (x :: v)), (y :: p), rest. split; [reflexivity|]. split; [exact E|]. split; [discriminate|]. apply (JdWord (y :: p) (x :: v)); [discriminate|exact Hs|exact Hg|apply word_iff; reflexivity]. }
  destruct p as [|y p]; [|discriminate]. cbn [app] in E. subst rest. cbn [full orb] in Hg. clear Er Hs Hv.
  assert (Hi : ~ id_start c) by (intros X; apply Hg; left; exists c, r; auto). assert (Hb : c = 92 -> ~ escape_ahead r) by (intros -> X; apply Hg; right; exists r; auto).
  assert (One : forall t, js_denotes t [c] r -> exists t0 p0 rest0, Ret (t, r) = Ret (t0, rest0) /\ c :: r = p0 ++ rest0 /\ p0 <> [] /\ js_denotes t0 p0 rest0).
  { intros t Ht. exists t, [c], r. split; [reflexivity|]. split; [reflexivity|]. split; [discriminate|exact Ht]. }
  assert (Str : forall q, (c =? q) = true -> q = 34 \/ q = 39 -> exists t0 p0 rest0, string_literal fuel q r = Ret (t0, rest0) /\ c :: r = p0 ++ rest0 /\ p0 <> [] /\ js_denotes t0 p0 rest0).
  { intros q Ecq Hq. apply N.eqb_eq in Ecq. subst c. cbn [length] in Hf. destruct (string_body_sound q fuel Hq r ltac:(lia)) as (o & v & rest & E & Hm). unfold string_literal. rewrite E. destruct o as [z|].
    - destruct Hm as [(-> & p & -> & Hp & Hl)|(-> & -> & p & -> & Hp)].
      + exists (JInvalid (q :: v)), (q :: p), rest. rewrite app_nil_r. split; [reflexivity|]. split; [reflexivity|]. split; [discriminate|]. constructor; assumption.
      + exists (JInvalid (q :: v ++ [92])), (q :: p ++ [92]), []. split; [reflexivity|]. split; [rewrite app_nil_r; reflexivity|]. split; [discriminate|]. constructor; assumption.
    - destruct Hm as (p & -> & Hp). exists (JString v), (q :: p ++ [q]), rest. split; [reflexivity|]. split; [cbn; rewrite <- app_assoc; reflexivity|]. split; [discriminate|]. constructor; assumption. }
  destruct (is_newline c) eqn:En; [apply One; constructor; apply is_newline_iff; exact En|].
  destruct (c =? 123) eqn:E1; [apply N.eqb_eq in E1; subst; apply One; constructor|]. destruct (c =? 125) eqn:E2; [apply N.eqb_eq in E2; subst; apply One; constructor|].
  destruct (c =? 42) eqn:E3; [apply N.eqb_eq in E3; subst; apply One; constructor|]. destruct (c =? 44) eqn:E4; [apply N.eqb_eq in E4; subst; apply One; constructor|].
  destruct (c =? 59) eqn:E5; [apply N.eqb_eq in E5; subst; apply One; constructor|]. destruct (c =? 34) eqn:E6; [apply Str; [exact E6|auto]|]. destruct (c =? 39) eqn:E7; [apply Str; [exact E7|auto]|].
  destruct (c =? 47) eqn:E8.
  - apply N.eqb_eq in E8. subst c. assert (Hcn : ~ comment_next r) by (intros X; apply Hc; auto). unfold regex. destruct (regex_body_sound (S (length r)) 0 r ltac:(lia)) as (ok & v & rest & E & Hm). rewrite E. destruct ok.
    + destruct Hm as (-> & Hr). destruct (span is_flag rest) as [f rest2] eqn:Es. destruct (span_spec _ _ _ _ Es) as (-> & F1 & F2). exists (JRegex v f), (47 :: v ++ 47 :: f), rest2. split; [reflexivity|]. split; [cbn; rewrite <- app_assoc; reflexivity|]. split; [discriminate|]. constructor.
      * intros ->. apply Hcn. exists 47, (f ++ rest2). auto.
      * intros (d & t & -> & Hd). apply Hcn. exists d, (t ++ 47 :: f ++ rest2). auto.
      * exact Hr.
      * apply (Forall_impl _ (P := fun c => is_flag c = true)); [|exact F1]. intros y Hy. apply is_flag_iff. exact Hy.
      * apply (span_stop is_flag rest2 is_flag_iff). exact F2.
    + destruct Hm as (-> & (l & Hr) & He). exists (JInvalid (47 :: v)), (47 :: v), rest. split; [reflexivity|]. split; [reflexivity|]. split; [discriminate|]. apply (JdOpenRegex v l); [|exact Hr|exact He]. intros (d & t & -> & Hd). apply Hcn. exists d, (t ++ rest). auto.
  - apply One. constructor; try assumption; [apply is_newline_false; exact En|]. cbn [In]. lia.
Qed.

(** * The whole text *)
Lemma js_tokens_run n : forall s, (length s < n)%nat -> exists ts, js_tokens n s = Ret ts /\ js_spelled ts s /\ (length ts <= S (length s))%nat.
Proof.
  induction n as [|n IH]; intros s Hf; [lia|]. cbn [js_tokens]. destruct s as [|c r]; [exists [JEof]; split; [reflexivity|]; split; [constructor|cbn; lia]|].
  destruct (js_next_sound (S n) c r Hf) as (t & p & rest & E & Es & Hp & Hd). rewrite E. assert (Hl : (length rest < length (c :: r))%nat) by (rewrite Es, app_length; destruct p; [congruence|cbn [length]; lia]).
  destruct (IH rest ltac:(cbn [length] in *; lia)) as (ts & Et & Hts & Hlen). rewrite Et. exists (t :: ts). split; [reflexivity|]. split; [rewrite Es; constructor; assumption|]. cbn [length] in *. lia.
Qed.
Lemma js_tokens_complete ts s : js_spelled ts s -> forall n, (length s < n)%nat -> js_tokens n s = Ret ts.
Proof.
  intros H. induction H as [|t ts p rest Hp Hd H IH]; intros n Hf; [destruct n; reflexivity|]. destruct n as [|n]; [lia|]. destruct (p ++ rest) as [|c r] eqn:E; [destruct p; [congruence|discriminate]|]. cbn [js_tokens].
  rewrite (js_next_complete t p rest Hd (S n) c r E Hf). rewrite IH; [reflexivity|]. apply (f_equal (@length N)) in E. rewrite app_length in E. destruct p; [congruence|]. cbn [length] in *. lia.
Qed.
Theorem js_tokenize_iff s ts : js_tokenize s = Ret ts <-> js_spelled ts s.
Proof.
  split; [|intros H; apply js_tokens_complete; [exact H|lia]]. intros H. destruct (js_tokens_run (2 + length s) s ltac:(lia)) as (ts' & E & Hs & _). unfold js_tokenize in H. rewrite E in H. injection H as <-. exact Hs.
Qed.
Theorem js_tokenize_total s : exists ts, js_tokenize s = Ret ts /\ (length ts <= S (length s))%nat.
Proof. destruct (js_tokens_run (2 + length s) s ltac:(lia)) as (ts & E & _ & Hl). exists ts. split; assumption. Qed.
