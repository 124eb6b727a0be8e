(** Proofs about colours. *)
From Verif Require Import Base Graph Css IconColor IconColorSpec.
From Coq Require Import String ZArith NArith Bool List Lia ZifyN ZifyBool ZifyNat.
Import ListNotations.
Open Scope list_scope.
Open Scope N_scope.

Lemma digit16_sound c v : digit16 c = Some v -> digit_value c v.
Proof.
  unfold digit16. intros H.
  assert (B : (48 <= c <= 57 /\ v = (Z.of_N c - 48)%Z) \/ (65 <= c <= 70 /\ v = (Z.of_N c - 55)%Z) \/ (97 <= c <= 102 /\ v = (Z.of_N c - 87)%Z)).
  { destruct ((48 <=? c) && (c <=? 57)) eqn:E1; [injection H as <-; lia|].
    destruct ((65 <=? c) && (c <=? 70)) eqn:E2; [injection H as <-; lia|].
    destruct ((97 <=? c) && (c <=? 102)) eqn:E3; [injection H as <-; lia|discriminate]. }
  assert (C : In (c, v) (map (fun k => (N.of_nat k + 48, Z.of_nat k)) (seq 0 10) ++ map (fun k => (N.of_nat k + 55, Z.of_nat k)) (seq 10 6) ++ map (fun k => (N.of_nat k + 87, Z.of_nat k)) (seq 10 6))).
  { rewrite !in_app_iff, !in_map_iff. destruct B as [B|[B|B]].
    - left. exists (N.to_nat (c - 48)). rewrite in_seq. split; [f_equal; lia|lia].
    - right; left. exists (N.to_nat (c - 55)). rewrite in_seq. split; [f_equal; lia|lia].
    - right; right. exists (N.to_nat (c - 87)). rewrite in_seq. split; [f_equal; lia|lia]. }
  unfold digit_value. exists (Z.to_nat v). split; [lia|].
  vm_compute in C. repeat (destruct C as [C|C]; [injection C as <- <-; vm_compute; auto|]). destruct C.
Qed.
Lemma digit16_complete c v : digit_value c v -> digit16 c = Some v /\ c < 127.
Proof.
  intros (k & -> & H).
  assert (K : (k < 16)%nat).
  { destruct H as [H|H]; apply nth_error_Some_lt in H || (assert (nth_error upper_digits k <> None \/ nth_error lower_digits k <> None) as [X|X] by (rewrite H; (left; discriminate) || (right; discriminate)); apply nth_error_Some in X; exact X). }
  do 16 (destruct k as [|k]; [destruct H as [H|H]; vm_compute in H; injection H as <-; split; vm_compute; reflexivity|]). lia.
Qed.
Lemma digit_value_range c v : digit_value c v -> (0 <= v <= 15)%Z.
Proof.
  intros H. apply digit16_complete in H. destruct H as [H _]. unfold digit16 in H.
  destruct ((48 <=? c) && (c <=? 57)) eqn:E1; [injection H as <-; lia|].
  destruct ((65 <=? c) && (c <=? 70)) eqn:E2; [injection H as <-; lia|].
  destruct ((97 <=? c) && (c <=? 102)) eqn:E3; [injection H as <-; lia|discriminate].
Qed.

Section Color.
Context (plain : N -> N).
Lemma int16_digits a b x y : digit_value a x -> digit_value b y -> int16 plain a b = Ret (16 * x + y)%Z.
Proof.
  intros Ha Hb. apply digit16_complete in Ha. apply digit16_complete in Hb. destruct Ha as [Ha La], Hb as [Hb Lb].
  unfold int16, ascii. apply N.ltb_lt in La, Lb. rewrite La, Lb, Ha, Hb. reflexivity.
Qed.
Lemma long_form r1 r2 g1 g2 b1 b2 x1 x2 y1 y2 z1 z2 :
  digit_value r1 x1 -> digit_value r2 x2 -> digit_value g1 y1 -> digit_value g2 y2 -> digit_value b1 z1 -> digit_value b2 z2 ->
  from_hex plain (lit "#" ++ [r1; r2; g1; g2; b1; b2]) = Ret (mkColor (16 * x1 + x2) (16 * y1 + y2) (16 * z1 + z2)).
Proof.
  intros H1 H2 H3 H4 H5 H6. transitivity (three (int16 plain r1 r2) (int16 plain g1 g2) (int16 plain b1 b2)); [reflexivity|]. rewrite (int16_digits _ _ _ _ H1 H2), (int16_digits _ _ _ _ H3 H4), (int16_digits _ _ _ _ H5 H6). reflexivity.
Qed.
Lemma short_form r g b x y z : digit_value r x -> digit_value g y -> digit_value b z ->
  from_hex plain (lit "#" ++ [r; g; b]) = Ret (mkColor (17 * x) (17 * y) (17 * z)).
Proof.
  intros H1 H2 H3. transitivity (three (int16 plain r r) (int16 plain g g) (int16 plain b b)); [reflexivity|]. rewrite (int16_digits _ _ _ _ H1 H1), (int16_digits _ _ _ _ H2 H2), (int16_digits _ _ _ _ H3 H3).
  unfold three. f_equal. f_equal; lia.
Qed.
Lemma rejected s : (forall t, s <> lit "#" ++ t) \/ (length s <> 7%nat /\ length s <> 4%nat) -> s <> [] -> from_hex plain s = Raise ValueError.
Proof.
  intros H Hs. destruct s as [|h t]; [contradiction|]. unfold from_hex. destruct (h =? 35) eqn:E; [|reflexivity]. cbn [negb].
  apply N.eqb_eq in E. subst h. destruct H as [H|[H1 H2]]; [exfalso; apply (H t); reflexivity|].
  do 7 (destruct t as [|? t]; [try reflexivity; cbn in H1, H2; congruence|]). reflexivity.
Qed.
(** printing *)
Lemma format_channel x : channel x -> format02X x = [nth (Z.to_nat (x / 16)) upper_digits 0; nth (Z.to_nat (x mod 16)) upper_digits 0].
Proof.
  intros H.
  assert (K : forallb (fun k => str_eqb (format02X (Z.of_nat k)) [nth (Z.to_nat (Z.of_nat k / 16)) upper_digits 0; nth (Z.to_nat (Z.of_nat k mod 16)) upper_digits 0]) (seq 0 256) = true) by (vm_compute; reflexivity).
  rewrite forallb_forall in K. specialize (K (Z.to_nat x)). unfold channel in H.
  rewrite Z2Nat.id in K by lia. apply str_eqb_eq, K, in_seq. lia.
Qed.
Lemma nth_digit k : (k < 16)%nat -> digit_value (nth k upper_digits 0) (Z.of_nat k).
Proof.
  intros H. exists k. split; [reflexivity|]. left. apply nth_error_nth'. exact H.
Qed.
Lemma channel_digits x : channel x -> exists a b h l, format02X x = [a; b] /\ digit_value a h /\ digit_value b l /\ x = (16 * h + l)%Z /\ In a upper_digits /\ In b upper_digits.
Proof.
  intros H. pose proof (format_channel x H) as F. unfold channel in H.
  assert (0 <= x / 16 < 16)%Z by (split; [apply Z.div_pos; lia|apply Z.div_lt_upper_bound; lia]).
  assert (0 <= x mod 16 < 16)%Z by (apply Z.mod_pos_bound; lia).
  do 2 eexists. exists (x / 16)%Z, (x mod 16)%Z. split; [exact F|].
  pose proof (nth_digit (Z.to_nat (x / 16))) as D1. pose proof (nth_digit (Z.to_nat (x mod 16))) as D2. rewrite Z2Nat.id in D1, D2 by lia.
  split; [apply D1; lia|]. split; [apply D2; lia|]. split; [apply Z.div_mod; lia|].
  split; apply nth_In; change (length upper_digits) with 16%nat; lia.
Qed.
Lemma color_round c : real_color c -> from_hex plain (to_hex c) = Ret c.
Proof.
  destruct c as [r g b]. intros (Hr & Hg & Hb). cbn [red green blue] in *. unfold to_hex. cbn [red green blue].
  destruct (channel_digits r Hr) as (a1 & a2 & x1 & x2 & -> & A1 & A2 & Ea & _).
  destruct (channel_digits g Hg) as (b1 & b2 & y1 & y2 & -> & B1 & B2 & Eb & _).
  destruct (channel_digits b Hb) as (c1 & c2 & z1 & z2 & -> & C1 & C2 & Ec & _).
  change (lit "#" ++ [a1; a2] ++ [b1; b2] ++ [c1; c2]) with (lit "#" ++ [a1; a2; b1; b2; c1; c2]).
  rewrite (long_form _ _ _ _ _ _ _ _ _ _ _ _ A1 A2 B1 B2 C1 C2). congruence.
Qed.
Lemma color_shape c : real_color c -> exists t, to_hex c = lit "#" ++ t /\ length t = 6%nat /\ forall x, In x t -> In x upper_digits.
Proof.
  destruct c as [r g b]. intros (Hr & Hg & Hb). cbn [red green blue] in *. unfold to_hex. cbn [red green blue].
  destruct (channel_digits r Hr) as (a1 & a2 & x1 & x2 & -> & _ & _ & _ & A1 & A2).
  destruct (channel_digits g Hg) as (b1 & b2 & y1 & y2 & -> & _ & _ & _ & B1 & B2).
  destruct (channel_digits b Hb) as (c1 & c2 & z1 & z2 & -> & _ & _ & _ & C1 & C2).
  exists [a1; a2; b1; b2; c1; c2]. split; [reflexivity|]. split; [reflexivity|]. intros x [<-|[<-|[<-|[<-|[<-|[<-|[]]]]]]]; assumption.
Qed.
End Color.
(** colours of style sheets *)
Section Sheets.
Context (plain : N -> N) (lower_high : N -> str).
Lemma named_real n c : dget n named_colors = Some c -> real_color c.
Proof.
  intros H. apply dget_In in H.
  assert (K : forallb (fun kv => ((0 <=? red (snd kv)) && (red (snd kv) <=? 255) && (0 <=? green (snd kv)) && (green (snd kv) <=? 255) && (0 <=? blue (snd kv)) && (blue (snd kv) <=? 255))%Z) named_colors = true) by (vm_compute; reflexivity).
  rewrite forallb_forall in K. specialize (K _ H). cbn [snd] in K. repeat split; lia.
Qed.
Lemma hex_digit_value c : hex_digit c = true -> exists v, digit_value c v.
Proof. unfold hex_digit. destruct (digit16 c) eqn:E; [|discriminate]. intros _. eexists. apply digit16_sound, E. Qed.
Lemma interpret_total {F} (ts : list (token (F := F))) : exists o, interpret_as_color plain lower_high ts = Ret o /\ forall c, o = Some c -> real_color c.
Proof.
  unfold interpret_as_color. destruct ts as [|t [|t2 ts]]; try (eexists; split; [reflexivity|discriminate]).
  - destruct t; try (eexists; split; [reflexivity|discriminate]).
    + destruct (negb (Nat.eqb (length v) 3) && negb (Nat.eqb (length v) 6)) eqn:El; [eexists; split; [reflexivity|discriminate]|].
      destruct (forallb hex_digit v) eqn:Ev; cbn [negb]; [|eexists; split; [reflexivity|discriminate]].
      assert (D : forall c, In c v -> exists x, digit_value c x) by (intros c Hc; apply hex_digit_value; rewrite forallb_forall in Ev; apply Ev, Hc).
      assert (L : length v = 3%nat \/ length v = 6%nat) by lia.
      destruct L as [L|L].
      * destruct v as [|a [|b [|c [|]]]]; try discriminate.
        destruct (D a) as [x Hx]; [cbn; auto|]. destruct (D b) as [y Hy]; [cbn; auto|]. destruct (D c) as [z Hz]; [cbn; auto|].
        rewrite (short_form _ _ _ _ _ _ _ Hx Hy Hz). eexists; split; [reflexivity|]. intros c0 Ec. assert (E0 : c0 = mkColor (17 * x) (17 * y) (17 * z)) by congruence. subst c0.
        apply digit_value_range in Hx, Hy, Hz. repeat split; cbn [red green blue]; lia.
      * destruct v as [|a [|b [|c [|d [|e [|f [|]]]]]]]; try discriminate.
        destruct (D a) as [x Hx]; [cbn; auto|]. destruct (D b) as [y Hy]; [cbn; auto|]. destruct (D c) as [z Hz]; [cbn; auto|].
        destruct (D d) as [x' Hx']; [cbn; auto|]. destruct (D e) as [y' Hy']; [cbn; auto 6|]. destruct (D f) as [z' Hz']; [cbn; auto 8|].
        rewrite (long_form _ _ _ _ _ _ _ _ _ _ _ _ _ Hx Hy Hz Hx' Hy' Hz'). eexists; split; [reflexivity|]. intros c0 Ec. assert (E0 : c0 = mkColor (16 * x + y) (16 * z + x') (16 * y' + z')) by congruence. subst c0.
        apply digit_value_range in Hx, Hy, Hz, Hx', Hy', Hz'. repeat split; cbn [red green blue]; lia.
    + eexists; split; [reflexivity|]. intros c. apply named_real.
  - destruct t; eexists; (split; [reflexivity|discriminate]).
Qed.
Lemma interpret_hash {F} id v c : (length v = 3%nat \/ length v = 6%nat) -> (forall x, In x v -> exists d, digit_value x d) ->
  from_hex plain (lit "#" ++ v) = Ret c -> interpret_as_color plain lower_high [THash (F := F) id v] = Ret (Some c).
Proof.
  intros L D E. unfold interpret_as_color.
  assert (X : negb (Nat.eqb (length v) 3) && negb (Nat.eqb (length v) 6) = false) by (destruct L as [L|L]; rewrite L; reflexivity). rewrite X.
  assert (Y : forallb hex_digit v = true).
  { apply forallb_forall. intros x Hx. destruct (D x Hx) as [d Hd]. apply digit16_complete in Hd. unfold hex_digit. destruct Hd as [-> _]. reflexivity. }
  rewrite Y. cbn [negb]. rewrite E. reflexivity.
Qed.
Lemma interpret_not_hex {F} id v : (exists x, In x v /\ forall d, ~ digit_value x d) -> interpret_as_color plain lower_high [THash (F := F) id v] = Ret None.
Proof.
  intros (x & Hx & D). unfold interpret_as_color. destruct (_ && _); [reflexivity|].
  assert (Y : forallb hex_digit v = false).
  { destruct (forallb hex_digit v) eqn:E; [|reflexivity]. rewrite forallb_forall in E. destruct (hex_digit_value x (E x Hx)) as [d Hd]. destruct (D d Hd). }
  rewrite Y. reflexivity.
Qed.
(** names: in any mix of cases *)
Lemma lower_same b : forall a, same_letters a b -> Forall (fun c => 97 <= c <= 122) b -> lower lower_high a = b.
Proof.
  induction b as [|y b IH]; intros a H Hb; destruct a as [|x a]; try destruct H.
  - reflexivity.
  - inversion Hb; subst. cbn [lower flat_map]. change (flat_map (lower_char lower_high) a) with (lower lower_high a). rewrite (IH a H0) by assumption.
    unfold lower_char. destruct H as [->|[Hy <-]].
    + assert (E : (y <? 128) = true) by lia. assert (E2 : (65 <=? y) && (y <=? 90) = false) by lia. rewrite E, E2. reflexivity.
    + assert (E : (x <? 128) = true) by lia. assert (E2 : (65 <=? x) && (x <=? 90) = true) by lia. rewrite E, E2. reflexivity.
Qed.
Lemma table_agrees n h : In (n, h) css_keywords -> ~ In n odd_names -> exists c, dget n named_colors = Some c /\ to_hex c = h.
Proof.
  intros H Hn.
  assert (K : forallb (fun kv => mem (fst kv) odd_names || match dget (fst kv) named_colors with Some c => str_eqb (to_hex c) (snd kv) | None => false end) css_keywords = true) by (vm_compute; reflexivity).
  rewrite forallb_forall in K. specialize (K _ H). cbn [fst snd] in K. apply orb_prop in K. destruct K as [K|K].
  - apply mem_In in K. contradiction.
  - destruct (dget n named_colors) as [c|]; [|discriminate]. exists c. split; [reflexivity|]. apply str_eqb_eq, K.
Qed.
Lemma keywords_letters n h : In (n, h) css_keywords -> Forall (fun c => 97 <= c <= 122) n.
Proof.
  intros H. assert (K : forallb (fun kv => forallb (fun c => (97 <=? c) && (c <=? 122)) (fst kv)) css_keywords = true) by (vm_compute; reflexivity).
  rewrite forallb_forall in K. specialize (K _ H). cbn [fst] in K. rewrite forallb_forall in K. apply Forall_forall. intros c Hc. specialize (K c Hc). lia.
Qed.
Lemma interpret_name {F} n h w : In (n, h) css_keywords -> ~ In n odd_names -> same_letters w n ->
  exists c, interpret_as_color plain lower_high [TIdent (F := F) w] = Ret (Some c) /\ to_hex c = h.
Proof.
  intros H Hn Hw. destruct (table_agrees n h H Hn) as (c & E & Eh). exists c. split; [|exact Eh].
  unfold interpret_as_color. rewrite (lower_same n w Hw (keywords_letters n h H)), E. reflexivity.
Qed.
End Sheets.
