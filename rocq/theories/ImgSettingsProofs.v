(** Proofs about the settings hash. *)
From Verif Require Import Base Graph Html HtmlSpec HtmlProofs ImgSettings ImgSettingsSpec.
From Coq Require Import String ZArith NArith Bool List Lia Sorted Permutation.
Import ListNotations.
Open Scope list_scope.
Open Scope Z_scope.

(** * sorted *)
Lemma insert_in k l q : In q (insert_key k l) <-> q = k \/ In q l.
Proof. induction l as [|x l IH]; cbn [insert_key]; [cbn; intuition|]. destruct (str_leb k x); cbn [In]; [intuition|]. rewrite IH. intuition. Qed.
Lemma sorted_in l q : In q (sorted l) <-> In q l.
Proof. induction l as [|k l IH]; [reflexivity|]. cbn [sorted fold_right]. rewrite insert_in. fold (sorted l). rewrite IH. cbn. intuition. Qed.
Lemma insert_strong k l : ~ In k l -> StronglySorted before l -> StronglySorted before (insert_key k l).
Proof.
  induction l as [|x l IH]; intros N S; cbn [insert_key]; [constructor; constructor|]. inversion S as [|y z S1 S2]; subst. destruct (str_leb k x) eqn:E.
  - apply leb_before in E. destruct E as [-> |E]; [exfalso; apply N; left; reflexivity|]. constructor; [exact S|]. constructor; [exact E|]. rewrite Forall_forall in *. intros q Q. exact (before_trans _ _ _ E (S2 q Q)).
  - constructor; [apply IH; [intros X; apply N; right; exact X|exact S1]|]. rewrite Forall_forall in *. intros q Q. apply insert_in in Q. destruct Q as [-> |Q]; [apply before_total; exact E|exact (S2 q Q)].
Qed.
Lemma sorted_strong l : NoDup l -> StronglySorted before (sorted l).
Proof. induction 1 as [|k l N H IH]; [constructor|]. cbn [sorted fold_right]. fold (sorted l). apply insert_strong; [rewrite sorted_in; exact N|exact IH]. Qed.
Lemma strong_unique a b : StronglySorted before a -> StronglySorted before b -> (forall q, In q a <-> In q b) -> a = b.
Proof.
  revert b. induction a as [|x a IH]; intros [|y b] A B E; [reflexivity|exfalso; apply (proj2 (E y)); left; reflexivity|exfalso; apply (proj1 (E x)); left; reflexivity|].
  inversion A as [|? ? A1 A2]; subst. inversion B as [|? ? B1 B2]; subst. rewrite Forall_forall in A2, B2.
  assert (x = y). { destruct (proj1 (E x) (or_introl eq_refl)) as [->|X]; [reflexivity|]. destruct (proj2 (E y) (or_introl eq_refl)) as [->|Y]; [reflexivity|]. exfalso. exact (before_irrefl _ (before_trans _ _ _ (A2 _ Y) (B2 _ X))). }
  subst y. f_equal. apply IH; try assumption. intros q. split; intros Q.
  - destruct (proj1 (E q) (or_intror Q)) as [->|X]; [|exact X]. exfalso. exact (before_irrefl _ (A2 _ Q)).
  - destruct (proj2 (E q) (or_intror Q)) as [->|X]; [|exact X]. exfalso. exact (before_irrefl _ (B2 _ Q)).
Qed.
Lemma strong_nodup l : StronglySorted before l -> NoDup l.
Proof. induction l as [|x l IH]; intros S; [constructor|]. inversion S as [|? ? S1 S2]; subst. constructor; [|exact (IH S1)]. intros I. rewrite Forall_forall in S2. exact (before_irrefl _ (S2 _ I)). Qed.
Lemma sorted_same {V} (d d' : list (str * V)) : dict_wf d -> dict_wf d' -> (forall k, dget k d = None <-> dget k d' = None) -> sorted (map fst d) = sorted (map fst d').
Proof.
  intros W W' E. apply strong_unique; [apply sorted_strong; exact W|apply sorted_strong; exact W'|]. intros q. rewrite !sorted_in.
  assert (K : forall x : list (str * V), In q (map fst x) <-> dget q x <> None). { intros x. split; [intros I N; apply dget_None in N; contradiction|]. intros N. destruct (dget q x) as [v|] eqn:G; [|contradiction]. apply dget_In in G. apply (in_map fst) in G. exact G. }
  rewrite !K, E. reflexivity.
Qed.

(** * The order does not matter *)
Lemma items_same {V} (R : V -> V -> Prop) (body : Z -> str -> V -> res Z) d d' : (forall r n v v', R v v' -> body r n v = body r n v') -> same_dict R d d' ->
  forall r, hash_items body d (sorted (map fst d)) r = hash_items body d' (sorted (map fst d')) r.
Proof.
  intros B (W & W' & E) r. rewrite <- (sorted_same d d' W W').
  - generalize (sorted (map fst d)). intros l. revert r. induction l as [|n l IH]; intros r; [reflexivity|]. cbn [hash_items]. specialize (E n). destruct (dget n d) as [v|], (dget n d') as [v'|]; try contradiction; [|reflexivity]. rewrite (B r n v v' E). destruct (body r n v'); [apply IH|reflexivity].
  - intros k. specialize (E k). destruct (dget k d), (dget k d'); try contradiction; split; congruence.
Qed.
Lemma export_same r n e e' : same_export e e' -> hash_export r n e = hash_export r n e'.
Proof.
  intros (A & B & C & D). unfold hash_export. rewrite A, B, C. destruct (mix r (KStr n)) as [r1|]; [|reflexivity]. destruct (mix r1 _) as [r2|]; [|reflexivity]. destruct (mix r2 _) as [r3|]; [|reflexivity]. destruct (mix r3 _) as [r4|]; [|reflexivity].
  apply (items_same eq); [intros; subst; reflexivity|exact D].
Qed.
Lemma format_same r n f f' : same_format f f' -> hash_format r n f = hash_format r n f'.
Proof. intros (A & B). unfold hash_format. rewrite A. destruct (mix r (KStr n)) as [r1|]; [|reflexivity]. rewrite (items_same same_export _ _ _ export_same B). reflexivity. Qed.
Lemma settings_same s s' : same_settings s s' -> hash_image_settings s = hash_image_settings s'.
Proof. intros (A & B & C & D). unfold hash_image_settings. rewrite A, B, C, (items_same same_format _ _ _ format_same D). reflexivity. Qed.

(** * Its range *)
Definition range (n : Z) : Prop := 0 <= n < 2 ^ 64.
Lemma overflow_range n : range (overflow n). Proof. apply Z.mod_pos_bound. lia. Qed.
Lemma settings_range s h : hash_image_settings s = Ret h -> 0 <= h < 2 ^ 64.
Proof.
  unfold hash_image_settings. destruct (hash_items _ _ _ _) as [r|]; [|discriminate]. destruct (mix r _) as [r1|]; [|discriminate]. destruct (mix r1 _) as [r2|]; [|discriminate].
  intros E. assert (h = overflow (r2 * 31 + stable_hash_decimal (step_text s))) by congruence. subst h. apply overflow_range.
Qed.
Lemma items_defined {V} (ok : str -> V -> Prop) (body : Z -> str -> V -> res Z) d l r : (forall r n v, ok n v -> exists x, body r n v = Ret x) -> (forall n, In n l -> exists v, dget n d = Some v) -> (forall n v, In (n, v) d -> ok n v) -> exists x, hash_items body d l r = Ret x.
Proof.
  intros B I O. revert r. induction l as [|n l IH]; intros r; [eexists; reflexivity|]. cbn [hash_items]. destruct (I n (or_introl eq_refl)) as [v E]. rewrite E. destruct (B r n v) as [x X]; [apply O; apply dget_In; exact E|]. rewrite X. apply IH. intros m M. apply I. right. exact M.
Qed.
Lemma sorted_get {V} (d : list (str * V)) n : In n (sorted (map fst d)) -> exists v, dget n d = Some v.
Proof. rewrite sorted_in. intros I. destruct (dget n d) as [v|] eqn:E; [eexists; reflexivity|]. apply dget_None in E. contradiction. Qed.
Lemma mix_defined r v : v <> KOther -> exists x, mix r v = Ret x.
Proof. intros N. unfold mix. destruct v as [|[|]| | | |]; try (eexists; reflexivity). contradiction. Qed.
Lemma settings_defined s : plain_settings s -> exists h, hash_image_settings s = Ret h.
Proof.
  intros P. unfold hash_image_settings.
  destruct (items_defined (fun n f => forall en e kn v, In (en, e) (exports f) -> In (kn, v) (kwargs e) -> v <> KOther) hash_format (formats s) (sorted (map fst (formats s))) 1) as [r E].
  - intros r n f F. unfold hash_format. destruct (mix_defined r (KStr n)) as [r1 E1]; [discriminate|]. rewrite E1.
    destruct (items_defined (fun _ e => forall kn v, In (kn, v) (kwargs e) -> v <> KOther) hash_export (exports f) (sorted (map fst (exports f))) r1) as [r2 E2].
    + intros q m e K. unfold hash_export. destruct (mix_defined q (KStr m)) as [q1 Q1]; [discriminate|]. rewrite Q1. destruct (mix_defined q1 (area_value (min_area e))) as [q2 Q2]; [destruct (min_area e); discriminate|]. rewrite Q2. destruct (mix_defined q2 (area_value (max_area e))) as [q3 Q3]; [destruct (max_area e); discriminate|]. rewrite Q3. destruct (mix_defined q3 (KInt (preference e))) as [q4 Q4]; [discriminate|]. rewrite Q4.
      apply (items_defined (fun _ v => v <> KOther)); [|intros; apply sorted_get; assumption|exact K].
      intros p x v V. unfold hash_kwarg. destruct (mix_defined p (KStr x)) as [p1 P1]; [discriminate|]. rewrite P1. apply mix_defined. exact V.
    + intros; apply sorted_get; assumption.
    + intros m e I kn v J. exact (F m e kn v I J).
    + rewrite E2. apply mix_defined. discriminate.
  - intros; apply sorted_get; assumption.
  - intros n f I en e kn v J K. exact (P n f en e kn v I J K).
  - rewrite E. destruct (mix_defined r (KStr (default_format s))) as [r1 E1]; [discriminate|]. rewrite E1. destruct (mix_defined r1 (KInt (maximum s))) as [r2 E2]; [discriminate|]. rewrite E2. eexists. reflexivity.
Qed.

(** * A changed number changes it *)
Lemma times_31 a b : range a -> range b -> overflow (a * 31) = overflow (b * 31) -> a = b.
Proof.
  unfold range, overflow. intros A B E. assert (X : (a * 31 * 17256631552825064415) mod 2 ^ 64 = (b * 31 * 17256631552825064415) mod 2 ^ 64) by (rewrite Z.mul_mod, E, <- Z.mul_mod by lia; reflexivity).
  assert (K : forall n, (n * 31 * 17256631552825064415) mod 2 ^ 64 = n mod 2 ^ 64). { intros n. replace (n * 31 * 17256631552825064415) with (n + n * 29 * 2 ^ 64); [apply Z.mod_add; lia|]. assert (31 * 17256631552825064415 = 1 + 29 * 2 ^ 64) by reflexivity. lia. }
  rewrite !K, !Z.mod_small in X by lia. exact X.
Qed.
Lemma step_inj a b h : range a -> range b -> overflow (a * 31 + h) = overflow (b * 31 + h) -> a = b.
Proof.
  intros A B E. apply times_31; try assumption. unfold overflow in *. assert (X : (a * 31 + h - h) mod 2 ^ 64 = (b * 31 + h - h) mod 2 ^ 64) by (rewrite Zminus_mod, E, <- Zminus_mod; reflexivity).
  replace (a * 31 + h - h) with (a * 31) in X by lia. replace (b * 31 + h - h) with (b * 31) in X by lia. exact X.
Qed.
Lemma step_other r a b : other_number a b -> overflow (r * 31 + a) <> overflow (r * 31 + b).
Proof.
  intros [N L] E. unfold overflow in E. apply N. assert (X : (a - b) mod 2 ^ 64 = 0). { replace (a - b) with ((r * 31 + a) - (r * 31 + b)) by lia. rewrite Zminus_mod, E, Z.sub_diag. reflexivity. }
  apply Z.mod_divide in X; [|lia]. destruct X as [q Q]. assert (q = 0) by nia. lia.
Qed.
Lemma mix_range r v x : mix r v = Ret x -> range x.
Proof. unfold mix. destruct (stable_hash v) as [h|]; [|discriminate]. intros E. assert (x = overflow (r * 31 + h)) by congruence. subst x. apply overflow_range. Qed.
(** a step that keeps different results apart *)
Definition keeps (body : Z -> res Z) : Prop := forall r r' x x', range r -> range r' -> r <> r' -> body r = Ret x -> body r' = Ret x' -> x <> x' /\ range x /\ range x'.
(** two steps that set equal results apart *)
Definition parts (b b' : Z -> res Z) : Prop := forall r x x', range r -> b r = Ret x -> b' r = Ret x' -> x <> x' /\ range x /\ range x'.
Definition andthen (a : Z -> res Z) (b : Z -> res Z) (r : Z) : res Z := match a r with Raise e => Raise e | Ret r => b r end.
Definition stays (b : Z -> res Z) : Prop := forall r x, range r -> b r = Ret x -> range x.
Lemma mix_keeps v : keeps (fun r => mix r v).
Proof.
  intros r r' x x' R R' N E E'. split; [|split; eapply mix_range; eassumption]. unfold mix in E, E'. destruct (stable_hash v) as [h|]; [|discriminate]. intros ->. apply N. apply (step_inj r r' h R R'). congruence.
Qed.
Lemma mix_stays v : stays (fun r => mix r v). Proof. intros r x _ E. eapply mix_range; eassumption. Qed.
Lemma mix_parts a b : other_number a b -> parts (fun r => mix r (KInt a)) (fun r => mix r (KInt b)).
Proof. intros O r x x' R E E'. split; [|split; eapply mix_range; eassumption]. unfold mix in E, E'. cbn [stable_hash] in E, E'. intros ->. apply (step_other r a b O). congruence. Qed.
Lemma then_keeps a b : keeps a -> keeps b -> keeps (andthen a b).
Proof. intros A B r r' x x' R R' N E E'. unfold andthen in E, E'. destruct (a r) as [y|] eqn:Y; [|discriminate]. destruct (a r') as [y'|] eqn:Y'; [|discriminate]. destruct (A _ _ _ _ R R' N Y Y') as (M & S & S'). exact (B _ _ _ _ S S' M E E'). Qed.
Lemma then_stays a b : stays a -> stays b -> stays (andthen a b).
Proof. intros A B r x R E. unfold andthen in E. destruct (a r) as [y|] eqn:Y; [|discriminate]. exact (B y x (A _ _ R Y) E). Qed.
Lemma parts_then a a' b : parts a a' -> keeps b -> parts (andthen a b) (andthen a' b).
Proof. intros A B r x x' R E E'. unfold andthen in E, E'. destruct (a r) as [y|] eqn:Y; [|discriminate]. destruct (a' r) as [y'|] eqn:Y'; [|discriminate]. destruct (A _ _ _ R Y Y') as (M & S & S'). exact (B _ _ _ _ S S' M E E'). Qed.
Lemma then_parts a b b' : stays a -> parts b b' -> parts (andthen a b) (andthen a b').
Proof. intros A B r x x' R E E'. unfold andthen in E, E'. destruct (a r) as [y|] eqn:Y; [|discriminate]. exact (B y x x' (A _ _ R Y) E E'). Qed.
Lemma items_keeps {V} (body : Z -> str -> V -> res Z) d l : (forall n v, keeps (fun r => body r n v)) -> keeps (hash_items body d l).
Proof.
  intros K. induction l as [|n l IH]; intros r r' x x' R R' N E E'; cbn [hash_items] in E, E'; [assert (x = r) by congruence; assert (x' = r') by congruence; subst; auto|].
  destruct (dget n d) as [v|]; [|discriminate]. destruct (body r n v) as [y|] eqn:Y; [|discriminate]. destruct (body r' n v) as [y'|] eqn:Y'; [|discriminate]. destruct (K n v _ _ _ _ R R' N Y Y') as (M & S & S'). exact (IH _ _ _ _ S S' M E E').
Qed.
Lemma items_stays {V} (body : Z -> str -> V -> res Z) d l : (forall n v, stays (fun r => body r n v)) -> stays (hash_items body d l).
Proof. intros K. induction l as [|n l IH]; intros r x R E; cbn [hash_items] in E; [congruence|]. destruct (dget n d) as [v|]; [|discriminate]. destruct (body r n v) as [y|] eqn:Y; [|discriminate]. exact (IH y x (K n v r y R Y) E). Qed.
Lemma items_cong {V} (body : Z -> str -> V -> res Z) d d' l r : (forall m, In m l -> dget m d = dget m d') -> hash_items body d l r = hash_items body d' l r.
Proof. revert r. induction l as [|n l IH]; intros r H; [reflexivity|]. cbn [hash_items]. rewrite (H n (or_introl eq_refl)). destruct (dget n d'); [|reflexivity]. destruct (body r n v); [|reflexivity]. apply IH. intros m M. apply H. right. exact M. Qed.
Lemma items_parts {V} (R : V -> V -> Prop) (body : Z -> str -> V -> res Z) d d' : (forall n v, keeps (fun r => body r n v)) -> (forall n v, stays (fun r => body r n v)) -> (forall n v v', R v v' -> parts (fun r => body r n v) (fun r => body r n v')) ->
  changed_at R d d' -> parts (hash_items body d (sorted (map fst d))) (hash_items body d' (sorted (map fst d'))).
Proof.
  intros K S P (W & W' & k & a & b & A & B & Q & O).
  assert (E : sorted (map fst d) = sorted (map fst d')). { apply sorted_same; try assumption. intros m. destruct (str_eqb m k) eqn:Em; [apply str_eqb_eq in Em; subst m; split; congruence|]. apply str_eqb_neq in Em. rewrite (O m Em). reflexivity. }
  rewrite <- E. assert (I : In k (sorted (map fst d))). { rewrite sorted_in. apply dget_In in A. apply (in_map fst) in A. exact A. }
  assert (N : NoDup (sorted (map fst d))). { apply strong_nodup. apply sorted_strong. exact W. }
  revert I N. generalize (sorted (map fst d)). intros l. induction l as [|n l IH]; intros I N; [contradiction|]. inversion N as [|? ? N1 N2]; subst. intros r x x' Rr X X'. cbn [hash_items] in X, X'. destruct (str_eqb n k) eqn:Ek.
  - apply str_eqb_eq in Ek. subst n. rewrite A in X. rewrite B in X'. destruct (body r k a) as [y|] eqn:Y; [|discriminate]. destruct (body r k b) as [y'|] eqn:Y'; [|discriminate]. destruct (P k a b Q r y y' Rr Y Y') as (M & S1 & S2).
    assert (C : hash_items body d' l y' = hash_items body d l y'). { symmetry. apply items_cong. intros m Hm. apply O. intros ->. contradiction. }
    rewrite C in X'. exact (items_keeps body d l K _ _ _ _ S1 S2 M X X').
  - apply str_eqb_neq in Ek. rewrite <- (O n Ek) in X'. destruct (dget n d) as [v|]; [|discriminate]. destruct (body r n v) as [y|] eqn:Y; [|discriminate]. destruct I as [I|I]; [congruence|]. exact (IH I N2 y x x' (S n v r y Rr Y) X X').
Qed.
Lemma kwarg_keeps n v : keeps (fun r => hash_kwarg r n v). Proof. apply (then_keeps (fun r => mix r (KStr n)) (fun r => mix r v)); apply mix_keeps. Qed.
Lemma kwarg_stays n v : stays (fun r => hash_kwarg r n v). Proof. apply (then_stays (fun r => mix r (KStr n)) (fun r => mix r v)); apply mix_stays. Qed.
Definition export_body (n : str) (e : image_export) : Z -> res Z :=
  andthen (fun r => mix r (KStr n)) (andthen (fun r => mix r (area_value (min_area e))) (andthen (fun r => mix r (area_value (max_area e))) (andthen (fun r => mix r (KInt (preference e))) (hash_items hash_kwarg (kwargs e) (sorted (map fst (kwargs e))))))).
Lemma export_body_ok n e r : hash_export r n e = export_body n e r. Proof. reflexivity. Qed.
Lemma export_keeps n e : keeps (fun r => hash_export r n e).
Proof. change (keeps (export_body n e)). repeat (apply then_keeps; [apply mix_keeps|]). apply items_keeps. apply kwarg_keeps. Qed.
Lemma export_stays n e : stays (fun r => hash_export r n e).
Proof. change (stays (export_body n e)). repeat (apply then_stays; [apply mix_stays|]). apply items_stays. apply kwarg_stays. Qed.
Lemma export_parts n e e' : export_changed e e' -> parts (fun r => hash_export r n e) (fun r => hash_export r n e').
Proof.
  intros C. change (parts (export_body n e) (export_body n e')). unfold export_body. apply then_parts; [apply mix_stays|].
  destruct C as [a b ma p kw O|a b mi p kw O|a b mi ma kw O|mi ma p kw kw' O]; cbn [min_area max_area preference kwargs area_value].
  - apply parts_then; [apply mix_parts; exact O|]. repeat (apply then_keeps; [apply mix_keeps|]). apply items_keeps. apply kwarg_keeps.
  - apply then_parts; [apply mix_stays|]. apply parts_then; [apply mix_parts; exact O|]. repeat (apply then_keeps; [apply mix_keeps|]). apply items_keeps. apply kwarg_keeps.
  - do 2 (apply then_parts; [apply mix_stays|]). apply parts_then; [apply mix_parts; exact O|]. apply items_keeps. apply kwarg_keeps.
  - do 3 (apply then_parts; [apply mix_stays|]). eapply items_parts; [apply kwarg_keeps|apply kwarg_stays| |exact O]. intros k v v' (a & b & -> & -> & Q). apply (then_parts (fun r => mix r (KStr k)) (fun r => mix r (KInt a)) (fun r => mix r (KInt b))); [apply mix_stays|apply mix_parts; exact Q].
Qed.
Definition format_body (n : str) (f : image_format) : Z -> res Z :=
  andthen (fun r => mix r (KStr n)) (andthen (hash_items hash_export (exports f) (sorted (map fst (exports f)))) (fun r => mix r (KInt (unit_size f)))).
Lemma format_keeps n f : keeps (fun r => hash_format r n f).
Proof. change (keeps (format_body n f)). apply then_keeps; [apply mix_keeps|]. apply then_keeps; [apply items_keeps; apply export_keeps|apply mix_keeps]. Qed.
Lemma format_stays n f : stays (fun r => hash_format r n f).
Proof. change (stays (format_body n f)). apply then_stays; [apply mix_stays|]. apply then_stays; [apply items_stays; apply export_stays|apply mix_stays]. Qed.
Lemma format_parts n f f' : format_changed f f' -> parts (fun r => hash_format r n f) (fun r => hash_format r n f').
Proof.
  intros C. change (parts (format_body n f) (format_body n f')). unfold format_body. apply then_parts; [apply mix_stays|]. destruct C as [a b ex O|u ex ex' O]; cbn [exports unit_size].
  - apply then_parts; [apply items_stays; apply export_stays|apply mix_parts; exact O].
  - apply parts_then; [|apply mix_keeps]. eapply items_parts; [apply export_keeps|apply export_stays|apply export_parts|exact O].
Qed.
Lemma settings_parts s s' h h' : settings_changed s s' -> hash_image_settings s = Ret h -> hash_image_settings s' = Ret h' -> h <> h'.
Proof.
  set (body := fun s => andthen (hash_items hash_format (formats s) (sorted (map fst (formats s)))) (andthen (fun r => mix r (KStr (default_format s))) (andthen (fun r => mix r (KInt (maximum s))) (fun r => Ret (overflow (r * 31 + stable_hash_decimal (step_text s))))))).
  assert (L : forall t, keeps (fun r => Ret (overflow (r * 31 + stable_hash_decimal t)))). { intros t r r' x x' R R' N E E'. assert (x = overflow (r * 31 + stable_hash_decimal t)) by congruence. assert (x' = overflow (r' * 31 + stable_hash_decimal t)) by congruence. subst x x'. split; [|split; apply overflow_range]. intros X. apply N. eapply step_inj; eassumption. }
  assert (P : settings_changed s s' -> parts (body s) (body s')).
  { intros C. unfold body. destruct C as [a b fs d t O|fs fs' d m t O]; cbn [formats default_format maximum step_text].
    - apply then_parts; [apply items_stays; apply format_stays|]. apply then_parts; [apply mix_stays|]. apply parts_then; [apply mix_parts; exact O|apply L].
    - apply parts_then; [eapply items_parts; [apply format_keeps|apply format_stays|apply format_parts|exact O]|]. do 2 (apply then_keeps; [apply mix_keeps|]). apply L. }
  intros C E E'. assert (R : range 1) by (unfold range; lia). exact (proj1 (P C 1 h h' R E E')).
Qed.
