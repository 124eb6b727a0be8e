(** Proofs about icon commands. *)
From Verif Require Import Base Graph Css CssSpec CssSound CssTerm CssRoundSpec CssRound IconParse IconParseSpec.
From Coq Require Import String ZArith NArith Bool List Lia ZifyN ZifyBool ZifyNat.
Import ListNotations.
Open Scope list_scope.
Open Scope N_scope.

Section Parse.
Context {F : Type}.
Notation itoken := (@itoken F).
Implicit Types (ts us rest pre : list itoken) (t : itoken).

Lemma blank_iff t : blank_token t = true <-> is_blank t.
Proof.
  split.
  - destruct t; try discriminate; intros _; [left|right]; eexists; reflexivity.
  - intros [[v ->]|[v ->]]; reflexivity.
Qed.
Lemma blank_no t : blank_token t = false <-> ~ is_blank t.
Proof. rewrite <- blank_iff. destruct (blank_token t); split; congruence. Qed.
Lemma wb_app (a b x y : list itoken) : without_blanks a x -> without_blanks b y -> without_blanks (a ++ b) (x ++ y).
Proof. intros H. revert b y. induction H; intros b y Hb; cbn [app]; [exact Hb|apply WBBlank; auto|apply WBKeep; auto]. Qed.
Lemma wb_total ts : exists us, without_blanks ts us.
Proof.
  induction ts as [|t ts [us IH]]; [exists []; constructor|]. destruct (blank_token t) eqn:E.
  - exists us. apply WBBlank; [apply blank_iff, E|exact IH].
  - exists (t :: us). apply WBKeep; [apply blank_no, E|exact IH].
Qed.
Lemma wb_length ts us : without_blanks ts us -> (length us <= length ts)%nat.
Proof. induction 1; cbn [length]; lia. Qed.
(** reading the next significant token *)
Lemma significant_done ts t rest : significant ts = Done t rest -> exists pre, ts = pre ++ rest /\ without_blanks pre [t].
Proof.
  induction ts as [|x ts IH]; cbn [significant]; [discriminate|]. destruct (blank_token x) eqn:E.
  - intros H. destruct (IH H) as (pre & -> & W). exists (x :: pre). split; [reflexivity|]. apply WBBlank; [apply blank_iff, E|exact W].
  - intros [= <- <-]. exists [x]. split; [reflexivity|]. apply WBKeep; [apply blank_no, E|constructor].
Qed.
Lemma significant_cases ts : significant ts = Wait \/ exists t rest, significant ts = Done t rest /\ blank_token t = false /\ (length rest < length ts)%nat.
Proof.
  induction ts as [|x ts IH]; cbn [significant]; [left; reflexivity|]. destruct (blank_token x) eqn:E.
  - destruct IH as [->|(t & rest & -> & B & L)]; [left; reflexivity|right]. exists t, rest. cbn [length]. repeat split; [exact B|lia].
  - right. exists x, ts. cbn [length]. repeat split; [exact E|lia].
Qed.
(** a token list whose significant tokens start with [t] *)
Lemma significant_head ts t us : without_blanks ts (t :: us) -> exists pre r, ts = pre ++ r /\ (forall rest, significant (ts ++ rest) = Done t (r ++ rest)) /\ without_blanks r us /\ ~ is_blank t.
Proof.
  remember (t :: us) as l eqn:E. intros H. revert t us E. induction H as [|x ts us' Hx H IH|x ts us' Hx H IH]; intros t us E; [discriminate| |].
  - destruct (IH t us E) as (pre & r & -> & S & W & B). exists (x :: pre), r. split; [reflexivity|]. split; [|auto]. intros rest. cbn [app significant]. apply blank_iff in Hx. rewrite Hx. apply S.
  - injection E as <- <-. exists [x], ts. split; [reflexivity|]. split; [|auto]. intros rest. cbn [app significant]. apply blank_no in Hx. rewrite Hx. reflexivity.
Qed.

(** * soundness: what was parsed was written *)
Lemma string_list_sound fuel : forall need ts l rest, string_list fuel need ts = Done l rest ->
  exists pre us, ts = pre ++ rest /\ without_blanks pre us /\
    (need = false -> listed us l) /\ (need = true -> (us = [IRSquare] /\ l = []) \/ exists vs, us = IComma :: vs /\ listed vs l).
Proof.
  induction fuel as [|k IH]; intros need ts l rest; cbn [string_list]; [discriminate|].
  destruct (significant ts) as [| | |t r] eqn:Es; cbn [bind]; try discriminate.
  destruct (significant_done _ _ _ Es) as (p1 & -> & W1).
  assert (HR : t = IRSquare -> Done (F := F) [] r = Done l rest -> exists pre us, p1 ++ r = pre ++ rest /\ without_blanks pre us /\
    (need = false -> listed us l) /\ (need = true -> (us = [IRSquare] /\ l = []) \/ exists vs, us = IComma :: vs /\ listed vs l)).
  { intros -> [= <- <-]. exists p1, [IRSquare]. split; [reflexivity|]. split; [exact W1|]. split; intros _; [constructor|left; auto]. }
  destruct need.
  - destruct t; try discriminate; [apply HR; reflexivity|]. intros H. destruct (IH _ _ _ _ H) as (p2 & u2 & -> & W2 & L2 & _).
    exists (p1 ++ p2), (IComma :: u2). split; [apply app_assoc|]. split; [apply (wb_app p1 p2 [IComma] u2); assumption|].
    split; [discriminate|]. intros _. right. exists u2. split; [reflexivity|apply L2; reflexivity].
  - destruct t; try discriminate; [apply HR; reflexivity|].
    destruct (string_list k true r) as [| | |l2 r2] eqn:El; cbn [bind]; try discriminate. intros [= <- <-].
    destruct (IH _ _ _ _ El) as (p2 & u2 & -> & W2 & _ & L2).
    exists (p1 ++ p2), (IString v :: u2). split; [apply app_assoc|]. split; [apply (wb_app p1 p2 [IString v] u2); assumption|].
    split; [|discriminate]. intros _. destruct (L2 eq_refl) as [[-> ->]|(vs & -> & L)]; [constructor|constructor; exact L].
Qed.
Definition add_entry (acc : settings) (e : str * setting) : settings :=
  if str_eqb (fst e) (lit "default") then mkSettings (Some (snd e)) (by_name acc) else mkSettings (by_default acc) (dset (fst e) (snd e) (by_name acc)).
Lemma button_list_sound fuel : forall need acc ts s rest, button_list fuel need acc ts = Done s rest ->
  exists pre us l, ts = pre ++ rest /\ without_blanks pre us /\ s = fold_left add_entry l acc /\
    (need = false -> button_entries us l) /\ (need = true -> (us = [IRCurly] /\ l = []) \/ exists vs, us = IComma :: vs /\ button_entries vs l).
Proof.
  induction fuel as [|k IH]; intros need acc ts s rest; cbn [button_list]; [discriminate|].
  destruct (significant ts) as [| | |t r] eqn:Es; cbn [bind]; try discriminate.
  destruct (significant_done _ _ _ Es) as (p1 & -> & W1).
  assert (HR : t = IRCurly -> Done (F := F) acc r = Done s rest -> exists pre us l, p1 ++ r = pre ++ rest /\ without_blanks pre us /\ s = fold_left add_entry l acc /\
    (need = false -> button_entries us l) /\ (need = true -> (us = [IRCurly] /\ l = []) \/ exists vs, us = IComma :: vs /\ button_entries vs l)).
  { intros -> [= <- <-]. exists p1, [IRCurly], []. split; [reflexivity|]. split; [exact W1|]. split; [reflexivity|]. split; intros _; [constructor|left; auto]. }
  destruct need.
  - destruct t; try discriminate; [apply HR; reflexivity|]. intros H. destruct (IH _ _ _ _ _ H) as (p2 & u2 & l2 & -> & W2 & E2 & L2 & _).
    exists (p1 ++ p2), (IComma :: u2), l2. split; [apply app_assoc|]. split; [apply (wb_app p1 p2 [IComma] u2); assumption|]. split; [exact E2|].
    split; [discriminate|]. intros _. right. exists u2. split; [reflexivity|apply L2; reflexivity].
  - destruct t; try discriminate; [apply HR; reflexivity|].
    destruct (significant r) as [| | |t2 r2] eqn:E2; cbn [bind]; try discriminate. destruct t2; try discriminate. destruct (significant_done _ _ _ E2) as (p2 & -> & W2).
    destruct (significant r2) as [| | |t3 r3] eqn:E3; cbn [bind]; try discriminate. destruct t3; try discriminate. destruct (significant_done _ _ _ E3) as (p3 & -> & W3).
    destruct (string_list k false r3) as [| | |l r4] eqn:E4; cbn [bind]; try discriminate. destruct (string_list_sound _ _ _ _ _ E4) as (p4 & u4 & -> & W4 & L4 & _).
    specialize (L4 eq_refl). destruct l as [|a [|h [|d [|]]]]; try discriminate. intros H.
    destruct (IH _ _ _ _ _ H) as (p5 & u5 & l5 & -> & W5 & E5 & _ & L5).
    exists (p1 ++ p2 ++ p3 ++ p4 ++ p5), (IString v :: IColon :: ILSquare :: u4 ++ u5), ((v, mkSetting a h d) :: l5).
    split; [rewrite <- !app_assoc; reflexivity|].
    split; [apply (wb_app p1 _ [IString v]); [exact W1|]; apply (wb_app p2 _ [IColon]); [exact W2|]; apply (wb_app p3 _ [ILSquare]); [exact W3|]; apply wb_app; assumption|].
    split; [exact E5|]. split; [|discriminate]. intros _. destruct (L5 eq_refl) as [[-> ->]|(vs & -> & L)]; constructor; assumption.
Qed.
(** what the settings mean *)
Lemma last_entry_app n l x : last_entry n (l ++ [x]) = if str_eqb n (fst x) then Some (snd x) else last_entry n l.
Proof.
  induction l as [|[m s] l IH]; cbn [last_entry app].
  - destruct x as [m s]. cbn [fst snd]. reflexivity.
  - rewrite IH. destruct (str_eqb n (fst x)); reflexivity.
Qed.
Lemma first_names_app l : forall seen m x, first_names seen (l ++ [(m, x)]) = first_names seen l ++ (if str_eqb m (lit "default") || mem m seen || mem m (map fst l) then [] else [m]).
Proof.
  induction l as [|[k v] l IH]; intros seen m x; cbn [first_names app map fst].
  - cbn [mem existsb]. rewrite orb_false_r. destruct (_ || _); reflexivity.
  - rewrite !IH. assert (C : mem m (k :: map fst l) = str_eqb m k || mem m (map fst l)) by reflexivity. rewrite C. clear C.
    assert (C2 : mem m (k :: seen) = str_eqb m k || mem m seen) by reflexivity. rewrite C2. clear C2.
    destruct (str_eqb k (lit "default") || mem k seen) eqn:E.
    + f_equal. destruct (str_eqb m k) eqn:Ek; [|rewrite orb_false_l; reflexivity]. apply str_eqb_eq in Ek. subst k. rewrite E. reflexivity.
    + cbn [app]. f_equal. f_equal. destruct (str_eqb m (lit "default")), (str_eqb m k), (mem m seen); reflexivity.
Qed.
Lemma first_names_mem l : forall seen m, mem m (first_names seen l) = mem m (map fst l) && negb (str_eqb m (lit "default") || mem m seen).
Proof.
  induction l as [|[k v] l IH]; intros seen m; cbn [first_names map fst]; [reflexivity|].
  assert (C : mem m (k :: map fst l) = str_eqb m k || mem m (map fst l)) by reflexivity. rewrite C. clear C.
  destruct (str_eqb k (lit "default") || mem k seen) eqn:E.
  - rewrite IH. destruct (str_eqb m k) eqn:Ek; [|reflexivity]. apply str_eqb_eq in Ek. subst k. rewrite E. cbn [negb]. rewrite !andb_false_r. reflexivity.
  - assert (C : mem m (k :: first_names (k :: seen) l) = str_eqb m k || mem m (first_names (k :: seen) l)) by reflexivity. rewrite C, IH. clear C.
    assert (C2 : mem m (k :: seen) = str_eqb m k || mem m seen) by reflexivity. rewrite C2. clear C2.
    destruct (str_eqb m k) eqn:Ek; [apply str_eqb_eq in Ek; subst k; rewrite E; reflexivity|]. reflexivity.
Qed.
Lemma dkeys_dset {A} k (v : A) d : map fst (dset k v d) = if mem k (map fst d) then map fst d else map fst d ++ [k].
Proof.
  induction d as [|[m x] d IH]; [reflexivity|]. cbn [dset map fst].
  assert (C : mem k (m :: map fst d) = str_eqb k m || mem k (map fst d)) by reflexivity. rewrite C. clear C.
  destruct (str_eqb k m) eqn:E; [reflexivity|]. cbn [map fst orb]. rewrite IH. destruct (mem k (map fst d)); reflexivity.
Qed.
Lemma settings_meaning l : settings_mean (fold_left add_entry l (mkSettings None [])) l.
Proof.
  induction l as [|[m s] l IH] using rev_ind.
  - cbn [fold_left]. unfold settings_mean. cbn [by_default by_name]. repeat split.
  - rewrite fold_left_app. cbn [fold_left]. destruct IH as (D & N & G). set (z := fold_left add_entry l (mkSettings None [])) in *. clearbody z. unfold settings_mean, add_entry. cbn [fst snd].
    rewrite !last_entry_app, first_names_app. cbn [fst snd].
    destruct (str_eqb m (lit "default")) eqn:E.
    + apply str_eqb_eq in E. subst m. cbn [by_default by_name orb]. assert (T : str_eqb (lit "default") (lit "default") = true) by (apply str_eqb_eq; reflexivity). rewrite T.
      split; [reflexivity|]. split; [rewrite app_nil_r; exact N|]. intros n Hn. rewrite last_entry_app. cbn [fst snd]. destruct (str_eqb n (lit "default")) eqn:X; [apply str_eqb_eq in X; contradiction|]. apply G, Hn.
    + assert (E' : str_eqb (lit "default") m = false) by (apply str_eqb_neq; apply str_eqb_neq in E; congruence).
      cbn [by_default by_name]. rewrite E'. split; [exact D|]. split.
      * rewrite dkeys_dset, N, first_names_mem, E. cbn [orb negb]. change (mem m []) with false. rewrite andb_true_r. cbn [orb]. destruct (mem m (map fst l)); [rewrite app_nil_r|]; reflexivity.
      * intros n Hn. rewrite last_entry_app, dget_dset. cbn [fst snd]. destruct (str_eqb n m); [reflexivity|apply G, Hn].
Qed.
Lemma first_names_nodup l : forall seen, NoDup (first_names seen l).
Proof.
  induction l as [|[k v] l IH]; intros seen; cbn [first_names]; [constructor|]. destruct (_ || _); [apply IH|]. constructor; [|apply IH].
  intros H. apply mem_In in H. rewrite first_names_mem in H. assert (C : mem k (k :: seen) = true) by (apply mem_In; left; reflexivity). rewrite C, orb_true_r in H. cbn [negb] in H. rewrite andb_false_r in H. discriminate.
Qed.
Lemma dict_ext {A} (d e : list (str * A)) : map fst d = map fst e -> NoDup (map fst d) -> (forall n, In n (map fst d) -> dget n d = dget n e) -> d = e.
Proof.
  revert e. induction d as [|[k v] d IH]; intros [|[k' v'] e] E H G; try discriminate; [reflexivity|]. injection E as <- E. inversion H as [|? ? Hn Hd]. subst.
  assert (T : str_eqb k k = true) by (apply str_eqb_eq; reflexivity).
  assert (v = v'). { specialize (G k (or_introl eq_refl)). cbn [dget] in G. rewrite T in G. congruence. } subst v'. f_equal. apply IH; [exact E|exact Hd|].
  intros n Hin. specialize (G n (or_intror Hin)). cbn [dget] in G. destruct (str_eqb n k) eqn:X; [|exact G]. apply str_eqb_eq in X. subst n. contradiction.
Qed.
Lemma settings_unique s s' l : settings_mean s l -> settings_mean s' l -> s = s'.
Proof.
  intros (D & N & G) (D' & N' & G'). destruct s as [d b], s' as [d' b']. cbn [by_default by_name] in *. f_equal; [congruence|].
  apply dict_ext; [congruence|rewrite N; apply first_names_nodup|]. intros n Hn. assert (n <> lit "default").
  { intros ->. rewrite N in Hn. apply mem_In in Hn. rewrite first_names_mem in Hn. assert (T : str_eqb (lit "default") (lit "default") = true) by (apply str_eqb_eq; reflexivity). rewrite T in Hn. cbn [orb negb] in Hn. rewrite andb_false_r in Hn. discriminate. }
  rewrite G, G' by assumption. reflexivity.
Qed.
Lemma ident_part_sound ts v rest : ident_part ts = Done v rest -> exists pre, ts = pre ++ rest /\ without_blanks pre [IIdent v].
Proof. unfold ident_part. destruct (significant ts) as [| | |t r] eqn:E; cbn [bind]; try discriminate. destruct t; try discriminate. intros [= <- <-]. apply significant_done, E. Qed.
Lemma list_or_sound fuel all ts o rest : list_or fuel all ts = Done o rest -> exists pre us, ts = pre ++ rest /\ without_blanks pre us /\ choice all us o.
Proof.
  unfold list_or. destruct (significant ts) as [| | |t r] eqn:E; cbn [bind]; try discriminate. destruct (significant_done _ _ _ E) as (p1 & -> & W1). destruct t; try discriminate.
  - destruct (string_list fuel false r) as [| | |l r2] eqn:El; cbn [bind]; try discriminate. intros [= <- <-]. destruct (string_list_sound _ _ _ _ _ El) as (p2 & u2 & -> & W2 & L & _).
    exists (p1 ++ p2), (ILSquare :: u2). split; [apply app_assoc|]. split; [apply (wb_app p1 p2 [ILSquare]); assumption|]. constructor. apply L. reflexivity.
  - destruct (str_eqb v all) eqn:Ev; [|discriminate]. apply str_eqb_eq in Ev. subst v. intros [= <- <-]. exists p1, [IIdent all]. split; [reflexivity|]. split; [exact W1|constructor].
Qed.
Lemma button_part_sound fuel ts b rest : button_part fuel ts = Done b rest -> exists pre us, ts = pre ++ rest /\ without_blanks pre us /\ button_written us b.
Proof.
  unfold button_part. destruct (significant ts) as [| | |t r] eqn:E; cbn [bind]; try discriminate. destruct (significant_done _ _ _ E) as (p1 & -> & W1). destruct t; try discriminate.
  - destruct (button_list fuel false (mkSettings None []) r) as [| | |s r2] eqn:El; cbn [bind]; try discriminate. intros [= <- <-]. destruct (button_list_sound _ _ _ _ _ _ El) as (p2 & u2 & l & -> & W2 & -> & L & _).
    exists (p1 ++ p2), (ILCurly :: u2). split; [apply app_assoc|]. split; [apply (wb_app p1 p2 [ILCurly]); assumption|]. apply (WrittenSettings u2 l); [apply L; reflexivity|apply settings_meaning].
  - destruct (str_eqb v (lit "no-btn")) eqn:E1; [|destruct (str_eqb v (lit "btn")) eqn:E2; [|destruct (str_eqb v (lit "default")) eqn:E3; [|discriminate]]];
      cbn [orb]; intros [= <- <-]; [apply str_eqb_eq in E1|apply str_eqb_eq in E2|apply str_eqb_eq in E3]; subst v; exists p1; eexists; (split; [reflexivity|]; split; [exact W1|constructor]).
  - intros [= <- <-]. exists p1, [IEof]. split; [reflexivity|]. split; [exact W1|constructor].
Qed.
Lemma parse_sound ts c rest : parse ts = Done c rest -> exists pre us, ts = pre ++ rest /\ without_blanks pre us /\ written us c.
Proof.
  unfold parse.
  destruct (ident_part ts) as [| | |n r1] eqn:E1; cbn [bind]; try discriminate.
  destruct (ident_part r1) as [| | |i r2] eqn:E2; cbn [bind]; try discriminate.
  destruct (list_or _ (lit "all-colors") r2) as [| | |cs r3] eqn:E3; cbn [bind]; try discriminate.
  destruct (list_or _ (lit "all-sizes") r3) as [| | |ss r4] eqn:E4; cbn [bind]; try discriminate.
  destruct (button_part _ r4) as [| | |b r5] eqn:E5; cbn [bind]; try discriminate. intros [= <- <-].
  destruct (ident_part_sound _ _ _ E1) as (p1 & -> & W1). destruct (ident_part_sound _ _ _ E2) as (p2 & -> & W2).
  destruct (list_or_sound _ _ _ _ _ E3) as (p3 & u3 & -> & W3 & C3). destruct (list_or_sound _ _ _ _ _ E4) as (p4 & u4 & -> & W4 & C4).
  destruct (button_part_sound _ _ _ _ E5) as (p5 & u5 & -> & W5 & C5).
  exists (p1 ++ p2 ++ p3 ++ p4 ++ p5), (IIdent n :: IIdent i :: u3 ++ u4 ++ u5). split; [rewrite <- !app_assoc; reflexivity|].
  split; [|constructor; assumption]. apply (wb_app p1 _ [IIdent n]); [exact W1|]. apply (wb_app p2 _ [IIdent i]); [exact W2|]. apply wb_app; [exact W3|]. apply wb_app; assumption.
Qed.

(** * completeness *)
(** split a stream along its significant tokens *)
Lemma wb_split ts (a b : list itoken) : without_blanks ts (a ++ b) -> exists p q, ts = p ++ q /\ without_blanks p a /\ without_blanks q b.
Proof.
  revert ts b. induction a as [|t a IH]; intros ts b H; [exists [], ts; repeat split; [constructor|exact H]|].
  cbn [app] in H. remember (t :: a ++ b) as l eqn:E. revert E. induction H as [|x ts us Hx H IHw|x ts us Hx H IHw]; intros E; [discriminate| |].
  - destruct (IHw E) as (p & q & -> & P & Q). exists (x :: p), q. split; [reflexivity|]. split; [apply WBBlank; assumption|exact Q].
  - injection E as -> ->. destruct (IH ts b H) as (p & q & -> & P & Q). exists (t :: p), q. split; [reflexivity|]. split; [apply WBKeep; assumption|exact Q].
Qed.
Lemma string_list_complete us l : listed us l -> forall ts fuel need, without_blanks ts us -> (length ts < fuel)%nat -> need = false ->
  exists r, without_blanks r [] /\ forall rest, string_list fuel need (ts ++ rest) = Done l (r ++ rest).
Proof.
  induction 1 as [|v|v us l H IH]; intros ts fuel need W Hf ->; (destruct fuel as [|k]; [lia|]).
  - destruct (significant_head _ _ _ W) as (p & r & -> & S & W1 & _). exists r. split; [exact W1|]. intros rest. cbn [string_list]. rewrite S. reflexivity.
  - destruct (significant_head _ _ _ W) as (p & r & -> & S & W1 & _). destruct (significant_head _ _ _ W1) as (p2 & r2 & -> & S2 & W2 & _).
    exists r2. split; [exact W2|]. intros rest. cbn [string_list]. rewrite S. cbn [bind].
    destruct k as [|k]; [exfalso; apply wb_length in W; rewrite !app_length in *; cbn [length] in *; lia|]. cbn [string_list]. rewrite S2. reflexivity.
  - destruct (significant_head _ _ _ W) as (p & r & -> & S & W1 & _). destruct (significant_head _ _ _ W1) as (p2 & r2 & -> & S2 & W2 & _).
    destruct k as [|k]; [exfalso; apply wb_length in W; rewrite !app_length in *; cbn [length] in *; lia|].
    destruct (IH r2 k false W2) as (r3 & W3 & S3); [|reflexivity|].
    { assert (p2 <> []) by (intros ->; specialize (S2 []); cbn [app] in S2; rewrite !app_nil_r in S2; destruct (significant_cases r2) as [X|(t' & rr & X & _ & L)]; rewrite X in S2; [discriminate|injection S2 as -> ->; lia]).
      assert (p <> []) by (intros ->; specialize (S []); cbn [app] in S; rewrite !app_nil_r in S; destruct (significant_cases (p2 ++ r2)) as [X|(t' & rr & X & _ & L)]; rewrite X in S; [discriminate|injection S as -> ->; lia]).
      destruct p; [congruence|]. destruct p2; [congruence|]. rewrite !app_length in Hf. cbn [length] in Hf. lia. }
    exists r3. split; [exact W3|]. intros rest. cbn [string_list]. rewrite S. cbn [bind]. rewrite S2. cbn [bind]. rewrite S3. reflexivity.
Qed.
Lemma wb_nil_significant r rest : without_blanks r [] -> significant (r ++ rest) = significant rest.
Proof. remember [] as l eqn:E. intros H. induction H; [reflexivity| |discriminate]. cbn [app significant]. apply blank_iff in H. rewrite H. auto. Qed.
Lemma string_list_blank k need r rest : without_blanks r [] -> string_list k need (r ++ rest) = string_list k need rest.
Proof. intros W. destruct k; [reflexivity|]. cbn [string_list]. rewrite (wb_nil_significant _ _ W). reflexivity. Qed.
Lemma button_list_blank k need acc r rest : without_blanks r [] -> button_list k need acc (r ++ rest) = button_list k need acc rest.
Proof. intros W. destruct k; [reflexivity|]. cbn [button_list]. rewrite (wb_nil_significant _ _ W). reflexivity. Qed.
Lemma head_shorter ts t us : without_blanks ts (t :: us) -> exists r, (forall rest, significant (ts ++ rest) = Done t (r ++ rest)) /\ without_blanks r us /\ (length r < length ts)%nat.
Proof.
  intros W. destruct (significant_head _ _ _ W) as (p & r & E & S & W1 & _). exists r. split; [exact S|]. split; [exact W1|].
  specialize (S []). rewrite !app_nil_r in S. destruct (significant_cases ts) as [X|(t' & rr & X & _ & L)]; rewrite X in S; [discriminate|]. injection S as -> ->. exact L.
Qed.
Lemma button_list_complete us l : button_entries us l -> forall ts fuel acc, without_blanks ts us -> (S (length ts) < fuel)%nat ->
  exists r, without_blanks r [] /\ forall rest, button_list fuel false acc (ts ++ rest) = Done (fold_left add_entry l acc) (r ++ rest).
Proof.
  induction 1 as [|name us a h d L|name us a h d vs l L H IH]; intros ts fuel acc W Hf; (destruct fuel as [|k]; [lia|]).
  - destruct (head_shorter _ _ _ W) as (r & S & W1 & _). exists r. split; [exact W1|]. intros rest. cbn [button_list]. rewrite S. reflexivity.
  - destruct (head_shorter _ _ _ W) as (r1 & S1 & W1 & L1). destruct (head_shorter _ _ _ W1) as (r2 & S2 & W2 & L2). destruct (head_shorter _ _ _ W2) as (r3 & S3 & W3 & L3).
    destruct (wb_split _ _ _ W3) as (p & q & -> & P & Q). rewrite app_length in L3. destruct (string_list_complete _ _ L p k false P ltac:(lia) eq_refl) as (r4 & W4 & S4).
    destruct (head_shorter _ _ _ Q) as (r5 & S5 & W5 & L5). exists r5. split; [exact W5|]. intros rest. cbn [button_list]. rewrite S1. cbn [bind]. rewrite S2. cbn [bind]. rewrite S3. cbn [bind].
    rewrite <- (app_assoc p q rest), S4. cbn [bind]. rewrite (button_list_blank _ _ _ _ _ W4). destruct k as [|k]; [lia|]. cbn [button_list]. rewrite S5. reflexivity.
  - destruct (head_shorter _ _ _ W) as (r1 & S1 & W1 & L1). destruct (head_shorter _ _ _ W1) as (r2 & S2 & W2 & L2). destruct (head_shorter _ _ _ W2) as (r3 & S3 & W3 & L3).
    destruct (wb_split _ _ _ W3) as (p & q & -> & P & Q). rewrite app_length in L3. destruct (string_list_complete _ _ L p k false P ltac:(lia) eq_refl) as (r4 & W4 & S4).
    destruct (head_shorter _ _ _ Q) as (r5 & S5 & W5 & L5). destruct k as [|k]; [lia|].
    destruct (IH r5 k (add_entry acc (name, mkSetting a h d)) W5 ltac:(lia)) as (r6 & W6 & S6).
    exists r6. split; [exact W6|]. intros rest. cbn [fold_left]. rewrite <- S6.
    change (button_list (S (S k)) false acc (ts ++ rest) = button_list k false (add_entry acc (name, mkSetting a h d)) (r5 ++ rest)).
    cbn [button_list]. rewrite S1. cbn [bind]. rewrite S2. cbn [bind]. rewrite S3. cbn [bind].
    rewrite <- (app_assoc p q rest), S4. cbn [bind]. rewrite (wb_nil_significant _ _ W4), S5. cbn [bind]. reflexivity.
Qed.
Lemma ident_part_complete ts v us : without_blanks ts (IIdent v :: us) -> exists r, without_blanks r us /\ (length r < length ts)%nat /\ forall rest, ident_part (ts ++ rest) = Done v (r ++ rest).
Proof. intros W. destruct (head_shorter _ _ _ W) as (r & S & W1 & L). exists r. split; [exact W1|]. split; [exact L|]. intros rest. unfold ident_part. rewrite S. reflexivity. Qed.
Lemma list_or_complete all cs o : choice all cs o -> forall ts fuel us, without_blanks ts (cs ++ us) -> (length ts <= fuel)%nat ->
  exists r, without_blanks r us /\ (length r < length ts)%nat /\ forall rest, list_or fuel all (ts ++ rest) = Done o (r ++ rest).
Proof.
  intros C ts fuel us W Hf. destruct C as [|cs l L].
  - cbn [app] in W. destruct (head_shorter _ _ _ W) as (r & S & W1 & L1). exists r. split; [exact W1|]. split; [exact L1|]. intros rest. unfold list_or. rewrite S. cbn [bind].
    assert (T : str_eqb all all = true) by (apply str_eqb_eq; reflexivity). rewrite T. reflexivity.
  - cbn [app] in W. destruct (head_shorter _ _ _ W) as (r & S & W1 & L1). destruct (wb_split _ _ _ W1) as (p & q & -> & P & Q). rewrite app_length in L1.
    destruct (string_list_complete _ _ L p fuel false P ltac:(lia) eq_refl) as (r2 & W2 & S2). exists (r2 ++ q). split; [apply (wb_app r2 q []); assumption|].
    assert (LL : (length r2 <= length p)%nat).
    { specialize (S2 []). apply string_list_sound in S2. destruct S2 as (pre & x & E & _). rewrite !app_nil_r in E. rewrite E, app_length. lia. }
    split; [rewrite app_length; lia|]. intros rest. unfold list_or. rewrite S. cbn [bind]. rewrite <- (app_assoc p q rest), S2, app_assoc. reflexivity.
Qed.
Lemma button_part_complete bs b : button_written bs b -> forall ts fuel, without_blanks ts bs -> (length ts < fuel)%nat ->
  exists r, without_blanks r [] /\ forall rest, button_part fuel (ts ++ rest) = Done b (r ++ rest).
Proof.
  intros C ts fuel W Hf. destruct C as [| | | |us l s B M].
  1-4: destruct (head_shorter _ _ _ W) as (r & S & W1 & L1); exists r; (split; [exact W1|]); intros rest; unfold button_part; rewrite S; reflexivity.
  destruct (head_shorter _ _ _ W) as (r & S & W1 & L1). destruct (button_list_complete _ _ B r fuel (mkSettings None []) W1 ltac:(lia)) as (r2 & W2 & S2).
  exists r2. split; [exact W2|]. intros rest. unfold button_part. rewrite S. cbn [bind]. rewrite S2. cbn [bind]. rewrite (settings_unique _ _ _ M (settings_meaning l)). reflexivity.
Qed.
Lemma parse_complete us c ts rest : written us c -> without_blanks ts us -> exists r, without_blanks r [] /\ parse (ts ++ rest) = Done c (r ++ rest).
Proof.
  intros C W. destruct C as [n i cs c ss s bs b C1 C2 C3].
  destruct (ident_part_complete _ _ _ W) as (r1 & W1 & L1 & S1). destruct (ident_part_complete _ _ _ W1) as (r2 & W2 & L2 & S2).
  set (k := S (length (ts ++ rest))). assert (K : (length ts < k)%nat) by (unfold k; rewrite app_length; lia).
  destruct (list_or_complete _ _ _ C1 r2 k _ W2 ltac:(lia)) as (r3 & W3 & L3 & S3).
  destruct (list_or_complete _ _ _ C2 r3 k _ W3 ltac:(lia)) as (r4 & W4 & L4 & S4).
  destruct (button_part_complete _ _ C3 r4 k W4 ltac:(lia)) as (r5 & W5 & S5).
  exists r5. split; [exact W5|]. unfold parse. fold k. rewrite S1. cbn [bind]. rewrite S2. cbn [bind]. rewrite S3. cbn [bind]. rewrite S4. cbn [bind]. rewrite S5. reflexivity.
Qed.

(** * the parser does not wait after the end, nor run out *)
Lemma significant_in ts : significant ts = Wait -> ~ In IEof ts.
Proof.
  induction ts as [|x ts IH]; cbn [significant]; [intros _ []|]. destruct (blank_token x) eqn:E; [|discriminate]. intros H [->|X]; [discriminate|exact (IH H X)].
Qed.
Lemma significant_rest ts t r : significant ts = Done t r -> In IEof ts -> t = IEof \/ In IEof r.
Proof.
  induction ts as [|x ts IH]; cbn [significant]; [discriminate|]. destruct (blank_token x) eqn:E.
  - intros H [->|X]; [discriminate|auto].
  - intros [= <- <-] [->|X]; auto.
Qed.
Lemma string_list_eof fuel : forall need ts, In IEof ts -> string_list fuel need ts <> Wait /\ forall l r, string_list fuel need ts = Done l r -> In IEof r.
Proof.
  induction fuel as [|k IH]; intros need ts H; cbn [string_list]; [split; discriminate|].
  destruct (significant ts) as [| | |t r] eqn:E; cbn [bind]; try (split; discriminate); [exfalso; exact (significant_in _ E H)|].
  destruct (significant_rest _ _ _ E H) as [->|X]; [destruct need; split; discriminate|].
  destruct need.
  - destruct t; try (split; discriminate); [split; [discriminate|]; intros l0 r0 [= <- <-]; exact X|]. apply IH, X.
  - destruct t; try (split; discriminate); [split; [discriminate|]; intros l0 r0 [= <- <-]; exact X|].
    destruct (IH true r X) as [A B]. destruct (string_list k true r) as [| | |l2 r2]; cbn [bind]; try (split; discriminate); [contradiction|].
    split; [discriminate|]. intros l0 r0 [= <- <-]. eapply B. reflexivity.
Qed.
Lemma button_list_eof fuel : forall need acc ts, In IEof ts -> button_list fuel need acc ts <> Wait.
Proof.
  induction fuel as [|k IH]; intros need acc ts H; cbn [button_list]; [discriminate|].
  destruct (significant ts) as [| | |t r] eqn:E; cbn [bind]; try discriminate; [exfalso; exact (significant_in _ E H)|].
  destruct (significant_rest _ _ _ E H) as [->|X]; [destruct need; discriminate|].
  destruct need; [destruct t; try discriminate; apply IH, X|]. destruct t; try discriminate.
  destruct (significant r) as [| | |t2 r2] eqn:E2; cbn [bind]; try discriminate; [exfalso; exact (significant_in _ E2 X)|].
  destruct (significant_rest _ _ _ E2 X) as [->|X2]; [discriminate|]. destruct t2; try discriminate.
  destruct (significant r2) as [| | |t3 r3] eqn:E3; cbn [bind]; try discriminate; [exfalso; exact (significant_in _ E3 X2)|].
  destruct (significant_rest _ _ _ E3 X2) as [->|X3]; [discriminate|]. destruct t3; try discriminate.
  destruct (string_list_eof k false r3 X3) as [A B]. destruct (string_list k false r3) as [| | |l r4]; cbn [bind]; try discriminate; [contradiction|].
  destruct l as [|a [|h [|d [|]]]]; try discriminate. apply IH. eapply B. reflexivity.
Qed.
Lemma parse_eof ts : In IEof ts -> parse ts <> Wait.
Proof.
  intros H. unfold parse. set (k := S (length ts)). clearbody k.
  assert (I : forall ts, In IEof ts -> ident_part ts <> Wait /\ forall v r, ident_part ts = Done v r -> In IEof r).
  { clear. intros ts H. unfold ident_part. destruct (significant ts) as [| | |t r] eqn:E; cbn [bind]; try (split; discriminate); [exfalso; exact (significant_in _ E H)|].
    destruct (significant_rest _ _ _ E H) as [->|X]; [split; discriminate|]. destruct t; try (split; discriminate). split; [discriminate|]. intros v0 r0 [= <- <-]. exact X. }
  assert (J : forall all ts, In IEof ts -> list_or k all ts <> Wait /\ forall v r, list_or k all ts = Done v r -> In IEof r).
  { clear. intros all ts H. unfold list_or. destruct (significant ts) as [| | |t r] eqn:E; cbn [bind]; try (split; discriminate); [exfalso; exact (significant_in _ E H)|].
    destruct (significant_rest _ _ _ E H) as [->|X]; [split; discriminate|]. destruct t; try (split; discriminate).
    - destruct (string_list_eof k false r X) as [A B]. destruct (string_list k false r) as [| | |l r4]; cbn [bind]; try (split; discriminate); [contradiction|]. split; [discriminate|]. intros v0 r0 [= <- <-]. eapply B. reflexivity.
    - destruct (str_eqb v all); [|split; discriminate]. split; [discriminate|]. intros v0 r0 [= <- <-]. exact X. }
  destruct (I ts H) as [A1 B1]. destruct (ident_part ts) as [| | |n r1]; cbn [bind]; try discriminate; [contradiction|]. specialize (B1 _ _ eq_refl).
  destruct (I r1 B1) as [A2 B2]. destruct (ident_part r1) as [| | |i r2]; cbn [bind]; try discriminate; [contradiction|]. specialize (B2 _ _ eq_refl).
  destruct (J (lit "all-colors") r2 B2) as [A3 B3]. destruct (list_or k (lit "all-colors") r2) as [| | |cs r3]; cbn [bind]; try discriminate; [contradiction|]. specialize (B3 _ _ eq_refl).
  destruct (J (lit "all-sizes") r3 B3) as [A4 B4]. destruct (list_or k (lit "all-sizes") r3) as [| | |ss r4]; cbn [bind]; try discriminate; [contradiction|]. specialize (B4 _ _ eq_refl).
  unfold button_part. destruct (significant r4) as [| | |t r] eqn:E; cbn [bind]; try discriminate; [exfalso; exact (significant_in _ E B4)|].
  destruct t; try discriminate.
  - destruct (significant_rest _ _ _ E B4) as [X|X]; [discriminate|]. pose proof (button_list_eof k false (mkSettings None []) r X) as A5.
    destruct (button_list k false (mkSettings None []) r); cbn [bind]; try discriminate. contradiction.
  - destruct (str_eqb v (lit "no-btn")); [discriminate|]. destruct (_ || _); discriminate.
Qed.
Lemma significant_shorter ts t r : significant ts = Done t r -> (length r < length ts)%nat.
Proof. intros E. destruct (significant_cases ts) as [X|(t' & rr & X & _ & L)]; rewrite X in E; [discriminate|]. injection E as -> ->. exact L. Qed.
Lemma significant_shape ts : significant ts <> Bad /\ significant ts <> Out.
Proof. destruct (significant_cases ts) as [X|(t' & rr & X & _ & L)]; rewrite X; split; discriminate. Qed.
Lemma string_list_in fuel : forall need ts, (length ts < fuel)%nat -> string_list fuel need ts <> Out /\ forall l r, string_list fuel need ts = Done l r -> (length r < length ts)%nat.
Proof.
  induction fuel as [|k IH]; intros need ts H; [lia|]. cbn [string_list].
  destruct (significant ts) as [| | |t r] eqn:E; cbn [bind]; try (split; discriminate); [exfalso; apply (significant_shape ts), E|].
  apply significant_shorter in E. destruct need.
  - destruct t; try (split; discriminate); [split; [discriminate|]; intros l0 r0 [= <- <-]; exact E|]. destruct (IH false r ltac:(lia)) as [A B]. split; [exact A|]. intros l r0 X. specialize (B _ _ X). lia.
  - destruct t; try (split; discriminate); [split; [discriminate|]; intros l0 r0 [= <- <-]; exact E|].
    destruct (IH true r ltac:(lia)) as [A B]. destruct (string_list k true r) as [| | |l2 r2]; cbn [bind]; try (split; discriminate); [contradiction|].
    split; [discriminate|]. intros l0 r0 [= <- <-]. specialize (B _ _ eq_refl). lia.
Qed.
Lemma button_list_in fuel : forall need acc ts, (length ts < fuel)%nat -> button_list fuel need acc ts <> Out.
Proof.
  induction fuel as [|k IH]; intros need acc ts H; [lia|]. cbn [button_list].
  destruct (significant ts) as [| | |t r] eqn:E; cbn [bind]; try discriminate; [exfalso; apply (significant_shape ts), E|].
  apply significant_shorter in E. destruct need; [destruct t; try discriminate; apply IH; lia|]. destruct t; try discriminate.
  destruct (significant r) as [| | |t2 r2] eqn:E2; cbn [bind]; try discriminate; [exfalso; apply (significant_shape r), E2|]. apply significant_shorter in E2. destruct t2; try discriminate.
  destruct (significant r2) as [| | |t3 r3] eqn:E3; cbn [bind]; try discriminate; [exfalso; apply (significant_shape r2), E3|]. apply significant_shorter in E3. destruct t3; try discriminate.
  destruct (string_list_in k false r3 ltac:(lia)) as [A B]. destruct (string_list k false r3) as [| | |l r4]; cbn [bind]; try discriminate; [contradiction|]. specialize (B _ _ eq_refl).
  destruct l as [|a [|h [|d [|]]]]; try discriminate. apply IH. lia.
Qed.
Lemma parse_in ts : parse ts <> Out.
Proof.
  unfold parse. set (k := S (length ts)).
  assert (I : forall ts, ident_part ts <> Out /\ forall v r, ident_part ts = Done v r -> (length r < length ts)%nat).
  { clear. intros ts. unfold ident_part. destruct (significant ts) as [| | |t r] eqn:E; cbn [bind]; try (split; discriminate); [exfalso; apply (significant_shape ts), E|].
    apply significant_shorter in E. destruct t; try (split; discriminate). split; [discriminate|]. intros v0 r0 [= <- <-]. exact E. }
  assert (J : forall all ts, (length ts < k)%nat -> list_or k all ts <> Out /\ forall v r, list_or k all ts = Done v r -> (length r < length ts)%nat).
  { clearbody k. clear. intros all ts Hk. unfold list_or. destruct (significant ts) as [| | |t r] eqn:E; cbn [bind]; try (split; discriminate); [exfalso; apply (significant_shape ts), E|].
    apply significant_shorter in E. destruct t; try (split; discriminate).
    - destruct (string_list_in k false r ltac:(lia)) as [A B]. destruct (string_list k false r) as [| | |l r4]; cbn [bind]; try (split; discriminate); [contradiction|]. split; [discriminate|]. intros v0 r0 [= <- <-]. specialize (B _ _ eq_refl). lia.
    - destruct (str_eqb v all); [|split; discriminate]. split; [discriminate|]. intros v0 r0 [= <- <-]. exact E. }
  assert (K : (length ts < k)%nat) by (unfold k; lia). clearbody k.
  destruct (I ts) as [A1 B1]. destruct (ident_part ts) as [| | |n r1]; cbn [bind]; try discriminate; [contradiction|]. specialize (B1 _ _ eq_refl).
  destruct (I r1) as [A2 B2]. destruct (ident_part r1) as [| | |i r2]; cbn [bind]; try discriminate; [contradiction|]. specialize (B2 _ _ eq_refl).
  destruct (J (lit "all-colors") r2 ltac:(lia)) as [A3 B3]. destruct (list_or k (lit "all-colors") r2) as [| | |cs r3]; cbn [bind]; try discriminate; [contradiction|]. specialize (B3 _ _ eq_refl).
  destruct (J (lit "all-sizes") r3 ltac:(lia)) as [A4 B4]. destruct (list_or k (lit "all-sizes") r3) as [| | |ss r4]; cbn [bind]; try discriminate; [contradiction|]. specialize (B4 _ _ eq_refl).
  unfold button_part. destruct (significant r4) as [| | |t r] eqn:E; cbn [bind]; try discriminate; [exfalso; apply (significant_shape r4), E|]. apply significant_shorter in E.
  destruct t; try discriminate.
  - pose proof (button_list_in k false (mkSettings None []) r ltac:(lia)) as A5. destruct (button_list k false (mkSettings None []) r); cbn [bind]; try discriminate. contradiction.
  - destruct (str_eqb v (lit "no-btn")); [discriminate|]. destruct (_ || _); discriminate.
Qed.
End Parse.

(** * the tokenizer *)
Section Tok.
Context {F : Type} (float_of : str -> option F) (high_digit : N -> bool) (int_high : str -> option Z).
Notation itokens := (itokens float_of high_digit int_high).
Notation inext := (inext float_of high_digit int_high).
Notation itokenize := (itokenize float_of high_digit int_high).
Notation command_of := (command_of float_of high_digit int_high).

Lemma line_spec s : forall v r, line s = (v, r) -> (length r <= length s)%nat.
Proof. induction s as [|c s IH]; cbn [line]; intros v r; [intros [= <- <-]; cbn; lia|]. destruct (c =? 10); [intros [= <- <-]; cbn [length]; lia|]. destruct (line s) as [a b] eqn:E. intros [= <- <-]. specialize (IH _ _ eq_refl). cbn [length]. lia. Qed.
Lemma app_shorter {A} (s p r : list A) : s = p ++ r -> p <> [] -> (length r < length s)%nat.
Proof. intros -> H. rewrite app_length. destruct p; [contradiction|]. cbn [length]. lia. Qed.
Lemma icon_number_ok s : numeric_start high_digit s -> match icon_number float_of high_digit int_high s with Ret (t, rest) => (length rest < length s)%nat /\ t <> IEof | Raise e => py e end.
Proof.
  intros H. unfold icon_number. destruct (number float_of high_digit int_high s) as [[[v f] rest]|e] eqn:E; [|eapply number_py, E].
  destruct (number_spec _ _ _ _ _ _ _ H E) as (p & Eq & Hp & _). split; [|discriminate]. eapply app_shorter; eassumption.
Qed.
Lemma icon_ident_ok fuel s : (length s < fuel)%nat -> (exists c t, s = c :: t /\ (ident_cp high_digit c = true \/ valid_escape s = true)) ->
  match icon_ident (F := F) high_digit fuel s with Ret (t, rest) => (length rest < length s)%nat /\ t <> IEof | Raise e => py e end.
Proof.
  intros Hl Hs. unfold icon_ident. destruct (ident_seq_total high_digit fuel s Hl) as (v & r & E). rewrite E. destruct (ident_seq_spec _ _ _ _ _ E) as (p & Eq & _).
  pose proof (spells_nonempty high_digit p v r s fuel Eq E Hs) as Hp. split; [eapply app_shorter; eassumption|]. unfold word. repeat destruct (str_eqb v _); discriminate.
Qed.
Lemma inext_ok fuel c r : (S (length r) < fuel)%nat -> match inext fuel c r with Ret (t, rest) => (length rest < S (length r))%nat /\ t <> IEof | Raise e => py e end.
Proof.
  intros Hf. unfold IconParse.inext.
  assert (HN : is_number high_digit (c :: r) = true -> match icon_number float_of high_digit int_high (c :: r) with Ret (t, rest) => (length rest < S (length r))%nat /\ t <> IEof | Raise e => py e end).
  { intros H. apply (icon_number_ok (c :: r)). left. exact H. }
  destruct (_ && match r with d :: _ => d =? 47 | [] => false end) eqn:Ec.
  { apply andb_prop in Ec. destruct Ec as [_ Ec]. destruct r as [|d r]; [discriminate|]. cbn [tl]. destruct (line r) as [v rest] eqn:El. apply line_spec in El. cbn [length]. split; [lia|discriminate]. }
  destruct (is_space c) eqn:Es.
  { destruct (span is_space (c :: r)) as [w rest] eqn:E. cbn [span] in E. rewrite Es in E. destruct (span is_space r) as [a b] eqn:E2. injection E as <- <-. destruct (span_spec _ _ _ _ E2) as (-> & _ & _). rewrite app_length. split; [lia|discriminate]. }
  destruct (ident_start c) eqn:Ei.
  { apply (icon_ident_ok fuel (c :: r)); [cbn [length]; lia|]. exists c, r. split; [reflexivity|]. left. unfold ident_cp. rewrite Ei. reflexivity. }
  destruct (is_quote c).
  { unfold icon_string. destruct (string_body_total c fuel r ltac:(lia)) as (b & v & rest & E). rewrite E. split; [|destruct b; discriminate].
    enough (length rest <= length r)%nat by lia. clear - E. revert r b v rest E. induction fuel as [|k IH]; intros r b v rest; cbn [string_body]; [discriminate|].
    destruct r as [|x r]; [intros [= <- <- <-]; lia|]. cbn [length]. destruct (x =? c); [intros [= <- <- <-]; lia|]. destruct (x =? 10); [intros [= <- <- <-]; cbn [length]; lia|].
    destruct (x =? 92).
    - destruct r as [|d r]; [intros E; apply IH in E; cbn [length] in *; lia|]. destruct (d =? 10); [intros E; apply IH in E; cbn [length]; lia|].
      destruct (escaped (d :: r)) as [y r3] eqn:Ee. destruct (escaped_cons _ _ _ _ Ee) as (p & Ep & Hp & _). apply app_shorter in Ep; [|exact Hp]. cbn [length] in Ep.
      destruct (string_body k c r3) as [[[b2 v2] rest2]|] eqn:E2; [|discriminate]. intros [= <- <- <-]. apply IH in E2. cbn [length]. lia.
    - destruct (string_body k c r) as [[[b2 v2] rest2]|] eqn:E2; [|discriminate]. intros [= <- <- <-]. apply IH in E2. lia. }
  assert (HL : forall t, t <> IEof -> match (Ret (t, r) : res (@itoken F * str)) with Ret (t, rest) => (length rest < S (length r))%nat /\ t <> IEof | Raise e => py e end) by (intros t Ht; split; [lia|exact Ht]).
  destruct (c =? 58); [apply HL; discriminate|]. destruct (c =? 44); [apply HL; discriminate|]. destruct (c =? 123); [apply HL; discriminate|]. destruct (c =? 125); [apply HL; discriminate|].
  destruct (c =? 91); [apply HL; discriminate|]. destruct (c =? 93); [apply HL; discriminate|].
  destruct (c =? 46); [destruct (is_number high_digit (c :: r)) eqn:En; [apply HN; reflexivity|apply HL; discriminate]|].
  destruct (is_dec high_digit c) eqn:Ed; [apply (icon_number_ok (c :: r)); right; exists c, r; auto|].
  destruct (c =? 43); [destruct (is_number high_digit (c :: r)) eqn:En; [apply HN; reflexivity|apply HL; discriminate]|].
  destruct (c =? 45) eqn:E45; [|apply HL; discriminate].
  destruct (is_number high_digit (c :: r)) eqn:En; [apply HN; reflexivity|].
  destruct (ident_sequence (c :: r)) as [[|]|e] eqn:Eq; [|apply HL; discriminate|eapply ident_sequence_py, Eq].
  apply (icon_ident_ok fuel (c :: r)); [cbn [length]; lia|]. apply (ident_sequence_start high_digit) in Eq. exact Eq.
Qed.
Lemma itokens_ok fuel : forall s, (S (length s) < fuel)%nat -> match itokens fuel s with (ts, None) => In IEof ts | (_, Some e) => py e end.
Proof.
  induction fuel as [|k IH]; intros s Hf; [lia|]. cbn [IconParse.itokens]. destruct s as [|c r]; [left; reflexivity|]. cbn [length] in Hf.
  pose proof (inext_ok (S k) c r ltac:(lia)) as H. destruct (inext (S k) c r) as [[t rest]|e]; [|exact H]. destruct H as [H _].
  specialize (IH rest ltac:(lia)). destruct (itokens k rest) as [l [e|]]; [exact IH|]. right. exact IH.
Qed.
(** every comment is either a command or an error *)
Lemma command_total text : (exists c, command_of text = Ret (Some c)) \/ command_of text = Raise ValueError \/ command_of text = Raise TypeError.
Proof.
  unfold IconParse.command_of, IconParse.itokenize. pose proof (itokens_ok (2 + length text) text ltac:(lia)) as H. destruct (itokens (2 + length text) text) as [ts o].
  pose proof (parse_in ts) as P. destruct (parse ts) as [| | |c rest] eqn:E; [|right; left; reflexivity|contradiction|left; eexists; reflexivity].
  destruct o as [e|]; [destruct H as [->| ->]; auto|]. exfalso. exact (parse_eof ts H E).
Qed.
Lemma command_sound text c : command_of text = Ret (Some c) -> exists pre rest us, fst (itokenize text) = pre ++ rest /\ without_blanks pre us /\ written us c.
Proof.
  unfold IconParse.command_of. destruct (itokenize text) as [ts o]. cbn [fst]. destruct (parse ts) as [| | |c0 rest] eqn:E; try discriminate; [destruct o; discriminate|].
  intros [= ->]. destruct (parse_sound _ _ _ E) as (pre & us & -> & W & C). exists pre, rest, us. auto.
Qed.
Lemma command_complete text c pre rest us : fst (itokenize text) = pre ++ rest -> without_blanks pre us -> written us c -> command_of text = Ret (Some c).
Proof.
  unfold IconParse.command_of. destruct (itokenize text) as [ts o]. cbn [fst]. intros -> W C. destruct (parse_complete us c pre rest C W) as (r & _ & E). rewrite E. reflexivity.
Qed.

(** * the tokens of a text that is written as described *)
Lemma name_char_cp v : Forall name_char v -> Forall (fun c => ident_cp high_digit c = true) v.
Proof. intros H. eapply Forall_impl; [|exact H]. intros c Hc. apply (ident_cp_iff high_digit). exact Hc. Qed.
Lemma plain_string q v rest fuel : (forall c, In c v -> c <> q /\ c <> 92 /\ c <> 10) -> (length v < fuel)%nat -> string_body fuel q (v ++ q :: rest) = Ret (true, v, rest).
Proof.
  revert fuel. induction v as [|c v IH]; intros fuel H Hf; (destruct fuel as [|k]; [cbn [length] in Hf; lia|]); cbn [app string_body].
  - rewrite N.eqb_refl. reflexivity.
  - destruct (H c (or_introl eq_refl)) as (H1 & H2 & H3). apply N.eqb_neq in H1, H2, H3. rewrite H1, H2, H3. rewrite IH; [reflexivity| |cbn [length] in Hf; lia]. intros x Hx. apply H. right. exact Hx.
Qed.
Lemma token_next t x rest : @token_text F t x -> ((exists v, t = IIdent v) -> stops rest) -> forall fuel, (length (x ++ rest) < fuel)%nat ->
  exists c r, x ++ rest = c :: r /\ inext fuel c r = Ret (t, rest).
Proof.
  intros H HS fuel Hf. destruct H as [v Hv (a & r & -> & Ha) N1 N2 N3|q v Hq Hv| | | | | |].
  - exists a, (r ++ rest). split; [reflexivity|]. unfold IconParse.inext.
    assert (E : ident_start a = true) by (apply ident_start_iff, Ha). rewrite E.
    assert (E2 : (a =? 47) = false) by (destruct (a =? 47) eqn:X; [apply N.eqb_eq in X; subst a; discriminate|reflexivity]).
    assert (E3 : is_space a = false) by (destruct (is_space a) eqn:X; [apply is_space_iff in X; destruct X as [->|[->| ->]]; discriminate|reflexivity]).
    rewrite E2, E3. cbn [andb]. unfold icon_ident. change (a :: r ++ rest) with ((a :: r) ++ rest). rewrite (@ident_seq_app F float_of high_digit int_high); [|exact Hv|apply HS; eexists; reflexivity|rewrite app_length in Hf; lia].
    unfold word. destruct (str_eqb (a :: r) (lit "true")) eqn:X1; [apply str_eqb_eq in X1; contradiction|]. destruct (str_eqb (a :: r) (lit "false")) eqn:X2; [apply str_eqb_eq in X2; contradiction|]. destruct (str_eqb (a :: r) (lit "null")) eqn:X3; [apply str_eqb_eq in X3; contradiction|]. reflexivity.
  - exists q, (v ++ q :: rest). split; [cbn [app]; rewrite <- app_assoc; reflexivity|].
    assert (E : inext fuel q (v ++ q :: rest) = icon_string fuel q (v ++ q :: rest)) by (destruct Hq as [-> | ->]; reflexivity). rewrite E.
    unfold icon_string. rewrite plain_string; [reflexivity|exact Hv|]. rewrite !app_length in Hf. cbn [length] in Hf. rewrite app_length in Hf. lia.
  - exists 123, rest. split; reflexivity.
  - exists 125, rest. split; reflexivity.
  - exists 91, rest. split; reflexivity.
  - exists 93, rest. split; reflexivity.
  - exists 44, rest. split; reflexivity.
  - exists 58, rest. split; reflexivity.
Qed.
Lemma line_app v w : (forall c, In c v -> c <> 10) -> line (v ++ 10 :: w) = (v, w).
Proof.
  induction v as [|c v IH]; intros H; cbn [app line]; [reflexivity|]. assert (E : (c =? 10) = false) by (apply N.eqb_neq, H; left; reflexivity). rewrite E, IH; [reflexivity|]. intros x Hx. apply H. right. exact Hx.
Qed.
(** more fuel gives the same tokens *)
Lemma gap_head w : gap w -> w = [] \/ (exists c w', w = c :: w' /\ space c /\ gap w') \/ exists v w', w = lit "//" ++ v ++ [10] ++ w' /\ (forall c, In c v -> c <> 10) /\ gap w'.
Proof. intros []; [left; reflexivity|right; left; eauto|right; right; eauto 6]. Qed.
Lemma gap_space_split w : gap w -> forall p s, w = p ++ s -> Forall (fun c => is_space c = true) p -> gap s.
Proof.
  induction 1 as [|c w Hc G IH|v w Hv G IH]; intros p s E Hp.
  - destruct p; [|discriminate]. cbn in E. subst s. constructor.
  - destruct p as [|x p]; [cbn in E; subst s; constructor; assumption|]. injection E as <- ->. inversion Hp. subst. eapply IH; [reflexivity|assumption].
  - destruct p as [|x p]; [cbn [app] in E; rewrite <- E; constructor; assumption|]. exfalso. inversion Hp as [|? ? Hx _]. subst.
    assert (x = 47) by (symmetry; exact (f_equal (hd 0) E)). subst x. discriminate Hx.
Qed.
Lemma gap_tokens n : forall w rest fuel, (length w <= n)%nat -> gap w -> (forall c r, rest = c :: r -> is_space c = false) -> (length (w ++ rest) < fuel)%nat ->
  exists bs k, without_blanks bs (@nil (@itoken F)) /\ (length rest < k)%nat /\ itokens fuel (w ++ rest) = (bs ++ fst (itokens k rest), snd (itokens k rest)).
Proof.
  induction n as [|n IH]; intros w rest fuel Hn G HR Hf.
  - destruct w; [|cbn [length] in Hn; lia]. cbn [app] in *. exists [], fuel. split; [constructor|]. split; [exact Hf|]. cbn [app]. destruct (itokens fuel rest). reflexivity.
  - destruct (gap_head w G) as [->|[(c & w' & -> & Hc & G')|(v & w' & -> & Hv & G')]].
    + cbn [app] in *. exists [], fuel. split; [constructor|]. split; [exact Hf|]. cbn [app]. destruct (itokens fuel rest). reflexivity.
    + destruct fuel as [|k]; [lia|]. cbn [app length] in *. cbn [IconParse.itokens].
      destruct (span is_space (w' ++ rest)) as [p s] eqn:Esp. destruct (span_spec _ _ _ _ Esp) as (Eps & Hp & Hs).
      assert (N : inext (S k) c (w' ++ rest) = Ret (IWhitespace (c :: p), s)).
      { unfold IconParse.inext. assert (E47 : (c =? 47) = false) by (destruct Hc as [->|[->| ->]]; reflexivity). rewrite E47. cbn [andb]. apply is_space_iff in Hc. rewrite Hc. cbn [span]. rewrite Hc, Esp. reflexivity. }
      rewrite N.
      (* the spaces read all belong to the gap *)
      assert (exists w2, w' = p ++ w2 /\ s = w2 ++ rest) as (w2 & Ew & Es).
      { clear - Eps Hp Hs HR. revert w' Eps. induction p as [|x p IHp]; intros w' E; [exists w'; auto|]. inversion Hp as [|? ? Hx Hp']. subst. destruct w' as [|y w'].
        - cbn [app] in E. exfalso. rewrite (HR _ _ E) in Hx. discriminate.
        - injection E as <- E. destruct (IHp Hp' w' E) as (w2 & -> & ->). exists w2. auto. }
      subst w' s. rewrite !app_length in *. assert (G2 : gap w2) by (eapply gap_space_split; [exact G'|reflexivity|exact Hp]).
      destruct (IH w2 rest k) as (bs & k2 & W & K & E); [lia|exact G2|exact HR|rewrite app_length; lia|].
      exists (IWhitespace (c :: p) :: bs), k2. split; [apply WBBlank; [left; eexists; reflexivity|exact W]|]. split; [exact K|]. rewrite E. reflexivity.
    + destruct fuel as [|k]; [lia|].
      assert (N : inext (S k) 47 (47 :: v ++ 10 :: w' ++ rest) = Ret (IComment v, w' ++ rest)).
      { unfold IconParse.inext. change (47 =? 47) with true. cbn [andb tl]. rewrite line_app by exact Hv. reflexivity. }
      change ((lit "//" ++ v ++ [10] ++ w') ++ rest) with (47 :: 47 :: (v ++ 10 :: w') ++ rest). replace ((v ++ 10 :: w') ++ rest) with (v ++ 10 :: w' ++ rest) by (rewrite <- app_assoc; reflexivity).
      cbn [IconParse.itokens]. rewrite N.
      change (length (lit "//" ++ v ++ [10%N] ++ w') <= S n)%nat with (S (S (length (v ++ (10%N) :: w'))) <= S n)%nat in Hn.
      change ((lit "//" ++ v ++ [10] ++ w') ++ rest) with (47 :: 47 :: (v ++ 10 :: w') ++ rest) in Hf. cbn [length] in Hf. rewrite !app_length in *. cbn [length] in *.
      destruct (IH w' rest k) as (bs & k2 & W & K & E); [lia|exact G'|exact HR|rewrite app_length; lia|].
      exists (IComment v :: bs), k2. split; [apply WBBlank; [right; eexists; reflexivity|exact W]|]. split; [exact K|]. rewrite E. reflexivity.
Qed.
Lemma token_head t x : @token_text F t x -> exists c r, x = c :: r /\ is_space c = false /\ ~ is_blank t.
Proof.
  intros [v Hv (a & r & -> & Ha) N1 N2 N3|q v Hq Hv| | | | | |]; do 2 eexists; (split; [reflexivity|]).
  - split; [|intros [[u X]|[u X]]; discriminate]. destruct (is_space a) eqn:X; [|reflexivity]. apply is_space_iff in X. apply ident_start_iff in Ha. destruct X as [->|[->| ->]]; discriminate.
  - split; [destruct Hq as [-> | ->]; reflexivity|intros [[u X]|[u X]]; discriminate].
  - split; [reflexivity|intros [[u X]|[u X]]; discriminate].
  - split; [reflexivity|intros [[u X]|[u X]]; discriminate].
  - split; [reflexivity|intros [[u X]|[u X]]; discriminate].
  - split; [reflexivity|intros [[u X]|[u X]]; discriminate].
  - split; [reflexivity|intros [[u X]|[u X]]; discriminate].
  - split; [reflexivity|intros [[u X]|[u X]]; discriminate].
Qed.
Lemma spaced_tokens ts text : @spaced F ts text -> forall fuel, (length text < fuel)%nat -> exists us, itokens fuel text = (us, None) /\ without_blanks us (ts ++ [IEof]).
Proof.
  induction 1 as [w G|w t x ts rest G T HS S IH]; intros fuel Hf.
  - destruct (gap_tokens (length w) w [] fuel ltac:(lia) G ltac:(discriminate)) as (bs & k & W & K & E); [rewrite app_nil_r; exact Hf|]. rewrite app_nil_r in E. rewrite E.
    destruct k as [|k]; [cbn [length] in K; lia|]. cbn [IconParse.itokens fst snd]. eexists. split; [reflexivity|]. apply (wb_app bs [IEof] [] [IEof]); [exact W|]. apply WBKeep; [intros [[u X]|[u X]]; discriminate|constructor].
  - destruct (token_head t x T) as (c & r & -> & Hsp & NB).
    destruct (gap_tokens (length w) w ((c :: r) ++ rest) fuel ltac:(lia) G) as (bs & k & W & K & E); [intros c0 r0 X; injection X as <- _; exact Hsp|exact Hf|]. rewrite E.
    destruct k as [|k]; [lia|]. destruct (token_next t (c :: r) rest T HS (Datatypes.S k) K) as (c' & r' & Eq & N). rewrite Eq. cbn [IconParse.itokens]. rewrite N.
    destruct (IH k) as (us & Eu & Wu); [rewrite app_length in K; cbn [length] in K; lia|]. rewrite Eu. cbn [fst snd].
    eexists. split; [reflexivity|]. cbn [app]. apply (wb_app bs (t :: us) [] (t :: ts ++ [IEof])); [exact W|]. apply WBKeep; assumption.
Qed.
Lemma command_text ts text c extra : @spaced F ts text -> written (F := F) extra c -> (exists more, ts ++ [IEof] = extra ++ more) -> command_of text = Ret (Some c).
Proof.
  intros S C [more E]. destruct (spaced_tokens ts text S (2 + length text) ltac:(lia)) as (us & Eu & W). rewrite E in W.
  destruct (wb_split _ _ _ W) as (p & q & -> & P & Q). eapply command_complete; [|exact P|exact C]. unfold IconParse.itokenize. rewrite Eu. reflexivity.
Qed.
End Tok.
