(** Image commands: parsing. *)
From Verif Require Import Base Graph Json PyStr PyPath PyNorm Builder Handlers Html HtmlSpec HtmlProofs ImgCommand IconManipSpec IconManipProofs ImgCommandSpec.
From Coq Require Import String ZArith NArith Bool List Lia ZifyN ZifyBool ZifyNat.
Import ListNotations.
Open Scope list_scope.
Open Scope N_scope.

(** * Words *)
Lemma word_spec s : exists a b, word s = (a, b) /\ s = a ++ b /\ Forall (fun c => py_space c = false) a /\ forall c r, b = c :: r -> py_space c = true.
Proof.
  induction s as [|c s (a & b & E & -> & A & B)]; [exists [], []; cbn; repeat split; [constructor|discriminate]|]. cbn [word]. destruct (py_space c) eqn:P.
  - exists [], (c :: a ++ b). repeat split; [constructor|]. intros x r X. injection X as <- _. exact P.
  - rewrite E. exists (c :: a), b. repeat split; [constructor; assumption|exact B].
Qed.
Lemma word_app a b : Forall (fun c => py_space c = false) a -> (forall c r, b = c :: r -> py_space c = true) -> word (a ++ b) = (a, b).
Proof.
  intros A B. induction A as [|c a P _ IH]; cbn [app]; [|cbn [word]; rewrite P, IH; reflexivity]. destruct b as [|c b]; [reflexivity|]. cbn [word]. rewrite (B _ _ eq_refl). reflexivity.
Qed.
Lemma blanks_lstrip a s : blanks a -> lstrip (a ++ s) = lstrip s.
Proof. induction 1 as [|c r H _ IH]; [reflexivity|]. cbn [app lstrip]. rewrite H. exact IH. Qed.
Lemma lstrip_blanks a : blanks a -> lstrip a = [].
Proof. intros A. rewrite <- (app_nil_r a), blanks_lstrip by exact A. reflexivity. Qed.
Lemma lstrip_nil s : lstrip s = [] -> blanks s.
Proof. destruct (lstrip_spec s) as (w & B & E & _). intros H. rewrite H, app_nil_r in E. rewrite E. exact B. Qed.
Lemma space_first b r : space b -> forall c x, b ++ r = c :: x -> py_space c = true.
Proof. intros [B N] c x E. destruct b as [|d b]; [contradiction|]. injection E as <- _. inversion B; assumption. Qed.
Lemma split_step n a w r : blanks a -> is_word w -> (forall c x, r = c :: x -> py_space c = true) -> split_words (S n) (a ++ w ++ r) = w :: split_words n r.
Proof.
  intros A [N W] R. cbn [split_words]. rewrite blanks_lstrip by exact A. destruct w as [|c w]; [contradiction|]. inversion W as [|? ? P W']; subst. cbn [app lstrip]. rewrite P. change (c :: w ++ r) with ((c :: w) ++ r). rewrite word_app by assumption. reflexivity.
Qed.
Lemma split_blanks n a : blanks a -> split_words n a = [].
Proof. intros A. destruct n; cbn [split_words]; rewrite lstrip_blanks by exact A; reflexivity. Qed.
Lemma split_cons n s w l : split_words (S n) s = w :: l -> exists a r, blanks a /\ is_word w /\ s = a ++ w ++ r /\ (forall c x, r = c :: x -> py_space c = true) /\ split_words n r = l.
Proof.
  cbn [split_words]. destruct (lstrip_spec s) as (a & A & E & H). destruct (lstrip s) as [|c t]; [discriminate|]. specialize (H _ _ eq_refl). destruct (word_spec (c :: t)) as (x & r & Ew & Ex & X & R). rewrite Ew. cbn [fst snd]. intros Q. injection Q as <- Q. exists a, r. split; [exact A|]. split; [|split; [rewrite <- Ex; exact E|split; [exact R|exact Q]]].
  split; [|exact X]. destruct x; [|discriminate]. cbn in Ex. exfalso. rewrite (R c t) in H by (symmetry; exact Ex). discriminate.
Qed.
Lemma split_nil n s : split_words n s = [] -> blanks s.
Proof. intros H. apply lstrip_nil. destruct n; cbn [split_words] in H; destruct (lstrip s); (reflexivity || discriminate). Qed.
Lemma split_zero s w l : split_words 0 s = w :: l -> exists a, blanks a /\ s = a ++ w /\ l = [] /\ forall c r, w = c :: r -> py_space c = false.
Proof. cbn [split_words]. destruct (lstrip_spec s) as (a & A & E & H). destruct (lstrip s) as [|c t]; [discriminate|]. intros Q. injection Q as <- <-. exists a. split; [exact A|]. split; [exact E|]. split; [reflexivity|exact H]. Qed.
Lemma split_rest a s : blanks a -> (forall c r, s = c :: r -> py_space c = false) -> s <> [] -> split_words 0 (a ++ s) = [s].
Proof. intros A H N. cbn [split_words]. rewrite blanks_lstrip by exact A. destruct s as [|c s]; [contradiction|]. cbn [lstrip]. rewrite (H _ _ eq_refl). reflexivity. Qed.

(** * Numbers *)
Lemma int_digits_sound s : forall last acc n, int_digits s last acc = Some n -> forall t, (if last then digits_text t acc else t = [] /\ acc = 0 \/ exists u, t = u ++ [95] /\ digits_text u acc) -> digits_text (t ++ s) n.
Proof.
  induction s as [|c s IH]; intros last acc n H t T; cbn [int_digits] in H.
  - destruct last; [|discriminate]. injection H as <-. rewrite app_nil_r. exact T.
  - destruct (is_digit c) eqn:D.
    + assert (R : 48 <= c <= 57) by (unfold is_digit in D; lia). replace (t ++ c :: s) with ((t ++ [c]) ++ s) by (rewrite <- app_assoc; reflexivity). apply (IH _ _ _ H). cbn. replace (acc * 10) with (10 * acc) by lia. destruct last; [apply DigitsMore; assumption|]. destruct T as [[-> ->]|(u & -> & U)]; [exact (DigitsOne c R)|]. rewrite <- app_assoc. exact (DigitsUnderscore u acc c U R).
    + destruct ((c =? 95) && last) eqn:E; [|discriminate]. apply andb_true_iff in E. destruct E as [E ->]. assert (c = 95) as -> by lia. replace (t ++ 95 :: s) with ((t ++ [95]) ++ s) by (rewrite <- app_assoc; reflexivity). apply (IH _ _ _ H). right. exists t. split; [reflexivity|exact T].
Qed.
Lemma int_digits_app s n : digits_text s n -> forall r, int_digits (s ++ r) false 0 = int_digits r true n.
Proof.
  induction 1 as [d D|s n d H IH D|s n d H IH D]; intros r.
  - cbn. replace (is_digit d) with true by (unfold is_digit; lia). reflexivity.
  - rewrite <- app_assoc, IH. cbn [app int_digits]. change (is_digit 95) with false. replace (is_digit d) with true by (unfold is_digit; lia). cbn [N.eqb andb Pos.eqb]. f_equal. lia.
  - rewrite <- app_assoc, IH. cbn [app int_digits]. change (is_digit 95) with false. replace (is_digit d) with true by (unfold is_digit; lia). cbn [N.eqb andb Pos.eqb]. f_equal. lia.
Qed.
Lemma int_digits_iff s n : int_digits s false 0 = Some n <-> digits_text s n.
Proof. split; [intros H; exact (int_digits_sound s false 0 n H [] (or_introl (conj eq_refl eq_refl)))|]. intros H. rewrite <- (app_nil_r s), (int_digits_app s n H). reflexivity. Qed.
Lemma digits_head s n : digits_text s n -> exists c r, s = c :: r /\ 48 <= c <= 57.
Proof. induction 1 as [d D|s n d H (c & r & -> & R) D|s n d H (c & r & -> & R) D]; [exists d, []|exists c, (r ++ [d])|exists c, (r ++ [95; d])]; split; (reflexivity || assumption). Qed.
Lemma ascii_iff s : forallb (fun c => c <? 128) s = true <-> ascii s.
Proof. unfold ascii. rewrite forallb_forall, Forall_forall. split; intros H c I; specialize (H c I); lia. Qed.
Lemma py_int_iff int_high s z : py_int int_high s = Some z <-> number int_high s z.
Proof.
  unfold py_int, number. destruct (forallb (fun c => c <? 128) s) eqn:A.
  - apply ascii_iff in A. split.
    + intros H. left. split; [exact A|]. destruct s as [|c r]; [discriminate|]. destruct (c =? 43) eqn:P; [assert (c = 43) as -> by lia|destruct (c =? 45) eqn:M; [assert (c = 45) as -> by lia|]].
      * destruct (int_digits r false 0) eqn:I; [|discriminate]. injection H as <-. apply int_digits_iff in I. exact (IntPlus _ _ I).
      * destruct (int_digits r false 0) eqn:I; [|discriminate]. injection H as <-. apply int_digits_iff in I. exact (IntMinus _ _ I).
      * destruct (int_digits (c :: r) false 0) eqn:I; [|discriminate]. injection H as <-. apply int_digits_iff in I. exact (IntPlain _ _ I).
    + intros [[_ H]|[H _]]; [|contradiction]. destruct H as [s n H|s n H|s n H].
      * destruct (digits_head s n H) as (c & r & -> & R). replace (c =? 43) with false by lia. replace (c =? 45) with false by lia. apply int_digits_iff in H. rewrite H. reflexivity.
      * cbn. apply int_digits_iff in H. rewrite H. reflexivity.
      * cbn. apply int_digits_iff in H. rewrite H. reflexivity.
  - assert (NA : ~ ascii s) by (intros X; apply ascii_iff in X; congruence). split; [intros H; right; split; assumption|]. intros [[H _]|[_ H]]; [contradiction|exact H].
Qed.

(** * Arguments *)
Lemma cut_brace_iff s a rest : cut_brace s = Some (a, rest) <-> exists inner, a = inner ++ [125] /\ ~ In 125 inner /\ s = inner ++ 125 :: rest.
Proof.
  revert a rest. induction s as [|c s IH]; intros a rest; cbn [cut_brace].
  - split; [discriminate|]. intros (i & _ & _ & E). destruct i; discriminate.
  - destruct (c =? 125) eqn:C.
    + assert (c = 125) as -> by lia. split; [intros H; injection H as <- <-; exists []; repeat split; intros []|]. intros (i & -> & N & E). destruct i as [|d i]; [injection E as <-; reflexivity|]. injection E as <- _. exfalso. apply N. left. reflexivity.
    + split.
      * destruct (cut_brace s) as [[a' b']|] eqn:E; [|discriminate]. intros H. injection H as <- <-. destruct (proj1 (IH a' b') eq_refl) as (i & -> & N & ->). exists (c :: i). repeat split. intros [X|X]; [lia|exact (N X)].
      * intros (i & -> & N & E). destruct i as [|d i]; [injection E as -> _; lia|]. injection E as <- E. rewrite (proj2 (IH (i ++ [125]) rest)); [reflexivity|]. exists i. repeat split; [|exact E]. intros X. apply N. right. exact X.
Qed.
Lemma json_object s v : json_load (123 :: s) = Some v -> exists l, v = JObj l.
Proof.
  unfold json_load. rewrite (eq_refl : skip_ws (123 :: s) = 123 :: s). set (k := (2 * List.length (123%N :: s))%nat). cbn [parse_value]. change (123 =? c_quote) with false. change (123 =? c_lbrace) with true. cbv iota. intros H.
  destruct (skip_ws s) as [|x r]; [discriminate|]. destruct (x =? c_rbrace); [destruct (skip_ws r); [injection H as <-; eauto|discriminate]|]. destruct (x =? c_quote); [|discriminate]. destruct (parse_pairs k r) as [[l rest]|]; [|discriminate]. destruct (skip_ws rest); [injection H as <-; eauto|discriminate].
Qed.
Lemma parse_crop_iff s d lazy : parse_crop s = Ret (d, lazy) <-> exists inner l rest, s = lit "{" ++ inner ++ lit "}" ++ rest /\ ~ In 125 inner /\ json_load (lit "{" ++ inner ++ lit "}") = Some (JObj l) /\ jnorm (JObj l) = JObj d /\ (lazy = true <-> forall r, rest <> 32 :: r).
Proof.
  change (lit "{") with [123]. change (lit "}") with [125]. cbn [app]. unfold parse_crop. split.
  - destruct s as [|b s]; [discriminate|]. destruct (b =? 123) eqn:B; cbn [negb]; [|discriminate]. assert (b = 123) as -> by lia. destruct (cut_brace s) as [[a rest]|] eqn:C; [|discriminate]. apply cut_brace_iff in C. destruct C as (inner & -> & N & ->).
    destruct (json_load (123 :: inner ++ [125])) as [v|] eqn:J; cbn [option_map]; [|discriminate]. destruct (json_object _ _ J) as (l & ->). cbn [jnorm]. intros H. injection H as <- <-. exists inner, l, rest. repeat split; try assumption.
    + destruct rest as [|c r]; [intros _ x X; discriminate|]. destruct (c =? 32) eqn:Q; [|intros _ x X; injection X as -> _; discriminate]. assert (c = 32) as -> by lia. intros X. apply str_eqb_eq in X. discriminate.
    + intros X. destruct rest as [|c r]; [reflexivity|]. destruct (c =? 32) eqn:Q; [|reflexivity]. assert (c = 32) as -> by lia. contradiction (X r eq_refl).
  - intros (inner & l & rest & -> & N & J & Jn & L). cbn [app]. change (negb (123 =? 123)) with false. cbv iota. rewrite (proj2 (cut_brace_iff _ (inner ++ [125]) rest)) by (exists inner; repeat split; exact N). rewrite J. cbn [option_map]. rewrite Jn. f_equal. f_equal.
    destruct rest as [|c r]; [symmetry; apply L; discriminate|]. destruct (c =? 32) eqn:Q.
    + assert (c = 32) as -> by lia. destruct lazy; [contradiction (proj1 L eq_refl r eq_refl)|]. destruct (str_eqb (32 :: r) (lit "lazy")) eqn:X; [apply str_eqb_eq in X; discriminate|reflexivity].
    + symmetry. apply L. intros x X. injection X as -> _. discriminate.
Qed.
Lemma parse_crop_err s : (exists x, parse_crop s = Ret x) \/ parse_crop s = Raise ValueError.
Proof. unfold parse_crop. repeat match goal with |- context [match ?x with _ => _ end] => destruct x end; eauto. Qed.

(** * Commands *)
Lemma blanks_first a : blanks a -> forall c x, a = c :: x -> py_space c = true. Proof. intros B c x ->. inversion B; assumption. Qed.
Lemma space_of r : (forall c x, r = c :: x -> py_space c = true) -> forall a w q, r = a ++ w ++ q -> blanks a -> is_word w -> space a.
Proof. intros R a w q -> A [N W]. split; [exact A|]. intros ->. destruct w as [|c w]; [contradiction|]. cbn [app] in R. pose proof (R _ _ eq_refl) as X. inversion W; congruence. Qed.
Lemma cover_word : is_word (lit "cover"). Proof. split; [discriminate|repeat constructor]. Qed.
Theorem parse_command_iff int_high args c : parse_command int_high args = Ret c <-> written int_high args c.
Proof.
  split.
  - unfold parse_command. destruct args as [|a0 args0]; [discriminate|]. set (args := a0 :: args0). clearbody args. intros H.
    destruct (split_words 4 args) as [|path [|wt more]] eqn:S4; [discriminate|discriminate|]. apply split_cons in S4. destruct S4 as (a & r1 & A & Pw & -> & R1 & S3). apply split_cons in S3. destruct S3 as (b & r2 & B & Ww & E1 & R2 & S2).
    destruct (py_int int_high wt) as [w|] eqn:Iw; [|discriminate]. apply py_int_iff in Iw. destruct more as [|ht more]; [discriminate|]. apply split_cons in S2. destruct S2 as (d & r3 & D & Hw & E2 & R3 & S1). destruct (py_int int_high ht) as [h|] eqn:Ih; [|discriminate]. apply py_int_iff in Ih.
    pose proof (space_of r1 R1 _ _ _ E1 B Ww) as Sb. pose proof (space_of r2 R2 _ _ _ E2 D Hw) as Sd. assert (SZ : sized int_high (a ++ path ++ b ++ wt ++ d ++ ht) path w h) by (constructor; assumption).
    subst r1 r2. replace (a ++ path ++ b ++ wt ++ d ++ ht ++ r3) with ((a ++ path ++ b ++ wt ++ d ++ ht) ++ r3) by (rewrite <- !app_assoc; reflexivity). set (s := a ++ path ++ b ++ wt ++ d ++ ht) in *. clearbody s.
    destruct more as [|crop more]; [apply split_nil in S1; injection H as <-; apply WrittenPlain; assumption|]. apply split_cons in S1. destruct S1 as (e & r4 & E & Cw & E3 & R4 & S0). pose proof (space_of r3 R3 _ _ _ E3 E Cw) as Se. subst r3.
    destruct (str_eqb crop (lit "cover")) eqn:Q; cbn [negb] in H; [|discriminate]. apply str_eqb_eq in Q. subst crop. destruct more as [|x more]; [apply split_nil in S0; injection H as <-; apply WrittenCover; assumption|].
    apply split_zero in S0. destruct S0 as (g & G & E4 & -> & X). destruct (parse_crop x) as [[l z]|] eqn:P; [|discriminate]. injection H as <-. apply parse_crop_iff in P. destruct P as (inner & l' & rest & -> & N & J & Jn & L). subst r4. apply (WrittenArgs _ s path w h e g inner l' l rest z); try assumption. split; [exact G|]. intros ->. pose proof (R4 _ _ eq_refl). discriminate.
  - intros W.
    assert (K : forall s path w h, sized int_high s path w h -> forall r, (forall c x, r = c :: x -> py_space c = true) -> parse_command int_high (s ++ r) = match split_words 1 r with [] => Ret {| c_path := path; c_width := w; c_height := h; c_args := []; c_lazy := true |} | crop :: more => if negb (str_eqb crop (lit "cover")) then Raise ValueError
              else match more with [] => Ret {| c_path := path; c_width := w; c_height := h; c_args := []; c_lazy := true |} | s :: _ => match parse_crop s with Raise e => Raise e | Ret (l, z) => Ret {| c_path := path; c_width := w; c_height := h; c_args := l; c_lazy := z |} end end end).
    { intros s path w h [a path' b wt w' d ht h' A P B Wt Nw D Ht Nh] r R. unfold parse_command. destruct ((a ++ path' ++ b ++ wt ++ d ++ ht) ++ r) as [|c0 q0] eqn:Q; [exfalso; destruct P as [P _]; destruct a; [destruct path'; [contradiction|discriminate]|discriminate]|]. rewrite <- Q. clear Q c0 q0. rewrite <- !app_assoc.
      rewrite split_step by (try assumption; intros ? ?; apply space_first; exact B). destruct B as [B B']. rewrite split_step by (try assumption; intros ? ?; apply space_first; exact D). destruct D as [D D']. apply py_int_iff in Nw, Nh. rewrite Nw, split_step by assumption. rewrite Nh. reflexivity. }
    destruct W as [s path w h z SZ Z|s path w h b z SZ B Z|s path w h b cc inner l d rest lazy SZ B C N J Jn L].
    + rewrite (K _ _ _ _ SZ) by (apply blanks_first; exact Z). rewrite split_blanks by exact Z. reflexivity.
    + rewrite (K _ _ _ _ SZ) by (apply space_first; exact B). destruct B as [B B']. rewrite split_step; [|exact B|exact cover_word|apply blanks_first; exact Z]. rewrite str_eqb_refl. cbn [negb]. rewrite split_blanks by exact Z. reflexivity.
    + rewrite (K _ _ _ _ SZ) by (apply space_first; exact B). destruct B as [B B']. rewrite split_step; [|exact B|exact cover_word|apply space_first; exact C]. rewrite str_eqb_refl. cbn [negb]. destruct C as [C C']. rewrite split_rest; [|exact C|intros x r X; injection X as <- _; reflexivity|discriminate].
      rewrite (proj2 (parse_crop_iff _ d lazy)); [reflexivity|]. exists inner, l, rest. repeat split; try assumption; apply L.
Qed.
Theorem parse_command_total int_high args : (exists c, parse_command int_high args = Ret c) \/ parse_command int_high args = Raise ValueError.
Proof.
  unfold parse_command. destruct args as [|a0 args0]; [auto|]. destruct (split_words 4 (a0 :: args0)) as [|p [|w more]]; auto. destruct (py_int int_high w); auto. destruct more as [|h more]; auto. destruct (py_int int_high h); auto. destruct more as [|crop more]; eauto. destruct (negb (str_eqb crop (lit "cover"))); auto. destruct more as [|s more]; eauto. destruct (parse_crop_err s) as [([l lz] & ->)| ->]; eauto.
Qed.

(** * Crop settings *)
Theorem crop_settings_iff args l : crop_settings args = Ret l <->
  (forall k v, In (k, v) args -> In k [lit "pre_top_crop"; lit "pre_left_crop"; lit "pre_right_crop"; lit "pre_bottom_crop"; lit "crop_left_percentage"; lit "crop_top_percentage"]) /\
  Forall2 (fun x (e : str * json) => snd e = match dget (fst e) args with Some v => v | None => snd x end /\ fst e = fst x)
    [(lit "pre_top_crop", JNum (lit "0")); (lit "pre_left_crop", JNum (lit "0")); (lit "pre_right_crop", JNum (lit "0")); (lit "pre_bottom_crop", JNum (lit "0"));
     (lit "crop_left_percentage", JNum (lit "0.5")); (lit "crop_top_percentage", JNum (lit "0.5"))] l.
Proof.
  unfold crop_settings. fold crop_names.
  assert (K : forallb (fun e : str * json => dmem (fst e) crop_names) args = true <-> (forall k v, In (k, v) args -> In k (map fst crop_names))).
  { rewrite forallb_forall. split; intros H.
    - intros k v I. specialize (H _ I). cbn [fst] in H. apply dmem_In in H. exact H.
    - intros [k v] I. cbn [fst]. apply dmem_In. exact (H k v I). }
  assert (M : forall names, map (fun e : str * json => (fst e, match dget (fst e) args with Some v => v | None => snd e end)) names = l <-> Forall2 (fun x (e : str * json) => snd e = match dget (fst e) args with Some v => v | None => snd x end /\ fst e = fst x) names l).
  { intros names. revert l. induction names as [|x names IH]; intros l; cbn [map]; split; intros H.
    - subst l. constructor.
    - inversion H. reflexivity.
    - subst l. constructor; [cbn [fst snd]; auto|apply IH; reflexivity].
    - inversion H as [|? [k v] ? l' [E1 E2] H']; subst. cbn [fst snd] in *. subst k v. f_equal. apply IH. exact H'. }
  change [lit "pre_top_crop"; lit "pre_left_crop"; lit "pre_right_crop"; lit "pre_bottom_crop"; lit "crop_left_percentage"; lit "crop_top_percentage"] with (map fst crop_names). rewrite <- K, <- M. destruct (forallb _ args); cbn [negb].
  - split; [intros H; split; [reflexivity|congruence]|intros [_ H]; congruence].
  - split; [discriminate|intros [H _]; discriminate].
Qed.
Theorem crop_settings_total args : (exists l, crop_settings args = Ret l) \/ crop_settings args = Raise TypeError.
Proof. unfold crop_settings. destruct (negb _); eauto. Qed.
