From Verif Require Import Base Graph PyPath PyNorm Css CssVersion Builder Handlers IconColor IconParse IconManip IconManipSpec.
From Coq Require Import String ZArith NArith Bool List Lia ZifyN ZifyBool ZifyNat.
Import ListNotations.
Open Scope list_scope.
Open Scope N_scope.

(** * choosing colours and sizes *)
Definition keep (known : str -> bool) (d : list (str * unit)) (x : str) := if known x then dset x tt d else d.
Lemma snoc_split {A} (l : list A) c p x q : l ++ [c] = p ++ x :: q -> (q = [] /\ x = c /\ p = l) \/ exists q', q = q' ++ [c] /\ l = p ++ x :: q'.
Proof.
  intros H. destruct q as [|y q].
  - left. apply app_inj_tail in H. destruct H as [-> ->]. auto.
  - right. destruct (exists_last (l := y :: q) ltac:(discriminate)) as (q' & z & E). rewrite E in *. exists q'.
    change (p ++ x :: q' ++ [z]) with (p ++ (x :: q') ++ [z]) in H. rewrite app_assoc in H. apply app_inj_tail in H. destruct H as [-> ->]. auto.
Qed.
Lemma pick_go known l : forall d don, NoDup (dkeys d) ->
  (forall x, In x (dkeys d) <-> In x don /\ known x = true) ->
  (forall p x q, dkeys d = p ++ x :: q -> exists a b, don = a ++ x :: b /\ ~ In x a /\ forall y, In y p -> In y a) ->
  let d' := fold_left (keep known) l d in
  NoDup (dkeys d') /\ (forall x, In x (dkeys d') <-> In x (don ++ l) /\ known x = true) /\
  (forall p x q, dkeys d' = p ++ x :: q -> exists a b, don ++ l = a ++ x :: b /\ ~ In x a /\ forall y, In y p -> In y a).
Proof.
  induction l as [|c l IH]; intros d don N M O; cbn [fold_left].
  - rewrite app_nil_r. auto.
  - change (c :: l) with ([c] ++ l). rewrite app_assoc. apply IH.
    + unfold keep. destruct (known c); [apply (dict_wf_dset c tt d), N|exact N].
    + intros x. unfold keep. rewrite in_app_iff. cbn [In]. destruct (known c) eqn:K.
      * rewrite In_dkeys_dset, M. split; [intros [->|[H1 H2]]; auto|intros [[H1|[->|[]]] H2]; auto].
      * rewrite M. split; [intros [H1 H2]; auto|intros [[H1|[<-|[]]] H2]; [auto|congruence]].
    + assert (O' : forall p x q, dkeys d = p ++ x :: q -> exists a b, don ++ [c] = a ++ x :: b /\ ~ In x a /\ forall y, In y p -> In y a).
      { intros p x q E. destruct (O _ _ _ E) as (a & b & -> & H1 & H2). exists a, (b ++ [c]). split; [rewrite <- app_assoc; reflexivity|auto]. }
      unfold keep. destruct (known c) eqn:K; [|exact O']. destruct (in_dec str_eq_dec c (dkeys d)) as [i|n]; [rewrite dkeys_dset_in by exact i; exact O'|].
      rewrite dkeys_dset_new by exact n. intros p x q E. apply snoc_split in E. destruct E as [(-> & -> & ->)|(q' & -> & E)]; [|exact (O' _ _ _ E)].
      exists don, []. split; [reflexivity|]. split; [intros H; apply n, M; auto|]. intros y Hy. apply M in Hy. apply Hy.
Qed.
Lemma pick_chosen (known : str -> bool) (P : str -> Prop) l : (forall x, known x = true <-> P x) -> chosen P l (pick known l).
Proof.
  intros K. destruct (pick_go known l [] []) as (A & B & C); [constructor|intros x; cbn; tauto|intros p x q E; destruct p; discriminate|].
  split; [exact A|]. split; [intros x; rewrite <- K; apply B|exact C].
Qed.
Lemma is_color_iff cfg c : is_color cfg c = true <-> known_color cfg c.
Proof.
  unfold is_color, known_color. rewrite dmem_In. unfold dkeys. rewrite in_map_iff. split; [intros ([k v] & <- & H); exists v; exact H|intros [v H]; exists (c, v); auto].
Qed.
Lemma bad_iff cfg b : is_setting_bad cfg b = false <-> good_button cfg b.
Proof. unfold is_setting_bad, good_button. rewrite <- !is_color_iff. destruct (is_color cfg (active b)), (is_color cfg (hover b)), (is_color cfg (disabled b)); cbn; intuition discriminate. Qed.

Lemma all_good_filter cfg l : (forall n b, In (n, b) l -> good_button cfg b) <-> filter (fun e : str * setting => is_setting_bad cfg (snd e)) l = [].
Proof.
  induction l as [|[n b] l IH]; cbn [filter snd]; [split; [reflexivity|intros _ ? ? []]|]. destruct (is_setting_bad cfg b) eqn:E.
  - split; [intros H; exfalso; specialize (H n b (or_introl eq_refl)); apply bad_iff in H; congruence|discriminate].
  - rewrite <- IH. split; [intros H n0 b0 X; apply (H n0); right; exact X|]. intros H n0 b0 [[= <- <-]|X]; [apply bad_iff, E|apply (H n0), X].
Qed.
(** the request of a command *)
Lemma wanted_colors_ok cfg c : wanted_colors cfg c (match colors c with Some l => pick (is_color cfg) l | None => map fst (color_map cfg) end).
Proof. unfold wanted_colors. destruct (colors c); [apply pick_chosen; intros; apply is_color_iff|reflexivity]. Qed.
Lemma wanted_sizes_ok cfg c : wanted_sizes cfg c (match sizes c with Some l => pick (is_size cfg) l | None => icon_sizes cfg end).
Proof. unfold wanted_sizes. destruct (sizes c); [apply pick_chosen; intros; unfold is_size; apply mem_In|reflexivity]. Qed.
Lemma resolve_fields cfg c r : resolve cfg c = Ret (Some r) ->
  known_color cfg (initial c) /\ r_name r = icon c /\ r_initial r = initial c /\ r_colors r <> [] /\ r_sizes r <> [] /\ wanted_colors cfg c (r_colors r) /\ wanted_sizes cfg c (r_sizes r).
Proof.
  unfold resolve. destruct (is_color cfg (initial c)) eqn:E; [|discriminate]. apply is_color_iff in E. cbn [negb].
  pose proof (wanted_colors_ok cfg c) as WC. pose proof (wanted_sizes_ok cfg c) as WS.
  set (cs := match colors c with Some l => pick (is_color cfg) l | None => map fst (color_map cfg) end) in *. set (ss := match sizes c with Some l => pick (is_size cfg) l | None => icon_sizes cfg end) in *. clearbody cs ss.
  destruct cs as [|c1 cs]; [discriminate|]. destruct ss as [|s1 ss]; [discriminate|].
  destruct (match btn c with NoButton => None | DefaultButton => default_buttons cfg | Buttons s => Some s end) as [s|].
  - destruct (resolve_buttons cfg s); [|discriminate]. intros [= <-]. cbn. repeat split; auto; discriminate.
  - intros [= <-]. cbn. repeat split; auto; discriminate.
Qed.
(** nothing is generated for a command whose colour is unknown, or without known colours or sizes *)
Lemma resolve_nothing cfg c : resolve cfg c = Ret None <-> ~ known_color cfg (initial c) \/ wanted_colors cfg c [] \/ wanted_sizes cfg c [].
Proof.
  assert (U : forall P l a b, chosen P l a -> chosen P l b -> a = [] -> b = []).
  { intros P l a b (_ & A & _) (_ & B & _) ->. destruct b as [|x b]; [reflexivity|]. exfalso. apply (A x), B. left. reflexivity. }
  assert (UC : forall a, wanted_colors cfg c a -> wanted_colors cfg c [] -> a = []).
  { intros a Ha H0. unfold wanted_colors in *. destruct (colors c); [eapply U; [exact H0|exact Ha|reflexivity]|congruence]. }
  assert (US : forall a, wanted_sizes cfg c a -> wanted_sizes cfg c [] -> a = []).
  { intros a Ha H0. unfold wanted_sizes in *. destruct (sizes c); [eapply U; [exact H0|exact Ha|reflexivity]|congruence]. }
  unfold resolve. destruct (is_color cfg (initial c)) eqn:E; cbn [negb].
  2: { split; [intros _; left; rewrite <- is_color_iff; congruence|reflexivity]. }
  apply is_color_iff in E.
  pose proof (wanted_colors_ok cfg c) as WC. pose proof (wanted_sizes_ok cfg c) as WS.
  set (cs := match colors c with Some l => pick (is_color cfg) l | None => map fst (color_map cfg) end) in *. set (ss := match sizes c with Some l => pick (is_size cfg) l | None => icon_sizes cfg end) in *. clearbody cs ss.
  destruct cs as [|c1 cs]; [split; auto|]. destruct ss as [|s1 ss]; [split; auto|].
  split.
  - destruct (match btn c with NoButton => None | DefaultButton => default_buttons cfg | Buttons s => Some s end) as [s|]; [destruct (resolve_buttons cfg s)|]; discriminate.
  - intros [H|[H|H]]; [contradiction|apply UC in WC; [discriminate|exact H]|apply US in WS; [discriminate|exact H]].
Qed.
(** with known colours the named buttons are those asked for; a plain button with unknown colours is left out *)
Lemma resolve_buttons_good cfg c r : resolve cfg c = Ret (Some r) ->
  match asked cfg (btn c) with
  | None => r_buttons r = None
  | Some s => (forall n b, In (n, b) (by_name s) -> good_button cfg b) ->
      exists plain, r_buttons r = Some (mkButtons plain (named_ones (by_name s))) /\ forall b, plain = Some b <-> by_default s = Some b /\ good_button cfg b
  end.
Proof.
  unfold resolve, asked. destruct (is_color cfg (initial c)); [|discriminate]. cbn [negb].
  destruct (match colors c with Some l => pick (is_color cfg) l | None => map fst (color_map cfg) end) as [|c1 cs]; [discriminate|].
  destruct (match sizes c with Some l => pick (is_size cfg) l | None => icon_sizes cfg end) as [|s1 ss]; [discriminate|].
  destruct (match btn c with NoButton => None | DefaultButton => default_buttons cfg | Buttons s => Some s end) as [s|].
  - unfold resolve_buttons. intros H G. apply all_good_filter in G. rewrite G in H. cbn [map] in H. injection H as <-. cbn [r_buttons]. eexists. split; [reflexivity|].
    intros b. destruct (by_default s) as [d|]; [|split; [discriminate|intros [X _]; discriminate]]. destruct (is_setting_bad cfg d) eqn:B.
    + split; [discriminate|]. intros [[= ->] G2]. apply bad_iff in G2. congruence.
    + split; [intros [= <-]; split; [reflexivity|apply bad_iff, B]|intros [[= ->] _]; reflexivity].
  - intros [= <-]. reflexivity.
Qed.
(** and the command never fails then *)
Lemma resolve_total cfg c : (forall s, asked cfg (btn c) = Some s -> forall n b, In (n, b) (by_name s) -> good_button cfg b) -> exists o, resolve cfg c = Ret o.
Proof.
  intros G. unfold resolve. destruct (negb _); [eexists; reflexivity|].
  destruct (match colors c with Some l => pick (is_color cfg) l | None => map fst (color_map cfg) end) as [|c1 cs]; [eexists; reflexivity|].
  destruct (match sizes c with Some l => pick (is_size cfg) l | None => icon_sizes cfg end) as [|s1 ss]; [eexists; reflexivity|].
  unfold asked in G. destruct (match btn c with NoButton => None | DefaultButton => default_buttons cfg | Buttons s => Some s end) as [s|]; [|eexists; reflexivity].
  unfold resolve_buttons. specialize (G s eq_refl). apply all_good_filter in G. rewrite G. eexists. reflexivity.
Qed.

(** * the comment *)
Lemma lstrip_app w s : blanks w -> (forall c r, s = c :: r -> py_space c = false) -> lstrip (w ++ s) = s.
Proof.
  intros W S. induction W as [|c w Hc W IH]; cbn [app lstrip]; [|rewrite Hc; exact IH]. destruct s as [|c r]; [reflexivity|]. cbn [lstrip]. rewrite (S _ _ eq_refl). reflexivity.
Qed.
Lemma lstrip_spec s : exists w, blanks w /\ s = w ++ lstrip s /\ forall c r, lstrip s = c :: r -> py_space c = false.
Proof.
  induction s as [|c s (w & W & E & N)]; [exists []; repeat split; [constructor|discriminate]|]. cbn [lstrip]. destruct (py_space c) eqn:P.
  - exists (c :: w). split; [constructor; assumption|]. split; [cbn [app]; rewrite <- E; reflexivity|exact N].
  - exists []. split; [constructor|]. split; [reflexivity|]. intros x r [= <- <-]. exact P.
Qed.
Lemma after_iff w s r : after w s = Some r <-> s = w ++ r.
Proof.
  unfold after. destruct (starts_with w s) eqn:E.
  - apply starts_with_iff in E. destruct E as [t ->]. rewrite skipn_app, skipn_all, PeanoNat.Nat.sub_diag. cbn [app skipn]. split; [intros [= ->]; reflexivity|intros H; apply app_inv_head in H; rewrite H; reflexivity].
  - split; [discriminate|]. intros ->. assert (X : starts_with w (w ++ r) = true) by (apply starts_with_iff; exists r; reflexivity). congruence.
Qed.
Lemma after_space_iff s r : after_space s = Some r <-> exists w, blanks w /\ w <> [] /\ s = w ++ r /\ forall c t, r = c :: t -> py_space c = false.
Proof.
  unfold after_space. split.
  - destruct s as [|c s]; [discriminate|]. destruct (py_space c) eqn:P; [|discriminate]. intros [= <-]. destruct (lstrip_spec s) as (w & W & E & N). exists (c :: w). split; [constructor; assumption|]. split; [discriminate|]. split; [cbn [app]; rewrite <- E; reflexivity|exact N].
  - intros (w & W & N & -> & S). destruct W as [|c w Hc W]; [contradiction|]. cbn [app]. rewrite Hc, lstrip_app by assumption. reflexivity.
Qed.
Lemma obind_some {A B} (a : option A) (k : A -> option B) b : obind a k = Some b <-> exists x, a = Some x /\ k x = Some b.
Proof. destruct a; cbn; [split; [eauto|intros (x & [= <-] & H); exact H]|split; [discriminate|intros (x & [=] & _)]]. Qed.
Lemma after_lstrip_iff c k s r : py_space c = false -> after (c :: k) (lstrip s) = Some r <-> exists w, blanks w /\ s = w ++ (c :: k) ++ r.
Proof.
  intros C. rewrite after_iff. split.
  - intros H. destruct (lstrip_spec s) as (w & W & E & _). exists w. split; [exact W|]. congruence.
  - intros (w & W & ->). apply lstrip_app; [exact W|]. cbn. intros x t [= <- _]. exact C.
Qed.
Lemma args_text_iff v a : args_text v = Some a <-> icon_comment v a.
Proof.
  unfold args_text, icon_comment. rewrite obind_some. split.
  - intros (s1 & H1 & H). apply (after_lstrip_iff 33 []) in H1; [|reflexivity]. destruct H1 as (w1 & W1 & ->).
    apply obind_some in H. destruct H as (s2 & H2 & H). apply (after_lstrip_iff 80 (lit "REPROCESSOR")) in H2; [|reflexivity]. destruct H2 as (w2 & W2 & ->).
    apply obind_some in H. destruct H as (s3 & H3 & H). apply (after_lstrip_iff 58 []) in H3; [|reflexivity]. destruct H3 as (w3 & W3 & ->).
    apply obind_some in H. destruct H as (s4 & H4 & H). apply after_space_iff in H4. destruct H4 as (w4 & W4 & N4 & -> & _).
    apply obind_some in H. destruct H as (s5 & H5 & H). apply after_iff in H5. subst s4. apply after_space_iff in H. destruct H as (w5 & W5 & N5 & -> & N).
    exists w1, w2, w3, w4, w5. repeat (split; [assumption|]). reflexivity.
  - intros (w1 & w2 & w3 & w4 & w5 & W1 & W2 & W3 & W4 & W5 & N4 & N5 & N & ->).
    eexists. split; [apply (after_lstrip_iff 33 []); [reflexivity|]; exists w1; split; [exact W1|reflexivity]|].
    apply obind_some. eexists. split; [apply (after_lstrip_iff 80 (lit "REPROCESSOR")); [reflexivity|]; exists w2; split; [exact W2|reflexivity]|].
    apply obind_some. eexists. split; [apply (after_lstrip_iff 58 []); [reflexivity|]; exists w3; split; [exact W3|reflexivity]|].
    apply obind_some. eexists. split; [apply after_space_iff; exists w4; repeat (split; [eassumption|]); split; [reflexivity|intros c t [= <- _]; reflexivity]|].
    apply obind_some. eexists. split; [apply after_iff; reflexivity|]. apply after_space_iff. exists w5. auto.
Qed.

(** * the text of the rules *)
Section Text.
Context {F : Type} (float_str : F -> str).
Notation serialize_many := (serialize_many float_str).
Lemma auto_quote_plain v : plain_text v -> auto_quote v = lit """" ++ v ++ lit """".
Proof.
  intros H. unfold auto_quote. assert (E : existsb (N.eqb 34) v = false).
  { induction H as [|c v (_ & Hc & _) H IH]; [reflexivity|]. cbn [existsb]. rewrite IH. apply N.eqb_neq in Hc. rewrite N.eqb_sym, Hc. reflexivity. }
  rewrite E. cbn [negb]. unfold serialize_string. change (lit """") with [34]. f_equal. f_equal. clear E.
  induction H as [|c v (Hr & H1 & H2) H IH]; [reflexivity|]. cbn [flat_map]. rewrite IH. change (c :: v) with ([c] ++ v). f_equal.
  unfold serialize_char. cbn [existsb app]. assert (E1 : (c =? 34) = false) by (apply N.eqb_neq, H1). assert (E2 : (c =? 92) = false) by (apply N.eqb_neq, H2). rewrite E1, E2. cbn [orb].
  unfold special. repeat match goal with |- context [c =? ?k] => assert (c =? k = false) as -> by lia end. cbn [orb].
  assert ((c <=? 8) = false) as -> by lia. assert ((127 <=? c) = false) as -> by lia. assert ((14 <=? c) && (c <=? 31) = false) as -> by lia. reflexivity.
Qed.
Lemma plain_lit s : forallb (fun c => (32 <=? c) && (c <=? 126) && negb (c =? 34) && negb (c =? 92)) s = true -> plain_text s.
Proof. intros H. rewrite forallb_forall in H. apply Forall_forall. intros c Hc. specialize (H c Hc). unfold plain_char. lia. Qed.
Lemma web_quote name color : plain_text name -> plain_text color -> auto_quote (web_path name color) = lit """/img/icons/" ++ name ++ lit "/" ++ color ++ lit ".svg""".
Proof.
  intros A B. rewrite auto_quote_plain. { unfold web_path. rewrite <- !app_assoc. reflexivity. }
  unfold web_path. apply Forall_app. split; [apply plain_lit; reflexivity|]. apply Forall_app. split; [exact A|]. apply Forall_app. split; [apply plain_lit; reflexivity|]. apply Forall_app. split; [exact B|apply plain_lit; reflexivity].
Qed.
Lemma icon_rule_text name size color : plain_text name -> plain_text color -> serialize_many (icon_rule name size color) = icon_css name size color.
Proof.
  intros A B. unfold serialize_many, icon_rule. cbn [flat_map serialize]. rewrite web_quote by assumption.
  unfold icon_css, rule, box, image. cbn [flat_map]. rewrite <- !app_assoc. reflexivity.
Qed.
Lemma button_rules_text name size suffix b : plain_text name -> (forall c, In c (button_colors b) -> plain_text c) ->
  serialize_many (button_rules name size suffix b) = flat_map (fun x => newline ++ newline ++ x) (button_css name size suffix b).
Proof.
  intros A B. unfold serialize_many, button_rules. cbn [flat_map serialize].
  rewrite (web_quote name (active b)) by (auto; apply B; left; reflexivity). rewrite (web_quote name (hover b)) by (auto; apply B; right; left; reflexivity). rewrite (web_quote name (disabled b)) by (auto; apply B; right; right; left; reflexivity).
  unfold button_css, rule, box, image. cbn [flat_map]. rewrite <- !app_assoc. reflexivity.
Qed.
End Text.

Section Rules.
Context {F : Type} (float_str : F -> str).
Notation serialize_many := (serialize_many float_str).
Lemma sm_app a b : serialize_many (a ++ b) = serialize_many a ++ serialize_many b.
Proof. unfold Css.serialize_many. apply flat_map_app. Qed.
Definition add_rule (name : str) (out : list (@token F)) (sc : str * str) : list token :=
  (match out with [] => [] | _ => out ++ [TWhitespace [10; 10]] end) ++ icon_rule name (fst sc) (snd sc).
Lemma icon_rules_text name l : plain_text name -> (forall sc, In sc l -> plain_text (snd sc)) -> forall out, out <> [] ->
  serialize_many (fold_left (add_rule name) l out) = serialize_many out ++ flat_map (fun sc => newline ++ newline ++ icon_css name (fst sc) (snd sc)) l.
Proof.
  intros A. induction l as [|[s c] l IH]; intros B out N; cbn [fold_left flat_map]; [rewrite app_nil_r; reflexivity|].
  destruct out as [|t out]; [contradiction|]. rewrite IH.
  - unfold add_rule. rewrite !sm_app, icon_rule_text; [|exact A|apply (B (s, c)); left; reflexivity]. cbn [fst snd]. rewrite <- !app_assoc. reflexivity.
  - intros sc H. apply B. right. exact H.
  - unfold add_rule. intros X. apply app_eq_nil in X. destruct X as [_ X]. discriminate X.
Qed.
Lemma prod_map {A} (f : str -> str -> A) (a b : list str) : flat_map (fun x => map (f x) b) a = map (fun xy => f (fst xy) (snd xy)) (list_prod a b).
Proof. induction a as [|x a IH]; cbn [flat_map list_prod]; [reflexivity|]. rewrite map_app, map_map, IH. reflexivity. Qed.
Lemma separated_app a b : a <> [] -> separated (a ++ b) = separated a ++ flat_map (fun x => newline ++ newline ++ x) b.
Proof. destruct a as [|x a]; [contradiction|]. intros _. cbn [app separated]. rewrite flat_map_app, app_assoc. reflexivity. Qed.
Lemma flat_map_flat {A B C} (f : B -> list C) (g : A -> list B) l : flat_map f (flat_map g l) = flat_map (fun x => flat_map f (g x)) l.
Proof. induction l as [|x l IH]; cbn [flat_map]; [reflexivity|]. rewrite flat_map_app, IH. reflexivity. Qed.
Lemma named_text name size named : plain_text name -> (forall n b, In (n, b) named -> forall c, In c (button_colors b) -> plain_text c) ->
  exists ts, named_rules name size (named_ones named) = Ret ts /\ serialize_many ts = flat_map (fun x => newline ++ newline ++ x) (flat_map (fun nb => button_css name size (lit "-" ++ fst nb) (snd nb)) named).
Proof.
  intros A. induction named as [|[n b] l IH]; intros B; [exists []; split; reflexivity|].
  destruct IH as (ts & E & T); [intros n0 b0 H; apply (B n0); right; exact H|]. cbn [named_ones map fst snd named_rules]. fold (named_ones l). rewrite E. eexists. split; [reflexivity|].
  rewrite sm_app, button_rules_text; [|exact A|apply (B n); left; reflexivity]. rewrite T. cbn [flat_map fst snd]. rewrite flat_map_app. reflexivity.
Qed.
Lemma buttons_text name plain named sizes : plain_text name -> (forall c, In c (colors_of_buttons plain named) -> plain_text c) ->
  exists ts, all_buttons name (mkButtons plain (named_ones named)) sizes = Ret ts /\
    serialize_many ts = flat_map (fun x => newline ++ newline ++ x) (flat_map (fun size => match plain with Some b => button_css name size [] b | None => [] end ++
                        flat_map (fun nb => button_css name size (lit "-" ++ fst nb) (snd nb)) named) sizes).
Proof.
  intros A B. assert (P : forall b, plain = Some b -> forall c, In c (button_colors b) -> plain_text c) by (intros b -> c H; apply B; unfold colors_of_buttons; apply in_app_iff; left; exact H).
  assert (Q : forall n b, In (n, b) named -> forall c, In c (button_colors b) -> plain_text c) by (intros n b H c Hc; apply B; unfold colors_of_buttons; apply in_app_iff; right; apply in_flat_map; exists (n, b); auto).
  induction sizes as [|size sizes (ts & E & T)]; [exists []; split; reflexivity|]. destruct (named_text name size named A Q) as (tn & En & Tn).
  cbn [all_buttons named_buttons plain_button]. rewrite En, E. eexists. split; [reflexivity|]. rewrite !sm_app, T, Tn. cbn [flat_map]. rewrite !flat_map_app. rewrite <- !app_assoc. f_equal.
  destruct plain as [b|]; [|reflexivity]. apply button_rules_text; [exact A|]. apply P. reflexivity.
Qed.
Lemma rules_text r plain named : some_buttons plain named (r_buttons r) -> r_colors r <> [] -> r_sizes r <> [] -> plain_text (r_name r) ->
  (forall c, In c (r_colors r ++ colors_of_buttons plain named) -> plain_text c) ->
  exists ts, rules r = Ret ts /\ serialize_many ts = separated (icon_sheet (r_name r) (r_sizes r) (r_colors r) plain named).
Proof.
  intros B NC NS A C. assert (I : serialize_many (icon_rules r) = separated (flat_map (fun size => map (icon_css (r_name r) size) (r_colors r)) (r_sizes r))).
  { unfold icon_rules. rewrite prod_map. assert (Q : forall sc, In sc (list_prod (r_sizes r) (r_colors r)) -> plain_text (snd sc)) by (intros [a b] H; apply in_prod_iff in H; apply C, in_app_iff; left; apply H).
    destruct (list_prod (r_sizes r) (r_colors r)) as [|[s c] l] eqn:E.
    - exfalso. destruct (r_sizes r) as [|s ss], (r_colors r) as [|c cs]; try contradiction. discriminate.
    - cbn [fold_left map fst snd separated app]. change (serialize_many (fold_left (add_rule (r_name r)) l (icon_rule (r_name r) s c)) = icon_css (r_name r) s c ++ flat_map (fun x => newline ++ newline ++ x) (map (fun xy => icon_css (r_name r) (fst xy) (snd xy)) l)).
      rewrite icon_rules_text; [|exact A|intros sc H; apply Q; right; exact H|discriminate]. rewrite icon_rule_text; [|exact A|apply (Q (s, c)); left; reflexivity]. f_equal.
      clear. induction l as [|x l IH]; [reflexivity|]. cbn [flat_map map]. rewrite IH. reflexivity. }
  assert (N : flat_map (fun size => map (icon_css (r_name r) size) (r_colors r)) (r_sizes r) <> []).
  { destruct (r_sizes r) as [|s ss]; [contradiction|]. destruct (r_colors r) as [|c cs]; [contradiction|]. discriminate. }
  unfold rules, icon_sheet. rewrite separated_app by exact N. destruct B as [-> |(-> & -> & ->)].
  - destruct (buttons_text (r_name r) plain named (r_sizes r) A) as (ts & E & T); [intros c H; apply C, in_app_iff; right; exact H|]. rewrite E. eexists. split; [reflexivity|]. rewrite sm_app, I, T. reflexivity.
  - eexists. split; [reflexivity|]. rewrite I. assert (X : forall l : list str, flat_map (fun _ => [] ++ flat_map (fun nb : str * setting => button_css (r_name r) [] (lit "-" ++ fst nb) (snd nb)) []) l = []) by (induction l; auto).
    clear X. assert (X : forall l : list str, flat_map (fun size => [] ++ flat_map (fun nb : str * setting => button_css (r_name r) size (lit "-" ++ fst nb) (snd nb)) []) l = []) by (induction l; auto). rewrite X. cbn [flat_map]. rewrite app_nil_r. reflexivity.
Qed.

(** * the urls *)
Lemma url_cons (t : @token F) ts u : has_url (t :: ts) u <-> (t = TFunction (lit "url") /\ exists b, ts = TString u :: b) \/ has_url ts u.
Proof.
  unfold has_url. split.
  - intros (a & b & E). destruct a as [|x a]; [injection E as -> ->; left; eauto|]. injection E as -> ->. right. eauto.
  - intros [(-> & b & ->)|(a & b & ->)]; [exists [], b; reflexivity|exists (t :: a), b; reflexivity].
Qed.
Lemma url_app (a b : list (@token F)) u : (forall a', a <> a' ++ [TFunction (lit "url")]) -> has_url (a ++ b) u <-> has_url a u \/ has_url b u.
Proof.
  induction a as [|t a IH]; intros N.
  - cbn [app]. split; [auto|]. intros [(x & y & E)|H]; [destruct x; discriminate|exact H].
  - cbn [app]. rewrite !url_cons, IH by (intros a' ->; apply (N (t :: a')); reflexivity). destruct a as [|t2 a].
    + split; [|intros [[[-> [y E]]|H]|H]; [discriminate|auto|auto]]. intros [[-> [y E]]|[H|H]]; [|auto|auto]. exfalso. apply (N []). reflexivity.
    + cbn [app]. split; [intros [[-> [y E]]|[H|H]]|intros [[[-> [y E]]|H]|H]]; auto; injection E as -> _; left; [left|]; split; eauto.
Qed.
Lemma last_not (a : list (@token F)) t a' : t <> TFunction (lit "url") -> a ++ [t] <> a' ++ [TFunction (lit "url")].
Proof. intros N E. apply app_inj_tail in E. destruct E as [_ E]. contradiction. Qed.
Lemma nil_url u : ~ has_url (@nil (@token F)) u.
Proof. intros (a & b & E). destruct a; discriminate. Qed.
End Rules.

Lemma Ret_inj {A} (a b : A) : Ret a = Ret b -> a = b.
Proof. congruence. Qed.
Section Urls.
Context {F : Type}.
Notation token := (@token F).
Fixpoint urls (ts : list token) : list str :=
  match ts with
  | [] => []
  | t :: r => match t, r with TFunction v, TString u :: _ => if str_eqb v (lit "url") then [u] else [] | _, _ => [] end ++ urls r
  end.
Lemma urls_iff ts u : has_url ts u <-> In u (urls ts).
Proof.
  induction ts as [|t ts IH]; [split; [intros H; destruct (nil_url u H)|intros []]|]. rewrite url_cons, IH. cbn [urls]. rewrite in_app_iff.
  assert (X : (t = TFunction (lit "url") /\ exists b, ts = TString u :: b) <-> In u (match t, ts with TFunction v, TString u :: _ => if str_eqb v (lit "url") then [u] else [] | _, _ => [] end)).
  { split.
    - intros (-> & b & ->). change (str_eqb (lit "url") (lit "url")) with true. left. reflexivity.
    - destruct t; try (intros []). destruct ts as [|t ts]; [intros []|]. destruct t; try (intros []). destruct (str_eqb v (lit "url")) eqn:E; [|intros []]. apply str_eqb_eq in E. subst v. intros [->|[]]. split; [reflexivity|eauto]. }
  rewrite X. reflexivity.
Qed.
Definition closed_end (ts : list token) : Prop := forall a, ts <> a ++ [TFunction (lit "url")].
Lemma closed_app a b : closed_end a -> closed_end b -> closed_end (a ++ b).
Proof.
  intros A B x E. destruct b as [|t b]; [rewrite app_nil_r in E; exact (A _ E)|]. destruct (exists_last (l := t :: b) ltac:(discriminate)) as (b' & z & Eb). rewrite Eb in *.
  rewrite app_assoc in E. apply app_inj_tail in E. destruct E as [_ ->]. exact (B b' eq_refl).
Qed.
Lemma closed_last a t : t <> TFunction (lit "url") -> closed_end (a ++ [t]).
Proof. intros N x. apply last_not, N. Qed.
Lemma closed_nil : closed_end [].
Proof. intros x E. destruct x; discriminate. Qed.
Lemma icon_rule_urls n s c u : has_url (F := F) (icon_rule n s c) u <-> u = web_path n c.
Proof. rewrite urls_iff. change (urls (@icon_rule F n s c)) with [web_path n c]. cbn. intuition congruence. Qed.
Lemma icon_rule_closed n s c : closed_end (icon_rule n s c).
Proof. intros x E. destruct (exists_last (l := icon_rule (F := F) n s c) ltac:(discriminate)) as (a & z & Ez). rewrite Ez in E. apply app_inj_tail in E. destruct E as [_ ->]. apply (f_equal (fun l => last l TEof)) in Ez. rewrite last_last in Ez. discriminate Ez. Qed.
Lemma button_rules_urls n s x b u : has_url (F := F) (button_rules n s x b) u <-> exists c, In c (button_colors b) /\ u = web_path n c.
Proof.
  rewrite urls_iff. change (urls (@button_rules F n s x b)) with [web_path n (active b); web_path n (hover b); web_path n (disabled b)]. cbn. split.
  - intros [H|[H|[H|[]]]]; eauto 6.
  - intros (c & [<-|[<-|[<-|[]]]] & ->); auto.
Qed.
Lemma button_rules_closed n s x b : closed_end (button_rules n s x b).
Proof. intros y E. destruct (exists_last (l := button_rules (F := F) n s x b) ltac:(discriminate)) as (a & z & Ez). rewrite Ez in E. apply app_inj_tail in E. destruct E as [_ ->]. apply (f_equal (fun l => last l TEof)) in Ez. rewrite last_last in Ez. discriminate Ez. Qed.
Lemma icon_rules_urls name l : forall out : list token, closed_end out -> closed_end (fold_left (add_rule name) l out) /\ forall u, has_url (fold_left (add_rule name) l out) u <-> has_url out u \/ exists sc, In sc l /\ u = web_path name (snd sc).
Proof.
  induction l as [|[s c] l IH]; intros out C; cbn [fold_left]; [split; [exact C|]; intros u; split; [auto|intros [H|(sc & [] & _)]; exact H]|].
  assert (C1 : closed_end (match out with [] => [] | _ => out ++ [TWhitespace [10; 10]] end)) by (destruct out; [apply closed_nil|apply closed_last; discriminate]).
  destruct (IH (add_rule name out (s, c))) as [A B]; [apply closed_app; [exact C1|apply icon_rule_closed]|]. split; [exact A|]. intros u. rewrite B. unfold add_rule. rewrite url_app by exact C1. rewrite icon_rule_urls. cbn [fst snd].
  assert (O : has_url (match out with [] => [] | _ => out ++ [TWhitespace [10; 10]] end) u <-> has_url out u).
  { destruct out as [|t out]; [reflexivity|]. rewrite url_app by exact C. split; [|auto]. intros [H|H]; [exact H|]. apply urls_iff in H. destruct H. }
  rewrite O. cbn [In]. split.
  - intros [[H| ->]|(sc & H & ->)]; [auto|right; exists (s, c); auto|right; exists sc; auto].
  - intros [H|(sc & [<-|H] & ->)]; [auto|auto|right; eauto].
Qed.
Lemma named_urls name size named ts : named_rules name size (named_ones named) = Ret ts -> closed_end ts /\ forall u, has_url ts u <-> exists c, In c (flat_map (fun nb => button_colors (snd nb)) named) /\ u = web_path name c.
Proof.
  revert ts. induction named as [|[n b] l IH]; intros ts.
  - intros [= <-]. split; [apply closed_nil|]. intros u. split; [intros H; destruct (nil_url u H)|intros (c & [] & _)].
  - cbn [named_ones map fst snd named_rules]. fold (named_ones l). destruct (named_rules name size (named_ones l)) as [out|]; [|discriminate]. intros E. apply Ret_inj in E. subst ts. destruct (IH _ eq_refl) as [A B].
    split; [apply closed_app; [apply button_rules_closed|exact A]|]. intros u. rewrite url_app by apply button_rules_closed. rewrite button_rules_urls, B. cbn [flat_map snd]. split.
    + intros [(c & H & ->)|(c & H & ->)]; exists c; (split; [apply in_app_iff; auto|reflexivity]).
    + intros (c & H & ->). apply in_app_iff in H. destruct H; eauto.
Qed.
Lemma buttons_urls name plain named : forall sizes ts, all_buttons name (mkButtons plain (named_ones named)) sizes = Ret ts -> closed_end ts /\ forall u, has_url ts u <-> sizes <> [] /\ exists c, In c (colors_of_buttons plain named) /\ u = web_path name c.
Proof.
  induction sizes as [|size sizes IH]; intros ts; cbn [all_buttons named_buttons plain_button].
  - intros [= <-]. split; [apply closed_nil|]. intros u. split; [intros H; destruct (nil_url u H)|intros ([] & _); reflexivity].
  - destruct (named_rules name size (named_ones named)) as [tn|] eqn:En; [|discriminate]. destruct (all_buttons name (mkButtons plain (named_ones named)) sizes) as [out|]; [|discriminate]. intros E. apply Ret_inj in E. subst ts.
    destruct (named_urls _ _ _ _ En) as [A B]. destruct (IH _ eq_refl) as [C D].
    assert (P : closed_end (match plain with Some s => button_rules name size [] s | None => [] end) /\ forall u, has_url (match plain with Some s => button_rules name size [] s | None => @nil token end) u <-> exists c, In c (match plain with Some b => button_colors b | None => [] end) /\ u = web_path name c).
    { destruct plain as [b|]; [split; [apply button_rules_closed|intros u; apply button_rules_urls]|]. split; [apply closed_nil|]. intros u. split; [intros H; destruct (nil_url u H)|intros (c & [] & _)]. }
    destruct P as [P Q]. split; [apply closed_app; [exact P|apply closed_app; assumption]|]. intros u. rewrite url_app by exact P. rewrite url_app by exact A. rewrite Q, B, D. unfold colors_of_buttons. split.
    + intros [(c & H & ->)|[(c & H & ->)|(_ & c & H & ->)]]; (split; [discriminate|]); exists c; (split; [apply in_app_iff; auto|reflexivity]); apply in_app_iff in H; exact H.
    + intros (_ & c & H & ->). apply in_app_iff in H. destruct H; eauto.
Qed.
Lemma rules_urls r plain named (ts : list token) : some_buttons plain named (r_buttons r) -> r_sizes r <> [] -> rules r = Ret ts ->
  forall u, has_url ts u <-> exists c, In c (r_colors r ++ colors_of_buttons plain named) /\ u = web_path (r_name r) c.
Proof.
  intros B NS E u. assert (I : closed_end (icon_rules (F := F) r) /\ (has_url (icon_rules (F := F) r) u <-> exists c, In c (r_colors r) /\ u = web_path (r_name r) c)).
  { destruct (icon_rules_urls (r_name r) (list_prod (r_sizes r) (r_colors r)) [] closed_nil) as [X Y]. split; [exact X|]. rewrite (Y u). split.
    - intros [H|([s c] & H & ->)]; [destruct (nil_url u H)|]. apply in_prod_iff in H. exists c. split; [apply H|reflexivity].
    - intros (c & H & ->). right. destruct (r_sizes r) as [|s ss]; [contradiction|]. exists (s, c). split; [apply in_prod_iff; split; [left; reflexivity|exact H]|reflexivity]. }
  destruct I as [I J]. unfold rules in E. destruct B as [Eb|(Eb & -> & ->)]; rewrite Eb in E.
  - destruct (all_buttons (r_name r) (mkButtons plain (named_ones named)) (r_sizes r)) as [out|] eqn:Ea; [|discriminate]. apply Ret_inj in E. subst ts. destruct (buttons_urls _ _ _ _ _ Ea) as [_ D].
    rewrite url_app by exact I. rewrite J, D. split.
    + intros [(c & H & ->)|(_ & c & H & ->)]; exists c; (split; [apply in_app_iff; auto|reflexivity]).
    + intros (c & H & ->). apply in_app_iff in H. destruct H; eauto.
  - apply Ret_inj in E. subst ts. rewrite J. cbn [colors_of_buttons app flat_map]. split; intros (c & H & ->); exists c; (split; [|reflexivity]); [apply in_app_iff; auto|]. apply in_app_iff in H. destruct H as [H|[]]. exact H.
Qed.
End Urls.

(** * the files *)
Lemma replace_from_skip old new : forall a s, replace_from old new (length a) (a ++ s) = replace_from old new 0 s.
Proof. induction a as [|c a IH]; intros s; [reflexivity|]. cbn [length app replace_from]. apply IH. Qed.
Lemma replace_ok old new : old <> [] -> forall n s, (length s <= n)%nat -> replaced old new s (replace old new s).
Proof.
  intros N. unfold replace. induction n as [|n IH]; intros s H; [destruct s; [apply RepNil|cbn [length] in H; lia]|]. destruct s as [|c s]; [apply RepNil|]. cbn [replace_from].
  destruct (starts_with old (c :: s)) eqn:E.
  - apply starts_with_iff in E. destruct E as [t E]. destruct old as [|o old]; [contradiction|]. cbn [app] in E. injection E as -> ->. cbn [length]. rewrite PeanoNat.Nat.sub_succ, PeanoNat.Nat.sub_0_r, replace_from_skip.
    apply (RepHere (o :: old) new t). apply IH. cbn [length] in H. rewrite app_length in H. lia.
  - apply RepSkip; [|apply IH; cbn [length] in H; lia]. intros r X. assert (Y : starts_with old (c :: s) = true) by (apply starts_with_iff; exists r; exact X). congruence.
Qed.
Lemma recolor_ok c0 c1 text : recolored c0 c1 text (replace (quoted c0) (quoted c1) text).
Proof. exists (quoted c0), (quoted c1). split; [reflexivity|]. split; [reflexivity|]. apply (replace_ok (quoted c0) (quoted c1) ltac:(discriminate) (length text)). lia. Qed.
Lemma join2_file a b : a <> [] -> last a 0 <> 47 -> (exists c r, b = c :: r /\ c <> 47) -> join2 a b = a ++ lit "/" ++ b.
Proof.
  intros A L (c & r & -> & C). unfold join2. apply N.eqb_neq in C, L. rewrite C. destruct a as [|x a]; [contradiction|]. rewrite L. reflexivity.
Qed.
Lemma last_in {A} (l : list A) d : l <> [] -> In (last l d) l.
Proof. intros H. destruct (exists_last H) as (a & z & ->). rewrite last_last. apply in_app_iff. right. left. reflexivity. Qed.
Lemma last_app {A} (a b : list A) d : b <> [] -> last (a ++ b) d = last b d.
Proof. intros H. destruct (exists_last H) as (x & z & ->). rewrite app_assoc, !last_last. reflexivity. Qed.
Lemma folder_ok name : file_name name -> output_folder name = lit "out/www/img/icons/" ++ name.
Proof.
  intros [N S]. unfold output_folder. change (join_path (lit "out") [lit "www"; lit "img"; lit "icons"; name]) with (join2 (lit "out/www/img/icons") name).
  rewrite join2_file; [reflexivity|discriminate|discriminate|]. destruct name as [|c r]; [contradiction|]. exists c, r. split; [reflexivity|]. intros ->. apply S. left. reflexivity.
Qed.
Lemma under_folder name x : file_name name -> (exists c r, x = c :: r /\ c <> 47) -> join2 (output_folder name) x = lit "out/www/img/icons/" ++ name ++ lit "/" ++ x.
Proof.
  intros N X. rewrite (folder_ok name N). rewrite join2_file; [rewrite <- app_assoc; reflexivity|discriminate| |exact X]. destruct N as [N S]. rewrite last_app by exact N. intros E. apply S. rewrite <- E. apply last_in, N.
Qed.
Lemma color_head c x : ~ In 47 c -> exists a r, c ++ lit "." ++ x = a :: r /\ a <> 47.
Proof. intros S. destruct c as [|a r]; [exists 46, x; split; [reflexivity|discriminate]|]. exists a, (r ++ lit "." ++ x). split; [reflexivity|]. intros ->. apply S. left. reflexivity. Qed.
Lemma svg_ok name c : file_name name -> ~ In 47 c -> output_svg name c = svg_file name c.
Proof. intros N S. unfold output_svg. rewrite under_folder; [reflexivity|exact N|]. exact (color_head c (lit "svg") S). Qed.
Lemma scan_hash_ok name c : file_name name -> ~ In 47 c -> join2 (output_folder name) (c ++ lit ".svg.hash") = hash_file name c.
Proof. intros N S. rewrite under_folder; [|exact N|exact (color_head c (lit "svg.hash") S)]. unfold hash_file, svg_file, site_file. rewrite <- !app_assoc. reflexivity. Qed.
Lemma hash_ok name c : hash_target (svg_file name c) = Some (hash_file name c).
Proof. reflexivity. Qed.
Lemma svg_inj name a b : svg_file name a = svg_file name b -> a = b.
Proof. unfold svg_file, site_file. intros H. apply app_inv_head in H. apply app_inv_head in H. apply app_inv_head in H. apply app_inv_head in H. apply app_inv_tail in H. exact H. Qed.
Lemma svg_not_hash name a b : svg_file name a <> hash_file name b.
Proof.
  unfold hash_file, svg_file, site_file. rewrite !app_assoc. intros H. apply (f_equal (fun l => last l 0)) in H. rewrite !last_app in H by discriminate. discriminate H.
Qed.
Lemma hash_inj name a b : hash_file name a = hash_file name b -> a = b.
Proof. unfold hash_file. intros H. apply app_inv_tail in H. apply svg_inj in H. exact H. Qed.
Lemma set_add_iff x l y : In y (set_add x l) <-> In y l \/ y = x.
Proof. unfold set_add. destruct (mem x l) eqn:E; [apply mem_In in E; split; [auto|intros [H| ->]; assumption]|]. rewrite in_app_iff. cbn. intuition congruence. Qed.

Section Files.
Context (sha : str -> str) (cfg : icon_settings).
Notation export := (export sha cfg).
(** what the export of one colour does *)
Definition source (r : request) (svg : option str) (s : istate) : option str := match svg with Some t => Some t | None => dget (input_icon (r_name r)) (i_files s) end.
Record exported (r : request) (src : option str) (cs : list str) (s s' : istate) : Prop := {
  x_seen : i_seen s' = i_seen s;
  x_kept : forall p v, dget p (i_files s) = Some v -> dget p (i_files s') = Some v;
  x_svg : forall c, In c cs -> dget (svg_file (r_name r) c) (i_files s) = None -> exists text c0 c1, src = Some text /\ dget (r_initial r) (color_map cfg) = Some c0 /\ dget c (color_map cfg) = Some c1 /\
      dget (svg_file (r_name r) c) (i_files s') = Some (replace (quoted c0) (quoted c1) text) /\
      exists h, dget (hash_file (r_name r) c) (i_files s') = Some h /\ (dget (hash_file (r_name r) c) (i_files s) = None -> h = sha (replace (quoted c0) (quoted c1) text));
  x_new : forall p, dget p (i_files s) = None -> dget p (i_files s') <> None -> exists c, In c cs /\ dget (svg_file (r_name r) c) (i_files s) = None /\ (p = svg_file (r_name r) c \/ p = hash_file (r_name r) c);
  x_made : forall p, In p (i_made s') <-> In p (i_made s) \/ (dget p (i_files s) = None /\ dget p (i_files s') <> None);
  x_reused : forall p, In p (i_reused s') <-> In p (i_reused s) \/ exists c, In c cs /\
      ((p = svg_file (r_name r) c /\ dget (svg_file (r_name r) c) (i_files s) <> None) \/ (p = hash_file (r_name r) c /\ dget (svg_file (r_name r) c) (i_files s) = None /\ dget p (i_files s) <> None))
}.
Lemma dget_dset_same {V} k (v : V) d : dget k (dset k v d) = Some v.
Proof. rewrite dget_dset. destruct (str_eqb k k) eqn:E; [reflexivity|]. apply str_eqb_neq in E. contradiction. Qed.
Lemma dget_dset_other {V} k k' (v : V) d : k' <> k -> dget k' (dset k v d) = dget k' d.
Proof. intros H. rewrite dget_dset. destruct (str_eqb k' k) eqn:E; [apply str_eqb_eq in E; contradiction|reflexivity]. Qed.
Lemma dmem_dget {V} k (d : list (str * V)) : dmem k d = match dget k d with Some _ => true | None => false end.
Proof. reflexivity. Qed.
(** one colour *)
Lemma export_step r svg c cs s s' : output_svg (r_name r) c = svg_file (r_name r) c -> export r svg (c :: cs) s = Ret s' ->
  exists svg' s1, export r svg' cs s1 = Ret s' /\ source r svg' s1 = source r svg s /\ exported r (source r svg s) [c] s s1.
Proof.
  intros EO. cbn [IconManip.export]. rewrite EO. set (n := r_name r) in *. rewrite dmem_dget. destruct (dget (svg_file n c) (i_files s)) as [v|] eqn:Ev.
  - intros E. eexists svg, _. split; [exact E|]. split; [reflexivity|]. split; cbn [i_seen i_files i_made i_reused].
    + reflexivity.
    + auto.
    + intros c' [<-|[]] H. fold n in H. congruence.
    + intros p H1 H2. contradiction.
    + intros p. split; [auto|]. intros [H|[H1 H2]]; [exact H|contradiction].
    + intros p. rewrite set_add_iff. split; [intros [H| ->]; [auto|right; exists c; split; [left; reflexivity|left; fold n; split; [reflexivity|congruence]]]|].
      intros [H|(c' & [<-|[]] & [[-> _]|(_ & H & _)])]; [auto|right; reflexivity|fold n in H; congruence].
  - change (match svg with Some t => Some t | None => dget (input_icon n) (i_files s) end) with (source r svg s). destruct (source r svg s) as [text|]; [|discriminate].
    destruct (dget (r_initial r) (color_map cfg)) as [c0|] eqn:E0; [|discriminate]. destruct (dget c (color_map cfg)) as [c1|] eqn:E1; [|discriminate].
    unfold hash_build, build_target. rewrite hash_ok. set (out := replace (quoted c0) (quoted c1) text). rewrite dmem_dget.
    assert (NH : hash_file n c <> svg_file n c) by (intros X; symmetry in X; exact (svg_not_hash _ _ _ X)).
    rewrite (dget_dset_other (svg_file n c) (hash_file n c)) by exact NH. destruct (dget (hash_file n c) (i_files s)) as [h|] eqn:Eh.
    + intros E. eexists (Some text), _. split; [exact E|]. split; [reflexivity|]. cbn [children produced reused set_update fold_left]. split; cbn [i_seen i_files i_made i_reused].
      * reflexivity.
      * intros p v H. rewrite dget_dset_other; [exact H|]. intros ->. congruence.
      * intros c' [<-|[]] _. fold n. exists text, c0, c1. split; [reflexivity|]. split; [exact E0|]. split; [exact E1|]. split; [apply dget_dset_same|]. exists h. rewrite dget_dset_other by exact NH. split; [exact Eh|congruence].
      * intros p H1 H2. exists c. split; [left; reflexivity|]. fold n. split; [exact Ev|]. left. destruct (str_eq_dec p (svg_file n c)) as [->|D]; [reflexivity|]. rewrite dget_dset_other in H2 by exact D. contradiction.
      * intros p. rewrite set_add_iff. split; [intros [H| ->]; [auto|right; rewrite dget_dset_same; split; [exact Ev|discriminate]]|]. intros [H|[H1 H2]]; [auto|]. right. destruct (str_eq_dec p (svg_file n c)) as [->|D]; [reflexivity|]. rewrite dget_dset_other in H2 by exact D. contradiction.
      * intros p. rewrite set_add_iff. split; [intros [H| ->]; [auto|right; exists c; split; [left; reflexivity|right; fold n; repeat split; [exact Ev|congruence]]]|].
        intros [H|(c' & [<-|[]] & [[_ H]|(-> & _)])]; [auto|fold n in H; contradiction|right; reflexivity].
    + rewrite dget_dset_same. intros E. eexists (Some text), _. split; [exact E|]. split; [reflexivity|]. cbn [children produced reused set_update fold_left]. split; cbn [i_seen i_files i_made i_reused].
      * reflexivity.
      * intros p v H. rewrite !dget_dset_other; [exact H| |]; intros ->; congruence.
      * intros c' [<-|[]] _. fold n. exists text, c0, c1. split; [reflexivity|]. split; [exact E0|]. split; [exact E1|]. split; [rewrite dget_dset_other by (intros X; exact (NH (eq_sym X))); apply dget_dset_same|]. exists (sha out). rewrite dget_dset_same. split; reflexivity.
      * intros p H1 H2. exists c. split; [left; reflexivity|]. fold n. split; [exact Ev|]. destruct (str_eq_dec p (hash_file n c)) as [->|D]; [auto|]. rewrite dget_dset_other in H2 by exact D. left. destruct (str_eq_dec p (svg_file n c)) as [->|D2]; [reflexivity|]. rewrite dget_dset_other in H2 by exact D2. contradiction.
      * intros p. rewrite !set_add_iff. split.
        -- intros [[H| ->]| ->]; [auto|right; rewrite dget_dset_other by (intros X; exact (NH (eq_sym X))); rewrite dget_dset_same; split; [exact Ev|discriminate]|right; rewrite dget_dset_same; split; [exact Eh|discriminate]].
        -- intros [H|[H1 H2]]; [auto|]. destruct (str_eq_dec p (hash_file n c)) as [->|D]; [auto|]. rewrite dget_dset_other in H2 by exact D. left. right. destruct (str_eq_dec p (svg_file n c)) as [->|D2]; [reflexivity|]. rewrite dget_dset_other in H2 by exact D2. contradiction.
      * intros p. split; [auto|]. intros [H|(c' & [<-|[]] & [[_ H]|(-> & _ & H)])]; [exact H|fold n in H; contradiction|fold n in H; contradiction].
Qed.
Lemma exported_trans r src c cs s s1 s2 : ~ In c cs -> exported r src [c] s s1 -> exported r src cs s1 s2 -> exported r src (c :: cs) s s2.
Proof.
  intros NC A B. set (n := r_name r).
  (* files of the other colours are as before *)
  assert (SV : forall c', c' <> c -> dget (svg_file n c') (i_files s1) = dget (svg_file n c') (i_files s)).
  { intros c' D. destruct (dget (svg_file n c') (i_files s)) as [v|] eqn:E; [apply (x_kept _ _ _ _ _ A), E|]. destruct (dget (svg_file n c') (i_files s1)) as [v|] eqn:E1; [|reflexivity]. exfalso.
    destruct (x_new _ _ _ _ _ A _ E ltac:(congruence)) as (x & [<-|[]] & _ & [X|X]); [apply svg_inj in X; contradiction|exact (svg_not_hash _ _ _ X)]. }
  assert (HV : forall c', c' <> c -> dget (hash_file n c') (i_files s1) = dget (hash_file n c') (i_files s)).
  { intros c' D. destruct (dget (hash_file n c') (i_files s)) as [v|] eqn:E; [apply (x_kept _ _ _ _ _ A), E|]. destruct (dget (hash_file n c') (i_files s1)) as [v|] eqn:E1; [|reflexivity]. exfalso.
    destruct (x_new _ _ _ _ _ A _ E ltac:(congruence)) as (x & [<-|[]] & _ & [X|X]); [symmetry in X; exact (svg_not_hash _ _ _ X)|apply hash_inj in X; contradiction]. }
  split.
  - rewrite (x_seen _ _ _ _ _ B). apply (x_seen _ _ _ _ _ A).
  - intros p v H. apply (x_kept _ _ _ _ _ B), (x_kept _ _ _ _ _ A), H.
  - intros c' [<-|H] E.
    + destruct (x_svg _ _ _ _ _ A c (or_introl eq_refl) E) as (t & c0 & c1 & S & E0 & E1 & G & h & Gh & I). exists t, c0, c1. repeat (split; [assumption|]). split; [apply (x_kept _ _ _ _ _ B), G|]. exists h. split; [apply (x_kept _ _ _ _ _ B), Gh|exact I].
    + assert (D : c' <> c) by (intros ->; contradiction). destruct (x_svg _ _ _ _ _ B c' H ltac:(fold n; rewrite SV by exact D; exact E)) as (t & c0 & c1 & S & E0 & E1 & G & h & Gh & I). exists t, c0, c1. repeat (split; [assumption|]). exists h. split; [exact Gh|]. intros X. apply I. fold n. rewrite HV by exact D. exact X.
  - intros p H1 H2. destruct (dget p (i_files s1)) as [v|] eqn:E1.
    + destruct (x_new _ _ _ _ _ A _ H1 ltac:(congruence)) as (x & [<-|[]] & X). exists c. split; [left; reflexivity|exact X].
    + destruct (x_new _ _ _ _ _ B _ E1 H2) as (x & Hx & Ex & X). exists x. split; [right; exact Hx|]. split; [|exact X]. fold n. rewrite <- SV by (intros ->; contradiction). exact Ex.
  - intros p. rewrite (x_made _ _ _ _ _ B), (x_made _ _ _ _ _ A). split.
    + intros [[H|[H1 H2]]|[H1 H2]]; [auto|right|right].
      * split; [exact H1|]. destruct (dget p (i_files s1)) as [v|] eqn:E; [|contradiction]. rewrite (x_kept _ _ _ _ _ B _ _ E). discriminate.
      * split; [|exact H2]. destruct (dget p (i_files s)) as [v|] eqn:E; [|reflexivity]. rewrite (x_kept _ _ _ _ _ A _ _ E) in H1. discriminate.
    + intros [H|[H1 H2]]; [auto|]. destruct (dget p (i_files s1)) as [v|] eqn:E; [left; right; split; [exact H1|congruence]|right; auto].
  - intros p. rewrite (x_reused _ _ _ _ _ B), (x_reused _ _ _ _ _ A). split.
    + intros [[H|(x & [<-|[]] & H)]|(x & Hx & H)]; [auto|right; exists c; split; [left; reflexivity|exact H]|right; exists x; split; [right; exact Hx|]].
      assert (D : x <> c) by (intros ->; contradiction). fold n in H |- *. rewrite SV in H by exact D. destruct H as [H|(-> & H1 & H2)]; [auto|right]. rewrite HV in H2 by exact D. auto.
    + intros [H|(x & [<-|Hx] & H)]; [auto|left; right; exists c; split; [left; reflexivity|exact H]|right; exists x; split; [exact Hx|]].
      assert (D : x <> c) by (intros ->; contradiction). fold n in H |- *. rewrite SV by exact D. destruct H as [H|(-> & H1 & H2)]; [auto|right]. rewrite HV by exact D. auto.
Qed.
Lemma export_ok r cs : (forall c, In c cs -> output_svg (r_name r) c = svg_file (r_name r) c) -> NoDup cs -> forall svg s s', export r svg cs s = Ret s' -> exported r (source r svg s) cs s s'.
Proof.
  intros O N. induction N as [|c cs NC N IH]; intros svg s s' E.
  - cbn in E. injection E as <-. split; [reflexivity|auto|intros c []|intros p H1 H2; contradiction|intros p; split; [auto|intros [H|[H1 H2]]; [exact H|contradiction]]|intros p; split; [auto|intros [H|(c & [] & _)]; exact H]].
  - apply export_step in E; [|apply O; left; reflexivity]. destruct E as (svg' & s1 & E & Es & A). eapply exported_trans; [exact NC|exact A|]. rewrite <- Es. apply IH; [intros x Hx; apply O; right; exact Hx|exact E].
Qed.
(** it succeeds if the source is there and the colours are known *)
Lemma export_total r cs : known_color cfg (r_initial r) -> (forall c, In c cs -> known_color cfg c) -> forall svg s, source r svg s <> None -> exists s', export r svg cs s = Ret s'.
Proof.
  intros K0 K. assert (G : forall c, known_color cfg c -> exists v, dget c (color_map cfg) = Some v).
  { intros c H. apply is_color_iff in H. unfold is_color in H. rewrite dmem_dget in H. destruct (dget c (color_map cfg)); [eauto|discriminate]. }
  induction cs as [|c cs IH]; intros svg s S; [eexists; reflexivity|]. cbn [IconManip.export]. destruct (dmem (output_svg (r_name r) c) (i_files s)) eqn:E.
  - apply IH; [intros x Hx; apply K; right; exact Hx|exact S].
  - fold (source r svg s). destruct (source r svg s) as [t|]; [|contradiction]. destruct (G _ K0) as [c0 ->]. destruct (G c (K _ (or_introl eq_refl))) as [c1 ->].
    unfold hash_build, build_target. destruct (hash_target (output_svg (r_name r) c)) as [h|].
    + destruct (dmem h _); [|rewrite dget_dset_same]; (apply IH; [intros x Hx; apply K; right; exact Hx|discriminate]).
    + apply IH; [intros x Hx; apply K; right; exact Hx|discriminate].
Qed.
End Files.

Lemma wanted_NoDup cfg c l : dict_wf (color_map cfg) -> wanted_colors cfg c l -> NoDup l /\ forall x, In x l -> known_color cfg x.
Proof.
  intros W. unfold wanted_colors. destruct (colors c).
  - intros (N & M & _). split; [exact N|]. intros x H. apply M, H.
  - intros ->. split; [exact W|]. intros x H. apply in_map_iff in H. destruct H as ([k v] & <- & H). exists v. exact H.
Qed.
Section Manip.
Context {F : Type} (float_of : str -> option F) (high_digit : N -> bool) (int_high : str -> option Z).
Context (sha : str -> str) (cfg : icon_settings) (css_file relpath : str).
Notation get := (get_icon_command_args float_of high_digit int_high cfg).
Notation i_start := (i_start float_of high_digit int_high cfg css_file relpath).
Notation i_continue := (i_continue float_of high_digit int_high sha cfg css_file relpath).

Lemma get_other t : (forall v a, t = TComment v -> ~ icon_comment v a) -> get t = Ret None.
Proof. intros H. unfold get_icon_command_args. destruct t; try reflexivity. destruct (args_text v) as [a|] eqn:E; [|reflexivity]. apply args_text_iff in E. exfalso. exact (H v a eq_refl E). Qed.
Lemma get_command v a c : icon_comment v a -> command_of float_of high_digit int_high a = Ret (Some c) -> get (TComment v) = resolve cfg c.
Proof. intros H E. unfold get_icon_command_args. apply args_text_iff in H. rewrite H, E. reflexivity. Qed.
Lemma get_bad v a e : icon_comment v a -> command_of float_of high_digit int_high a = Raise e -> get (TComment v) = Raise e.
Proof. intros H E. unfold get_icon_command_args. apply args_text_iff in H. rewrite H, E. reflexivity. Qed.
Lemma get_resolve t r : get t = Ret (Some r) -> exists c, resolve cfg c = Ret (Some r).
Proof. unfold get_icon_command_args. destruct t; try discriminate. destruct (args_text v); [|discriminate]. destruct (command_of _ _ _ s) as [[c|]|]; try discriminate. eauto. Qed.
Lemma request_ok t r : dict_wf (color_map cfg) -> get t = Ret (Some r) -> NoDup (r_colors r) /\ known_color cfg (r_initial r) /\ (forall c, In c (r_colors r) -> known_color cfg c) /\ r_colors r <> [] /\ r_sizes r <> [].
Proof.
  intros W H. apply get_resolve in H. destruct H as [c H]. apply resolve_fields in H. destruct H as (K & _ & Ei & NC & NS & WC & _). destruct (wanted_NoDup _ _ _ W WC) as [N K2]. rewrite Ei. auto.
Qed.
Definition with_css (s : istate) : istate := if str_eqb relpath css_file then s else {| i_seen := set_add css_file (i_seen s); i_made := i_made s; i_reused := i_reused s; i_files := i_files s |}.
Lemma with_css_same s : i_made (with_css s) = i_made s /\ i_reused (with_css s) = i_reused s /\ i_files (with_css s) = i_files s.
Proof. unfold with_css. destruct (str_eqb relpath css_file); auto. Qed.
Lemma with_css_seen s x : In x (i_seen (with_css s)) <-> In x (i_seen s) \/ (x = css_file /\ relpath <> css_file).
Proof.
  unfold with_css. destruct (str_eqb relpath css_file) eqn:E; [apply str_eqb_eq in E|apply str_eqb_neq in E; cbn [i_seen]; rewrite set_add_iff]; intuition.
Qed.
Lemma continue_export t r s o s' : get t = Ret (Some r) -> i_continue t s = Ret (o, s') -> exists ts, o = Some ts /\ rules r = Ret ts /\ export sha cfg r None (r_colors r) (with_css s) = Ret s'.
Proof.
  intros G. unfold IconManip.i_continue. rewrite G. fold (with_css s). destruct (export sha cfg r None (r_colors r) (with_css s)) as [s1|]; [|discriminate]. destruct (rules r) as [ts|]; [|discriminate]. intros [= <- <-]. eauto.
Qed.
Lemma continue_ok t r s ts s' : dict_wf (color_map cfg) -> get t = Ret (Some r) -> file_name (r_name r) -> (forall c, In c (r_colors r) -> ~ In 47 c) ->
  i_continue t s = Ret (Some ts, s') -> exported sha cfg r (dget (input_icon (r_name r)) (i_files s)) (r_colors r) (with_css s) s'.
Proof.
  intros W G FN SL E. destruct (continue_export _ _ _ _ _ G E) as (ts' & _ & _ & X). destruct (request_ok _ _ W G) as (N & _).
  apply export_ok in X; [|intros c Hc; apply svg_ok; auto|exact N]. unfold source in X. destruct (with_css_same s) as (_ & _ & Ef). rewrite Ef in X. exact X.
Qed.
Lemma continue_total t r s plain named : dict_wf (color_map cfg) -> get t = Ret (Some r) -> some_buttons plain named (r_buttons r) -> dget (input_icon (r_name r)) (i_files s) <> None ->
  exists ts s', i_continue t s = Ret (Some ts, s').
Proof.
  intros W G B S. destruct (request_ok _ _ W G) as (_ & K0 & K & _). unfold IconManip.i_continue. rewrite G. fold (with_css s).
  destruct (export_total sha cfg r (r_colors r) K0 K None (with_css s)) as [s' ->]; [unfold source; destruct (with_css_same s) as (_ & _ & Ef); rewrite Ef; exact S|].
  assert (R : exists ts : list (@token F), rules r = Ret ts).
  { unfold rules. destruct B as [-> |(-> & _)]; [|eauto]. assert (A : exists ts : list (@token F), all_buttons (r_name r) (mkButtons plain (named_ones named)) (r_sizes r) = Ret ts).
    { induction (r_sizes r) as [|size sizes [ts IH]]; [eexists; reflexivity|]. cbn [all_buttons named_buttons]. assert (Q : exists tn : list (@token F), named_rules (r_name r) size (named_ones named) = Ret tn).
      { clear. induction named as [|[n b] l [tn IH]]; [eexists; reflexivity|]. cbn [named_ones map named_rules fst snd]. fold (named_ones l). rewrite IH. eauto. }
      destruct Q as [tn ->]. rewrite IH. eauto. }
    destruct A as [ts ->]. eauto. }
  destruct R as [ts ->]. eauto.
Qed.
(** C57_images *)
Lemma images t r s ts s' : dict_wf (color_map cfg) -> get t = Ret (Some r) -> file_name (r_name r) -> (forall c, In c (r_colors r) -> ~ In 47 c) -> i_continue t s = Ret (Some ts, s') ->
  (forall c, In c (r_colors r) -> dget (svg_file (r_name r) c) (i_files s) = None ->
     exists src from to out, dget (input_icon (r_name r)) (i_files s) = Some src /\ In (r_initial r, from) (color_map cfg) /\ In (c, to) (color_map cfg) /\ recolored from to src out /\
       dget (svg_file (r_name r) c) (i_files s') = Some out /\ (dget (hash_file (r_name r) c) (i_files s) = None -> dget (hash_file (r_name r) c) (i_files s') = Some (sha out))) /\
  (forall p v, dget p (i_files s) = Some v -> dget p (i_files s') = Some v) /\
  (forall p, dget p (i_files s) = None -> dget p (i_files s') <> None -> exists c, In c (r_colors r) /\ (p = svg_file (r_name r) c \/ p = hash_file (r_name r) c)).
Proof.
  intros W G FN SL E. pose proof (continue_ok _ _ _ _ _ W G FN SL E) as X. destruct (with_css_same s) as (_ & _ & Ef). split; [|split].
  - intros c Hc N. rewrite <- Ef in N. destruct (x_svg _ _ _ _ _ _ _ X c Hc N) as (text & c0 & c1 & S & E0 & E1 & D & h & Dh & I). exists text, c0, c1, (replace (quoted c0) (quoted c1) text).
    split; [exact S|]. split; [apply dget_In, E0|]. split; [apply dget_In, E1|]. split; [apply recolor_ok|]. split; [exact D|]. intros Nh. rewrite <- Ef in Nh. rewrite Dh, (I Nh). reflexivity.
  - intros p v H. apply (x_kept _ _ _ _ _ _ _ X). rewrite Ef. exact H.
  - intros p H1 H2. rewrite <- Ef in H1. destruct (x_new _ _ _ _ _ _ _ X p H1 H2) as (c & Hc & _ & H). eauto.
Qed.
(** C57_reported *)
Lemma reported t r s ts s' : dict_wf (color_map cfg) -> get t = Ret (Some r) -> file_name (r_name r) -> (forall c, In c (r_colors r) -> ~ In 47 c) -> i_continue t s = Ret (Some ts, s') ->
  (forall p, In p (i_made s') <-> In p (i_made s) \/ (dget p (i_files s) = None /\ dget p (i_files s') <> None)) /\
  (forall p, In p (i_reused s') <-> In p (i_reused s) \/ (dget p (i_files s) <> None /\ exists c, In c (r_colors r) /\
     (p = svg_file (r_name r) c \/ (p = hash_file (r_name r) c /\ dget (svg_file (r_name r) c) (i_files s) = None)))) /\
  (forall p, In p (i_seen s') <-> In p (i_seen s) \/ (p = css_file /\ relpath <> css_file)).
Proof.
  intros W G FN SL E. pose proof (continue_ok _ _ _ _ _ W G FN SL E) as X. destruct (with_css_same s) as (Em & Er & Ef). split; [|split].
  - intros p. rewrite (x_made _ _ _ _ _ _ _ X). rewrite Em, Ef. reflexivity.
  - intros p. rewrite (x_reused _ _ _ _ _ _ _ X), Er, Ef. split.
    + intros [H|(c & Hc & [[-> H]|(-> & H1 & H2)])]; [auto|right; eauto|right; eauto 6].
    + intros [H|(H & c & Hc & [-> |[-> H1]])]; [auto|right; eauto|right; exists c; auto].
  - intros p. rewrite (x_seen _ _ _ _ _ _ _ X). apply with_css_seen.
Qed.
(** C57_scan *)
Lemma scan_fold r cs : file_name (r_name r) -> (forall c, In c cs -> ~ In 47 c) -> forall s,
  let s' := fold_left (fun s color =>
    let svg := output_svg (r_name r) color in let h := join2 (output_folder (r_name r)) (color ++ lit ".svg.hash") in
    {| i_seen := set_add h (i_seen s); i_made := set_add h (set_add svg (i_made s)); i_reused := i_reused s; i_files := i_files s |}) cs s in
  (forall p, In p (i_made s') <-> In p (i_made s) \/ exists c, In c cs /\ (p = svg_file (r_name r) c \/ p = hash_file (r_name r) c)) /\
  (forall p, In p (i_seen s') <-> In p (i_seen s) \/ exists c, In c cs /\ p = hash_file (r_name r) c) /\ i_files s' = i_files s.
Proof.
  intros FN. induction cs as [|c cs IH]; intros SL s; cbn [fold_left].
  - split; [|split; [|reflexivity]]; intros p; (split; [auto|intros [H|(c & [] & _)]; exact H]).
  - match goal with |- context [fold_left _ cs ?x] => destruct (IH ltac:(intros c' H; apply SL; right; exact H) x) as (A & B & C) end. cbv zeta in A, B, C |- *. cbn [i_made i_seen i_files] in A, B, C.
    rewrite (svg_ok _ c FN (SL c (or_introl eq_refl))), (scan_hash_ok _ c FN (SL c (or_introl eq_refl))) in *. split; [|split; [|exact C]].
    + intros p. rewrite A, !set_add_iff. split; [intros [[[H| ->]| ->]|(x & Hx & H)]; [auto|right; exists c; cbn; auto|right; exists c; cbn; auto|right; exists x; cbn; auto]|].
      intros [H|(x & [<-|Hx] & [-> | ->])]; auto; right; eauto.
    + intros p. rewrite B, set_add_iff. split; [intros [[H| ->]|(x & Hx & H)]; [auto|right; exists c; cbn; auto|right; exists x; cbn; auto]|]. intros [H|(x & [<-|Hx] & ->)]; auto; right; eauto.
Qed.
Lemma scanned_ok t r s : get t = Ret (Some r) -> file_name (r_name r) -> (forall c, In c (r_colors r) -> ~ In 47 c) -> exists s', i_start true t s = Ret (false, s') /\ i_files s' = i_files s /\
  (forall p, In p (i_made s') <-> In p (i_made s) \/ exists c, In c (r_colors r) /\ (p = svg_file (r_name r) c \/ p = hash_file (r_name r) c)) /\
  (forall p, In p (i_seen s') <-> In p (i_seen s) \/ (p = css_file /\ relpath <> css_file) \/ p = input_icon (r_name r) \/ exists c, In c (r_colors r) /\ p = hash_file (r_name r) c).
Proof.
  intros G FN SL. unfold IconManip.i_start. rewrite G. eexists. split; [reflexivity|]. unfold scan_command. fold (with_css s).
  match goal with |- context [fold_left _ (r_colors r) ?x] => destruct (scan_fold r (r_colors r) FN SL x) as (A & B & C) end. cbv zeta in A, B, C. cbn [i_made i_seen i_files] in A, B, C.
  destruct (with_css_same s) as (Em & Er & Ef). split; [rewrite <- Ef; exact C|]. split.
  - intros p. rewrite <- Em. apply A.
  - intros p. etransitivity; [apply B|]. rewrite set_add_iff, with_css_seen. tauto.
Qed.
Lemma start_build t r s : get t = Ret (Some r) -> i_start false t s = Ret (true, s).
Proof. intros G. unfold IconManip.i_start. rewrite G. reflexivity. Qed.
Lemma sheet (float_str : F -> str) t r s ts s' plain named : dict_wf (color_map cfg) -> get t = Ret (Some r) -> i_continue t s = Ret (Some ts, s') -> some_buttons plain named (r_buttons r) -> plain_text (r_name r) ->
  (forall c, In c (r_colors r ++ colors_of_buttons plain named) -> plain_text c) -> serialize_many float_str ts = separated (icon_sheet (r_name r) (r_sizes r) (r_colors r) plain named).
Proof.
  intros W G E B A C. destruct (request_ok _ _ W G) as (_ & _ & _ & NC & NS). destruct (continue_export _ _ _ _ _ G E) as (ts' & [= <-] & R & _).
  destruct (rules_text float_str r plain named B NC NS A C) as (ts2 & R2 & T). rewrite R in R2. apply Ret_inj in R2. subst ts2. exact T.
Qed.
Lemma url_files t r s ts s' plain named : dict_wf (color_map cfg) -> get t = Ret (Some r) -> file_name (r_name r) -> (forall c, In c (r_colors r) -> ~ In 47 c) -> i_continue t s = Ret (Some ts, s') ->
  some_buttons plain named (r_buttons r) ->
  (forall u, has_url ts u <-> exists c, In c (r_colors r ++ colors_of_buttons plain named) /\ u = lit "/img/icons/" ++ r_name r ++ lit "/" ++ c ++ lit ".svg") /\
  (incl (colors_of_buttons plain named) (r_colors r) -> forall u, has_url ts u -> dget (site_file u) (i_files s') <> None /\
     ((dget (site_file u) (i_files s) <> None -> dget (site_file u ++ lit ".hash") (i_files s) <> None) -> dget (site_file u ++ lit ".hash") (i_files s') <> None)).
Proof.
  intros W G FN SL E B. destruct (request_ok _ _ W G) as (_ & _ & _ & NC & NS). destruct (continue_export _ _ _ _ _ G E) as (ts' & [= <-] & R & _).
  pose proof (rules_urls r plain named ts B NS R) as U. split; [exact U|]. intros I u Hu. apply U in Hu. destruct Hu as (c & Hc & ->).
  assert (Hc' : In c (r_colors r)) by (apply in_app_iff in Hc; destruct Hc; [assumption|apply I; assumption]). clear Hc.
  change (site_file (web_path (r_name r) c)) with (svg_file (r_name r) c). change (svg_file (r_name r) c ++ lit ".hash") with (hash_file (r_name r) c).
  pose proof (continue_ok _ _ _ _ _ W G FN SL E) as X. destruct (with_css_same s) as (_ & _ & Ef).
  destruct (dget (svg_file (r_name r) c) (i_files s)) as [v|] eqn:Ev.
  - assert (Y := x_kept _ _ _ _ _ _ _ X _ _ (eq_trans (f_equal (dget (svg_file (r_name r) c)) Ef) Ev)). split; [congruence|]. intros H. specialize (H ltac:(discriminate)).
    destruct (dget (hash_file (r_name r) c) (i_files s)) as [h|] eqn:Eh; [|contradiction]. rewrite (x_kept _ _ _ _ _ _ _ X _ _ (eq_trans (f_equal (dget (hash_file (r_name r) c)) Ef) Eh)). discriminate.
  - rewrite <- Ef in Ev. destruct (x_svg _ _ _ _ _ _ _ X c Hc' Ev) as (text & c0 & c1 & _ & _ & _ & D & h & Dh & _). split; [congruence|]. intros _. congruence.
Qed.
End Manip.
Lemma source_ok name : file_name name -> input_icon name = source_file name.
Proof.
  intros [N S]. unfold input_icon, source_file, join_path. cbn [fold_left]. change (join2 (lit "src") (lit "public")) with (lit "src/public").
  change (join2 (lit "src/public") (lit "img")) with (lit "src/public/img"). change (join2 (lit "src/public/img") (lit "icons")) with (lit "src/public/img/icons").
  destruct name as [|c r]; [contradiction|]. unfold join2. cbn [app]. destruct (c =? 47) eqn:E; [|reflexivity].
  apply N.eqb_eq in E. exfalso. apply S. left. exact E.
Qed.

(** * A whole style sheet *)
Section Page.
Context {F : Type} (float_of : str -> option F) (high_digit : N -> bool) (int_high : str -> option Z).
Context (sha : str -> str) (cfg : icon_settings) (css_file relpath : str).
Notation get := (get_icon_command_args float_of high_digit int_high cfg).
Notation ms scan := [icons float_of high_digit int_high sha cfg css_file relpath scan].
Notation i_start := (i_start float_of high_digit int_high cfg css_file relpath).
Notation i_continue := (i_continue float_of high_digit int_high sha cfg css_file relpath).
Definition no_comment (t : @token F) : Prop := forall v, t <> TComment v.
Lemma no_comment_get t : no_comment t -> get t = Ret None.
Proof. intros H. unfold get_icon_command_args. destruct t; try reflexivity. exfalso. exact (H v eq_refl). Qed.
Lemma icon_rule_plain name size c : Forall no_comment (icon_rule name size c).
Proof. unfold icon_rule. repeat (apply Forall_cons; [intros v; discriminate|]). apply Forall_nil. Qed.
Lemma button_rules_plain name size suffix b : Forall no_comment (button_rules name size suffix b).
Proof. unfold button_rules. repeat (apply Forall_cons; [intros v; discriminate|]). apply Forall_nil. Qed.

Lemma Forall_flat {A B} (P : B -> Prop) (f : A -> list B) l : (forall x, Forall P (f x)) -> Forall P (flat_map f l).
Proof. intros H. induction l as [|x l IH]; cbn [flat_map]; [constructor|apply Forall_app; auto]. Qed.
Lemma icon_rules_plain r : Forall no_comment (icon_rules r).
Proof.
  unfold icon_rules. set (f := fun (out : list (@token F)) sc => _). assert (A : forall l acc, Forall no_comment acc -> Forall no_comment (fold_left f l acc)).
  { induction l as [|sc l IH]; intros acc H; cbn [fold_left]; [exact H|]. apply IH. unfold f. apply Forall_app. split; [|apply icon_rule_plain].
    destruct acc; [constructor|]. apply Forall_app. split; [exact H|]. apply Forall_cons; [intros v; discriminate|constructor]. }
  apply A. constructor.
Qed.
Lemma named_plain name size l : forall ts, named_rules name size l = Ret ts -> Forall no_comment ts.
Proof.
  induction l as [|[i [b|x]] l IH]; intros ts; cbn [named_rules]; [intros H; apply Ret_inj in H; subst; constructor| |discriminate].
  destruct (named_rules name size l) as [o|]; [|discriminate]. intros H. apply Ret_inj in H. subst. apply Forall_app. split; [apply button_rules_plain|apply IH; reflexivity].
Qed.
Lemma all_plain name b sizes : forall ts, all_buttons name b sizes = Ret ts -> Forall no_comment ts.
Proof.
  induction sizes as [|z sizes IH]; intros ts; cbn [all_buttons]; [intros H; apply Ret_inj in H; subst; constructor|].
  destruct (named_rules name z (named_buttons b)) as [n|] eqn:En; [|discriminate]. destruct (all_buttons name b sizes) as [o|]; [|discriminate].
  intros H. apply Ret_inj in H. subst. apply Forall_app. split; [destruct (plain_button b); [apply button_rules_plain|constructor]|]. apply Forall_app. split; [eapply named_plain; exact En|apply IH; reflexivity].
Qed.
Lemma rules_plain r ts : rules r = Ret ts -> Forall no_comment ts.
Proof.
  unfold rules. destruct (r_buttons r) as [b|]; [|intros H; apply Ret_inj in H; subst; apply icon_rules_plain].
  destruct (all_buttons (r_name r) b (r_sizes r)) as [o|] eqn:E; [|discriminate]. intros H. apply Ret_inj in H. subst. apply Forall_app. split; [apply icon_rules_plain|eapply all_plain; exact E].
Qed.

Inductive built : list (@token F) -> istate -> list (list (@token F)) -> istate -> Prop :=
| BuiltNil s : built [] s [] s
| BuiltOther t ts s ps s' : get t = Ret None -> built ts s ps s' -> built (t :: ts) s ([t] :: ps) s'
| BuiltIcon t r ts s p s1 ps s' : get t = Ret (Some r) -> i_continue t s = Ret (Some p, s1) -> built ts s1 ps s' -> built (t :: ts) s (p :: ps) s'.

Lemma loop_plain fuel stack : Forall no_comment stack -> forall b b', b_mark b = None -> loop (ms false) fuel stack b = Ret b' -> b' = {| b_out := b_out b ++ stack; b_mark := None; b_st := b_st b |}.
Proof.
  intros H. revert fuel. induction H as [|t stack Ht H IH]; intros fuel b b' M E.
  - destruct fuel; cbn [loop] in E; injection E as <-; rewrite app_nil_r; destruct b; cbn in *; subst; reflexivity.
  - destruct fuel; cbn [loop] in E; [discriminate|]. rewrite M in E. cbn [find_mark icons start_mark] in E. unfold IconManip.i_start in E. rewrite (no_comment_get _ Ht) in E.
    apply IH in E; [|reflexivity]. cbn [b_out b_st] in E. rewrite <- app_assoc in E. exact E.
Qed.
Lemma handle_ok fuel t b b' : b_mark b = None -> b_out b = [] -> handle_token (ms false) fuel t b = Ret b' -> b_mark b' = None /\
  ((get t = Ret None /\ b_out b' = [t] /\ b_st b' = b_st b) \/ exists r p, get t = Ret (Some r) /\ i_continue t (b_st b) = Ret (Some p, b_st b') /\ b_out b' = p).
Proof.
  intros M O. unfold handle_token. destruct fuel; cbn [loop]; [discriminate|]. rewrite M. cbn [find_mark icons start_mark continue_mark]. unfold IconManip.i_start.
  destruct (get t) as [[r|]|] eqn:G; [| |discriminate].
  - cbn [continue_mark icons]. destruct (i_continue t (b_st b)) as [[[p|] s1]|] eqn:E; [| |discriminate].
    + rewrite app_nil_r. intros L. destruct (continue_export _ _ _ _ _ _ _ _ _ _ _ _ G E) as (p' & [= <-] & R & _). apply loop_plain in L; [|exact (rules_plain _ _ R)|reflexivity].
      subst b'. cbn. split; [reflexivity|]. right. exists r, p. rewrite O. auto.
    + destruct (continue_export _ _ _ _ _ _ _ _ _ _ _ _ G E) as (p' & X & _). discriminate.
  - intros L. destruct fuel; cbn [loop] in L; injection L as <-; cbn; rewrite O; auto.
Qed.
Lemma pump_built fuel ts : forall b out b', b_mark b = None -> b_out b = [] -> pump (ms false) fuel ts b = Ret (out, b') ->
  b_mark b' = None /\ exists ps, out = concat ps /\ built ts (b_st b) ps (b_st b').
Proof.
  induction ts as [|t ts IH]; intros b out b' M O; cbn [pump].
  - intros [= <- <-]. split; [exact M|]. exists []. split; [reflexivity|constructor].
  - destruct (handle_token (ms false) fuel t b) as [b1|] eqn:E; [|discriminate]. unfold consume_tokens. destruct (pump _ fuel ts _) as [[o2 b3]|] eqn:P; [|discriminate].
    intros [= <- <-]. destruct (handle_ok _ _ _ _ M O E) as [M1 H]. apply IH in P; [|exact M1|reflexivity]. destruct P as (M3 & ps & -> & B). split; [exact M3|]. cbn [b_st] in B.
    destruct H as [(G & Eo & Es)|(r & p & G & C & Eo)].
    + exists ([t] :: ps). rewrite Eo. split; [reflexivity|]. apply BuiltOther; [exact G|]. rewrite Es in B. exact B.
    + exists (p :: ps). rewrite Eo. split; [reflexivity|]. eapply BuiltIcon; eassumption.
Qed.
Lemma built_pieces ts s ps s' : built ts s ps s' -> Forall2 (fun t p => match get t with Ret None => p = [t] | Ret (Some r) => rules r = Ret p | Raise _ => False end) ts ps.
Proof.
  induction 1 as [|? ? ? ? ? G|? ? ? ? ? ? ? ? G C]; [constructor|constructor; [rewrite G; reflexivity|assumption]|constructor; [rewrite G|assumption]].
  destruct (continue_export _ _ _ _ _ _ _ _ _ _ _ _ G C) as (p' & [= <-] & R & _). exact R.
Qed.

Definition all_usable (ts : list (@token F)) : Prop := forall r, requested get ts r -> usable r.
Lemma usable_tail t ts : all_usable (t :: ts) -> all_usable ts.
Proof. intros H r (x & Hx & G). apply H. exists x. cbn. auto. Qed.
Lemma usable_head t ts r : all_usable (t :: ts) -> get t = Ret (Some r) -> usable r.
Proof. intros H G. apply H. exists t. cbn. auto. Qed.
Lemma requested_cons t ts r : requested get (t :: ts) r <-> get t = Ret (Some r) \/ requested get ts r.
Proof. unfold requested. split; [intros (x & [<-|H] & G); eauto|intros [G|(x & H & G)]; exists x || exists t; cbn; auto]. Qed.
Context (W : dict_wf (color_map cfg)).
Definition images_of := fun t r s ts s' (U : usable r) G E => images float_of high_digit int_high sha cfg css_file relpath t r s ts s' W G (proj1 U) (proj2 U) E.
Definition reported_of := fun t r s ts s' (U : usable r) G E => reported float_of high_digit int_high sha cfg css_file relpath t r s ts s' W G (proj1 U) (proj2 U) E.
Lemma page_kept ts s ps s' : built ts s ps s' -> all_usable ts -> forall p v, dget p (i_files s) = Some v -> dget p (i_files s') = Some v.
Proof.
  induction 1 as [|? ? ? ? ? G B IH|? ? ? ? ? ? ? ? G C B IH]; intros U p0 v0 H; [exact H|apply IH; [exact (usable_tail _ _ U)|exact H]|].
  apply IH; [exact (usable_tail _ _ U)|]. apply (images_of _ _ _ _ _ (usable_head _ _ _ U G) G C). exact H.
Qed.
Lemma page_new ts s ps s' : built ts s ps s' -> all_usable ts -> forall p, dget p (i_files s) = None -> dget p (i_files s') <> None -> exists r, requested get ts r /\ file_of r p.
Proof.
  induction 1 as [|? ? ? ? ? G B IH|t r ? ? ? s1 ? ? G C B IH]; intros U p0 H1 H2; [contradiction| |].
  - destruct (IH (usable_tail _ _ U) p0 H1 H2) as (r & R & X). exists r. split; [apply requested_cons; auto|exact X].
  - destruct (dget p0 (i_files s1)) as [v|] eqn:E.
    + exists r. split; [apply requested_cons; auto|]. apply (images_of _ _ _ _ _ (usable_head _ _ _ U G) G C); [exact H1|congruence].
    + destruct (IH (usable_tail _ _ U) p0 E H2) as (r' & R & X). exists r'. split; [apply requested_cons; auto|exact X].
Qed.
Lemma page_made ts s ps s' : built ts s ps s' -> all_usable ts -> forall p, In p (i_made s') <-> In p (i_made s) \/ (dget p (i_files s) = None /\ dget p (i_files s') <> None).
Proof.
  induction 1 as [|? ? ? ? ? G B IH|t r ? ? ? s1 ? ? G C B IH]; intros U p0.
  - split; [auto|intros [H|[H1 H2]]; [exact H|contradiction]].
  - apply IH. exact (usable_tail _ _ U).
  - rewrite (IH (usable_tail _ _ U)). destruct (reported_of _ _ _ _ _ (usable_head _ _ _ U G) G C) as (R & _). rewrite R. clear R.
    pose proof (images_of _ _ _ _ _ (usable_head _ _ _ U G) G C) as (_ & K & _). pose proof (page_kept _ _ _ _ B (usable_tail _ _ U)) as K2.
    destruct (dget p0 (i_files s)) as [v|] eqn:E; [rewrite (K _ _ E); intuition discriminate|].
    destruct (dget p0 (i_files s1)) as [v|] eqn:E1; [rewrite (K2 _ _ E1); intuition discriminate|]. intuition congruence.
Qed.
Lemma page_reused ts s ps s' : built ts s ps s' -> all_usable ts -> (forall p, In p (i_reused s) -> In p (i_reused s')) /\
  forall p, In p (i_reused s') -> In p (i_reused s) \/ (dget p (i_files s') <> None /\ exists r, requested get ts r /\ file_of r p).
Proof.
  induction 1 as [|? ? ? ? ? G B IH|t r ? ? ? s1 ? ? G C B IH]; intros U.
  - auto.
  - destruct (IH (usable_tail _ _ U)) as [M I]. split; [exact M|]. intros p0 H. destruct (I p0 H) as [H1|(H1 & r & R & X)]; [auto|]. right. split; [exact H1|]. exists r. split; [apply requested_cons; auto|exact X].
  - destruct (IH (usable_tail _ _ U)) as [M I]. destruct (reported_of _ _ _ _ _ (usable_head _ _ _ U G) G C) as (_ & R & _).
    pose proof (images_of _ _ _ _ _ (usable_head _ _ _ U G) G C) as (_ & K & _). pose proof (page_kept _ _ _ _ B (usable_tail _ _ U)) as K2.
    split; [intros p0 H; apply M, R; auto|]. intros p0 H. destruct (I p0 H) as [H1|(H1 & r' & R' & X)].
    + apply R in H1. destruct H1 as [H1|(H1 & c & Hc & H2)]; [auto|]. right. split; [destruct (dget p0 (i_files s)) as [v|] eqn:E; [|contradiction]; rewrite (K2 _ _ (K _ _ E)); discriminate|].
      exists r. split; [apply requested_cons; auto|]. exists c. split; [exact Hc|]. tauto.
    + right. split; [exact H1|]. exists r'. split; [apply requested_cons; auto|exact X].
Qed.
Lemma page_seen ts s ps s' : built ts s ps s' -> all_usable ts -> forall p, In p (i_seen s') <-> In p (i_seen s) \/ (p = css_file /\ relpath <> css_file /\ exists r, requested get ts r).
Proof.
  induction 1 as [|? ? ? ? ? G B IH|t r ? ? ? s1 ? ? G C B IH]; intros U p0.
  - split; [auto|intros [H|(_ & _ & r & t & [] & _)]; exact H].
  - rewrite (IH (usable_tail _ _ U)). split; [intros [H|(A & D & r & R)]; [auto|right; repeat split; auto; exists r; apply requested_cons; auto]|].
    intros [H|(A & D & r & R)]; [auto|]. apply requested_cons in R. destruct R as [R|R]; [congruence|]. right. eauto.
  - rewrite (IH (usable_tail _ _ U)). destruct (reported_of _ _ _ _ _ (usable_head _ _ _ U G) G C) as (_ & _ & R). rewrite R.
    assert (Q : exists r, requested get (t :: ts) r) by (exists r; apply requested_cons; auto). tauto.
Qed.
Lemma page_svg ts s ps s' : built ts s ps s' -> all_usable ts -> forall r c, requested get ts r -> In c (r_colors r) ->
  (In (svg_file (r_name r) c) (i_made s') \/ In (svg_file (r_name r) c) (i_reused s')) /\ dget (svg_file (r_name r) c) (i_files s') <> None.
Proof.
  induction 1 as [|? ? ? ? ? G B IH|t r ? ? ? s1 ? ? G C B IH]; intros U r0 c0 Q Hc.
  - destruct Q as (t & [] & _).
  - apply requested_cons in Q. destruct Q as [Q|Q]; [congruence|]. apply IH; [exact (usable_tail _ _ U)|exact Q|exact Hc].
  - apply requested_cons in Q. destruct Q as [Q|Q]; [|apply IH; [exact (usable_tail _ _ U)|exact Q|exact Hc]]. rewrite G in Q. injection Q as <-.
    destruct (reported_of _ _ _ _ _ (usable_head _ _ _ U G) G C) as (_ & R & _). pose proof (images_of _ _ _ _ _ (usable_head _ _ _ U G) G C) as (I & K & _).
    pose proof (page_kept _ _ _ _ B (usable_tail _ _ U)) as K2. destruct (page_reused _ _ _ _ B (usable_tail _ _ U)) as [M _].
    destruct (dget (svg_file (r_name r) c0) (i_files s)) as [v|] eqn:E.
    + split; [|rewrite (K2 _ _ (K _ _ E)); discriminate]. right. apply M, R. right. split; [congruence|]. eauto.
    + destruct (I c0 Hc E) as (src & from & to & out & _ & _ & _ & _ & D & _). split; [|rewrite (K2 _ _ D); discriminate]. left.
      destruct (reported_of _ _ _ _ _ (usable_head _ _ _ U G) G C) as (R1 & _). apply (page_made _ _ _ _ B (usable_tail _ _ U)). left. apply R1. right. split; [exact E|congruence].
Qed.
Lemma svg_not_source a b c : svg_file a b <> source_file c.
Proof. unfold svg_file, site_file, source_file. intros H. apply (f_equal (@hd N 0)) in H. discriminate. Qed.
Lemma hash_not_source a b c : hash_file a b <> source_file c.
Proof. unfold hash_file, svg_file, site_file, source_file. intros H. apply (f_equal (@hd N 0)) in H. discriminate. Qed.
Lemma page_source ts s ps s' : built ts s ps s' -> all_usable ts -> forall n, dget (source_file n) (i_files s') = dget (source_file n) (i_files s).
Proof.
  intros B U n. destruct (dget (source_file n) (i_files s)) as [v|] eqn:E; [exact (page_kept _ _ _ _ B U _ _ E)|].
  destruct (dget (source_file n) (i_files s')) eqn:E'; [|reflexivity]. exfalso. destruct (page_new _ _ _ _ B U _ E ltac:(congruence)) as (r & _ & c & _ & [H|H]); symmetry in H; [exact (svg_not_source _ _ _ H)|exact (hash_not_source _ _ _ H)].
Qed.
Lemma svg_same a b n c : ~ In 47 a -> ~ In 47 n -> svg_file a b = svg_file n c -> a = n /\ b = c.
Proof.
  unfold svg_file, site_file. intros A N H. apply app_inv_head in H. apply app_inv_head in H. change (lit "/" ++ b ++ lit ".svg") with (47 :: b ++ lit ".svg") in H. change (lit "/" ++ c ++ lit ".svg") with (47 :: c ++ lit ".svg") in H.
  revert n N H. induction a as [|x a IH]; intros [|y n] N H; cbn [app] in H.
  - injection H as H. apply app_inv_tail in H. auto.
  - injection H as H _. exfalso. apply N. left. auto.
  - injection H as H _. exfalso. apply A. left. auto.
  - injection H as -> H. destruct (IH ltac:(intros X; apply A; right; exact X) n ltac:(intros X; apply N; right; exact X) H) as [-> ->]. auto.
Qed.
Lemma svg_hash a b n c : svg_file a b <> hash_file n c.
Proof.
  unfold hash_file, svg_file, site_file. rewrite !app_assoc. intros H. apply (f_equal (fun l => last l 0)) in H. rewrite !last_app in H by discriminate. discriminate H.
Qed.
Lemma page_images ts s ps s' : built ts s ps s' -> all_usable ts -> forall n c, file_name n -> dget (svg_file n c) (i_files s) = None -> dget (svg_file n c) (i_files s') <> None ->
  exists r src from to out, requested get ts r /\ r_name r = n /\ In c (r_colors r) /\ dget (source_file n) (i_files s) = Some src /\ In (r_initial r, from) (color_map cfg) /\ In (c, to) (color_map cfg) /\ recolored from to src out /\
    dget (svg_file n c) (i_files s') = Some out /\ (dget (hash_file n c) (i_files s) = None -> dget (hash_file n c) (i_files s') = Some (sha out)).
Proof.
  induction 1 as [|? ? ? ? ? G B IH|t r ts0 ? ? s1 ? ? G C B IH]; intros U n c0 FN0 H1 H2.
  - congruence.
  - destruct (IH (usable_tail _ _ U) n c0 FN0 H1 H2) as (r & src & from & to & out & Q & R). exists r, src, from, to, out. split; [apply requested_cons; auto|exact R].
  - pose proof (images_of _ _ _ _ _ (usable_head _ _ _ U G) G C) as (I & K & NW). pose proof (page_kept _ _ _ _ B (usable_tail _ _ U)) as K2.
    pose proof (usable_head _ _ _ U G) as [FN SL].
    assert (Y : forall x, In x (r_colors r) -> svg_file n c0 = svg_file (r_name r) x -> n = r_name r /\ c0 = x) by (intros x _; apply svg_same; [apply FN0|apply FN]).
    destruct (dget (svg_file n c0) (i_files s1)) as [v|] eqn:E.
    + clear H2 IH. destruct (NW _ H1 ltac:(congruence)) as (c & Hc & [X|X]); [|exfalso; exact (svg_hash _ _ _ _ X)].
      destruct (Y _ Hc X) as [-> ->]. destruct (I c Hc H1) as (src & from & to & o & S & A1 & A2 & A3 & A4 & A5). rewrite source_ok in S by exact FN.
      exists r, src, from, to, o. split; [apply requested_cons; auto|]. do 6 (split; [auto; fail|]). split; [apply K2, A4|]. intros Hh. apply K2, A5, Hh.
    + destruct (IH (usable_tail _ _ U) n c0 FN0 E H2) as (r' & src & from & to & out & Q & Q1 & Q2 & Q3 & Q4 & Q5 & Q6 & Q7 & Q8). exists r', src, from, to, out. split; [apply requested_cons; auto|]. split; [exact Q1|]. split; [exact Q2|].
      split; [|split; [exact Q4|split; [exact Q5|split; [exact Q6|split; [exact Q7|]]]]].
      * rewrite <- Q3. destruct (dget (source_file n) (i_files s)) as [x|] eqn:E1; [symmetry; exact (K _ _ E1)|].
        destruct (NW _ E1 ltac:(congruence)) as (c & _ & [X|X]); symmetry in X; exfalso; [exact (svg_not_source _ _ _ X)|exact (hash_not_source _ _ _ X)].
      * intros Hh. apply Q8. destruct (dget (hash_file n c0) (i_files s1)) as [h|] eqn:E1; [|reflexivity]. exfalso.
        destruct (NW _ Hh ltac:(congruence)) as (c & Hc & [X|X]); [symmetry in X; exact (svg_hash _ _ _ _ X)|]. apply app_inv_tail in X. destruct (Y _ Hc X) as [-> ->].
        destruct (I c Hc H1) as (? & ? & ? & ? & _ & _ & _ & _ & D & _). congruence.
Qed.
(** scanning *)
Lemma scan_handle fuel t b b' : b_mark b = None -> b_out b = [] -> handle_token (ms true) fuel t b = Ret b' -> b_mark b' = None /\ b_out b' = [t] /\ i_start true t (b_st b) = Ret (false, b_st b').
Proof.
  intros M O. unfold handle_token. destruct fuel; cbn [loop]; [discriminate|]. rewrite M. cbn [find_mark icons start_mark continue_mark].
  unfold IconManip.i_start. destruct (get t) as [[r|]|]; [| |discriminate]; intros L; destruct fuel; cbn [loop] in L; injection L as <-; cbn [b_mark b_out b_st]; rewrite O; auto.
Qed.
Lemma scan_page fuel ts : forall b out b', b_mark b = None -> b_out b = [] -> all_usable ts -> pump (ms true) fuel ts b = Ret (out, b') -> out = ts /\ i_files (b_st b') = i_files (b_st b) /\
  (forall p, In p (i_made (b_st b')) <-> In p (i_made (b_st b)) \/ exists r, requested get ts r /\ file_of r p) /\
  (forall p, In p (i_seen (b_st b')) <-> In p (i_seen (b_st b)) \/ exists r, requested get ts r /\ ((p = css_file /\ relpath <> css_file) \/ p = source_file (r_name r) \/ exists c, In c (r_colors r) /\ p = hash_file (r_name r) c)).
Proof.
  induction ts as [|t ts IH]; intros b out b' M O U; cbn [pump].
  - intros [= <- <-]. split; [reflexivity|]. split; [reflexivity|]. split; intros p; (split; [auto|intros [H|(r & (t & [] & _) & _)]; exact H]).
  - destruct (handle_token (ms true) fuel t b) as [b1|] eqn:E; [|discriminate]. unfold consume_tokens. destruct (pump _ fuel ts _) as [[o2 b3]|] eqn:P; [|discriminate].
    intros [= <- <-]. destruct (scan_handle _ _ _ _ M O E) as (M1 & O1 & S). apply IH in P; [|exact M1|reflexivity|exact (usable_tail _ _ U)]. cbn [b_st] in P. destruct P as (-> & Ef & A & B).
    rewrite O1. split; [reflexivity|]. destruct (get t) as [[r|]|] eqn:G.
    + destruct (usable_head _ _ _ U G) as [FN SL]. destruct (scanned_ok float_of high_digit int_high sha cfg css_file relpath t r (b_st b) G FN SL) as (s1 & S1 & Ef1 & A1 & B1).
      rewrite S in S1. injection S1 as <-. split; [congruence|]. rewrite source_ok in B1 by exact FN. split.
      * intros p. rewrite A, A1. split; [intros [[H|X]|(r' & R & X)]; [auto|right; exists r; split; [apply requested_cons; auto|exact X]|right; exists r'; split; [apply requested_cons; auto|exact X]]|].
        intros [H|(r' & R & X)]; [auto|]. apply requested_cons in R. destruct R as [R|R]; [|eauto]. rewrite G in R. injection R as <-. auto.
      * intros p. rewrite B, B1. split; [intros [[H|X]|(r' & R & X)]; [auto|right; exists r; split; [apply requested_cons; auto|exact X]|right; exists r'; split; [apply requested_cons; auto|exact X]]|].
        intros [H|(r' & R & X)]; [auto|]. apply requested_cons in R. destruct R as [R|R]; [|eauto]. rewrite G in R. injection R as <-. auto.
    + unfold IconManip.i_start in S. rewrite G in S. injection S as S. rewrite <- S in *. split; [exact Ef|].
      assert (Z : forall r, requested get (t :: ts) r <-> requested get ts r) by (intros r; rewrite requested_cons; split; [intros [X|X]; [congruence|exact X]|auto]).
      split; intros p; [rewrite A|rewrite B]; (split; (intros [H|(r & R & X)]; [auto|right; exists r; split; [apply Z, R|exact X]])).
    + unfold IconManip.i_start in S. rewrite G in S. discriminate.
Qed.
(** a sheet with sources and good buttons is built *)
Lemma built_total ts : all_usable ts -> (forall t, In t ts -> exists o, get t = Ret o) -> forall s,
  (forall r, requested get ts r -> dget (source_file (r_name r)) (i_files s) <> None /\ exists plain named, some_buttons plain named (r_buttons r)) -> exists ps s', built ts s ps s'.
Proof.
  induction ts as [|t ts IH]; intros U R s H; [exists [], s; constructor|]. destruct (R t (or_introl eq_refl)) as [[r|] G].
  - destruct (H r ltac:(apply requested_cons; auto)) as (S & plain & named & SB). pose proof (usable_head _ _ _ U G) as [FN SL]. rewrite <- source_ok in S by exact FN.
    destruct (continue_total float_of high_digit int_high sha cfg css_file relpath t r s plain named W G SB S) as (p & s1 & C).
    destruct (IH (usable_tail _ _ U) (fun x Hx => R x (or_intror Hx)) s1) as (ps & s' & B).
    { intros r' Q. destruct (H r' ltac:(apply requested_cons; auto)) as (S' & SB'). split; [|exact SB']. destruct (dget (source_file (r_name r')) (i_files s)) eqn:E; [|contradiction].
      rewrite (proj1 (proj2 (images_of _ _ _ _ _ (conj FN SL) G C)) _ _ E). discriminate. }
    exists (p :: ps), s'. eapply BuiltIcon; eassumption.
  - destruct (IH (usable_tail _ _ U) (fun x Hx => R x (or_intror Hx)) s) as (ps & s' & B); [intros r Q; apply H, requested_cons; auto|]. exists ([t] :: ps), s'. apply BuiltOther; assumption.
Qed.
Lemma loop_enough stack : Forall no_comment stack -> forall k b, b_mark b = None -> loop (ms false) (length stack + k) stack b = Ret {| b_out := b_out b ++ stack; b_mark := None; b_st := b_st b |}.
Proof.
  induction 1 as [|t stack Ht H IH]; intros k b M; cbn [length plus loop].
  - destruct k; cbn [plus loop]; rewrite app_nil_r; destruct b; cbn in *; subst; reflexivity.
  - rewrite M. cbn [find_mark icons start_mark]. unfold IconManip.i_start. rewrite (no_comment_get _ Ht). rewrite IH by reflexivity. cbn [b_out b_st]. rewrite <- app_assoc. reflexivity.
Qed.
Lemma built_pump ts s ps s' : built ts s ps s' -> forall fuel, (forall p, In p ps -> (length p < fuel)%nat) -> forall b, b_mark b = None -> b_out b = [] -> b_st b = s ->
  exists b', pump (ms false) fuel ts b = Ret (concat ps, b') /\ b_st b' = s'.
Proof.
  induction 1 as [s|t ts s ps s' G B IH|t r ts s p s1 ps s' G C B IH]; intros fuel L b M O E; cbn [pump].
  - exists b. auto.
  - assert (H : handle_token (ms false) fuel t b = Ret {| b_out := [t]; b_mark := None; b_st := s |}).
    { specialize (L [t] (or_introl eq_refl)). cbn [length] in L. destruct fuel as [|[|k]]; try lia. unfold handle_token. cbn [loop]. rewrite M. cbn [find_mark icons start_mark]. unfold IconManip.i_start. rewrite G, O, E. reflexivity. }
    rewrite H. cbn [consume_tokens b_out b_mark b_st]. edestruct IH as (b' & P & S); [| | | |rewrite P; exists b'; split; [reflexivity|exact S]]; try reflexivity. intros p Hp. apply L. right. exact Hp.
  - assert (H : handle_token (ms false) fuel t b = Ret {| b_out := p; b_mark := None; b_st := s1 |}).
    { specialize (L p (or_introl eq_refl)). destruct fuel as [|k]; [lia|]. unfold handle_token. cbn [loop]. rewrite M. cbn [find_mark icons start_mark]. unfold IconManip.i_start. rewrite G. cbn [continue_mark icons]. rewrite E, C.
      rewrite app_nil_r. destruct (continue_export _ _ _ _ _ _ _ _ _ _ _ _ G C) as (p' & [= <-] & R & _). replace k with (length p + (k - length p))%nat by lia. rewrite (loop_enough _ (rules_plain _ _ R)) by reflexivity. cbn [b_out b_st]. rewrite O. reflexivity. }
    rewrite H. cbn [consume_tokens b_out b_mark b_st]. edestruct IH as (b' & P & S); [| | | |rewrite P; exists b'; split; [reflexivity|exact S]]; try reflexivity. intros q Hq. apply L. right. exact Hq.
Qed.
End Page.

Section Final.
Context {F : Type} (float_of : str -> option F) (high_digit : N -> bool) (int_high : str -> option Z) (float_str : F -> str).
Context (sha : str -> str) (cfg : icon_settings) (css_file relpath : str).
Context (W : dict_wf (color_map cfg)).
Notation get := (get_icon_command_args float_of high_digit int_high cfg).
Notation ms scan := [icons float_of high_digit int_high sha cfg css_file relpath scan].
Lemma final_sheet fuel ts f out b : pump (ms false) fuel ts (beginning f) = Ret (out, b) ->
  exists ps, out = concat ps /\ Forall2 (fun t p =>
    (get t = Ret None /\ p = [t]) \/
    exists r, get t = Ret (Some r) /\ forall plain named, some_buttons plain named (r_buttons r) -> plain_text (r_name r) -> (forall c, In c (r_colors r ++ colors_of_buttons plain named) -> plain_text c) ->
      serialize_many float_str p = separated (icon_sheet (r_name r) (r_sizes r) (r_colors r) plain named)) ts ps.
Proof.
  intros P. apply pump_built in P; try reflexivity. destruct P as (_ & ps & -> & B). exists ps. split; [reflexivity|]. remember (b_st (beginning f)) as s. remember (b_st b) as s'. clear Heqs Heqs'.
  induction B as [|t ts s ps s' G B IH|t r ts s p s1 ps s' G C B IH]; [constructor|constructor; [left; auto|exact IH]|constructor; [|exact IH]].
  right. exists r. split; [exact G|]. intros plain named SB A H. eapply (sheet float_of high_digit int_high sha cfg css_file relpath float_str); eassumption.
Qed.
Lemma final_urls fuel ts f out b : (forall r, requested get ts r -> usable r) -> pump (ms false) fuel ts (beginning f) = Ret (out, b) ->
  exists ps, out = concat ps /\ Forall2 (fun t p => forall r plain named, get t = Ret (Some r) -> some_buttons plain named (r_buttons r) ->
    (forall u, has_url p u <-> exists c, In c (r_colors r ++ colors_of_buttons plain named) /\ u = lit "/img/icons/" ++ r_name r ++ lit "/" ++ c ++ lit ".svg") /\
    (incl (colors_of_buttons plain named) (r_colors r) -> forall u, has_url p u -> dget (site_file u) (i_files (b_st b)) <> None /\
      ((forall c, In c (r_colors r) -> dget (svg_file (r_name r) c) f <> None -> dget (hash_file (r_name r) c) f <> None) -> dget (site_file u ++ lit ".hash") (i_files (b_st b)) <> None))) ts ps.
Proof.
  intros U P. apply pump_built in P; try reflexivity. destruct P as (_ & ps & -> & B). exists ps. split; [reflexivity|]. cbn [b_st beginning] in B.
  assert (X : forall r c, requested get ts r -> In c (r_colors r) -> dget (svg_file (r_name r) c) (i_files (b_st b)) <> None /\
     ((dget (svg_file (r_name r) c) f <> None -> dget (hash_file (r_name r) c) f <> None) -> dget (hash_file (r_name r) c) (i_files (b_st b)) <> None)).
  { intros r c Q Hc. destruct (page_svg _ _ _ _ _ _ _ W _ _ _ _ B U r c Q Hc) as [_ D]. split; [exact D|]. intros H.
    destruct (dget (hash_file (r_name r) c) f) as [h|] eqn:Eh; [rewrite (page_kept _ _ _ _ _ _ _ W _ _ _ _ B U _ _ Eh); discriminate|].
    destruct (dget (svg_file (r_name r) c) f) as [v|] eqn:Ev; [exfalso; apply H; congruence|].
    destruct (page_images _ _ _ _ _ _ _ W _ _ _ _ B U (r_name r) c (proj1 (U r Q)) Ev D) as (? & ? & ? & ? & o & _ & _ & _ & _ & _ & _ & _ & _ & I). cbn [i_init i_files] in I. rewrite (I Eh). discriminate. }
  assert (Y : forall t (p : list (@token F)) r, get t = Ret (Some r) -> rules r = Ret p -> In t ts -> forall plain named, some_buttons plain named (r_buttons r) ->
    (forall u, has_url p u <-> exists c, In c (r_colors r ++ colors_of_buttons plain named) /\ u = lit "/img/icons/" ++ r_name r ++ lit "/" ++ c ++ lit ".svg") /\
    (incl (colors_of_buttons plain named) (r_colors r) -> forall u, has_url p u -> dget (site_file u) (i_files (b_st b)) <> None /\
      ((forall c, In c (r_colors r) -> dget (svg_file (r_name r) c) f <> None -> dget (hash_file (r_name r) c) f <> None) -> dget (site_file u ++ lit ".hash") (i_files (b_st b)) <> None))).
  { intros t p r G R Ht plain named SB. destruct (request_ok _ _ _ _ _ _ W G) as (_ & _ & _ & NC & NS). pose proof (rules_urls r plain named p SB NS R) as Z. split; [exact Z|].
    intros I u Hu. apply Z in Hu. destruct Hu as (c & Hc & ->). assert (Hc' : In c (r_colors r)) by (apply in_app_iff in Hc; destruct Hc; [assumption|apply I; assumption]).
    assert (Q : requested get ts r) by (exists t; auto). destruct (X r c Q Hc') as [X1 X2]. split; [exact X1|]. intros H. apply X2, H, Hc'. }
  apply built_pieces in B. clear - B Y. revert Y. generalize (incl_refl ts). generalize ts at 2 3. induction B as [|t p ts ps H B IH]; intros all I Y; constructor.
  - intros r plain named G. rewrite G in H. apply (Y t p r G H). apply I. left. reflexivity.
  - apply (IH all); [intros x Hx; apply I; right; exact Hx|exact Y].
Qed.
Lemma final_images fuel ts f out b : (forall r, requested get ts r -> usable r) -> pump (ms false) fuel ts (beginning f) = Ret (out, b) ->
  (forall p v, dget p f = Some v -> dget p (i_files (b_st b)) = Some v) /\
  (forall r c, requested get ts r -> In c (r_colors r) -> dget (svg_file (r_name r) c) f = None ->
    exists r1 src from to svg, requested get ts r1 /\ r_name r1 = r_name r /\ In c (r_colors r1) /\ dget (source_file (r_name r)) f = Some src /\ In (r_initial r1, from) (color_map cfg) /\ In (c, to) (color_map cfg) /\ recolored from to src svg /\
      dget (svg_file (r_name r) c) (i_files (b_st b)) = Some svg /\ (dget (hash_file (r_name r) c) f = None -> dget (hash_file (r_name r) c) (i_files (b_st b)) = Some (sha svg))) /\
  (forall p, dget p f = None -> dget p (i_files (b_st b)) <> None -> exists r, requested get ts r /\ file_of r p).
Proof.
  intros U P. apply pump_built in P; try reflexivity. destruct P as (_ & ps & -> & B). cbn [b_st beginning] in B. split; [|split].
  - exact (page_kept _ _ _ _ _ _ _ W _ _ _ _ B U).
  - intros r c Q Hc N. destruct (page_svg _ _ _ _ _ _ _ W _ _ _ _ B U r c Q Hc) as [_ D]. exact (page_images _ _ _ _ _ _ _ W _ _ _ _ B U (r_name r) c (proj1 (U r Q)) N D).
  - exact (page_new _ _ _ _ _ _ _ W _ _ _ _ B U).
Qed.
Lemma final_reported fuel ts f out b : (forall r, requested get ts r -> usable r) -> pump (ms false) fuel ts (beginning f) = Ret (out, b) ->
  (forall p, In p (i_made (b_st b)) <-> dget p f = None /\ dget p (i_files (b_st b)) <> None) /\
  (forall p, In p (i_reused (b_st b)) -> dget p (i_files (b_st b)) <> None /\ exists r, requested get ts r /\ file_of r p) /\
  (forall r c, requested get ts r -> In c (r_colors r) -> In (svg_file (r_name r) c) (i_made (b_st b)) \/ In (svg_file (r_name r) c) (i_reused (b_st b))) /\
  (forall p, In p (i_seen (b_st b)) <-> p = css_file /\ relpath <> css_file /\ exists r, requested get ts r).
Proof.
  intros U P. apply pump_built in P; try reflexivity. destruct P as (_ & ps & -> & B). cbn [b_st beginning] in B. split; [|split; [|split]].
  - intros p. rewrite (page_made _ _ _ _ _ _ _ W _ _ _ _ B U p). cbn [i_init i_made i_files In]. tauto.
  - intros p H. destruct (page_reused _ _ _ _ _ _ _ W _ _ _ _ B U) as [_ X]. destruct (X p H) as [[]|Y]. exact Y.
  - intros r c Q Hc. apply (page_svg _ _ _ _ _ _ _ W _ _ _ _ B U r c Q Hc).
  - intros p. rewrite (page_seen _ _ _ _ _ _ _ W _ _ _ _ B U p). cbn [i_init i_seen In]. tauto.
Qed.
Lemma final_scan fuel ts f out b : (forall r, requested get ts r -> usable r) -> pump (ms true) fuel ts (beginning f) = Ret (out, b) ->
  out = ts /\ i_files (b_st b) = f /\ (forall p, In p (i_made (b_st b)) <-> exists r, requested get ts r /\ file_of r p) /\
  (forall p, In p (i_seen (b_st b)) <-> exists r, requested get ts r /\ ((p = css_file /\ relpath <> css_file) \/ p = source_file (r_name r) \/ exists c, In c (r_colors r) /\ p = hash_file (r_name r) c)).
Proof.
  intros U P. apply scan_page in P; try reflexivity; [|exact U]. cbn [b_st beginning i_init i_files i_made i_seen In] in P. destruct P as (A & B & C & D). split; [exact A|]. split; [exact B|].
  split; intros p; [rewrite C|rewrite D]; tauto.
Qed.
Lemma final_agree fuel1 fuel2 ts f1 f2 out1 out2 b1 b2 : (forall r, requested get ts r -> usable r) ->
  pump (ms true) fuel1 ts (beginning f1) = Ret (out1, b1) -> pump (ms false) fuel2 ts (beginning f2) = Ret (out2, b2) ->
  incl (i_made (b_st b2)) (i_made (b_st b1)) /\ incl (i_reused (b_st b2)) (i_made (b_st b1)) /\ incl (i_seen (b_st b2)) (i_seen (b_st b1)).
Proof.
  intros U P1 P2. destruct (final_scan _ _ _ _ _ U P1) as (_ & _ & M & S). destruct (final_reported _ _ _ _ _ U P2) as (M2 & R2 & _ & S2). destruct (final_images _ _ _ _ _ U P2) as (_ & _ & N).
  split; [|split]; intros p H.
  - apply M. apply M2 in H. apply N; apply H.
  - apply M. apply (R2 p H).
  - apply S. apply S2 in H. destruct H as (A & B & r & R). exists r. auto.
Qed.
Lemma final_total ts f : (forall r, requested get ts r -> usable r) -> (forall t, In t ts -> exists o, get t = Ret o) ->
  (forall r, requested get ts r -> dget (source_file (r_name r)) f <> None /\ exists plain named, some_buttons plain named (r_buttons r)) ->
  exists fuel out b, pump (ms false) fuel ts (beginning f) = Ret (out, b).
Proof.
  intros U R H. destruct (built_total float_of high_digit int_high sha cfg css_file relpath W ts U R (i_init f) H) as (ps & s' & B).
  destruct (built_pump float_of high_digit int_high sha cfg css_file relpath ts _ _ _ B (S (list_max (map (@length _) ps)))) with (b := @beginning F f) as (b' & P & _); try reflexivity.
  - intros p Hp. apply le_n_S. assert (L := proj1 (list_max_le (map (@length _) ps) _) (le_n _)). rewrite Forall_forall in L. apply L, in_map, Hp.
  - eauto.
Qed.
End Final.
