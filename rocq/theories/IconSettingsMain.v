(** C65: the settings for icons. *)
From Verif Require Import Base Graph Json Css CssSpec CssTerm Handlers IconColor IconColorSpec IconColorProofs IconParse IconManip ImgMeta IconSettings IconSettingsSpec IconSettingsProofs.
From Coq Require Import String ZArith NArith Bool List Lia.
Import ListNotations.
Open Scope list_scope.
Open Scope N_scope.

Section Main.
Context {F : Type} (float_of : str -> option F) (high_digit : N -> bool) (int_high : str -> option Z) (plain : N -> N) (lower_high : N -> str).
Notation tok := (token (F := F)).
Notation tokenize := (tokenize float_of high_digit int_high).
Notation load := (load_icon_settings float_of high_digit int_high plain lower_high).
Notation load_sheet := (load_sheet float_of high_digit int_high plain lower_high).
Notation says := (says plain lower_high).
Lemma size_names_app (a b : list (str * list tok)) : size_names (a ++ b) = size_names a ++ size_names b.
Proof. induction a as [|d a IH]; [reflexivity|]. cbn [app size_names]. rewrite IH. destruct (starts_with _ _); reflexivity. Qed.
Lemma size_order s s' (ds : list (str * list tok)) : sooner (lit "--icon-size-" ++ s) (lit "--icon-size-" ++ s') (map fst ds) -> sooner s s' (size_names ds).
Proof.
  intros (l1 & l2 & E & N & I2 & D). apply map_eq_app in E. destruct E as (d1 & d2 & -> & <- & E). destruct d2 as [|[k v] d2]; [discriminate|].
  cbn [map fst] in E. assert (E1 : k = lit "--icon-size-" ++ s) by (exact (f_equal (fun l => match l with x :: _ => x | [] => [] end) E)).
  assert (E2 : map fst d2 = l2) by (exact (f_equal (@tl str) E)). subst k l2.
  exists (size_names d1), (size_names d2). split.
  { rewrite size_names_app. cbn [size_names fst]. rewrite starts_app. change 12%nat with (length (lit "--icon-size-")). rewrite skipn_app_exact. reflexivity. }
  split; [rewrite size_names_in; intros [w H]; apply N; exact (in_map fst _ _ H)|]. split.
  - apply size_names_in. apply in_map_iff in I2. destruct I2 as ([k w] & E3 & H). cbn [fst] in E3. subst k. exists w. exact H.
  - intros ->. exact (D eq_refl).
Qed.
Lemma says_noted (ds : list (str * list tok)) b : says ds {| color_map := fst (all_noted plain lower_high ds ([], [])); icon_sizes := distinct (snd (all_noted plain lower_high ds ([], []))); default_buttons := b |}.
Proof.
  unfold IconSettingsSpec.says. cbn [color_map icon_sizes]. rewrite sizes_from. cbn [snd app]. split; [intros; apply colors_noted|].
  split; [intros s; rewrite distinct_in; apply size_names_in|]. split; [apply distinct_nodup|]. intros s s' H. apply distinct_order, size_order, H.
Qed.
Lemma load_shape config f text ts e b : load_buttons config = Ret b -> dget (lit "src/public/css/main.css") f = Some text -> tokenize text = (ts, e) ->
  load config f = bind (read_root plain lower_high ts e) (fun x => Ret {| color_map := fst x; icon_sizes := distinct (snd x); default_buttons := Some b |}).
Proof. intros B H T. unfold load_icon_settings. rewrite B. cbn [bind]. unfold IconSettings.load_sheet. rewrite H, T. reflexivity. Qed.
Lemma load_rule config f text ts e b pre rule ds body r : load_buttons config = Ret b -> dget (lit "src/public/css/main.css") f = Some text -> tokenize text = (ts, e) ->
  ts = pre ++ rule ++ body ++ r -> no_root pre -> root_rule rule -> declared ds body -> stops r ->
  exists cfg, load config f = Ret cfg /\ says ds cfg /\ default_buttons cfg = Some b.
Proof.
  intros B H T -> N R D S. rewrite (load_shape _ _ _ _ _ _ B H T), (read_rule _ _ _ _ _ _ _ _ N R D S). eexists. split; [reflexivity|]. split; [apply says_noted|reflexivity].
Qed.
Lemma load_closed config f text ts e b pre rule ds body g post : load_buttons config = Ret b -> dget (lit "src/public/css/main.css") f = Some text -> tokenize text = (ts, e) ->
  ts = pre ++ rule ++ body ++ g ++ TRCurly :: post -> no_root pre -> root_rule rule -> declared ds body -> gaps g ->
  exists cfg, load config f = Ret cfg /\ says ds cfg /\ default_buttons cfg = Some b.
Proof.
  intros B H T E N R D G. apply (load_rule _ _ _ _ _ _ _ _ _ _ _ B H T E N R D). left. exists g, TRCurly, post. repeat split; auto. discriminate.
Qed.
Lemma load_cut config f text ts e b pre rule ds body n v o g t post : load_buttons config = Ret b -> dget (lit "src/public/css/main.css") f = Some text -> tokenize text = (ts, e) ->
  ts = pre ++ rule ++ body ++ o ++ g ++ t :: post -> no_root pre -> root_rule rule -> declared ds body -> opened n v o -> gaps g -> ~ gap t -> t <> TSemicolon ->
  exists cfg, load config f = Ret cfg /\ says ds cfg /\ default_buttons cfg = Some b.
Proof.
  intros B H T E N R D O G K S. apply (load_rule _ _ _ _ _ _ _ _ _ _ _ B H T E N R D). right. exists n, v, o, g, t, post. repeat split; assumption.
Qed.
Lemma load_nothing config f b : load_buttons config = Ret b ->
  (dget (lit "src/public/css/main.css") f = None \/ exists text ts, dget (lit "src/public/css/main.css") f = Some text /\ tokenize text = (ts, None) /\ no_root ts) ->
  load config f = Ret {| color_map := []; icon_sizes := []; default_buttons := Some b |}.
Proof.
  intros B [H|(text & ts & H & T & N)].
  - unfold load_icon_settings. rewrite B. cbn [bind]. unfold IconSettings.load_sheet. rewrite H. reflexivity.
  - rewrite (load_shape _ _ _ _ _ _ B H T), (read_none _ _ _ N). reflexivity.
Qed.
Lemma load_total config f b : load_buttons config = Ret b ->
  (exists cfg, load config f = Ret cfg) \/ exists e, load config f = Raise e /\ (e = TypeError \/ e = ValueError).
Proof.
  intros B. destruct (dget (lit "src/public/css/main.css") f) as [text|] eqn:H; [|left; eexists; apply (load_nothing config f b B); auto].
  destruct (tokenize text) as [ts e] eqn:T. rewrite (load_shape _ _ _ _ _ _ B H T). destruct (read_total plain lower_high ts e) as [[x ->]|(x & -> & ->)].
  - left. eexists. reflexivity.
  - right. exists x. split; [reflexivity|]. exact (proj1 (proj2 (tokenize_end _ _ _ _ _ _ T))).
Qed.
End Main.

(** * Buttons *)
Lemma color_told k d other : In k color_keys -> worded d -> color_name k d other = Ret (Some (told k d other)).
Proof. intros K W. unfold color_name, told. destruct (dget k d) as [v|] eqn:E; [|reflexivity]. destruct (W _ _ K E) as [s ->]. reflexivity. Qed.
Lemma three_told d other : worded d -> three_colors d other = Ret (Some (told_setting d other)).
Proof.
  intros W. unfold three_colors. rewrite (color_told (lit "active_color") d (active other)) by (cbn; auto). cbn [bind].
  rewrite (color_told (lit "hover_color") d (hover other)) by (cbn; auto). cbn [bind].
  rewrite (color_told (lit "disabled_color") d (disabled other)) by (cbn; auto). reflexivity.
Qed.
Lemma color_cases k d other : In k color_keys -> worded_or_null d -> exists o, color_name k d other = Ret o /\ (o = None <-> dget k d = Some JNull).
Proof.
  intros K W. unfold color_name. destruct (dget k d) as [v|] eqn:E; [|eexists; split; [reflexivity|split; discriminate]].
  destruct (W _ _ K E) as [->|[s ->]]; eexists; (split; [reflexivity|split; congruence]).
Qed.
Lemma three_null d other : worded_or_null d -> has_null d -> three_colors d other = Ret None.
Proof.
  intros W (k & K & E). unfold three_colors.
  destruct (color_cases (lit "active_color") d (active other) (or_introl eq_refl) W) as (a & -> & A).
  destruct (color_cases (lit "hover_color") d (hover other) (or_intror (or_introl eq_refl)) W) as (h & -> & H).
  destruct (color_cases (lit "disabled_color") d (disabled other) (or_intror (or_intror (or_introl eq_refl))) W) as (x & -> & X). cbn [bind].
  destruct K as [<-|[<-|[<-|[]]]].
  - rewrite (proj2 A E). reflexivity.
  - rewrite (proj2 H E). destruct a; reflexivity.
  - rewrite (proj2 X E). destruct a, h; reflexivity.
Qed.
Lemma default_asked icons o : asked icons o -> load_default_button icons = Ret o.
Proof.
  unfold load_default_button. intros [[-> ->]|[(d & -> & W & ->)|[(d & -> & W & N & ->)|[-> ->]]]].
  - reflexivity.
  - rewrite (three_told _ _ W). reflexivity.
  - rewrite (three_null _ _ W N). reflexivity.
  - reflexivity.
Qed.
Lemma named_told b l : Forall (fun kv => exists d, snd kv = JObj d /\ (worded d \/ (worded_or_null d /\ has_null d))) l -> NoDup (map fst l) ->
  forall acc, (forall k, In k (map fst l) -> dget k acc = None) ->
  exists named, load_named_buttons (Some b) l acc = Ret named /\
  forall k s, dget k named = Some s <-> dget k acc = Some s \/ exists d, dget k l = Some (JObj d) /\ ~ has_null d /\ s = told_setting d b.
Proof.
  induction l as [|[name v] l IH]; intros A N acc D.
  - exists acc. split; [reflexivity|]. intros k s. split; [auto|]. intros [H|(d & H & _)]; [exact H|discriminate].
  - inversion A as [|? ? (d & E & W) A']; subst. cbn [snd] in E. subst v. inversion N as [|? ? N1 N2]; subst. cbn [load_named_buttons].
    destruct W as [W|[W H]].
    + rewrite (three_told _ _ W). cbn [bind].
      assert (NH : ~ has_null d) by (intros (k & K & Q); destruct (W _ _ K Q) as [s ?]; discriminate).
      destruct (IH A' N2 (dset name (told_setting d b) acc)) as (named & L & Q).
      { intros k K. rewrite Base.dget_dset_other by (intros ->; exact (N1 K)). apply D. right. exact K. }
      exists named. split; [exact L|]. intros k s. rewrite Q. cbn [dget fst]. destruct (str_eqb k name) eqn:E.
      * apply str_eqb_eq in E. subst k. rewrite Base.dget_dset_same. rewrite (D name (or_introl eq_refl)). split.
        -- intros [H|(d' & H & _)]; [right; exists d; split; [reflexivity|]; split; [exact NH|congruence]|].
           exfalso. apply N1. apply in_map_iff. apply dget_In in H. eexists. split; [|exact H]. reflexivity.
        -- intros [H|(d' & H & _ & ->)]; [discriminate|]. left. congruence.
      * rewrite Base.dget_dset_other by (apply str_eqb_neq in E; congruence). reflexivity.
    + rewrite (three_null _ _ W H). cbn [bind]. destruct (IH A' N2 acc) as (named & L & Q); [intros k K; apply D; right; exact K|].
      exists named. split; [exact L|]. intros k s. rewrite Q. cbn [dget fst]. destruct (str_eqb k name) eqn:E; [|reflexivity].
      apply str_eqb_eq in E. subst k. split; intros [X|(d' & X & Y & Z)]; auto.
      * exfalso. apply N1. apply in_map_iff. apply dget_In in X. eexists. split; [|exact X]. reflexivity.
      * injection X as <-. destruct (Y H).
Qed.
Lemma buttons_told config icons b l : dget (lit "icons") config = Some (JObj icons) -> asked icons (Some b) ->
  dget (lit "button_by_identifier") icons = Some (JObj l) ->
  Forall (fun kv => exists d, snd kv = JObj d /\ (worded d \/ (worded_or_null d /\ has_null d))) l -> NoDup (map fst l) ->
  exists named, load_buttons config = Ret (mkSettings (Some b) named) /\
  forall k s, dget k named = Some s <-> exists d, dget k l = Some (JObj d) /\ ~ has_null d /\ s = told_setting d b.
Proof.
  intros C A B W N. destruct (named_told b l W N [] (fun _ _ => eq_refl)) as (named & L & Q). exists named. split.
  - unfold load_buttons. rewrite C, (default_asked _ _ A). cbn [bind]. rewrite B, L. reflexivity.
  - intros k s. rewrite Q. split; [intros [H|H]; [discriminate|exact H]|auto].
Qed.
Lemma buttons_unnamed config icons o : dget (lit "icons") config = Some (JObj icons) -> asked icons o ->
  (dget (lit "button_by_identifier") icons = None \/ dget (lit "button_by_identifier") icons = Some JNull \/ dget (lit "button_by_identifier") icons = Some (JObj [])) ->
  load_buttons config = Ret (mkSettings o []).
Proof. intros C A B. unfold load_buttons. rewrite C, (default_asked _ _ A). cbn [bind]. destruct B as [B|[B|B]]; rewrite B; reflexivity. Qed.
Lemma buttons_standard config : dget (lit "icons") config = None \/ dget (lit "icons") config = Some JNull -> load_buttons config = Ret (mkSettings (Some usual_button) []).
Proof. unfold load_buttons. intros [->| ->]; reflexivity. Qed.
Lemma buttons_null config icons l : dget (lit "icons") config = Some (JObj icons) -> dget (lit "default_button") icons = Some JNull ->
  dget (lit "button_by_identifier") icons = Some (JObj l) -> l <> [] -> load_buttons config = Raise AttributeError.
Proof. intros C A B L. unfold load_buttons. rewrite C. unfold load_default_button. rewrite A. cbn [bind]. rewrite B. destruct l as [|[k []] l]; try reflexivity. destruct (L eq_refl). Qed.

(** a colour with six digits *)
Lemma says_hex {F} plain lower_high (ds1 ds2 : list (str * list (token (F := F)))) n id r1 r2 g1 g2 b1 b2 x1 x2 y1 y2 z1 z2 cfg :
  says plain lower_high (ds1 ++ (lit "--col-" ++ n, [THash id [r1; r2; g1; g2; b1; b2]]) :: ds2) cfg -> (forall v, ~ In (lit "--col-" ++ n, v) ds2) ->
  digit_value r1 x1 -> digit_value r2 x2 -> digit_value g1 y1 -> digit_value g2 y2 -> digit_value b1 z1 -> digit_value b2 z2 ->
  dget n (color_map cfg) = Some (mkColor (16 * x1 + x2) (16 * y1 + y2) (16 * z1 + z2)).
Proof.
  intros (S & _) N A1 A2 B1 B2 C1 C2. apply S. exists ds1, [THash id [r1; r2; g1; g2; b1; b2]], ds2. split; [reflexivity|]. split; [|intros v H; destruct (N v H)].
  unfold color_of. rewrite (interpret_hash plain lower_high id [r1; r2; g1; g2; b1; b2] (mkColor (16 * x1 + x2) (16 * y1 + y2) (16 * z1 + z2))); [reflexivity|right; reflexivity| |].
  - intros x [<-|[<-|[<-|[<-|[<-|[<-|[]]]]]]]; eauto.
  - apply long_form; assumption.
Qed.

(** * Examples *)
Definition ff (s : str) : option str := Some s.
Definition no_high (_ : N) : bool := false.
Definition no_int (_ : str) : option Z := None.
Definition same (c : N) : N := c.
Definition alone (c : N) : str := [c].
Definition sheet (s : string) : fs := [(lit "src/public/css/main.css", lit s)].
Definition read (s : string) : res icon_settings := load_icon_settings ff no_high no_int same alone [] (sheet s).
Definition body_text : string := "a:hover{x:y{}} /*c*/ :root {
  --col-primary: #0a141E; --col-dark : Black ; /* -- */
  --icon-size-small: 16px; --x: rgb( 1, 2,3); --icon-size-big: 2em;
  --col-primary: #fff;
} b{--col-z:red;}".
Notation tk := (token (F := str)).
Definition sp : tk := TWhitespace (lit " ").
Definition nl : tk := TWhitespace (lit "
  ").
Definition ex_pre : list tk := [TIdent (lit "a"); TColon; TIdent (lit "hover"); TLCurly; TIdent (lit "x"); TColon; TIdent (lit "y"); TLCurly; TRCurly; TRCurly; sp; TComment (lit "c"); sp].
Definition ex_rule : list tk := [TColon; TIdent (lit "root"); sp; TLCurly].
Definition ex_ds : list (str * list tk) :=
  [(lit "--col-primary", [THash false (lit "0a141E")]); (lit "--col-dark", [TIdent (lit "Black")]); (lit "--icon-size-small", [TDimension (NInt 16) false (lit "px")]);
   (lit "--x", [TFunction (lit "rgb"); TNumber (NInt 1) false; TComma; TNumber (NInt 2) false; TComma; TNumber (NInt 3) false; TRParen]);
   (lit "--icon-size-big", [TDimension (NInt 2) false (lit "em")]); (lit "--col-primary", [THash true (lit "fff")])].
Definition ex_body : list tk :=
  [nl; TIdent (lit "--col-primary"); TColon; sp; THash false (lit "0a141E"); TSemicolon] ++
  [sp; TIdent (lit "--col-dark"); sp; TColon; sp; TIdent (lit "Black"); sp; TSemicolon] ++
  [sp; TComment (lit " -- "); nl; TIdent (lit "--icon-size-small"); TColon; sp; TDimension (NInt 16) false (lit "px"); TSemicolon] ++
  [sp; TIdent (lit "--x"); TColon; sp; TFunction (lit "rgb"); sp; TNumber (NInt 1) false; TComma; sp; TNumber (NInt 2) false; TComma; TNumber (NInt 3) false; TRParen; TSemicolon] ++
  [sp; TIdent (lit "--icon-size-big"); TColon; sp; TDimension (NInt 2) false (lit "em"); TSemicolon] ++
  [nl; TIdent (lit "--col-primary"); TColon; sp; THash true (lit "fff"); TSemicolon] ++ [].
Definition ex_post : list tk := [sp; TIdent (lit "b"); TLCurly; TIdent (lit "--col-z"); TColon; TIdent (lit "red"); TSemicolon; TRCurly; TEof].
Lemma ex_tokens : tokenize ff no_high no_int (lit body_text) = (ex_pre ++ ex_rule ++ ex_body ++ [TWhitespace (lit "
")] ++ TRCurly :: ex_post, None).
Proof. vm_compute. reflexivity. Qed.
Ltac ng := let H := fresh in intro H; exact H.
Lemma ex_pre_ok : no_root ex_pre.
Proof.
  unfold ex_pre. apply nr_other; [discriminate|discriminate|].
  apply (nr_colon [] (TIdent (lit "hover"))); [constructor|ng|discriminate|]. apply nr_other; [discriminate|discriminate|].
  apply (nr_block [TIdent (lit "x"); TColon; TIdent (lit "y"); TLCurly; TRCurly]).
  - do 3 (apply bal_other; [discriminate|discriminate|]). apply (bal_block []); constructor.
  - do 3 (apply nr_other; [discriminate|discriminate|]). constructor.
Qed.
Lemma ex_rule_ok : root_rule ex_rule.
Proof. exists [], [sp]. repeat constructor. Qed.
Ltac gp := repeat (apply Forall_cons; [exact I|]); apply Forall_nil.
Ltac decl g1 g2 g3 v g := apply dec_cons; [match goal with |- declaration ?n _ _ => exists (g1 ++ TIdent n :: g2 ++ TColon :: g3 ++ v), g end; split; [exists g1, g2, g3, v; split; [gp|]; split; [gp|]; split; [gp|]; split; [|reflexivity]|split; [gp|reflexivity]]|].
Lemma ex_body_ok : declared ex_ds ex_body.
Proof.
  unfold ex_ds, ex_body.
  decl [nl] (@nil tk) [sp] [THash false (lit "0a141E") : tk] (@nil tk). { apply val_one; [ng|discriminate]. }
  decl [sp] [sp] [sp] [TIdent (lit "Black") : tk] [sp]. { apply val_one; [ng|discriminate]. }
  decl [sp; TComment (lit " -- "); nl] (@nil tk) [sp] [TDimension (NInt 16) false (lit "px") : tk] (@nil tk). { apply val_one; [ng|discriminate]. }
  decl [sp] (@nil tk) [sp] [TFunction (lit "rgb"); sp; TNumber (NInt 1) false; TComma; sp; TNumber (NInt 2) false; TComma; TNumber (NInt 3) false; TRParen] (@nil tk).
  { apply (val_function (lit "rgb") [sp; TNumber (NInt 1) false; TComma; sp; TNumber (NInt 2) false; TComma; TNumber (NInt 3) false] [TNumber (NInt 1) false; TComma; TNumber (NInt 2) false; TComma; TNumber (NInt 3) false]).
    - intros [H|[H|[H|[H|[H|[H|[H|[]]]]]]]]; discriminate.
    - apply sig_gap; [exact I|]. apply sig_keep; [ng|]. apply sig_keep; [ng|]. apply sig_gap; [exact I|]. do 3 (apply sig_keep; [ng|]). constructor. }
  decl [sp] (@nil tk) [sp] [TDimension (NInt 2) false (lit "em") : tk] (@nil tk). { apply val_one; [ng|discriminate]. }
  decl [nl] (@nil tk) [sp] [THash true (lit "fff") : tk] (@nil tk). { apply val_one; [ng|discriminate]. }
  constructor.
Qed.
Lemma ex_read : exists cfg, read body_text = Ret cfg /\ color_map cfg = [(lit "primary", mkColor 255 255 255); (lit "dark", mkColor 0 0 0)] /\ icon_sizes cfg = [lit "small"; lit "big"].
Proof. eexists. split; [vm_compute; reflexivity|]. split; reflexivity. Qed.
