(** C65: the colours, sizes and buttons that icons may use are those of the [:root] rule of
    the main style sheet and of the configuration. *)
From Coq Require Import String ZArith NArith Bool List.
From Verif Require Import Base Graph Json Css Handlers IconColor IconColorSpec IconParse IconManip ImgMeta IconSettings IconSettingsSpec IconSettingsMain.
Import ListNotations.
Open Scope list_scope.
Open Scope N_scope.

(** Whatever comes before and after it, the first [:root] rule is read: of each [--col-x] the
    last declaration that is a colour counts, each [--icon-size-x] is a size, once, in order. *)
Theorem C65_root : forall F (float_of : str -> option F) high_digit int_high plain lower_high config (f : fs) text ts e b pre rule ds body g post,
  load_buttons config = Ret b -> dget (lit "src/public/css/main.css") f = Some text -> tokenize float_of high_digit int_high text = (ts, e) ->
  ts = pre ++ rule ++ body ++ g ++ TRCurly :: post -> no_root pre -> root_rule rule -> declared ds body -> gaps g ->
  exists cfg, load_icon_settings float_of high_digit int_high plain lower_high config f = Ret cfg /\ says plain lower_high ds cfg /\ default_buttons cfg = Some b.
Proof. exact @load_closed. Qed.
Print Assumptions C65_root.
Example C65_root_case : tokenize ff no_high no_int (lit body_text) = (ex_pre ++ ex_rule ++ ex_body ++ [TWhitespace (lit "
")] ++ TRCurly :: ex_post, None) /\ no_root ex_pre /\ root_rule ex_rule /\ declared ex_ds ex_body /\
  exists cfg, read body_text = Ret cfg /\ color_map cfg = [(lit "primary", mkColor 255 255 255); (lit "dark", mkColor 0 0 0)] /\ icon_sizes cfg = [lit "small"; lit "big"].
Proof. exact (conj ex_tokens (conj ex_pre_ok (conj ex_rule_ok (conj ex_body_ok ex_read)))). Qed.
(** a colour with six digits is the colour they say *)
Theorem C65_hex : forall F plain lower_high (ds1 ds2 : list (str * list (token (F := F)))) n id r1 r2 g1 g2 b1 b2 x1 x2 y1 y2 z1 z2 cfg,
  says plain lower_high (ds1 ++ (lit "--col-" ++ n, [THash id [r1; r2; g1; g2; b1; b2]]) :: ds2) cfg -> (forall v, ~ In (lit "--col-" ++ n, v) ds2) ->
  digit_value r1 x1 -> digit_value r2 x2 -> digit_value g1 y1 -> digit_value g2 y2 -> digit_value b1 z1 -> digit_value b2 z2 ->
  dget n (color_map cfg) = Some (mkColor (16 * x1 + x2) (16 * y1 + y2) (16 * z1 + z2)).
Proof. exact @says_hex. Qed.
Print Assumptions C65_hex.
(** without the sheet, or without such a rule in it, there are no colours and no sizes *)
Theorem C65_nothing : forall F (float_of : str -> option F) high_digit int_high plain lower_high config (f : fs) b, load_buttons config = Ret b ->
  (dget (lit "src/public/css/main.css") f = None \/ exists text ts, dget (lit "src/public/css/main.css") f = Some text /\ tokenize float_of high_digit int_high text = (ts, None) /\ no_root ts) ->
  load_icon_settings float_of high_digit int_high plain lower_high config f = Ret {| color_map := []; icon_sizes := []; default_buttons := Some b |}.
Proof. exact @load_nothing. Qed.
Print Assumptions C65_nothing.
(** reading the sheet ends, and fails only as reading its tokens does (C21) *)
Theorem C65_total : forall F (float_of : str -> option F) high_digit int_high plain lower_high config (f : fs) b, load_buttons config = Ret b ->
  (exists cfg, load_icon_settings float_of high_digit int_high plain lower_high config f = Ret cfg) \/
  exists e, load_icon_settings float_of high_digit int_high plain lower_high config f = Raise e /\ (e = TypeError \/ e = ValueError).
Proof. exact @load_total. Qed.
Print Assumptions C65_total.
(** finding: after a value of several tokens, or a last declaration without semicolon, the
    rest of the rule is ignored, and so is that declaration *)
Theorem C65_cut : forall F (float_of : str -> option F) high_digit int_high plain lower_high config (f : fs) text ts e b pre rule ds body n v o g t post,
  load_buttons config = Ret b -> dget (lit "src/public/css/main.css") f = Some text -> tokenize float_of high_digit int_high text = (ts, e) ->
  ts = pre ++ rule ++ body ++ o ++ g ++ t :: post -> no_root pre -> root_rule rule -> declared ds body -> opened n v o -> gaps g -> ~ gap t -> t <> TSemicolon ->
  exists cfg, load_icon_settings float_of high_digit int_high plain lower_high config f = Ret cfg /\ says plain lower_high ds cfg /\ default_buttons cfg = Some b.
Proof. exact @load_cut. Qed.
Print Assumptions C65_cut.
(** "every colour of the [:root] rules is known" is false: after [--font: Arial, sans-serif],
    without a semicolon, in a second rule, and in a rule for several selectors, it is not *)
Theorem C65_every_refuted :
  (exists cfg, read ":root{--col-a:red;--font:Arial,sans-serif;--col-b:red;}" = Ret cfg /\ map fst (color_map cfg) = [lit "a"]) /\
  (exists cfg, read ":root{--col-a:red;--col-b:red}" = Ret cfg /\ map fst (color_map cfg) = [lit "a"]) /\
  (exists cfg, read ":root{--col-a:red;}:root{--col-b:red;}" = Ret cfg /\ map fst (color_map cfg) = [lit "a"]) /\
  (exists cfg, read ":root,:host{--col-a:red;}" = Ret cfg /\ color_map cfg = []).
Proof. repeat (split; [eexists; split; [vm_compute; reflexivity|reflexivity]|]). eexists. split; [vm_compute; reflexivity|reflexivity]. Qed.
Print Assumptions C65_every_refuted.

(** * Buttons *)
(** what the configuration says of the colours of a button replaces the default ones, and
    those of the default button are the default for the others; with a null among them, a
    named button is not there and the default button is the usual one *)
Theorem C65_buttons : forall config icons b l, dget (lit "icons") config = Some (JObj icons) -> asked icons (Some b) ->
  dget (lit "button_by_identifier") icons = Some (JObj l) ->
  Forall (fun kv => exists d, snd kv = JObj d /\ (worded d \/ (worded_or_null d /\ has_null d))) l -> NoDup (map fst l) ->
  exists named, load_buttons config = Ret (mkSettings (Some b) named) /\
  forall k s, dget k named = Some s <-> exists d, dget k l = Some (JObj d) /\ ~ has_null d /\ s = told_setting d b.
Proof. exact buttons_told. Qed.
Print Assumptions C65_buttons.
Theorem C65_buttons_unnamed : forall config icons o, dget (lit "icons") config = Some (JObj icons) -> asked icons o ->
  (dget (lit "button_by_identifier") icons = None \/ dget (lit "button_by_identifier") icons = Some JNull \/ dget (lit "button_by_identifier") icons = Some (JObj [])) ->
  load_buttons config = Ret (mkSettings o []).
Proof. exact buttons_unnamed. Qed.
Print Assumptions C65_buttons_unnamed.
Theorem C65_buttons_usual : forall config, dget (lit "icons") config = None \/ dget (lit "icons") config = Some JNull ->
  load_buttons config = Ret (mkSettings (Some usual_button) []).
Proof. exact buttons_standard. Qed.
Print Assumptions C65_buttons_usual.
Example C65_buttons_case : exists config icons l,
  (dget (lit "icons") config = Some (JObj icons) /\ asked icons (Some (mkSetting (lit "red") (lit "primary-dark") (lit "disabled"))) /\ dget (lit "button_by_identifier") icons = Some (JObj l)) /\
  Forall (fun kv => exists d, snd kv = JObj d /\ (worded d \/ (worded_or_null d /\ has_null d))) l /\ NoDup (map fst l) /\
  load_buttons config = Ret (mkSettings (Some (mkSetting (lit "red") (lit "primary-dark") (lit "disabled"))) [(lit "x", mkSetting (lit "red") (lit "h") (lit "disabled"))]).
Proof.
  set (d := [(lit "active_color", JStr (lit "red"))]). set (d' := [(lit "hover_color", JStr (lit "h"))]). set (d2 := [(lit "hover_color", JNull)]).
  set (l := [(lit "x", JObj d'); (lit "y", JObj d2)]). set (icons := [(lit "default_button", JObj d); (lit "button_by_identifier", JObj l)]).
  exists [(lit "icons", JObj icons)], icons, l. split; [|split; [|split]].
  - split; [reflexivity|]. split; [|reflexivity]. right. left. exists d. split; [reflexivity|]. split; [|reflexivity].
    intros k v [<-|[<-|[<-|[]]]] H; vm_compute in H; try discriminate. injection H as <-. eexists. reflexivity.
  - apply Forall_cons; [|apply Forall_cons; [|apply Forall_nil]].
    + exists d'. split; [reflexivity|]. left. intros k v [<-|[<-|[<-|[]]]] H; vm_compute in H; try discriminate. injection H as <-. eexists. reflexivity.
    + exists d2. split; [reflexivity|]. right. split; [|exists (lit "hover_color"); split; [right; left; reflexivity|reflexivity]].
      intros k v [<-|[<-|[<-|[]]]] H; vm_compute in H; try discriminate. injection H as <-. left. reflexivity.
  - apply NoDup_cons; [intros [H|[]]; discriminate|]. apply NoDup_cons; [intros []|apply NoDup_nil].
  - vm_compute. reflexivity.
Qed.
(** finding: without a default button no button can be named, even with all its colours *)
Theorem C65_null_refuted : forall config icons l, dget (lit "icons") config = Some (JObj icons) -> dget (lit "default_button") icons = Some JNull ->
  dget (lit "button_by_identifier") icons = Some (JObj l) -> l <> [] -> load_buttons config = Raise AttributeError.
Proof. exact buttons_null. Qed.
Print Assumptions C65_null_refuted.
