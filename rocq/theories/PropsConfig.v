(** C66: init writes a configuration that build takes and leaves existing files alone; what the
    configuration says is what the build uses. *)
From Coq Require Import String ZArith NArith Bool List.
From Verif Require Import External Base Graph Json JsonProofs Css PyPath Handlers IconParse IconManip IconSettings IconSettingsSpec IconSettingsMain Html ImgSize ImgSettings ImgSettingsSpec ImgSettingsProofs ImgExportSpec ImgBuildSpec ImgMeta ImgMetaSpec Config ConfigSpec ConfigProofs.
Import ListNotations.
Open Scope list_scope.
Open Scope Z_scope.

(** no file that exists is changed, only the configuration and a first page are added; a second
    time nothing happens *)
Theorem C66_init_keeps : forall host (f : fs),
  (forall p, dget p f <> None -> dget p (init host f) = dget p f) /\
  (forall p, dget p (init host f) <> None <-> dget p f <> None \/ p = lit "vanillaplusjs.json" \/ p = lit "src/public/index.html") /\
  forall host', init host' (init host f) = init host f.
Proof.
  intros host f. split; [intros p H; apply init_other; left; exact H|]. split; [|intros host'; apply init_again].
  intros p. split.
  - intros H. destruct (list_eq_dec N.eq_dec p config_file) as [E|E]; [right; left; exact E|]. destruct (list_eq_dec N.eq_dec p index_file) as [D|D]; [right; right; exact D|].
    left. rewrite <- (init_other host f p); [exact H|right; split; assumption].
  - intros [H|[-> | ->]]; [rewrite init_other; [exact H|left; exact H]|exact (proj1 (init_has host f))|exact (proj2 (init_has host f))].
Qed.
Print Assumptions C66_init_keeps.
Example C66_init_keeps_case : dget (lit "src/public/index.html") (init None [(lit "src/public/index.html", lit "mine")]) = Some (lit "mine").
Proof. exact (proj1 (C66_init_keeps None [(lit "src/public/index.html", lit "mine")]) (lit "src/public/index.html") ltac:(discriminate)). Qed.

(** build takes the new configuration, unless the main style sheet has no tokens (C65) *)
Theorem C66_init_builds : forall bad bool_int float_text decimal repr env F (float_of : str -> option F) high_digit int_high plain lower_high host (f : fs),
  dget (lit "vanillaplusjs.json") f = None -> (forall h, host = Some h -> json_safe h) -> decimal (JStr (lit "0.5")) = Ret (half, lit "0.5") ->
  let load := load_config bad bool_int float_text decimal repr env float_of high_digit int_high plain lower_high in
  (exists c, load (init host f) = Loaded c /\ Config.host c = match host with Some h => JStr h | None => JNull end /\ images c = new_settings /\ step c = half /\
     placeholders c = JBool true /\ externals c = [] /\ js c = new_constants /\ default_buttons (icons c) = Some (mkSettings (Some usual_button) []) /\
     (dget (lit "src/public/css/main.css") f = None -> color_map (icons c) = [] /\ icon_sizes (icons c) = [])) \/
  (dget (lit "src/public/css/main.css") f <> None /\ (load (init host f) = Fails TypeError \/ load (init host f) = Fails ValueError)).
Proof. intros. eapply init_builds; eassumption. Qed.
Print Assumptions C66_init_builds.
(** the environment of the examples *)
Definition dec_ex (v : json) : res (dec * str) :=
  match v with JStr s => if str_eqb s (lit "0.5") then Ret (half, s) else if str_eqb s (lit "0") then Ret ({| coef := 0; expo := 0 |}, s) else Raise ValueError | _ => Raise ValueError end.
Definition read_ex := load_config TypeError true (fun s => s) dec_ex (fun _ => []) (fun _ => None) ff no_high no_int same alone.
Example C66_init_builds_case : exists c, read_ex (init (Some (lit "a.com")) []) = Loaded c /\ Config.host c = JStr (lit "a.com") /\ images c = new_settings.
Proof.
  destruct (C66_init_builds TypeError true (fun s => s) dec_ex (fun _ => []) (fun _ => None) _ ff no_high no_int same alone (Some (lit "a.com")) [] eq_refl
    ltac:(intros h H; injection H as <-; apply ImgMetaProofs.lit_safe; reflexivity) eq_refl) as [(c & A & B & C & _)|[N _]].
  - exists c. exact (conj A (conj B C)).
  - destruct (N eq_refl).
Qed.

(** the new settings for images meet what C36-C40, C59-C61 and C63 ask of settings: every format
    serves every size, names are good, the settings have a hash *)
Theorem C66_new_settings :
  (forall w h name fm, In (name, fm) (formats new_settings) -> served fm w h) /\ good_formats (formats new_settings) /\ named_well new_settings /\ safe_settings new_settings /\
  (exists fm, In (default_format new_settings, fm) (formats new_settings)) /\ exists h, hash_image_settings new_settings = Ret h /\ 0 <= h < 2 ^ 64.
Proof.
  split; [exact new_served|]. split; [exact new_good|]. split; [exact new_named|]. split; [exact new_safe|]. split; [exact new_default|].
  destruct (settings_defined _ new_plain) as [h E]. exists h. split; [exact E|exact (settings_range _ h E)].
Qed.
Print Assumptions C66_new_settings.

(** the settings for images are those that the configuration says; a default format that is not
    among the formats, or a step that is not positive, is refused *)
Theorem C66_settings : forall bad bool_int float_text decimal v s t st, settings_are v s t -> decimal t = Ret (st, step_text s) ->
  (In (default_format s) (map fst (formats s)) /\ 0 < coef st -> load_image_settings bad bool_int float_text decimal v = Ret (s, st)) /\
  (~ (In (default_format s) (map fst (formats s)) /\ 0 < coef st) -> load_image_settings bad bool_int float_text decimal v = Raise ValueError).
Proof.
  intros bad bool_int float_text decimal v s t st A B. rewrite (settings_load bad bool_int float_text decimal v s t st A B). destruct (dmem (default_format s) (formats s)) eqn:M; cbn [negb].
  - apply dmem_In in M. destruct (Z.leb_spec (coef st) 0) as [L|L]; (split; [|intros N]).
    + intros [_ P]. destruct (Zlt_not_le _ _ P L).
    + reflexivity.
    + reflexivity.
    + destruct (N (conj M L)).
  - split; [|reflexivity]. intros [P _]. apply dmem_In in P. congruence.
Qed.
Print Assumptions C66_settings.
Definition ex_image (step : string) (def : string) : json :=
  JObj [(lit "resolution_step", JStr (lit step)); (lit "maximum_resolution", number 3); (lit "default_format", JStr (lit def));
        (lit "formats", JObj [(lit "png", JObj [(lit "minimum_unit_size_bytes", number 5000);
           (lit "exports", JObj [(lit "a", JObj [(lit "preference", number 1)]);
              (lit "b", JObj [(lit "preference", number 2); (lit "min_area_px2", JNull); (lit "max_area_px2", number 400); (lit "formatter_kwargs", JObj [(lit "optimize", JBool true)])])])])])].
Definition ex_settings (step : string) (def : string) : image_settings :=
  {| formats := [(lit "png", {| exports := [(lit "a", export None None 1 []); (lit "b", export None (Some 400) 2 [(lit "optimize", KBool true)])]; unit_size := 5000 |})];
     default_format := lit def; maximum := 3; step_text := lit step |}.
Example C66_settings_case : forall step def, settings_are (ex_image step def) (ex_settings step def) (JStr (lit step)).
Proof.
  intros step def. eexists. eexists. split; [reflexivity|]. split; [reflexivity|]. split.
  { apply Forall2_cons; [|apply Forall2_nil]. split; [reflexivity|]. eexists. eexists. split; [reflexivity|]. split; [reflexivity|]. split; [|reflexivity].
    apply Forall2_cons; [|apply Forall2_cons; [|apply Forall2_nil]]; (split; [reflexivity|]); eexists; (split; [reflexivity|]).
    - split; [left; reflexivity|]. split; [left; reflexivity|]. split; [reflexivity|]. left. split; reflexivity.
    - split; [right; reflexivity|]. split; [reflexivity|]. split; [reflexivity|]. right. eexists. split; [reflexivity|]. apply Forall2_cons; [split; [reflexivity|constructor]|apply Forall2_nil]. }
  split; [reflexivity|]. split; [reflexivity|]. split; [reflexivity|]. left. eexists. reflexivity.
Qed.
Example C66_settings_ok : load_image_settings TypeError true (fun s => s) dec_ex (ex_image "0.5" "png") = Ret (ex_settings "0.5" "png", half).
Proof. apply (proj1 (C66_settings TypeError true (fun s => s) dec_ex _ _ _ half (C66_settings_case "0.5" "png") eq_refl)). split; [left; reflexivity|reflexivity]. Qed.
Example C66_settings_step : load_image_settings TypeError true (fun s => s) dec_ex (ex_image "0" "png") = Raise ValueError.
Proof. apply (proj2 (C66_settings TypeError true (fun s => s) dec_ex _ _ _ {| coef := 0; expo := 0 |} (C66_settings_case "0" "png") eq_refl)). intros [_ H]. discriminate H. Qed.
(** whatever is accepted has a positive step and a default format among its formats, and these
    are those that are written *)
Theorem C66_settings_sound : forall bad bool_int float_text decimal v s st, load_image_settings bad bool_int float_text decimal v = Ret (s, st) ->
  0 < coef st /\ In (default_format s) (map fst (formats s)) /\
  exists d l, v = JObj d /\ dget (lit "formats") d = Some (JObj l) /\ map fst (formats s) = map fst l /\ dget (lit "default_format") d = Some (JStr (default_format s)).
Proof. exact settings_sound. Qed.
Print Assumptions C66_settings_sound.

(** each external file is found under its relpath, its key if it has none; of several with one
    relpath the last counts *)
Theorem C66_external : forall l xs, externals_are l xs -> exists d, load_external (JObj l) = Ret d /\
  (forall xs1 x xs2, xs = xs1 ++ x :: xs2 -> (forall y, In y xs2 -> x_relpath y <> x_relpath x) -> dget (x_relpath x) d = Some x) /\
  (forall p x, dget p d = Some x -> In x xs /\ x_relpath x = p).
Proof. exact externals_found. Qed.
Print Assumptions C66_external.
Example C66_external_case : externals_are
  [(lit "public/a.js", JObj [(lit "url", JStr (lit "https://u/a.js")); (lit "integrity", JStr (lit "sha384-x"))]);
   (lit "b", JObj [(lit "relpath", JStr (lit "public/b.js")); (lit "url", JStr (lit "https://u/b.js")); (lit "integrity", JStr (lit "sha384-y"))])]
  [mkExternal (lit "public/a.js") (lit "https://u/a.js") (lit "sha384-x"); mkExternal (lit "public/b.js") (lit "https://u/b.js") (lit "sha384-y")].
Proof.
  apply Forall2_cons; [|apply Forall2_cons; [|apply Forall2_nil]]; eexists; (split; [reflexivity|]); (split; [|split; reflexivity]); [left; split; reflexivity|right; reflexivity].
Qed.

(** the constants for scripts are read as C35 has them *)
Theorem C66_constants : forall repr env v rel shared dev prod, constants_are v rel shared dev prod -> load_js_constants repr env v = load_constants env rel shared dev prod.
Proof. exact constants_load. Qed.
Print Assumptions C66_constants.
Example C66_constants_case : constants_are (JObj [(lit "prod", JObj []); (lit "dev", JObj [(lit "N", number 3); (lit "D", JBool true)]); (lit "shared", JObj [(lit "KEY", JStr (lit "env://KEY"))]); (lit "relpath", JStr (lit "src/public/js/c.js"))])
  (lit "src/public/js/c.js") [(lit "KEY", VStr (lit "env://KEY"))] [(lit "N", VInt 3); (lit "D", VBool true)] [].
Proof.
  eexists. eexists. eexists. eexists. split; [reflexivity|]. split; [reflexivity|]. split; [reflexivity|]. split; [reflexivity|]. split; [reflexivity|].
  split; [|split]; repeat (apply Forall2_cons; [split; [reflexivity|constructor]|]); apply Forall2_nil.
Qed.

(** and all of this reaches the build *)
Theorem C66_loads : forall bad bool_int float_text decimal repr env F (float_of : str -> option F) high_digit int_high plain lower_high
  (f : fs) text d h ic vi s t st ph l xs vj rel shared dev prod cs,
  dget (lit "vanillaplusjs.json") f = Some text -> json_file text = Ret (JObj d) -> has_sources f -> dget (lit "version") d = Some (JStr (lit "1.0.0")) -> dget (lit "host") d = Some h ->
  load_icon_settings float_of high_digit int_high plain lower_high d f = Ret ic ->
  dget (lit "images") d = Some vi -> settings_are vi s t -> decimal t = Ret (st, step_text s) -> In (default_format s) (map fst (formats s)) -> 0 < coef st ->
  dget (lit "auto_generate_images_js_placeholders") d = Some ph -> dget (lit "external_files") d = Some (JObj l) -> externals_are l xs ->
  dget (lit "js_constants") d = Some vj -> constants_are vj rel shared dev prod -> load_constants env rel shared dev prod = Ret cs ->
  exists c, load_config bad bool_int float_text decimal repr env float_of high_digit int_high plain lower_high f = Loaded c /\
    Config.host c = h /\ icons c = ic /\ images c = s /\ step c = st /\ placeholders c = ph /\ load_external (JObj l) = Ret (externals c) /\ js c = cs.
Proof. intros. eapply config_loads; eassumption. Qed.
Print Assumptions C66_loads.
Example C66_loads_case : exists c, read_ex
  [(lit "vanillaplusjs.json", dump (JObj [(lit "version", JStr (lit "1.0.0")); (lit "host", JNull); (lit "images", ex_image "0.5" "png"); (lit "auto_generate_images_js_placeholders", JBool false);
     (lit "external_files", JObj [(lit "public/a.js", JObj [(lit "url", JStr (lit "u")); (lit "integrity", JStr (lit "x"))])]); (lit "js_constants", constants_json)])); (lit "src/a", [])] = Loaded c /\
  externals c = [(lit "public/a.js", mkExternal (lit "public/a.js") (lit "u") (lit "x"))] /\ images c = ex_settings "0.5" "png" /\ placeholders c = JBool false.
Proof. eexists. split; [vm_compute; reflexivity|]. split; [reflexivity|]. split; reflexivity. Qed.

(** build stops with a message exactly if there is no configuration, it is not an object, its
    version is another, or there are no sources *)
Theorem C66_exits : forall bad bool_int float_text decimal repr env F (float_of : str -> option F) high_digit int_high plain lower_high (f : fs),
  load_config bad bool_int float_text decimal repr env float_of high_digit int_high plain lower_high f = Exits <->
  dget (lit "vanillaplusjs.json") f = None \/ exists text v, dget (lit "vanillaplusjs.json") f = Some text /\ json_file text = Ret v /\
    ((forall d, v <> JObj d) \/ exists d ver, v = JObj d /\ dget (lit "version") d = Some ver /\
       (ver <> JStr (lit "1.0.0") \/ (ver = JStr (lit "1.0.0") /\ dget (lit "host") d <> None /\ ~ has_sources f))).
Proof. intros. apply config_exits. Qed.
Print Assumptions C66_exits.
Example C66_exits_case : read_ex [(lit "vanillaplusjs.json", lit "[]")] = Exits /\ read_ex [(lit "vanillaplusjs.json", lit "{}")] = Fails KeyError.
Proof. split; reflexivity. Qed.
(** Refuted: for another version the message says to run init again, but init leaves the old
    configuration and the build stops as before. *)
Theorem C66_migrate_refuted : forall bad bool_int float_text decimal repr env F (float_of : str -> option F) high_digit int_high plain lower_high host (f : fs) text d ver,
  dget (lit "vanillaplusjs.json") f = Some text -> json_file text = Ret (JObj d) -> dget (lit "version") d = Some ver -> ver <> JStr (lit "1.0.0") ->
  load_config bad bool_int float_text decimal repr env float_of high_digit int_high plain lower_high f = Exits /\
  load_config bad bool_int float_text decimal repr env float_of high_digit int_high plain lower_high (init host f) = Exits.
Proof. intros. eapply old_version; eassumption. Qed.
Print Assumptions C66_migrate_refuted.
Example C66_migrate_case : json_file (lit "{""version"": ""0.9.0""}") = Ret (JObj [(lit "version", JStr (lit "0.9.0"))]).
Proof. reflexivity. Qed.
