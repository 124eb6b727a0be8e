(** Making and reading the configuration. *)
From Verif Require Import External Base Graph Json JsonProofs Css CssSpec PyPath Handlers IconParse IconManip IconSettings IconSettingsSpec IconSettingsMain Html HtmlTemplate ImgSize ImgSettings ImgSettingsSpec ImgExportSpec ImgBuildSpec ImgMeta ImgMetaSpec ImgMetaProofs ImgDiskProofs Config ConfigSpec.
From Coq Require Import String ZArith NArith Bool List Lia.
Import ListNotations.
Open Scope list_scope.
Open Scope Z_scope.

(** * init *)
Lemma dmem_dget p (f : fs) : dmem p f = true <-> dget p f <> None.
Proof. rewrite dmem_In. apply key_iff. Qed.
Definition put (p c : str) (f : fs) : fs := if dmem p f then f else dset p c f.
Lemma init_put host f : init host f = put index_file index_text (put config_file (dump (config_json host)) f).
Proof. reflexivity. Qed.
Lemma put_other p c (f : fs) q : dget q f <> None \/ q <> p -> dget q (put p c f) = dget q f.
Proof.
  intros H. unfold put. destruct (dmem p f) eqn:D; [reflexivity|]. apply Base.dget_dset_other. intros <-. destruct H as [H|H]; [|destruct (H eq_refl)]. apply dmem_dget in H. congruence.
Qed.
Lemma put_new p c (f : fs) : dget p f = None -> dget p (put p c f) = Some c.
Proof. intros H. unfold put. destruct (dmem p f) eqn:D; [apply dmem_dget in D; congruence|]. apply Base.dget_dset_same. Qed.
Lemma init_other host (f : fs) p : dget p f <> None \/ (p <> config_file /\ p <> index_file) -> dget p (init host f) = dget p f.
Proof.
  intros H. rewrite init_put. assert (E : dget p (put config_file (dump (config_json host)) f) = dget p f) by (apply put_other; tauto).
  rewrite put_other; [exact E|]. rewrite E. tauto.
Qed.
Lemma init_config host (f : fs) : dget config_file f = None -> dget config_file (init host f) = Some (dump (config_json host)).
Proof. intros H. rewrite init_put, put_other by (right; discriminate). apply put_new, H. Qed.
Lemma init_index host (f : fs) : dget index_file f = None -> dget index_file (init host f) = Some index_text.
Proof. intros H. rewrite init_put. apply put_new. rewrite put_other by (right; discriminate). exact H. Qed.
Lemma init_has host (f : fs) : dget config_file (init host f) <> None /\ dget index_file (init host f) <> None.
Proof.
  split.
  - destruct (dget config_file f) eqn:E; [rewrite init_other; [congruence|left; congruence]|]. rewrite (init_config host f E). discriminate.
  - destruct (dget index_file f) eqn:E; [rewrite init_other; [congruence|left; congruence]|]. rewrite (init_index host f E). discriminate.
Qed.
Lemma init_again host host' (f : fs) : init host' (init host f) = init host f.
Proof.
  destruct (init_has host f) as [A B]. apply dmem_dget in A. apply dmem_dget in B. generalize dependent (init host f). intros g A B. rewrite init_put. unfold put. rewrite A, B. reflexivity.
Qed.
Lemma init_sources host (f : fs) : has_folder (lit "src") (init host f) = true.
Proof. apply has_folder_iff. exists (lit "public/index.html"). exact (proj2 (init_has host f)). Qed.
Ltac kept_tac := first [apply kept_num | apply kept_str; apply lit_safe; reflexivity | (split; [exact I|reflexivity])].
Lemma kept_area z : kept (area z). Proof. destruct z; kept_tac. Qed.
Lemma kept_export min max p k : kept (JObj k) -> kept (export_json min max p k).
Proof. intros H. unfold export_json. pairs; [apply kept_area|apply kept_area|apply kept_num|exact H|constructor]. Qed.
Lemma kept_jpeg q : kept (JObj (jpeg_kwargs q)). Proof. unfold jpeg_kwargs. pairs; [apply kept_num|constructor]. Qed.
Lemma kept_webp q b : kept (JObj (webp_kwargs q b)). Proof. unfold webp_kwargs. pairs; [apply kept_num|apply kept_num|kept_tac|constructor]. Qed.
Lemma kept_empty : kept (JObj []). Proof. pairs. constructor. Qed.
Lemma kept_images : kept images_json.
Proof.
  unfold images_json. pairs; [| | | |constructor]; try (first [apply kept_num|apply kept_str; apply lit_safe; reflexivity]).
  pairs; [| |constructor].
  - pairs; [|apply kept_num|constructor]. pairs; try (apply kept_export, kept_jpeg). constructor.
  - pairs; [|apply kept_num|constructor]. pairs; try (apply kept_export, kept_webp). constructor.
Qed.
Lemma kept_config host : (forall h, host = Some h -> json_safe h) -> kept (config_json host).
Proof.
  intros H. unfold config_json. pairs; [| | | | | |constructor].
  - kept_tac.
  - destruct host as [h|]; [apply kept_str, H; reflexivity|kept_tac].
  - exact kept_images.
  - kept_tac.
  - exact kept_empty.
  - unfold constants_json. pairs; [kept_tac|exact kept_empty| | |constructor].
    + pairs; [kept_tac|constructor].
    + pairs; [apply kept_str; exact I|constructor].
Qed.

(** * Settings for images *)
Section Load.
Context (bad : exn) (bool_int : bool) (float_text : str -> str) (decimal : json -> res (dec * str)) (repr : json -> str) (env : str -> option str).
Notation check_int := (check_int bad bool_int).
Notation check_area := (check_area bad bool_int).
Notation load_export := (load_export bad bool_int float_text).
Notation load_format := (load_format bad bool_int float_text).
Notation load_image_settings := (load_image_settings bad bool_int float_text decimal).
Lemma check_number z : check_int (Some (number z)) = Ret z.
Proof. unfold Config.check_int, number. rewrite parse_Z_print. reflexivity. Qed.
Lemma check_bound v o : bound_is v o -> check_area v = Ret o.
Proof.
  unfold bound_is, Config.check_area. destruct o as [z|]; [intros ->; unfold number at 1; fold (number z); rewrite check_number; reflexivity|]. intros [->| ->]; reflexivity.
Qed.
Lemma kval_is v k : value_is v k -> kval_of float_text v = k.
Proof. intros []; try reflexivity. unfold kval_of, number. rewrite parse_Z_print. reflexivity. Qed.
Lemma traverse_are {V} (is : json -> V -> Prop) (load : json -> res V) l l' : (forall v x, is v x -> load v = Ret x) -> entries_are is l l' ->
  traverse (fun kv => bind (load (snd kv)) (fun x => Ret (fst kv, x))) l = Ret l'.
Proof.
  intros H E. induction E as [|[k v] [k' x] l l' [A B] _ IH]; [reflexivity|]. cbn [fst snd] in A, B. subst k'. cbn [traverse fst snd]. rewrite (H _ _ B). cbn [bind]. rewrite IH. reflexivity.
Qed.
Lemma kwargs_are k k' : entries_are value_is k k' -> map (fun kv => (fst kv, kval_of float_text (snd kv))) k = k'.
Proof. intros E. induction E as [|[a v] [b x] l l' [A B] _ IH]; [reflexivity|]. cbn [fst snd] in A, B. subst b. cbn [map fst snd]. rewrite (kval_is _ _ B), IH. reflexivity. Qed.
Lemma export_loads v e : export_is v e -> load_export v = Ret e.
Proof.
  intros (d & -> & A & B & C & D). unfold Config.load_export. rewrite (check_bound _ _ A). cbn [bind]. rewrite (check_bound _ _ B). cbn [bind]. rewrite C, check_number. cbn [bind].
  destruct e as [mi ma p k]. cbn [min_area max_area preference kwargs] in *. destruct D as [[-> ->]|(l & -> & E)]; [reflexivity|]. rewrite (kwargs_are _ _ E). reflexivity.
Qed.
Lemma format_loads v fm : format_is v fm -> load_format v = Ret fm.
Proof.
  intros (d & l & -> & A & B & C). unfold Config.load_format. rewrite A, C, check_number. cbn [bind]. rewrite (traverse_are export_is load_export l (exports fm) export_loads B). cbn [bind]. destruct fm. reflexivity.
Qed.
Lemma are_keys {V} (is : json -> V -> Prop) l l' : entries_are is l l' -> map fst l = map fst l'.
Proof. intros E. induction E as [|a b l l' [A _] _ IH]; [reflexivity|]. cbn [map]. rewrite A, IH. reflexivity. Qed.
Lemma settings_load v s t st : settings_are v s t -> decimal t = Ret (st, step_text s) ->
  load_image_settings v = if negb (dmem (default_format s) (formats s)) then Raise ValueError else if coef st <=? 0 then Raise ValueError else Ret (s, st).
Proof.
  intros (d & l & -> & A & B & C & D & E & T) H. unfold Config.load_image_settings. rewrite A, C, E, D, check_number. cbn [bind].
  assert (ST : step_type bool_int (Some t) = true) by (destruct T as [[x ->]|[x ->]]; reflexivity). rewrite ST. cbn [negb].
  rewrite (traverse_are format_is load_format l (formats s) format_loads B). cbn [bind]. rewrite H. cbn [bind fst snd]. destruct s. reflexivity.
Qed.
(** what is accepted is usable *)
Lemma traverse_keys {V} (load : json -> res V) (l : list (str * json)) : forall l' : list (str * V), traverse (fun kv => bind (load (snd kv)) (fun x => Ret (fst kv, x))) l = Ret l' -> map fst l' = map fst l.
Proof.
  induction l as [|[k v] l IH]; intros l' H; cbn [traverse fst snd] in H; [injection H as <-; reflexivity|].
  destruct (load v) as [x|e]; cbn [bind] in H; [|discriminate]. destruct (traverse _ l) as [r|e]; cbn [bind] in H; [|discriminate].
  injection H as <-. cbn [map fst]. rewrite (IH r eq_refl). reflexivity.
Qed.
Lemma settings_sound v s st : load_image_settings v = Ret (s, st) -> 0 < coef st /\ In (default_format s) (map fst (formats s)) /\
  exists d l, v = JObj d /\ dget (lit "formats") d = Some (JObj l) /\ map fst (formats s) = map fst l /\ dget (lit "default_format") d = Some (JStr (default_format s)).
Proof.
  unfold Config.load_image_settings. destruct v as [| | | | |d]; try discriminate.
  destruct (dget (lit "formats") d) as [[| | | | |l]|] eqn:A; try discriminate. destruct (dget (lit "default_format") d) as [[| | |def| |]|] eqn:B; try discriminate.
  destruct (dget (lit "resolution_step") d) as [x|]; [|discriminate]. destruct (check_int _) as [mx|e]; cbn [bind]; [|discriminate].
  destruct (negb (step_type bool_int (Some x))); [discriminate|]. destruct (traverse _ l) as [fs|e] eqn:T; cbn [bind]; [|discriminate].
  destruct (decimal x) as [y|e]; cbn [bind]; [|discriminate]. destruct (dmem def fs) eqn:M; cbn [negb]; [|discriminate]. destruct (coef (fst y) <=? 0) eqn:S; [discriminate|].
  intros H. injection H as <- <-. cbn [formats default_format]. split; [apply Z.leb_gt; exact S|]. split; [apply dmem_In in M; exact M|]. exists d, l. split; [reflexivity|]. split; [exact A|]. split; [|exact B].
  exact (traverse_keys load_format l fs T).
Qed.

(** * External files and constants *)
Lemma external_loads k v x : external_is k v x -> exists rel, external_entry v = Ret (rel, x_url x, x_integrity x) /\ match rel with Some p => p | None => k end = x_relpath x.
Proof.
  intros (d & -> & R & U & I). unfold external_entry, item. rewrite U, I. destruct R as [[-> ->]| ->]; cbn [bind as_str replaced]; [exists None|exists (Some (x_relpath x))]; split; reflexivity.
Qed.
Lemma externals_load l xs : externals_are l xs -> load_external (JObj l) = Ret (fold_left (fun acc x => dset (x_relpath x) x acc) xs []).
Proof.
  intros H. unfold load_external.
  assert (K : exists data, traverse (fun kv => bind (external_entry (snd kv)) (fun x => Ret (fst kv, x))) l = Ret data /\
    forall acc, fold_left (fun acc kv => let '(key, (rel, url, integrity)) := kv in
    let relpath := match rel with Some p => p | None => key end in dset relpath (mkExternal relpath url integrity) acc) data acc = fold_left (fun acc x => dset (x_relpath x) x acc) xs acc).
  { induction H as [|[k v] x l xs A _ (data & T & G)]; [exists []; split; reflexivity|]. cbn [fst snd] in A. destruct (external_loads _ _ _ A) as (rel & E & P).
    exists ((k, (rel, x_url x, x_integrity x)) :: data). cbn [traverse fst snd]. rewrite E. cbn [bind]. rewrite T. split; [reflexivity|].
    intros acc. cbn [fold_left]. cbv zeta. rewrite P, G. destruct x. reflexivity. }
  destruct K as (data & -> & G). cbn [bind]. unfold load_external_files. rewrite G. reflexivity.
Qed.
Lemma fold_external xs : forall acc p, (forall x, In x xs -> x_relpath x <> p) -> dget p (fold_left (fun acc x => dset (x_relpath x) x acc) xs acc) = dget p acc.
Proof.
  induction xs as [|x xs IH]; intros acc p H; [reflexivity|]. cbn [fold_left]. rewrite IH by (intros y Y; apply H; right; exact Y).
  apply Base.dget_dset_other. apply H. left. reflexivity.
Qed.
Lemma externals_found l xs : externals_are l xs -> exists d, load_external (JObj l) = Ret d /\
  (forall xs1 x xs2, xs = xs1 ++ x :: xs2 -> (forall y, In y xs2 -> x_relpath y <> x_relpath x) -> dget (x_relpath x) d = Some x) /\
  (forall p x, dget p d = Some x -> In x xs /\ x_relpath x = p).
Proof.
  intros H. rewrite (externals_load _ _ H). eexists. split; [reflexivity|]. split.
  - intros xs1 x xs2 -> N. rewrite fold_left_app. cbn [fold_left]. rewrite fold_external by exact N. apply Base.dget_dset_same.
  - clear H. intros p x. induction xs as [|y xs IH] using rev_ind; [discriminate|]. rewrite fold_left_app. cbn [fold_left]. destruct (list_eq_dec N.eq_dec (x_relpath y) p) as [E|D].
    + rewrite <- E, Base.dget_dset_same. intros X. injection X as <-. split; [apply in_or_app; right; left; reflexivity|reflexivity].
    + rewrite Base.dget_dset_other by congruence. intros X. destruct (IH X) as [A B]. split; [apply in_or_app; left; exact A|exact B].
Qed.
Lemma constant_is_cval v c : constant_is v c -> cval_of repr v = c.
Proof. intros []; try reflexivity. unfold cval_of, number. rewrite parse_Z_print. reflexivity. Qed.
Lemma constants_map l l' : entries_are constant_is l l' -> map (fun kv => (fst kv, cval_of repr (snd kv))) l = l'.
Proof. intros E. induction E as [|[a v] [b x] l l' [A B] _ IH]; [reflexivity|]. cbn [fst snd] in A, B. subst b. cbn [map fst snd]. rewrite (constant_is_cval _ _ B), IH. reflexivity. Qed.
Lemma constants_load v rel shared dev prod : constants_are v rel shared dev prod -> load_js_constants repr env v = load_constants env rel shared dev prod.
Proof.
  intros (d & s & e & p & -> & R & S & E & P & A & B & C). unfold load_js_constants, item. rewrite R, S, E, P. cbn [bind replaced]. unfold shallow_replace_envvars.
  rewrite (constants_map _ _ A), (constants_map _ _ B), (constants_map _ _ C). unfold load_constants.
  destruct (replace_envvars env shared []); cbn [bind]; [|reflexivity]. destruct (replace_envvars env dev []); cbn [bind]; [|reflexivity]. destruct (replace_envvars env prod []); reflexivity.
Qed.

(** * The whole configuration *)
Context {F : Type} (float_of : str -> option F) (high_digit : N -> bool) (int_high : str -> option Z) (plain : N -> N) (lower_high : N -> str).
Notation load_config := (load_config bad bool_int float_text decimal repr env float_of high_digit int_high plain lower_high).
Notation load_rest := (load_rest bad bool_int float_text decimal repr env float_of high_digit int_high plain lower_high).
Lemma eqb_text v s : json_eqb v (JStr s) = true <-> v = JStr s.
Proof.
  destruct v; cbn [json_eqb]; try (split; discriminate). split; [intros H; apply str_eqb_eq in H; congruence|]. intros H. injection H as ->. apply str_eqb_refl.
Qed.
Lemma no_folder f : has_folder (lit "src") f = false <-> ~ has_sources f.
Proof.
  destruct (has_folder (lit "src") f) eqn:E.
  - apply has_folder_iff in E. split; [discriminate|]. intros N. destruct E as [r H]. destruct N. exists r. exact H.
  - split; [|reflexivity]. intros _ [r H]. assert (X : has_folder (lit "src") f = true) by (apply has_folder_iff; exists r; exact H). congruence.
Qed.
Lemma config_exits f : load_config f = Exits <->
  dget config_file f = None \/ exists text v, dget config_file f = Some text /\ json_file text = Ret v /\
    ((forall d, v <> JObj d) \/ exists d ver, v = JObj d /\ dget (lit "version") d = Some ver /\
       (ver <> JStr (lit "1.0.0") \/ (ver = JStr (lit "1.0.0") /\ dget (lit "host") d <> None /\ ~ has_sources f))).
Proof.
  unfold Config.load_config. destruct (dget config_file f) as [text|] eqn:C; [|split; [auto|reflexivity]].
  destruct (json_file text) as [v|e] eqn:J; [|split; [discriminate|]; intros [H|(t & v & H & K & _)]; [discriminate|congruence]].
  assert (NO : forall P : Prop, (forall d, v <> JObj d) -> (Exits = Exits :> outcome context <-> Some text = None \/ (exists t v0, Some text = Some t /\ json_file t = Ret v0 /\ ((forall d, v0 <> JObj d) \/ P)))).
  { intros P N. split; [|reflexivity]. intros _. right. exists text, v. auto. }
  destruct v as [| | | | |d]; try (split; [intros _; right; eexists; eexists; split; [reflexivity|]; split; [exact J|]; left; discriminate|reflexivity]).
  clear NO. unfold item. destruct (dget (lit "version") d) as [ver|] eqn:V.
  2:{ split; [discriminate|]. intros [H|(t & v & H & K & L)]; [discriminate|]. injection H as <-. rewrite J in K. injection K as <-. destruct L as [L|(d' & ver & L & M & _)]; [destruct (L d eq_refl)|]. injection L as <-. congruence. }
  destruct (json_eqb ver (JStr CONFIGURATION_VERSION)) eqn:E; cbn [negb].
  - apply eqb_text in E. subst ver. destruct (dget (lit "host") d) as [h|] eqn:HO.
    + destruct (has_folder (lit "src") f) eqn:S; cbn [negb].
      * split.
        { destruct (load_rest d h f); discriminate. }
        intros [H|(t & v & H & K & L)]; [discriminate|]. injection H as <-. rewrite J in K. injection K as <-. destruct L as [L|(d' & ver & L & M & [N|(_ & _ & N)])].
        -- destruct (L d eq_refl).
        -- injection L as <-. rewrite V in M. injection M as <-. destruct (N eq_refl).
        -- apply no_folder in N. congruence.
      * split; [|reflexivity]. intros _. right. exists text, (JObj d). split; [reflexivity|]. split; [exact J|]. right. exists d, (JStr CONFIGURATION_VERSION). split; [reflexivity|]. split; [exact V|]. right. split; [reflexivity|]. split; [congruence|]. apply no_folder. exact S.
    + split; [discriminate|]. intros [H|(t & v & H & K & L)]; [discriminate|]. injection H as <-. rewrite J in K. injection K as <-. destruct L as [L|(d' & ver & L & M & [N|(_ & N & _)])].
      * destruct (L d eq_refl).
      * injection L as <-. rewrite V in M. injection M as <-. destruct (N eq_refl).
      * injection L as <-. destruct (N HO).
  - split; [|reflexivity]. intros _. right. exists text, (JObj d). split; [reflexivity|]. split; [exact J|]. right. exists d, ver. split; [reflexivity|]. split; [exact V|]. left. intros ->. rewrite (proj2 (eqb_text _ _)) in E by reflexivity. discriminate.
Qed.
Lemma config_loads f text d h ic vi s t st ph l xs vj rel shared dev prod cs :
  dget config_file f = Some text -> json_file text = Ret (JObj d) -> has_sources f -> dget (lit "version") d = Some (JStr (lit "1.0.0")) -> dget (lit "host") d = Some h ->
  load_icon_settings float_of high_digit int_high plain lower_high d f = Ret ic ->
  dget (lit "images") d = Some vi -> settings_are vi s t -> decimal t = Ret (st, step_text s) -> In (default_format s) (map fst (formats s)) -> 0 < coef st ->
  dget (lit "auto_generate_images_js_placeholders") d = Some ph -> dget (lit "external_files") d = Some (JObj l) -> externals_are l xs ->
  dget (lit "js_constants") d = Some vj -> constants_are vj rel shared dev prod -> load_constants env rel shared dev prod = Ret cs ->
  exists c, load_config f = Loaded c /\ Config.host c = h /\ icons c = ic /\ images c = s /\ step c = st /\ placeholders c = ph /\ load_external (JObj l) = Ret (externals c) /\ js c = cs.
Proof.
  intros A B (r & S) V H IC I SA D DF P PH E EA J JA CS. unfold Config.load_config. rewrite A, B. unfold item at 1. rewrite V.
  change (negb (json_eqb (JStr (lit "1.0.0")) (JStr CONFIGURATION_VERSION))) with false. cbv iota. unfold item at 1. rewrite H.
  assert (F' : has_folder (lit "src") f = true) by (apply has_folder_iff; exists r; exact S). rewrite F'. cbn [negb]. unfold Config.load_rest. rewrite IC. cbn [bind].
  unfold item. rewrite I. cbn [bind]. rewrite (settings_load _ _ _ _ SA D). apply dmem_In in DF. rewrite DF. cbn [negb]. destruct (Z.leb_spec (coef st) 0) as [L|_]; [destruct (Zlt_not_le _ _ P L)|]. cbn [bind fst snd].
  rewrite PH. cbn [bind]. rewrite E. cbn [bind]. rewrite (externals_load _ _ EA). cbn [bind]. rewrite J. cbn [bind]. rewrite (constants_load _ _ _ _ _ JA), CS. cbn [bind of_res].
  eexists. split; [reflexivity|]. repeat (split; [reflexivity|]). reflexivity.
Qed.
Lemma old_version host f text d ver : dget config_file f = Some text -> json_file text = Ret (JObj d) -> dget (lit "version") d = Some ver -> ver <> JStr (lit "1.0.0") ->
  load_config f = Exits /\ load_config (init host f) = Exits.
Proof.
  intros A B C D. split; apply config_exits; right; exists text, (JObj d).
  - split; [exact A|]. split; [exact B|]. right. exists d, ver. auto.
  - split; [rewrite init_other; [exact A|left; congruence]|]. split; [exact B|]. right. exists d, ver. auto.
Qed.
Lemma new_images : decimal (JStr (lit "0.5")) = Ret (half, lit "0.5") -> load_image_settings images_json = Ret (new_settings, half).
Proof.
  intros H. unfold Config.load_image_settings, images_json.
  set (l := [(lit "jpeg", _); (lit "webp", _)]). cbv beta iota. 
  assert (A : traverse (fun kv => bind (load_format (snd kv)) (fun x => Ret (fst kv, x))) l = Ret (formats new_settings)) by (unfold l; vm_compute; reflexivity).
  change (dget (lit "formats") _) with (Some (JObj l)). cbv iota. match goal with |- context[dget (lit "default_format") ?x] => change (dget (lit "default_format") x) with (Some (JStr (lit "jpeg"))) end. cbv iota.
  match goal with |- context[dget (lit "resolution_step") ?x] => change (dget (lit "resolution_step") x) with (Some (JStr (lit "0.5"))) end. cbv iota.
  match goal with |- context[dget (lit "maximum_resolution") ?x] => change (dget (lit "maximum_resolution") x) with (Some (number 7)) end. rewrite check_number. cbn [bind step_type negb].
  rewrite A. cbn [bind]. rewrite H. reflexivity.
Qed.
Lemma new_js : load_js_constants repr env constants_json = Ret new_constants.
Proof. reflexivity. Qed.
Lemma init_builds host f : dget config_file f = None -> (forall h, host = Some h -> json_safe h) -> decimal (JStr (lit "0.5")) = Ret (half, lit "0.5") ->
  (exists c, load_config (init host f) = Loaded c /\ Config.host c = match host with Some h => JStr h | None => JNull end /\ images c = new_settings /\ step c = half /\
     placeholders c = JBool true /\ externals c = [] /\ js c = new_constants /\ default_buttons (icons c) = Some (mkSettings (Some usual_button) []) /\
     (dget (lit "src/public/css/main.css") f = None -> color_map (icons c) = [] /\ icon_sizes (icons c) = [])) \/
  (dget (lit "src/public/css/main.css") f <> None /\ (load_config (init host f) = Fails TypeError \/ load_config (init host f) = Fails ValueError)).
Proof.
  intros N S H. unfold Config.load_config. rewrite (init_config host f N), (load_dump_kept _ (kept_config host S)), (init_sources host f). unfold config_json. set (d := [_; _; _; _; _; _]).
  change (item (lit "version") (JObj d)) with (Ret (JStr CONFIGURATION_VERSION)). cbv iota. change (negb (json_eqb (JStr CONFIGURATION_VERSION) (JStr CONFIGURATION_VERSION))) with false. cbv iota.
  change (item (lit "host") (JObj d)) with (Ret (match host with Some h => JStr h | None => JNull end)). cbv iota. cbn [negb]. unfold Config.load_rest.
  assert (B : load_buttons d = Ret (mkSettings (Some usual_button) [])) by reflexivity.
  assert (M : dget (lit "src/public/css/main.css") (init host f) = dget (lit "src/public/css/main.css") f) by (apply init_other; right; split; discriminate).
  change (item (lit "images") (JObj d)) with (Ret images_json). change (item (lit "auto_generate_images_js_placeholders") (JObj d)) with (Ret (JBool true)).
  change (item (lit "external_files") (JObj d)) with (Ret (JObj [])). change (item (lit "js_constants") (JObj d)) with (Ret constants_json).
  pose proof (load_total float_of high_digit int_high plain lower_high d (init host f) _ B) as T. pose proof (load_nothing float_of high_digit int_high plain lower_high d (init host f) _ B) as L. rewrite M in L.
  assert (DB : forall cfg, load_icon_settings float_of high_digit int_high plain lower_high d (init host f) = Ret cfg -> default_buttons cfg = Some (mkSettings (Some usual_button) [])).
  { intros cfg. unfold load_icon_settings. rewrite B. cbn [bind]. destruct (load_sheet _ _ _ _ _ _); cbn [bind]; [intros X; injection X as <-; reflexivity|discriminate]. }
  destruct T as [[cfg E]|(e & E & X)].
  - left. specialize (DB _ E). rewrite E in L |- *. cbn [bind]. rewrite (new_images H). cbn [bind fst snd]. change (load_external (JObj [])) with (Ret (@nil (str * external))). cbn [bind]. rewrite new_js. cbn [bind of_res].
    eexists. split; [reflexivity|]. cbn [Config.host images step placeholders externals js icons]. repeat (split; [reflexivity|]). split; [exact DB|]. intros Y.
    specialize (L (or_introl Y)). injection L as ->. split; reflexivity.
  - right. split; [intros Y; specialize (L (or_introl Y)); congruence|]. rewrite E. cbn [bind of_res]. destruct X as [-> | ->]; auto.
Qed.
End Load.

(** * The settings of a new configuration *)
Lemma new_served w h name fm : In (name, fm) (formats new_settings) -> served fm w h.
Proof.
  intros [E|[E|[]]]; injection E as <- <-; exists (lit "85"); eexists; (split; [right; right; left; reflexivity|split; discriminate]).
Qed.
Ltac nodups := repeat (apply NoDup_cons; [intros X; repeat (destruct X as [X|X]; [discriminate X|]); exact X|]); apply NoDup_nil.
Lemma new_good : good_formats (formats new_settings).
Proof.
  split; [unfold dict_wf, dkeys; cbn [formats new_settings map fst]; nodups|]. intros name fm [E|[E|[]]]; injection E as <- <-.
  - split; [intros X; repeat (destruct X as [X|X]; [discriminate X|]); exact X|]. split; [unfold dict_wf, dkeys; cbn [exports map fst]; nodups|].
    intros n e [E|[E|[E|[E|[]]]]]; injection E as <- <-; reflexivity.
  - split; [intros X; repeat (destruct X as [X|X]; [discriminate X|]); exact X|]. split; [unfold dict_wf, dkeys; cbn [exports map fst]; nodups|].
    intros n e [E|[E|[E|[E|[E|[]]]]]]; injection E as <- <-; reflexivity.
Qed.
Lemma new_named : named_well new_settings.
Proof. intros name fm [E|[E|[]]]; injection E as <- <-; (split; [unfold unblank; repeat (apply Forall_cons; [reflexivity|]); apply Forall_nil|intros X; repeat (destruct X as [X|X]; [discriminate X|]); exact X]). Qed.
Lemma new_plain : plain_settings new_settings.
Proof.
  assert (K : forallb (fun f => forallb (fun e => forallb (fun kv => match snd kv with KOther => false | _ => true end) (kwargs (snd e))) (exports (snd f))) (formats new_settings) = true) by reflexivity.
  rewrite forallb_forall in K. intros fn f en e kn v A B C. specialize (K _ A). cbn [snd] in K. rewrite forallb_forall in K. specialize (K _ B). cbn [snd] in K. rewrite forallb_forall in K. specialize (K _ C). cbn [snd] in K. destruct v; discriminate.
Qed.
Lemma new_safe : safe_settings new_settings.
Proof.
  assert (K : forallb (fun f => forallb (fun c => (c <? 55296)%N) (fst f) && forallb (fun e => forallb (fun c => (c <? 55296)%N) (fst e)) (exports (snd f))) (formats new_settings) = true) by reflexivity.
  rewrite forallb_forall in K. intros name fm A. specialize (K _ A). cbn [fst snd] in K. apply andb_true_iff in K. destruct K as [K1 K2]. split; [exact (safe_lit _ K1)|].
  intros n e B. rewrite forallb_forall in K2. exact (safe_lit _ (K2 _ B)).
Qed.
Lemma new_default : exists fm, In (default_format new_settings, fm) (formats new_settings).
Proof. eexists. left. reflexivity. Qed.
