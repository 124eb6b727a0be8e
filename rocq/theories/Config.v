(** runners/init.py 33-157, runners/build.py 103-128, build_context.py 220-253 and
    build/html/manips/images/settings.py 124-200: the configuration file, how it is made and
    how it is read. *)
From Verif Require Import External Base Graph Json Css PyPath Handlers IconManip IconSettings Html ImgSize ImgSettings ImgMeta.
From Coq Require Import String ZArith NArith Bool List.
Import ListNotations.
Open Scope list_scope.
Open Scope Z_scope.

(** * init.py *)
Definition area (z : option Z) : json := match z with None => JNull | Some z => num z end.
(** one of the exports of 64-139 *)
Definition export_json (min max : option Z) (pref : Z) (kwargs : list (str * json)) : json :=
  JObj [(lit "min_area_px2", area min); (lit "max_area_px2", area max); (lit "preference", num pref); (lit "formatter_kwargs", JObj kwargs)].
Definition jpeg_kwargs (q : Z) : list (str * json) := [(lit "quality", num q)].
Definition webp_kwargs (q : Z) (lossless : bool) : list (str * json) := [(lit "quality", num q); (lit "method", num 6); (lit "lossless", JBool lossless)].
(** 60-146; the encoder writes the Decimal as its text (159-163) *)
Definition images_json : json :=
  JObj [(lit "formats", JObj
          [(lit "jpeg", JObj [(lit "exports", JObj
              [(lit "50", export_json (Some (600 * 600)) None 1 (jpeg_kwargs 50));
               (lit "75", export_json None None 2 (jpeg_kwargs 75));
               (lit "85", export_json None None 3 (jpeg_kwargs 85));
               (lit "100", export_json None (Some (600 * 600)) 5 (jpeg_kwargs 100))]); (lit "minimum_unit_size_bytes", num 85000)]);
           (lit "webp", JObj [(lit "exports", JObj
              [(lit "50", export_json (Some (400 * 400)) None 1 (webp_kwargs 50 false));
               (lit "75", export_json (Some (600 * 600)) None 2 (webp_kwargs 75 false));
               (lit "85", export_json None None 3 (webp_kwargs 85 false));
               (lit "100", export_json None (Some (600 * 600)) 5 (webp_kwargs 100 false));
               (lit "lossless", export_json None (Some (400 * 400)) 8 (webp_kwargs 100 true))]); (lit "minimum_unit_size_bytes", num 85000)])]);
        (lit "default_format", JStr (lit "jpeg")); (lit "maximum_resolution", num 7); (lit "resolution_step", JStr (lit "0.5"))].
(** constants.py 1 *)
Definition CONFIGURATION_VERSION : str := lit "1.0.0".
(** 147-156 *)
Definition constants_json : json :=
  JObj [(lit "relpath", JStr (lit "src/public/js/constants.js")); (lit "shared", JObj []);
        (lit "dev", JObj [(lit "API_URL", JStr (lit "http://127.0.0.1:8080"))]); (lit "prod", JObj [(lit "API_URL", JStr [])])].
(** 57-157 *)
Definition config_json (host : option str) : json :=
  JObj [(lit "version", JStr CONFIGURATION_VERSION); (lit "host", match host with Some h => JStr h | None => JNull end); (lit "images", images_json);
        (lit "auto_generate_images_js_placeholders", JBool true); (lit "external_files", JObj []); (lit "js_constants", constants_json)].
(** 165-176 *)
Definition index_text : str := lit "<!DOCTYPE html>
<html lang=""en"">
<head>
  <meta charset=""utf-8"">
  <title>VanillaPlusJS</title>
</head>
<body>
  <h1>VanillaPlusJS</h1>
</body>
</html>
".
Definition config_file : str := lit "vanillaplusjs.json".
Definition index_file : str := lit "src/public/index.html".
(** 33-176.  Empty folders are not modelled, so making folders (161-163) does nothing. *)
Definition init (host : option str) (f : fs) : fs :=
  let f := if dmem config_file f then f else dset config_file (dump (config_json host)) f in
  if dmem index_file f then f else dset index_file index_text f.

(** * images/settings.py 124-200 *)
Section Load.
(** pytypeutils.check: [bad] is what it raises, [bool_int] whether it takes a boolean for an
    int (it is then kept as a boolean, here as 0 or 1) *)
Context (bad : exn) (bool_int : bool).
(** [str(float(raw))]; [Decimal(v)] with its [str], raising for what is not a finite number;
    the [str] or [repr] of a value that is neither text, boolean nor integer; os.environ *)
Context (float_text : str -> str) (decimal : json -> res (dec * str)) (repr : json -> str) (env : str -> option str).
Definition check_int (v : option json) : res Z :=
  match v with
  | Some (JNum raw) => match parse_Z raw with Some z => Ret z | None => Raise bad end
  | Some (JBool b) => if bool_int then Ret (if b then 1 else 0) else Raise bad
  | _ => Raise bad
  end.
(** 158-164 *)
Definition check_area (v : option json) : res (option Z) :=
  match v with None | Some JNull => Ret None | _ => bind (check_int v) (fun z => Ret (Some z)) end.
(** a value of formatter_kwargs *)
Definition kval_of (v : json) : kval :=
  match v with
  | JNull => KNone
  | JBool b => KBool b
  | JNum raw => match parse_Z raw with Some z => KInt z | None => KFloat (float_text raw) end
  | JStr s => KStr s
  | JList _ | JObj _ => KOther
  end.
(** 153-177 *)
Definition load_export (v : json) : res image_export :=
  match v with
  | JObj d =>
      bind (check_area (dget (lit "min_area_px2") d)) (fun min =>
      bind (check_area (dget (lit "max_area_px2") d)) (fun max =>
      bind (check_int (dget (lit "preference") d)) (fun pref =>
      match dget (lit "formatter_kwargs") d with
      | None => Ret {| min_area := min; max_area := max; preference := pref; kwargs := [] |}
      | Some (JObj k) => Ret {| min_area := min; max_area := max; preference := pref; kwargs := map (fun kv => (fst kv, kval_of (snd kv))) k |}
      | Some _ => Raise bad
      end)))
  | _ => Raise bad
  end.
(** 140-183; the arguments of the check are computed first *)
Definition load_format (v : json) : res image_format :=
  match v with
  | JObj d =>
      match dget (lit "exports") d with
      | Some (JObj l) =>
          bind (check_int (dget (lit "minimum_unit_size_bytes") d)) (fun u =>
          bind (traverse (fun kv => bind (load_export (snd kv)) (fun e => Ret (fst kv, e))) l) (fun es =>
          Ret {| exports := es; unit_size := u |}))
      | _ => Raise bad
      end
  | _ => Raise AttributeError
  end.
(** 133-136 *)
Definition step_type (v : option json) : bool :=
  match v with Some (JNum _) | Some (JStr _) => true | Some (JBool _) => bool_int | _ => false end.
(** 128-200, with the step as a number *)
Definition load_image_settings (v : json) : res (image_settings * dec) :=
  match v with
  | JObj d =>
      match dget (lit "formats") d, dget (lit "default_format") d, dget (lit "resolution_step") d with
      | Some (JObj l), Some (JStr def), Some s =>
          bind (check_int (dget (lit "maximum_resolution") d)) (fun max =>
          if negb (step_type (Some s)) then Raise bad else
          bind (traverse (fun kv => bind (load_format (snd kv)) (fun x => Ret (fst kv, x))) l) (fun fs =>
          bind (decimal s) (fun st =>
          if negb (dmem def fs) then Raise ValueError
          else if coef (fst st) <=? 0 then Raise ValueError
          else Ret ({| formats := fs; default_format := def; maximum := max; step_text := snd st |}, fst st))))
      | _, _, _ => Raise bad
      end
  | _ => Raise bad
  end.

(** * build_context.py *)
(** 220-230: one value; an address or integrity that is no text is outside the model *)
Definition external_entry (v : json) : res (option str * str * str) :=
  match v with
  | JObj d =>
      bind (match dget (lit "relpath") d with None => Ret None | Some x => bind (replaced x) (fun s => Ret (Some s)) end) (fun rel =>
      bind (bind (item (lit "url") v) as_str) (fun url =>
      bind (bind (item (lit "integrity") v) as_str) (fun integrity =>
      Ret (rel, url, integrity))))
  | _ => Raise AttributeError
  end.
Definition load_external (v : json) : res (@dict external) :=
  match v with
  | JObj l => bind (traverse (fun kv => bind (external_entry (snd kv)) (fun x => Ret (fst kv, x))) l) (fun data => Ret (load_external_files data))
  | _ => Raise AttributeError
  end.
Definition cval_of (v : json) : cval :=
  match v with
  | JStr s => VStr s
  | JBool b => VBool b
  | JNum raw => match parse_Z raw with Some z => VInt z | None => VOther (repr v) end
  | _ => VOther (repr v)
  end.
(** 233-243 *)
Definition shallow_replace_envvars (v : json) : res cdict :=
  match v with
  | JObj l => replace_envvars env (map (fun kv => (fst kv, cval_of (snd kv))) l) []
  | _ => Raise AttributeError
  end.
(** 246-253 *)
Definition load_js_constants (v : json) : res constants :=
  bind (bind (item (lit "relpath") v) replaced) (fun rel =>
  bind (bind (item (lit "shared") v) shallow_replace_envvars) (fun shared =>
  bind (bind (item (lit "dev") v) shallow_replace_envvars) (fun dev =>
  bind (bind (item (lit "prod") v) shallow_replace_envvars) (fun prod =>
  Ret {| c_relpath := rel; c_shared := shared; c_dev := dev; c_prod := prod |})))).

(** * runners/build.py 103-128 *)
Inductive outcome (A : Type) := Loaded (a : A) | Exits | Fails (e : exn).
Arguments Loaded {A} _. Arguments Exits {A}. Arguments Fails {A} _.
Definition of_res {A} (r : res A) : outcome A := match r with Ret a => Loaded a | Raise e => Fails e end.
(** the fields of BuildContext that are set; [placeholders] and [host] are what the file has *)
Record context := { host : json; icons : icon_settings; images : image_settings; step : dec; placeholders : json; externals : @dict external; js : constants }.
Context {F : Type} (float_of : str -> option F) (high_digit : N -> bool) (int_high : str -> option Z) (plain : N -> N) (lower_high : N -> str).
(** 119-127; the configuration is read again for the icons, in the same state *)
Definition load_rest (d : list (str * json)) (h : json) (f : fs) : res context :=
  bind (load_icon_settings float_of high_digit int_high plain lower_high d f) (fun ic =>
  bind (bind (item (lit "images") (JObj d)) load_image_settings) (fun im =>
  bind (item (lit "auto_generate_images_js_placeholders") (JObj d)) (fun ph =>
  bind (bind (item (lit "external_files") (JObj d)) load_external) (fun ex =>
  bind (bind (item (lit "js_constants") (JObj d)) load_js_constants) (fun c =>
  Ret {| host := h; icons := ic; images := fst im; step := snd im; placeholders := ph; externals := ex; js := c |}))))).
(** 99-127; [Exits]: a message and sys.exit(1) *)
Definition load_config (f : fs) : outcome context :=
  match dget config_file f with
  | None => Exits
  | Some text =>
      match json_file text with
      | Raise e => Fails e
      | Ret (JObj d) =>
          match item (lit "version") (JObj d) with
          | Raise e => Fails e
          | Ret v =>
              if negb (json_eqb v (JStr CONFIGURATION_VERSION)) then Exits else
              match item (lit "host") (JObj d) with
              | Raise e => Fails e
              | Ret h => if negb (has_folder (lit "src") f) then Exits else of_res (load_rest d h f)
              end
          end
      | Ret _ => Exits
      end
  end.
End Load.
Arguments Loaded {A} _. Arguments Exits {A}. Arguments Fails {A} _.
