(** Vocabulary for C63: acceptable images.json files, and modules about images. *)
From Verif Require Import Base Graph Json PyPath JsonProofs Handlers ImgExport ImgCommand ImgPage.
From Coq Require Import String ZArith NArith QArith Bool List.
Import ListNotations.
Open Scope list_scope.
Open Scope Z_scope.

(** * images.json *)
Section Accept.
Context (num : str -> Q) (dims : str -> res (option (Z * Z))).
(** a whole number, as python sees it *)
Inductive whole : json -> Z -> Prop :=
| WholeNumber raw z : parse_Z raw = Some z -> whole (JNum raw) z
| WholeBool b : whole (JBool b) (if b then 1 else 0).
(** the value of a setting, which may be missing *)
Inductive amount (d : list (str * json)) (k : str) (default : Q) : Q -> Prop :=
| AmountMissing : dget k d = None -> amount d k default default
| AmountNumber raw : dget k d = Some (JNum raw) -> amount d k default (num raw)
| AmountBool b : dget k d = Some (JBool b) -> amount d k default (if b then 1 else 0)%Q.
(** crop settings that leave enough of an image *)
Inductive crop_fine (d : list (str * json)) (iw ih w h : Z) : Prop :=
| CropFine top left right bottom x y :
    (forall k v, In (k, v) d -> In k [lit "pre_top_crop"; lit "pre_left_crop"; lit "pre_right_crop"; lit "pre_bottom_crop"; lit "crop_left_percentage"; lit "crop_top_percentage"]) ->
    amount d (lit "pre_top_crop") 0 top -> amount d (lit "pre_left_crop") 0 left -> amount d (lit "pre_right_crop") 0 right -> amount d (lit "pre_bottom_crop") 0 bottom ->
    (0 <= top -> 0 <= left -> 0 <= right -> 0 <= bottom ->
    amount d (lit "crop_left_percentage") (1 # 2) x -> 0 <= x <= 1 -> amount d (lit "crop_top_percentage") (1 # 2) y -> 0 <= y <= 1 ->
    inject_Z w <= inject_Z iw - left - right -> inject_Z h <= inject_Z ih - top - bottom -> crop_fine d iw ih w h)%Q.
(** an acceptable entry: an image, and a size that it has room for.  The key "crop_settings"
    means nothing, but what is under it must be acceptable as well *)
Inductive acceptable (f : fs) : json -> Prop :=
| Acceptable d path image iw ih vw w vh h : dget (lit "path") d = Some (JStr (47%N :: path)) -> dget (join_path (lit "src") [lit "public"; path]) f = Some image -> dims image = Ret (Some (iw, ih)) ->
    dget (lit "width") d = Some vw -> whole vw w -> 0 < w <= iw -> dget (lit "height") d = Some vh -> whole vh h -> 0 < h <= ih ->
    (dget (lit "crop_style") d = None \/ dget (lit "crop_style") d = Some (JStr (lit "cover"))) ->
    (dget (lit "crop_settings") d = None \/ exists crop, dget (lit "crop_settings") d = Some (JObj crop) /\ crop_fine crop iw ih w h) -> acceptable f (JObj d).
End Accept.
(** the command of an entry *)
Inductive stands_for : json -> command -> Prop :=
| StandsFor d path vw w vh h args lazy : dget (lit "path") d = Some (JStr path) -> dget (lit "width") d = Some vw -> whole vw w -> dget (lit "height") d = Some vh -> whole vh h ->
    (dget (lit "crop_arguments") d = None /\ args = [] \/ dget (lit "crop_arguments") d = Some (JObj args)) -> stands_for (JObj d) {| c_path := path; c_width := w; c_height := h; c_args := args; c_lazy := lazy |}.

(** [carried f l f' reports]: the commands of [l] are carried out one after the other; a
    report also has the files before it *)
Record report := { r_name : str; r_command : command; r_before : fs; r_meta : metadata target; r_built : Handlers.built }.
Inductive carried (export : command -> fs -> res (metadata target * Handlers.built * fs)) : fs -> list (str * json) -> fs -> list report -> Prop :=
| ExportsEnd f : carried export f [] f []
| ExportsNext name v c m b f f1 l f' rs : stands_for v c -> (c_lazy c = true) -> export c f = Ret (m, b, f1) -> carried export f1 l f' rs ->
    carried export f ((name, v) :: l) f' ({| r_name := name; r_command := c; r_before := f; r_meta := m; r_built := b |} :: rs).
Inductive surveys (scan : command -> fs -> res (scanned * fs)) : fs -> list (str * json) -> fs -> list scanned -> Prop :=
| SurveysEnd f : surveys scan f [] f []
| SurveysNext name v c s f f1 l f' ss : stands_for v c -> (c_lazy c = true) -> scan c f = Ret (s, f1) -> surveys scan f1 l f' ss -> surveys scan f ((name, v) :: l) f' (s :: ss).

(** * Modules *)
(** the value under some keys *)
Inductive field : list str -> json -> json -> Prop :=
| FieldHere v : field [] v v
| FieldIn k l x ks v : dget k l = Some x -> field ks x v -> field (k :: ks) (JObj l) v.
Definition keys_are (v : json) (ks : list str) : Prop := exists l, v = JObj l /\ NoDup (map fst l) /\ forall k, In k (map fst l) <-> In k ks.
(** what a module says about an exported file *)
Record shows_output (o : output) (v : json) : Prop := {
  so_keys : keys_are v [lit "width"; lit "height"; lit "url"; lit "choice"];
  so_width : field [lit "width"] v (JNum (print_Z (o_width o)));
  so_height : field [lit "height"] v (JNum (print_Z (o_height o)));
  so_url : field [lit "url"] v (JStr (lit "/" ++ o_relpath o));
  so_choice : field [lit "choice"] v (JStr (o_choice o)) }.
(** what it says about an image *)
Record shows_image (m : metadata target) (v : json) : Prop := {
  si_keys : keys_are v [lit "target"];
  si_target : exists t, field [lit "target"] v t /\ keys_are t [lit "settings"; lit "outputs"];
  si_settings : exists t, field [lit "target"; lit "settings"] v t /\ keys_are t [lit "width"; lit "height"; lit "crop"; lit "crop_settings"];
  si_width : field [lit "target"; lit "settings"; lit "width"] v (JNum (print_Z (fst (fst (m_target m)))));
  si_height : field [lit "target"; lit "settings"; lit "height"] v (JNum (print_Z (snd (fst (m_target m)))));
  si_crop : field [lit "target"; lit "settings"; lit "crop"] v (JStr (lit "cover"));
  si_crops : exists t, field [lit "target"; lit "settings"; lit "crop_settings"] v t /\ keys_are t (map fst (snd (m_target m)));
  si_crop_settings : forall k x, dget k (snd (m_target m)) = Some x -> (forall l, x <> JList l) -> (forall l, x <> JObj l) -> field [lit "target"; lit "settings"; lit "crop_settings"; k] v x;
  si_formats : exists o, field [lit "target"; lit "outputs"] v o /\ keys_are o (map fst (m_outputs m));
  si_outputs : forall name l, dget name (m_outputs m) = Some l -> exists vs, field [lit "target"; lit "outputs"; name] v (JList vs) /\ Forall2 shows_output l vs }.
(** metadata whose texts and numbers json can express ([json_safe]: no two halves of a surrogate
    pair side by side) *)
Record expressible (m : metadata target) : Prop := {
  ex_crop_keys : NoDup (map fst (snd (m_target m)));
  ex_crop : forall k v, In (k, v) (snd (m_target m)) -> json_safe k /\ json_ok v;
  ex_format_keys : NoDup (map fst (m_outputs m));
  ex_formats : forall name l, In (name, l) (m_outputs m) -> json_safe name;
  ex_outputs : forall name l o, In (name, l) (m_outputs m) -> In o l -> json_safe (o_relpath o) /\ json_safe (o_choice o) }.
(** the same files among those that are read for the check: sources, and files named from "/" *)
Definition same_inputs (f g : fs) : Prop := forall q, (exists r, q = lit "src/" ++ r) \/ (exists r, q = 47%N :: r) -> dget q f = dget q g.
