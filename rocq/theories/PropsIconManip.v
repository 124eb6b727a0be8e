(** C57 and C58: the css and the images generated for icon commands.  [float_of],
    [high_digit] and [int_high] stand for python's float() and its treatment of digits
    outside ASCII; [sha] for the hash of a file. *)
From Verif Require Import Base Graph PyPath Css Builder Handlers IconColor IconParse IconManip IconManipSpec IconManipProofs.
From Coq Require Import String ZArith NArith Bool List.
Import ListNotations.
Open Scope list_scope.
Open Scope N_scope.

(** * What a comment asks for *)
(** only comments with the icon directive are commands; what they ask for is said by the
    command they hold *)
Theorem C57_comment : forall F (float_of : str -> option F) high_digit int_high cfg t,
  (forall v a, t = TComment v -> ~ icon_comment v a) -> get_icon_command_args float_of high_digit int_high cfg t = Ret None.
Proof. exact @get_other. Qed.
Print Assumptions C57_comment.
Theorem C57_directive : forall F (float_of : str -> option F) high_digit int_high cfg v a, icon_comment v a ->
  (forall c, command_of float_of high_digit int_high a = Ret (Some c) -> get_icon_command_args float_of high_digit int_high cfg (TComment v) = resolve cfg c) /\
  (forall e, command_of float_of high_digit int_high a = Raise e -> get_icon_command_args float_of high_digit int_high cfg (TComment v) = Raise e).
Proof. intros. split; intros; [eapply get_command|eapply get_bad]; eassumption. Qed.
Print Assumptions C57_directive.
(** a command asks for the colours and sizes it names that exist, each once and in order;
    for all of them if it names none *)
Theorem C57_request : forall cfg c r, resolve cfg c = Ret (Some r) ->
  known_color cfg (initial c) /\ r_name r = icon c /\ r_initial r = initial c /\ r_colors r <> [] /\ r_sizes r <> [] /\ wanted_colors cfg c (r_colors r) /\ wanted_sizes cfg c (r_sizes r).
Proof. exact resolve_fields. Qed.
Print Assumptions C57_request.
(** it is dropped exactly if the colour of the drawing is unknown or no colour or size is left *)
Theorem C57_nothing : forall cfg c, resolve cfg c = Ret None <-> ~ known_color cfg (initial c) \/ wanted_colors cfg c [] \/ wanted_sizes cfg c [].
Proof. exact resolve_nothing. Qed.
Print Assumptions C57_nothing.
(** its buttons are those asked for; an unnamed button with an unknown colour is dropped *)
Theorem C57_buttons : forall cfg c r, resolve cfg c = Ret (Some r) ->
  match asked cfg (btn c) with
  | None => r_buttons r = None
  | Some s => (forall n b, In (n, b) (by_name s) -> good_button cfg b) ->
      exists plain, r_buttons r = Some (mkButtons plain (named_ones (by_name s))) /\ forall b, plain = Some b <-> by_default s = Some b /\ good_button cfg b
  end.
Proof. exact resolve_buttons_good. Qed.
Print Assumptions C57_buttons.
Theorem C57_resolves : forall cfg c, (forall s, asked cfg (btn c) = Some s -> forall n b, In (n, b) (by_name s) -> good_button cfg b) -> exists o, resolve cfg c = Ret o.
Proof. exact resolve_total. Qed.
Print Assumptions C57_resolves.

(** * The style sheet *)
(** every command is replaced by its rules and every other token is kept *)
Theorem C57_sheet : forall F float_of high_digit int_high (float_str : F -> str) sha cfg css_file relpath, dict_wf (color_map cfg) -> forall fuel ts f out b,
  let get := get_icon_command_args float_of high_digit int_high cfg in
  pump [icons float_of high_digit int_high sha cfg css_file relpath false] fuel ts (beginning f) = Ret (out, b) ->
  exists ps, out = concat ps /\ Forall2 (fun t p =>
    (get t = Ret None /\ p = [t]) \/
    exists r, get t = Ret (Some r) /\ forall plain named, some_buttons plain named (r_buttons r) ->
      plain_text (r_name r) -> (forall c, In c (r_colors r ++ colors_of_buttons plain named) -> plain_text c) ->
      serialize_many float_str p = separated (icon_sheet (r_name r) (r_sizes r) (r_colors r) plain named)) ts ps.
Proof. exact @final_sheet. Qed.
Print Assumptions C57_sheet.
(** the images: each image that was missing is the drawing with its colour replaced; its
    hash is written; nothing else is touched *)
Theorem C57_images : forall F (float_of : str -> option F) high_digit int_high sha cfg css_file relpath, dict_wf (color_map cfg) -> forall fuel ts f out b,
  let get := get_icon_command_args float_of high_digit int_high cfg in
  (forall r, requested get ts r -> usable r) -> pump [icons float_of high_digit int_high sha cfg css_file relpath false] fuel ts (beginning f) = Ret (out, b) ->
  (forall p v, dget p f = Some v -> dget p (i_files (b_st b)) = Some v) /\
  (forall r c, requested get ts r -> In c (r_colors r) -> dget (svg_file (r_name r) c) f = None ->
    exists r1 src from to svg, requested get ts r1 /\ r_name r1 = r_name r /\ In c (r_colors r1) /\ dget (source_file (r_name r)) f = Some src /\
      In (r_initial r1, from) (color_map cfg) /\ In (c, to) (color_map cfg) /\ recolored from to src svg /\
      dget (svg_file (r_name r) c) (i_files (b_st b)) = Some svg /\
      (dget (hash_file (r_name r) c) f = None -> dget (hash_file (r_name r) c) (i_files (b_st b)) = Some (sha svg))) /\
  (forall p, dget p f = None -> dget p (i_files (b_st b)) <> None -> exists r, requested get ts r /\ file_of r p).
Proof. exact @final_images. Qed.
Print Assumptions C57_images.
(** what is reported *)
Theorem C57_reported : forall F (float_of : str -> option F) high_digit int_high sha cfg css_file relpath, dict_wf (color_map cfg) -> forall fuel ts f out b,
  let get := get_icon_command_args float_of high_digit int_high cfg in
  (forall r, requested get ts r -> usable r) -> pump [icons float_of high_digit int_high sha cfg css_file relpath false] fuel ts (beginning f) = Ret (out, b) ->
  (forall p, In p (i_made (b_st b)) <-> dget p f = None /\ dget p (i_files (b_st b)) <> None) /\
  (forall p, In p (i_reused (b_st b)) -> dget p (i_files (b_st b)) <> None /\ exists r, requested get ts r /\ file_of r p) /\
  (forall r c, requested get ts r -> In c (r_colors r) -> In (svg_file (r_name r) c) (i_made (b_st b)) \/ In (svg_file (r_name r) c) (i_reused (b_st b))) /\
  (forall p, In p (i_seen (b_st b)) <-> p = css_file /\ relpath <> css_file /\ exists r, requested get ts r).
Proof. exact @final_reported. Qed.
Print Assumptions C57_reported.
(** what the scan predicts *)
Theorem C57_scan : forall F (float_of : str -> option F) high_digit int_high sha cfg css_file relpath fuel ts f out b,
  let get := get_icon_command_args float_of high_digit int_high cfg in
  (forall r, requested get ts r -> usable r) -> pump [icons float_of high_digit int_high sha cfg css_file relpath true] fuel ts (beginning f) = Ret (out, b) ->
  out = ts /\ i_files (b_st b) = f /\ (forall p, In p (i_made (b_st b)) <-> exists r, requested get ts r /\ file_of r p) /\
  (forall p, In p (i_seen (b_st b)) <-> exists r, requested get ts r /\
     ((p = css_file /\ relpath <> css_file) \/ p = source_file (r_name r) \/ exists c, In c (r_colors r) /\ p = hash_file (r_name r) c)).
Proof. exact @final_scan. Qed.
Print Assumptions C57_scan.
(** the build reports nothing the scan did not predict *)
Theorem C57_predicted : forall F (float_of : str -> option F) high_digit int_high sha cfg css_file relpath, dict_wf (color_map cfg) -> forall fuel1 fuel2 ts f1 f2 out1 out2 b1 b2,
  (forall r, requested (get_icon_command_args float_of high_digit int_high cfg) ts r -> usable r) ->
  pump [icons float_of high_digit int_high sha cfg css_file relpath true] fuel1 ts (beginning f1) = Ret (out1, b1) ->
  pump [icons float_of high_digit int_high sha cfg css_file relpath false] fuel2 ts (beginning f2) = Ret (out2, b2) ->
  incl (i_made (b_st b2)) (i_made (b_st b1)) /\ incl (i_reused (b_st b2)) (i_made (b_st b1)) /\ incl (i_seen (b_st b2)) (i_seen (b_st b1)).
Proof. exact @final_agree. Qed.
Print Assumptions C57_predicted.
(** a sheet whose commands are well formed and whose drawings exist is built *)
Theorem C57_succeeds : forall F (float_of : str -> option F) high_digit int_high sha cfg css_file relpath, dict_wf (color_map cfg) -> forall ts f,
  let get := get_icon_command_args float_of high_digit int_high cfg in
  (forall r, requested get ts r -> usable r) -> (forall t, In t ts -> exists o, get t = Ret o) ->
  (forall r, requested get ts r -> dget (source_file (r_name r)) f <> None /\ exists plain named, some_buttons plain named (r_buttons r)) ->
  exists fuel out b, pump [icons float_of high_digit int_high sha cfg css_file relpath false] fuel ts (beginning f) = Ret (out, b).
Proof. exact @final_total. Qed.
Print Assumptions C57_succeeds.

(** * The urls *)
(** the generated css refers to the images of the colours asked for and of the buttons; if
    the colours of the buttons are among those asked for, all these images exist, with
    their hashes *)
Theorem C58_urls : forall F (float_of : str -> option F) high_digit int_high sha cfg css_file relpath, dict_wf (color_map cfg) -> forall fuel ts f out b,
  let get := get_icon_command_args float_of high_digit int_high cfg in
  (forall r, requested get ts r -> usable r) -> pump [icons float_of high_digit int_high sha cfg css_file relpath false] fuel ts (beginning f) = Ret (out, b) ->
  exists ps, out = concat ps /\ Forall2 (fun t p => forall r plain named, get t = Ret (Some r) -> some_buttons plain named (r_buttons r) ->
    (forall u, has_url p u <-> exists c, In c (r_colors r ++ colors_of_buttons plain named) /\ u = lit "/img/icons/" ++ r_name r ++ lit "/" ++ c ++ lit ".svg") /\
    (incl (colors_of_buttons plain named) (r_colors r) -> forall u, has_url p u -> dget (site_file u) (i_files (b_st b)) <> None /\
      ((forall c, In c (r_colors r) -> dget (svg_file (r_name r) c) f <> None -> dget (hash_file (r_name r) c) f <> None) -> dget (site_file u ++ lit ".hash") (i_files (b_st b)) <> None))) ts ps.
Proof. exact @final_urls. Qed.
Print Assumptions C58_urls.

(** * Examples and refutations *)
Definition C57_cfg : icon_settings :=
  {| color_map := [(lit "primary", mkColor 0 0 255); (lit "white", mkColor 255 255 255)]; icon_sizes := [lit "small"];
     default_buttons := Some (mkSettings (Some (mkSetting (lit "primary") (lit "primary") (lit "primary"))) []) |}.
Definition C57_file : str := lit "src/public/img/icons/star.svg".
Definition C57_drawing : str := lit "<svg fill=""#0000FF""/>".
Definition C57_fs : fs := [(C57_file, C57_drawing)].
Definition C57_tokens {F} (command : str) : list (@token F) := [TIdent (lit "a"); TComment (lit "! PREPROCESSOR: icon " ++ command); TRCurly].
Definition C57_build {F} float_of high_digit int_high (command : str) (f : fs) : res (list (@token F) * builder (@token F) istate) :=
  pump [icons float_of high_digit int_high (fun s => lit "sha:" ++ s) C57_cfg (lit "src/public/css/main.css") (lit "src/public/css/a.css") false] 500 (C57_tokens command) (beginning f).

(** the hypotheses hold: a command with a button, built from scratch *)
Example C57_example : forall F (float_of : str -> option F) high_digit int_high float_str,
  exists out b, C57_build float_of high_digit int_high (lit "star primary [""white""] all-sizes no-btn ") C57_fs = Ret (out, b) /\
    serialize_many float_str out = lit "a" ++ icon_css (lit "star") (lit "small") (lit "white") ++ lit "}" /\
    i_files (b_st b) = [(C57_file, C57_drawing); (lit "out/www/img/icons/star/white.svg", lit "<svg fill=""#FFFFFF""/>");
                        (lit "out/www/img/icons/star/white.svg.hash", lit "sha:<svg fill=""#FFFFFF""/>")] /\
    i_made (b_st b) = [lit "out/www/img/icons/star/white.svg"; lit "out/www/img/icons/star/white.svg.hash"] /\ i_reused (b_st b) = [] /\ i_seen (b_st b) = [lit "src/public/css/main.css"].
Proof. intros. eexists. eexists. split; [vm_compute; reflexivity|]. vm_compute. repeat split. Qed.
Example C57_example_usable : forall F (float_of : str -> option F) high_digit int_high r,
  requested (get_icon_command_args float_of high_digit int_high C57_cfg) (C57_tokens (lit "star primary all-colors all-sizes")) r ->
  usable r /\ r_colors r = [lit "primary"; lit "white"] /\ some_buttons (Some (mkSetting (lit "primary") (lit "primary") (lit "primary"))) [] (r_buttons r).
Proof.
  intros F float_of high_digit int_high r (t & [<-|[<-|[<-|[]]]] & G); [discriminate| |discriminate]. vm_compute in G. injection G as <-. split; [|split; [reflexivity|left; reflexivity]].
  split; [split; [discriminate|cbn; intuition discriminate]|]. intros c [<-|[<-|[]]]; cbn; intuition discriminate.
Qed.
(** an image that exists is kept when the drawing changes *)
Theorem C57_stale_refuted : forall F (float_of : str -> option F) high_digit int_high,
  exists f out b, C57_build float_of high_digit int_high (lit "star primary [""white""] all-sizes no-btn ") f = Ret (out, b) /\
    dget C57_file f = Some C57_drawing /\ dget (svg_file (lit "star") (lit "white")) (i_files (b_st b)) = Some (lit "an older drawing").
Proof.
  intros. exists [(C57_file, C57_drawing); (lit "out/www/img/icons/star/white.svg", lit "an older drawing")]. eexists. eexists. split; [vm_compute; reflexivity|]. vm_compute. split; reflexivity.
Qed.
Print Assumptions C57_stale_refuted.
(** the scan depends on the drawing and predicts the hash; the build reports neither: not the
    drawing as a child, and not the hash of an image that existed *)
Theorem C57_exact_refuted : forall F (float_of : str -> option F) high_digit int_high,
  exists ts f out1 b1 out2 b2,
    pump [icons float_of high_digit int_high (fun s => s) C57_cfg (lit "src/public/css/main.css") (lit "src/public/css/a.css") true] 500 ts (beginning f) = Ret (out1, b1) /\
    pump [icons float_of high_digit int_high (fun s => s) C57_cfg (lit "src/public/css/main.css") (lit "src/public/css/a.css") false] 500 ts (beginning f) = Ret (out2, b2) /\
    In C57_file (i_seen (b_st b1)) /\ ~ In C57_file (i_seen (b_st b2)) /\
    In (hash_file (lit "star") (lit "white")) (i_made (b_st b1)) /\ ~ In (hash_file (lit "star") (lit "white")) (i_made (b_st b2) ++ i_reused (b_st b2)).
Proof.
  intros. exists (C57_tokens (lit "star primary [""white""] all-sizes no-btn ")), [(C57_file, C57_drawing); (svg_file (lit "star") (lit "white"), C57_drawing); (hash_file (lit "star") (lit "white"), C57_drawing)].
  do 4 eexists. split; [vm_compute; reflexivity|]. split; [vm_compute; reflexivity|]. vm_compute. intuition discriminate.
Qed.
Print Assumptions C57_exact_refuted.
(** a named button with an unknown colour is meant to be dropped; it fails the build *)
Theorem C57_named_button_refuted : forall F (float_of : str -> option F) high_digit int_high,
  C57_build float_of high_digit int_high (lit "star primary all-colors all-sizes {""go"": [""primary"", ""white"", ""white""], ""stop"": [""primary"", ""orange"", ""white""]}") C57_fs = Raise ValueError.
Proof. intros. vm_compute. reflexivity. Qed.
Print Assumptions C57_named_button_refuted.
(** the colours of a button are not exported unless they are asked for: its css refers to
    an image that does not exist *)
Theorem C58_button_refuted : forall F (float_of : str -> option F) high_digit int_high,
  exists out b, C57_build float_of high_digit int_high (lit "star primary [""white""] all-sizes ") C57_fs = Ret (out, b) /\
    has_url out (lit "/img/icons/star/primary.svg") /\ dget (site_file (lit "/img/icons/star/primary.svg")) (i_files (b_st b)) = None.
Proof.
  intros. eexists. eexists. split; [vm_compute; reflexivity|]. split; [|vm_compute; reflexivity].
  assert (C : forall x l u, has_url (F := F) l u -> has_url (x :: l) u) by (intros x l u (a & c & ->); exists (x :: a), c; reflexivity).
  repeat first [eexists [], _; reflexivity|apply C].
Qed.
Print Assumptions C58_button_refuted.
