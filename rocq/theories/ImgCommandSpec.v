(** Vocabulary for C59: how an image command is written and what it does to a page. *)
From Verif Require Import Base Graph Json PyNorm Handlers Html HtmlSpec ImgCommand IconManipSpec.
From Coq Require Import String ZArith NArith Bool List.
Import ListNotations.
Open Scope list_scope.
Open Scope N_scope.

(** * Numbers *)
(** digits, with single underscores between them *)
Inductive digits_text : str -> N -> Prop :=
| DigitsOne d : 48 <= d <= 57 -> digits_text [d] (d - 48)
| DigitsMore s n d : digits_text s n -> 48 <= d <= 57 -> digits_text (s ++ [d]) (10 * n + (d - 48))
| DigitsUnderscore s n d : digits_text s n -> 48 <= d <= 57 -> digits_text (s ++ [95; d]) (10 * n + (d - 48)).
Inductive int_text : str -> Z -> Prop :=
| IntPlain s n : digits_text s n -> int_text s (Z.of_N n)
| IntPlus s n : digits_text s n -> int_text (43 :: s) (Z.of_N n)
| IntMinus s n : digits_text s n -> int_text (45 :: s) (- Z.of_N n).
Definition ascii (s : str) : Prop := Forall (fun c => c < 128) s.
Section Written.
Context (int_high : str -> option Z).
Definition number (s : str) (z : Z) : Prop := (ascii s /\ int_text s z) \/ (~ ascii s /\ int_high s = Some z).

(** * Commands *)
Definition is_word (s : str) : Prop := s <> [] /\ Forall (fun c => py_space c = false) s.
Definition space (s : str) : Prop := blanks s /\ s <> [].
(** path, width, height *)
Inductive sized : str -> str -> Z -> Z -> Prop :=
| Sized a path b wt w c ht h : blanks a -> is_word path -> space b -> is_word wt -> number wt w -> space c -> is_word ht -> number ht h -> sized (a ++ path ++ b ++ wt ++ c ++ ht) path w h.
Inductive written : str -> command -> Prop :=
| WrittenPlain s path w h z : sized s path w h -> blanks z -> written (s ++ z) {| c_path := path; c_width := w; c_height := h; c_args := []; c_lazy := true |}
| WrittenCover s path w h b z : sized s path w h -> space b -> blanks z -> written (s ++ b ++ lit "cover" ++ z) {| c_path := path; c_width := w; c_height := h; c_args := []; c_lazy := true |}
(* with arguments, a json object without a brace in it; after it, a blank means eager *)
| WrittenArgs s path w h b c inner l d rest lazy : sized s path w h -> space b -> space c -> ~ In 125 inner -> json_load (lit "{" ++ inner ++ lit "}") = Some (JObj l) -> jnorm (JObj l) = JObj d ->
    (lazy = true <-> forall r, rest <> 32 :: r) ->
    written (s ++ b ++ lit "cover" ++ c ++ lit "{" ++ inner ++ lit "}" ++ rest) {| c_path := path; c_width := w; c_height := h; c_args := d; c_lazy := lazy |}.
End Written.

(** * The comments of a page *)
Section Image.
Context (int_high : str -> option Z) (cwd folder page : str) (dims : str -> res (option (Z * Z))).
(** "[IMAGE: ...]", on one line *)
Definition image_comment (t : htoken) (args : str) : Prop := exists text, t = HComment text /\ HtmlSpec.rule (lit "IMAGE") text args /\ ~ In 10 args.
Definition public_source (c : command) : Prop := exists r, source_path cwd folder page (c_path c) = lit "src/public" ++ r.
(** a command, for an image that is below (or next to) src/public and not smaller *)
Inductive image_command : htoken -> fs -> command -> Prop :=
| ImageCommand t args c f image w h : image_comment t args -> written int_high args c -> public_source c -> dget (source_path cwd folder page (c_path c)) f = Some image -> dims image = Ret (Some (w, h)) ->
    (c_width c <= w)%Z -> (c_height c <= h)%Z -> image_command t f c.
(** left as it is: another token, or a command for which there is no image *)
Inductive image_ignored : htoken -> fs -> Prop :=
| IgnoredOther t f : (forall args, ~ image_comment t args) -> image_ignored t f
| IgnoredPlace t args c f : image_comment t args -> written int_high args c -> ~ public_source c -> image_ignored t f
| IgnoredMissing t args c f : image_comment t args -> written int_high args c -> dget (source_path cwd folder page (c_path c)) f = None -> image_ignored t f
| IgnoredFormat t args c f image : image_comment t args -> written int_high args c -> dget (source_path cwd folder page (c_path c)) f = Some image -> dims image = Ret None -> image_ignored t f
| IgnoredSmall t args c f image w h : image_comment t args -> written int_high args c -> dget (source_path cwd folder page (c_path c)) f = Some image -> dims image = Ret (Some (w, h)) ->
    (w < c_width c \/ h < c_height c)%Z -> image_ignored t f.
End Image.

(** * Pages *)
Section Pages.
(** [cmd t f c]: with the files [f] the token [t] is the command [c]; [other t f]: it is none *)
Context (cmd : htoken -> fs -> command -> Prop) (other : htoken -> fs -> Prop).
Context {M : Type} (scan_one : command -> fs -> res (scanned * fs)) (export : command -> fs -> res (M * Handlers.built * fs)) (show : command -> M -> res (list htoken)).
(** [pictures f ts out f' reports]: one token after the other, the commands of [ts] are
    carried out and replaced by what they show *)
Inductive pictures : fs -> list htoken -> list htoken -> fs -> list Handlers.built -> Prop :=
| PicturesEnd f : pictures f [] [] f []
| PicturesOther t f ts out f' bs : other t f -> pictures f ts out f' bs -> pictures f (t :: ts) (t :: out) f' bs
| PicturesCommand t c m b l f f1 ts out f' bs : cmd t f c -> export c f = Ret (m, b, f1) -> show c m = Ret l -> pictures f1 ts out f' bs -> pictures f (t :: ts) (l ++ out) f' (b :: bs).
(** [surveyed f ts f' reports]: the commands of [ts] are scanned *)
Inductive surveyed : fs -> list htoken -> fs -> list scanned -> Prop :=
| SurveyedEnd f : surveyed f [] f []
| SurveyedOther t f ts f' bs : other t f -> surveyed f ts f' bs -> surveyed f (t :: ts) f' bs
| SurveyedCommand t c b f f1 ts f' bs : cmd t f c -> scan_one c f = Ret (b, f1) -> surveyed f1 ts f' bs -> surveyed f (t :: ts) f' (b :: bs).
End Pages.
(** a token that can be no command *)
Definition plain_html (t : htoken) : Prop := forall s, t <> HComment s.
(** [l] has each of [ls] once *)
Definition union {A} (ls : list (list A)) (l : list A) : Prop := NoDup l /\ forall x, In x l <-> exists k, In k ls /\ In x k.
(** the same images *)
Definition same_sources (f g : fs) : Prop := forall p, dget (lit "src/" ++ p) f = dget (lit "src/" ++ p) g.
