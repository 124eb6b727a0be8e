(** Vocabulary for C50: images written as data in a stylesheet. *)
From Verif Require Import Base Graph Json PyPath Css Builder Handlers OutlineData.
From Coq Require Import String ZArith NArith Bool List.
Import ListNotations.
Open Scope list_scope.
Open Scope N_scope.

(** [v] is the image [data] of the type [ty] *)
Definition data_uri (v ty data : str) : Prop :=
  ty <> [] /\ ~ In 59 ty /\ ~ In 44 ty /\ data <> [] /\ ~ In 34 data /\ exists sep, (sep = 59 \/ sep = 44) /\ v = lit "data:image/" ++ ty ++ sep :: data.

Section Spec.
Context {F : Type}.
Notation token := (@token F).
Definition open_url : token := TFunction (lit "url").
(** [outlined url ts images out]: [out] is [ts] with each image data after [url(] replaced
    by its url; [images] are these data and their types, in order *)
Inductive outlined (url : str -> str) : list token -> list (str * str) -> list token -> Prop :=
| OutEnd : outlined url [] [] []
| OutImage v ty data ts images out : data_uri v ty data -> outlined url ts images out ->
    outlined url (open_url :: TString v :: ts) ((data, ty) :: images) (open_url :: TString (url data) :: out)
| OutOther t ts images out : (forall v ty data r, t = open_url -> ts = TString v :: r -> ~ data_uri v ty data) -> outlined url ts images out ->
    outlined url (t :: ts) images (t :: out).
(** the builder before the first token *)
Definition beginning (f : fs) : builder token (@dstate F) := {| b_out := []; b_mark := None; b_st := d_init f |}.
End Spec.
(** [l] without the repetitions of data *)
Inductive firsts : list (str * str) -> list (str * str) -> Prop :=
| FirstsNil : firsts [] []
| FirstsNew l m data ty : firsts l m -> ~ In data (map fst l) -> firsts (l ++ [(data, ty)]) (m ++ [(data, ty)])
| FirstsAgain l m data ty : firsts l m -> In data (map fst l) -> firsts (l ++ [(data, ty)]) m.

(** the stylesheet [src/public/p.css], whose name has something other than dots *)
Definition stylesheet (relpath p : str) : Prop :=
  exists dir name, p = dir ++ name /\ (dir = [] \/ exists d, dir = d ++ [47] /\ ~ (exists r, dir = 47 :: r)) /\ ~ In 47 name /\ (exists c, In c name /\ c <> 46) /\
    relpath = lit "src/public/" ++ p ++ lit ".css".
(** the type up to a plus sign *)
Definition extension (ty e : str) : Prop := ~ In 43 e /\ (ty = e \/ exists r, ty = e ++ 43 :: r).
(** the path of the [i]th image on the site, counting from 0, and its file *)
Definition image_url (p : str) (i : nat) (e : str) : str := lit "/img/gen/" ++ p ++ lit "/" ++ print_N (N.of_nat (i + 1)) ++ lit "." ++ e.
Definition image_file (p : str) (i : nat) (e : str) : str := lit "out/www" ++ image_url p i e.
Definition is_image (p : str) (images : list (str * str)) (i : nat) (data e : str) : Prop := exists ty, nth_error images i = Some (data, ty) /\ extension ty e.

(** percent encoding: [percent data bytes] *)
Definition hex_digit (c v : N) : Prop := (48 <= c <= 57 /\ v = c - 48) \/ (65 <= c <= 70 /\ v = c - 65 + 10) \/ (97 <= c <= 102 /\ v = c - 97 + 10).
Inductive percent : str -> list N -> Prop :=
| PctEnd : percent [] []
| PctCode a b x y s bytes : hex_digit a x -> hex_digit b y -> percent s bytes -> percent (37 :: a :: b :: s) (16 * x + y :: bytes)
| PctChar c s bytes : c < 128 -> c <> 37 -> percent s bytes -> percent (c :: s) (c :: bytes).
