(** Vocabulary for C33, C34, C35 and C47. *)
From Verif Require Import Base Json Handlers.
From Coq Require Import String ZArith NArith Bool List Permutation.
Import ListNotations.
Open Scope list_scope.
Open Scope N_scope.

(** a value after substitution of environment variables *)
Inductive expanded (env : str -> option str) : cval -> cval -> Prop :=
| ExpandEnv name x : env name = Some x -> expanded env (VStr (lit "env://" ++ name)) (VStr x)
| ExpandText s : (forall name, s <> lit "env://" ++ name) -> expanded env (VStr s) (VStr s)
| ExpandBool b : expanded env (VBool b) (VBool b)
| ExpandInt z : expanded env (VInt z) (VInt z)
| ExpandOther t : expanded env (VOther t) (VOther t).
(** the value bound to [k]: the one of the mode if there is one, else the shared one *)
Definition bound (env : str -> option str) (shared mode : list (str * cval)) (k : str) (v : cval) : Prop :=
  (exists raw, In (k, raw) mode /\ expanded env raw v) \/
  ((forall raw, ~ In (k, raw) mode) /\ exists raw, In (k, raw) shared /\ expanded env raw v).
(** no key is listed twice *)
Definition unique {A} (d : list (str * A)) : Prop := NoDup (map fst d).
(** the lines of the generated script, without constants one empty line *)
Definition export_line (kv : str * cval) : str := lit "export const " ++ fst kv ++ lit " = " ++ jsify (snd kv) ++ lit ";" ++ [10].
Fixpoint script_of (l : list (str * cval)) : str := match l with [] => [] | kv :: r => export_line kv ++ script_of r end.

(** * String literals of ECMAScript *)
Definition hex_value (c d : N) : Prop :=
  (48 <= c <= 57 /\ d = c - 48) \/ (65 <= c <= 70 /\ d = c - 55) \/ (97 <= c <= 102 /\ d = c - 87).
Definition is_digit (c : N) : Prop := 48 <= c <= 57.
Definition letter_escapes : list (N * N) := [(98, 8); (116, 9); (110, 10); (118, 11); (102, 12); (114, 13)].
(** [reads q text value]: the rest [text] of a literal with quote [q], up to and including
    the closing quote, denotes [value] (strict mode; line continuations and \u{...} left out) *)
Inductive reads (q : N) : str -> str -> Prop :=
| ReadEnd : reads q [q] []
| ReadChar c t v : c <> q -> c <> 92 -> c <> 10 -> c <> 13 -> reads q t v -> reads q (c :: t) (c :: v)
| ReadLetter l c t v : In (l, c) letter_escapes -> reads q t v -> reads q (92 :: l :: t) (c :: v)
| ReadNul t v : (forall d r, t = d :: r -> ~ is_digit d) -> reads q t v -> reads q (92 :: 48 :: t) (0 :: v)
| ReadHex a b x y t v : hex_value a x -> hex_value b y -> reads q t v -> reads q (92 :: 120 :: a :: b :: t) (16 * x + y :: v)
| ReadUnicode a b c d x y z w t v : hex_value a x -> hex_value b y -> hex_value c z -> hex_value d w -> reads q t v ->
    reads q (92 :: 117 :: a :: b :: c :: d :: t) (4096 * x + 256 * y + 16 * z + w :: v)
| ReadOther c t v : ~ In c (map fst letter_escapes) -> ~ is_digit c -> c <> 120 -> c <> 117 -> c <> 10 -> c <> 13 -> c <> 8232 -> c <> 8233 ->
    reads q t v -> reads q (92 :: c :: t) (c :: v).
Definition js_literal (text value : str) : Prop := exists q t, (q = 34 \/ q = 39) /\ text = q :: t /\ reads q t value.
(** characters that survive, and no NUL before a digit *)
Definition safe_text (v : str) : Prop :=
  Forall (fun c => 32 <= c <= 126 \/ In c [0; 8; 9; 10; 11; 12; 13]) v /\ (forall a d b, v = a ++ 0 :: d :: b -> ~ is_digit d).

(** * Dispatch *)
Definition has_end (e p : str) : Prop := exists r, p = r ++ e.
Definition has_start (e p : str) : Prop := exists r, p = e ++ r.
Definition image_file (p : str) : Prop := has_start (lit "src/public") p /\ (has_end (lit ".images.json") p \/ has_end (lit ".images.js") p).
(** which files belong to which handler *)
Inductive belongs (constants p : str) : which -> Prop :=
| BConstants : p = constants -> belongs constants p JsConstants
| BImages : p <> constants -> image_file p -> belongs constants p ImageGlue
| BHtml : p <> constants -> has_end (lit ".html") p -> belongs constants p Html
| BCss : p <> constants -> has_end (lit ".css") p -> belongs constants p Stylesheet
| BJs : p <> constants -> has_end (lit ".js") p -> ~ image_file p -> belongs constants p Script
| BOther : p <> constants -> ~ has_end (lit ".html") p -> ~ has_end (lit ".css") p -> ~ has_end (lit ".js") p -> ~ image_file p -> belongs constants p CopyAndHash.

(** * Scan and build *)
(** the build reports every predicted output exactly once, as produced if it was missing
    and as reused if it existed; it changes the produced files only; [write t] is what it
    writes into [t] *)
Definition agrees (write : str -> option str) (scan : scanned) (f : fs) (b : built) (f' : fs) : Prop :=
  Permutation (produced b ++ reused b) (produces scan) /\ children b = dependencies scan /\
  (forall t, In t (produced b) <-> In t (produces scan) /\ dget t f = None) /\
  (forall t, In t (reused b) <-> In t (produces scan) /\ dget t f <> None) /\
  (forall t, ~ In t (produced b) -> dget t f' = dget t f) /\
  (forall t, In t (produced b) -> dget t f' = write t /\ write t <> None).
(** a file goes to out/www as it is, and its hash beside it *)
Definition copied_or_hashed (sha : str -> str) (f : fs) (p t : str) : option str :=
  match dget p f with
  | None => None
  | Some data => if match hash_target p with Some u => str_eqb t u | None => false end then Some (sha data) else Some data
  end.

(** the literal of a constant that is not a text *)
Inductive plain_literal : cval -> str -> Prop :=
| LitTrue : plain_literal (VBool true) (lit "true")
| LitFalse : plain_literal (VBool false) (lit "false")
| LitInt z t : parse_Z t = Some z -> plain_literal (VInt z) t.
