(** Vocabulary for the html pages. *)
From Verif Require Import Base Graph Json PyPath PyNorm Builder Handlers Html.
From Coq Require Import String ZArith NArith Bool List Sorted.
Import ListNotations.
Open Scope list_scope.
Open Scope N_scope.

(** * Tags *)
(** [attrs'] is [attrs] with [n] set to [v], in alphabetical order *)
Inductive before : str -> str -> Prop :=
| BeforeEnd c b : before [] (c :: b)
| BeforeHere x a y b : x < y -> before (x :: a) (y :: b)
| BeforeLater x a b : before a b -> before (x :: a) (x :: b).
Definition retagged (attrs : list (str * str)) (n v : str) (attrs' : list (str * str)) : Prop :=
  StronglySorted before (map fst attrs') /\ dget n attrs' = Some v /\ forall m, m <> n -> dget m attrs' = dget m attrs.
(** a canonical hint; [n] is the attribute that holds its url *)
Inductive hint : htoken -> str -> list (str * str) -> str -> Prop :=
| HintLink attrs : dget (lit "rel") attrs = Some (lit "canonical") -> hint (HEmpty (lit "link") attrs) (lit "link") attrs (lit "href")
| HintMeta attrs : dget (lit "property") attrs = Some (lit "og:url") -> hint (HEmpty (lit "meta") attrs) (lit "meta") attrs (lit "content").
(** its url is not that of a site *)
Definition local_hint (attrs : list (str * str)) (n : str) : Prop := forall u r, dget n attrs = Some u -> u <> lit "http" ++ r.
(** a reference to a file of the site, without a query *)
Inductive reference : htoken -> list (str * str) -> str -> Prop :=
| RefLink attrs : dget (lit "rel") attrs = Some (lit "stylesheet") \/ dget (lit "rel") attrs = Some (lit "preload") -> reference (HEmpty (lit "link") attrs) attrs (lit "href")
| RefScript attrs : reference (HStart (lit "script") attrs) attrs (lit "src").
Definition site_path (attrs : list (str * str)) (n path : str) : Prop := dget n attrs = Some (47 :: path) /\ ~ In 63 path /\ ~ In 35 path.

(** * Commands in comments *)
Definition spaces (s : str) : Prop := Forall (fun c => py_space c = true) s.
(** [[NAME: args]], with spaces *)
Definition rule (name text args : str) : Prop :=
  (forall x r, args = x :: r -> py_space x = false) /\ exists a b c d e, spaces a /\ spaces b /\ spaces c /\ spaces d /\ d <> [] /\ spaces e /\ text = a ++ lit "[" ++ b ++ name ++ c ++ lit ":" ++ d ++ args ++ lit "]" ++ e.
(** a stack command is on one line *)
Inductive stack_cmd : htoken -> str -> list json -> Prop :=
| StackCmd text args v c l : rule (lit "STACK") text args -> ~ In 10 args -> json_load args = Some v -> jnorm v = JList (JStr c :: l) -> stack_cmd (HComment text) c l.
Inductive template_cmd : htoken -> str -> list json -> Prop :=
| TemplateCmd text args v c l : rule (lit "TEMPLATE") text args -> json_load args = Some v -> jnorm v = JList (JStr c :: l) -> template_cmd (HComment text) c l.

(** * What a page consists of, once the templates are in place *)
Inductive event :=
| Same (t : htoken)                                          (** anything else *)
| Hint (name : str) (attrs : list (str * str)) (n : str)     (** a canonical hint without host *)
| Ref (t : htoken) (attrs : list (str * str)) (n path : str) (** a reference without version *)
| Script (attrs : list (str * str)) (text : str)             (** an inline script *)
| Style (text : str)                                         (** an inline stylesheet *)
| Said (text : str)                                          (** a variable *)
| Template (path text : str).                                (** a template, whose file is [text] *)
Inductive is_text : htoken -> str -> Prop := TextChars s : is_text (HChars s) s | TextSpace s : is_text (HSpace s) s.
(** none of those *)
Definition ordinary (t : htoken) : Prop :=
  (forall name attrs n, hint t name attrs n -> ~ local_hint attrs n) /\
  (forall attrs n path, reference t attrs n -> ~ site_path attrs n path) /\
  (forall attrs, t = HStart (lit "script") attrs -> dget (lit "src") attrs <> None) /\
  (forall attrs, t <> HStart (lit "style") attrs) /\
  (forall c l, ~ stack_cmd t c l) /\ (forall c l, ~ template_cmd t c l).
(** str() of a variable *)
Inductive shown (show : str -> str) : json -> str -> Prop :=
| ShownStr x : shown show (JStr x) x
| ShownNum r : shown show (JNum r) (show r)
| ShownTrue : shown show (JBool true) (lit "True")
| ShownFalse : shown show (JBool false) (lit "False").
(** the value passed for [v]: a variable of the caller, or [v] itself *)
Definition names_variable (v : json) (n : str) : Prop := exists l, v = JObj l /\ dget (lit "type") l = Some (JStr (lit "variable")) /\ dget (lit "name") l = Some (JStr n).
Inductive passed (vars : list (str * json)) : json -> json -> Prop :=
| PassedVar v n x : names_variable v n -> dget n vars = Some x -> passed vars v x
| PassedSelf v : (forall n, names_variable v n -> dget n vars = None) -> passed vars v v.
Definition passed_all (vars args res : list (str * json)) : Prop := Forall2 (fun a r => fst a = fst r /\ passed vars (snd a) (snd r)) args res.
(** the file of a template *)
Inductive template_path (from : str) : str -> str -> Prop :=
| PathPartials c : template_path from (47 :: c) (join_path (lit "src") [lit "partials"; c])
| PathRelative c : (forall r, c <> 47 :: r) -> template_path from c (join2 from c).
(** the variables of a template command *)
Inductive template_args : list json -> list (str * json) -> Prop :=
| ArgsNone : template_args [] []
| ArgsDict l r : template_args (JObj l :: r) l.

Section Page.
Context (fragment : str -> list htoken) (show : str -> str).
Definition push_cmd (path : str) : htoken := HComment (lit "[STACK: " ++ dump (JList [JStr (lit "push"); JStr path]) ++ lit "]").
Definition define_cmd (k : str) (v : json) : htoken := HComment (lit "[STACK: " ++ dump (JList [JStr (lit "define"); JStr k; v]) ++ lit "]").
Definition pop_cmd : htoken := HComment (lit "[STACK: " ++ dump (JList [JStr (lit "pop")]) ++ lit "]").
(** [page fr st ts evs fr' st']: in the frame [fr], above the frames [st], the tokens [ts]
    are the events [evs]; the frames are then [fr'] and [st'] *)
Inductive page : frame -> list frame -> list htoken -> list event -> frame -> list frame -> Prop :=
| PgEnd fr st : page fr st [] [] fr st
| PgSame fr st t ts evs fr' st' : ordinary t -> page fr st ts evs fr' st' -> page fr st (t :: ts) (Same t :: evs) fr' st'
| PgHint fr st t name attrs n ts evs fr' st' : hint t name attrs n -> local_hint attrs n -> page fr st ts evs fr' st' -> page fr st (t :: ts) (Hint name attrs n :: evs) fr' st'
| PgRef fr st t attrs n path ts evs fr' st' : reference t attrs n -> site_path attrs n path -> page fr st ts evs fr' st' -> page fr st (t :: ts) (Ref t attrs n path :: evs) fr' st'
| PgScript fr st attrs inner texts name ts evs fr' st' : dget (lit "src") attrs = None -> Forall2 is_text inner texts -> page fr st ts evs fr' st' ->
    page fr st (HStart (lit "script") attrs :: inner ++ HEnd name :: ts) (Script attrs (concat texts) :: evs) fr' st'
| PgStyle fr st inner texts name ts evs fr' st' : Forall2 is_text inner texts -> page fr st ts evs fr' st' ->
    page fr st (HStart (lit "style") [] :: inner ++ HEnd name :: ts) (Style (concat texts) :: evs) fr' st'
| PgPush fr st t p l ts evs fr' st' : stack_cmd t (lit "push") (JStr p :: l) -> page {| fr_path := p; fr_vars := [] |} (fr :: st) ts evs fr' st' -> page fr st (t :: ts) evs fr' st'
| PgPop fr fr1 st t l ts evs fr' st' : stack_cmd t (lit "pop") l -> page fr1 st ts evs fr' st' -> page fr (fr1 :: st) (t :: ts) evs fr' st'
| PgDefine fr st t k v ts evs fr' st' : stack_cmd t (lit "define") [JStr k; v] -> page {| fr_path := fr_path fr; fr_vars := dset k v (fr_vars fr) |} st ts evs fr' st' -> page fr st (t :: ts) evs fr' st'
| PgRetrieve fr st t k v x ts evs fr' st' : k <> [] -> stack_cmd t (lit "retrieve") [JStr k] -> dget k (fr_vars fr) = Some v -> shown show v x -> page fr st ts evs fr' st' -> page fr st (t :: ts) (Said x :: evs) fr' st'
| PgIgnored fr st t c l ts evs fr' st' : stack_cmd t c l ->
    (c = lit "push" -> forall p r, l <> JStr p :: r) -> c <> lit "pop" -> (c = lit "define" -> forall k v, l <> [JStr k; v]) -> (c = lit "retrieve" -> forall k, k <> [] -> l <> [JStr k]) ->
    page fr st ts evs fr' st' -> page fr st (t :: ts) evs fr' st'
| PgTemplate fr st t c l args vars path text ts evs fr' st' : template_cmd t c l -> template_args l args -> passed_all (fr_vars fr) args vars -> template_path (fr_path fr) c path ->
    page fr st (push_cmd path :: map (fun kv => define_cmd (fst kv) (snd kv)) vars ++ fragment text ++ pop_cmd :: ts) evs fr' st' ->
    page fr st (t :: ts) (Template path text :: evs) fr' st'
| PgNoTemplate fr st t c l ts evs fr' st' : template_cmd t c l -> (forall args, ~ template_args l args) -> page fr st ts evs fr' st' -> page fr st (t :: ts) evs fr' st'.
End Page.

(** * What is written for a page *)
(** the page [src/public/p.html], whose name has something other than dots *)
Definition page_file (relpath p : str) : Prop :=
  exists dir name, p = dir ++ name /\ (dir = [] \/ exists d, dir = d ++ [47] /\ ~ (exists r, dir = 47 :: r)) /\ ~ In 47 name /\ (exists c, In c name /\ c <> 46) /\
    relpath = lit "src/public/" ++ p ++ lit ".html".
(** the url of the [i]th inline script (stylesheet) of the page, counting from 0 *)
Definition script_url (p : str) (i : nat) : str := lit "/js/gen/" ++ p ++ lit "/" ++ print_N (N.of_nat (i + 1)) ++ lit ".js".
Definition style_url (p : str) (j : nat) : str := lit "/css/gen/" ++ p ++ lit "/" ++ print_N (N.of_nat (j + 1)) ++ lit ".css".
(** a url with the version of its file *)
Definition version (url h : str) : str := url ++ lit "?" ++ urlencode [(lit "v", h); (lit "pv", PROCESSOR_VERSION)].
(** the file of a reference, with the ending [x] *)
Definition in_public (path : str) : str := join2 (lit "src/public") path.
Definition in_output (path : str) : str := join2 (lit "out/www") path.
(** the absolute url of a hint *)
Inductive hint_url (host p : str) (attrs : list (str * str)) (n : str) : str -> Prop :=
| UrlGiven u : dget n attrs = Some u -> hint_url host p attrs n (lit "https://" ++ host ++ u)
| UrlOwn : dget n attrs = None -> hint_url host p attrs n (lit "https://" ++ host ++ lit "/" ++ p ++ lit ".html").
(** the attributes of a reference, with the new url *)
Inductive new_ref : htoken -> str -> str -> htoken -> Prop :=
| NewLink attrs v attrs' : retagged attrs (lit "href") v attrs' -> new_ref (HEmpty (lit "link") attrs) (lit "href") v (HEmpty (lit "link") attrs')
| NewScript attrs v attrs' : retagged (ddel (lit "href") attrs) (lit "src") v attrs' -> new_ref (HStart (lit "script") attrs) (lit "src") v (HStart (lit "script") attrs').

Section Writes.
Context (host p : str) (js_build css_build : str -> fs -> res (built * fs)).
(** [writes i j f evs out f' rs]: for the events [evs], after [i] scripts and [j] stylesheets
    and with the files [f], the tokens [out] are written; the files are then [f'].  The handlers
    of scripts and stylesheets get a file with exactly the text, which is then removed; [rs]
    are their reports *)
Inductive writes : nat -> nat -> fs -> list event -> list htoken -> fs -> list built -> Prop :=
| WrEnd i j f : writes i j f [] [] f []
| WrSame i j f t evs out f' rs : writes i j f evs out f' rs -> writes i j f (Same t :: evs) (t :: out) f' rs
| WrSaid i j f x evs out f' rs : writes i j f evs out f' rs -> writes i j f (Said x :: evs) (HChars x :: out) f' rs
| WrHint i j f name attrs n u attrs' evs out f' rs : hint_url host p attrs n u -> retagged attrs n u attrs' -> writes i j f evs out f' rs ->
    writes i j f (Hint name attrs n :: evs) (HEmpty name attrs' :: out) f' rs
| WrRef i j f t attrs n path h t' evs out f' rs : dget (in_output path ++ lit ".hash") f = Some h -> new_ref t n (version (47 :: path) (strip h)) t' -> writes i j f evs out f' rs ->
    writes i j f (Ref t attrs n path :: evs) (t' :: out) f' rs
| WrScript i j f attrs text r f1 f2 h attrs' evs out f' rs : js_build (lit "src/public" ++ script_url p i) (dset (lit "src/public" ++ script_url p i) text f) = Ret (r, f1) ->
    dmem (lit "src/public" ++ script_url p i) f1 = true -> f2 = ddel (lit "src/public" ++ script_url p i) f1 ->
    dget (lit "out/www" ++ script_url p i ++ lit ".hash") f2 = Some h -> retagged attrs (lit "src") (version (script_url p i) h) attrs' ->
    writes (i + 1) j f2 evs out f' rs -> writes i j f (Script attrs text :: evs) (HStart (lit "script") attrs' :: HEnd (lit "script") :: out) f' (r :: rs)
| WrStyle i j f text r f1 f2 h evs out f' rs : css_build (lit "src/public" ++ style_url p j) (dset (lit "src/public" ++ style_url p j) text f) = Ret (r, f1) ->
    dmem (lit "src/public" ++ style_url p j) f1 = true -> f2 = ddel (lit "src/public" ++ style_url p j) f1 ->
    dget (lit "out/www" ++ style_url p j ++ lit ".hash") f2 = Some h ->
    writes i (j + 1) f2 evs out f' rs -> writes i j f (Style text :: evs) (HEmpty (lit "link") [(lit "href", version (style_url p j) h); (lit "rel", lit "stylesheet")] :: out) f' (r :: rs)
| WrTemplate i j f path text evs out f' rs : dget path f = Some text -> writes i j f evs out f' rs -> writes i j f (Template path text :: evs) out f' rs.
End Writes.
Section Scans.
Context (p : str) (js_scan css_scan : str -> fs -> res scanned).
(** the same for scanning, which changes no tokens but those of scripts and stylesheets *)
Inductive scans : nat -> nat -> fs -> list event -> list htoken -> fs -> list scanned -> Prop :=
| ScEnd i j f : scans i j f [] [] f []
| ScSame i j f t evs out f' rs : scans i j f evs out f' rs -> scans i j f (Same t :: evs) (t :: out) f' rs
| ScSaid i j f x evs out f' rs : scans i j f evs out f' rs -> scans i j f (Said x :: evs) (HChars x :: out) f' rs
| ScHint i j f name attrs n evs out f' rs : scans i j f evs out f' rs -> scans i j f (Hint name attrs n :: evs) (HEmpty name attrs :: out) f' rs
| ScRef i j f t attrs n path evs out f' rs : scans i j f evs out f' rs -> scans i j f (Ref t attrs n path :: evs) (t :: out) f' rs
| ScScript i j f attrs text r attrs' evs out f' rs : js_scan (lit "src/public" ++ script_url p i) (dset (lit "src/public" ++ script_url p i) text f) = Ret r ->
    retagged attrs (lit "src") (script_url p i ++ lit "?v=tmp&pv=1") attrs' ->
    scans (i + 1) j (ddel (lit "src/public" ++ script_url p i) f) evs out f' rs -> scans i j f (Script attrs text :: evs) (HStart (lit "script") attrs' :: HEnd (lit "script") :: out) f' (r :: rs)
| ScStyle i j f text r evs out f' rs : css_scan (lit "src/public" ++ style_url p j) (dset (lit "src/public" ++ style_url p j) text f) = Ret r ->
    scans i (j + 1) (ddel (lit "src/public" ++ style_url p j) f) evs out f' rs ->
    scans i j f (Style text :: evs) (HEmpty (lit "link") [(lit "href", style_url p j ++ lit "?v=tmp&pv=1"); (lit "rel", lit "stylesheet")] :: out) f' (r :: rs)
| ScTemplate i j f path text evs out f' rs : dget path f = Some text -> scans i j f evs out f' rs -> scans i j f (Template path text :: evs) out f' rs.
End Scans.
(** the files that the events refer to *)
Definition referred (evs : list event) (q : str) : Prop := exists t attrs n path, In (Ref t attrs n path) evs /\ q = in_public path.
Definition templates (evs : list event) (q : str) : Prop := exists text, In (Template q text) evs.
(** attributes are a dictionary *)
Definition tag_ok (t : htoken) : Prop := match t with HStart _ attrs | HEmpty _ attrs => dict_wf attrs | _ => True end.

(** * Passes over a page *)
Section Pass.
Context (host : option str) (relpath : str) (fragment : str -> list htoken) (show : str -> str).
Context (js_scan css_scan : str -> fs -> res scanned) (js_build css_build : str -> fs -> res (built * fs)).
(** the tokens [ts] of the page, with the files [f], come out as [out]; the manipulators
    end with the state [s'] *)
Definition passes (scan : bool) (f : fs) (ts out : list htoken) (s' : hstate) : Prop :=
  exists fuel b, pump (manipulators host relpath fragment show js_scan css_scan js_build css_build scan) fuel ts (new_builder (h_init relpath f)) = Ret (out, b) /\ b_st b = s' /\ b_mark b = None.
End Pass.
(** tokens that are handled one by one *)
Definition one_by_one (t : htoken) : Prop :=
  ordinary t \/ (exists name attrs n, hint t name attrs n /\ local_hint attrs n) \/ exists attrs n path, reference t attrs n /\ site_path attrs n path.
(** what becomes of such a token, with the files [f] *)
Inductive becomes (host p : str) (f : fs) : htoken -> htoken -> Prop :=
| BecSame t : ordinary t -> becomes host p f t t
| BecHint t name attrs n u attrs' : hint t name attrs n -> local_hint attrs n -> hint_url host p attrs n u -> retagged attrs n u attrs' -> becomes host p f t (HEmpty name attrs')
| BecRef t attrs n path h t' : reference t attrs n -> site_path attrs n path -> dget (in_output path ++ lit ".hash") f = Some h -> new_ref t n (version (47 :: path) (strip h)) t' -> becomes host p f t t'.

(** * Templates as calls *)
(** text without surrogates, as read from a file *)
Definition written (s : str) : Prop := Forall (fun c => c < 1114112 /\ ~ (55296 <= c <= 57343)) s.
(** a token of a file in which no [push] or [pop] is written by hand *)
Definition plain_token (t : htoken) : Prop :=
  (forall text, t = HComment text -> written text) /\ (forall l, ~ stack_cmd t (lit "pop") l) /\ (forall p l, ~ stack_cmd t (lit "push") (JStr p :: l)).
Section Expand.
Context (fragment : str -> list htoken) (show : str -> str).
(** [expand fr ts evs fr']: with the variables of [fr], the tokens [ts] are the events [evs];
    the variables are then those of [fr'].  A template has the variables passed to it and no
    others; when it ends, the variables are those before it *)
Inductive expand : frame -> list htoken -> list event -> frame -> Prop :=
| ExEnd fr : expand fr [] [] fr
| ExSame fr t ts evs fr' : ordinary t -> expand fr ts evs fr' -> expand fr (t :: ts) (Same t :: evs) fr'
| ExHint fr t name attrs n ts evs fr' : hint t name attrs n -> local_hint attrs n -> expand fr ts evs fr' -> expand fr (t :: ts) (Hint name attrs n :: evs) fr'
| ExRef fr t attrs n path ts evs fr' : reference t attrs n -> site_path attrs n path -> expand fr ts evs fr' -> expand fr (t :: ts) (Ref t attrs n path :: evs) fr'
| ExScript fr attrs inner texts name ts evs fr' : dget (lit "src") attrs = None -> Forall2 is_text inner texts -> expand fr ts evs fr' ->
    expand fr (HStart (lit "script") attrs :: inner ++ HEnd name :: ts) (Script attrs (concat texts) :: evs) fr'
| ExStyle fr inner texts name ts evs fr' : Forall2 is_text inner texts -> expand fr ts evs fr' ->
    expand fr (HStart (lit "style") [] :: inner ++ HEnd name :: ts) (Style (concat texts) :: evs) fr'
| ExDefine fr t k v ts evs fr' : stack_cmd t (lit "define") [JStr k; v] -> expand {| fr_path := fr_path fr; fr_vars := dset k v (fr_vars fr) |} ts evs fr' -> expand fr (t :: ts) evs fr'
| ExRetrieve fr t k v x ts evs fr' : k <> [] -> stack_cmd t (lit "retrieve") [JStr k] -> dget k (fr_vars fr) = Some v -> shown show v x -> expand fr ts evs fr' -> expand fr (t :: ts) (Said x :: evs) fr'
| ExIgnored fr t c l ts evs fr' : stack_cmd t c l ->
    (c = lit "push" -> forall p r, l <> JStr p :: r) -> c <> lit "pop" -> (c = lit "define" -> forall k v, l <> [JStr k; v]) -> (c = lit "retrieve" -> forall k, k <> [] -> l <> [JStr k]) ->
    expand fr ts evs fr' -> expand fr (t :: ts) evs fr'
| ExTemplate fr t c l args vars path text ts evs evs' fr1 fr' : template_cmd t c l -> template_args l args -> passed_all (fr_vars fr) args vars -> template_path (fr_path fr) c path ->
    expand {| fr_path := path; fr_vars := vars |} (fragment text) evs fr1 -> expand fr ts evs' fr' -> expand fr (t :: ts) (Template path text :: evs ++ evs') fr'
| ExNoTemplate fr t c l ts evs fr' : template_cmd t c l -> (forall args, ~ template_args l args) -> expand fr ts evs fr' -> expand fr (t :: ts) evs fr'.
End Expand.
