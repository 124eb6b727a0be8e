(** C26: imports of rules between stylesheets.
    [expanded rule_of import ts out]: [out] is [ts] with every import replaced by the block of
    the rule it asks for, in which the imports are replaced in the same way; [ready … seen r]:
    [r] can be expanded from [seen] and the rules of its own stylesheet (NestSpec.v). *)
From Coq Require Import String ZArith NArith Bool List Relations.
From Verif Require Import Base Graph PyPath PyNorm Css Builder BuilderSpec Handlers Nest NestSpec NestText NestSound NestBook NestMain NestExamples.
Import ListNotations.
Open Scope list_scope.
Open Scope N_scope.

(** which comments are imports, and of what *)
Theorem C26_comment : forall F default_css (t : Css.token (F := F)) r, get_import default_css t = Some r <-> import default_css t r.
Proof. intros F default_css t r. exact (get_import_iff default_css t r). Qed.
Print Assumptions C26_comment.
Example C26_comment_case : get_import main_path (TComment (lit "! PREPROCESSOR: import .a:hover FROM /css/b.css ") : Css.token (F := N)) = Some (lit "src/public/css/b.css", lit ".a:hover").
Proof. vm_compute. reflexivity. Qed.

(** * What building gives *)
(** every import is replaced by the expansion of its rule, none is left, and the other
    stylesheets that are used are those that are imported from; for every order of resolution *)
Theorem C26_imports : forall F float_of (float_str : F -> str) high_digit int_high default_css self f pick fuel n ts out b,
  (forall t r, In t ts -> import default_css t r -> readable float_of high_digit int_high self f r) ->
  pump [nest float_of float_str high_digit int_high default_css self f pick fuel false] n ts (new_builder nest_init) = Ret (out, b) ->
  expanded (rule_of float_of float_str high_digit int_high self f) (import default_css) ts out /\
  (forall t r, In t out -> ~ import default_css t r) /\
  (forall p, In p (n_seen (b_st b)) <-> others default_css self ts p).
Proof. intros F float_of float_str high_digit int_high default_css self f pick fuel n ts out b. exact (nest_sheet float_of float_str high_digit int_high default_css self f pick fuel n ts out b). Qed.
Print Assumptions C26_imports.
Example C26_imports_case : build text1 = Ret (lit ".x{left:0;} .a{top:0;left:0;color:red} .b{top:0;left:0;}", [main_path]).
Proof. exact text1_build. Qed.

(** an expansion is unique up to blanks if no stylesheet has two rules for one selector *)
Theorem C26_unique : forall F float_of (float_str : F -> str) high_digit int_high default_css self f,
  (forall file ts l, is_sheet float_of high_digit int_high f file ts l -> distinct float_str l) -> forall ts out out',
  expanded (rule_of float_of float_str high_digit int_high self f) (import default_css) ts out ->
  expanded (rule_of float_of float_str high_digit int_high self f) (import default_css) ts out' -> solid out = solid out'.
Proof. intros F float_of float_str high_digit int_high default_css self f D ts out out' E E'. exact (expanded_unique float_of float_str high_digit int_high default_css self f D ts out E out' E'). Qed.
Print Assumptions C26_unique.

(** * When it succeeds *)
(** if at each import the rule can be expanded from the rules of its own stylesheet and those
    imported further up *)
Theorem C26_resolved : forall F float_of (float_str : F -> str) high_digit int_high default_css self f pick ts l,
  sheet ts l -> proper_imports float_of float_str high_digit int_high default_css self f ts ->
  (forall a t c r, ts = a ++ t :: c -> import default_css t r -> ready (rule_of float_of float_str high_digit int_high self f) (import default_css) (fun i => exists u, In u a /\ import default_css u i) r) ->
  exists enough, forall fuel, (enough <= fuel)%nat -> exists n out b, pump [nest float_of float_str high_digit int_high default_css self f pick fuel false] n ts (new_builder nest_init) = Ret (out, b).
Proof. intros F float_of float_str high_digit int_high default_css self f pick ts l. exact (nest_complete float_of float_str high_digit int_high default_css self f pick ts l). Qed.
Print Assumptions C26_resolved.
(** here a rule imports one below it, which imports one above that imports from elsewhere *)
Example C26_resolved_case : sheet (tokens text1) (rules_of text1) /\ proper_imports fo fstr hd ih main_path sheet_path (project text1) (tokens text1) /\
  forall a t c r, tokens text1 = a ++ t :: c -> import main_path t r -> ready (rule_of fo fstr hd ih sheet_path (project text1)) (import main_path) (fun i => exists u, In u a /\ import main_path u i) r.
Proof. split; [exact (proj2 (fine_sheet text1 fine1))|]. split; [exact text1_proper|exact text1_ready]. Qed.

(** the order in which rules are resolved makes no difference at all *)
Theorem C26_order : forall F float_of (float_str : F -> str) high_digit int_high default_css self f p1 p2 f1 f2 n1 n2 ts l out1 out2 b1 b2,
  sheet ts l -> proper_imports float_of float_str high_digit int_high default_css self f ts ->
  pump [nest float_of float_str high_digit int_high default_css self f p1 f1 false] n1 ts (new_builder nest_init) = Ret (out1, b1) ->
  pump [nest float_of float_str high_digit int_high default_css self f p2 f2 false] n2 ts (new_builder nest_init) = Ret (out2, b2) -> out1 = out2.
Proof. intros F float_of float_str high_digit int_high default_css self f p1 p2 f1 f2 n1 n2 ts l out1 out2 b1 b2. exact (nest_order float_of float_str high_digit int_high default_css self f p1 p2 f1 f2 n1 n2 ts l out1 out2 b1 b2). Qed.
Print Assumptions C26_order.
Example C26_order_case : let run := fun pick => pump [nest fo fstr hd ih main_path sheet_path (project text4) pick 200 false] 400 (tokens text4) (new_builder nest_init) in
  match run first, run last with Ret (o, b), Ret (o', b') => o = o' /\ map fst (available (n_rules (b_st b))) <> map fst (available (n_rules (b_st b'))) | _, _ => False end.
Proof. vm_compute. split; [reflexivity|discriminate]. Qed.

(** a stylesheet that imports a rule which is missing, or needs itself, directly or by way of
    other rules, is never built: a missing rule [needs] any *)
Theorem C26_cycle : forall F float_of (float_str : F -> str) high_digit int_high default_css self f pick fuel n ts t r x,
  (forall t r, In t ts -> import default_css t r -> readable float_of high_digit int_high self f r) -> In t ts -> import default_css t r ->
  clos_refl_trans _ (needs float_of float_str high_digit int_high default_css self f) r x -> clos_trans _ (needs float_of float_str high_digit int_high default_css self f) x x ->
  forall out b, pump [nest float_of float_str high_digit int_high default_css self f pick fuel false] n ts (new_builder nest_init) <> Ret (out, b).
Proof. intros F float_of float_str high_digit int_high default_css self f pick fuel n ts t r x. exact (nest_cycle float_of float_str high_digit int_high default_css self f pick fuel n ts t r x). Qed.
Print Assumptions C26_cycle.
Example C26_cycle_case : build (lit ".b{" ++ import_of ".c from /css/a.css" ++ lit "} .c{" ++ import_of ".b from /css/a.css" ++ lit "}") = Raise ValueError /\ build (lit ".b{" ++ import_of ".c" ++ lit "}") = Raise ValueError.
Proof. split; vm_compute; reflexivity. Qed.

(** * Scanning *)
(** the stylesheet is left as it is, and the same stylesheets are found *)
Theorem C26_scan : forall F float_of (float_str : F -> str) high_digit int_high default_css self f pick fuel ts, exists n b,
  pump [nest float_of float_str high_digit int_high default_css self f pick fuel true] n ts (new_builder nest_init) = Ret (ts, b) /\ forall p, In p (n_seen (b_st b)) <-> others default_css self ts p.
Proof. intros F float_of float_str high_digit int_high default_css self f pick fuel ts. exact (nest_scan float_of float_str high_digit int_high default_css self f pick fuel ts). Qed.
Print Assumptions C26_scan.

(** * The bookkeeping *)
(** it starts out consistent, and stays so when a rule becomes available or is recorded with
    what it misses *)
Theorem C26_start : forall F default_css, consistent (F := F) (import default_css) no_rules.
Proof. intros F default_css. exact (no_rules_consistent default_css). Qed.
Print Assumptions C26_start.

Theorem C26_available : forall F default_css r b (rs : rules (F := F)), consistent (import default_css) rs -> rget r (available rs) = None -> (forall x m, rget r (unresolved rs) = Some (x, m) -> m = []) ->
  exists rs', set_rule r b [] rs = Ret rs' /\ consistent (import default_css) rs' /\ available rs' = rset r b (available rs) /\ rget r (unresolved rs') = None /\
    (forall k, k <> r -> match rget k (unresolved rs), rget k (unresolved rs') with Some (x, _), Some (y, _) => x = y | None, None => True | _, _ => False end).
Proof. intros F default_css r b rs C A U. destruct (set_available_ok default_css r b rs C A U) as (rs' & E & C' & A' & U' & K & _). exists rs'. split; [exact E|]. split; [exact C'|]. split; [exact A'|]. split; [exact U'|exact K]. Qed.
Print Assumptions C26_available.

Theorem C26_unresolved : forall F default_css r b m (rs : rules (F := F)), consistent (import default_css) rs -> rget r (available rs) = None -> rget r (unresolved rs) = None ->
  m <> [] -> NoDup m -> (forall i, In i m <-> rget i (available rs) = None /\ exists t, In t b /\ import default_css t i) ->
  exists rs', set_rule r b m rs = Ret rs' /\ consistent (import default_css) rs' /\ available rs' = available rs /\ unresolved rs' = rset r (b, m) (unresolved rs) /\ resolvable rs' = resolvable rs.
Proof. intros F default_css r b m rs. exact (set_unresolved_ok default_css r b m rs). Qed.
Print Assumptions C26_unresolved.
(** a rule that waits for another, until that is there *)
Example C26_unresolved_case : let t : Css.token (F := N) := TComment (lit "! PREPROCESSOR: import .d") in
  exists rs rs', set_rule (sheet_path, lit ".a") [t] [(main_path, lit ".d")] no_rules = Ret rs /\ resolvable rs = [] /\ set_rule (main_path, lit ".d") [] [] rs = Ret rs' /\ resolvable rs' = [(sheet_path, lit ".a")].
Proof. eexists. eexists. split; [vm_compute; reflexivity|]. split; [reflexivity|]. split; [vm_compute; reflexivity|reflexivity]. Qed.

(** * What is not so *)
(** the count of a stylesheet is not, as the code says, the number of missing references to it:
    if two rules miss the same one, it stays positive when that is there *)
Theorem C26_count_refuted : exists rs rs' rs'' : rules (F := N), set_rule (sheet_path, lit ".a") [] [(main_path, lit ".d")] no_rules = Ret rs /\ set_rule (sheet_path, lit ".b") [] [(main_path, lit ".d")] rs = Ret rs' /\
  set_rule (main_path, lit ".d") [] [] rs' = Ret rs'' /\ Forall (fun e => snd (snd e) = []) (unresolved rs'') /\ dget main_path (counts rs'') = Some 1%Z.
Proof. eexists. eexists. eexists. split; [vm_compute; reflexivity|]. split; [vm_compute; reflexivity|]. split; [vm_compute; reflexivity|]. split; [repeat constructor|reflexivity]. Qed.
Print Assumptions C26_count_refuted.

(** an import with an expansion may fail all the same: if the rule it asks for is below it and
    imports from a stylesheet that was not imported from yet *)
Theorem C26_forward_refuted : exists text, sheet (tokens text) (rules_of text) /\ proper_imports fo fstr hd ih main_path sheet_path (project text) (tokens text) /\
  (forall t r, In t (tokens text) -> import main_path t r -> exists v, expands (rule_of fo fstr hd ih sheet_path (project text)) (import main_path) r v) /\ build text = Raise ValueError.
Proof. exists text2. split; [exact (proj2 (fine_sheet text2 fine2))|]. split; [exact text2_proper|]. split; [exact text2_expands|exact text2_build]. Qed.
Print Assumptions C26_forward_refuted.

(** a stylesheet with two rules for one selector cannot be imported from at all *)
Theorem C26_twice_refuted : exists text r b, sheet (tokens text) (rules_of text) /\ imports_of (tokens text) = [r] /\ rule_of fo fstr hd ih sheet_path (project text) r b /\ imports_of b = [] /\
  (forall b', rule_of fo fstr hd ih sheet_path (project text) r b' -> b' = b) /\ build text = Raise ValueError.
Proof. exact twice. Qed.
Print Assumptions C26_twice_refuted.

(** neither can one with an at-rule without a block before the rule *)
Theorem C26_charset_refuted : build (lit ".b{top:0;} .a{" ++ import_of ".b from /css/a.css" ++ lit "}") = Ret (lit ".b{top:0;} .a{top:0;}", []) /\
  build (lit "@charset ""utf-8""; .b{top:0;} .a{" ++ import_of ".b from /css/a.css" ++ lit "}") = Raise ValueError.
Proof. split; vm_compute; reflexivity. Qed.
Print Assumptions C26_charset_refuted.

(** a selector with the letters from in it cannot be imported: the comment stays, silently *)
Theorem C26_from_refuted : exists text, text = lit ".bg-from-white{top:0;} .a{" ++ import_of ".bg-from-white from /css/a.css" ++ lit "}" /\ build text = Ret (text, []).
Proof. eexists. split; [reflexivity|]. vm_compute. reflexivity. Qed.
Print Assumptions C26_from_refuted.

(** a block with a block in it is spliced in the wrong place if it has an import *)
Theorem C26_braces_refuted : build (lit ".b{top:0;@media x{color:red;}left:0;} .c{" ++ import_of ".b from /css/a.css" ++ lit "margin:0;} .a{" ++ import_of ".c from /css/a.css" ++ lit "}") =
  Ret (lit ".b{top:0;@media x{color:red;}left:0;} .c{top:0;@media x{color:red;}left:0;margin:0;} .a{top:0;@media x{margin:0;}color:red;}", []).
Proof. vm_compute. reflexivity. Qed.
Print Assumptions C26_braces_refuted.

(** a block that does not end with a semicolon spoils the declaration after the import *)
Theorem C26_semicolon_refuted : build (lit ".b{left:0} .a{" ++ import_of ".b from /css/a.css" ++ lit "color:red}") = Ret (lit ".b{left:0} .a{left:0color:red}", []).
Proof. vm_compute. reflexivity. Qed.
Print Assumptions C26_semicolon_refuted.

(** the blanks around an import depend on the order of the rules *)
Theorem C26_blanks_refuted : build (lit ".e{} .c{" ++ import_of ".e from /css/a.css" ++ lit " top:0;} .a{" ++ import_of ".c from /css/a.css" ++ lit "}") = Ret (lit ".e{} .c{ top:0;} .a{top:0;}", []) /\
  build (lit ".a{" ++ import_of ".c from /css/a.css" ++ lit "} .c{" ++ import_of ".e from /css/a.css" ++ lit " top:0;} .e{}") = Ret (lit ".a{ top:0;} .c{ top:0;} .e{}", []).
Proof. split; vm_compute; reflexivity. Qed.
Print Assumptions C26_blanks_refuted.
