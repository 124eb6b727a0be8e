(** Stylesheets with imports, as examples (C26). *)
From Verif Require Import Base Graph PyPath PyNorm Css Builder BuilderSpec Handlers Nest NestSpec NestText NestProofs NestSound NestBook NestTotal.
From Coq Require Import String ZArith NArith Bool List.
Import ListNotations.
Open Scope list_scope.
Open Scope N_scope.

Definition fo (s : str) : option N := None.
Definition fstr (x : N) : str := lit "0.0".
Definition hd (c : N) : bool := false.
Definition ih (s : str) : option Z := None.
Notation token := (token (F := N)).
(** the rule that is resolved first *)
Definition first (n : nat) (l : list ref) : nat := 0.
Definition last (n : nat) (l : list ref) : nat := length l - 1.
Definition sheet_path : str := lit "src/public/css/a.css".
Definition main_path : str := lit "src/public/css/main.css".
Definition import_of (s : string) : str := lit ("/*! PREPROCESSOR: import " ++ s ++ " */").
(** a project with two stylesheets, one of which was built *)
Definition project (text : str) : str -> option str := fun p => dget p [(sheet_path, text); (lit "out/www/css/main.css", lit ".d{left:0;}")].
Definition tokens (text : str) : list token := fst (tokenize fo hd ih text).
Definition build (text : str) : res (str * list str) :=
  match pump [nest fo fstr hd ih main_path sheet_path (project text) first 200 false] 400 (tokens text) (new_builder nest_init) with Ret (out, b) => Ret (serialize_many fstr out, n_seen (b_st b)) | Raise e => Raise e end.

(** * Recognising stylesheets *)
Definition is_curly (t : token) : bool := match t with TLCurly | TRCurly => true | _ => false end.
Fixpoint up_to (ts : list token) : option (list token * list token) :=
  match ts with TEof :: _ | [] => None | t :: r => if is_curly t then Some ([], ts) else match up_to r with Some (a, b) => Some (t :: a, b) | None => None end end.
Fixpoint read_sheet (n : nat) (ts : list token) : option (list (list token * list token)) :=
  match n with
  | O => None
  | S n =>
      match ts with
      | [TEof] => Some []
      | TWhitespace _ :: r | TComment _ :: r => read_sheet n r
      | (TEof | TCDO | TLCurly | TAt _) :: _ | [] => None
      | t :: r => match up_to r with
                  | Some (a, TLCurly :: r) => match up_to r with Some (b, TRCurly :: r) => match read_sheet n r with Some l => Some ((t :: a, b) :: l) | None => None end | _ => None end
                  | _ => None
                  end
      end
  end.
Lemma up_to_sound ts : forall a b, up_to ts = Some (a, b) -> ts = a ++ b /\ forall t, In t a -> ~ curly t /\ t <> TEof.
Proof.
  induction ts as [|t ts IH]; intros a b; cbn [up_to]; [discriminate|]. assert (E : t = TEof \/ t <> TEof) by (destruct t; ((left; reflexivity) || (right; discriminate))). destruct E as [->|E]; [discriminate|]. intros H.
  assert (X : (if is_curly t then Some ([], t :: ts) else match up_to ts with Some (a, b) => Some (t :: a, b) | None => None end) = Some (a, b)) by (destruct t; try exact H; congruence). clear H. destruct (is_curly t) eqn:C; [injection X as <- <-; split; [reflexivity|intros u []]|].
  destruct (up_to ts) as [[a' b']|]; [|discriminate]. injection X as <- <-. destruct (IH a' b' eq_refl) as [-> I]. split; [reflexivity|]. intros u [<-|Iu]; [split; [intros [X|X]; subst; discriminate|exact E]|exact (I u Iu)].
Qed.
Lemma read_sheet_sound n : forall ts l, read_sheet n ts = Some l -> sheet ts l.
Proof.
  induction n as [|n IH]; intros ts l; [discriminate|]. cbn [read_sheet]. destruct ts as [|t r]; [discriminate|].
  assert (Rule : starts_rule t -> match up_to r with Some (a, TLCurly :: r) => match up_to r with Some (b, TRCurly :: r) => match read_sheet n r with Some l => Some ((t :: a, b) :: l) | None => None end | _ => None end | _ => None end = Some l -> sheet (t :: r) l).
  { intros T. destruct (up_to r) as [[a x]|] eqn:Ua; [|discriminate]. destruct x as [|[] x]; try discriminate. destruct (up_to x) as [[b y]|] eqn:Ub; [|discriminate]. destruct y as [|[] y]; try discriminate. destruct (read_sheet n y) as [l'|] eqn:R; [|discriminate]. intros [= <-].
    apply up_to_sound in Ua, Ub. destruct Ua as [-> Ha], Ub as [-> Hb]. apply (SheetRule t a b y l'); [exact T|intros I; apply (proj1 (Ha _ I)); left; reflexivity|intros I; apply (proj2 (Ha _ I)); reflexivity|exact Hb|exact (IH _ _ R)]. }
  destruct t; try discriminate; try (apply Rule; repeat split; discriminate); try (intros H; constructor; exact (IH _ _ H)). destruct r; [|discriminate]. intros [= <-]. constructor.
Qed.

Definition rules_of (text : str) : list (list token * list token) := match read_sheet 400 (tokens text) with Some l => l | None => [] end.
(** a text that is a stylesheet *)
Definition fine_text (text : str) : bool := match tokenize fo hd ih text, read_sheet 400 (tokens text) with (_, None), Some _ => true | _, _ => false end.
Lemma fine_sheet text : fine_text text = true -> tokenize fo hd ih text = (tokens text, None) /\ sheet (tokens text) (rules_of text).
Proof. unfold fine_text, rules_of, tokens. destruct (tokenize fo hd ih text) as [ts [e|]]; [discriminate|]. cbn [fst]. destruct (read_sheet 400 ts) as [l|] eqn:R; [|discriminate]. intros _. split; [reflexivity|]. exact (read_sheet_sound _ _ _ R). Qed.

(** * A stylesheet that imports a rule of its own, before it, that imports one of another *)
Definition text1 : str := lit ".x{" ++ import_of ".d" ++ lit "} .a{" ++ import_of ".b from /css/a.css" ++ lit "color:red} .b{top:0;" ++ import_of ".x from /css/a.css" ++ lit "}".
Definition text2 : str := lit ".a{" ++ import_of ".b from /css/a.css" ++ lit "} .b{" ++ import_of ".d" ++ lit "}".
Lemma text1_build : build text1 = Ret (lit ".x{left:0;} .a{top:0;left:0;color:red} .b{top:0;left:0;}", [main_path]).
Proof. vm_compute. reflexivity. Qed.
Lemma text2_build : build text2 = Raise ValueError. Proof. vm_compute. reflexivity. Qed.
Lemma self_sheet text : fine_text text = true -> is_sheet fo hd ih (project text) (file_of sheet_path sheet_path) (tokens text) (rules_of text).
Proof. intros H. destruct (fine_sheet text H) as [T S]. exists text. split; [reflexivity|]. split; assumption. Qed.
Definition main_text : str := lit ".d{left:0;}".
Lemma main_sheet text : is_sheet fo hd ih (project text) (file_of sheet_path main_path) (tokens main_text) (rules_of main_text).
Proof. destruct (fine_sheet main_text) as [T S]; [vm_compute; reflexivity|]. exists main_text. split; [reflexivity|]. split; assumption. Qed.
(** the imports of a list of tokens *)
Fixpoint imports_of (ts : list token) : list ref := match ts with [] => [] | t :: r => match get_import main_path t with Some i => i :: imports_of r | None => imports_of r end end.
Lemma imports_in ts : forall r, (exists t, In t ts /\ import main_path t r) <-> In r (imports_of ts).
Proof.
  induction ts as [|t ts IH]; intros r; cbn [imports_of]; [split; [intros (t & [] & _)|intros []]|]. destruct (get_import main_path t) as [i|] eqn:E; split.
  - intros (u & [<-|I] & H); [apply get_import_iff in H; left; congruence|right; apply IH; eauto].
  - intros [<-|I]; [exists t; split; [left; reflexivity|apply get_import_iff; exact E]|]. apply IH in I. destruct I as (u & I & H). exists u. split; [right; exact I|exact H].
  - intros (u & [<-|I] & H); [apply get_import_iff in H; congruence|apply IH; eauto].
  - intros I. apply IH in I. destruct I as (u & I & H). exists u. split; [right; exact I|exact H].
Qed.
Definition from_two (text : str) : bool := forallb (fun r => str_eqb (fst r) sheet_path || str_eqb (fst r) main_path) (imports_of (tokens text)).
Fixpoint nodupb (l : list str) : bool := match l with [] => true | x :: r => negb (mem x r) && nodupb r end.
Lemma nodupb_sound l : nodupb l = true -> NoDup l.
Proof. induction l as [|x l IH]; cbn; [constructor|]. rewrite andb_true_iff, negb_true_iff. intros [M N]. constructor; [intros I; apply mem_In in I; congruence|exact (IH N)]. Qed.
Lemma proper text : fine_text text = true -> from_two text = true -> nodupb (map (fun e => selector_of fstr (fst e)) (rules_of text)) = true -> proper_imports fo fstr hd ih main_path sheet_path (project text) (tokens text).
Proof.
  intros Fi Fr N. assert (P : forall t r, In t (tokens text) -> import main_path t r -> fst r = sheet_path \/ fst r = main_path).
  { intros t r It Ir. unfold from_two in Fr. rewrite forallb_forall in Fr. assert (X : In r (imports_of (tokens text))) by (apply imports_in; eauto). apply Fr in X. apply orb_true_iff in X. rewrite !str_eqb_eq in X. exact X. }
  split.
  - intros t r It Ir. destruct (P t r It Ir) as [-> | ->]; [exists (tokens text), (rules_of text); split; [apply self_sheet; exact Fi|apply nodupb_sound; exact N]|]. exists (tokens main_text), (rules_of main_text). split; [apply main_sheet|]. apply nodupb_sound. vm_compute. reflexivity.
  - intros t t' r r' It It' Ir Ir'. destruct (P t r It Ir) as [-> | ->], (P t' r' It' Ir') as [-> | ->]; intros E; try reflexivity; vm_compute in E; discriminate.
Qed.

Lemma text1_proper : proper_imports fo fstr hd ih main_path sheet_path (project text1) (tokens text1).
Proof. apply proper; vm_compute; reflexivity. Qed.
Lemma text2_proper : proper_imports fo fstr hd ih main_path sheet_path (project text2) (tokens text2).
Proof. apply proper; vm_compute; reflexivity. Qed.

(** * Rules that are ready *)
Notation rule_of1 := (rule_of fo fstr hd ih sheet_path (project text1)).
Lemma d_rule text : rule_of fo fstr hd ih sheet_path (project text) (main_path, lit ".d") (snd (nth 0 (rules_of main_text) ([], []))).
Proof. exists (tokens main_text), (rules_of main_text), (fst (nth 0 (rules_of main_text) ([], []))). split; [apply main_sheet|]. split; [vm_compute; left; reflexivity|vm_compute; reflexivity]. Qed.
Lemma own_rule text k sl b : fine_text text = true -> nth_error (rules_of text) k = Some b -> selector_of fstr (fst b) = sl -> rule_of fo fstr hd ih sheet_path (project text) (sheet_path, sl) (snd b).
Proof. intros Fi E S. exists (tokens text), (rules_of text), (fst b). split; [apply self_sheet; exact Fi|]. split; [apply (nth_error_In _ k); rewrite E; destruct b; reflexivity|exact S]. Qed.
Lemma block_imports (text : str) (b : list token) : forall t i, In t b -> import main_path t i -> In i (imports_of b).
Proof. intros t i It Ii. apply imports_in. exists t. split; assumption. Qed.
Lemma d_ready text seen : ready (rule_of fo fstr hd ih sheet_path (project text)) (import main_path) seen (main_path, lit ".d").
Proof. apply (Ready _ _ _ _ _ (d_rule text)). intros t i It Ii. apply (block_imports text) with (i := i) in It; [|exact Ii]. vm_compute in It. destruct It. Qed.
Lemma fine1 : fine_text text1 = true. Proof. vm_compute. reflexivity. Qed.
Lemma x_ready (seen : ref -> Prop) : seen (main_path, lit ".d") -> ready rule_of1 (import main_path) seen (sheet_path, lit ".x").
Proof.
  intros S. refine (Ready _ _ _ _ _ (own_rule text1 0 (lit ".x") _ fine1 eq_refl _) _); [vm_compute; reflexivity|]. intros t i It Ii. apply (block_imports text1) with (i := i) in It; [|exact Ii]. vm_compute in It. destruct It as [<-|[]]. left. exact S.
Qed.
Lemma b_ready (seen : ref -> Prop) : seen (main_path, lit ".d") -> ready rule_of1 (import main_path) seen (sheet_path, lit ".b").
Proof.
  intros S. refine (Ready _ _ _ _ _ (own_rule text1 2 (lit ".b") _ fine1 eq_refl _) _); [vm_compute; reflexivity|]. intros t i It Ii. apply (block_imports text1) with (i := i) in It; [|exact Ii]. vm_compute in It. destruct It as [<-|[]]. right. split; [reflexivity|exact (x_ready seen S)].
Qed.
(** splitting a list at an import *)
Lemma split_imports ts : forall a t c r, ts = a ++ t :: c -> import main_path t r -> exists x y, imports_of ts = x ++ r :: y /\ forall i, In i x -> exists u, In u a /\ import main_path u i.
Proof.
  intros a t c r -> Ir. apply get_import_iff in Ir. exists (imports_of a), (imports_of c). split; [|intros i I; apply imports_in; exact I]. induction a as [|u a IH]; cbn [app imports_of]; [rewrite Ir; reflexivity|]. destruct (get_import main_path u); rewrite IH; reflexivity.
Qed.
Lemma text1_ready : forall a t c r, tokens text1 = a ++ t :: c -> import main_path t r -> ready rule_of1 (import main_path) (fun i => exists u, In u a /\ import main_path u i) r.
Proof.
  intros a t c r E Ir. destruct (split_imports _ a t c r E Ir) as (x & y & X & S).
  assert (L : imports_of (tokens text1) = [(main_path, lit ".d"); (sheet_path, lit ".b"); (sheet_path, lit ".x")]) by (vm_compute; reflexivity). rewrite L in X.
  destruct x as [|x0 x]; [injection X as <- _; apply d_ready|]. injection X as <- X. pose proof (S _ (or_introl eq_refl)) as D. destruct x as [|x1 x]; [injection X as <- _; exact (b_ready _ D)|]. injection X as <- X. destruct x as [|x2 x]; [injection X as <- _; exact (x_ready _ D)|]. injection X as _ X. destruct x; discriminate.
Qed.
(** * A rule that has an expansion but is not found *)
Lemma fine2 : fine_text text2 = true. Proof. vm_compute. reflexivity. Qed.
Notation rule_of2 := (rule_of fo fstr hd ih sheet_path (project text2)).
Lemma d_expands text : expands (rule_of fo fstr hd ih sheet_path (project text)) (import main_path) (main_path, lit ".d") (snd (nth 0 (rules_of main_text) ([], []))).
Proof. apply (Expands _ _ _ _ [] _ [] (d_rule text)); [|constructor|constructor]. rewrite app_nil_r. cbn [app]. apply expanded_plain. intros t I. vm_compute in I. decompose [or] I; subst; try reflexivity; contradiction. Qed.
Lemma text2_expands : forall t r, In t (tokens text2) -> import main_path t r -> exists v, expands rule_of2 (import main_path) r v.
Proof.
  intros t r It Ir. assert (X : In r (imports_of (tokens text2))) by (apply imports_in; eauto). assert (L : imports_of (tokens text2) = [(sheet_path, lit ".b"); (main_path, lit ".d")]) by (vm_compute; reflexivity). rewrite L in X. clear L It Ir. destruct X as [<-|[<-|[]]]; [|eexists; apply d_expands].
  assert (B : exists u, snd (nth 1 (rules_of text2) ([], [])) = [u] /\ get_import main_path u = Some (main_path, lit ".d")) by (eexists; split; vm_compute; reflexivity). destruct B as (u & B & Iu).
  exists (snd (nth 0 (rules_of main_text) ([], []))). apply (Expands _ _ _ (snd (nth 1 (rules_of text2) ([], []))) [] _ []); [apply (own_rule text2 1 (lit ".b") _ fine2); vm_compute; reflexivity| |constructor|constructor]. cbn [app]. rewrite B. apply (ExpandedImport _ _ _ (main_path, lit ".d")); [apply get_import_iff; exact Iu|apply d_expands|constructor].
Qed.
(** * Rules that can be resolved in two orders *)
Definition text4 : str := lit ".a{" ++ import_of ".b from /css/a.css" ++ lit "} .c{" ++ import_of ".b from /css/a.css" ++ lit "} .b{top:0;}".
(** * Two rules for one selector *)
Definition text3 : str := lit ".b{top:0;} .b{left:0;} .c{top:0;} .a{" ++ import_of ".c from /css/a.css" ++ lit "}".
Lemma fine3 : fine_text text3 = true. Proof. vm_compute. reflexivity. Qed.
Lemma twice : exists text r b, sheet (tokens text) (rules_of text) /\ imports_of (tokens text) = [r] /\ rule_of fo fstr hd ih sheet_path (project text) r b /\ imports_of b = [] /\
  (forall b', rule_of fo fstr hd ih sheet_path (project text) r b' -> b' = b) /\ build text = Raise ValueError.
Proof.
  exists text3, (sheet_path, lit ".c"), (snd (nth 2 (rules_of text3) ([], []))). split; [exact (proj2 (fine_sheet text3 fine3))|]. split; [vm_compute; reflexivity|]. split; [apply (own_rule text3 2 (lit ".c") _ fine3); vm_compute; reflexivity|]. split; [vm_compute; reflexivity|]. split; [|vm_compute; reflexivity].
  intros b' (ts & l & p & S & I & E). destruct (is_sheet_unique _ _ _ _ _ _ _ _ _ S (self_sheet text3 fine3)) as [-> ->]. clear S. assert (X : Forall (fun e => selector_of fstr (fst e) <> lit ".c" \/ snd e = snd (nth 2 (rules_of text3) ([], []))) (rules_of text3)) by (vm_compute; repeat (constructor; [first [right; reflexivity|left; discriminate]|]); constructor).
  rewrite Forall_forall in X. destruct (X _ I) as [N|H]; [contradiction (N E)|exact H].
Qed.
