(** The run over a script depends only on the hash files of the imported scripts. *)
From Verif Require Import Base Graph PyPath PyNorm Js Builder BuilderProofs CssVersion JsYield JsManip JsManipSpec JsManipProofs JsManipMain Handlers Hot Project ProjectPump.
From Coq Require Import String ZArith NArith Bool List.
Import ListNotations.
Open Scope list_scope.

Notation jst := (ymanip_state (tok := jtok) (G := bool) (L := bool) * ymanip_state (tok := jtok) (G := igen) (L := istate))%type.
Definition seen (s : jst) : list str := i_seen (snd (snd s)).

Section Run.
Context (cwd folder script : str) (read read2 : str -> option str) (type_name : jtok -> str).
Notation ms := (js_manips cwd folder script read type_name false).
Notation ms2 := (js_manips cwd folder script read2 type_name false).
Definition rooted (x : str) : Prop := read (hash_file cwd x) <> None /\ exists p, x = fst (resolve cwd folder script p).
Definition readable (s : jst) : Prop := forall x, In x (seen s) -> rooted x.
Definition agree (s : jst) : Prop := forall x, In x (seen s) -> read2 (hash_file cwd x) = read (hash_file cwd x).
Definition grows (s s' : jst) : Prop := (forall x, In x (seen s) -> In x (seen s')) /\ (readable s -> readable s').
Notation pairs := (pairs ms ms2).
Lemma grows_refl s : grows s s.
Proof. split; auto. Qed.
Lemma grows_trans a b c : grows a b -> grows b c -> grows a c.
Proof. intros (A & A2) (B & B2). split; auto. Qed.
Lemma grows_same s s' : seen s' = seen s -> grows s s'.
Proof. intros E. unfold grows, readable. rewrite E. auto. Qed.
Lemma agree_back s s' : grows s s' -> agree s' -> agree s.
Proof. intros (G & _) A x H. apply A, G, H. Qed.

Lemma import_step p stack i r i' : handle_import cwd folder script read type_name false p stack i = Ret (r, i') ->
  (forall x, In x (i_seen i) -> In x (i_seen i')) /\ ((forall x, In x (i_seen i) -> rooted x) -> forall x, In x (i_seen i') -> rooted x) /\
  ((forall x, In x (i_seen i') -> read2 (hash_file cwd x) = read (hash_file cwd x)) -> handle_import cwd folder script read2 type_name false p stack i = Ret (r, i')).
Proof.
  unfold handle_import. destruct (local_path p); cbn [negb]; [|intros H; injection H as <- <-; auto]. destruct (JsManip.queried p); [intros H; injection H as <- <-; auto|].
  destruct (resolve cwd folder script p) as [root path] eqn:Eres. destruct (read (hash_file cwd root)) as [hash|] eqn:E; [|discriminate]. intros H. injection H as <- <-. cbn [i_seen].
  split; [intros x Hx; apply set_add_in; auto|]. split; [intros Hr x Hx; apply (proj1 (set_add_in cwd read x root (i_seen i))) in Hx; destruct Hx as [->|Hx]; [split; [congruence|exists p; rewrite Eres; reflexivity]|auto]|].
  intros Ha. rewrite (Ha root) by (apply set_add_in; auto). rewrite E. reflexivity.
Qed.
Lemma send_step g t stack i r i' : hi_send cwd folder script read type_name false g t stack i = Ret (r, i') ->
  (forall x, In x (i_seen i) -> In x (i_seen i')) /\ ((forall x, In x (i_seen i) -> rooted x) -> forall x, In x (i_seen i') -> rooted x) /\
  ((forall x, In x (i_seen i') -> read2 (hash_file cwd x) = read (hash_file cwd x)) -> hi_send cwd folder script read2 type_name false g t stack i = Ret (r, i')).
Proof.
  unfold hi_send. destruct (is_blank t); [intros H; injection H as <- <-; auto|]. destruct (advance g t); [intros H; injection H as <- <-; auto|apply import_step|intros H; injection H as <- <-; auto].
Qed.
Lemma start_step m m2 t s : pairs m m2 -> start_mark m2 t s = start_mark m t s /\ forall r s', start_mark m t s = Ret (r, s') -> grows s s'.
Proof.
  intros [H|[H|[]]]; injection H as <- <-; (split; [reflexivity|]); intros r s'; cbn [start_mark lift_fst lift_snd yield_manip].
  - destruct (y_start is_jeof (type_hints false) t (fst s)) as [[b a]|] eqn:E; [|discriminate]. intros H. injection H as <- <-. apply grows_same. reflexivity.
  - destruct (y_start is_jeof (hash_imports cwd folder script read type_name false) t (snd s)) as [[b a]|] eqn:E; [|discriminate]. intros H. injection H as <- <-. apply grows_same. unfold seen. cbn [snd].
    unfold y_start in E. destruct (fst (snd s)); try discriminate. cbn [h_start hash_imports] in E. unfold hi_start in E.
    destruct (negb (i_skip (snd (snd s))) && is_ignore t); [injection E as <- <-; reflexivity|]. destruct t; try (injection E as <- <-; reflexivity). destruct (i_skip (snd (snd s))); injection E as <- <-; reflexivity.
Qed.
Lemma continue_step m m2 t s r s' : pairs m m2 -> continue_mark m t s = Ret (r, s') -> grows s s' /\ (agree s' -> continue_mark m2 t s = Ret (r, s')).
Proof.
  intros [H|[H|[]]]; injection H as <- <-; cbn [continue_mark lift_fst lift_snd yield_manip].
  - destruct (y_continue is_jeof (type_hints false) t (fst s)) as [[b a]|] eqn:E; [|discriminate]. intros H. injection H as <- <-. split; [apply grows_same; reflexivity|reflexivity].
  - destruct (y_continue is_jeof (hash_imports cwd folder script read type_name false) t (snd s)) as [[b a]|] eqn:E; [|discriminate]. intros H. injection H as <- <-. unfold agree, grows, readable, seen. cbn [snd].
    unfold y_continue in E |- *. destruct (snd s) as [y i]. cbn [fst snd] in *. destruct y as [|st|st g|st g]; [discriminate|injection E as <- <-; auto|injection E as <- <-; auto|]. cbn [h_send hash_imports] in *.
    destruct (hi_send cwd folder script read type_name false g t (st ++ [t]) i) as [[x i']|] eqn:Eh; [|discriminate]. destruct (send_step g t (st ++ [t]) i x i' Eh) as (A & B & C).
    assert (X : snd a = i') by (repeat match type of E with context [match ?y with _ => _ end] => destruct y end; try discriminate; injection E as <- <-; reflexivity).
    rewrite X. split; [split; assumption|]. intros Ha. rewrite (C Ha). rewrite E. reflexivity.
Qed.
Notation any := (fun (_ : manip jtok jst) (_ : jtok) (_ : jst) => True).
Lemma start_any m m2 t s : pairs m m2 -> start_mark m2 t s = start_mark m t s /\ forall r s', start_mark m t s = Ret (r, s') -> grows s s' /\ (r = true -> any m t s').
Proof. intros H. destruct (start_step m m2 t s H) as (A & B). split; [exact A|]. intros r s' E. split; [exact (B r s' E)|auto]. Qed.
Lemma continue_any m m2 t s r s' : pairs m m2 -> any m t s -> continue_mark m t s = Ret (r, s') -> grows s s' /\ (r = None -> forall t', any m t' s') /\ (agree s' -> continue_mark m2 t s = Ret (r, s')).
Proof. intros H _ E. destruct (continue_step m m2 t s r s' H E) as (A & B). split; [exact A|]. split; [auto|exact B]. Qed.
Lemma js_grows f ts out b : pump ms f ts (new_builder js_init) = Ret (out, b) -> readable (b_st b).
Proof.
  intros H. pose proof (pump_grows ms ms2 grows agree any grows_refl grows_trans eq_refl start_any continue_any f ts _ _ _ H (new_held _ _ _ _)) as (_ & G). apply G. intros x [].
Qed.
Lemma js_step f ts out b : pump ms f ts (new_builder js_init) = Ret (out, b) -> agree (b_st b) -> exists b2, pump ms2 f ts (new_builder js_init) = Ret (out, b2) /\ b_st b2 = b_st b.
Proof.
  intros H Ha. destruct (pump_step ms ms2 grows agree any grows_refl grows_trans agree_back eq_refl start_any continue_any f ts _ _ _ _ H (new_alike _ _ _ _) Ha) as (b2 & E & (_ & B & _)). eauto.
Qed.
End Run.

Section JsRun.
Context (K : setting).
Notation run := (js_run K).
Notation cwd := (k_cwd K).
Notation folder := (k_folder K).
Lemma run_reads p s out l s2 : run false p s = Some (out, l) -> s2 p = s p -> (forall x, In x l -> s2 (hash_file cwd x) = s (hash_file cwd x)) -> run false p s2 = Some (out, l).
Proof.
  unfold js_run. intros H -> Ha. destruct (s p) as [text|]; [|discriminate]. destruct (js_tokenize text) as [ts|]; [|discriminate].
  destruct (pump (js_manips cwd folder p s (k_type_name K) false) (k_fuel K) ts (new_builder js_init)) as [[o b]|] eqn:E; [|discriminate]. injection H as <- <-.
  destruct (js_step cwd folder p s s2 (k_type_name K) (k_fuel K) ts o b E Ha) as (b2 & E2 & B2). rewrite E2, B2. reflexivity.
Qed.
Lemma run_readable p s out l : run false p s = Some (out, l) -> forall x, In x l -> s (hash_file cwd x) <> None /\ exists i, x = fst (resolve cwd folder p i).
Proof.
  unfold js_run. intros H. destruct (s p) as [text|]; [|discriminate]. destruct (js_tokenize text) as [ts|]; [|discriminate].
  destruct (pump (js_manips cwd folder p s (k_type_name K) false) (k_fuel K) ts (new_builder js_init)) as [[o b]|] eqn:E; [|discriminate]. injection H as <- <-.
  exact (js_grows cwd folder p s s (k_type_name K) (k_fuel K) ts o b E).
Qed.
End JsRun.
