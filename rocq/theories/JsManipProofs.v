(** The pipeline of a script, step by step. *)
From Verif Require Import Base Graph PyPath PyNorm Js Builder BuilderSpec BuilderProofs JsYield JsYieldProofs CssVersion JsManip JsManipSpec JsManipGrammar.
From Coq Require Import String ZArith NArith Bool List Lia.
Import ListNotations.
Open Scope list_scope.
Open Scope N_scope.

Definition is_newline_tok (t : jtok) : bool := match t with JNewline => true | _ => false end.
Definition after (i : istate) (t : jtok) : istate :=
  match t with
  | JImport => {| i_skip := false; i_seen := i_seen i |}
  | _ => if is_ignore t then {| i_skip := true; i_seen := i_seen i |} else i
  end.

Section Pipeline.
Context (cwd folder script : str) (read : str -> option str) (type_name : jtok -> str).
Notation resolve := (resolve cwd folder script).
Notation hash_file := (hash_file cwd).
Notation mark_bad := (mark_bad type_name).
Notation handle_import := (handle_import cwd folder script read type_name).
Notation hash_imports := (hash_imports cwd folder script read type_name).
Notation js_manips := (js_manips cwd folder script read type_name).
Definition good (p : str) : bool := local_path p && negb (queried p).
Definition path_hint (p : str) : str := if negb (local_path p) then lit "unexpected path format" else lit "path contains invalid characters".
Definition new_path (p hash : str) : str := snd (resolve p) ++ [63] ++ urlencode [(lit "v", hash); (lit "pv", PROCESSOR_VERSION)].
(** the state between two tokens when nobody has marked *)
Notation st := (fun (b : bool) (i : istate) => ((@Unmarked jtok bool, b), (@Unmarked jtok igen, i))).

(** building: [rw skip_line i ts out i' skip_line'] *)
Inductive rw : bool -> istate -> list jtok -> list jtok -> istate -> bool -> Prop :=
| RNil b i : rw b i [] [] i b
| RHint i seg e rest out i' b' : forallb (fun t => negb (is_line_end t)) seg = true -> is_line_end e = true -> existsb is_hint seg = true ->
    rw (negb (is_newline_tok e)) (after i (JComment (js_serialize_many seg))) rest out i' b' ->
    rw false i (seg ++ e :: rest) (JComment (js_serialize_many seg) :: e :: out) i' b'
| RPlain i seg e rest out i' b' : forallb (fun t => negb (is_line_end t)) seg = true -> is_line_end e = true -> seg <> [] -> existsb is_hint seg = false ->
    rw true i (seg ++ e :: rest) out i' b' -> rw false i (seg ++ e :: rest) out i' b'
| RBlank i e rest out i' b' : is_line_end e = true -> rw true i rest out i' b' -> rw false i (e :: rest) (e :: out) i' b'
| RPass i t rest out i' b' : t <> JImport \/ i_skip i = true -> rw (negb (is_newline_tok t)) (after i t) rest out i' b' -> rw true i (t :: rest) (t :: out) i' b'
| RGood i ts seg p rest hash out i' b' : i_skip i = false -> irun GImport ts = Some (seg, JString p, rest, Import p) -> good p = true ->
    read (hash_file (fst (resolve p))) = Some hash ->
    rw true {| i_skip := true; i_seen := set_add (fst (resolve p)) (i_seen i) |} (JImport :: seg ++ JString (new_path p hash) :: rest) out i' b' ->
    rw true i (JImport :: ts) out i' b'
| RBad i ts seg t rest o hint out i' b' : i_skip i = false -> irun GImport ts = Some (seg, t, rest, o) ->
    (o = Bad hint \/ exists p, o = Import p /\ good p = false /\ hint = path_hint p) ->
    rw true {| i_skip := false; i_seen := i_seen i |} ts out i' b' ->
    rw true i (JImport :: ts) (JComment (ignore_mark ++ [32] ++ hint ++ lit "; final token: " ++ type_name t) :: JImport :: out) i' b'.

(** * The steps of the two manipulators *)
Lemma th_declines b t o : b = true -> start_mark (lift_fst (B := ymanip_state (tok := jtok) (G := igen) (L := istate)) (yield_manip is_jeof (type_hints false))) t ((Unmarked, b), o) = Ret (false, ((Unmarked, negb (is_newline_tok t)), o)).
Proof. intros ->. cbn. destruct t; reflexivity. Qed.
Lemma hi_declines scan i t a : t <> JImport \/ i_skip i = true ->
  start_mark (lift_snd (A := ymanip_state (tok := jtok) (G := bool) (L := bool)) (yield_manip is_jeof (hash_imports scan))) t (a, (Unmarked, i)) = Ret (false, (a, (Unmarked, after i t))).
Proof.
  intros H. cbn. unfold y_start. cbn. unfold hi_start. destruct (i_skip i) eqn:E; cbn [negb andb].
  - destruct t; cbn; try reflexivity. destruct (starts_with ignore_mark v); [|reflexivity]. do 3 f_equal. f_equal. destruct i; cbn in *. subst. reflexivity.
  - destruct t; cbn; try reflexivity; [|destruct H as [H|H]; [contradiction|discriminate]]. destruct (starts_with ignore_mark v); reflexivity.
Qed.
Lemma declines i t : t <> JImport \/ i_skip i = true -> declined (js_manips false) t (st true i) (st (negb (is_newline_tok t)) (after i t)).
Proof. intros H. eapply DeclCons; [apply th_declines; reflexivity|]. eapply DeclCons; [apply hi_declines; exact H|]. constructor. Qed.
Lemma blank_declines i e : is_line_end e = true -> declined (js_manips false) e (st false i) (st true i).
Proof.
  intros H. eapply DeclCons; [|eapply DeclCons; [apply hi_declines; left; intros ->; discriminate|]]; [cbn; unfold y_start; cbn; unfold th_start, th_loop; rewrite H; reflexivity|].
  destruct e; try discriminate; constructor.
Qed.
(** a line *)
Lemma th_runs seg e : forallb (fun t => negb (is_line_end t)) seg = true -> is_line_end e = true -> forall g stack, stack <> [] ->
  runs is_jeof (type_hints false) g false stack (seg ++ [e])
    (if g || existsb is_hint seg then [JComment (js_serialize_many (stack ++ seg)); e] else stack ++ seg ++ [e]) (negb (g || existsb is_hint seg)).
Proof.
  intros Hs He. induction seg as [|t seg IH]; intros g stack Hn; cbn [app existsb].
  - rewrite orb_false_r, app_nil_r. destruct g; cbn [negb].
    + apply (RunEnd is_jeof (type_hints false) true e stack (Some [JComment (js_serialize_many stack); e]) false false). cbn. unfold th_loop. rewrite He. cbn. rewrite removelast_last, last_last. reflexivity.
    + apply (RunEnd is_jeof (type_hints false) false e stack None false true). cbn. unfold th_loop. rewrite He. reflexivity.
  - cbn in Hs. apply andb_true_iff in Hs. destruct Hs as (Ht & Hs). eapply RunMore with (g' := g || is_hint t) (l1 := false).
    + cbn. unfold th_loop. apply negb_true_iff in Ht. rewrite Ht. reflexivity.
    + destruct t; try discriminate; reflexivity.
    + specialize (IH Hs (g || is_hint t)%bool (stack ++ [t])). rewrite <- !app_assoc in IH. cbn [app] in IH. rewrite orb_assoc. apply IH. destruct stack; discriminate.
Qed.
Lemma line_marked i seg e : forallb (fun t => negb (is_line_end t)) seg = true -> is_line_end e = true -> seg <> [] ->
  exists t r m s1, seg = t :: r /\ marked (js_manips false) t (st false i) m s1 /\
    replaces m s1 (seg ++ [e]) (if existsb is_hint seg then [JComment (js_serialize_many seg); e] else seg ++ [e]) (st (negb (existsb is_hint seg)) i).
Proof.
  intros Hs He Hn. destruct seg as [|t r]; [contradiction|]. exists t, r. cbn in Hs. apply andb_true_iff in Hs. destruct Hs as (Ht & Hs). apply negb_true_iff in Ht.
  pose proof (th_runs r e Hs He (is_hint t) [t] ltac:(discriminate)) as HR. cbn [app] in HR.
  destruct (y_marks is_jeof (type_hints false) t false (is_hint t) false (r ++ [e]) _ _ ltac:(cbn; unfold th_start, th_loop; rewrite Ht; reflexivity) ltac:(destruct t; try discriminate; reflexivity) HR) as (s1 & H1 & H2).
  exists (lift_fst (yield_manip is_jeof (type_hints false))), (s1, (Unmarked, i)). split; [reflexivity|]. split.
  - apply MarkHere. cbn [start_mark lift_fst fst snd]. rewrite H1. reflexivity.
  - cbn [existsb app]. apply lift_fst_replaces. exact H2.
Qed.
(** an import *)
Lemma hi_runs scan ts : forall g i stack seg t rest o, irun g ts = Some (seg, t, rest, o) ->
  match o with
  | Wait _ => False
  | Bad hint => runs is_jeof (hash_imports scan) g i stack (seg ++ [t]) (mark_bad hint (stack ++ seg ++ [t])) i
  | Import p => forall d i', handle_import scan p (stack ++ seg ++ [t]) i = Ret (Done d, i') ->
      runs is_jeof (hash_imports scan) g i stack (seg ++ [t]) (match d with None => stack ++ seg ++ [t] | Some r => r end) i'
  end.
Proof.
  induction ts as [|x r IH]; intros g i stack seg t rest o; cbn [irun]; [discriminate|].
  assert (HE : forall g' s0 e q oo, irun g' r = Some (s0, e, q, oo) -> hi_send cwd folder script read type_name scan g x (stack ++ [x]) i = Ret (Yield g', i) -> is_jeof x = false ->
     match oo with Wait _ => False | Bad hint => runs is_jeof (hash_imports scan) g i stack ((x :: s0) ++ [e]) (mark_bad hint (stack ++ (x :: s0) ++ [e])) i
     | Import p => forall d i', handle_import scan p (stack ++ (x :: s0) ++ [e]) i = Ret (Done d, i') -> runs is_jeof (hash_imports scan) g i stack ((x :: s0) ++ [e]) (match d with None => stack ++ (x :: s0) ++ [e] | Some r => r end) i' end).
  { intros g' s0 e q oo E HS HX. specialize (IH g' i (stack ++ [x]) s0 e q oo E). rewrite <- !app_assoc in IH. cbn [app] in IH. destruct oo as [|p|hint]; [exact IH| |].
    - intros d i' HH. specialize (IH d i' HH). cbn [app]. eapply RunMore; [exact HS|exact HX|exact IH].
    - cbn [app]. eapply RunMore; [exact HS|exact HX|exact IH]. }
  destruct (is_blank x) eqn:B.
  - destruct (irun g r) as [[[[s0 e] q] oo]|] eqn:E; [|discriminate]. intros H. injection H as <- -> -> ->. apply (HE _ _ _ _ _ E); [|destruct x; try discriminate; reflexivity]. unfold hi_send. rewrite B. reflexivity.
  - destruct (advance g x) as [g'|p|hint] eqn:A.
    + destruct (irun g' r) as [[[[s0 e] q] oo]|] eqn:E; [|discriminate]. intros H. injection H as <- -> -> ->. apply (HE _ _ _ _ _ E); [unfold hi_send; rewrite B, A; reflexivity|]. destruct x; try reflexivity. exfalso. exact (eof_stops _ _ A).
    + intros H. injection H as <- -> -> <-. cbn [app]. intros d i' HH. apply (RunEnd is_jeof (hash_imports scan) g t stack d i i'). cbn. unfold hi_send. rewrite B, A. exact HH.
    + intros H. injection H as <- -> -> <-. cbn [app]. apply (RunEnd is_jeof (hash_imports scan) g t stack (Some (mark_bad hint (stack ++ [t]))) i i). cbn. unfold hi_send. rewrite B, A. reflexivity.
Qed.
Lemma import_marked i seg t r i' : i_skip i = false -> runs is_jeof (hash_imports false) GImport i [JImport] (seg ++ [t]) r i' ->
  exists m s1, marked (js_manips false) JImport (st true i) m s1 /\ replaces m s1 (JImport :: seg ++ [t]) r (st true i').
Proof.
  intros Hi HR. destruct (y_marks is_jeof (hash_imports false) JImport i GImport i (seg ++ [t]) _ _ ltac:(cbn; unfold hi_start; rewrite Hi; reflexivity) eq_refl HR) as (s1 & H1 & H2).
  exists (lift_snd (yield_manip is_jeof (hash_imports false))), ((Unmarked, true), s1). split.
  - eapply MarkLater; [apply (th_declines true); reflexivity|]. apply MarkHere. cbn [start_mark lift_snd fst snd is_newline_tok negb]. rewrite H1. reflexivity.
  - apply lift_snd_replaces. exact H2.
Qed.
Lemma ignore_mark_self v : is_ignore (JComment (ignore_mark ++ v)) = true.
Proof. cbn [is_ignore]. apply starts_with_iff. eauto. Qed.

Theorem rw_rewrites b i ts out i' b' : rw b i ts out i' b' -> rewrites (js_manips false) (st b i) ts out [] (st b' i').
Proof.
  induction 1 as [b i|i seg e rest out i' b' Hs He Hh _ IH|i seg e rest out i' b' Hs He Hn Hh _ IH|i e rest out i' b' He _ IH|i t rest out i' b' Ht _ IH|i ts seg p rest hash out i' b' Hi Hr Hg Hf _ IH|i ts seg t rest o hint out i' b' Hi Hr Ho _ IH].
  - constructor.
  - assert (Hn : seg <> []) by (intros ->; discriminate). destruct (line_marked i seg e Hs He Hn) as (t & r & m & s1 & -> & Hm & HR). rewrite Hh in HR. cbn [negb] in HR.
    set (c := JComment (js_serialize_many (t :: r))) in *.
    assert (Hc : is_hint c = false).
    { unfold c. apply existsb_exists in Hh. destruct Hh as (x & Hx & Hh). destruct x; try discriminate. cbn [is_hint] in *. destruct (str_eqb (strip (js_serialize_many (t :: r))) (lit "@@type-hint")) eqn:E; [|reflexivity]. exfalso.
      apply str_eqb_eq in E. assert (In 47 (strip (js_serialize_many (t :: r)))).
      { assert (HI : In 47 (js_serialize_many (t :: r))) by (apply in_flat_map; exists (JComment v); split; [exact Hx|left; reflexivity]).
        assert (HL : forall s, In 47 s -> In 47 (lstrip s)) by (induction s as [|a s IHs]; intros HH; [destruct HH|cbn; destruct (py_space a) eqn:Ea; [destruct HH as [->|HH]; [discriminate|auto]|exact HH]]).
        unfold strip. apply in_rev. rewrite rev_involutive. apply HL. apply in_rev. rewrite rev_involutive. apply HL. exact HI. }
      rewrite E in H. vm_compute in H. repeat destruct H as [H|H]; discriminate || contradiction. }
    change ((t :: r) ++ e :: rest) with (((t :: r) ++ [e]) ++ rest) || (replace ((t :: r) ++ e :: rest) with (((t :: r) ++ [e]) ++ rest) by (rewrite <- app_assoc; reflexivity)).
    cbn [app] in *. eapply RwMark; [exact Hm|exact HR|]. cbn [app].
    (* the comment is a line without a hint *)
    destruct (line_marked i [c] e eq_refl He ltac:(discriminate)) as (t2 & r2 & m2 & s2 & E2 & Hm2 & HR2). injection E2 as <- <-. cbn [existsb] in HR2. rewrite Hc in HR2. cbn [orb negb app] in HR2.
    eapply (RwMark _ c m2 _ _ [e] _ _ rest); [exact Hm2|exact HR2|]. cbn [app].
    eapply RwPass; [apply declines; left; discriminate|]. eapply RwPass; [apply declines; left; intros ->; discriminate|].
    replace (after (after i c) e) with (after i c) by (destruct e; try discriminate; reflexivity). exact IH.
  - destruct (line_marked i seg e Hs He Hn) as (t & r & m & s1 & -> & Hm & HR). rewrite Hh in HR. cbn [negb] in HR.
    replace ((t :: r) ++ e :: rest) with (((t :: r) ++ [e]) ++ rest) in * by (rewrite <- app_assoc; reflexivity). eapply RwMark; [exact Hm|exact HR|exact IH].
  - eapply RwPass; [apply blank_declines; exact He|exact IH].
  - eapply RwPass; [apply declines; exact Ht|exact IH].
  - pose proof (hi_runs false _ _ i [JImport] _ _ _ _ Hr) as HR. cbn beta iota in HR. destruct (irun_split _ _ _ _ _ _ Hr) as (-> & _).
    unfold good in Hg. apply andb_true_iff in Hg. destruct Hg as (Hg1 & Hg2). apply negb_true_iff in Hg2.
    specialize (HR (Some (JImport :: seg ++ [JString (new_path p hash)])) {| i_skip := true; i_seen := set_add (fst (resolve p)) (i_seen i) |}).
    assert (HH : handle_import false p ([JImport] ++ seg ++ [JString p]) i = Ret (Done (Some (JImport :: seg ++ [JString (new_path p hash)])), {| i_skip := true; i_seen := set_add (fst (resolve p)) (i_seen i) |})).
    { unfold JsManip.handle_import. rewrite Hg1, Hg2. cbn [negb]. unfold new_path. destruct (resolve p) as (root, path) eqn:E. cbn [fst snd] in *. rewrite Hf.
      replace (removelast ([JImport] ++ seg ++ [JString p])) with (JImport :: seg) by (rewrite app_assoc, removelast_last; reflexivity). reflexivity. }
    specialize (HR HH). destruct (import_marked _ _ _ _ _ Hi HR) as (m & s1 & Hm & HR2).
    replace (JImport :: seg ++ JString p :: rest) with ((JImport :: seg ++ [JString p]) ++ rest) by (cbn; rewrite <- app_assoc; reflexivity).
    eapply RwMark; [exact Hm|exact HR2|]. cbn [app]. rewrite <- app_assoc. exact IH.
  - set (c := JComment (ignore_mark ++ [32] ++ hint ++ lit "; final token: " ++ type_name t)).
    assert (HL : mark_bad hint ([JImport] ++ seg ++ [t]) = c :: JImport :: seg ++ [t]).
    { unfold JsManip.mark_bad. replace (last ([JImport] ++ seg ++ [t]) JEof) with t by (rewrite app_assoc, last_last; reflexivity). reflexivity. }
    assert (HR : runs is_jeof (hash_imports false) GImport i [JImport] (seg ++ [t]) (c :: JImport :: seg ++ [t]) i).
    { pose proof (hi_runs false _ _ i [JImport] _ _ _ _ Hr) as HR. rewrite <- HL. destruct Ho as [->|(p & -> & Hg & ->)]; [exact HR|]. cbn beta iota in HR.
      apply (HR (Some (mark_bad (path_hint p) ([JImport] ++ seg ++ [t]))) i). unfold JsManip.handle_import, path_hint. unfold good in Hg. destruct (local_path p); cbn [negb]; [|reflexivity]. apply andb_false_iff in Hg. destruct Hg as [Hg|Hg]; [discriminate|]. apply negb_false_iff in Hg. rewrite Hg. reflexivity. }
    destruct (import_marked _ _ _ _ _ Hi HR) as (m & s1 & Hm & HR2). destruct (irun_split _ _ _ _ _ _ Hr) as (-> & _).
    replace (JImport :: seg ++ t :: rest) with ((JImport :: seg ++ [t]) ++ rest) by (cbn; rewrite <- app_assoc; reflexivity).
    eapply RwMark; [exact Hm|exact HR2|]. cbn [app].
    eapply RwPass; [apply declines; left; discriminate|]. cbn [is_newline_tok negb].
    replace (after i c) with {| i_skip := true; i_seen := i_seen i |} by (unfold c, after; rewrite ignore_mark_self; reflexivity).
    eapply RwPass; [apply declines; right; reflexivity|]. cbn [is_newline_tok negb after i_seen]. rewrite <- app_assoc. exact IH.
Qed.

(** * Every stream is rewritten, unless a hash is missing *)
Definition missing (ts : list jtok) : Prop :=
  exists a ts0 seg p rest, ts = a ++ JImport :: ts0 /\ irun GImport ts0 = Some (seg, JString p, rest, Import p) /\ good p = true /\ read (hash_file (fst (resolve p))) = None.
Lemma missing_app x ts : missing ts -> missing (x ++ ts).
Proof. intros (a & ts0 & seg & p & rest & -> & H). exists (x ++ a), ts0, seg, p, rest. rewrite <- app_assoc. auto. Qed.
Lemma split_after {A} (x : A) : forall u a c v, ~ In x u -> a ++ x :: c = u ++ v -> exists a', v = a' ++ x :: c.
Proof.
  induction u as [|y u IH]; intros a c v Hn H; [exists a; symmetry; exact H|]. destruct a as [|z a]; cbn in H; injection H as -> H; [exfalso; apply Hn; left; reflexivity|].
  apply (IH a); [intros X; apply Hn; right; exact X|exact H].
Qed.
Lemma inside_not seg t : forallb inside seg = true -> inside t = false -> ~ In t seg.
Proof. intros H Ht HI. rewrite forallb_forall in H. rewrite (H _ HI) in Ht. discriminate. Qed.
Lemma new_path_bad p hash : good (new_path p hash) = false.
Proof.
  unfold good, new_path. apply andb_false_iff. right. apply negb_false_iff. unfold queried. apply existsb_exists. exists 63. split; [|reflexivity]. apply in_or_app. right. left. reflexivity.
Qed.
Lemma irun_replace ts seg p rest q rest' : irun GImport ts = Some (seg, JString p, rest, Import p) -> irun GImport (seg ++ JString q :: rest') = Some (seg, JString q, rest', Import q).
Proof. intros H. destruct (irun_sound _ _ _ _ _ _ H) as (_ & l & Hs & Hl). apply (irun_complete _ _ Hs). exact Hl. Qed.
Lemma missing_replace ts seg p rest hash : irun GImport ts = Some (seg, JString p, rest, Import p) ->
  missing (JImport :: seg ++ JString (new_path p hash) :: rest) -> missing (JImport :: ts).
Proof.
  intros Hr (a & ts0 & seg2 & p2 & rest2 & E & H1 & H2 & H3). destruct a as [|x a]; cbn in E; injection E as E.
  - subst ts0. rewrite (irun_replace _ _ _ _ _ _ Hr) in H1. injection H1 as <- <- <-. rewrite new_path_bad in H2. discriminate.
  - destruct (irun_split _ _ _ _ _ _ Hr) as (-> & _). destruct (split_after JImport (seg ++ [JString (new_path p hash)]) a ts0 rest) as (a' & ->).
    + intros X. apply in_app_iff in X. destruct X as [X|[X|[]]]; [|discriminate]. revert X. apply inside_not; [exact (irun_inside _ _ _ _ _ _ Hr)|reflexivity].
    + rewrite <- app_assoc. symmetry. exact H.
    + exists (JImport :: seg ++ JString p :: a'), ts0, seg2, p2, rest2. split; [cbn; rewrite <- app_assoc; reflexivity|auto].
Qed.
Definition closed (ts : list jtok) : Prop := ts = [] \/ exists b, ts = b ++ [JEof].
Lemma closed_suffix a ts : closed (a ++ ts) -> closed ts.
Proof using Type.
  intros [H|(b & H)]; [apply app_eq_nil in H; left; exact (proj2 H)|]. assert (Hd : ts = [] \/ ts <> []) by (destruct ts; [left; reflexivity|right; discriminate]). destruct Hd as [->|Hn]; [left; reflexivity|].
  right. destruct (exists_last Hn) as (l & x & ->). rewrite app_assoc in H. apply app_inj_tail in H. destruct H as (_ & ->). exists l. reflexivity.
Qed.
Lemma first_line ts : closed ts -> ts <> [] -> exists seg e rest, ts = seg ++ e :: rest /\ forallb (fun t => negb (is_line_end t)) seg = true /\ is_line_end e = true.
Proof.
  intros [H|(b & ->)] Hn; [contradiction|]. clear Hn. induction b as [|x b IH]; [exists [], JEof, []; auto|]. destruct (is_line_end x) eqn:E; [exists [], x, (b ++ [JEof]); auto|].
  destruct IH as (seg & e & rest & E2 & H1 & H2). exists (x :: seg), e, rest. cbn [app forallb]. rewrite E, E2. auto.
Qed.
Theorem rw_total : forall n (b : bool) (i : istate) (ts : list jtok), (3 * length ts + (if b then 0 else 1) + (if i_skip i then 0 else 1) <= n)%nat -> closed ts ->
  (exists out i' b', rw b i ts out i' b') \/ missing ts.
Proof.
  induction n as [n IH] using lt_wf_ind. intros b i ts Hn Hc. destruct ts as [|t0 ts0]; [left; do 3 eexists; constructor|]. destruct b.
  - assert (Hc0 : closed ts0) by (apply (closed_suffix [t0]); exact Hc). destruct (match t0 with JImport => negb (i_skip i) | _ => false end) eqn:Ec.
    + destruct t0; try discriminate. apply negb_true_iff in Ec. destruct (irun GImport ts0) as [[[[seg t] rest] o]|] eqn:Er.
      * destruct (irun_split _ _ _ _ _ _ Er) as (Ets & Hw).
        assert (HB : forall hint, (o = Bad hint \/ exists p, o = Import p /\ good p = false /\ hint = path_hint p) -> (exists out i' b', rw true i (JImport :: ts0) out i' b') \/ missing (JImport :: ts0)).
        { intros hint Ho. destruct (IH (3 * length ts0 + 1)%nat ltac:(cbn in Hn; lia) true {| i_skip := false; i_seen := i_seen i |} ts0 ltac:(cbn; lia) Hc0) as [(out & i' & b' & H)|H].
          - left. do 3 eexists. eapply RBad; eassumption.
          - right. apply (missing_app [JImport]). exact H. }
        destruct o as [g|p|hint]; [exfalso; exact (Hw g eq_refl)| |apply (HB hint); left; reflexivity].
        destruct (good p) eqn:Eg; [|apply (HB (path_hint p)); right; eauto].
        destruct (irun_sound _ _ _ _ _ _ Er) as (-> & _).
        destruct (read (hash_file (fst (resolve p)))) as [hash|] eqn:Ef; [|right; exists [], ts0, seg, p, rest; auto].
        destruct (IH (3 * length (JImport :: ts0))%nat ltac:(rewrite Ec in Hn; lia) true {| i_skip := true; i_seen := set_add (fst (resolve p)) (i_seen i) |} (JImport :: seg ++ JString (new_path p hash) :: rest)) as [(out & i' & b' & H)|H].
        { rewrite Ets. cbn. rewrite !app_length. cbn. lia. }
        { rewrite Ets in Hc0. destruct (closed_suffix (seg ++ [JString p]) rest) as [->|(bb & ->)]; [rewrite <- app_assoc; exact Hc0| |].
          - exfalso. destruct Hc0 as [H|(q & H)]; [destruct seg; discriminate|]. apply app_inj_tail in H. destruct H. discriminate.
          - right. exists (JImport :: seg ++ JString (new_path p hash) :: bb). cbn. rewrite <- app_assoc. reflexivity. }
        { left. do 3 eexists. eapply RGood; eassumption. }
        { right. eapply missing_replace; eassumption. }
      * exfalso. destruct Hc0 as [->|(bb & ->)]; [destruct Hc as [H|(q & H)]; [discriminate|destruct q as [|? [|]]; discriminate]|]. revert Er. apply irun_total. eauto.
    + assert (Hp : t0 <> JImport \/ i_skip i = true) by (destruct t0; try (left; discriminate); right; destruct (i_skip i); [reflexivity|discriminate]).
      destruct (IH (3 * length ts0 + 2)%nat ltac:(cbn in Hn; lia) (negb (is_newline_tok t0)) (after i t0) ts0) as [(out & i' & b' & H)|H].
      { destruct (negb (is_newline_tok t0)), (i_skip (after i t0)); lia. }
      { exact Hc0. }
      { left. do 3 eexists. eapply RPass; eassumption. }
      { right. apply (missing_app [t0]). exact H. }
  - destruct (first_line _ Hc ltac:(discriminate)) as (seg & e & rest & E & Hs & He). rewrite E in *. assert (Hc1 : closed rest) by (apply (closed_suffix (seg ++ [e])); rewrite <- app_assoc; exact Hc).
    rewrite app_length in Hn. cbn in Hn. destruct seg as [|t1 seg].
    + destruct (IH (3 * length rest + 2)%nat ltac:(lia) true i rest) as [(out & i' & b' & H)|H]; [destruct (i_skip i); lia|exact Hc1|left; do 3 eexists; apply RBlank; eassumption|right; apply (missing_app [e]); exact H].
    + destruct (existsb is_hint (t1 :: seg)) eqn:Eh.
      * destruct (IH (3 * length rest + 2)%nat ltac:(cbn in Hn; lia) (negb (is_newline_tok e)) (after i (JComment (js_serialize_many (t1 :: seg)))) rest) as [(out & i' & b' & H)|H]; [destruct (negb (is_newline_tok e)), (i_skip (after i (JComment (js_serialize_many (t1 :: seg))))); lia|exact Hc1|left; do 3 eexists; apply RHint; eassumption|].
        right. replace ((t1 :: seg) ++ e :: rest) with (((t1 :: seg) ++ [e]) ++ rest) by (rewrite <- app_assoc; reflexivity). apply missing_app. exact H.
      * destruct (IH (3 * length ((t1 :: seg) ++ e :: rest) + (if i_skip i then 0 else 1))%nat ltac:(rewrite app_length; cbn in *; destruct (i_skip i); lia) true i ((t1 :: seg) ++ e :: rest)) as [(out & i' & b' & H)|H]; [lia|exact Hc| |right; exact H].
        left. do 3 eexists. eapply RPlain; try eassumption. discriminate.
Qed.
End Pipeline.
