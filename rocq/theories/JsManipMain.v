(** C29 and C30 from the steps of the pipeline. *)
From Verif Require Import Base Graph PyPath PyNorm Js Builder BuilderSpec BuilderProofs JsYield JsYieldProofs CssVersion JsManip JsManipSpec JsManipGrammar JsManipProofs.
From Coq Require Import String ZArith NArith Bool List Lia.
Import ListNotations.
Open Scope list_scope.
Open Scope N_scope.

(** * Words of the specification *)
Lemma line_end_iff t : is_line_end t = true <-> line_end t.
Proof. unfold line_end. destruct t; cbn; split; intros H; try discriminate; auto; destruct H; discriminate. Qed.
Lemma one_line_iff seg : forallb (fun t => negb (is_line_end t)) seg = true <-> one_line seg.
Proof.
  unfold one_line. rewrite forallb_forall, Forall_forall. split; intros H x Hx; specialize (H x Hx).
  - rewrite <- line_end_iff. apply negb_true_iff in H. congruence.
  - apply negb_true_iff. rewrite <- line_end_iff in H. destruct (is_line_end x); [exfalso; apply H; reflexivity|reflexivity].
Qed.
Lemma lstrip_split s : exists a, s = a ++ lstrip s /\ Forall (fun c => py_space c = true) a.
Proof. induction s as [|c s (a & E & F)]; [exists []; auto|]. cbn. destruct (py_space c) eqn:P; [exists (c :: a); split; [cbn; congruence|constructor; auto]|exists []; auto]. Qed.
Lemma lstrip_app a s : Forall (fun c => py_space c = true) a -> lstrip (a ++ s) = lstrip s.
Proof. induction 1 as [|c a H _ IH]; [reflexivity|]. cbn. rewrite H. exact IH. Qed.
Lemma strip_iff v w : strip v = w -> exists a b, v = a ++ w ++ b /\ Forall (fun c => py_space c = true) a /\ Forall (fun c => py_space c = true) b.
Proof.
  unfold strip. intros <-. destruct (lstrip_split v) as (a & E & F). destruct (lstrip_split (rev (lstrip v))) as (b & E2 & F2).
  exists a, (rev b). split; [|split; [exact F|apply Forall_rev; exact F2]]. rewrite <- rev_app_distr, <- E2, rev_involutive. exact E.
Qed.
Lemma is_hint_iff v : is_hint (JComment v) = true <-> hint_text v.
Proof.
  cbn [is_hint]. rewrite str_eqb_eq. unfold hint_text. split; [apply strip_iff|].
  intros (a & b & -> & Fa & Fb). unfold strip. rewrite (lstrip_app a _ Fa). change (lstrip (lit "@@type-hint" ++ b)) with (lit "@@type-hint" ++ b).
  rewrite rev_app_distr, lstrip_app by (apply Forall_rev; exact Fb). reflexivity.
Qed.
Lemma hinted_iff seg : existsb is_hint seg = true <-> hinted seg.
Proof.
  rewrite existsb_exists. unfold hinted. split.
  - intros (t & Ht & H). destruct t; try discriminate. exists v. split; [exact Ht|apply is_hint_iff; exact H].
  - intros (v & Hv & H). exists (JComment v). split; [exact Hv|apply is_hint_iff; exact H].
Qed.
Lemma is_ignore_iff t : is_ignore t = true <-> ignores t.
Proof. unfold ignores. destruct t; cbn [is_ignore]; try (split; [discriminate|intros (w & H); discriminate]). rewrite starts_with_iff. split; intros (w & H); exists w; [rewrite H; reflexivity|injection H as ->; reflexivity]. Qed.
Lemma good_iff p : good p = true <-> good_path p.
Proof.
  unfold good, good_path. rewrite andb_true_iff, negb_true_iff. unfold local_path, local. rewrite !orb_true_iff, !starts_with_iff. unfold queried.
  assert (Hq : existsb (fun c => (c =? 63) || (c =? 35)) p = false <-> ~ In 63 p /\ ~ In 35 p).
  { split.
    - intros H. split; intros X; (enough (existsb (fun c => (c =? 63) || (c =? 35)) p = true) by congruence); apply existsb_exists; [exists 63|exists 35]; auto.
    - intros (H1 & H2). destruct (existsb _ p) eqn:E; [|reflexivity]. apply existsb_exists in E. destruct E as (c & Hc & E). apply orb_true_iff in E. rewrite !N.eqb_eq in E. destruct E; subst; contradiction. }
  rewrite Hq. split; intros (H & H1); (split; [|exact H1]).
  - destruct H as [[(r & H)|(r & H)]|(r & H)]; exists r; auto.
  - destruct H as (r & [H|[H|H]]); [left; left|left; right|right]; exists r; exact H.
Qed.
Lemma good_import_iff ts body p rest : good_import ts body p rest <-> irun GImport ts = Some (body, JString p, rest, Import p) /\ good p = true.
Proof. unfold good_import. rewrite irun_import, good_iff. reflexivity. Qed.
Lemma no_good_import ts seg t rest o hint : irun GImport ts = Some (seg, t, rest, o) -> (o = Bad hint \/ exists p, o = Import p /\ good p = false /\ hint = path_hint p) -> ~ exists body p rest', good_import ts body p rest'.
Proof. intros H Ho (body & p & rest' & HG). apply good_import_iff in HG. destruct HG as (HG & Hp). rewrite H in HG. injection HG as -> -> -> ->. destruct Ho as [Ho|(q & Ho & Hq & _)]; [discriminate|]. injection Ho as ->. congruence. Qed.
Lemma flag_after i t : flag (i_skip i) t (i_skip (after i t)).
Proof.
  destruct t; try (apply FlOther; [discriminate|intros (w & H); discriminate]); [|apply FlImport]. cbn [after]. destruct (is_ignore (JComment v)) eqn:E; cbn [i_skip].
  - apply FlMark. apply is_ignore_iff. exact E.
  - apply FlOther; [discriminate|]. rewrite <- is_ignore_iff. congruence.
Qed.
Lemma flag_fun b t b1 b2 : flag b t b1 -> flag b t b2 -> b1 = b2.
Proof. intros H1 H2. inversion H1; inversion H2; subst; try reflexivity; try congruence; try contradiction; match goal with H : ignores JImport |- _ => destruct H; discriminate end. Qed.
Lemma inside_flag b t : inside t = true -> t <> JImport /\ flag b t b.
Proof. intros H. split; [intros ->; discriminate|]. apply FlOther; [intros ->; discriminate|intros (w & ->); discriminate]. Qed.

Section Main.
Context (cwd folder script : str) (read : str -> option str) (type_name : jtok -> str).
Notation resolve := (resolve cwd folder script).
Notation rw := (rw cwd folder script read type_name).
Definition target (p : str) : str := fst (resolve p).
Definition version (p : str) : option str := option_map (new_path cwd folder script p) (read (hash_file cwd (target p))).
Notation edited := (edited version).
Notation imported := (imported target).

Lemma edited_inside seg : forallb inside seg = true -> forall b ts out, edited b (seg ++ ts) out -> exists out', out = seg ++ out' /\ edited b ts out'.
Proof.
  induction seg as [|t seg IH]; intros H b ts out HE; [exists out; auto|]. cbn in H. apply andb_true_iff in H. destruct H as (Ht & H). destruct (inside_flag b t Ht) as (Hn & Hf).
  inversion HE; subst; try discriminate Ht. rewrite (flag_fun _ _ _ _ Hf ltac:(eassumption)) in *. destruct (IH H _ _ _ ltac:(eassumption)) as (out' & -> & HE2). exists out'. auto.
Qed.
Lemma imported_inside seg : forallb inside seg = true -> forall b ts x, imported b (seg ++ ts) x <-> imported b ts x.
Proof.
  induction seg as [|t seg IH]; intros H b ts x; [reflexivity|]. cbn in H. apply andb_true_iff in H. destruct H as (Ht & H). destruct (inside_flag b t Ht) as (Hn & Hf). rewrite <- (IH H b ts x). cbn [app]. split; intros HE.
  - inversion HE; subst; try discriminate Ht. rewrite (flag_fun _ _ _ _ Hf ltac:(eassumption)). assumption.
  - eapply ImLater; [left; exact Hn|exact Hf|exact HE].
Qed.
Lemma string_flag b p : flag b (JString p) b.
Proof. apply FlOther; [discriminate|intros (w & H); discriminate]. Qed.
Lemma edited_string b p ts out : edited b (JString p :: ts) out -> exists out', out = JString p :: out' /\ edited b ts out'.
Proof. intros H. inversion H; subst. rewrite (flag_fun _ _ _ _ (string_flag b p) ltac:(eassumption)) in *. eauto. Qed.
Lemma imported_string b p ts x : imported b (JString p :: ts) x <-> imported b ts x.
Proof. split; intros H; [inversion H; subst; rewrite (flag_fun _ _ _ _ (string_flag b p) ltac:(eassumption)) in *; assumption|eapply ImLater; [left; discriminate|apply string_flag|exact H]]. Qed.
Lemma imported_pass i t ts x : t <> JImport \/ i_skip i = true -> (imported (i_skip i) (t :: ts) x <-> imported (i_skip (after i t)) ts x).
Proof.
  intros Ht. split; intros H; [|eapply ImLater; [exact Ht|apply flag_after|exact H]].
  inversion H; subst; try (destruct Ht; congruence). rewrite (flag_fun _ _ _ _ (flag_after i t) ltac:(eassumption)). assumption.
Qed.
Lemma after_seen i t : i_seen (after i t) = i_seen i.
Proof. unfold after. destruct t; try reflexivity. destruct (is_ignore _); reflexivity. Qed.
Lemma import_unique ts b p r b2 p2 r2 : good_import ts b p r -> good_import ts b2 p2 r2 -> b2 = b /\ p2 = p /\ r2 = r.
Proof. rewrite !good_import_iff. intros (H & _) (H2 & _). rewrite H in H2. injection H2 as -> -> ->. auto. Qed.
Lemma imported_good ts body p rest x : good_import ts body p rest -> (imported false (JImport :: ts) x <-> x = target p \/ imported false rest x).
Proof.
  intros HG. split.
  - intros H. inversion H; subst.
    + destruct (import_unique _ _ _ _ _ _ _ HG ltac:(eassumption)) as (-> & -> & ->). left; reflexivity.
    + match goal with H : _ \/ false = true |- _ => destruct H; congruence end.
    + destruct (import_unique _ _ _ _ _ _ _ HG ltac:(eassumption)) as (-> & -> & ->). right; assumption.
    + exfalso. match goal with H : ~ _ |- _ => apply H end. eauto.
  - intros [->|H]; [eapply ImHere; exact HG|eapply ImAfter; eassumption].
Qed.
Lemma imported_bad ts x : (~ exists body p rest, good_import ts body p rest) -> (imported false (JImport :: ts) x <-> imported false ts x).
Proof.
  intros HB. split; [|apply ImBad; exact HB]. intros H. inversion H; subst; try (exfalso; apply HB; eauto; fail).
  - match goal with H : _ \/ false = true |- _ => destruct H; congruence end.
  - assumption.
Qed.
Lemma set_add_in x y l : In x (set_add y l) <-> x = y \/ In x l.
Proof.
  unfold set_add. destruct (mem y l) eqn:E; [|rewrite in_app_iff; cbn; intuition congruence].
  split; [auto|]. intros [->|H]; [|exact H]. apply mem_In. exact E.
Qed.

(** building a script without hints *)
Theorem rw_edited b i ts out i' b' : rw b i ts out i' b' -> (forall v, In (JComment v) ts -> ~ hint_text v) ->
  edited (i_skip i) ts out /\ forall x, In x (i_seen i') <-> In x (i_seen i) \/ imported (i_skip i) ts x.
Proof.
  assert (HN : forall l, (forall v, In (JComment v) l -> ~ hint_text v) -> existsb is_hint l = true -> False).
  { intros l Hl H. apply hinted_iff in H. destruct H as (v & Hv & H). exact (Hl v Hv H). }
  induction 1 as [b i|i seg e rest out i' b' Hs He Hh _ IH|i seg e rest out i' b' Hs He Hn Hh _ IH|i e rest out i' b' He _ IH|i t rest out i' b' Ht _ IH|i ts seg p rest hash out i' b' Hi Hr Hg Hf _ IH|i ts seg t rest o hint out i' b' Hi Hr Ho _ IH]; intros Hv.
  - split; [constructor|]. intros x. split; [auto|]. intros [H|H]; [exact H|inversion H].
  - exfalso. apply (HN seg); [intros v X; apply Hv; apply in_or_app; left; exact X|exact Hh].
  - apply IH. exact Hv.
  - destruct IH as (IH1 & IH2); [intros v X; apply Hv; right; exact X|]. assert (Ha : after i e = i) by (destruct e; try discriminate; reflexivity). assert (Hne : e <> JImport) by (intros ->; discriminate).
    pose proof (flag_after i e) as Hfl. rewrite Ha in Hfl. split; [eapply EdPass; [left; exact Hne|exact Hfl|exact IH1]|]. intros x. rewrite IH2, imported_pass by (left; exact Hne). rewrite Ha. reflexivity.
  - destruct IH as (IH1 & IH2); [intros v X; apply Hv; right; exact X|]. split; [eapply EdPass; [exact Ht|apply flag_after|exact IH1]|]. intros x. rewrite IH2, imported_pass, after_seen by exact Ht. reflexivity.
  - destruct (irun_split _ _ _ _ _ _ Hr) as (Ets & _). pose proof (irun_inside _ _ _ _ _ _ Hr) as Hin. destruct IH as (IH1 & IH2).
    { intros v X. apply Hv. rewrite Ets. destruct X as [X|X]; [discriminate|]. right. apply in_app_iff in X. apply in_or_app. destruct X as [X|[X|X]]; [left; exact X|discriminate|right; right; exact X]. }
    cbn [i_skip i_seen] in *. rewrite Hi. assert (HG : good_import ts seg p rest) by (apply good_import_iff; auto). split.
    + inversion IH1 as [|? ? b1 ? out1 Hp Hfl HE| |]; subst; inversion Hfl; subst; try congruence; [|match goal with H : ignores JImport |- _ => destruct H; discriminate end].
      destruct (edited_inside _ Hin _ _ _ HE) as (o2 & -> & HE2). destruct (edited_string _ _ _ _ HE2) as (o3 & -> & HE3). eapply EdImport; [exact HG| |exact HE3]. unfold version, target. rewrite Hf. reflexivity.
    + intros x. rewrite IH2, set_add_in, (imported_good _ _ _ _ _ HG). change true with (i_skip {| i_skip := true; i_seen := [] |}). rewrite (imported_pass {| i_skip := true; i_seen := [] |} JImport) by (right; reflexivity). cbn [after i_skip]. rewrite (imported_inside _ Hin), imported_string. unfold target. tauto.
  - destruct IH as (IH1 & IH2); [intros v X; apply Hv; right; exact X|]. cbn [i_skip i_seen] in *. rewrite Hi. pose proof (no_good_import _ _ _ _ _ _ Hr Ho) as HB. split; [apply EdBad; assumption|]. intros x. rewrite IH2, (imported_bad _ _ HB). reflexivity.
Qed.

(** * Lines *)
Notation hs := hide_seen_lines.
Lemma line_split_unique seg : forall e rest seg2 e2 rest2, one_line seg -> line_end e -> one_line seg2 -> line_end e2 -> seg ++ e :: rest = seg2 ++ e2 :: rest2 -> seg = seg2 /\ e = e2 /\ rest = rest2.
Proof.
  induction seg as [|t seg IH]; intros e rest seg2 e2 rest2 H1 H2 H3 H4 E; destruct seg2 as [|t2 seg2]; cbn in E.
  - injection E as -> ->. auto.
  - injection E as -> _. inversion H3; subst. contradiction.
  - injection E as -> _. inversion H1; subst. contradiction.
  - injection E as -> E. inversion H1; subst. inversion H3; subst. destruct (IH _ _ _ _ _ ltac:(assumption) H2 ltac:(eassumption) H4 E) as (-> & -> & ->). auto.
Qed.
Lemma hs_not_inv seg e rest out : one_line seg -> line_end e -> hs false (seg ++ e :: rest) out -> exists out', out = seg ++ e :: out' /\ hs true rest out'.
Proof.
  intros H1 H2 H. inversion H as [b EB E|seg2 e2 r2 o2 ? ? ? ? EB E|seg2 e2 r2 o2 ? ? ? ? ? EB E|e2 r2 o2 ? ? EB E|seg2 e2 r2 o2 H3 H4 H5 EB E]; subst.
  - destruct seg; discriminate.
  - destruct (line_split_unique _ _ _ _ _ _ H3 H4 H1 H2 E) as (-> & -> & ->). eauto.
Qed.
Lemma hs_not_more t rest out : ~ line_end t -> rest <> [] -> hs false rest out -> hs false (t :: rest) (t :: out).
Proof.
  intros Ht Hn H. inversion H as [b EB E|seg2 e2 r2 o2 ? ? ? ? EB E|seg2 e2 r2 o2 ? ? ? ? ? EB E|e2 r2 o2 ? ? EB E|seg2 e2 r2 o2 H3 H4 H5 EB E]; subst; [contradiction|].
  apply (SeenNot (t :: seg2)); [constructor; assumption|exact H4|exact H5].
Qed.
Lemma whole_suffix a ts : whole (a ++ ts) -> ts <> [] -> whole ts.
Proof.
  intros (b & E & Hb) Hn. destruct (exists_last Hn) as (l & x & ->). rewrite app_assoc in E. apply app_inj_tail in E. destruct E as (E & ->). exists l. split; [reflexivity|]. intros X. apply Hb. rewrite <- E. apply in_or_app. right. exact X.
Qed.
Lemma whole_eof_last a rest : whole (a ++ JEof :: rest) -> rest = [].
Proof.
  intros (b & E & Hb). destruct rest as [|x rest]; [reflexivity|exfalso]. destruct (exists_last (l := x :: rest)) as (l & y & El); [discriminate|]. rewrite El in E. replace (a ++ JEof :: l ++ [y]) with ((a ++ JEof :: l) ++ [y]) in E by (rewrite <- app_assoc; reflexivity). apply app_inj_tail in E. destruct E as (E & _).
  apply Hb. rewrite <- E. apply in_or_app. right. left. reflexivity.
Qed.
Theorem rw_lines b i ts out i' b' : rw b i ts out i' b' -> ts = [] \/ whole ts -> ~ In JImport ts -> hs (negb b) ts out.
Proof.
  induction 1 as [b i|i seg e rest out i' b' Hs He Hh _ IH|i seg e rest out i' b' Hs He Hn Hh _ IH|i e rest out i' b' He _ IH|i t rest out i' b' Ht _ IH|i ts seg p rest hash out i' b' Hi Hr Hg Hf _ IH|i ts seg t rest o hint out i' b' Hi Hr Ho _ IH]; intros Hw Hi2; cbn [negb] in *; try (exfalso; apply Hi2; left; reflexivity).
  - constructor.
  - apply one_line_iff in Hs. apply line_end_iff in He. apply hinted_iff in Hh. destruct Hw as [Hw|Hw]; [destruct seg; discriminate|].
    assert (Hw2 : rest = [] \/ whole rest) by (destruct rest; [left; reflexivity|right; apply (whole_suffix (seg ++ [e])); [rewrite <- app_assoc; exact Hw|discriminate]]).
    assert (Hi3 : ~ In JImport rest) by (intros X; apply Hi2; apply in_or_app; right; right; exact X). specialize (IH Hw2 Hi3).
    apply SeenHint; try assumption. destruct He as [->| ->]; [exact IH|]. rewrite (whole_eof_last _ _ Hw) in *. inversion IH; subst; try constructor; match goal with H : ?l ++ _ :: _ = [] |- _ => destruct l; discriminate end.
  - apply one_line_iff in Hs. apply line_end_iff in He. specialize (IH Hw Hi2). destruct (hs_not_inv _ _ _ _ Hs He IH) as (out' & -> & H). apply SeenPlain; try assumption. rewrite <- hinted_iff. congruence.
  - apply line_end_iff in He. apply SeenEmpty; [exact He|]. apply IH; [|intros X; apply Hi2; right; exact X]. destruct Hw as [Hw|Hw]; [discriminate|]. destruct rest; [left; reflexivity|right; apply (whole_suffix [e]); [exact Hw|discriminate]].
  - destruct Hw as [Hw|Hw]; [discriminate|]. assert (Hi3 : ~ In JImport rest) by (intros X; apply Hi2; right; exact X).
    destruct (is_line_end t) eqn:El.
    + apply line_end_iff in El. apply (SeenNot []); [constructor|exact El|]. destruct El as [->| ->].
      * apply IH; [|exact Hi3]. destruct rest; [left; reflexivity|right; apply (whole_suffix [JNewline]); [exact Hw|discriminate]].
      * rewrite (whole_eof_last [] _ Hw) in *. specialize (IH ltac:(left; reflexivity) Hi3). inversion IH; subst; try constructor; match goal with H : ?l ++ _ :: _ = [] |- _ => destruct l; discriminate end.
    + assert (Hne : ~ line_end t) by (rewrite <- line_end_iff; congruence). destruct rest as [|x rest].
      * exfalso. destruct Hw as (b & E & _). destruct b as [|y [|]]; try discriminate E. injection E as ->. discriminate.
      * apply hs_not_more; [exact Hne|discriminate|]. replace false with (negb (negb (is_newline_tok t))) by (destruct t; try discriminate; reflexivity). apply IH; [|exact Hi3]. right. apply (whole_suffix [t]); [exact Hw|discriminate].
Qed.
(** without empty lines this is what was intended *)
Lemma hs_nil b out : hs b [] out -> out = [].
Proof. intros H. inversion H; subst; try reflexivity; match goal with H : ?l ++ _ :: _ = [] |- _ => destruct l; discriminate end. Qed.
Theorem lines_intended ts out : hs true ts out -> whole ts -> ~ empty_line ts -> hide_lines ts out.
Proof.
  assert (HR : forall seg e rest out, line_end e -> hs true rest out -> (whole rest -> ~ empty_line rest -> hide_lines rest out) -> whole (seg ++ e :: rest) -> ~ empty_line (seg ++ e :: rest) -> hide_lines rest out).
  { intros seg e rest out0 He H IH Hw Hn. destruct rest as [|x rest]; [rewrite (hs_nil _ _ H); constructor|]. apply IH; [apply (whole_suffix (seg ++ [e])); [rewrite <- app_assoc; exact Hw|discriminate]|].
    intros (a & r & E & Ha). apply Hn. destruct Ha as [->|(a0 & ->)].
    - exists (seg ++ [e]), r. rewrite E. split; [rewrite <- app_assoc; reflexivity|]. right. exists seg. destruct He as [->| ->]; [reflexivity|]. pose proof (whole_eof_last _ _ Hw). discriminate.
    - exists (seg ++ e :: a0 ++ [JNewline]), r. rewrite E. split; [rewrite <- !app_assoc; cbn [app]; rewrite <- !app_assoc; reflexivity|]. right. exists (seg ++ e :: a0). rewrite <- app_assoc. reflexivity. }
  intros H. enough (G : forall b, hs b ts out -> b = true -> whole ts -> ~ empty_line ts -> hide_lines ts out) by (apply (G true); auto). clear H.
  intros b H. induction H as [b|seg e rest out H1 H2 H3 H IH|seg e rest out H1 H2 H3 H4 H IH|e rest out H1 H IH|seg e rest out H1 H2 _ IH]; intros Eb Hw Hn; try discriminate Eb.
  - constructor.
  - apply HideHint; try assumption. eapply (HR seg e rest out H2 H (IH eq_refl)); eassumption.
  - apply HidePlain; try assumption. eapply (HR seg e rest out H2 H (IH eq_refl)); eassumption.
  - destruct H1 as [->| ->]; [exfalso; apply Hn; exists [], rest; auto|]. rewrite (whole_eof_last [] _ Hw) in *. rewrite (hs_nil _ _ H). apply (HidePlain [] JEof [] []); [constructor|right; reflexivity|intros (v & [] & _)|constructor].
Qed.

(** * Scanning *)
Inductive rs : istate -> list jtok -> list jtok -> istate -> Prop :=
| SNil i : rs i [] [] i
| SPass i t rest out i' : t <> JImport \/ i_skip i = true -> rs (after i t) rest out i' -> rs i (t :: rest) (t :: out) i'
| SGood i ts seg p rest out i' : i_skip i = false -> irun GImport ts = Some (seg, JString p, rest, Import p) -> good p = true ->
    rs {| i_skip := false; i_seen := set_add (target p) (i_seen i) |} ts out i' -> rs i (JImport :: ts) (JImport :: out) i'
| SBad i ts seg t rest o hint out i' : i_skip i = false -> irun GImport ts = Some (seg, t, rest, o) ->
    (o = Bad hint \/ exists p, o = Import p /\ good p = false /\ hint = path_hint p) ->
    rs {| i_skip := false; i_seen := i_seen i |} ts out i' ->
    rs i (JImport :: ts) (JComment (ignore_mark ++ [32] ++ hint ++ lit "; final token: " ++ type_name t) :: JImport :: out) i'.
Notation js_manips := (js_manips cwd folder script read type_name).
Notation st := (fun (i : istate) => ((@Unmarked jtok bool, false), (@Unmarked jtok igen, i))).
Lemma scan_declines i t : t <> JImport \/ i_skip i = true -> declined (js_manips true) t (st i) (st (after i t)).
Proof. intros H. eapply DeclCons; [reflexivity|]. eapply DeclCons; [apply hi_declines; exact H|]. constructor. Qed.
Lemma scan_marked i seg t r i' : i_skip i = false -> runs is_jeof (hash_imports cwd folder script read type_name true) GImport i [JImport] (seg ++ [t]) r i' ->
  exists m s1, marked (js_manips true) JImport (st i) m s1 /\ replaces m s1 (JImport :: seg ++ [t]) r (st i').
Proof.
  intros Hi HR. destruct (y_marks is_jeof (hash_imports cwd folder script read type_name true) JImport i GImport i (seg ++ [t]) _ _ ltac:(cbn; unfold hi_start; rewrite Hi; reflexivity) eq_refl HR) as (s1 & H1 & H2).
  exists (lift_snd (yield_manip is_jeof (hash_imports cwd folder script read type_name true))), ((Unmarked, false), s1). split.
  - eapply MarkLater; [reflexivity|]. apply MarkHere. cbn [start_mark lift_snd fst snd]. rewrite H1. reflexivity.
  - apply lift_snd_replaces. exact H2.
Qed.
Theorem rs_rewrites i ts out i' : rs i ts out i' -> rewrites (js_manips true) (st i) ts out [] (st i').
Proof.
  induction 1 as [i|i t rest out i' Ht _ IH|i ts seg p rest out i' Hi Hr Hg _ IH|i ts seg t rest o hint out i' Hi Hr Ho _ IH].
  - constructor.
  - eapply RwPass; [apply scan_declines; exact Ht|exact IH].
  - pose proof (hi_runs cwd folder script read type_name true _ _ i [JImport] _ _ _ _ Hr) as HR. cbn beta iota in HR. destruct (irun_split _ _ _ _ _ _ Hr) as (-> & _).
    unfold good in Hg. apply andb_true_iff in Hg. destruct Hg as (Hg1 & Hg2). apply negb_true_iff in Hg2.
    specialize (HR None {| i_skip := true; i_seen := set_add (target p) (i_seen i) |}). cbn beta iota in HR.
    assert (HH : handle_import cwd folder script read type_name true p ([JImport] ++ seg ++ [JString p]) i = Ret (Done None, {| i_skip := true; i_seen := set_add (target p) (i_seen i) |})).
    { unfold JsManip.handle_import, target. rewrite Hg1, Hg2. cbn [negb]. destruct (resolve p) as (root, path). reflexivity. }
    specialize (HR HH). destruct (scan_marked _ _ _ _ _ Hi HR) as (m & s1 & Hm & HR2).
    replace (JImport :: seg ++ JString p :: rest) with ((JImport :: seg ++ [JString p]) ++ rest) by (cbn; rewrite <- app_assoc; reflexivity).
    eapply RwMark; [exact Hm|exact HR2|]. cbn [app]. rewrite <- app_assoc. eapply RwPass; [apply scan_declines; right; reflexivity|]. exact IH.
  - set (c := JComment (ignore_mark ++ [32] ++ hint ++ lit "; final token: " ++ type_name t)).
    assert (HL : mark_bad type_name hint ([JImport] ++ seg ++ [t]) = c :: JImport :: seg ++ [t]).
    { unfold JsManip.mark_bad. replace (last ([JImport] ++ seg ++ [t]) JEof) with t by (rewrite app_assoc, last_last; reflexivity). reflexivity. }
    assert (HR : runs is_jeof (hash_imports cwd folder script read type_name true) GImport i [JImport] (seg ++ [t]) (c :: JImport :: seg ++ [t]) i).
    { pose proof (hi_runs cwd folder script read type_name true _ _ i [JImport] _ _ _ _ Hr) as HR. rewrite <- HL. destruct Ho as [->|(p & -> & Hg & ->)]; [exact HR|]. cbn beta iota in HR.
      apply (HR (Some (mark_bad type_name (path_hint p) ([JImport] ++ seg ++ [t]))) i). unfold JsManip.handle_import, path_hint. unfold good in Hg. destruct (local_path p); cbn [negb]; [|reflexivity]. apply andb_false_iff in Hg. destruct Hg as [Hg|Hg]; [discriminate|]. apply negb_false_iff in Hg. rewrite Hg. reflexivity. }
    destruct (scan_marked _ _ _ _ _ Hi HR) as (m & s1 & Hm & HR2). destruct (irun_split _ _ _ _ _ _ Hr) as (-> & _).
    replace (JImport :: seg ++ t :: rest) with ((JImport :: seg ++ [t]) ++ rest) by (cbn; rewrite <- app_assoc; reflexivity).
    eapply RwMark; [exact Hm|exact HR2|]. cbn [app].
    eapply RwPass; [apply scan_declines; left; discriminate|].
    replace (after i c) with {| i_skip := true; i_seen := i_seen i |} by (unfold c, after; rewrite ignore_mark_self; reflexivity).
    eapply RwPass; [apply scan_declines; right; reflexivity|]. cbn [after i_seen]. rewrite <- app_assoc. exact IH.
Qed.
Theorem rs_total : forall ts i, closed ts -> exists out i', rs i ts out i'.
Proof.
  induction ts as [|t ts IH]; intros i Hc; [do 2 eexists; constructor|]. assert (Hc0 : closed ts) by (apply (closed_suffix [t]); exact Hc).
  destruct (match t with JImport => negb (i_skip i) | _ => false end) eqn:Ec.
  - destruct t; try discriminate. apply negb_true_iff in Ec. destruct (irun GImport ts) as [[[[seg t] rest] o]|] eqn:Er.
    + destruct (irun_split _ _ _ _ _ _ Er) as (_ & Hw). destruct o as [g|p|hint]; [exfalso; exact (Hw g eq_refl)| |].
      * destruct (irun_sound _ _ _ _ _ _ Er) as (-> & _). destruct (good p) eqn:Eg.
        -- destruct (IH {| i_skip := false; i_seen := set_add (target p) (i_seen i) |} Hc0) as (out & i' & H). do 2 eexists. eapply SGood; eassumption.
        -- destruct (IH {| i_skip := false; i_seen := i_seen i |} Hc0) as (out & i' & H). do 2 eexists. eapply SBad; [exact Ec|exact Er|right; eauto|exact H].
      * destruct (IH {| i_skip := false; i_seen := i_seen i |} Hc0) as (out & i' & H). do 2 eexists. eapply SBad; [exact Ec|exact Er|left; reflexivity|exact H].
    + exfalso. destruct Hc0 as [->|(bb & ->)]; [destruct Hc as [H|(q & H)]; [discriminate|destruct q as [|? [|]]; discriminate]|]. revert Er. apply irun_total. eauto.
  - assert (Hp : t <> JImport \/ i_skip i = true) by (destruct t; try (left; discriminate); right; destruct (i_skip i); [reflexivity|discriminate]).
    destruct (IH (after i t) Hc0) as (out & i' & H). do 2 eexists. eapply SPass; eassumption.
Qed.
Theorem rs_seen i ts out i' : rs i ts out i' -> forall x, In x (i_seen i') <-> In x (i_seen i) \/ imported (i_skip i) ts x.
Proof.
  induction 1 as [i|i t rest out i' Ht _ IH|i ts seg p rest out i' Hi Hr Hg _ IH|i ts seg t rest o hint out i' Hi Hr Ho _ IH]; intros x.
  - split; [auto|]. intros [H|H]; [exact H|inversion H].
  - rewrite IH, imported_pass, after_seen by exact Ht. reflexivity.
  - rewrite IH. cbn [i_skip i_seen]. rewrite Hi, set_add_in. assert (HG : good_import ts seg p rest) by (apply good_import_iff; auto). rewrite (imported_good _ _ _ _ _ HG).
    destruct (irun_split _ _ _ _ _ _ Hr) as (-> & _). rewrite (imported_inside _ (irun_inside _ _ _ _ _ _ Hr)), imported_string. tauto.
  - rewrite IH. cbn [i_skip i_seen]. rewrite Hi, (imported_bad _ _ (no_good_import _ _ _ _ _ _ Hr Ho)). reflexivity.
Qed.

(** * The theorems *)
Notation init := ((@Unmarked jtok bool, false), (@Unmarked jtok igen, {| i_skip := false; i_seen := [] |})).
Lemma whole_closed ts : whole ts -> closed ts.
Proof. intros (b & -> & _). right. eauto. Qed.
Lemma run_pump scan ts out s' : rewrites (js_manips scan) init ts out [] s' -> exists fuel b, pump (js_manips scan) fuel ts (new_builder init) = Ret (out, b) /\ b_mark b = None /\ b_st b = s'.
Proof. intros H. destruct (proj2 (pump_stream (js_manips scan) init ts out s' true)) as (f & b & H1 & H2 & H3); [exists []; split; [exact H|tauto]|]. exists f, b. tauto. Qed.
Theorem build_total ts : whole ts ->
  (exists fuel out b, pump (js_manips false) fuel ts (new_builder init) = Ret (out, b) /\ b_mark b = None) \/
  (exists a body p rest, ts = a ++ JImport :: body ++ JString p :: rest /\ good_import (body ++ JString p :: rest) body p rest /\ version p = None).
Proof.
  intros Hw. destruct (rw_total cwd folder script read type_name _ false {| i_skip := false; i_seen := [] |} ts (le_n _) (whole_closed _ Hw)) as [(out & i' & b' & H)|(a & ts0 & seg & p & rest & -> & H1 & H2 & H3)].
  - left. apply rw_rewrites in H. destruct (run_pump _ _ _ _ H) as (f & b & H1 & H2 & _). eauto.
  - right. destruct (irun_split _ _ _ _ _ _ H1) as (-> & _). exists a, seg, p, rest. split; [reflexivity|]. split; [apply good_import_iff; auto|]. unfold version, target. rewrite H3. reflexivity.
Qed.
(** every import statement for a project file has its hash file *)
Definition available (ts : list jtok) : Prop :=
  forall a body p rest, ts = a ++ JImport :: body ++ JString p :: rest -> good_import (body ++ JString p :: rest) body p rest -> version p <> None.
Lemma build_rw ts : whole ts -> available ts -> exists fuel out b i' b', pump (js_manips false) fuel ts (new_builder init) = Ret (out, b) /\ b_mark b = None /\
  rw false {| i_skip := false; i_seen := [] |} ts out i' b' /\ i_seen (snd (snd (b_st b))) = i_seen i'.
Proof.
  intros Hw Ha. destruct (rw_total cwd folder script read type_name _ false {| i_skip := false; i_seen := [] |} ts (le_n _) (whole_closed _ Hw)) as [(out & i' & b' & H)|(a & ts0 & seg & p & rest & -> & H1 & H2 & H3)].
  - pose proof (rw_rewrites _ _ _ _ _ _ _ _ _ _ _ H) as HR. destruct (run_pump _ _ _ _ HR) as (f & b & H1 & H2 & H3). exists f, out, b, i', b'. rewrite H3. auto.
  - exfalso. destruct (irun_split _ _ _ _ _ _ H1) as (-> & _). apply (Ha a seg p rest eq_refl); [apply good_import_iff; auto|]. unfold version, target. rewrite H3. reflexivity.
Qed.
Theorem build_edits ts : whole ts -> available ts -> (forall v, In (JComment v) ts -> ~ hint_text v) ->
  exists fuel out b, pump (js_manips false) fuel ts (new_builder init) = Ret (out, b) /\ b_mark b = None /\ edited false ts out /\
    forall x, In x (i_seen (snd (snd (b_st b)))) <-> imported false ts x.
Proof.
  intros Hw Ha Hh. destruct (build_rw ts Hw Ha) as (f & out & b & i' & b' & H1 & H2 & H3 & H4). exists f, out, b. destruct (rw_edited _ _ _ _ _ _ H3 Hh) as (H5 & H6). split; [exact H1|]. split; [exact H2|]. split; [exact H5|]. intros x. rewrite H4, H6. cbn. tauto.
Qed.
Theorem build_lines ts : whole ts -> ~ In JImport ts ->
  exists fuel out b, pump (js_manips false) fuel ts (new_builder init) = Ret (out, b) /\ b_mark b = None /\ hide_seen_lines true ts out /\ (~ empty_line ts -> hide_lines ts out).
Proof.
  intros Hw Hi. destruct (build_rw ts Hw) as (f & out & b & i' & b' & H1 & H2 & H3 & H4).
  - intros a body p rest -> _. exfalso. apply Hi. apply in_or_app. right. left. reflexivity.
  - exists f, out, b. pose proof (rw_lines _ _ _ _ _ _ H3 (or_intror Hw) Hi) as H5. split; [exact H1|]. split; [exact H2|]. split; [exact H5|]. intros He. apply lines_intended; assumption.
Qed.
Theorem scan_seen ts : whole ts ->
  exists fuel out b, pump (js_manips true) fuel ts (new_builder init) = Ret (out, b) /\ b_mark b = None /\ forall x, In x (i_seen (snd (snd (b_st b)))) <-> imported false ts x.
Proof.
  intros Hw. destruct (rs_total ts {| i_skip := false; i_seen := [] |} (whole_closed _ Hw)) as (out & i' & H). pose proof (rs_seen _ _ _ _ H) as HS. apply rs_rewrites in H. destruct (run_pump _ _ _ _ H) as (f & b & H1 & H2 & H3).
  exists f, out, b. split; [exact H1|]. split; [exact H2|]. intros x. rewrite H3. cbn [snd]. rewrite HS. cbn. tauto.
Qed.
End Main.
(** the new text of an import *)
Lemma version_text cwd folder script read p : version cwd folder script read p =
  match read (hash_file cwd (fst (resolve cwd folder script p))) with
  | Some hash => Some (snd (resolve cwd folder script p) ++ lit "?v=" ++ quote_plus hash ++ lit "&pv=1.3.2")
  | None => None
  end.
Proof. unfold version, target. destruct (read _) as [hash|]; [|reflexivity]. cbn [option_map]. unfold new_path. reflexivity. Qed.
Lemma resolve_root cwd folder script r : resolve cwd folder script (47 :: r) = (join_path (lit "src") [lit "public"; r], 47 :: r).
Proof. reflexivity. Qed.
Lemma version_none cwd folder script read p : version cwd folder script read p = None -> read (hash_file cwd (fst (resolve cwd folder script p))) = None.
Proof. rewrite version_text. destruct (read _); [discriminate|reflexivity]. Qed.
Lemma edited_ext v1 v2 : (forall p, v1 p = v2 p) -> forall b ts out, edited v1 b ts out -> edited v2 b ts out.
Proof. intros E b ts out H. induction H; [constructor|eapply EdPass; eassumption|eapply EdImport; [eassumption|rewrite <- E; eassumption|eassumption]|eapply EdBad; eassumption]. Qed.
Theorem build_edits_text cwd folder script read type_name ts : whole ts -> available cwd folder script read ts -> (forall v, In (JComment v) ts -> ~ hint_text v) ->
  exists fuel out b, pump (js_manips cwd folder script read type_name false) fuel ts (new_builder js_init) = Ret (out, b) /\ b_mark b = None /\
    edited (fun p => match read (hash_file cwd (fst (resolve cwd folder script p))) with
                     | Some hash => Some (snd (resolve cwd folder script p) ++ lit "?v=" ++ quote_plus hash ++ lit "&pv=1.3.2")
                     | None => None end) false ts out /\
    forall x, In x (i_seen (snd (snd (b_st b)))) <-> imported (fun p => fst (resolve cwd folder script p)) false ts x.
Proof.
  intros H1 H2 H3. destruct (build_edits cwd folder script read type_name ts H1 H2 H3) as (f & out & b & H4 & H5 & H6 & H7). exists f, out, b. split; [exact H4|]. split; [exact H5|]. split; [|exact H7].
  eapply edited_ext; [|exact H6]. intros p. apply version_text.
Qed.
