From Verif Require Import Base Graph PyPath Css CssSpec CssSound Builder BuilderSpec BuilderProofs CssVersion CssVersionSpec.
From Coq Require Import String ZArith NArith Bool List Lia ZifyN ZifyBool.
Import ListNotations.
Open Scope list_scope.
Open Scope N_scope.

Section Proofs.
Context {F : Type} (relpath : str) (read : str -> option str).
Notation token := (@token F).
Notation hash_path := (hash_path relpath).
Notation mk b l := {| v_in_url := b; v_seen := l |}.

Lemma hash_path_some url h : hash_path url = Some h <-> wants_version relpath url /\ exists rel, url = 47 :: rel /\ h = join_path (lit "out") [lit "www"; rel ++ lit ".hash"].
Proof.
  unfold CssVersion.hash_path, wants_version. destruct url as [|c rel]; [split; [discriminate|intros ((r & E & _) & _); discriminate]|].
  destruct (c =? 47) eqn:Ec; cbn [negb]; [|split; [discriminate|intros ((r & E & _) & _); injection E as -> _; discriminate]]. apply N.eqb_eq in Ec. subst c.
  destruct (existsb (N.eqb 63) (47 :: rel)) eqn:Eq.
  - split; [discriminate|]. intros ((r & _ & Hn & _) & _). exfalso. apply Hn. apply existsb_exists in Eq. destruct Eq as (x & Hx & E). apply N.eqb_eq in E. subst x. exact Hx.
  - destruct (str_eqb (join_path (lit "src") [lit "public"; rel]) relpath) eqn:Es.
    + split; [discriminate|]. intros ((r & E & _ & Hn) & _). injection E as <-. exfalso. apply Hn. apply str_eqb_eq. exact Es.
    + split.
      * intros [= <-]. split; [exists rel; split; [reflexivity|]; split|exists rel; split; reflexivity].
        -- intros Hi. assert (X : existsb (N.eqb 63) (47 :: rel) = true) by (apply existsb_exists; exists 63; split; [exact Hi|reflexivity]). congruence.
        -- intros X. apply str_eqb_eq in X. congruence.
      * intros (_ & r & E & ->). injection E as <-. reflexivity.
Qed.
Lemma hash_path_none url : hash_path url = None -> ~ wants_version relpath url.
Proof.
  intros H W. destruct W as (rel & E & W). assert (X : hash_path url = Some (join_path (lit "out") [lit "www"; rel ++ lit ".hash"])) by (apply hash_path_some; split; [exists rel; auto|exists rel; auto]). congruence.
Qed.
Definition suffix (hash : str) : str := [63] ++ urlencode [(lit "v", hash); (lit "pv", PROCESSOR_VERSION)].
Lemma suffix_eq hash : suffix hash = lit "?v=" ++ quote_plus hash ++ lit "&pv=" ++ PROCESSOR_VERSION.
Proof. reflexivity. Qed.
Lemma stamped_not_wanted v hash : hash_path (v ++ suffix hash) = None.
Proof.
  destruct (hash_path (v ++ suffix hash)) eqn:E; [|reflexivity]. apply hash_path_some in E. destruct E as ((rel & _ & Hn & _) & _). exfalso. apply Hn. apply in_or_app. right. left. reflexivity.
Qed.
(** the flag after a token *)
Definition next_flag (b : bool) (t : token) : bool :=
  if b then match t with TRParen => false | _ => true end else match t with TFunction n => is_url_name n | _ => false end.
Lemma next_flag_spec b t b' : next_in_url b t b' <-> b' = next_flag b t.
Proof.
  split.
  - intros H. destruct H as [n Hn| |b t H1 H2]; [symmetry; apply is_url_name_iff; exact Hn|reflexivity|]. unfold next_flag. destruct b.
    + specialize (H2 eq_refl). destruct t; congruence.
    + specialize (H1 eq_refl). destruct t; try reflexivity. destruct (is_url_name v) eqn:E; [|reflexivity]. exfalso. apply (H1 v eq_refl). apply is_url_name_iff. exact E.
  - intros ->. unfold next_flag. destruct b.
    + destruct t; try (apply NextOther; [discriminate|intros _; discriminate]). apply NextClose.
    + destruct t; try (apply NextOther; [intros _; discriminate|discriminate]). destruct (is_url_name v) eqn:E.
      * apply NextOpen. apply is_url_name_iff. exact E.
      * apply NextOther; [|discriminate]. intros _ n [= <-] X. apply is_url_name_iff in X. congruence.
Qed.
Definition url_of (b : bool) (t : token) : option str := match t with TUrl v => if b then None else Some v | TString v => if b then Some v else None | _ => None end.
Lemma url_of_spec b t v : at_url b t v <-> url_of b t = Some v.
Proof. split; [intros H; destruct H; reflexivity|]. destruct t, b; cbn; try discriminate; intros [= <-]; constructor. Qed.
Lemma start_none scan b l t : (forall v, url_of b t = Some v -> hash_path v = None) -> v_start relpath scan t (mk b l) = Ret (false, mk (next_flag b t) l).
Proof.
  intros H. unfold v_start, next_flag. cbn [v_in_url v_seen]. destruct b.
  - destruct t; cbn [url_of] in H; try reflexivity. rewrite (H _ eq_refl). reflexivity.
  - destruct t; cbn [url_of] in H; try reflexivity; [destruct (is_url_name v); reflexivity|rewrite (H _ eq_refl); reflexivity].
Qed.
Lemma start_some b l t v h : url_of b t = Some v -> hash_path v = Some h -> v_start relpath false t (mk b l) = Ret (true, mk b l) /\ v_start relpath true t (mk b l) = Ret (false, mk b (set_add h l)) /\ next_flag b t = b.
Proof. intros H1 H2. unfold v_start, next_flag. cbn [v_in_url v_seen]. destruct b; destruct t; cbn [url_of] in H1; try discriminate; injection H1 as ->; rewrite H2; auto. Qed.

Notation rw := (rewrites [version_urls relpath read false]).
Notation rws := (rewrites [version_urls relpath read true]).
Lemma set_add_In x l y : In y (set_add x l) <-> In y l \/ y = x.
Proof. unfold set_add. destruct (mem x l) eqn:E; [split; [auto|intros [H| ->]; [exact H|apply mem_In; exact E]]|]. rewrite in_app_iff. cbn. intuition congruence. Qed.
Lemma needs_cons b t ts h : needs relpath b (t :: ts) h <-> (exists v, url_of b t = Some v /\ hash_path v = Some h) \/ needs relpath (next_flag b t) ts h.
Proof.
  split.
  - intros H. inversion H as [? ? rel ? A W|? ? b' ? ? N H']; subst; [left; exists (47 :: rel); split; [apply url_of_spec; exact A|apply hash_path_some; split; [exact W|eexists; split; reflexivity]]|right; apply next_flag_spec in N; subst b'; exact H'].
  - intros [(v & A & B)|H]; [|eapply NeedLater; [apply next_flag_spec; reflexivity|exact H]]. apply hash_path_some in B. destruct B as (W & rel & -> & ->). apply NeedHere; [apply url_of_spec; exact A|exact W].
Qed.
(** building *)
Theorem build_stamps (ts : list token) : forall b l, (forall h, needs relpath b ts h -> read h <> None) ->
  exists out b' l', rw (mk b l) ts out [] (mk b' l') /\ stamped relpath read b ts out /\ (forall h, In h l' <-> In h l \/ needs relpath b ts h).
Proof.
  induction ts as [|t ts IH]; intros b l HR.
  - exists [], b, l. split; [constructor|]. split; [constructor|]. intros h. split; [auto|]. intros [H|H]; [exact H|inversion H].
  - destruct (url_of b t) as [v|] eqn:Eu; [destruct (hash_path v) as [h|] eqn:Eh|].
    + destruct (start_some b l t v h Eu Eh) as (S1 & _ & S3). destruct (read h) as [hash|] eqn:Er; [|exfalso; apply (HR h); [apply needs_cons; left; eauto|exact Er]].
      destruct (IH b (set_add h l)) as (out & b' & l' & R1 & R2 & R3). { intros h' Hn. apply HR. apply needs_cons. right. rewrite S3. exact Hn. }
      assert (Hv : value_of t = Some v) by (destruct b, t; cbn in Eu |- *; congruence).
      set (t' := with_value t (v ++ suffix hash)). exists (t' :: out), b', l'.
      assert (Hu : forall w, url_of b t' = Some w -> hash_path w = None) by (intros w Hw; assert (w = v ++ suffix hash) as -> by (unfold t' in Hw; destruct b, t; cbn in Eu, Hw; try discriminate; injection Hw as <-; reflexivity); apply stamped_not_wanted).
      assert (Hf : next_flag b t' = b) by (unfold t'; destruct b, t; cbn in Eu |- *; congruence).
      split; [|split].
      * change (t :: ts) with ([t] ++ ts). apply (RwMark _ t (version_urls relpath read false) _ (mk b l) [] [t'] (mk b (set_add h l))).
        -- apply MarkHere. exact S1.
        -- apply ReplEnd. cbn [continue_mark version_urls]. unfold v_continue. rewrite Hv, Eh, Er. reflexivity.
        -- cbn [app]. eapply RwPass; [|exact R1]. eapply DeclCons; [cbn [start_mark version_urls]; apply start_none; exact Hu|]. rewrite Hf. constructor.
      * assert (E : t' = match t with TUrl _ => TUrl (v ++ suffix hash) | _ => TString (v ++ suffix hash) end) by (unfold t'; destruct b, t; cbn in Eu |- *; congruence). rewrite E. apply hash_path_some in Eh. destruct Eh as (W & rel & -> & ->).
        eapply StVersion; [apply url_of_spec; exact Eu|exact W| |exact R2]. exists rel, hash. rewrite suffix_eq. auto.
      * intros h'. rewrite R3, set_add_In, needs_cons, S3. split; [intros [[A| ->]|A]; [auto|right; left; eauto|auto]|]. intros [A|[(w & A & B)|A]]; [auto| |auto]. assert (w = v) by congruence. subst w. left. right. congruence.
    + destruct (IH (next_flag b t) l) as (out & b' & l' & R1 & R2 & R3). { intros h Hn. apply HR. apply needs_cons. right. exact Hn. }
      assert (HS : forall w, url_of b t = Some w -> hash_path w = None) by (intros w Hw; congruence).
      exists (t :: out), b', l'. split; [|split].
      * eapply RwPass; [|exact R1]. eapply DeclCons; [cbn [start_mark version_urls]; apply start_none; exact HS|constructor].
      * eapply StSame; [|apply next_flag_spec; reflexivity|exact R2]. intros w Hw. apply url_of_spec in Hw. apply hash_path_none. apply HS. exact Hw.
      * intros h. rewrite R3, needs_cons. split; [intros [A|A]; auto|]. intros [A|[(w & A & B)|A]]; [auto| |auto]. rewrite (HS w A) in B. discriminate.
    + destruct (IH (next_flag b t) l) as (out & b' & l' & R1 & R2 & R3). { intros h Hn. apply HR. apply needs_cons. right. exact Hn. }
      assert (HS : forall w, url_of b t = Some w -> hash_path w = None) by (intros w Hw; congruence).
      exists (t :: out), b', l'. split; [|split].
      * eapply RwPass; [|exact R1]. eapply DeclCons; [cbn [start_mark version_urls]; apply start_none; exact HS|constructor].
      * eapply StSame; [|apply next_flag_spec; reflexivity|exact R2]. intros w Hw. apply url_of_spec in Hw. apply hash_path_none. apply HS. exact Hw.
      * intros h. rewrite R3, needs_cons. split; [intros [A|A]; auto|]. intros [A|[(w & A & B)|A]]; [auto| |auto]. rewrite (HS w A) in B. discriminate.
Qed.
(** scanning *)
Theorem scan_needs (ts : list token) : forall b l, exists b' l', rws (mk b l) ts ts [] (mk b' l') /\ (forall h, In h l' <-> In h l \/ needs relpath b ts h).
Proof.
  induction ts as [|t ts IH]; intros b l.
  - exists b, l. split; [constructor|]. intros h. split; [auto|]. intros [H|H]; [exact H|inversion H].
  - assert (HS : exists l1, v_start relpath true t (mk b l) = Ret (false, mk (next_flag b t) l1) /\ forall h, In h l1 <-> In h l \/ exists v, url_of b t = Some v /\ hash_path v = Some h).
    { destruct (url_of b t) as [v|] eqn:Eu; [destruct (hash_path v) as [h|] eqn:Eh|].
      - destruct (start_some b l t v h Eu Eh) as (_ & S2 & S3). exists (set_add h l). rewrite S3. split; [exact S2|]. intros h'. rewrite set_add_In. split; [intros [A| ->]; [auto|right; eauto]|]. intros [A|(w & [= <-] & B)]; [auto|right; congruence].
      - exists l. split; [apply start_none; intros w Hw; congruence|]. intros h. split; [auto|]. intros [A|(w & [= <-] & B)]; [auto|congruence].
      - exists l. split; [apply start_none; intros w Hw; congruence|]. intros h. split; [auto|]. intros [A|(w & X & B)]; [auto|discriminate]. }
    destruct HS as (l1 & S1 & S2). destruct (IH (next_flag b t) l1) as (b' & l' & R1 & R2). exists b', l'. split.
    + eapply RwPass; [|exact R1]. eapply DeclCons; [exact S1|constructor].
    + intros h. rewrite R2, S2, needs_cons. tauto.
Qed.
(** stamping again changes nothing *)
Lemma stamped_again b (ts out : list token) : stamped relpath read b ts out -> stamped relpath read b out out.
Proof.
  intros H. induction H as [b|b t v v' ts out A W V H IH|b b' t ts out A N H IH]; [constructor| |eapply StSame; eassumption].
  destruct V as (rel & hash & -> & _ & ->). rewrite <- suffix_eq. eapply StSame; [| |exact IH].
  - intros w Hw. apply hash_path_none. assert (w = (47 :: rel) ++ suffix hash) as -> by (inversion A; subst; inversion Hw; reflexivity). apply stamped_not_wanted.
  - apply next_flag_spec. inversion A; subst; reflexivity.
Qed.
Lemma stamped_function b (ts o1 : list token) : stamped relpath read b ts o1 -> forall o2, stamped relpath read b ts o2 -> o1 = o2.
Proof.
  intros H. induction H as [b|b t v v' ts out A W V H IH|b b' t ts out A N H IH]; intros o2 H2; inversion H2; subst.
  - reflexivity.
  - match goal with X : at_url b t v0 |- _ => apply url_of_spec in X; apply url_of_spec in A; assert (v0 = v) by congruence; subst v0 end.
    f_equal; [|apply IH; assumption]. destruct V as (rel & hash & -> & R1 & ->). match goal with X : versioned _ _ _ |- _ => destruct X as (rel2 & hash2 & E & R2 & ->) end. injection E as <-. rewrite R1 in R2. injection R2 as <-. reflexivity.
  - exfalso. match goal with X : forall v, at_url b t v -> _ |- _ => exact (X v A W) end.
  - exfalso. match goal with X : at_url b t v |- _ => exact (A v X H4) end.
  - f_equal. apply IH. match goal with X : next_in_url b t b'0 |- _ => apply next_flag_spec in X; apply next_flag_spec in N; subst; assumption end.
Qed.
(** a build that finishes found every hash it needed *)
Lemma start_true b l t : forall s1, v_start relpath false t (mk b l) = Ret (true, s1) -> exists v h, url_of b t = Some v /\ hash_path v = Some h /\ s1 = mk b l.
Proof.
  unfold v_start. cbn [v_in_url v_seen]. intros s1. destruct b, t; cbn [url_of]; try discriminate; try (destruct (is_url_name _); discriminate);
  (destruct (hash_path v) as [h|] eqn:Eh; [|discriminate]); intros [= <-]; exists v, h; auto.
Qed.
Lemma start_false b l t : forall s1, v_start relpath false t (mk b l) = Ret (false, s1) -> (forall v, url_of b t = Some v -> hash_path v = None) /\ s1 = mk (next_flag b t) l.
Proof.
  intros s1 H. assert (HN : forall v, url_of b t = Some v -> hash_path v = None).
  { intros v Hv. destruct (hash_path v) as [h|] eqn:Eh; [|reflexivity]. destruct (start_some b l t v h Hv Eh) as (S1 & _). congruence. }
  split; [exact HN|]. rewrite (start_none false b l t HN) in H. congruence.
Qed.
Lemma build_reads s (ts : list token) out lost s' : rw s ts out lost s' -> forall b l, s = mk b l -> forall h, needs relpath b ts h -> read h <> None.
Proof.
  intros H. induction H as [s|t s s1 ts out lost s2 HD H IH|t m s s1 seg repl s2 ts out lost s3 HM HR H IH|t m s s1 seg s2 HM HH]; intros b l -> h Hn.
  - inversion Hn.
  - inversion HD as [|? ? ? ? ? ? S1 HD']; subst. inversion HD'; subst. cbn [start_mark version_urls] in S1. apply start_false in S1. destruct S1 as (S1 & ->). apply needs_cons in Hn. destruct Hn as [(v & A & B)|Hn]; [rewrite (S1 v A) in B; discriminate|]. exact (IH _ _ eq_refl h Hn).
  - inversion HM as [? ? ? ? ? S1|? ? ? ? ? ? ? _ X]; subst; [|inversion X]. cbn [start_mark version_urls] in S1. apply start_true in S1. destruct S1 as (v & h0 & A & B & ->).
    assert (Hv : value_of t = Some v) by (destruct b, t; cbn in A |- *; congruence).
    assert (HC : exists hash, read h0 = Some hash /\ v_continue relpath read t (mk b l) = Ret (Some [with_value t (v ++ suffix hash)], mk b (set_add h0 l))).
    { inversion HR as [? ? ? ? C|? ? ? ? ? ? C]; subst; cbn [continue_mark version_urls] in C; unfold v_continue in *; rewrite Hv, B in *; destruct (read h0) as [hash|]; try discriminate. exists hash. split; reflexivity. }
    destruct HC as (hash & R & C). inversion HR as [? ? ? ? C2|? ? ? ? ? ? C2]; subst; cbn [continue_mark version_urls] in C2; rewrite C in C2; [|discriminate]. injection C2 as <- <-. cbn [app] in *.
    apply needs_cons in Hn. destruct Hn as [(w & A2 & B2)|Hn]; [assert (h = h0) by congruence; subst; congruence|]. apply (IH b _ eq_refl h). apply needs_cons. right.
    assert (E : next_flag b (with_value t (v ++ suffix hash)) = next_flag b t) by (destruct b, t; cbn in A |- *; congruence). rewrite E. exact Hn.
  - inversion HM as [? ? ? ? ? S1|? ? ? ? ? ? ? _ X]; subst; [|inversion X]. cbn [start_mark version_urls] in S1. apply start_true in S1. destruct S1 as (v & h0 & A & B & ->).
    assert (Hv : value_of t = Some v) by (destruct b, t; cbn in A |- *; congruence). inversion HH as [|? ? ? ? ? C]; subst. cbn [continue_mark version_urls] in C. unfold v_continue in C. rewrite Hv, B in C. destruct (read h0); discriminate.
Qed.
(** the pipeline *)
Definition vnew : builder token vstate := new_builder v_init.
Theorem version_build (ts : list token) : (forall h, needs relpath false ts h -> read h <> None) ->
  exists fuel out b, pump [version_urls relpath read false] fuel ts vnew = Ret (out, b) /\ b_mark b = None /\ stamped relpath read false ts out /\ (forall h, In h (v_seen (b_st b)) <-> needs relpath false ts h).
Proof.
  intros HR. destruct (build_stamps ts false [] HR) as (out & b' & l' & R1 & R2 & R3).
  destruct (proj2 (pump_stream [version_urls relpath read false] v_init ts out (mk b' l') true)) as (f & b & P & Q & W); [exists []; split; [exact R1|tauto]|].
  exists f, out, b. split; [exact P|]. split; [apply W; reflexivity|]. split; [exact R2|]. intros h. rewrite Q. cbn [v_seen]. rewrite R3. cbn. tauto.
Qed.
Theorem version_scan (ts : list token) : exists fuel b, pump [version_urls relpath read true] fuel ts vnew = Ret (ts, b) /\ b_mark b = None /\ (forall h, In h (v_seen (b_st b)) <-> needs relpath false ts h).
Proof.
  destruct (scan_needs ts false []) as (b' & l' & R1 & R3).
  destruct (proj2 (pump_stream [version_urls relpath read true] v_init ts ts (mk b' l') true)) as (f & b & P & Q & W); [exists []; split; [exact R1|tauto]|].
  exists f, b. split; [exact P|]. split; [apply W; reflexivity|]. intros h. rewrite Q. cbn [v_seen]. rewrite R3. cbn. tauto.
Qed.
Theorem version_complete fuel (ts : list token) out b h : pump [version_urls relpath read false] fuel ts vnew = Ret (out, b) -> needs relpath false ts h -> read h <> None.
Proof.
  intros P Hn. destruct (proj1 (pump_rewrites [version_urls relpath read false] v_init ts out (b_st b))) as (lost & R); [exists fuel, b; split; [exact P|reflexivity]|]. exact (build_reads _ _ _ _ _ R false [] eq_refl h Hn).
Qed.
End Proofs.

Lemma odd_urls {F} relpath (ts : list (@token F)) :
  (relpath <> lit "/cdn.example/x.png" -> needs relpath false (TUrl (lit "//cdn.example/x.png") :: ts) (lit "/cdn.example/x.png.hash")) /\
  (relpath <> lit "src/public/font.svg#icon" -> needs relpath false (TUrl (lit "/font.svg#icon") :: ts) (lit "out/www/font.svg#icon.hash")).
Proof.
  split; intros H; [apply (NeedHere _ false (TUrl (lit "//cdn.example/x.png")) (lit "/cdn.example/x.png"))|apply (NeedHere _ false (TUrl (lit "/font.svg#icon")) (lit "font.svg#icon"))];
    try apply AtUrl; eexists; (split; [reflexivity|]); (split; [vm_compute; intuition discriminate|intros X; apply H; rewrite <- X; vm_compute; reflexivity]).
Qed.
