(** Proofs about runners/clean.py. *)
From Verif Require Import Base Graph GraphJson GraphSpec Clean CleanSpec.
From Coq Require Import String ZArith NArith Bool List.
Import ListNotations.
Open Scope list_scope.
Open Scope N_scope.

(** * a loaded graph has unique keys *)
Lemma ensure_wf p g : dict_wf g -> dict_wf (ensure_node p g).
Proof. intros H. unfold ensure_node. destruct (dmem p g); [exact H|]. apply dict_wf_dset. exact H. Qed.
Lemma load_parents_wf path l : forall g h, dict_wf g -> load_parents path l g = Some h -> dict_wf h.
Proof.
  induction l as [|j l IH]; intros g h Hg; cbn [load_parents].
  - intros [= <-]. exact Hg.
  - destruct j; try discriminate. destruct (dget path (ensure_node s g)); [|discriminate]. apply IH, dict_wf_dset, ensure_wf, Hg.
Qed.
Lemma load_children_wf path l : forall g h, dict_wf g -> load_children path l g = Some h -> dict_wf h.
Proof.
  induction l as [|j l IH]; intros g h Hg; cbn [load_children].
  - intros [= <-]. exact Hg.
  - destruct j; try discriminate. destruct (dget path (ensure_node s g)); [|discriminate]. apply IH, dict_wf_dset, ensure_wf, Hg.
Qed.
Lemma load_item_wf fp kv g h : dict_wf g -> load_item fp kv g = Some h -> dict_wf h.
Proof.
  destruct kv as [p item]. intros Hg. unfold load_item.
  destruct (Json.jget _ item) as [md|]; [|discriminate].
  repeat match goal with |- match ?x with _ => _ end = _ -> _ => destruct x eqn:?; try discriminate end.
  apply load_children_wf. eapply load_parents_wf; [|eassumption]. apply dict_wf_dset, ensure_wf, Hg.
Qed.
Lemma load_items_wf fp l : forall g h, dict_wf g -> load_items fp l g = Some h -> dict_wf h.
Proof.
  induction l as [|kv l IH]; intros g h Hg; cbn [load_items].
  - intros [= <-]. exact Hg.
  - destruct (load_item fp kv g) eqn:E; [|discriminate]. apply IH. eapply load_item_wf; eassumption.
Qed.
Lemma load_wf fp text g : load fp text = Some g -> dict_wf g.
Proof. unfold load. destruct (Json.json_load text) as [[]|]; try discriminate. apply load_items_wf. constructor. Qed.

(** * removing *)
Definition marked (g : graph) (p : str) : Prop := exists n, In (p, n) g /\ has_parents (p, n) = true.
Lemma remove_ok g : forall f f', dict_wf f -> remove_placeholders g f = Ret f' ->
  dict_wf f' /\ forall p, (marked g p -> dget p f' = None) /\ (~ marked g p -> dget p f' = dget p f).
Proof.
  induction g as [|[p n] g IH]; intros f f' Hf; cbn [remove_placeholders].
  - intros [= <-]. split; [exact Hf|]. intros q. split; [intros (m & [] & _)|reflexivity].
  - destruct (has_parents (p, n)) eqn:Ep.
    + destruct (dmem p f) eqn:Em; [|discriminate]. intros E. apply IH in E; [|apply dict_wf_ddel, Hf].
      destruct E as [Hw E]. split; [exact Hw|]. intros q. destruct (E q) as [E1 E2]. split.
      * intros (m & [H|H] & Hm); [|apply E1; exists m; auto].
        injection H as <- <-.
        destruct (existsb (fun kv => str_eqb (fst kv) p && has_parents kv) g) eqn:Ex.
        -- apply existsb_exists in Ex. destruct Ex as ([q m] & Hin & Hb). apply andb_prop in Hb. destruct Hb as [Hb1 Hb2].
           cbn [fst] in Hb1. apply str_eqb_eq in Hb1. subst q. apply E1. exists m. auto.
        -- rewrite E2.
           ++ rewrite dget_ddel by exact Hf. assert (T : str_eqb p p = true) by (apply str_eqb_eq; reflexivity). rewrite T. reflexivity.
           ++ intros (m & Hin & Hb). assert (existsb (fun kv => str_eqb (fst kv) p && has_parents kv) g = true); [|congruence].
              apply existsb_exists. exists (p, m). split; [exact Hin|]. cbn [fst]. assert (T : str_eqb p p = true) by (apply str_eqb_eq; reflexivity). rewrite T. exact Hb.
      * intros Hn. rewrite E2.
        -- rewrite dget_ddel by exact Hf. destruct (str_eqb q p) eqn:Eq; [|reflexivity]. apply str_eqb_eq in Eq. subst q.
           exfalso. apply Hn. exists n. split; [left; reflexivity|exact Ep].
        -- intros (m & H & Hb). apply Hn. exists m. split; [right; exact H|exact Hb].
    + intros E. apply IH in E; [|exact Hf]. destruct E as [Hw E]. split; [exact Hw|]. intros q. destruct (E q) as [E1 E2]. split.
      * intros (m & [H|H] & Hm); [|apply E1; exists m; auto]. injection H as <- <-. congruence.
      * intros Hn. apply E2. intros (m & H & Hb). apply Hn. exists m. split; [right; exact H|exact Hb].
Qed.
Lemma remove_total g : forall f, dict_wf g -> dict_wf f -> (forall p, marked g p -> dget p f <> None) -> exists f', remove_placeholders g f = Ret f'.
Proof.
  induction g as [|[p n] g IH]; intros f Hg Hf H; cbn [remove_placeholders].
  - eexists; reflexivity.
  - inversion Hg as [|x l Hnot Hl]; subst.
    assert (Hsub : forall q, marked g q -> dget q f <> None) by (intros q (m & Hin & Hb); apply H; exists m; split; [right; exact Hin|exact Hb]).
    destruct (has_parents (p, n)) eqn:Ep; [|apply IH; assumption].
    assert (Hp : dget p f <> None) by (apply H; exists n; split; [left; reflexivity|exact Ep]).
    unfold dmem. destruct (dget p f) eqn:Ed; [|contradiction].
    apply IH; [exact Hl|apply dict_wf_ddel, Hf|]. intros q Hq. rewrite dget_ddel by exact Hf. destruct (str_eqb q p) eqn:Eq; [|apply Hsub; exact Hq].
    apply str_eqb_eq in Eq. subst q. destruct Hq as (m & Hin & _). exfalso. apply Hnot.
    change p with (fst (p, m)). apply in_map. exact Hin.
Qed.
Lemma marked_parents g p : dict_wf g -> (marked g p <-> api_parents g p <> []).
Proof.
  intros Hg. unfold marked, api_parents, get_parents. split.
  - intros (n & Hin & Hb). rewrite (In_dget _ _ _ Hg Hin). unfold has_parents in Hb. cbn [snd] in Hb. destruct (n_parents n); [discriminate|]. discriminate.
  - destruct (dget p g) as [n|] eqn:E; [|intros []; reflexivity]. intros H. exists n. split; [apply dget_In, E|]. unfold has_parents. cbn [snd]. destruct (n_parents n); [contradiction|reflexivity].
Qed.
Lemma rmtree_get d f p : dget p (rmtree d f) = if str_eqb p d || starts_with (d ++ [47]) p then None else dget p f.
Proof.
  unfold rmtree. induction f as [|[q v] f IH]; cbn [filter fst dget].
  - destruct (_ || _); reflexivity.
  - destruct (str_eqb p q) eqn:E.
    + apply str_eqb_eq in E. subst q. destruct (str_eqb p d || starts_with (d ++ [47]) p) eqn:B; cbn [negb].
      * exact IH.
      * cbn [dget]. assert (T : str_eqb p p = true) by (apply str_eqb_eq; reflexivity). rewrite T. reflexivity.
    + destruct (negb _) eqn:B; [|exact IH]. cbn [dget]. rewrite E. exact IH.
Qed.
Lemma below_test d p : str_eqb p d || starts_with (d ++ [47]) p = true <-> below d p.
Proof.
  rewrite orb_true_iff, str_eqb_eq, starts_with_iff. unfold below. split; intros [H|[r H]]; auto; right; exists r.
  - rewrite H, <- app_assoc. reflexivity.
  - rewrite H, <- app_assoc. reflexivity.
Qed.
Lemma rmtree_below d f p : (below d p -> dget p (rmtree d f) = None) /\ (~ below d p -> dget p (rmtree d f) = dget p f).
Proof.
  rewrite rmtree_get. pose proof (below_test d p) as H. destruct (str_eqb p d || starts_with (d ++ [47]) p).
  - split; [reflexivity|]. intros Hn. exfalso. apply Hn, H. reflexivity.
  - split; [|reflexivity]. intros Hb. apply H in Hb. discriminate.
Qed.

Section Clean.
Variable float_parse : str -> option Z.
Definition doomed (ph : bool) (f : fs) (p : str) : Prop :=
  below (lit "out") p \/ below (lit "artifacts") p \/ (ph = true /\ generated float_parse f p).
Lemma below_dec d p : below d p \/ ~ below d p.
Proof. pose proof (below_test d p) as H. destruct (str_eqb p d || starts_with (d ++ [47]) p); [left; apply H; reflexivity|right; intros X; apply H in X; discriminate]. Qed.
Lemma clean_removed (ph : bool) f f' : dict_wf f ->
  (if ph then match dget graph_path f with None => Ret f | Some text => match load float_parse text with None => Raise ValueError | Some g => remove_placeholders g f end end else Ret f) = Ret f' ->
  forall p, ((ph = true /\ generated float_parse f p) -> dget p f' = None) /\ (~ (ph = true /\ generated float_parse f p) -> dget p f' = dget p f).
Proof.
  intros Hf E p. destruct ph.
  - unfold generated. change (lit "out/placeholder_graph.json") with graph_path in *. destruct (dget graph_path f) as [text|] eqn:Et.
    + destruct (load float_parse text) as [g|] eqn:El; [|discriminate]. destruct (remove_ok g f f' Hf E) as [_ H]. destruct (H p) as [H1 H2]. split.
      * intros [_ (t & h & Ht & Hl & Ha)]. injection Ht as <-. rewrite El in Hl. injection Hl as <-. apply H1. apply marked_parents; [eapply load_wf, El|exact Ha].
      * intros Hn. apply H2. intros Hm. apply Hn. split; [reflexivity|]. exists text, g. repeat split; [exact El|]. apply marked_parents; [eapply load_wf, El|exact Hm].
    + injection E as <-. split; [|reflexivity]. intros [_ (t & h & Ht & _)]. discriminate.
  - injection E as <-. split; [intros [H _]; discriminate|reflexivity].
Qed.
Lemma clean_exact ph f f' : dict_wf f -> clean float_parse ph f = Some (Ret f') ->
  forall p, (doomed ph f p -> dget p f' = None) /\ (~ doomed ph f p -> dget p f' = dget p f).
Proof.
  intros Hf. unfold clean. destruct (negb _); [discriminate|]. cbv zeta.
  match goal with |- context [match ?r with Ret _ => _ | Raise _ => _ end] => destruct r as [f1|e] eqn:E end; [|discriminate].
  intros [= <-] p. destruct (clean_removed ph f f1 Hf E p) as [H1 H2]. unfold doomed.
  destruct (rmtree_below (lit "artifacts") (rmtree (lit "out") f1) p) as [A1 A2]. destruct (rmtree_below (lit "out") f1 p) as [B1 B2]. split.
  - intros [H|[H|H]].
    + destruct (below_dec (lit "artifacts") p) as [Ha|Ha]; [exact (A1 Ha)|]. rewrite (A2 Ha). exact (B1 H).
    + exact (A1 H).
    + destruct (below_dec (lit "artifacts") p) as [Ha|Ha]; [exact (A1 Ha)|]. rewrite (A2 Ha).
      destruct (below_dec (lit "out") p) as [Hb|Hb]; [exact (B1 Hb)|]. rewrite (B2 Hb). exact (H1 H).
  - intros Hn. rewrite A2 by tauto. rewrite B2 by tauto. apply H2. tauto.
Qed.
Lemma clean_total ph f : dict_wf f -> dget (lit "vanillaplusjs.json") f <> None ->
  (ph = true -> forall text, dget (lit "out/placeholder_graph.json") f = Some text -> load float_parse text <> None) ->
  (ph = true -> forall p, generated float_parse f p -> dget p f <> None) ->
  exists f', clean float_parse ph f = Some (Ret f').
Proof.
  intros Hf Hc Hl Hg. unfold clean, dmem. destruct (dget (lit "vanillaplusjs.json") f); [|contradiction]. cbn [negb]. cbv zeta.
  destruct ph; [|eexists; reflexivity].
  change (lit "out/placeholder_graph.json") with graph_path in *.
  destruct (dget graph_path f) as [text|] eqn:Et; [|eexists; reflexivity].
  destruct (load float_parse text) as [g|] eqn:El; [|exfalso; eapply Hl; eauto].
  destruct (remove_total g f) as [f' E]; [eapply load_wf, El|exact Hf| |rewrite E; eexists; reflexivity].
  intros p Hm. apply Hg; [reflexivity|]. exists text, g. repeat split; [exact Et|exact El|]. apply marked_parents; [eapply load_wf, El|exact Hm].
Qed.
Lemma clean_missing f p : dict_wf f -> dget (lit "vanillaplusjs.json") f <> None -> generated float_parse f p -> dget p f = None ->
  clean float_parse true f = Some (Raise FileNotFoundError).
Proof.
  intros Hf Hc (text & g & Et & El & Ha) Hp. unfold clean, dmem. destruct (dget (lit "vanillaplusjs.json") f); [|contradiction]. cbn [negb]. cbv zeta.
  change (lit "out/placeholder_graph.json") with graph_path in *. rewrite Et, El.
  apply (marked_parents g p (load_wf _ _ _ El)) in Ha. clear El Et Hc s.
  assert (R : remove_placeholders g f = Raise FileNotFoundError); [|rewrite R; reflexivity].
  revert f Hf Hp. induction g as [|[q n] g IH]; intros f Hf Hp.
  - destruct Ha as (m & [] & _).
  - cbn [remove_placeholders]. destruct Ha as (m & [H|H] & Hb).
    + injection H as -> ->. rewrite Hb. unfold dmem. rewrite Hp. reflexivity.
    + destruct (has_parents (q, n)).
      * destruct (dmem q f); [|reflexivity]. apply IH; [exists m; auto|apply dict_wf_ddel, Hf|]. rewrite dget_ddel by exact Hf. destruct (str_eqb p q); [reflexivity|exact Hp].
      * apply IH; [exists m; auto|exact Hf|exact Hp].
Qed.

Lemma ask_yes answers : ask answers = Some true <-> answers_yes answers.
Proof.
  assert (T : forall a b : str, str_eqb a b = true <-> a = b) by (intros; apply str_eqb_eq).
  induction answers as [|a r IH]; cbn [ask].
  - split; [discriminate|]. intros (pre & x & post & H & _). destruct pre; discriminate.
  - destruct (str_eqb a (lit "y") || str_eqb a (lit "Y")) eqn:E1.
    + split; [|reflexivity]. intros _. exists [], a, r. split; [reflexivity|]. split; [|intros b []].
      apply orb_prop in E1. rewrite !T in E1. destruct E1; subst; [left|right; left]; reflexivity.
    + assert (N1 : ~ In a [lit "y"; lit "Y"]).
      { intros [H|[H|[]]]; subst a; vm_compute in E1; discriminate. }
      destruct (str_eqb a (lit "n") || str_eqb a (lit "N")) eqn:E2.
      * split; [discriminate|]. intros (pre & x & post & H & Hx & Hp). exfalso.
        apply orb_prop in E2. rewrite !T in E2.
        destruct pre as [|y pre]; injection H as -> H.
        -- contradiction.
        -- apply (Hp y); [left; reflexivity|]. destruct E2; subst; [right; right; left|right; right; right; left]; reflexivity.
      * assert (N2 : ~ In a [lit "y"; lit "Y"; lit "n"; lit "N"]).
        { intros [H|[H|[H|[H|[]]]]]; subst a; vm_compute in E1, E2; discriminate. }
        rewrite IH. split; intros (pre & x & post & H & Hx & Hp).
        -- exists (a :: pre), x, post. split; [rewrite H; reflexivity|]. split; [exact Hx|]. intros b [<-|Hb]; [exact N2|apply Hp, Hb].
        -- destruct pre as [|y pre]; injection H as -> H; [contradiction|]. exists pre, x, post. split; [exact H|]. split; [exact Hx|]. intros b Hb. apply Hp. right. exact Hb.
Qed.
(** the choice of the user decides *)
Lemma main_choice yes no answers f f' : dict_wf f -> main float_parse yes no answers f = Ret (Some f') ->
  ~ (yes = true \/ (no = false /\ answers_yes answers)) ->
  forall p, ~ below (lit "out") p -> ~ below (lit "artifacts") p -> dget p f' = dget p f.
Proof.
  intros Hf E Hn p Ho Ha. unfold main in E. destruct yes; [tauto|].
  assert (G : forall ph, clean float_parse ph f = Some (Ret f') -> (ph = true -> forall q, ~ generated float_parse f q) -> dget p f' = dget p f).
  { intros ph Ec Hg. apply (clean_exact _ _ _ Hf Ec p). intros [H|[H|[H1 H2]]]; try contradiction. exact (Hg H1 p H2). }
  assert (G' : forall ph : bool, match clean float_parse ph f with None => Ret None | Some (Raise e) => Raise e | Some (Ret f0) => Ret (Some f0) end = Ret (Some f') -> clean float_parse ph f = Some (Ret f')).
  { intros ph. destruct (clean float_parse ph f) as [[x|e]|]; try discriminate. intros [= ->]. reflexivity. }
  destruct no; [apply (G false); [apply G', E|discriminate]|].
  unfold prompt in E. destruct (dget graph_path f) as [text|] eqn:Et.
  - destruct (load float_parse text) as [g|]; [|discriminate].
    destruct (negb (existsb has_parents g)); [apply (G false); [apply G', E|discriminate]|].
    destruct (ask answers) as [[]|] eqn:Ea; [| |discriminate].
    + apply ask_yes in Ea. tauto.
    + apply (G false); [apply G', E|discriminate].
  - apply (G false); [apply G', E|discriminate].
Qed.
Lemma main_agrees yes no answers f f' : dict_wf f -> main float_parse yes no answers f = Ret (Some f') ->
  (yes = true \/ (no = false /\ answers_yes answers)) ->
  forall p, generated float_parse f p -> dget p f' = None.
Proof.
  intros Hf E Hy p Hg. unfold main in E.
  assert (G' : forall ph : bool, match clean float_parse ph f with None => Ret None | Some (Raise e) => Raise e | Some (Ret f0) => Ret (Some f0) end = Ret (Some f') -> clean float_parse ph f = Some (Ret f')).
  { intros ph. destruct (clean float_parse ph f) as [[x|e]|]; try discriminate. intros [= ->]. reflexivity. }
  assert (G : clean float_parse true f = Some (Ret f') -> dget p f' = None).
  { intros Ec. apply (clean_exact _ _ _ Hf Ec p). right; right. split; [reflexivity|exact Hg]. }
  destruct yes; [apply G, G', E|]. destruct Hy as [Hy|[-> Hy]]; [discriminate|].
  destruct Hg as (text & g & Et & El & Ha). unfold prompt in E. change (lit "out/placeholder_graph.json") with graph_path in *. rewrite Et, El in E.
  assert (X : existsb has_parents g = true).
  { apply (marked_parents g p (load_wf _ _ _ El)) in Ha. destruct Ha as (n & Hin & Hb). apply existsb_exists. exists (p, n). auto. }
  rewrite X in E. cbn [negb] in E. apply ask_yes in Hy. rewrite Hy in E. apply G, G', E.
Qed.
(** nothing recorded: no question *)
Lemma main_silent yes no answers f : dict_wf f -> dget (lit "vanillaplusjs.json") f <> None ->
  (forall text, dget (lit "out/placeholder_graph.json") f = Some text -> load float_parse text <> None) ->
  (forall p, ~ generated float_parse f p) ->
  exists f', main float_parse yes no answers f = Ret (Some f').
Proof.
  intros Hf Hc Hl Hn.
  assert (G : forall ph, exists f', clean float_parse ph f = Some (Ret f')).
  { intros ph. apply clean_total; [exact Hf|exact Hc|intros _; exact Hl|intros _ p Hp; destruct (Hn p Hp)]. }
  assert (P : prompt float_parse f answers = Ret (Some false)).
  { unfold prompt. unfold generated in Hn. change (lit "out/placeholder_graph.json") with graph_path in *. destruct (dget graph_path f) as [text|] eqn:Et; [|reflexivity].
    destruct (load float_parse text) as [g|] eqn:El; [|exfalso; eapply Hl; eauto].
    destruct (existsb has_parents g) eqn:Ex; [|reflexivity]. exfalso. apply existsb_exists in Ex. destruct Ex as ([p n] & Hin & Hb).
    apply (Hn p). exists text, g. repeat split; [exact El|]. apply marked_parents; [eapply load_wf, El|]. exists n. auto. }
  unfold main. rewrite P. destruct yes, no; [destruct (G true) as [f' E]|destruct (G true) as [f' E]|destruct (G false) as [f' E]|destruct (G false) as [f' E]]; rewrite E; exists f'; reflexivity.
Qed.
End Clean.
