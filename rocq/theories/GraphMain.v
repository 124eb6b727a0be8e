(** The graph lemmas in the form used by PropsGraph.v. *)
From Verif Require Import Base Graph GraphSpec GraphProofs GraphEqProofs Json JsonProofs GraphJson GraphJsonProofs.
From Coq Require Import List NArith ZArith Bool Relations String.
Import ListNotations.

Lemma Inv_history os : Inv (history os).
Proof. apply Inv_run_ops, Inv_empty. Qed.
Lemma contains_In g a : contains g a = true <-> In a (dkeys g).
Proof. apply dmem_In. Qed.
Lemma contains_not g a : contains g a = false <-> ~ In a (dkeys g).
Proof. apply dmem_false. Qed.

Lemma history_well_formed os : well_formed (history os).
Proof. apply Inv_well_formed, Inv_history. Qed.

Lemma history_fail_unchanged os o : raises o (history os) -> snd (run_op o (history os)) = history os.
Proof. apply run_op_fail_unchanged, Inv_history. Qed.
Lemma history_fail_value_error os o e : fst (run_op o (history os)) = Some e -> e = ValueError.
Proof. apply run_op_fail_value_error, Inv_history. Qed.

Lemma add_raises_iff os a s m i cs :
  raises (OpAdd a s m i cs) (history os) <->
  (contains (history os) a = true \/ exists c, In c cs /\ contains (history os) c = false).
Proof.
  unfold raises. cbn [run_op]. destruct (add_file_cases a s m i cs (history os)) as [(H & ->)|((Ha & Hc) & g' & -> & _)]; cbn [fst].
  - split; [intros _|discriminate]. destruct H as [H|(c & H1 & H2)]; [left; apply contains_In; assumption|].
    right. exists c. split; [assumption|apply contains_not; assumption].
  - split; [congruence|]. intros [H|(c & H1 & H2)]; exfalso.
    + apply Ha, contains_In. assumption.
    + apply contains_not in H2. auto.
Qed.
Lemma remove_raises_iff os a cp cc :
  raises (OpRemove a cp cc) (history os) <->
  (contains (history os) a = false \/ (cp = false /\ exists p, depends (history os) p a)
   \/ (cc = false /\ exists c, depends (history os) a c)).
Proof.
  unfold raises. cbn [run_op]. pose proof (Inv_history os) as HI. set (g := history os) in *.
  assert (HP : forall x, In x (pa g a) <-> depends g x a) by (intros x; rewrite depends_ch; symmetry; apply Inv_ch_pa; assumption).
  destruct (remove_file_cases a cp cc g HI) as [(H & ->)|((Ha & Hp & Hc) & g' & -> & _)]; cbn [fst].
  - split; [intros _|discriminate]. destruct H as [H|[(H1 & H2)|(H1 & H2)]].
    + left. apply contains_not. assumption.
    + right. left. split; [assumption|]. apply not_nil_ex in H2. destruct H2 as (x & Hx). exists x. apply HP. assumption.
    + right. right. split; [assumption|]. apply not_nil_ex in H2. destruct H2 as (x & Hx). exists x. apply depends_ch. assumption.
  - split; [congruence|]. intros [H|[(H1 & x & H2)|(H1 & x & H2)]]; exfalso.
    + apply contains_not in H. auto.
    + destruct Hp as [->|Hp]; [discriminate|]. apply HP in H2. rewrite Hp in H2. destruct H2.
    + destruct Hc as [->|Hc]; [discriminate|]. apply depends_ch in H2. rewrite Hc in H2. destruct H2.
Qed.
Lemma set_raises_iff os a cs pc :
  raises (OpSet a cs pc) (history os) <->
  (contains (history os) a = false \/ (exists c, In c cs /\ contains (history os) c = false)
   \/ (pc = true /\ clos_trans str (upd_depends (history os) a cs) a a)).
Proof.
  unfold raises. cbn [run_op]. pose proof (Inv_history os) as HI. set (g := history os) in *.
  destruct (set_children_cases a cs pc g HI) as [(H & ->)|((Ha & Hc & Hp) & g' & -> & _)]; cbn [fst].
  - split; [intros _|discriminate]. destruct H as [H|[(c & H1 & H2)|(H1 & H2)]].
    + left. apply contains_not. assumption.
    + right. left. exists c. split; [assumption|apply contains_not; assumption].
    + right. right. split; [assumption|]. apply upd_cycle_iff. assumption.
  - split; [congruence|]. intros [H|[(c & H1 & H2)|(H1 & H2)]]; exfalso.
    + apply contains_not in H. auto.
    + apply contains_not in H2. auto.
    + apply upd_cycle_iff in H2. destruct H2 as (c & Hc1 & Hc2). destruct (Hp H1 c Hc1). tauto.
Qed.

Lemma history_acyclic os : (forall o, In o os -> prevents_cycles o) -> acyclic (history os).
Proof. intros H. apply acyclic_run_ops; [apply Inv_empty|apply acyclic_empty|assumption]. Qed.

Lemma set_rejects_iff os a cs : contains (history os) a = true -> (forall c, In c cs -> contains (history os) c = true) ->
  (raises (OpSet a cs true) (history os) <-> clos_trans str (upd_depends (history os) a cs) a a).
Proof.
  intros Ha Hc. rewrite set_raises_iff. split.
  - intros [H|[(c & H1 & H2)|(_ & H)]]; [congruence| |assumption]. rewrite (Hc c H1) in H2. discriminate.
  - intros H. right. right. auto.
Qed.
Lemma set_accepts_children os a cs pc : ~ raises (OpSet a cs pc) (history os) ->
  let g' := snd (run_op (OpSet a cs pc) (history os)) in
  get_children g' a = Ret cs /\ forall x y, depends g' x y <-> upd_depends (history os) a cs x y.
Proof.
  intros H. cbv zeta. pose proof (Inv_history os) as HI. set (g := history os) in *. unfold raises in H. cbn [run_op] in *.
  destruct (set_children_cases a cs pc g HI) as [(_ & E)|((Ha & Hc & Hp) & g' & E & K & M & C & P)]; rewrite E in *; cbn [fst snd] in *.
  - exfalso. apply H. discriminate.
  - split.
    + specialize (C a). rewrite str_eqb_refl in C.
      assert (Hin : In a (dkeys g')) by (rewrite K; assumption). apply In_dkeys_dget in Hin. destruct Hin as (n & Hn).
      unfold get_children. rewrite Hn. rewrite <- C. rewrite (ch_get _ _ _ Hn). reflexivity.
    + intros x y. unfold upd_depends. rewrite depends_ch, C. destruct (str_eqb x a); [reflexivity|]. rewrite depends_ch. reflexivity.
Qed.

Lemma nested_correct g a b : well_formed g ->
  ((a = b \/ contains g a = false \/ contains g b = false) -> check_nested_relationship g a b = Raise ValueError) /\
  (a <> b -> contains g a = true -> contains g b = true ->
     exists r, check_nested_relationship g a b = Ret r /\ answer_ok (depends_plus g) a b r).
Proof.
  intros HI. apply Inv_well_formed in HI.
  destruct (check_nested_spec g a b HI) as [(H & E)|((H1 & H2 & H3) & r & E & Hr)].
  - split; [intros _; assumption|]. intros H1 H2 H3. exfalso. apply contains_In in H2, H3. tauto.
  - split.
    + intros H. exfalso. rewrite !contains_not in H. tauto.
    + intros _ _ _. exists r. split; assumption.
Qed.
Lemma direct_correct g a b : well_formed g ->
  ((a = b \/ contains g a = false \/ contains g b = false) -> check_direct_relationship g a b = Raise ValueError) /\
  (a <> b -> contains g a = true -> contains g b = true ->
     exists r, check_direct_relationship g a b = Ret r /\ answer_ok (depends g) a b r).
Proof.
  intros HI. apply Inv_well_formed in HI.
  destruct (check_direct_spec g a b HI) as [(H & E)|((H1 & H2 & H3) & r & E & Hr)].
  - split; [intros _; assumption|]. intros H1 H2 H3. exfalso. apply contains_In in H2, H3. tauto.
  - split.
    + intros H. exfalso. rewrite !contains_not in H. tauto.
    + intros _ _ _. exists r. split; assumption.
Qed.

Lemma history_refines os : exists s, spec_run os [] (map is_ok (fst (run_ops os empty_graph))) s /\ describes s (history os) /\
  (forall a p, count p (api_parents (history os) a) = count a (a_children s p)).
Proof.
  destruct (refine_run os empty_graph [] Inv_empty) as (s & H1 & H2).
  - split; [reflexivity|]. intros a m l. discriminate.
  - exists s. split; [assumption|]. split; [assumption|]. intros a p. apply describes_parents; [apply Inv_history|assumption].
Qed.

Lemma spec_step_det o s b1 s1 b2 s2 : spec_step o s b1 s1 -> spec_step o s b2 s2 -> b1 = b2 /\ s1 = s2.
Proof.
  intros H1 H2; inversion H1; subst; inversion H2; subst; try (split; reflexivity); exfalso;
    repeat match goal with
      | H : _ \/ _ |- _ => destruct H
      | H : exists _, _ |- _ => destruct H
      | H : _ /\ _ |- _ => destruct H
      end; subst; try discriminate; eauto;
    repeat match goal with
      | H : true = true -> _ |- _ => specialize (H eq_refl)
      | H : forall c, In c _ -> _ /\ _, H1 : In ?c _ |- _ => destruct (H c H1); clear H
      end; eauto; try congruence;
    match goal with H : forall p, ~ a_depends _ p _, K : a_depends _ _ _ |- _ => exact (H _ K) end.
Qed.
Lemma spec_run_det os : forall s b1 s1 b2 s2, spec_run os s b1 s1 -> spec_run os s b2 s2 -> b1 = b2 /\ s1 = s2.
Proof.
  induction os as [|o os IH]; intros s b1 s1 b2 s2 H1 H2; inversion H1; subst; inversion H2; subst; [auto|].
  match goal with A : spec_step _ _ _ _, B : spec_step _ _ _ _ |- _ => destruct (spec_step_det _ _ _ _ _ _ A B) as [-> ->] end.
  match goal with A : spec_run os _ _ _, B : spec_run os _ _ _ |- _ => destruct (IH _ _ _ _ _ A B) as [-> ->] end. auto.
Qed.

Lemma same_graph_get g h : same_graph g h <-> forall a, dget a g = dget a h.
Proof.
  unfold same_graph, contains, dmem, api_meta, get_parents, get_children. split.
  - intros H a. specialize (H a). destruct (dget a g) as [x|], (dget a h) as [y|]; destruct H as (H1 & H2 & H3 & H4); try discriminate; [|reflexivity].
    injection H2 as E1 E2 E3. injection H3 as H3. injection H4 as H4. f_equal. destruct x, y; cbn in *. congruence.
  - intros H a. rewrite H. auto.
Qed.
Lemma eq_correct g h : well_formed g -> well_formed h ->
  exists r, graph_eq g h = Some r /\ (r = true <-> same_graph g h).
Proof.
  intros Hg Hh. apply Inv_well_formed in Hg, Hh. destruct (graph_eq_correct g h Hg Hh) as (r & E & H).
  exists r. split; [assumption|]. rewrite same_graph_get. assumption.
Qed.

Lemma load_store_same (float_repr : Z -> str) (float_parse : str -> option Z) g :
  (forall x, is_num (float_repr x)) -> (forall x, float_parse (float_repr x) = Some x) ->
  well_formed g -> (forall a, contains g a = true -> json_safe a) ->
  exists h, load float_parse (store float_repr g) = Some h /\ well_formed h /\ same_graph h g /\ graph_eq h g = Some true.
Proof.
  intros H1 H2 Hg Hs. apply Inv_well_formed in Hg.
  destruct (load_store_eq float_repr float_parse H1 H2 g Hg) as (h & E & HI & Hget & Heq).
  - intros a Ha. apply Hs, contains_In, Ha.
  - exists h. split; [assumption|]. split; [apply Inv_well_formed; assumption|]. split; [apply same_graph_get; assumption|assumption].
Qed.
