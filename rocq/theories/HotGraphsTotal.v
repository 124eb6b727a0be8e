(** When the graphs can be stored after a rebuild. *)
From Verif Require Import Base Graph GraphSpec GraphProofs Hot HotSpec HotDirtyProofs HotSchedProofs HotGraphs HotGraphsProofs.
From Coq Require Import String ZArith Bool List Relations Lia.
Import ListNotations.
Open Scope list_scope.

Lemma lift_add_total f s m i g : ~ In f (dkeys g) -> exists g', lift (add_file f s m i [] g) = Ret g'.
Proof. intros H. destruct (add_file_cases f s m i [] g) as [([X|(x & [] & _)] & _)|(_ & g' & E & _)]; [contradiction|]. exists g'. rewrite E. reflexivity. Qed.
Lemma lift_set_total f cs g : Inv g -> In f (dkeys g) -> (forall c, In c cs -> In c (dkeys g)) -> (forall c, In c cs -> c <> f /\ ~ depends_plus g c f) -> exists g', lift (set_children f cs true g) = Ret g'.
Proof.
  intros HI Hf Hc Hn. destruct (set_children_cases f cs true g HI) as [(X & _)|(_ & g' & E & _)]; [|exists g'; rewrite E; reflexivity].
  exfalso. destruct X as [X|[(x & X & Y)|(_ & x & X & Y)]]; [contradiction|apply Y, Hc, X|]. destruct (Hn x X). destruct Y; contradiction.
Qed.
Lemma lift_remove_total f g : Inv g -> In f (dkeys g) -> pa g f = [] -> ch g f = [] -> exists g', lift (remove_file f false false g) = Ret g'.
Proof.
  intros HI Hf Hp Hc. destruct (remove_file_cases f false false g HI) as [([X|[(_ & X)|(_ & X)]] & _)|(_ & g' & E & _)]; [contradiction|contradiction|contradiction|]. exists g'. rewrite E. reflexivity.
Qed.
Lemma add_inputs_total sig files : forall gD gO gP, Inv gD -> Inv gO -> Inv gP -> NoDup files -> (forall f, In f files -> exists s, sig f = Ret s) ->
  (forall f, In f files -> ~ In f (dkeys gD) /\ ~ In f (dkeys gO) /\ ~ In f (dkeys gP)) -> exists gD' gO' gP', add_inputs sig files gD gO gP = Ret (gD', gO', gP').
Proof.
  induction files as [|f r IH]; intros gD gO gP HD HO HP Hn Hs Hf; cbn [add_inputs]; [eauto|]. inversion Hn as [|? ? Hn1 Hn2]; subst.
  destruct (Hs f (or_introl eq_refl)) as ([[s m] i] & Es). rewrite Es. destruct (Hf f (or_introl eq_refl)) as (F1 & F2 & F3).
  destruct (lift_add_total f s m i gD F1) as (gD1 & E1). rewrite E1. destruct (lift_add_total f s m i gO F2) as (gO1 & E2). rewrite E2. destruct (lift_add_total f s m i gP F3) as (gP1 & E3). rewrite E3.
  destruct (lift_add _ _ _ _ _ _ HD E1) as (_ & K1 & _ & _ & I1). destruct (lift_add _ _ _ _ _ _ HO E2) as (_ & K2 & _ & _ & I2). destruct (lift_add _ _ _ _ _ _ HP E3) as (_ & K3 & _ & _ & I3).
  apply IH; try assumption; [intros x Hx; apply Hs; right; exact Hx|]. intros x Hx. rewrite K1, K2, K3, !in_app_iff. destruct (Hf x (or_intror Hx)) as (A & B & C). assert (N : x <> f) by (intros ->; contradiction).
  cbn [In]. repeat split; intros [X|[X|[]]]; try contradiction; congruence.
Qed.
Lemma set_add_NoDup (x : str) l : NoDup l -> NoDup (set_add x l).
Proof. intros H. unfold set_add. destruct (mem x l) eqn:E; [exact H|]. apply mem_false in E. apply NoDup_app_iff. split; [exact H|]. split; [repeat constructor; intros []|]. intros y Hy [<-|[]]. contradiction. Qed.
Lemma In_set_add (x y : str) l : In x (set_add y l) <-> x = y \/ In x l.
Proof. unfold set_add. destruct (mem y l) eqn:E; [|rewrite in_app_iff; cbn; intuition congruence]. apply mem_In in E. split; [auto|intros [->|H]; assumption]. Qed.
Lemma keep_outputs_total deleted rebuilt items : forall g maybe, Inv g -> NoDup maybe -> (forall x, In x maybe -> In x (dkeys g)) ->
  exists g' maybe', keep_outputs deleted rebuilt items g maybe = Ret (g', maybe') /\ NoDup maybe' /\ forall x, In x maybe' -> In x (dkeys g').
Proof.
  induction items as [|[f n] r IH]; intros g maybe HI Hn Hm; cbn [keep_outputs]; [exists g, maybe; auto|].
  destruct (dmem f g) eqn:Ef; [apply IH; assumption|]. apply dmem_false in Ef. destruct (lift_add_total f (n_size n) (n_mtime n) (n_inode n) g Ef) as (g1 & E1). destruct (lift_add _ _ _ _ _ _ HI E1) as (_ & K1 & _ & _ & I1).
  assert (Hm1 : forall x, In x maybe -> In x (dkeys g1)) by (intros x Hx; rewrite K1; apply in_or_app; left; auto).
  destruct (n_parents n) as [|p ps].
  - destruct (mem f deleted); [apply IH; assumption|]. rewrite E1. apply IH; assumption.
  - rewrite E1. destruct (_ && _); apply IH; try assumption; [apply set_add_NoDup; exact Hn|]. intros x Hx. apply In_set_add in Hx. destruct Hx as [->|Hx]; [rewrite K1; apply in_or_app; right; left; reflexivity|auto].
Qed.
Lemma keep_placeholders_none items : (forall x n, In (x, n) items -> n_parents n = []) -> forall g maybe, keep_placeholders items g maybe = Ret (g, maybe).
Proof.
  induction items as [|[f n] r IH]; intros H g maybe; [reflexivity|]. cbn [keep_placeholders]. rewrite (H f n (or_introl eq_refl)). cbn [first_in]. destruct (negb (dmem f g)); apply IH; intros x m Hx; eapply H; right; exact Hx.
Qed.
Lemma add_outputs_total sig os : forall g, Inv g -> (forall o, In o os -> sig o <> None) -> exists g', add_outputs sig os g = Ret g'.
Proof.
  induction os as [|o r IH]; intros g HI Hs; cbn [add_outputs]; [eauto|]. destruct (dmem o g) eqn:E; [apply IH; [exact HI|intros x Hx; apply Hs; right; exact Hx]|]. apply dmem_false in E.
  destruct (sig o) as [[[s m] i]|] eqn:Es; [|destruct (Hs o (or_introl eq_refl) Es)]. destruct (lift_add_total o s m i g E) as (g1 & E1). rewrite E1. destruct (lift_add _ _ _ _ _ _ HI E1) as (_ & _ & _ & _ & I1). apply IH; [exact I1|intros x Hx; apply Hs; right; exact Hx].
Qed.
Section Link.
Context (D O : graph) (results : dict build_result) (sig : str -> option fsig).
Notation deps_of := (deps_of D results).
Notation outs_of := (outs_of O results).
Lemma children_in_ch f : children_in O f = ch O f.
Proof. unfold children_in, get_children, ch, neighbours. destruct (dget f O); reflexivity. Qed.
Lemma link_inputs_total (R : str -> str -> Prop) all files : forall gD gO, Inv gD -> Inv gO -> (forall x, ~ clos_trans str R x x) ->
  (forall f, In f files -> In f all) -> (forall f, In f files -> dget f results = None -> In f (dkeys D)) -> (forall x, In x all -> In x (dkeys gD) /\ In x (dkeys gO)) ->
  (forall f x, In f files -> In x (deps_of f) -> In x all /\ R f x) -> (forall a b, In b (ch gD a) -> R a b) ->
  (forall f o, In f files -> In o (outs_of f) -> ~ In o all /\ sig o <> None) -> (forall a b, In b (ch gO a) -> In a all) ->
  exists gD' gO', link_inputs D O results sig files gD gO = Ret (gD', gO').
Proof.
  induction files as [|f r IH]; intros gD gO HD HO HR Ha Hk Hall Hdep HgD Hout HgO; cbn [link_inputs]; [eauto|].
  assert (E0 : match dget f results with Some b => Ret (b_children b) | None => get_children D f end = Ret (deps_of f)).
  { unfold HotGraphsProofs.deps_of. destruct (dget f results) eqn:E; [reflexivity|]. pose proof (Hk f (or_introl eq_refl) E) as X. unfold get_children, ch, neighbours. apply In_dkeys_dget in X. destruct X as (n & ->). reflexivity. }
  rewrite E0. destruct (Hall f (Ha f (or_introl eq_refl))) as (F1 & F2).
  destruct (lift_set_total f (deps_of f) gD HD F1) as (gD1 & E1).
  { intros c Hc. apply Hall. eapply Hdep; [left; reflexivity|exact Hc]. }
  { intros c Hc. destruct (Hdep f c (or_introl eq_refl) Hc) as (_ & X). split; [intros ->; apply (HR f), t_step, X|]. intros Y. apply (HR f). eapply t_trans; [apply t_step; exact X|].
    clear -Y HgD. induction Y as [a b Y|a b d _ IH1 _ IH2]; [apply t_step, HgD, depends_ch, Y|eapply t_trans; eassumption]. }
  rewrite E1. destruct (lift_set _ _ _ _ HD E1) as (_ & _ & K1 & C1 & _ & I1 & _).
  assert (Eo : match dget f results with Some b => b_outputs b | None => children_in O f end = outs_of f) by (unfold HotGraphsProofs.outs_of; rewrite children_in_ch; reflexivity). rewrite Eo.
  destruct (add_outputs_total sig (outs_of f) gO HO) as (gO1 & E2); [intros o Ho; eapply Hout; [left; reflexivity|exact Ho]|]. rewrite E2. destruct (add_outputs_spec _ _ _ _ HO E2) as (I2 & _ & C2 & K2 & _).
  destruct (lift_set_total f (outs_of f) gO1 I2) as (gO2 & E3).
  { apply K2. auto. }
  { intros c Hc. apply K2. auto. }
  { intros c Hc. destruct (Hout f c (or_introl eq_refl) Hc) as (X & _). split; [intros ->; apply X, Ha; left; reflexivity|]. intros Y. apply X. apply clos_trans_t1n in Y. destruct Y as [b Y|b d Y _]; apply depends_ch in Y; rewrite C2 in Y; eapply HgO; exact Y. }
  rewrite E3. destruct (lift_set _ _ _ _ I2 E3) as (_ & _ & K3 & C3 & _ & I3 & _). apply IH; try assumption.
  - intros x Hx. apply Ha. right. exact Hx.
  - intros x Hx. apply Hk. right. exact Hx.
  - intros x Hx. destruct (Hall x Hx) as (X1 & X2). rewrite K1, K3. split; [exact X1|apply K2; auto].
  - intros x y Hx. apply Hdep. right. exact Hx.
  - intros a b. rewrite C1. destruct (str_eqb a f) eqn:E; [|apply HgD]. apply str_eqb_eq in E. subst a. intros Hb. eapply Hdep; [left; reflexivity|exact Hb].
  - intros x o Hx. apply Hout. right. exact Hx.
  - intros a b. rewrite C3, C2. destruct (str_eqb a f) eqn:E; [|apply HgO]. apply str_eqb_eq in E. subst a. intros _. apply Ha. left. reflexivity.
Qed.
End Link.
Lemma get_pa g a : In a (dkeys g) -> get_parents g a = Ret (pa g a).
Proof. intros H. apply In_dkeys_dget in H. destruct H as (n & H). unfold get_parents, pa, neighbours. rewrite H. reflexivity. Qed.
Lemma get_ch g a : In a (dkeys g) -> get_children g a = Ret (ch g a).
Proof. intros H. apply In_dkeys_dget in H. destruct H as (n & H). unfold get_children, ch, neighbours. rewrite H. reflexivity. Qed.
Lemma drop_outputs_total maybe : forall g, Inv g -> NoDup maybe -> (forall x, In x maybe -> In x (dkeys g) /\ ch g x = []) -> exists g', drop_outputs maybe g = Ret g'.
Proof.
  induction maybe as [|f r IH]; intros g HI Hn Hm; cbn [drop_outputs]; [eauto|]. inversion Hn as [|? ? N1 N2]; subst. destruct (Hm f (or_introl eq_refl)) as (F1 & F2). rewrite (get_pa g f F1).
  destruct (pa g f) as [|p ps] eqn:Ep; [|apply IH; [exact HI|exact N2|intros x Hx; apply Hm; right; exact Hx]]. destruct (lift_remove_total f g HI F1 Ep F2) as (g1 & E1). rewrite E1. destruct (lift_remove _ _ _ HI E1) as (_ & K & C & _ & _ & _ & I1 & _).
  apply IH; [exact I1|exact N2|]. intros x Hx. assert (N : x <> f) by (intros ->; contradiction). destruct (Hm x (or_intror Hx)) as (X1 & X2). rewrite (C x N), K. split; [|exact X2]. unfold remove_all. apply filter_In. split; [exact X1|]. apply negb_true_iff. apply str_eqb_neq. congruence.
Qed.
Lemma drop_placeholders_total maybe : forall g, Inv g -> NoDup maybe -> (forall x, In x maybe -> In x (dkeys g)) -> exists g', drop_placeholders maybe g = Ret g'.
Proof.
  induction maybe as [|f r IH]; intros g HI Hn Hm; cbn [drop_placeholders]; [eauto|]. inversion Hn as [|? ? N1 N2]; subst. pose proof (Hm f (or_introl eq_refl)) as F1. rewrite (get_pa g f F1), (get_ch g f F1).
  assert (Hr : forall x, In x r -> In x (dkeys g)) by (intros x Hx; apply Hm; right; exact Hx).
  destruct (pa g f) as [|p ps] eqn:Ep; [|apply IH; assumption]. destruct (ch g f) as [|p ps] eqn:Ec; [|apply IH; assumption]. destruct (lift_remove_total f g HI F1 Ep Ec) as (g1 & E1). rewrite E1. destruct (lift_remove _ _ _ HI E1) as (_ & K & _ & _ & _ & _ & I1 & _).
  apply IH; [exact I1|exact N2|]. intros x Hx. assert (N : x <> f) by (intros ->; contradiction). rewrite K. unfold remove_all. apply filter_In. split; [auto|]. apply negb_true_iff. apply str_eqb_neq. congruence.
Qed.
Theorem new_graphs_total D O P changed added_ deleted results sig inputs (R : str -> str -> Prop) :
  NoDup inputs -> (forall f, In f inputs -> exists s, input_sig changed added_ D f = Ret s) -> (forall f, In f inputs -> dget f results = None -> In f (dkeys D)) ->
  (forall x, ~ clos_trans str R x x) -> (forall f x, In f inputs -> In x (deps_of D results f) -> In x inputs /\ R f x) ->
  (forall f o, In f inputs -> In o (outs_of O results f) -> ~ In o inputs /\ sig o <> None) -> (forall x n, In (x, n) P -> n_parents n = []) ->
  exists D1 O1 P1, new_graphs D O P changed added_ deleted results [] sig inputs = Ret (D1, O1, P1).
Proof.
  intros Hn Hs Hk HR Hd Ho HP. unfold new_graphs.
  destruct (add_inputs_total (input_sig changed added_ D) inputs empty_graph empty_graph empty_graph Inv_empty Inv_empty Inv_empty Hn Hs) as (gD & gO & gP & E1); [intros f _; repeat split; intros []|]. rewrite E1.
  destruct (add_inputs_spec _ _ _ _ _ _ _ _ Inv_empty Inv_empty Inv_empty E1) as ((D1 & D2 & D3 & _) & (O1 & O2 & O3 & _) & (P1 & P2 & P3 & _)). cbn [dkeys map app empty_graph] in D2, O2, P2.
  assert (Z : forall x, ch empty_graph x = []) by reflexivity.
  assert (CD : forall x, ch gD x = []) by (intros x; rewrite D3, Z; destruct (mem x inputs); reflexivity). assert (CO : forall x, ch gO x = []) by (intros x; rewrite O3, Z; destruct (mem x inputs); reflexivity).
  destruct (keep_outputs_total deleted (dkeys results) O gO [] O1 (NoDup_nil _)) as (gO1 & mo & E2 & M1 & M2); [intros x []|]. rewrite E2.
  destruct (keep_outputs_spec _ _ _ _ _ _ _ O1 CO E2) as (Q1 & Q2 & Q3 & _ & Q5 & _).
  rewrite (keep_placeholders_none P HP). cbn [add_placeholders].
  destruct (link_inputs_total D O results sig R inputs inputs gD gO1 D1 Q1 HR) as (gD2 & gO2 & E3); try assumption; [auto|intros x Hx; rewrite D2; split; [exact Hx|apply Q3; rewrite O2; exact Hx]|intros a b X; rewrite CD in X; destruct X|intros a b X; rewrite Q2 in X; destruct X|].
  rewrite E3. destruct (link_inputs_spec D O results sig inputs gD gO1 gD2 gO2 D1 Q1 Hn) as (_ & L2 & _ & _ & _ & _ & L7 & L8 & _); [intros f Hf; apply Q3; rewrite O2; exact Hf|exact E3|].
  destruct (drop_outputs_total mo gO2 L2 M1) as (gO3 & E4).
  { intros x Hx. split; [apply L8; left; apply M2; exact Hx|]. destruct (Q5 x Hx) as [[]|(_ & X)]. rewrite O2 in X. rewrite (proj2 (L7 x X)). apply Q2. }
  rewrite E4. destruct (drop_placeholders_total inputs gP P1 Hn) as (gP3 & E5); [intros x Hx; rewrite P2; exact Hx|]. rewrite E5. eauto.
Qed.
