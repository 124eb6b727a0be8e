(** What the graphs stored after a rebuild contain. *)
From Verif Require Import Base Graph GraphSpec GraphProofs Hot HotSpec HotDirtyProofs HotSchedProofs HotGraphs.
From Coq Require Import String ZArith Bool List Relations Lia.
Import ListNotations.
Open Scope list_scope.

(** ** single calls *)
Lemma lift_add f s m i g g' : Inv g -> lift (add_file f s m i [] g) = Ret g' ->
  ~ In f (dkeys g) /\ dkeys g' = dkeys g ++ [f] /\ (forall x, ch g' x = if str_eqb x f then [] else ch g x) /\
  (forall x, meta g' x = if str_eqb x f then Some (s, m, i) else meta g x) /\ Inv g'.
Proof.
  intros HI H. pose proof (Inv_run_op (OpAdd f s m i []) g HI) as HI'. simpl in HI'.
  destruct (add_file_cases f s m i [] g) as [(_ & E)|((Ha & _) & g1 & E & K & C & P & M)]; rewrite E in H; simpl in H; [discriminate|].
  injection H as <-. rewrite E in HI'. auto 6.
Qed.
Lemma lift_set f cs g g' : Inv g -> lift (set_children f cs true g) = Ret g' ->
  In f (dkeys g) /\ (forall c, In c cs -> In c (dkeys g)) /\ dkeys g' = dkeys g /\
  (forall x, ch g' x = if str_eqb x f then cs else ch g x) /\ (forall x, meta g' x = meta g x) /\ Inv g' /\ (acyclic g -> acyclic g').
Proof.
  intros HI H. pose proof (Inv_run_op (OpSet f cs true) g HI) as HI'.
  assert (HA := fun Ha => acyclic_run_op (OpSet f cs true) g HI Ha eq_refl). simpl in HI', HA.
  destruct (set_children_cases f cs true g HI) as [(_ & E)|((A1 & A2 & A3) & g1 & E & K & M & C & P)]; rewrite E in H; simpl in H; [discriminate|].
  injection H as <-. rewrite E in HI', HA. simpl in *. auto 8.
Qed.
Lemma lift_remove f g g' : Inv g -> lift (remove_file f false false g) = Ret g' ->
  In f (dkeys g) /\ dkeys g' = remove_all f (dkeys g) /\ (forall x, x <> f -> ch g' x = ch g x) /\ ch g f = [] /\ pa g f = [] /\
  (forall x, x <> f -> meta g' x = meta g x) /\ Inv g' /\ (acyclic g -> acyclic g').
Proof.
  intros HI H. pose proof (Inv_run_op (OpRemove f false false) g HI) as HI'.
  assert (HA := fun Ha => acyclic_run_op (OpRemove f false false) g HI Ha I). simpl in HI', HA.
  destruct (remove_file_cases f false false g HI) as [(_ & E)|((A1 & A2 & A3) & g1 & E & K & C & P & M)]; rewrite E in H; simpl in H; [discriminate|].
  injection H as <-. rewrite E in HI', HA. simpl in *.
  destruct A2 as [A2|A2]; [discriminate|]. destruct A3 as [A3|A3]; [discriminate|].
  split; [assumption|]. split; [assumption|]. split.
  { intros x Hx. apply str_eqb_neq in Hx. rewrite C, Hx. apply remove_all_none. intros Hf.
    apply (Inv_ch_pa g x f HI) in Hf. rewrite A2 in Hf. destruct Hf. }
  split; [assumption|]. split; [assumption|]. split; [|auto].
  intros x Hx. apply str_eqb_neq in Hx. rewrite M, Hx. reflexivity.
Qed.
Lemma acyclic_add f s m i g g' : Inv g -> lift (add_file f s m i [] g) = Ret g' -> acyclic g -> acyclic g'.
Proof.
  intros HI H Ha. pose proof (acyclic_run_op (OpAdd f s m i []) g HI Ha I) as HA. simpl in HA.
  unfold lift in H. destruct (add_file f s m i [] g) as [[x|] g1]; [discriminate|]. injection H as <-. exact HA.
Qed.
Lemma acyclic_empty : acyclic empty_graph.
Proof. intros a H. apply clos_trans_t1n in H. destruct H as [y H|y z H _]; destruct H. Qed.

(** ** add_inputs *)
Definition added (sig : str -> res fsig) (files : list str) (g g' : graph) : Prop :=
  Inv g' /\ dkeys g' = dkeys g ++ files /\ (forall x, ch g' x = if mem x files then [] else ch g x) /\
  (forall x, In x files -> exists s m i, sig x = Ret (s, m, i) /\ meta g' x = Some (s, m, i)) /\
  (forall x, ~ In x files -> meta g' x = meta g x) /\ (acyclic g -> acyclic g').

Lemma added_nil sig g : Inv g -> added sig [] g g.
Proof. intros H. unfold added. rewrite app_nil_r. simpl. split; [assumption|]. split; [reflexivity|]. split; [reflexivity|]. split; [tauto|]. auto. Qed.
Lemma added_cons sig f r s m i g g1 g' : Inv g -> sig f = Ret (s, m, i) -> lift (add_file f s m i [] g) = Ret g1 ->
  added sig r g1 g' -> added sig (f :: r) g g'.
Proof.
  intros HI Es E (A1 & A2 & A3 & A4 & A5 & A6). destruct (lift_add _ _ _ _ _ _ HI E) as (D1 & D2 & D3 & D4 & D5).
  assert (Hfr : ~ In f r).
  { intros Hf. assert (HN : NoDup (dkeys g')) by apply A1. rewrite A2, D2 in HN. apply NoDup_app_iff in HN. destruct HN as (_ & _ & HN).
    apply (HN f); [apply in_or_app; right; left; reflexivity|assumption]. }
  split; [assumption|]. split; [rewrite A2, D2, <- app_assoc; reflexivity|].
  split. { intros x. rewrite A3, D3. cbn [mem existsb]. fold (mem x r). destruct (mem x r); [rewrite orb_true_r; reflexivity|].
           rewrite orb_false_r. reflexivity. }
  split. { intros x [<-|Hx]; [|auto]. exists s, m, i. split; [assumption|]. rewrite A5 by assumption. rewrite D4, str_eqb_refl. reflexivity. }
  split. { intros x Hx. rewrite A5 by (intros Hr; apply Hx; right; assumption). rewrite D4.
        destruct (str_eqb x f) eqn:E2; [|reflexivity]. apply str_eqb_eq in E2. subst. exfalso. apply Hx. left; reflexivity. }
  intros Ha. apply A6. eapply acyclic_add; [exact HI|exact E|exact Ha].
Qed.
Lemma add_inputs_spec sig files : forall gD gO gP gD' gO' gP', Inv gD -> Inv gO -> Inv gP ->
  add_inputs sig files gD gO gP = Ret (gD', gO', gP') ->
  added sig files gD gD' /\ added sig files gO gO' /\ added sig files gP gP'.
Proof.
  induction files as [|f r IH]; intros gD gO gP gD' gO' gP' HD HO HP H; cbn [add_inputs] in H.
  - injection H as <- <- <-. auto using added_nil.
  - destruct (sig f) as [[[s m] i]|] eqn:Es; [|discriminate].
    destruct (lift (add_file f s m i [] gD)) as [gD1|] eqn:ED; [|discriminate].
    destruct (lift (add_file f s m i [] gO)) as [gO1|] eqn:EO; [|discriminate].
    destruct (lift (add_file f s m i [] gP)) as [gP1|] eqn:EP; [|discriminate].
    destruct (IH gD1 gO1 gP1 gD' gO' gP') as (A & B & C); [eapply (lift_add _ _ _ _ gD); eassumption|eapply (lift_add _ _ _ _ gO); eassumption|eapply (lift_add _ _ _ _ gP); eassumption|assumption|].
    split; [eapply added_cons; [exact HD|eassumption..]|]. split; [eapply added_cons; [exact HO|eassumption..]|eapply added_cons; [exact HP|eassumption..]].
Qed.

(** ** keep_outputs *)
Lemma keep_outputs_spec deleted rebuilt items : forall g maybe g' maybe', Inv g -> (forall x, ch g x = []) ->
  keep_outputs deleted rebuilt items g maybe = Ret (g', maybe') ->
  Inv g' /\ (forall x, ch g' x = []) /\
  (forall x, In x (dkeys g) -> In x (dkeys g')) /\
  (forall x, In x (dkeys g') -> In x (dkeys g) \/ In x (map fst items)) /\
  (forall x, In x maybe' -> In x maybe \/ (In x (map fst items) /\ ~ In x (dkeys g))) /\
  (forall x, In x (dkeys g) -> meta g' x = meta g x) /\ (acyclic g -> acyclic g').
Proof.
  induction items as [|[f n] r IH]; intros g maybe g' maybe' HI Hch H; cbn [keep_outputs] in H.
  - injection H as <- <-. split; [assumption|]. split; [assumption|]. split; [auto|]. split; [auto|]. split; [auto|]. auto.
  - assert (Hskip : forall m, keep_outputs deleted rebuilt r g m = Ret (g', maybe') -> (m = maybe) ->
      Inv g' /\ (forall x, ch g' x = []) /\ (forall x, In x (dkeys g) -> In x (dkeys g')) /\
      (forall x, In x (dkeys g') -> In x (dkeys g) \/ In x (map fst ((f, n) :: r))) /\
      (forall x, In x maybe' -> In x maybe \/ (In x (map fst ((f, n) :: r)) /\ ~ In x (dkeys g))) /\
      (forall x, In x (dkeys g) -> meta g' x = meta g x) /\ (acyclic g -> acyclic g')).
    { intros m Hm ->. destruct (IH _ _ _ _ HI Hch Hm) as (A1 & A2 & A3 & A4 & A5 & A6).
      split; [assumption|]. split; [assumption|]. split; [assumption|].
      split. { intros x Hx. destruct (A4 x Hx); simpl; auto. }
      split; [|assumption]. intros x Hx. destruct (A5 x Hx) as [Hm'|Hm']; simpl; tauto. }
    assert (Hadd : dmem f g = false -> forall m, (m = maybe \/ m = set_add f maybe) ->
      match lift (add_file f (n_size n) (n_mtime n) (n_inode n) [] g) with Raise x => Raise x | Ret gO1 => keep_outputs deleted rebuilt r gO1 m end = Ret (g', maybe') ->
      Inv g' /\ (forall x, ch g' x = []) /\ (forall x, In x (dkeys g) -> In x (dkeys g')) /\
      (forall x, In x (dkeys g') -> In x (dkeys g) \/ In x (map fst ((f, n) :: r))) /\
      (forall x, In x maybe' -> In x maybe \/ (In x (map fst ((f, n) :: r)) /\ ~ In x (dkeys g))) /\
      (forall x, In x (dkeys g) -> meta g' x = meta g x) /\ (acyclic g -> acyclic g')).
    { intros Hf m Hm H1. destruct (lift (add_file f (n_size n) (n_mtime n) (n_inode n) [] g)) as [g1|] eqn:E; [|discriminate].
      destruct (lift_add _ _ _ _ _ _ HI E) as (D1 & D2 & D3 & D4 & D5).
      destruct (IH g1 m g' maybe') as (A1 & A2 & A3 & A4 & A5 & A6 & A7); [assumption| |assumption|].
      { intros x. rewrite D3. destruct (str_eqb x f); auto. }
      split; [assumption|]. split; [assumption|].
      split. { intros x Hx. apply A3. rewrite D2. apply in_or_app. auto. }
      split. { intros x Hx. destruct (A4 x Hx) as [Hx2|Hx2]; simpl; [|auto]. rewrite D2 in Hx2. apply in_app_or in Hx2. destruct Hx2 as [|[|[]]]; auto. }
      split. { intros x Hx. destruct (A5 x Hx) as [Hx2|(Hx2 & Hx3)].
               - destruct Hm as [->| ->]; [auto|]. apply set_add_In in Hx2. destruct Hx2 as [->|Hx2]; [|auto]. right. simpl. auto.
               - right. simpl. split; [auto|]. intros Hx4. apply Hx3. rewrite D2. apply in_or_app. auto. }
      split. { intros x Hx. rewrite A6 by (rewrite D2; apply in_or_app; auto). rewrite D4.
               destruct (str_eqb x f) eqn:Ex; [|reflexivity]. apply str_eqb_eq in Ex. subst. contradiction. }
      intros Ha. apply A7. eapply acyclic_add; [exact HI|exact E|exact Ha]. }
    destruct (dmem f g) eqn:Ef; [apply (Hskip maybe); auto|].
    destruct (n_parents n) as [|p ps].
    + destruct (mem f deleted); [apply (Hskip maybe); auto|]. apply (Hadd eq_refl maybe); auto.
    + revert H. match goal with |- context [if ?b then set_add f maybe else maybe] => destruct b end; intros H.
      * apply (Hadd eq_refl (set_add f maybe)); auto.
      * apply (Hadd eq_refl maybe); auto.
Qed.

(** ** placeholders *)
Lemma first_in_spec g ps p : first_in g ps = Some p -> In p ps /\ In p (dkeys g).
Proof.
  induction ps as [|q r IH]; simpl; [discriminate|]. destruct (dmem q g) eqn:E; [|intros H; destruct (IH H); auto].
  intros [= <-]. apply dmem_In in E. auto.
Qed.
Lemma first_in_some g ps p : In p ps -> In p (dkeys g) -> exists q, first_in g ps = Some q.
Proof.
  induction ps as [|q r IH]; simpl; intros Hp Hk; [destruct Hp|]. destruct (dmem q g) eqn:E; [eauto|].
  apply dmem_false in E. destruct Hp as [->|Hp]; [contradiction|auto].
Qed.
Lemma get_children_ch g a l : get_children g a = Ret l -> l = ch g a /\ In a (dkeys g).
Proof.
  unfold get_children, neighbours. destruct (dget a g) eqn:E; [|discriminate]. intros [= <-]. split; [reflexivity|]. eapply dget_Some_key; eassumption.
Qed.
Lemma get_parents_pa g a l : get_parents g a = Ret l -> l = pa g a /\ In a (dkeys g).
Proof.
  unfold get_parents, neighbours. destruct (dget a g) eqn:E; [|discriminate]. intros [= <-]. split; [reflexivity|]. eapply dget_Some_key; eassumption.
Qed.

Lemma keep_placeholders_spec items : forall g maybe g' maybe', Inv g -> keep_placeholders items g maybe = Ret (g', maybe') ->
  Inv g' /\ dkeys g' = dkeys g /\ (acyclic g -> acyclic g') /\
  (forall a b, In b (ch g a) -> In b (ch g' a)) /\
  (forall a b, In b (ch g' a) -> In b (ch g a) \/ exists n, In (b, n) items /\ In a (n_parents n)) /\
  (forall f n p, In (f, n) items -> In f (dkeys g) -> In p (n_parents n) -> In p (dkeys g) -> exists q, In q (n_parents n) /\ In f (ch g' q)) /\
  (forall x, In x maybe' -> In x maybe) /\ (forall x, meta g' x = meta g x).
Proof.
  induction items as [|[f n] r IH]; intros g maybe g' maybe' HI H; cbn [keep_placeholders] in H.
  - injection H as <- <-. split; [assumption|]. split; [reflexivity|]. split; [auto|]. split; [auto|]. split; [auto|]. split; [intros f n p []|]. auto.
  - assert (Hskip : (~ In f (dkeys g) \/ forall p, In p (n_parents n) -> ~ In p (dkeys g)) -> keep_placeholders r g maybe = Ret (g', maybe') ->
      Inv g' /\ dkeys g' = dkeys g /\ (acyclic g -> acyclic g') /\
      (forall a b, In b (ch g a) -> In b (ch g' a)) /\
      (forall a b, In b (ch g' a) -> In b (ch g a) \/ exists n0, In (b, n0) ((f, n) :: r) /\ In a (n_parents n0)) /\
      (forall f0 n0 p, In (f0, n0) ((f, n) :: r) -> In f0 (dkeys g) -> In p (n_parents n0) -> In p (dkeys g) -> exists q, In q (n_parents n0) /\ In f0 (ch g' q)) /\
      (forall x, In x maybe' -> In x maybe) /\ (forall x, meta g' x = meta g x)).
    { intros Hno H1. destruct (IH _ _ _ _ HI H1) as (A1 & A2 & A3 & A4 & A5 & A6 & A7 & A8).
      split; [assumption|]. split; [assumption|]. split; [assumption|]. split; [assumption|].
      split. { intros a b Hb. destruct (A5 a b Hb) as [Hx|(n0 & Hx & Hy)]; [auto|]. right. exists n0. simpl. auto. }
      split; [|auto]. intros f0 n0 p [[= <- <-]|Hi] Hf Hp Hk; [|eauto]. exfalso. destruct Hno as [Hno|Hno]; [auto|]. apply (Hno p); assumption. }
    destruct (dmem f g) eqn:Ef; simpl in H.
    2: { apply dmem_false in Ef. apply Hskip; auto. }
    apply dmem_In in Ef.
    destruct (first_in g (n_parents n)) as [gen|] eqn:Eg.
    2: { apply Hskip; [|assumption]. right. intros p Hp Hk. destruct (first_in_some g _ p Hp Hk) as (q & Hq). congruence. }
    destruct (first_in_spec _ _ _ Eg) as (G1 & G2).
    destruct (get_children g gen) as [cs|] eqn:Ec; [|discriminate]. apply get_children_ch in Ec. destruct Ec as (-> & _).
    destruct (lift (set_children gen (ch g gen ++ [f]) true g)) as [g1|] eqn:E; [|discriminate].
    destruct (sremove gen maybe) as [m1|] eqn:E1; [|discriminate]. destruct (sremove f m1) as [m2|] eqn:E2; [|discriminate].
    destruct (lift_set _ _ _ _ HI E) as (S1 & S2 & S3 & S4 & S5 & S6 & S7).
    destruct (IH _ _ _ _ S6 H) as (A1 & A2 & A3 & A4 & A5 & A6 & A7 & A8).
    apply sremove_spec in E1, E2.
    split; [assumption|]. split; [congruence|]. split; [auto|].
    split. { intros a b Hb. apply A4. rewrite S4. destruct (str_eqb a gen) eqn:Ea; [|assumption]. apply str_eqb_eq in Ea. subst. apply in_or_app. auto. }
    split. { intros a b Hb. destruct (A5 a b Hb) as [Hx|(n0 & Hx & Hy)].
             - rewrite S4 in Hx. destruct (str_eqb a gen) eqn:Ea; [|auto]. apply str_eqb_eq in Ea. subst. apply in_app_or in Hx.
               destruct Hx as [Hx|[<-|[]]]; [auto|]. right. exists n. simpl. auto.
             - right. exists n0. simpl. auto. }
    split. { intros f0 n0 p [[= <- <-]|Hi] Hf Hp Hk.
             - exists gen. split; [assumption|]. apply A4. rewrite S4, str_eqb_refl. apply in_or_app. right. left. reflexivity.
             - apply (A6 f0 n0 p); [assumption|rewrite S3; assumption|assumption|rewrite S3; assumption]. }
    split. { intros x Hx. apply A7 in Hx. destruct E1 as (_ & E1), E2 as (_ & E2). apply E2 in Hx. destruct Hx as (Hx & _). apply E1 in Hx. tauto. }
    intros x. rewrite A8. apply S5.
Qed.

Lemma add_placeholders_spec items : forall g g', Inv g -> add_placeholders items g = Ret g' ->
  Inv g' /\ dkeys g' = dkeys g /\ (acyclic g -> acyclic g') /\
  (forall a b, In b (ch g' a) <-> In b (ch g a) \/ In (b, a) items) /\ (forall x, meta g' x = meta g x).
Proof.
  induction items as [|[p gen] r IH]; intros g g' HI H; cbn [add_placeholders] in H.
  - injection H as <-. split; [assumption|]. split; [reflexivity|]. split; [auto|]. split; [simpl; tauto|auto].
  - destruct (get_children g gen) as [cs|] eqn:Ec; [|discriminate]. apply get_children_ch in Ec. destruct Ec as (-> & _).
    destruct (lift (set_children gen _ true g)) as [g1|] eqn:E; [|discriminate].
    destruct (lift_set _ _ _ _ HI E) as (S1 & S2 & S3 & S4 & S5 & S6 & S7).
    destruct (IH _ _ S6 H) as (A1 & A2 & A3 & A4 & A5).
    split; [assumption|]. split; [congruence|]. split; [auto|]. split; [|intros x; rewrite A5; apply S5].
    intros a b. rewrite A4, S4. simpl. destruct (str_eqb a gen) eqn:Ea.
    + apply str_eqb_eq in Ea. subst a. destruct (mem p (ch g gen)) eqn:Em.
      * apply mem_In in Em. split; [intuition|]. intros [Hb|[[= <-]|Hb]]; auto.
      * rewrite in_app_iff. simpl. split; [intros [[Hb|[<-|[]]]|Hb]; auto|]. intros [Hb|[[= <-]|Hb]]; auto.
    + apply str_eqb_neq in Ea. split; [intuition|]. intros [Hb|[[= <- <-]|Hb]]; auto. congruence.
Qed.

Lemma drop_placeholders_spec maybe : forall g g', Inv g -> drop_placeholders maybe g = Ret g' ->
  Inv g' /\ (acyclic g -> acyclic g') /\ (forall a, ch g' a = ch g a) /\ (forall x, In x (dkeys g') -> In x (dkeys g)) /\
  (forall x, In x (dkeys g) -> ch g x <> [] \/ pa g x <> [] -> In x (dkeys g')).
Proof.
  induction maybe as [|f r IH]; intros g g' HI H; cbn [drop_placeholders] in H.
  - injection H as <-. split; [assumption|]. auto.
  - destruct (get_parents g f) as [ps|] eqn:Ep; [|discriminate]. apply get_parents_pa in Ep. destruct Ep as (-> & _).
    destruct (get_children g f) as [cs|] eqn:Ec; [|discriminate]. apply get_children_ch in Ec. destruct Ec as (-> & Hk).
    destruct (pa g f) eqn:Epa; [|apply IH; assumption]. destruct (ch g f) eqn:Ech; [|apply IH; assumption].
    destruct (lift (remove_file f false false g)) as [g1|] eqn:E; [|discriminate].
    destruct (lift_remove _ _ _ HI E) as (R1 & R2 & R3 & R4 & R5 & R6 & R7 & R8).
    destruct (IH _ _ R7 H) as (A1 & A2 & A3 & A4 & A5).
    assert (Hch : forall a, ch g1 a = ch g a).
    { intros a. destruct (str_eq_dec a f) as [->|Hne]; [|auto]. rewrite R4. destruct (ch g1 f) eqn:Ex; [reflexivity|].
      exfalso. assert (Hi : In f (dkeys g1)) by (eapply ch_key; rewrite Ex; left; reflexivity). rewrite R2 in Hi. apply remove_all_In in Hi. tauto. }
    split; [assumption|]. split; [auto|]. split; [intros a; rewrite A3; apply Hch|].
    split. { intros x Hx. apply A4 in Hx. rewrite R2 in Hx. apply remove_all_In in Hx. tauto. }
    intros x Hx Hne. apply A5.
    + rewrite R2. apply remove_all_In. split; [assumption|]. intros ->. rewrite Epa, Ech in Hne. destruct Hne; congruence.
    + rewrite Hch. destruct Hne as [Hne|Hne]; [auto|]. right. intros Hp. apply Hne.
      destruct (pa g x) as [|q l] eqn:Eq; [reflexivity|]. exfalso.
      assert (Hq : In x (ch g q)). { apply (Inv_ch_pa g q x HI). rewrite Eq. left. reflexivity. }
      rewrite <- Hch in Hq. apply (Inv_ch_pa g1 q x R7) in Hq. rewrite Hp in Hq. destruct Hq.
Qed.

(** ** linking *)
Lemma add_outputs_spec sig os : forall g g', Inv g -> add_outputs sig os g = Ret g' ->
  Inv g' /\ (acyclic g -> acyclic g') /\ (forall x, ch g' x = ch g x) /\ (forall x, In x (dkeys g') <-> In x (dkeys g) \/ In x os) /\
  (forall x, In x (dkeys g) -> meta g' x = meta g x).
Proof.
  induction os as [|o r IH]; intros g g' HI H; cbn [add_outputs] in H.
  - injection H as <-. split; [assumption|]. split; [auto|]. split; [auto|]. split; [simpl; tauto|auto].
  - destruct (dmem o g) eqn:Eo.
    + apply dmem_In in Eo. destruct (IH _ _ HI H) as (A1 & A2 & A3 & A4 & A5).
      split; [assumption|]. split; [assumption|]. split; [assumption|]. split; [|assumption].
      intros x. rewrite A4. simpl. split; [tauto|]. intros [Hx|[<-|Hx]]; auto.
    + apply dmem_false in Eo. destruct (sig o) as [[[s m] i]|]; [|discriminate].
      destruct (lift (add_file o s m i [] g)) as [g1|] eqn:E; [|discriminate].
      destruct (lift_add _ _ _ _ _ _ HI E) as (D1 & D2 & D3 & D4 & D5).
      destruct (IH _ _ D5 H) as (A1 & A2 & A3 & A4 & A5).
      split; [assumption|]. split; [intros Ha; apply A2; eapply acyclic_add; [exact HI|exact E|exact Ha]|].
      split. { intros x. rewrite A3, D3. destruct (str_eqb x o) eqn:Ex; [|reflexivity]. apply str_eqb_eq in Ex. subst.
               destruct (ch g o) eqn:Ec; [reflexivity|]. exfalso. apply Eo. eapply ch_key. rewrite Ec. left. reflexivity. }
      split. { intros x. rewrite A4, D2, in_app_iff. simpl. intuition. }
      intros x Hx. rewrite A5 by (rewrite D2; apply in_or_app; auto). rewrite D4.
      destruct (str_eqb x o) eqn:Ex; [|reflexivity]. apply str_eqb_eq in Ex. subst. contradiction.
Qed.

Section Link.
Context (D O : graph) (results : dict build_result) (sig : str -> option fsig).
Definition deps_of (f : str) : list str := match dget f results with Some b => b_children b | None => ch D f end.
Definition outs_of (f : str) : list str := match dget f results with Some b => b_outputs b | None => ch O f end.

Lemma link_inputs_spec files : forall gD gO gD' gO', Inv gD -> Inv gO -> NoDup files ->
  (forall f, In f files -> In f (dkeys gO)) ->
  link_inputs D O results sig files gD gO = Ret (gD', gO') ->
  Inv gD' /\ Inv gO' /\ (acyclic gD -> acyclic gD') /\ (acyclic gO -> acyclic gO') /\ dkeys gD' = dkeys gD /\
  (forall x, In x files -> ch gD' x = deps_of x /\ ch gO' x = outs_of x) /\
  (forall x, ~ In x files -> ch gD' x = ch gD x /\ ch gO' x = ch gO x) /\
  (forall x, In x (dkeys gO') <-> In x (dkeys gO) \/ exists f, In f files /\ In x (outs_of f)) /\
  (forall x, meta gD' x = meta gD x) /\ (forall x, In x (dkeys gO) -> meta gO' x = meta gO x).
Proof.
  induction files as [|f r IH]; intros gD gO gD' gO' HD HO Hn Hk H; cbn [link_inputs] in H.
  - injection H as <- <-. split; [assumption|]. split; [assumption|]. split; [auto|]. split; [auto|]. split; [reflexivity|].
    split; [intros x []|]. split; [auto|]. split; [intros x; split; [auto|intros [Hx|(f & [] & _)]; assumption]|]. auto.
  - inversion Hn as [|? ? Hnf Hnr]; subst.
    assert (Hcs : exists cs, match dget f results with Some b => Ret (b_children b) | None => get_children D f end = Ret cs /\ cs = deps_of f).
    { unfold deps_of. destruct (dget f results) as [b|]; [eauto|]. destruct (get_children D f) as [cs|] eqn:E; [|discriminate].
      apply get_children_ch in E. exists cs. split; [reflexivity|tauto]. }
    destruct Hcs as (cs & E1 & ->). rewrite E1 in H.
    destruct (lift (set_children f (deps_of f) true gD)) as [gD1|] eqn:E2; [|discriminate].
    assert (E3 : match dget f results with Some b => b_outputs b | None => children_in O f end = outs_of f).
    { unfold outs_of. destruct (dget f results); [reflexivity|]. apply children_in_ch. }
    rewrite E3 in H.
    destruct (add_outputs sig (outs_of f) gO) as [gO1|] eqn:E4; [|discriminate].
    destruct (lift (set_children f (outs_of f) true gO1)) as [gO2|] eqn:E5; [|discriminate].
    destruct (lift_set _ _ _ _ HD E2) as (S1 & S2 & S3 & S4 & S5 & S6 & S7).
    destruct (add_outputs_spec _ _ _ _ HO E4) as (T1 & T2 & T3 & T4 & T5).
    destruct (lift_set _ _ _ _ T1 E5) as (U1 & U2 & U3 & U4 & U5 & U6 & U7).
    assert (HkO : forall x, In x (dkeys gO) -> In x (dkeys gO2)) by (intros x Hx; rewrite U3; apply T4; auto).
    destruct (IH gD1 gO2 gD' gO') as (A1 & A2 & A3 & A4 & A5 & A6 & A7 & A8 & A9 & A10); [assumption|assumption|assumption| |assumption|].
    { intros g Hg. apply HkO, Hk. right; assumption. }
    split; [assumption|]. split; [assumption|]. split; [auto|]. split; [auto|]. split; [congruence|].
    split. { intros x [<-|Hx]; [|auto]. destruct (A7 f Hnf) as (B1 & B2). rewrite B1, S4, str_eqb_refl. split; [reflexivity|].
             rewrite B2, U4, str_eqb_refl. reflexivity. }
    split. { intros x Hx. assert (Hxr : ~ In x r) by (intros Hr; apply Hx; right; assumption).
             assert (Hxf : str_eqb x f = false) by (apply str_eqb_neq; intros ->; apply Hx; left; reflexivity).
             destruct (A7 x Hxr) as (B1 & B2). rewrite B1, S4, Hxf. split; [reflexivity|]. rewrite B2, U4, Hxf. apply T3. }
    split. { intros x. rewrite A8, U3, T4. simpl. split.
             - intros [[Hx|Hx]|(g & Hg & Hx)]; [auto|right; exists f; auto|right; exists g; auto].
             - intros [Hx|(g & [<-|Hg] & Hx)]; [auto|auto|right; exists g; auto]. }
    split; [intros x; rewrite A9; apply S5|]. intros x Hx. rewrite A10 by auto. rewrite U5. apply T5. assumption.
Qed.
End Link.

Lemma drop_outputs_spec maybe : forall g g', Inv g -> drop_outputs maybe g = Ret g' ->
  Inv g' /\ (acyclic g -> acyclic g') /\ (forall a, ch g' a = ch g a) /\ (forall x, In x (dkeys g') -> In x (dkeys g)) /\
  (forall x, In x (dkeys g) -> ~ In x maybe \/ pa g x <> [] -> In x (dkeys g')) /\ (forall x, ~ In x maybe -> meta g' x = meta g x).
Proof.
  induction maybe as [|f r IH]; intros g g' HI H; cbn [drop_outputs] in H.
  - injection H as <-. split; [assumption|]. split; [auto|]. split; [auto|]. split; [auto|]. auto.
  - destruct (get_parents g f) as [ps|] eqn:Ep; [|discriminate]. apply get_parents_pa in Ep. destruct Ep as (-> & Hk).
    destruct (pa g f) eqn:Epa.
    2: { destruct (IH _ _ HI H) as (A1 & A2 & A3 & A4 & A5 & A6). split; [assumption|]. split; [assumption|]. split; [assumption|].
         split; [assumption|]. split; [|intros x Hx; apply A6; intros Hr; apply Hx; right; assumption].
         intros x Hx Hne. apply A5; [assumption|]. destruct Hne as [Hne|Hne]; [left|right; assumption]. intros Hr. apply Hne. right; assumption. }
    destruct (lift (remove_file f false false g)) as [g1|] eqn:E; [|discriminate].
    destruct (lift_remove _ _ _ HI E) as (R1 & R2 & R3 & R4 & R5 & R6 & R7 & R8).
    destruct (IH _ _ R7 H) as (A1 & A2 & A3 & A4 & A5 & A6).
    assert (Hch : forall a, ch g1 a = ch g a).
    { intros a. destruct (str_eq_dec a f) as [->|Hne]; [|auto]. rewrite R4. destruct (ch g1 f) eqn:Ex; [reflexivity|].
      exfalso. assert (Hi : In f (dkeys g1)) by (eapply ch_key; rewrite Ex; left; reflexivity). rewrite R2 in Hi. apply remove_all_In in Hi. tauto. }
    split; [assumption|]. split; [auto|]. split; [intros a; rewrite A3; apply Hch|].
    split. { intros x Hx. apply A4 in Hx. rewrite R2 in Hx. apply remove_all_In in Hx. tauto. }
    split.
    + intros x Hx Hne. apply A5.
      * rewrite R2. apply remove_all_In. split; [assumption|]. intros ->. destruct Hne as [Hne|Hne]; [apply Hne; left; reflexivity|congruence].
      * destruct Hne as [Hne|Hne]; [left; intros Hr; apply Hne; right; assumption|]. right. intros Hp. apply Hne.
        destruct (pa g x) as [|q l] eqn:Eq; [reflexivity|]. exfalso.
        assert (Hq : In x (ch g q)). { apply (Inv_ch_pa g q x HI). rewrite Eq. left. reflexivity. }
        rewrite <- Hch in Hq. apply (Inv_ch_pa g1 q x R7) in Hq. rewrite Hp in Hq. destruct Hq.
    + intros x Hx. rewrite A6 by (intros Hr; apply Hx; right; assumption). apply R6. intros ->. apply Hx. left; reflexivity.
Qed.

(** ** everything together *)
Lemma new_graphs_spec D O P changed added_ deleted results newph sig inputs D' O' P' :
  Inv D -> Inv O -> Inv P ->
  new_graphs D O P changed added_ deleted results newph sig inputs = Ret (D', O', P') ->
  (Inv D' /\ acyclic D' /\ dkeys D' = inputs /\ NoDup inputs /\
   (forall f, In f inputs -> ch D' f = deps_of D results f /\ exists s m i, input_sig changed added_ D f = Ret (s, m, i) /\ meta D' f = Some (s, m, i))) /\
  (Inv O' /\ acyclic O' /\ (forall f, In f inputs -> In f (dkeys O') /\ ch O' f = outs_of O results f /\ meta O' f = meta D' f) /\
   (forall f, ~ In f inputs -> ch O' f = []) /\
   (forall x, In x (dkeys O') -> In x inputs \/ In x (dkeys O) \/ exists f, In f inputs /\ In x (outs_of O results f))) /\
  (Inv P' /\ acyclic P' /\ (forall x, In x (dkeys P') -> In x inputs) /\
   (forall a b, In b (ch P' a) -> In (b, a) newph \/ In b (ch P a)) /\
   (forall a b, In (b, a) newph -> In b (ch P' a)) /\
   (forall a b, In b (ch P a) -> In a inputs -> In b inputs -> exists a', In b (ch P a') /\ In b (ch P' a'))).
Proof.
  intros HD HO HP H. unfold new_graphs in H.
  destruct (add_inputs _ inputs empty_graph empty_graph empty_graph) as [[[gD gO] gP]|] eqn:E1; [|discriminate].
  destruct (keep_outputs deleted (dkeys results) O gO []) as [[gO1 mo]|] eqn:E2; [|discriminate].
  destruct (keep_placeholders P gP inputs) as [[gP1 mp]|] eqn:E3; [|discriminate].
  destruct (add_placeholders newph gP1) as [gP2|] eqn:E4; [|discriminate].
  destruct (link_inputs D O results sig inputs gD gO1) as [[gD2 gO2]|] eqn:E5; [|discriminate].
  destruct (drop_outputs mo gO2) as [gO3|] eqn:E6; [|discriminate].
  destruct (drop_placeholders mp gP2) as [gP3|] eqn:E7; [|discriminate].
  injection H as <- <- <-.
  destruct (add_inputs_spec _ _ _ _ _ _ _ _ Inv_empty Inv_empty Inv_empty E1) as
    ((D1 & D2 & D3 & D4 & D5 & D6) & (O1 & O2 & O3 & O4 & O5 & O6) & (P1 & P2 & P3 & P4 & P5 & P6)).
  simpl in D2, O2, P2. specialize (D6 acyclic_empty). specialize (O6 acyclic_empty). specialize (P6 acyclic_empty).
  assert (Hempty : forall x, ch empty_graph x = []) by reflexivity.
  assert (D3' : forall x, ch gD x = []) by (intros x; rewrite D3; destruct (mem x inputs); reflexivity).
  assert (O3' : forall x, ch gO x = []) by (intros x; rewrite O3; destruct (mem x inputs); reflexivity).
  assert (P3' : forall x, ch gP x = []) by (intros x; rewrite P3; destruct (mem x inputs); reflexivity).
  assert (Hn : NoDup inputs) by (rewrite <- D2; apply D1).
  destruct (keep_outputs_spec _ _ _ _ _ _ _ O1 O3' E2) as (K1 & K2 & K3 & K4 & K5 & K6 & K7). rewrite O2 in *.
  destruct (keep_placeholders_spec _ _ _ _ _ P1 E3) as (L1 & L2 & L3 & L4 & L5 & L6 & L7 & L8). rewrite P2 in *.
  destruct (add_placeholders_spec _ _ _ L1 E4) as (M1 & M2 & M3 & M4 & M5).
  destruct (link_inputs_spec _ _ _ _ _ _ _ _ _ D1 K1 Hn K3 E5) as (N1 & N2 & N3 & N4 & N5 & N6 & N7 & N8 & N9 & N10).
  destruct (drop_outputs_spec _ _ _ N2 E6) as (Q1 & Q2 & Q3 & Q4 & Q5 & Q6).
  destruct (drop_placeholders_spec _ _ _ M1 E7) as (R1 & R2 & R3 & R4 & R5).
  assert (Hmo : forall x, In x inputs -> ~ In x mo).
  { intros x Hx Hm. destruct (K5 x Hm) as [[]|(_ & Hm2)]. contradiction. }
  split; [|split].
  - split; [assumption|]. split; [auto|]. split; [congruence|]. split; [assumption|].
    intros f Hf. split; [apply N6; assumption|]. destruct (D4 f Hf) as (s & m & i & A & B). exists s, m, i. rewrite N9. auto.
  - split; [assumption|]. split; [auto|]. split; [|split].
    + intros f Hf. split; [apply Q5; [apply N8; left; apply K3; assumption|left; auto]|].
      split; [rewrite Q3; apply N6; assumption|]. rewrite Q6 by auto. rewrite N10 by (apply K3; assumption).
      rewrite K6 by assumption. rewrite N9. destruct (D4 f Hf) as (s & m & i & A & B). destruct (O4 f Hf) as (s' & m' & i' & A' & B'). congruence.
    + intros f Hf. rewrite Q3. destruct (N7 f Hf) as (_ & B). rewrite B. apply K2.
    + intros x Hx. apply Q4, N8 in Hx. destruct Hx as [Hx|Hx]; [|auto]. destruct (K4 x Hx) as [Hx2|Hx2]; [auto|]. right. left. assumption.
  - split; [assumption|]. split; [auto|]. split; [|split; [|split]].
    + intros x Hx. apply R4 in Hx. rewrite M2, L2 in Hx. assumption.
    + intros a b Hb. rewrite R3, M4 in Hb. destruct Hb as [Hb|Hb]; [|auto]. right. destruct (L5 a b Hb) as [Hb2|(n & Hi & Hp)].
      * rewrite P3' in Hb2. destruct Hb2.
      * apply (Inv_ch_pa P a b HP). unfold neighbours. rewrite (In_dget b n P (proj1 HP) Hi). assumption.
    + intros a b Hb. rewrite R3, M4. auto.
    + intros a b Hb Ha Hbi. pose proof (Inv_ch_closed P a b HP Hb) as Hk. apply In_dkeys_dget in Hk. destruct Hk as (n & Hn2).
      apply (Inv_ch_pa P a b HP) in Hb. unfold neighbours in Hb. rewrite Hn2 in Hb.
      destruct (L6 b n a (dget_In _ _ _ Hn2) Hbi Hb Ha) as (q & Hq1 & Hq2). exists q. split.
      * apply (Inv_ch_pa P q b HP). unfold neighbours. rewrite Hn2. assumption.
      * rewrite R3, M4. auto.
Qed.
