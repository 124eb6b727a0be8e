(** Proofs about the graph model. *)
From Verif Require Import Base Graph GraphSpec.
From Coq Require Import List ZArith Bool Relations Lia Arith.
Import ListNotations.

(** short names *)
Notation ch g a := (neighbours g DirChild a).
Notation pa g a := (neighbours g DirParent a).
Definition meta (g : graph) (a : str) := api_meta g a.

Lemma api_children_ch g a : api_children g a = ch g a.
Proof. unfold api_children, get_children, neighbours. destruct (dget a g); reflexivity. Qed.
Lemma api_parents_pa g a : api_parents g a = pa g a.
Proof. unfold api_parents, get_parents, neighbours. destruct (dget a g); reflexivity. Qed.

(** internal invariant *)
Definition Inv (g : graph) : Prop :=
  dict_wf g /\ forall a b, count b (ch g a) = count a (pa g b).

Lemma ch_key g a b : In b (ch g a) -> In a (dkeys g).
Proof.
  unfold neighbours. destruct (dget a g) eqn:E; [|intros []]. intros _. eapply dget_Some_key; eauto.
Qed.
Lemma pa_key g a b : In b (pa g a) -> In a (dkeys g).
Proof.
  unfold neighbours. destruct (dget a g) eqn:E; [|intros []]. intros _. eapply dget_Some_key; eauto.
Qed.
Lemma Inv_ch_pa g a b : Inv g -> (In b (ch g a) <-> In a (pa g b)).
Proof. intros [_ H]. rewrite !count_In, H. tauto. Qed.
Lemma Inv_ch_closed g a b : Inv g -> In b (ch g a) -> In b (dkeys g).
Proof. intros Hi H. apply Inv_ch_pa in H; [|assumption]. eapply pa_key; eauto. Qed.
Lemma Inv_pa_closed g a b : Inv g -> In b (pa g a) -> In b (dkeys g).
Proof. intros Hi H. apply Inv_ch_pa in H; [|assumption]. eapply ch_key; eauto. Qed.

Lemma Inv_well_formed g : Inv g <-> well_formed g.
Proof.
  unfold well_formed. split.
  - intros H. split; [apply H|]. repeat split; intros a b.
    + rewrite api_children_ch. intros Hb. apply dmem_In. eapply Inv_ch_closed; eauto.
    + rewrite api_parents_pa. intros Hb. apply dmem_In. eapply Inv_pa_closed; eauto.
    + rewrite api_children_ch, api_parents_pa. apply H.
  - intros (H1 & _ & _ & H2). split; [assumption|]. intros a b.
    rewrite <- api_children_ch, <- api_parents_pa. apply H2.
Qed.

(** ** effect of single updates *)
Lemma ch_dset g k n a : ch (dset k n g) a = if str_eqb a k then n_children n else ch g a.
Proof. unfold neighbours. rewrite dget_dset. destruct (str_eqb a k); reflexivity. Qed.
Lemma pa_dset g k n a : pa (dset k n g) a = if str_eqb a k then n_parents n else pa g a.
Proof. unfold neighbours. rewrite dget_dset. destruct (str_eqb a k); reflexivity. Qed.
Lemma meta_dset g k n a : meta (dset k n g) a = if str_eqb a k then Some (n_size n, n_mtime n, n_inode n) else meta g a.
Proof. unfold meta, api_meta. rewrite dget_dset. destruct (str_eqb a k); reflexivity. Qed.
Lemma ch_get g a n : dget a g = Some n -> ch g a = n_children n.
Proof. unfold neighbours. intros ->. reflexivity. Qed.
Lemma pa_get g a n : dget a g = Some n -> pa g a = n_parents n.
Proof. unfold neighbours. intros ->. reflexivity. Qed.
Lemma meta_get g a n : dget a g = Some n -> meta g a = Some (n_size n, n_mtime n, n_inode n).
Proof. unfold meta, api_meta. intros ->. reflexivity. Qed.

Lemma dset_parents_ch g c cn f a : dget c g = Some cn -> ch (dset c (with_parents f cn) g) a = ch g a.
Proof.
  intros E. rewrite ch_dset. destruct (str_eqb a c) eqn:Q; [|reflexivity].
  apply str_eqb_eq in Q. subst. simpl. symmetry. apply ch_get. assumption.
Qed.
Lemma dset_parents_pa g c cn f a : dget c g = Some cn ->
  pa (dset c (with_parents f cn) g) a = if str_eqb a c then f (pa g a) else pa g a.
Proof.
  intros E. rewrite pa_dset. destruct (str_eqb a c) eqn:Q; [|reflexivity].
  apply str_eqb_eq in Q. subst. simpl. rewrite (pa_get _ _ _ E). reflexivity.
Qed.
Lemma dset_parents_meta g c cn f a : dget c g = Some cn -> meta (dset c (with_parents f cn) g) a = meta g a.
Proof.
  intros E. rewrite meta_dset. destruct (str_eqb a c) eqn:Q; [|reflexivity].
  apply str_eqb_eq in Q. subst. simpl. symmetry. apply meta_get. assumption.
Qed.
Lemma dset_children_pa g c cn f a : dget c g = Some cn -> pa (dset c (with_children f cn) g) a = pa g a.
Proof.
  intros E. rewrite pa_dset. destruct (str_eqb a c) eqn:Q; [|reflexivity].
  apply str_eqb_eq in Q. subst. simpl. symmetry. apply pa_get. assumption.
Qed.
Lemma dset_children_ch g c cn f a : dget c g = Some cn ->
  ch (dset c (with_children f cn) g) a = if str_eqb a c then f (ch g a) else ch g a.
Proof.
  intros E. rewrite ch_dset. destruct (str_eqb a c) eqn:Q; [|reflexivity].
  apply str_eqb_eq in Q. subst. simpl. rewrite (ch_get _ _ _ E). reflexivity.
Qed.
Lemma dset_children_meta g c cn f a : dget c g = Some cn -> meta (dset c (with_children f cn) g) a = meta g a.
Proof.
  intros E. rewrite meta_dset. destruct (str_eqb a c) eqn:Q; [|reflexivity].
  apply str_eqb_eq in Q. subst. simpl. symmetry. apply meta_get. assumption.
Qed.
Lemma dkeys_dset_get (g : graph) c cn n : dget c g = Some cn -> dkeys (dset c n g) = dkeys g.
Proof. intros E. apply dkeys_dset_in. eapply dget_Some_key; eauto. Qed.

(** ** unlink loops *)
Lemma unlink_parents_spec a cs : forall g,
  (forall c, count c cs <= count a (pa g c)) ->
  exists g', unlink_parents a cs g = (None, g') /\ dkeys g' = dkeys g /\
    (forall x, ch g' x = ch g x) /\ (forall x, meta g' x = meta g x) /\
    (forall x y, count y (pa g x) = count y (pa g' x) + (if str_eqb y a then count x cs else 0)) /\
    (forall x, remove_all a (pa g' x) = remove_all a (pa g x)).
Proof.
  induction cs as [|c r IH]; intros g H; simpl.
  - exists g. repeat split; auto. intros x y. destruct (str_eqb y a); lia.
  - assert (Hc : In a (pa g c)).
    { apply count_In. specialize (H c). simpl in H. rewrite str_eqb_refl in H. lia. }
    destruct (In_dkeys_dget c g (pa_key _ _ _ Hc)) as (cn & Ecn). rewrite Ecn.
    rewrite (pa_get _ _ _ Ecn) in Hc. destruct (lremove_Some _ _ Hc) as (l & El). rewrite El.
    set (g1 := dset c (with_parents (fun _ => l) cn) g).
    assert (Hpa1 : forall x, pa g1 x = if str_eqb x c then l else pa g x).
    { intros x. unfold g1. rewrite (dset_parents_pa _ _ _ _ _ Ecn). reflexivity. }
    destruct (IH g1) as (g' & E & K & C & M & P & R).
    { intros x. rewrite Hpa1. specialize (H x). simpl in H. destruct (str_eqb x c) eqn:Q; [|lia].
      apply str_eqb_eq in Q. subst x. rewrite (pa_get _ _ _ Ecn) in H.
      pose proof (lremove_count a a _ _ El) as HC. rewrite str_eqb_refl in HC. lia. }
    exists g'. split; [assumption|]. split.
    { rewrite K. unfold g1. eapply dkeys_dset_get; eauto. }
    split. { intros x. rewrite C. unfold g1. apply dset_parents_ch; assumption. }
    split. { intros x. rewrite M. unfold g1. apply dset_parents_meta; assumption. }
    split.
    + intros x y. specialize (P x y). rewrite Hpa1 in P.
      destruct (str_eqb x c) eqn:Q.
      * apply str_eqb_eq in Q. subst x. rewrite (pa_get _ _ _ Ecn).
        rewrite (lremove_count a y _ _ El), P. destruct (str_eqb y a); lia.
      * rewrite P. destruct (str_eqb y a); lia.
    + intros x. rewrite R, Hpa1. destruct (str_eqb x c) eqn:Q; [|reflexivity].
      apply str_eqb_eq in Q. subst x. rewrite (pa_get _ _ _ Ecn). apply lremove_remove_all. assumption.
Qed.

Lemma unlink_children_spec a ps : forall g,
  (forall p, count p ps <= count a (ch g p)) ->
  exists g', unlink_children a ps g = (None, g') /\ dkeys g' = dkeys g /\
    (forall x, pa g' x = pa g x) /\ (forall x, meta g' x = meta g x) /\
    (forall x y, count y (ch g x) = count y (ch g' x) + (if str_eqb y a then count x ps else 0)) /\
    (forall x, remove_all a (ch g' x) = remove_all a (ch g x)).
Proof.
  induction ps as [|c r IH]; intros g H; simpl.
  - exists g. repeat split; auto. intros x y. destruct (str_eqb y a); lia.
  - assert (Hc : In a (ch g c)).
    { apply count_In. specialize (H c). simpl in H. rewrite str_eqb_refl in H. lia. }
    destruct (In_dkeys_dget c g (ch_key _ _ _ Hc)) as (cn & Ecn). rewrite Ecn.
    rewrite (ch_get _ _ _ Ecn) in Hc. destruct (lremove_Some _ _ Hc) as (l & El). rewrite El.
    set (g1 := dset c (with_children (fun _ => l) cn) g).
    assert (Hch1 : forall x, ch g1 x = if str_eqb x c then l else ch g x).
    { intros x. unfold g1. rewrite (dset_children_ch _ _ _ _ _ Ecn). reflexivity. }
    destruct (IH g1) as (g' & E & K & C & M & P & R).
    { intros x. rewrite Hch1. specialize (H x). simpl in H. destruct (str_eqb x c) eqn:Q; [|lia].
      apply str_eqb_eq in Q. subst x. rewrite (ch_get _ _ _ Ecn) in H.
      pose proof (lremove_count a a _ _ El) as HC. rewrite str_eqb_refl in HC. lia. }
    exists g'. split; [assumption|]. split.
    { rewrite K. unfold g1. eapply dkeys_dset_get; eauto. }
    split. { intros x. rewrite C. unfold g1. apply dset_children_pa; assumption. }
    split. { intros x. rewrite M. unfold g1. apply dset_children_meta; assumption. }
    split.
    + intros x y. specialize (P x y). rewrite Hch1 in P.
      destruct (str_eqb x c) eqn:Q.
      * apply str_eqb_eq in Q. subst x. rewrite (ch_get _ _ _ Ecn).
        rewrite (lremove_count a y _ _ El), P. destruct (str_eqb y a); lia.
      * rewrite P. destruct (str_eqb y a); lia.
    + intros x. rewrite R, Hch1. destruct (str_eqb x c) eqn:Q; [|reflexivity].
      apply str_eqb_eq in Q. subst x. rewrite (ch_get _ _ _ Ecn). apply lremove_remove_all. assumption.
Qed.

(** a list with no [a] left is its own [remove_all] *)
Lemma no_a_remove_all a l l' : count a l = 0 -> remove_all a l = remove_all a l' -> l = remove_all a l'.
Proof. intros H E. rewrite <- E. symmetry. apply remove_all_none. apply count_not_In. assumption. Qed.

Lemma existsb_not_in (g : graph) cs :
  existsb (fun c => negb (dmem c g)) cs = true <-> exists c, In c cs /\ ~ In c (dkeys g).
Proof.
  rewrite existsb_exists. split; intros (c & H1 & H2); exists c; (split; [assumption|]).
  - apply negb_true_iff, dmem_false in H2. assumption.
  - apply negb_true_iff, dmem_false. assumption.
Qed.
Lemma existsb_all_in (g : graph) cs :
  existsb (fun c => negb (dmem c g)) cs = false <-> forall c, In c cs -> In c (dkeys g).
Proof.
  split.
  - intros H c Hc. destruct (in_dec str_eq_dec c (dkeys g)) as [|n]; [assumption|].
    assert (existsb (fun c => negb (dmem c g)) cs = true) by (apply existsb_not_in; eauto). congruence.
  - intros H. apply not_true_iff_false. rewrite existsb_not_in. intros (c & H1 & H2). auto.
Qed.

(** ** add_file *)
Lemma add_loop_spec a cs : forall g n,
  (forall c, In c cs -> In c (dkeys g)) -> ~ In a (dkeys g) ->
  exists g' n', add_loop a cs g n = (None, g', n') /\ dkeys g' = dkeys g /\
    (forall x, ch g' x = ch g x) /\ (forall x, meta g' x = meta g x) /\
    (forall x, pa g' x = pa g x ++ repeat a (count x cs)) /\
    n' = mkNode (n_size n) (n_mtime n) (n_inode n) (n_parents n) (n_children n ++ cs).
Proof.
  induction cs as [|c r IH]; intros g n Hin Ha; simpl.
  - exists g, n. repeat split; auto.
    + intros x. rewrite app_nil_r. reflexivity.
    + destruct n. simpl. rewrite app_nil_r. reflexivity.
  - destruct (In_dkeys_dget c g (Hin c (or_introl eq_refl))) as (cn & Ecn). rewrite Ecn.
    set (g1 := dset c (with_parents (fun l => l ++ [a]) cn) g).
    assert (K1 : dkeys g1 = dkeys g) by (unfold g1; eapply dkeys_dset_get; eauto).
    destruct (IH g1 (with_children (fun l => l ++ [c]) n)) as (g' & n' & E & K & C & M & P & N).
    { intros x Hx. rewrite K1. apply Hin. right. assumption. }
    { rewrite K1. assumption. }
    exists g', n'. split; [assumption|]. split; [congruence|].
    split. { intros x. rewrite C. unfold g1. apply dset_parents_ch; assumption. }
    split. { intros x. rewrite M. unfold g1. apply dset_parents_meta; assumption. }
    split.
    + intros x. rewrite P. unfold g1. rewrite (dset_parents_pa _ _ _ _ _ Ecn).
      destruct (str_eqb x c); [rewrite <- app_assoc; reflexivity|reflexivity].
    + rewrite N. simpl. rewrite <- app_assoc. reflexivity.
Qed.

Lemma add_file_fail a s m i cs g : In a (dkeys g) \/ (exists c, In c cs /\ ~ In c (dkeys g)) ->
  add_file a s m i cs g = (Some ValueError, g).
Proof.
  intros H. unfold add_file. destruct (dmem a g) eqn:E; [reflexivity|].
  destruct (existsb _ cs) eqn:E2; [reflexivity|].
  apply dmem_false in E. destruct H as [H|H]; [contradiction|].
  apply existsb_not_in in H. congruence.
Qed.
Lemma dset_new_app (g : graph) a n : ~ In a (dkeys g) -> dset a n g = g ++ [(a, n)].
Proof.
  induction g as [|[k v] r IH]; simpl; intros H; [reflexivity|].
  destruct (str_eqb a k) eqn:E; [apply str_eqb_eq in E; subst; exfalso; auto|].
  f_equal. apply IH. auto.
Qed.

Lemma add_file_ok a s m i cs g : ~ In a (dkeys g) -> (forall c, In c cs -> In c (dkeys g)) ->
  exists g', add_file a s m i cs g = (None, g') /\ dkeys g' = dkeys g ++ [a] /\
   (forall x, ch g' x = if str_eqb x a then cs else ch g x) /\
   (forall x, pa g' x = if str_eqb x a then [] else pa g x ++ repeat a (count x cs)) /\
   (forall x, meta g' x = if str_eqb x a then Some (s, m, i) else meta g x).
Proof.
  intros Ha Hcs. unfold add_file.
  rewrite (proj2 (dmem_false a g) Ha). rewrite (proj2 (existsb_all_in g cs) Hcs).
  destruct (add_loop_spec a cs g (mkNode s m i [] []) Hcs Ha) as (g' & n' & E & K & C & M & P & N).
  rewrite E. exists (dset a n' g'). split; [reflexivity|]. split.
  - rewrite dkeys_dset_new; [congruence|]. rewrite K. assumption.
  - subst n'. split; [|split]; intros x.
    + rewrite ch_dset. destruct (str_eqb x a); [reflexivity|apply C].
    + rewrite pa_dset. destruct (str_eqb x a); [reflexivity|apply P].
    + rewrite meta_dset. destruct (str_eqb x a); [reflexivity|apply M].
Qed.

Lemma count_repeat x a n : count x (repeat a n) = if str_eqb x a then n else 0.
Proof.
  induction n as [|n IH]; simpl; [destruct (str_eqb x a); reflexivity|].
  rewrite IH. destruct (str_eqb x a); reflexivity.
Qed.

(** ** remove_file *)
Lemma clear_parents_spec a g :
  dkeys (clear_parents_of a g) = dkeys g /\
  (forall x, ch (clear_parents_of a g) x = ch g x) /\
  (forall x, meta (clear_parents_of a g) x = meta g x) /\
  (forall x, pa (clear_parents_of a g) x = if str_eqb x a then [] else pa g x).
Proof.
  unfold clear_parents_of. destruct (dget a g) eqn:E.
  - split; [eapply dkeys_dset_get; eauto|]. split; [intros; apply dset_parents_ch; assumption|].
    split; [intros; apply dset_parents_meta; assumption|]. intros x. rewrite (dset_parents_pa _ _ _ _ _ E).
    reflexivity.
  - repeat split; auto. intros x. destruct (str_eqb x a) eqn:Q; [|reflexivity].
    apply str_eqb_eq in Q. subst. unfold neighbours. rewrite E. reflexivity.
Qed.
Lemma clear_children_spec a g :
  dkeys (clear_children_of a g) = dkeys g /\
  (forall x, pa (clear_children_of a g) x = pa g x) /\
  (forall x, meta (clear_children_of a g) x = meta g x) /\
  (forall x, ch (clear_children_of a g) x = if str_eqb x a then [] else ch g x).
Proof.
  unfold clear_children_of. destruct (dget a g) eqn:E.
  - split; [eapply dkeys_dset_get; eauto|]. split; [intros; apply dset_children_pa; assumption|].
    split; [intros; apply dset_children_meta; assumption|]. intros x. rewrite (dset_children_ch _ _ _ _ _ E).
    reflexivity.
  - repeat split; auto. intros x. destruct (str_eqb x a) eqn:Q; [|reflexivity].
    apply str_eqb_eq in Q. subst. unfold neighbours. rewrite E. reflexivity.
Qed.

Lemma ddel_keys (g : graph) a : dict_wf g -> forall x, In x (dkeys (ddel a g)) <-> In x (dkeys g) /\ x <> a.
Proof.
  intros Hwf x. rewrite <- !dmem_In. unfold dmem. rewrite dget_ddel by assumption.
  destruct (str_eqb x a) eqn:Q.
  - apply str_eqb_eq in Q. intuition congruence.
  - apply str_eqb_neq in Q. intuition congruence.
Qed.
Lemma dkeys_ddel_remove (g : graph) a : dict_wf g -> dkeys (ddel a g) = remove_all a (dkeys g).
Proof.
  unfold dict_wf. induction g as [|[k v] r IH]; simpl; intros H; [reflexivity|].
  inversion H; subst. destruct (str_eqb a k) eqn:E; simpl.
  - apply str_eqb_eq in E. subst. symmetry. apply remove_all_none. assumption.
  - f_equal. apply IH. assumption.
Qed.
Lemma nonempty_false l : nonempty l = false <-> l = [].
Proof. destruct l; simpl; split; congruence. Qed.

Lemma remove_file_fail a cp cc g :
  (~ In a (dkeys g) \/ (cp = false /\ pa g a <> []) \/ (cc = false /\ ch g a <> [])) ->
  remove_file a cp cc g = (Some ValueError, g).
Proof.
  intros H. unfold remove_file. destruct (dget a g) as [n|] eqn:E; [|reflexivity].
  rewrite (pa_get _ _ _ E), (ch_get _ _ _ E) in H.
  destruct H as [H|[[-> H]|[-> H]]].
  - exfalso. apply H. eapply dget_Some_key; eauto.
  - destruct (n_parents n); [congruence|reflexivity].
  - destruct (nonempty (n_parents n) && negb cp); [reflexivity|].
    destruct (n_children n); [congruence|reflexivity].
Qed.

Lemma remove_file_ok a cp cc g : Inv g -> In a (dkeys g) ->
  (cp = true \/ pa g a = []) -> (cc = true \/ ch g a = []) ->
  exists g', remove_file a cp cc g = (None, g') /\ dkeys g' = remove_all a (dkeys g) /\
   (forall x, ch g' x = if str_eqb x a then [] else remove_all a (ch g x)) /\
   (forall x, pa g' x = if str_eqb x a then [] else remove_all a (pa g x)) /\
   (forall x, meta g' x = if str_eqb x a then None else meta g x).
Proof.
  intros [Hwf Hsym] Ha Hp Hc. unfold remove_file.
  destruct (In_dkeys_dget a g Ha) as (n & E). rewrite E.
  rewrite (pa_get _ _ _ E) in Hp. rewrite (ch_get _ _ _ E) in Hc.
  assert (E1 : nonempty (n_parents n) && negb cp = false).
  { destruct Hp as [-> | ->]; [apply andb_false_r|reflexivity]. }
  assert (E2 : nonempty (n_children n) && negb cc = false).
  { destruct Hc as [-> | ->]; [apply andb_false_r|reflexivity]. }
  rewrite E1, E2. rewrite <- (pa_get _ _ _ E).
  destruct (unlink_children_spec a (pa g a) g) as (g1 & U1 & K1 & P1 & M1 & C1 & R1).
  { intros p. rewrite Hsym. lia. }
  rewrite U1.
  assert (C1' : forall x, ch g1 x = remove_all a (ch g x)).
  { intros x. apply no_a_remove_all; [|apply R1].
    specialize (C1 x a). rewrite str_eqb_refl, <- Hsym in C1. lia. }
  destruct (clear_parents_spec a g1) as (K2 & C2 & M2 & P2).
  set (g2 := clear_parents_of a g1) in *.
  destruct (unlink_parents_spec a (ch g2 a) g2) as (g3 & U3 & K3 & C3 & M3 & P3 & R3).
  { intros c. rewrite C2, C1', count_remove_all, P2, P1.
    destruct (str_eqb c a); [lia|]. rewrite Hsym. lia. }
  rewrite U3.
  assert (P3' : forall x, pa g3 x = if str_eqb x a then [] else remove_all a (pa g x)).
  { intros x. destruct (str_eqb x a) eqn:Q.
    - specialize (R3 x). specialize (P3 x). rewrite P2, Q in P3.
      destruct (pa g3 x) as [|y l]; [reflexivity|]. specialize (P3 y). simpl in P3. rewrite str_eqb_refl in P3. lia.
    - assert (HR : remove_all a (pa g3 x) = remove_all a (pa g x)).
      { rewrite R3, P2, Q, P1. reflexivity. }
      apply no_a_remove_all; [|assumption].
      specialize (P3 x a). rewrite str_eqb_refl, P2, Q, P1, C2, C1', count_remove_all, Q, Hsym in P3. lia. }
  destruct (clear_children_spec a g3) as (K4 & P4 & M4 & C4).
  set (g4 := clear_children_of a g3) in *.
  assert (Wf4 : dict_wf g4) by (unfold dict_wf; rewrite K4, K3, K2, K1; assumption).
  exists (ddel a g4). split; [reflexivity|]. split.
  { rewrite dkeys_ddel_remove by assumption. congruence. }
  split; [|split]; intros x.
  - unfold neighbours at 1. rewrite dget_ddel by assumption. destruct (str_eqb x a) eqn:Q; [reflexivity|].
    change (ch g4 x = remove_all a (ch g x)). rewrite C4, Q, C3, C2. apply C1'.
  - unfold neighbours at 1. rewrite dget_ddel by assumption. destruct (str_eqb x a) eqn:Q; [reflexivity|].
    change (pa g4 x = remove_all a (pa g x)). rewrite P4, P3', Q. reflexivity.
  - unfold meta at 1, api_meta. rewrite dget_ddel by assumption. destruct (str_eqb x a) eqn:Q; [reflexivity|].
    change (meta g4 x = meta g x). rewrite M4, M3, M2, M1. reflexivity.
Qed.

(** ** set_children *)
Lemma link_loop_spec a cs : forall g,
  In a (dkeys g) -> (forall c, In c cs -> In c (dkeys g)) ->
  exists g', link_loop a cs g = (None, g') /\ dkeys g' = dkeys g /\
    (forall x, meta g' x = meta g x) /\
    (forall x, ch g' x = if str_eqb x a then ch g x ++ cs else ch g x) /\
    (forall x, pa g' x = pa g x ++ repeat a (count x cs)).
Proof.
  induction cs as [|c r IH]; intros g Ha Hcs; simpl.
  - exists g. repeat split; auto; intros x; rewrite ?app_nil_r; destruct (str_eqb x a); reflexivity.
  - destruct (In_dkeys_dget c g (Hcs c (or_introl eq_refl))) as (cn & Ecn). rewrite Ecn.
    set (g1 := dset c (with_parents (fun l => l ++ [a]) cn) g).
    assert (K1 : dkeys g1 = dkeys g) by (unfold g1; eapply dkeys_dset_get; eauto).
    destruct (In_dkeys_dget a g1) as (an & Ean); [rewrite K1; assumption|]. rewrite Ean.
    set (g2 := dset a (with_children (fun l => l ++ [c]) an) g1).
    assert (K2 : dkeys g2 = dkeys g1) by (unfold g2; eapply dkeys_dset_get; eauto).
    destruct (IH g2) as (g' & E & K & M & C & P).
    { rewrite K2, K1. assumption. }
    { intros x Hx. rewrite K2, K1. apply Hcs. right. assumption. }
    exists g'. split; [assumption|]. split; [congruence|].
    split. { intros x. rewrite M. unfold g2. rewrite dset_children_meta by assumption. apply dset_parents_meta; assumption. }
    split; intros x.
    + rewrite C. unfold g2. rewrite (dset_children_ch _ _ _ _ _ Ean).
      unfold g1. rewrite !(dset_parents_ch _ _ _ _ _ Ecn).
      destruct (str_eqb x a); [rewrite <- app_assoc; reflexivity|reflexivity].
    + rewrite P. unfold g2. rewrite (dset_children_pa _ _ _ _ _ Ean).
      unfold g1. rewrite (dset_parents_pa _ _ _ _ _ Ecn).
      destruct (str_eqb x c); [rewrite <- app_assoc; reflexivity|reflexivity].
Qed.

Lemma set_children_missing a cs pc g :
  (~ In a (dkeys g) \/ exists c, In c cs /\ ~ In c (dkeys g)) ->
  set_children a cs pc g = (Some ValueError, g).
Proof.
  intros H. unfold set_children. destruct (dget a g) eqn:E; [|reflexivity].
  destruct H as [H|H]; [exfalso; apply H; eapply dget_Some_key; eauto|].
  apply existsb_not_in in H. rewrite H. reflexivity.
Qed.

Definition cyc (g : graph) (a : str) (cs : list str) (pc : bool) : res bool :=
  if pc then any_cyclic g a cs else Ret false.

Lemma set_children_rejected a cs pc g : In a (dkeys g) -> (forall c, In c cs -> In c (dkeys g)) ->
  (cyc g a cs pc = Ret true \/ cyc g a cs pc = Raise ValueError) ->
  set_children a cs pc g = (Some ValueError, g).
Proof.
  intros Ha Hcs H. unfold set_children. destruct (In_dkeys_dget a g Ha) as (n & E). rewrite E.
  rewrite (proj2 (existsb_all_in g cs) Hcs). unfold cyc in H. destruct H as [-> | ->]; reflexivity.
Qed.

Lemma set_children_ok a cs pc g : Inv g -> In a (dkeys g) -> (forall c, In c cs -> In c (dkeys g)) ->
  cyc g a cs pc = Ret false ->
  exists g', set_children a cs pc g = (None, g') /\ dkeys g' = dkeys g /\
    (forall x, meta g' x = meta g x) /\
    (forall x, ch g' x = if str_eqb x a then cs else ch g x) /\
    (forall x, pa g' x = remove_all a (pa g x) ++ repeat a (count x cs)).
Proof.
  intros [Hwf Hsym] Ha Hcs H. unfold set_children. destruct (In_dkeys_dget a g Ha) as (n & E). rewrite E.
  rewrite (proj2 (existsb_all_in g cs) Hcs). unfold cyc in H. rewrite H.
  rewrite <- (ch_get _ _ _ E).
  destruct (unlink_parents_spec a (ch g a) g) as (g1 & U1 & K1 & C1 & M1 & P1 & R1).
  { intros c. rewrite Hsym. lia. }
  rewrite U1.
  assert (P1' : forall x, pa g1 x = remove_all a (pa g x)).
  { intros x. apply no_a_remove_all; [|apply R1]. specialize (P1 x a).
    rewrite str_eqb_refl, Hsym in P1. lia. }
  destruct (clear_children_spec a g1) as (K2 & P2 & M2 & C2).
  destruct (link_loop_spec a cs (clear_children_of a g1)) as (g' & L & K & M & C & P).
  { rewrite K2, K1. assumption. } { intros c Hc. rewrite K2, K1. auto. }
  exists g'. split; [assumption|]. split; [congruence|]. split; [|split]; intros x.
  - rewrite M, M2, M1. reflexivity.
  - rewrite C, C2, C1. destruct (str_eqb x a); reflexivity.
  - rewrite P, P2, P1'. reflexivity.
Qed.

(** ** BFS *)
Section BFS.
Context (g : graph) (d : direction).
Definition R (x y : str) : Prop := In y (neighbours g d x).
Hypothesis closed : forall x y, R x y -> In y (dkeys g).

Lemma push_unseen_spec ns : forall queue seen queue' seen',
  push_unseen ns queue seen = (queue', seen') ->
  exists new, queue' = queue ++ new /\ (forall x, In x seen' <-> In x seen \/ In x new) /\
    (forall x, In x new -> In x ns /\ ~ In x seen) /\ (forall x, In x ns -> In x seen') /\ NoDup new.
Proof.
  induction ns as [|c r IH]; intros queue seen queue' seen' H; simpl in H.
  - injection H as <- <-. exists []. rewrite app_nil_r. simpl. intuition. constructor.
  - destruct (mem c seen) eqn:E.
    + destruct (IH _ _ _ _ H) as (new & Hq & Hs & Hn & Hr & Hd). exists new. split; [assumption|].
      split; [assumption|]. split; [intros x Hx; destruct (Hn x Hx); simpl; auto|]. split; [|assumption].
      intros x [->|Hx]; [|auto]. apply Hs. left. apply mem_In. assumption.
    + apply mem_false in E. destruct (IH _ _ _ _ H) as (new & Hq & Hs & Hn & Hr & Hd). exists (c :: new).
      split; [rewrite Hq, <- app_assoc; reflexivity|]. split.
      * intros x. rewrite Hs. simpl. intuition.
      * split; [|split].
        -- intros x [->|Hx]; [simpl; auto|]. destruct (Hn x Hx) as (H1 & H2). simpl in *. split; auto.
        -- intros x [->|Hx]; [|auto]. apply Hs. left. left. reflexivity.
        -- constructor; [|assumption]. intros Hx. destruct (Hn c Hx) as (_ & H2). apply H2. left. reflexivity.
Qed.

Definition unseen (seen : list str) : list str := filter (fun k => negb (mem k seen)) (nodup str_eq_dec (dkeys g)).
Lemma unseen_In seen k : In k (unseen seen) <-> In k (dkeys g) /\ ~ In k seen.
Proof. unfold unseen. rewrite filter_In, nodup_In, negb_true_iff, mem_false. tauto. Qed.
Lemma unseen_NoDup seen : NoDup (unseen seen).
Proof. apply NoDup_filter, NoDup_nodup. Qed.
Lemma unseen_length seen : length (unseen seen) <= length g.
Proof.
  rewrite <- (length_dkeys g). apply NoDup_incl_length; [apply unseen_NoDup|].
  intros k Hk. apply unseen_In in Hk. tauto.
Qed.

Lemma bfs_total fuel : forall b queue seen,
  length queue + length (unseen seen) < fuel ->
  (forall x, In x queue -> In x seen) ->
  bfs fuel g d b queue seen <> None.
Proof.
  induction fuel as [|fuel IH]; intros b queue seen Hf Hq; [lia|]. simpl.
  destruct queue as [|item rest]; [discriminate|].
  destruct (str_eqb item b); [discriminate|].
  destruct (push_unseen (neighbours g d item) rest seen) as [queue' seen'] eqn:E.
  destruct (push_unseen_spec _ _ _ _ _ E) as (new & Q & S & N & _ & D).
  apply IH.
  - subst queue'. rewrite app_length.
    assert (length (new ++ unseen seen') <= length (unseen seen)).
    { apply NoDup_incl_length.
      - assert (Hdisj : forall x, In x new -> ~ In x (unseen seen')).
        { intros x Hx Hu. apply unseen_In in Hu. destruct Hu as (_ & Hu). apply Hu. apply S. right. assumption. }
        pose proof (unseen_NoDup seen') as HU. revert Hdisj D. clear - HU. induction new as [|y l IHl]; simpl; intros Hd Hn; [assumption|].
        inversion Hn; subst. constructor; [|apply IHl; [intros; apply Hd; auto|assumption]].
        rewrite in_app_iff. intros [H'|H']; [contradiction|]. apply (Hd y); auto.
      - intros x Hx. apply in_app_iff in Hx. apply unseen_In. destruct Hx as [Hx|Hx].
        + destruct (N x Hx) as (H1 & H2). split; [eapply closed; exact H1|assumption].
        + apply unseen_In in Hx. destruct Hx as (H1 & H2). split; [assumption|]. intros H3. apply H2, S. left. assumption. }
    rewrite app_length in H. simpl in Hf. lia.
  - intros x Hx. subst queue'. apply in_app_iff in Hx. apply S. destruct Hx; [left; apply Hq; right; assumption|right; assumption].
Qed.

Lemma bfs_correct fuel a : forall b queue seen r,
  (forall x, In x queue -> In x seen) ->
  (forall x, In x seen -> clos_trans str R a x) ->
  (forall y, R a y -> In y seen) ->
  (forall x, In x seen -> In x queue \/ (x <> b /\ forall y, R x y -> In y seen)) ->
  bfs fuel g d b queue seen = Some r -> (r = true <-> clos_trans str R a b).
Proof.
  induction fuel as [|fuel IH]; intros b queue seen r Hq Hreach Hinit Hproc H; [discriminate|]. simpl in H.
  destruct queue as [|item rest].
  - injection H as <-. split; [discriminate|]. intros Hab. exfalso.
    assert (Hseen : forall y, clos_trans str R a y -> In y seen).
    { intros y Hy. apply clos_trans_tn1 in Hy. induction Hy as [y Hy|y z Hyz Hy IHy]; [auto|].
      destruct (Hproc _ IHy) as [[]|(_ & Hn)]. auto. }
    destruct (Hproc _ (Hseen _ Hab)) as [[]|(Hn & _)]. congruence.
  - destruct (str_eqb item b) eqn:E.
    + injection H as <-. split; [|reflexivity]. intros _. apply str_eqb_eq in E. subst.
      apply Hreach, Hq. left. reflexivity.
    + apply str_eqb_neq in E.
      destruct (push_unseen (neighbours g d item) rest seen) as [queue' seen'] eqn:Ep.
      destruct (push_unseen_spec _ _ _ _ _ Ep) as (new & Q & S & N & A & D).
      apply (IH b queue' seen' r); auto.
      * intros x Hx. subst queue'. apply in_app_iff in Hx. apply S. destruct Hx; [left; apply Hq; right; assumption|right; assumption].
      * intros x Hx. apply S in Hx. destruct Hx as [Hx|Hx]; [auto|].
        eapply t_trans; [apply Hreach, Hq; left; reflexivity|]. apply t_step. apply N. assumption.
      * intros y Hy. apply S. left. auto.
      * intros x Hx. apply S in Hx. destruct Hx as [Hx|Hx].
        -- destruct (Hproc x Hx) as [[->|Hr]|(Hn & Hy)].
           ++ right. split; [assumption|]. intros y Hy. apply A. assumption.
           ++ left. subst queue'. apply in_app_iff. auto.
           ++ right. split; [assumption|]. intros y Hxy. apply S. left. auto.
        -- left. subst queue'. apply in_app_iff. auto.
Qed.

Lemma check_tree_correct a b : exists r, check_tree g d a b = Some r /\ (r = true <-> clos_trans str R a b).
Proof.
  unfold check_tree. set (ns := neighbours g d a).
  destruct (bfs (S (length ns + length g)) g d b ns ns) as [r|] eqn:E.
  - exists r. split; [reflexivity|]. eapply (bfs_correct _ a b ns ns r); [| | | |exact E]; auto.
    intros x Hx. apply t_step. assumption.
  - exfalso. apply (bfs_total (S (length ns + length g)) b ns ns); [|auto|assumption].
    pose proof (unseen_length ns). lia.
Qed.
End BFS.

Lemma clos_trans_converse {A} (R1 R2 : A -> A -> Prop) :
  (forall x y, R1 x y <-> R2 y x) -> forall x y, clos_trans A R1 x y <-> clos_trans A R2 y x.
Proof.
  intros H x y. split; intros C; induction C as [? ? C|]; try (apply t_step; apply H; assumption); eapply t_trans; eauto.
Qed.
Lemma clos_trans_ext {A} (R1 R2 : A -> A -> Prop) :
  (forall x y, R1 x y -> R2 x y) -> forall x y, clos_trans A R1 x y -> clos_trans A R2 x y.
Proof. intros H x y C. induction C; [apply t_step; auto|eapply t_trans; eauto]. Qed.

Lemma depends_ch g a b : depends g a b <-> In b (ch g a).
Proof. unfold depends. rewrite api_children_ch. tauto. Qed.

Lemma check_nested_spec g a b : Inv g ->
  (a = b \/ ~ In a (dkeys g) \/ ~ In b (dkeys g)) /\ check_nested_relationship g a b = Raise ValueError
  \/ (a <> b /\ In a (dkeys g) /\ In b (dkeys g)) /\
     exists r, check_nested_relationship g a b = Ret r /\
       match r with
       | RCyclic => depends_plus g b a /\ depends_plus g a b
       | RChild => depends_plus g b a /\ ~ depends_plus g a b
       | RParent => ~ depends_plus g b a /\ depends_plus g a b
       | RUnrelated => ~ depends_plus g b a /\ ~ depends_plus g a b
       end.
Proof.
  intros HI. unfold check_nested_relationship.
  destruct (str_eqb a b) eqn:E; [apply str_eqb_eq in E; left; auto|]. apply str_eqb_neq in E.
  destruct (dmem a g) eqn:Ea; simpl; [|apply dmem_false in Ea; left; auto]. apply dmem_In in Ea.
  destruct (dmem b g) eqn:Eb; simpl; [|apply dmem_false in Eb; left; auto]. apply dmem_In in Eb.
  right. split; [auto|].
  destruct (check_tree_correct g DirParent (fun x y => Inv_pa_closed g x y HI) a b) as (rp & -> & Hp).
  destruct (check_tree_correct g DirChild (fun x y => Inv_ch_closed g x y HI) a b) as (rc & -> & Hc).
  assert (Hp' : rp = true <-> depends_plus g b a).
  { rewrite Hp. apply clos_trans_converse. intros x y. rewrite depends_ch. symmetry. unfold R.
    apply Inv_ch_pa. assumption. }
  assert (Hc' : rc = true <-> depends_plus g a b).
  { rewrite Hc. split; apply clos_trans_ext; intros x y; rewrite depends_ch; auto. }
  clear Hp Hc. destruct rp, rc; simpl; eexists; (split; [reflexivity|]); simpl;
    rewrite <- Hp', <- Hc'; split; congruence.
Qed.

Lemma any_cyclic_spec g a cs : Inv g -> In a (dkeys g) -> (forall c, In c cs -> In c (dkeys g)) ->
  (any_cyclic g a cs = Ret false /\ forall c, In c cs -> c <> a /\ ~ depends_plus g c a)
  \/ ((any_cyclic g a cs = Ret true \/ any_cyclic g a cs = Raise ValueError)
      /\ exists c, In c cs /\ (c = a \/ depends_plus g c a)).
Proof.
  intros HI Ha. induction cs as [|c r IH]; intros Hcs; simpl.
  - left. split; [reflexivity|]. intros c [].
  - destruct (check_nested_spec g a c HI) as [(Hf & ->)|((Hne & _ & _) & rel & -> & Hrel)].
    + right. split; [auto|]. exists c. split; [auto|]. destruct Hf as [->|[Hf|Hf]]; [auto|contradiction|].
      exfalso. apply Hf, Hcs. left. reflexivity.
    + destruct (is_cyclic_or_child rel) eqn:Er.
      * right. split; [auto|]. exists c. split; [auto|]. right. destruct rel; try discriminate; tauto.
      * assert (Hn : ~ depends_plus g c a) by (destruct rel; try discriminate; tauto).
        destruct IH as [(E & H)|(E & x & Hx & H)]; [intros x Hx; apply Hcs; right; assumption| |].
        -- left. split; [assumption|]. intros x [<-|Hx]; [split; [congruence|assumption]|auto].
        -- right. split; [assumption|]. exists x. split; [right; assumption|assumption].
Qed.

(** [set_children] fails or succeeds exactly as specified *)
Definition set_bad (g : graph) a cs pc : Prop :=
  ~ In a (dkeys g) \/ (exists c, In c cs /\ ~ In c (dkeys g))
  \/ (pc = true /\ exists c, In c cs /\ (c = a \/ depends_plus g c a)).

Lemma set_children_cases a cs pc g : Inv g ->
  (set_bad g a cs pc /\ set_children a cs pc g = (Some ValueError, g))
  \/ ((In a (dkeys g) /\ (forall c, In c cs -> In c (dkeys g)) /\
       (pc = true -> forall c, In c cs -> c <> a /\ ~ depends_plus g c a)) /\
      exists g', set_children a cs pc g = (None, g') /\ dkeys g' = dkeys g /\
    (forall x, meta g' x = meta g x) /\
    (forall x, ch g' x = if str_eqb x a then cs else ch g x) /\
    (forall x, pa g' x = remove_all a (pa g x) ++ repeat a (count x cs))).
Proof.
  intros HI.
  destruct (in_dec str_eq_dec a (dkeys g)) as [Ha|Ha];
    [|left; split; [left; assumption|apply set_children_missing; auto]].
  destruct (existsb (fun c => negb (dmem c g)) cs) eqn:Ec.
  { apply existsb_not_in in Ec. left. split; [right; left; assumption|apply set_children_missing; auto]. }
  pose proof (proj1 (existsb_all_in g cs) Ec) as Hcs.
  destruct pc.
  - destruct (any_cyclic_spec g a cs HI Ha Hcs) as [(E & H)|(E & H)].
    + right. split; [auto|]. apply (set_children_ok a cs true g HI Ha Hcs). assumption.
    + left. split; [right; right; auto|]. apply set_children_rejected; auto.
  - right. split; [split; [auto|split; [auto|discriminate]]|]. apply (set_children_ok a cs false g HI Ha Hcs). reflexivity.
Qed.

Lemma not_nil_ex (l : list str) : l <> [] <-> exists x, In x l.
Proof.
  destruct l as [|x r]; split.
  - congruence.
  - intros (x & []).
  - intros _. exists x. left. reflexivity.
  - discriminate.
Qed.

Lemma remove_file_cases a cp cc g : Inv g ->
  ((~ In a (dkeys g) \/ (cp = false /\ pa g a <> []) \/ (cc = false /\ ch g a <> []))
     /\ remove_file a cp cc g = (Some ValueError, g))
  \/ ((In a (dkeys g) /\ (cp = true \/ pa g a = []) /\ (cc = true \/ ch g a = [])) /\
   exists g', remove_file a cp cc g = (None, g') /\ dkeys g' = remove_all a (dkeys g) /\
   (forall x, ch g' x = if str_eqb x a then [] else remove_all a (ch g x)) /\
   (forall x, pa g' x = if str_eqb x a then [] else remove_all a (pa g x)) /\
   (forall x, meta g' x = if str_eqb x a then None else meta g x)).
Proof.
  intros HI.
  destruct (in_dec str_eq_dec a (dkeys g)) as [Ha|Ha];
    [|left; split; [left; assumption|apply remove_file_fail; auto]].
  assert (Hp : (cp = false /\ pa g a <> []) \/ (cp = true \/ pa g a = [])).
  { destruct cp; [auto|]. destruct (pa g a); [auto|left; split; [reflexivity|discriminate]]. }
  assert (Hc : (cc = false /\ ch g a <> []) \/ (cc = true \/ ch g a = [])).
  { destruct cc; [auto|]. destruct (ch g a); [auto|left; split; [reflexivity|discriminate]]. }
  destruct Hp as [Hp|Hp]; [left; split; [tauto|apply remove_file_fail; tauto]|].
  destruct Hc as [Hc|Hc]; [left; split; [tauto|apply remove_file_fail; tauto]|].
  right. split; [auto|]. apply remove_file_ok; assumption.
Qed.

Lemma add_file_cases a s m i cs g :
  ((In a (dkeys g) \/ exists c, In c cs /\ ~ In c (dkeys g)) /\ add_file a s m i cs g = (Some ValueError, g))
  \/ ((~ In a (dkeys g) /\ forall c, In c cs -> In c (dkeys g)) /\
  exists g', add_file a s m i cs g = (None, g') /\ dkeys g' = dkeys g ++ [a] /\
   (forall x, ch g' x = if str_eqb x a then cs else ch g x) /\
   (forall x, pa g' x = if str_eqb x a then [] else pa g x ++ repeat a (count x cs)) /\
   (forall x, meta g' x = if str_eqb x a then Some (s, m, i) else meta g x)).
Proof.
  destruct (in_dec str_eq_dec a (dkeys g)) as [Ha|Ha];
    [left; split; [left; assumption|apply add_file_fail; auto]|].
  destruct (existsb (fun c => negb (dmem c g)) cs) eqn:Ec.
  { apply existsb_not_in in Ec. left. split; [auto|apply add_file_fail; auto]. }
  pose proof (proj1 (existsb_all_in g cs) Ec) as Hcs.
  right. split; [auto|]. apply add_file_ok; assumption.
Qed.

(** ** invariant preservation *)
Lemma Inv_empty : Inv empty_graph.
Proof. split; [constructor|]. intros a b. reflexivity. Qed.

Lemma count_self_other a x : str_eqb x a = false -> forall (l : list str), ~ In x l -> count x l = 0.
Proof. intros _ l H. apply count_not_In. assumption. Qed.

Lemma Inv_run_op o g : Inv g -> Inv (snd (run_op o g)).
Proof.
  intros HI. destruct o as [a s m i cs|a cp cc|a cs pc]; simpl.
  - destruct (add_file_cases a s m i cs g) as [(_ & ->)|((Ha & Hcs) & g' & -> & K & C & P & M)]; [assumption|]. simpl.
    split. { unfold dict_wf. rewrite K. apply NoDup_snoc; [apply HI|assumption]. }
    intros x y. rewrite C, P.
    destruct (str_eqb x a) eqn:Ex; destruct (str_eqb y a) eqn:Ey.
    + apply str_eqb_eq in Ey. subst y. simpl. apply count_not_In. intros H. apply Ha, Hcs. assumption.
    + rewrite count_app, count_repeat, Ex. apply str_eqb_eq in Ex. subst x.
      assert (count a (pa g y) = 0); [|lia]. rewrite <- (proj2 HI).
      apply count_not_In. intros H. apply ch_key in H. contradiction.
    + apply str_eqb_eq in Ey. subst y. simpl. apply count_not_In. intros H.
      apply (Inv_ch_closed g x a HI) in H. contradiction.
    + rewrite count_app, count_repeat, Ex, (proj2 HI). lia.
  - destruct (remove_file_cases a cp cc g HI) as [(_ & ->)|(_ & g' & -> & K & C & P & M)]; [assumption|]. simpl.
    split. { unfold dict_wf. rewrite K. apply NoDup_filter. apply HI. }
    intros x y. rewrite C, P.
    destruct (str_eqb x a) eqn:Ex; destruct (str_eqb y a) eqn:Ey; simpl; rewrite ?count_remove_all, ?Ex, ?Ey; try reflexivity.
    apply HI.
  - destruct (set_children_cases a cs pc g HI) as [(_ & ->)|(_ & g' & -> & K & M & C & P)]; [assumption|]. simpl.
    split. { unfold dict_wf. rewrite K. apply HI. }
    intros x y. rewrite C, P, count_app, count_repeat, count_remove_all.
    destruct (str_eqb x a) eqn:Ex; [reflexivity|]. rewrite (proj2 HI). lia.
Qed.

Lemma run_ops_snd os : forall g, snd (run_ops os g) = fold_left (fun g o => snd (run_op o g)) os g.
Proof.
  induction os as [|o r IH]; intros g; simpl; [reflexivity|].
  destruct (run_op o g) as [e g1]. specialize (IH g1). simpl in *.
  destruct (run_ops r g1) as [es g2]. simpl in *. exact IH.
Qed.

Lemma Inv_run_ops os : forall g, Inv g -> Inv (snd (run_ops os g)).
Proof.
  intros g HI. rewrite run_ops_snd. revert g HI.
  induction os as [|o r IH]; intros g HI; simpl; [assumption|]. apply IH, Inv_run_op, HI.
Qed.

(** ** acyclicity *)
(** paths that stop at the first visit of [a] *)
Lemma clos_trans_avoid (R1 R2 : str -> str -> Prop) (a : str) :
  (forall x y, x <> a -> R1 x y -> R2 x y) ->
  forall x, x <> a -> clos_trans str R1 x a -> clos_trans str R2 x a.
Proof.
  intros H x Hx C. apply clos_trans_t1n in C. remember a as z eqn:Ez. revert Ez.
  induction C as [x y Hxy|x y z Hxy Hyz IH]; intros ->.
  - apply t_step. apply H; assumption.
  - destruct (str_eq_dec y a) as [->|Hy].
    + apply t_step. apply H; assumption.
    + eapply t_trans; [apply t_step; apply H; eassumption|]. apply IH; auto.
Qed.

(** a path either passes through [a] or consists of edges leaving other nodes *)
Lemma clos_trans_split (R1 R2 : str -> str -> Prop) (a : str) :
  (forall x y, x <> a -> R1 x y -> R2 x y) ->
  forall x y, clos_trans str R1 x y ->
    clos_trans str R2 x y \/ ((x = a \/ clos_trans str R1 x a) /\ clos_trans str R1 a y).
Proof.
  intros H x y C. apply clos_trans_t1n in C. induction C as [x y Hxy|x y z Hxy Hyz IH].
  - destruct (str_eq_dec x a) as [->|Hx]; [right; split; [auto|apply t_step; assumption]|left; apply t_step; auto].
  - apply clos_t1n_trans in Hyz. destruct (str_eq_dec x a) as [->|Hx].
    + right. split; [auto|]. eapply t_trans; [apply t_step; eassumption|assumption].
    + destruct IH as [IH|[[->|IH1] IH2]].
      * left. eapply t_trans; [apply t_step; apply H; eassumption|assumption].
      * right. split; [right; apply t_step; assumption|assumption].
      * right. split; [right; eapply t_trans; [apply t_step; eassumption|assumption]|assumption].
Qed.

(** the updated edge relation of [set_children] *)

Lemma upd_cycle_iff g a cs :
  clos_trans str (upd_depends g a cs) a a <-> exists c, In c cs /\ (c = a \/ depends_plus g c a).
Proof.
  assert (H12 : forall x y, x <> a -> upd_depends g a cs x y -> depends g x y).
  { intros x y Hx. unfold upd_depends. apply str_eqb_neq in Hx. rewrite Hx. auto. }
  assert (H21 : forall x y, x <> a -> depends g x y -> upd_depends g a cs x y).
  { intros x y Hx. unfold upd_depends. apply str_eqb_neq in Hx. rewrite Hx. auto. }
  split.
  - intros C. apply clos_trans_t1n in C. inversion C as [y Hy|y z Hy Hz]; subst.
    + unfold upd_depends in Hy. rewrite str_eqb_refl in Hy. eauto.
    + unfold upd_depends in Hy. rewrite str_eqb_refl in Hy. exists y. split; [assumption|].
      destruct (str_eq_dec y a) as [|Hya]; [auto|]. right. apply clos_t1n_trans in Hz.
      eapply clos_trans_avoid; eauto.
  - intros (c & Hc & H). assert (Hac : upd_depends g a cs a c) by (unfold upd_depends; rewrite str_eqb_refl; assumption).
    destruct (str_eq_dec c a) as [->|Hca]; [apply t_step; assumption|].
    destruct H as [|H]; [contradiction|]. eapply t_trans; [apply t_step; eassumption|].
    eapply clos_trans_avoid; eauto.
Qed.


Lemma acyclic_run_op o g : Inv g -> acyclic g -> prevents_cycles o -> acyclic (snd (run_op o g)).
Proof.
  intros HI HA Hp. destruct o as [a s m i cs|a cp cc|a cs pc]; simpl in *.
  - destruct (add_file_cases a s m i cs g) as [(_ & ->)|((Ha & Hcs) & g' & -> & K & C & P & M)]; [assumption|]. simpl.
    assert (H12 : forall x y, x <> a -> depends g' x y -> depends g x y).
    { intros x y Hx. rewrite !depends_ch, C. apply str_eqb_neq in Hx. rewrite Hx. auto. }
    assert (Hno : forall x, ~ depends g' x a).
    { intros x. rewrite depends_ch, C. destruct (str_eqb x a); [intros H; apply Ha, Hcs, H|].
      intros H. apply Ha. eapply Inv_ch_closed; eauto. }
    assert (Hno' : forall x, ~ depends_plus g' x a).
    { intros x H. apply clos_trans_tn1 in H. inversion H; subst; eapply Hno; eauto. }
    intros x Hx. destruct (clos_trans_split _ _ a H12 _ _ Hx) as [H|(H & H2)].
    + apply (HA x). assumption.
    + destruct H as [->|H]; [eapply Hno'; eauto|eapply Hno'; eauto].
  - destruct (remove_file_cases a cp cc g HI) as [(_ & ->)|(_ & g' & -> & K & C & P & M)]; [assumption|]. simpl.
    intros x Hx. apply (HA x). revert Hx. apply clos_trans_ext. intros u v. rewrite !depends_ch, C.
    destruct (str_eqb u a); [intros []|]. rewrite remove_all_In. tauto.
  - subst pc. destruct (set_children_cases a cs true g HI) as [(_ & ->)|((Ha & Hcs & Hc) & g' & -> & K & M & C & P)]; [assumption|]. simpl.
    assert (HE : forall x y, depends g' x y <-> upd_depends g a cs x y).
    { intros x y. rewrite depends_ch, C. unfold upd_depends. destruct (str_eqb x a); [tauto|]. rewrite depends_ch. tauto. }
    assert (Hna : ~ clos_trans str (upd_depends g a cs) a a).
    { rewrite upd_cycle_iff. intros (c & Hc1 & Hc2). destruct (Hc eq_refl c Hc1). tauto. }
    intros x Hx. apply (clos_trans_ext _ (upd_depends g a cs)) in Hx; [|intros; apply HE; assumption].
    assert (H12 : forall x y, x <> a -> upd_depends g a cs x y -> depends g x y).
    { intros u y Hu. unfold upd_depends. apply str_eqb_neq in Hu. rewrite Hu. auto. }
    destruct (clos_trans_split _ _ a H12 _ _ Hx) as [H|(H & H2)]; [apply (HA x); assumption|].
    apply Hna. destruct H as [->|H]; [assumption|]. eapply t_trans; eauto.
Qed.

Lemma acyclic_run_ops os : forall g, Inv g -> acyclic g -> (forall o, In o os -> prevents_cycles o) ->
  acyclic (snd (run_ops os g)).
Proof.
  intros g. rewrite run_ops_snd. revert g.
  induction os as [|o r IH]; intros g HI HA Hp; simpl; [assumption|].
  apply IH; [apply Inv_run_op, HI|apply acyclic_run_op; auto; apply Hp; left; reflexivity|].
  intros o' H. apply Hp. right. assumption.
Qed.
Lemma acyclic_empty : acyclic empty_graph.
Proof.
  intros a H. apply clos_trans_t1n in H. inversion H as [y Hy|y z Hy _]; subst; destruct Hy.
Qed.

(** ** refinement to the abstract graph *)
Lemma describes_children s g a : describes s g -> a_children s a = api_children g a.
Proof.
  intros (K & H). unfold a_children. destruct (dget a s) as [[m l]|] eqn:E.
  - symmetry. eapply H; eauto.
  - apply dget_None in E. rewrite K in E. apply dget_None in E.
    unfold api_children, get_children. rewrite E. reflexivity.
Qed.
Lemma describes_depends s g : describes s g -> forall x y, a_depends s x y <-> depends g x y.
Proof. intros H x y. unfold a_depends, depends. rewrite (describes_children _ _ _ H). tauto. Qed.
Lemma describes_plus s g : describes s g -> forall x y, clos_trans str (a_depends s) x y <-> depends_plus g x y.
Proof. intros H x y. split; apply clos_trans_ext; intros; apply (describes_depends _ _ H); assumption. Qed.

Lemma dget_app {V} (s1 s2 : dict V) a : dget a (s1 ++ s2) = match dget a s1 with Some v => Some v | None => dget a s2 end.
Proof. induction s1 as [|[k v] r IH]; simpl; [reflexivity|]. destruct (str_eqb a k); auto. Qed.
Lemma dget_map {V W} (f : str * V -> W) (s : dict V) a :
  dget a (map (fun p => (fst p, f p)) s) = match dget a s with Some v => Some (f (a, v)) | None => None end.
Proof.
  induction s as [|[k v] r IH]; simpl; [reflexivity|]. destruct (str_eqb a k) eqn:E; [|assumption].
  apply str_eqb_eq in E. subst. reflexivity.
Qed.
Lemma dkeys_map {V W} (f : str * V -> W) (s : dict V) : dkeys (map (fun p => (fst p, f p)) s) = dkeys s.
Proof. induction s as [|[k v] r IH]; simpl; congruence. Qed.

Lemma dkeys_ddel_remove_gen {V} (g : dict V) a : dict_wf g -> dkeys (ddel a g) = remove_all a (dkeys g).
Proof.
  unfold dict_wf. induction g as [|[k v] r IH]; simpl; intros H; [reflexivity|].
  inversion H; subst. destruct (str_eqb a k) eqn:E; simpl.
  - apply str_eqb_eq in E. subst. symmetry. apply remove_all_none. assumption.
  - f_equal. apply IH. assumption.
Qed.

Lemma remove_map_eq a (s : agraph) :
  map (fun '(p, (m, l)) => (p, (m, remove_all a l))) s =
  map (fun p => (fst p, (fst (snd p), remove_all a (snd (snd p))))) s.
Proof. apply map_ext. intros [p [m l]]. reflexivity. Qed.
Lemma set_map_eq a cs (s : agraph) :
  map (fun '(p, (m, l)) => (p, (m, if str_eqb p a then cs else l))) s =
  map (fun p => (fst p, (fst (snd p), if str_eqb (fst p) a then cs else snd (snd p)))) s.
Proof. apply map_ext. intros [p [m l]]. reflexivity. Qed.

Lemma refine_step o g s : Inv g -> describes s g ->
  exists s', spec_step o s (is_ok (fst (run_op o g))) s' /\ describes s' (snd (run_op o g)).
Proof.
  intros HI HD. pose proof (describes_children s g) as HCh. pose proof HD as (HK & HM).
  destruct o as [a sz m i cs|a cp cc|a cs pc]; simpl.
  - destruct (add_file_cases a sz m i cs g) as [(Hf & ->)|((Ha & Hcs) & g' & -> & K & C & P & M)]; simpl.
    + exists s. split; [|assumption]. apply ss_add_fail. rewrite HK. assumption.
    + eexists. split; [apply ss_add_ok; rewrite HK; assumption|]. split.
      * unfold dkeys at 1. rewrite map_app. simpl. rewrite K. f_equal. assumption.
      * intros x mm l. rewrite dget_app. rewrite api_children_ch, C. change (api_meta g' x) with (meta g' x). rewrite M.
        destruct (dget x s) as [[m0 l0]|] eqn:E.
        -- intros [= <- <-]. destruct (str_eqb x a) eqn:Q.
           ++ apply str_eqb_eq in Q. subst. apply dget_Some_key in E. rewrite HK in E. contradiction.
           ++ rewrite <- api_children_ch. apply HM. assumption.
        -- simpl. destruct (str_eqb x a) eqn:Q; [|discriminate]. intros [= <- <-]. auto.
  - destruct (remove_file_cases a cp cc g HI) as [(Hf & ->)|((Ha & Hp & Hc) & g' & -> & K & C & P & M)]; simpl.
    + exists s. split; [|assumption]. apply ss_remove_fail. rewrite HK.
      destruct Hf as [Hf|[(-> & Hf)|(-> & Hf)]]; [auto| |].
      * right. left. split; [reflexivity|]. apply not_nil_ex in Hf. destruct Hf as (p & Hp). exists p.
        apply (describes_depends _ _ HD), depends_ch, Inv_ch_pa; assumption.
      * right. right. split; [reflexivity|]. rewrite (HCh a HD), api_children_ch. assumption.
    + eexists. split; [apply ss_remove_ok|].
      * rewrite HK. assumption.
      * destruct Hp as [Hp|Hp]; [auto|]. right. intros p Hd.
        apply (describes_depends _ _ HD), depends_ch, Inv_ch_pa in Hd; [|assumption]. rewrite Hp in Hd. destruct Hd.
      * destruct Hc as [Hc|Hc]; [auto|]. right. rewrite (HCh a HD), api_children_ch. assumption.
      * assert (Hwf : dict_wf s) by (unfold dict_wf; rewrite HK; apply HI). rewrite remove_map_eq. split.
        -- rewrite (dkeys_map (fun p => (fst (snd p), remove_all a (snd (snd p))))). rewrite dkeys_ddel_remove_gen by assumption.
           rewrite K, HK. reflexivity.
        -- intros x mm l. rewrite (dget_map (fun p => (fst (snd p), remove_all a (snd (snd p))))), dget_ddel by assumption.
           rewrite api_children_ch, C. change (api_meta g' x) with (meta g' x). rewrite M.
           destruct (str_eqb x a) eqn:Q; [discriminate|].
           destruct (dget x s) as [[m0 l0]|] eqn:E; [|discriminate]. simpl. intros [= <- <-].
           destruct (HM _ _ _ E) as (H1 & H2). split; [assumption|]. rewrite <- api_children_ch, H2. reflexivity.
  - destruct (set_children_cases a cs pc g HI) as [(Hf & ->)|((Ha & Hcs & Hc) & g' & -> & K & M & C & P)]; simpl.
    + exists s. split; [|assumption]. apply ss_set_fail. rewrite HK.
      destruct Hf as [Hf|[Hf|(-> & c & Hc1 & Hc2)]]; [auto|auto|]. right. right. split; [reflexivity|]. exists c.
      split; [assumption|]. rewrite (describes_plus _ _ HD). assumption.
    + eexists. split; [apply ss_set_ok|].
      * rewrite HK. assumption.
      * rewrite HK. assumption.
      * intros Hpc c Hin. rewrite (describes_plus _ _ HD). auto.
      * rewrite set_map_eq. split.
        -- rewrite (dkeys_map (fun p => (fst (snd p), if str_eqb (fst p) a then cs else snd (snd p)))). congruence.
        -- intros x mm l. rewrite (dget_map (fun p => (fst (snd p), if str_eqb (fst p) a then cs else snd (snd p)))).
           rewrite api_children_ch, C. change (api_meta g' x) with (meta g' x). rewrite M.
           destruct (dget x s) as [[m0 l0]|] eqn:E; [|discriminate]. simpl. intros [= <- <-].
           destruct (HM _ _ _ E) as (H1 & H2). split; [assumption|].
           destruct (str_eqb x a); [reflexivity|]. rewrite <- api_children_ch. assumption.
Qed.

Lemma refine_run os : forall g s, Inv g -> describes s g ->
  exists s', spec_run os s (map is_ok (fst (run_ops os g))) s' /\ describes s' (snd (run_ops os g)).
Proof.
  induction os as [|o r IH]; intros g s HI HD; simpl.
  - exists s. split; [constructor|assumption].
  - destruct (refine_step o g s HI HD) as (s1 & H1 & D1).
    pose proof (Inv_run_op o g HI) as HI1.
    destruct (run_op o g) as [e g1] eqn:E. simpl in *.
    destruct (IH g1 s1 HI1 D1) as (s2 & H2 & D2).
    destruct (run_ops r g1) as [es g2]. simpl in *.
    exists s2. split; [econstructor; eauto|assumption].
Qed.

(** parents of a described graph *)
Lemma describes_parents s g a p : Inv g -> describes s g ->
  count p (api_parents g a) = count a (a_children s p).
Proof.
  intros HI HD. rewrite (describes_children _ _ _ HD), api_children_ch, api_parents_pa. symmetry. apply HI.
Qed.

(** failing operations *)
Lemma run_op_fail_unchanged o g : Inv g -> fst (run_op o g) <> None -> snd (run_op o g) = g.
Proof.
  intros HI. destruct o as [a s m i cs|a cp cc|a cs pc]; simpl.
  - destruct (add_file_cases a s m i cs g) as [(_ & ->)|(_ & g' & -> & _)]; simpl; congruence.
  - destruct (remove_file_cases a cp cc g HI) as [(_ & ->)|(_ & g' & -> & _)]; simpl; congruence.
  - destruct (set_children_cases a cs pc g HI) as [(_ & ->)|(_ & g' & -> & _)]; simpl; congruence.
Qed.
Lemma run_op_fail_value_error o g e : Inv g -> fst (run_op o g) = Some e -> e = ValueError.
Proof.
  intros HI. destruct o as [a s m i cs|a cp cc|a cs pc]; simpl.
  - destruct (add_file_cases a s m i cs g) as [(_ & ->)|(_ & g' & -> & _)]; simpl; congruence.
  - destruct (remove_file_cases a cp cc g HI) as [(_ & ->)|(_ & g' & -> & _)]; simpl; congruence.
  - destruct (set_children_cases a cs pc g HI) as [(_ & ->)|(_ & g' & -> & _)]; simpl; congruence.
Qed.

(** direct relationship *)
Lemma existsb_eq_In b l : existsb (fun p => str_eqb p b) l = true <-> In b l.
Proof.
  rewrite existsb_exists. split.
  - intros (x & H & E). apply str_eqb_eq in E. subst. assumption.
  - intros H. exists b. split; [assumption|apply str_eqb_refl].
Qed.
Lemma check_direct_spec g a b : Inv g ->
  (a = b \/ ~ In a (dkeys g) \/ ~ In b (dkeys g)) /\ check_direct_relationship g a b = Raise ValueError
  \/ (a <> b /\ In a (dkeys g) /\ In b (dkeys g)) /\
     exists r, check_direct_relationship g a b = Ret r /\
       match r with
       | RCyclic => depends g b a /\ depends g a b
       | RChild => depends g b a /\ ~ depends g a b
       | RParent => ~ depends g b a /\ depends g a b
       | RUnrelated => ~ depends g b a /\ ~ depends g a b
       end.
Proof.
  intros HI. unfold check_direct_relationship.
  destruct (str_eqb a b) eqn:E; [apply str_eqb_eq in E; left; auto|]. apply str_eqb_neq in E.
  destruct (dget a g) as [n|] eqn:Ea; [|apply dget_None in Ea; left; auto].
  pose proof (dget_Some_key _ _ _ Ea) as Hka.
  rewrite <- (pa_get _ _ _ Ea), <- (ch_get _ _ _ Ea).
  pose proof (existsb_eq_In b (pa g a)) as HP. pose proof (existsb_eq_In b (ch g a)) as HC.
  rewrite <- Inv_ch_pa in HP by assumption. rewrite <- depends_ch in HP, HC.
  assert (Hb : forall x, depends g x b -> In b (dkeys g)) by (intros x Hx; apply depends_ch in Hx; eapply Inv_ch_closed; eauto).
  assert (Hb' : forall x, depends g b x -> In b (dkeys g)) by (intros x Hx; apply depends_ch in Hx; eapply ch_key; eauto).
  destruct (existsb (fun p => str_eqb p b) (pa g a)), (existsb (fun p => str_eqb p b) (ch g a)); simpl.
  - right. split; [repeat split; auto; eapply Hb; apply HC; reflexivity|]. eexists. split; [reflexivity|]. simpl. intuition.
  - right. split; [repeat split; auto; eapply Hb'; apply HP; reflexivity|]. eexists. split; [reflexivity|]. simpl.
    rewrite <- HC, <- HP. split; congruence.
  - right. split; [repeat split; auto; eapply Hb; apply HC; reflexivity|]. eexists. split; [reflexivity|]. simpl.
    rewrite <- HC, <- HP. split; congruence.
  - destruct (dmem b g) eqn:Eb; simpl.
    + right. apply dmem_In in Eb. split; [auto|]. eexists. split; [reflexivity|]. simpl. rewrite <- HC, <- HP. split; congruence.
    + left. apply dmem_false in Eb. auto.
Qed.
