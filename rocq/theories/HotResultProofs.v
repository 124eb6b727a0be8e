(** The state left by a successful rebuild. *)
From Verif Require Import Base Graph GraphSpec GraphProofs Hot HotSpec HotDirtyProofs HotSchedProofs HotSchedMain HotTermProofs HotMain HotGraphs HotGraphsProofs HotResultSpec.
From Coq Require Import String ZArith Bool List Relations Lia Permutation.
Import ListNotations.
Open Scope list_scope.

(** ** the recorded children of a build *)
Lemma search_producer_child D O c : forall fuel stack seen x, search_producer fuel D O c stack seen = Ret (Some x) -> depends O x c.
Proof.
  induction fuel as [|n IH]; intros stack seen x H; cbn [search_producer] in H; [discriminate|].
  destruct stack as [|f rest]; [discriminate|]. destruct (get_children O f) as [outs|] eqn:Eo; [|discriminate].
  destruct (mem c outs) eqn:Em.
  - injection H as ->. unfold depends, api_children. rewrite Eo. apply mem_In. assumption.
  - destruct (get_children D f); [|discriminate]. destruct (search_push _ _ _). eapply IH; eassumption.
Qed.
Definition good_map (prod : str -> str -> Prop) (m : dict str) : Prop := forall k x, dget k m = Some x -> is_out k = true /\ prod x k.
Lemma good_map_set prod m c x : good_map prod m -> is_out c = true -> prod x c -> good_map prod (dset c x m).
Proof.
  intros H Ho Hp k y Hk. rewrite dget_dset in Hk. destruct (str_eqb k c) eqn:E; [|auto]. apply str_eqb_eq in E. subst k. injection Hk as <-. auto.
Qed.
Lemma reinterpret_recorded (prod : str -> str -> Prop) e f raw : (forall x c, depends (e_O e) x c -> prod x c) ->
  forall m acc m' cs, good_map prod m ->
  reinterpret_children e f raw m acc = Ret (m', cs) ->
  good_map prod m' /\ (forall x, In x acc -> In x cs) /\
  (forall c, In c raw -> is_out c = false -> In c cs) /\
  (forall c, In c raw -> is_out c = true -> exists x, prod x c /\ (x = f \/ In x cs)) /\
  (forall x, In x cs -> In x acc \/ (In x raw /\ is_out x = false) \/ exists c, In c raw /\ is_out c = true /\ prod x c).
Proof.
  intros HO. induction raw as [|c r IH]; intros m acc m' cs Hm H; cbn [reinterpret_children] in H.
  - injection H as <- <-. split; [assumption|]. split; [auto|]. split; [intros c []|]. split; [intros c []|auto].
  - assert (Hcase : (exists x m1, is_out c = true /\ prod x c /\ good_map prod m1 /\
        reinterpret_children e f r m1 (if str_eqb x f then acc else acc ++ [x]) = Ret (m', cs)) \/
      (is_out c = false /\ reinterpret_children e f r m (acc ++ [c]) = Ret (m', cs))).
    { destruct (dget c m) as [x|] eqn:E.
      - left. exists x, m. destruct (Hm c x E) as (A & B). auto.
      - destruct (is_out c) eqn:Eo; [|auto]. destruct (dmem f (e_scans e)); [discriminate|].
        destruct (search_producer _ _ _ _ _ _) as [[x|]|] eqn:Es; try discriminate. left. exists x, (dset c x m). split; [reflexivity|].
        apply search_producer_child, HO in Es. split; [assumption|]. split; [apply good_map_set; assumption|assumption]. }
    destruct Hcase as [(x & m1 & Ho & Hpx & Hm1 & H1)|(Ho & H1)].
    + destruct (IH _ _ _ _ Hm1 H1) as (A1 & A2 & A3 & A4 & A5). split; [assumption|].
      split. { intros y Hy. apply A2. destruct (str_eqb x f); [assumption|apply in_or_app; auto]. }
      split. { intros y [<-|Hy] Hyo; [congruence|auto]. }
      split. { intros y [<-|Hy] Hyo; [|destruct (A4 y Hy Hyo) as (z & Z1 & Z2); exists z; auto]. exists x. split; [assumption|].
               destruct (str_eqb x f) eqn:Ex; [left; apply str_eqb_eq; assumption|].
               right. apply A2. apply in_or_app. right. left. reflexivity. }
      intros y Hy. destruct (A5 y Hy) as [Ha|[(Ha & Hb)|(c' & Ha & Hb & Hc)]].
      * destruct (str_eqb x f); [auto|]. apply in_app_or in Ha. destruct Ha as [Ha|[<-|[]]]; [auto|]. right. right. exists c.
        split; [left; reflexivity|auto].
      * right. left. split; [right; assumption|assumption].
      * right. right. exists c'. split; [right; assumption|auto].
    + destruct (IH _ _ _ _ Hm H1) as (A1 & A2 & A3 & A4 & A5). split; [assumption|].
      split. { intros y Hy. apply A2. apply in_or_app; auto. }
      split. { intros y [<-|Hy] Hyo; [|auto]. apply A2. apply in_or_app. right; left; reflexivity. }
      split. { intros y [<-|Hy] Hyo; [congruence|]. destruct (A4 y Hy Hyo) as (z & Z1 & Z2); exists z; auto. }
      intros y Hy. destruct (A5 y Hy) as [Ha|[(Ha & Hb)|(c' & Ha & Hb & Hc)]].
      * apply in_app_or in Ha. destruct Ha as [Ha|[<-|[]]]; [auto|]. right. left. split; [left; reflexivity|assumption].
      * right. left. split; [right; assumption|assumption].
      * right. right. exists c'. split; [right; assumption|auto].
Qed.

Record MInv (prod : str -> str -> Prop) (s : sched) : Prop := mkMInv {
  mi_out : good_map prod (mapping s);
  mi_rec : forall f r, dget f (results s) = Some r -> exists r0, dget f (executed s) = Some (Some r0) /\
             b_produced r = b_produced r0 /\ b_reused r = b_reused r0 /\ recorded prod f (b_children r0) (b_children r)
}.
Lemma MInv_step (prod : str -> str -> Prop) build e s0 s s' : (forall x c, depends (e_O e) x c -> prod x c) ->
  SInv build e s0 s -> MInv prod s -> step build e s (Running s') -> MInv prod s'.
Proof.
  intros HO I M H. inversion H; subst.
  - match goal with Hs : schedule _ _ = _ |- _ => destruct (schedule_spec _ _ _ Hs) as (new & po & pa & _ & _ & ->) end.
    destruct M as [M1 M2]. constructor; simpl; assumption.
  - destruct M as [M1 M2]. match goal with Hd : dmem f (executed s) = false |- _ => rename Hd into Hnew end. apply dmem_false in Hnew.
    assert (Hk : forall v g r, dget g (results s) = Some r -> dget g (dset f v (executed s)) = dget g (executed s)).
    { intros v g r Hg. apply dget_dset_other. intros ->. apply Hnew. destruct (M2 g r Hg) as (r0 & Hx & _). eapply dget_Some_key; eassumption. }
    unfold execute. destruct (build f (disk s)); constructor; simpl; try assumption; intros g r Hg; destruct (M2 g r Hg) as (r0 & Hx & Hr);
      exists r0; (split; [rewrite (Hk _ g r Hg); exact Hx|exact Hr]).
  - destruct (sub_pending_NoDup _ _ _ _ _ I ltac:(eassumption)) as (Hn & Hsub).
    eapply (collect_ind e (MInv prod)); [| |exact Hn|exact Hsub|eassumption].
    + intros t t' f [M1 M2] Hph Hf Hc. destruct (collect_one_spec _ _ _ _ Hc) as (r & m & cs & so & po & sa & pa & Hx & Hr & _ & ->).
      destruct (reinterpret_recorded prod _ _ _ HO _ _ _ _ M1 Hr) as (A1 & _ & A3 & A4 & A5).
      constructor; simpl; [assumption|]. intros g r' Hg. rewrite dget_dset in Hg. destruct (str_eqb g f) eqn:Eg; [|auto].
      apply str_eqb_eq in Eg. subst g. injection Hg as <-. exists r. simpl. split; [assumption|]. split; [reflexivity|]. split; [reflexivity|].
      split; [assumption|]. split; [assumption|]. intros x Hxc. destruct (A5 x Hxc) as [[]|Hy]; assumption.
    + destruct M as [M1 M2]. constructor; simpl; assumption.
Qed.
Lemma MInv_steps (prod : str -> str -> Prop) build e s0 s s' : (forall x c, depends (e_O e) x c -> prod x c) ->
  (forall k, In k (e_dirty_out e) -> ~ In k (e_dirty_art e)) -> SO build e s0 s -> MInv prod s -> steps build e s s' -> MInv prod s'.
Proof.
  intros HO Hd I M H. induction H; [assumption|]. apply (MInv_step prod build e s0 s1 s2); [assumption| |apply IHsteps; assumption|assumption].
  assert (X : SO build e s0 s1) by (eapply (SO_steps build e Hd); eassumption). apply X.
Qed.

(** ** the folder *)
Lemma apply_writes_not ws : forall s p, ~ In p (map fst ws) -> apply_writes ws s p = s p.
Proof.
  induction ws as [|[o c] r IH]; intros s p H; [reflexivity|]. unfold apply_writes. cbn [fold_left]. fold (apply_writes r (fs_set o c s)).
  rewrite IH by (intros Hr; apply H; right; assumption). simpl. unfold fs_set. destruct (str_eqb p o) eqn:E; [|reflexivity].
  apply str_eqb_eq in E. subst. exfalso. apply H. left. reflexivity.
Qed.
Lemma apply_writes_in ws : forall s p, In p (map fst ws) -> exists c, In (p, c) ws /\ apply_writes ws s p = Some c.
Proof.
  induction ws as [|[o c] r IH]; intros s p H; [destruct H|]. unfold apply_writes. cbn [fold_left]. fold (apply_writes r (fs_set o c s)).
  destruct (in_dec str_eq_dec p (map fst r)) as [Hr|Hr].
  - destruct (IH (fs_set o c s) p Hr) as (c' & A & B). exists c'. split; [right; assumption|assumption].
  - destruct H as [<-|H]; [|contradiction]. exists c. split; [left; reflexivity|]. rewrite apply_writes_not by assumption. simpl. unfold fs_set.
    rewrite str_eqb_refl. reflexivity.
Qed.
Lemma fs_del_all l : forall s p, fold_left (fun s p => fs_del p s) l s p = if mem p l then None else s p.
Proof.
  induction l as [|a r IH]; intros s p; [reflexivity|]. cbn [fold_left mem existsb]. rewrite IH. fold (mem p r). unfold fs_del.
  destruct (str_eqb p a), (mem p r); reflexivity.
Qed.
Lemma unlink_all_spec l : forall s s', unlink_all l s = Some s' -> forall p, s' p = if mem p l then None else s p.
Proof.
  induction l as [|a r IH]; intros s s' H p; cbn [unlink_all] in H; [injection H as <-; reflexivity|].
  destruct (s a); [|discriminate]. rewrite (IH _ _ H p). cbn [mem existsb]. fold (mem p r). unfold fs_del.
  destruct (str_eqb p a), (mem p r); reflexivity.
Qed.

Section Log.
Context (build : str -> fs -> option build_result) (e : env).

Lemma replay_stable l : forall done cur p v, log_ok build e done cur l -> cur p = v ->
  (forall f d r, In (f, d, r) l -> In p (map fst (b_produced r)) -> apply_build r d p = v) -> replay cur l p = v.
Proof.
  induction l as [|[[f d] r] t IH]; intros done cur p v H Hv Hw; cbn [replay]; [assumption|].
  cbn [log_ok] in H. destruct H as (-> & _ & _ & H). apply (IH _ _ _ _ H).
  - destruct (in_dec str_eq_dec p (map fst (b_produced r))) as [Hp|Hp].
    + apply (Hw f cur r); [left; reflexivity|assumption].
    + unfold apply_build. rewrite apply_writes_not by assumption. assumption.
  - intros g d' r' Hi. apply (Hw g d' r'). right. assumption.
Qed.
Lemma replay_untouched l done cur p : log_ok build e done cur l -> ~ written l p -> replay cur l p = cur p.
Proof.
  intros H Hn. apply (replay_stable l done cur p (cur p) H eq_refl). intros f d r Hi Hp. exfalso. apply Hn. exists f, d, r. auto.
Qed.
Lemma replay_exists l : forall done cur p, log_ok build e done cur l -> (cur p <> None \/ written l p) -> replay cur l p <> None.
Proof.
  induction l as [|[[f d] r] t IH]; intros done cur p H Hw; cbn [replay].
  - destruct Hw as [Hw|(g & d & r & [] & _)]. assumption.
  - cbn [log_ok] in H. destruct H as (-> & _ & _ & H). apply (IH _ _ _ H).
    destruct (in_dec str_eq_dec p (map fst (b_produced r))) as [Hp|Hp].
    + left. destruct (apply_writes_in (b_produced r) cur p Hp) as (c & _ & E). unfold apply_build. rewrite E. discriminate.
    + destruct Hw as [Hw|(g & d' & r' & [[= <- <- <-]|Hi] & Hp')].
      * left. unfold apply_build. rewrite apply_writes_not by assumption. assumption.
      * contradiction.
      * right. exists g, d', r'. auto.
Qed.
Lemma replay_value l : forall done cur p c, log_ok build e done cur l -> replay cur l p = Some c ->
  cur p = Some c \/ exists f d r, In (f, d, r) l /\ In (p, c) (b_produced r).
Proof.
  induction l as [|[[f d] r] t IH]; intros done cur p c H Hc; cbn [replay] in Hc; [auto|].
  cbn [log_ok] in H. destruct H as (-> & _ & _ & H). destruct (IH _ _ _ _ H Hc) as [Ha|(g & d' & r' & Hi & Hw)].
  - destruct (in_dec str_eq_dec p (map fst (b_produced r))) as [Hp|Hp].
    + destruct (apply_writes_in (b_produced r) cur p Hp) as (c' & Hi & E). unfold apply_build in Ha. rewrite E in Ha. injection Ha as ->.
      right. exists f, cur, r. split; [left; reflexivity|assumption].
    + unfold apply_build in Ha. rewrite apply_writes_not in Ha by assumption. auto.
  - right. exists g, d', r'. split; [right; assumption|assumption].
Qed.
Lemma written_dec l p : {written l p} + {~ written l p}.
Proof.
  induction l as [|[[f d] r] t [IH|IH]].
  - right. intros (g & d & r & [] & _).
  - left. destruct IH as (g & d' & r' & Hi & Hp). exists g, d', r'. split; [right; assumption|assumption].
  - destruct (in_dec str_eq_dec p (map fst (b_produced r))) as [Hp|Hp].
    + left. exists f, d, r. split; [left; reflexivity|assumption].
    + right. intros (g & d' & r' & [[= <- <- <-]|Hi] & Hp'); [contradiction|]. apply IH. exists g, d', r'. auto.
Qed.
End Log.

(** ** the initial mapping *)
Lemma produces_mapping_good (scs : dict scan_result) k x : dget k (produces_mapping scs) = Some x -> exists sc, In (x, sc) scs /\ In k (s_produces sc).
Proof.
  unfold produces_mapping.
  assert (H1 : forall os (f : str) (m : dict str), dget k (fold_left (fun m o => dset o f m) os m) = Some x -> (In k os /\ x = f) \/ dget k m = Some x).
  { induction os as [|o r IH]; intros f m H; [auto|]. cbn [fold_left] in H. apply IH in H. destruct H as [(H & ->)|H]; [left; split; [right; assumption|reflexivity]|].
    rewrite dget_dset in H. destruct (str_eqb k o) eqn:E; [|auto]. apply str_eqb_eq in E. subst o. injection H as <-. left. split; [left; reflexivity|reflexivity]. }
  assert (H2 : forall (l : dict scan_result) (m : dict str), dget k (fold_left (fun m kv => fold_left (fun m o => dset o (fst kv) m) (s_produces (snd kv)) m) l m) = Some x ->
     (exists sc, In (x, sc) l /\ In k (s_produces sc)) \/ dget k m = Some x).
  { induction l as [|[g sc] r IH]; intros m H; [auto|]. cbn [fold_left fst snd] in H. apply IH in H. destruct H as [(sc' & A & B)|H].
    - left. exists sc'. split; [right; assumption|assumption].
    - apply H1 in H. destruct H as [(H & ->)|H]; [|auto]. left. exists sc. split; [left; reflexivity|assumption]. }
  intros H. apply H2 in H. destruct H as [H|H]; [assumption|discriminate].
Qed.
Lemma first_alive_In ps deleted x : first_alive ps deleted = Some x -> In x ps.
Proof.
  induction ps as [|p r IH]; intros H; cbn [first_alive] in H; [discriminate|]. destruct (mem p deleted); [right; auto|]. injection H as <-. left. reflexivity.
Qed.
Lemma reinterpret_deps_good (prod : str -> str -> Prop) O deleted deps : (forall c ps x, get_parents O c = Ret ps -> In x ps -> prod x c) ->
  forall m acc m' acc', good_map prod m -> reinterpret_deps O deleted deps m acc = Ret (m', acc') -> good_map prod m'.
Proof.
  intros HO. induction deps as [|d r IH]; intros m acc m' acc' Hm H; cbn [reinterpret_deps] in H; [injection H as <- <-; auto|].
  destruct (is_out d) eqn:Eo; cbn [negb] in H; [|eapply IH; eassumption].
  destruct (dget d m); [eapply IH; eassumption|]. destruct (get_parents O d) as [ps|] eqn:Ep; [|discriminate].
  destruct (first_alive _ _) as [x|] eqn:Ea; [|discriminate].
  eapply IH; [|eassumption]. apply good_map_set; [assumption|assumption|]. eapply HO; [eassumption|]. eapply first_alive_In; eassumption.
Qed.
Lemma reinterpret_scans_good (prod : str -> str -> Prop) O deleted scs : (forall c ps x, get_parents O c = Ret ps -> In x ps -> prod x c) ->
  forall m m' scs', good_map prod m -> reinterpret_scans O deleted scs m = Ret (m', scs') -> good_map prod m'.
Proof.
  intros HO. induction scs as [|[f sc] r IH]; intros m m' scs' Hm H; cbn [reinterpret_scans] in H; [injection H as <- <-; auto|].
  destruct (reinterpret_deps _ _ _ _ _) as [[m1 ds]|] eqn:E; [|discriminate].
  destruct (reinterpret_scans O deleted r m1) as [[m2 r2]|] eqn:E2; [|discriminate]. injection H as <- <-.
  eapply IH; [|eassumption]. eapply reinterpret_deps_good; eassumption.
Qed.

Section Rebuild.
Context (build : str -> fs -> option build_result) (stat : fs -> str -> option fsig)
  (D O P : graph) (scans : dict scan_result) (newph : dict str) (changed added_ : dict fsig) (deleted : list str) (fs0 : fs)
  (e : env) (l : build_log) (fs1 : fs) (D1 O1 P1 : graph).
Context (HG : project_graphs D O P).
Context (HR : hot_rebuild build stat D O P scans newph changed added_ deleted fs0 e l fs1 D1 O1 P1).

Definition hit f := affected D P (dkeys scans) deleted f.
Definition dirt p := dirtied_output D O P (dkeys scans) deleted p.

(** everything the later proofs use *)
Lemma unfolded : exists start : fs, 
  (forall p, start p = if mem p (e_dirty_out e) then None else fs0 p) /\ log_ok build e [] start l /\ NoDup (names l) /\
  (forall f, In f (names l) <-> hit f /\ ~ In f deleted) /\
  (forall p, In p (e_dirty_out e) <-> ~ is_artifact p /\ dirt p) /\
  (forall p, In p (e_dirty_art e) <-> is_artifact p /\ dirt p) /\
  (forall p, (In p (e_dirty_art e) /\ ~ (exists g, reported_by l p g) -> fs1 p = None) /\
             (~ (In p (e_dirty_art e) /\ ~ (exists g, reported_by l p g)) -> fs1 p = replay start l p)) /\
  exists results inputs, NoDup inputs /\ (forall f, In f inputs <-> (hit f \/ In f (dkeys D)) /\ ~ In f deleted) /\
  (forall f, (exists d r, In (f, d, r) l) <-> In f (dkeys results)) /\
  (forall f d r, In (f, d, r) l -> exists r', dget f results = Some r' /\ b_outputs r' = b_outputs r /\
      ((forall g sc o, In (g, sc) scans -> In o (s_produces sc) -> is_out o = true) -> recorded (known_producer O scans) f (b_children r) (b_children r'))) /\
  new_graphs D O P changed added_ deleted results newph (stat fs1) inputs = Ret (D1, O1, P1).
Proof.
  inversion HR as [e' m order s fs1' inputs D1' O1' P1' Hprep Hn Ho Hst Hfin Hun Hni Hin Hng]; subst.
  destruct (prepared _ _ _ _ _ _ _ _ HG Hprep) as (ED & EO & EP & EN & EK & Hno & HA & HB & HC).
  destruct (start_SO build D O P scans newph deleted e m HG Hprep order fs0 Hn Ho s Hst) as (I & OI).
  destruct (finished_all build D O P scans newph deleted e m HG Hprep order fs0 Hn Ho s Hst Hfin) as (Pb & Pr).
  exists (disk (start e m order fs0)).
  split. { intros p. unfold start, init_sched. cbn [disk]. apply fs_del_all. }
  split; [apply (si_log_ok _ _ _ _ I)|]. split; [apply (si_log_nodup _ _ _ _ I)|].
  assert (Hnm : forall f, In f (names (log s)) <-> hit f /\ ~ In f deleted).
  { intros f. unfold hit. rewrite <- HA, <- Ho. unfold built in Pb. fold (names (log s)) in Pb.
    split; intros Hf; [eapply Permutation_in; [exact Pb|assumption]|eapply Permutation_in; [symmetry; exact Pb|assumption]]. }
  assert (Hrs : forall f, In f (dkeys (results s)) <-> In f (names (log s))).
  { intros f. rewrite Hnm. unfold hit. rewrite <- HA, <- Ho. split; intros Hf; [eapply Permutation_in; [exact Pr|assumption]|eapply Permutation_in; [symmetry; exact Pr|assumption]]. }
  split; [assumption|]. split; [assumption|]. split; [assumption|].
  assert (Hlog : forall f r, dget f (results s) = Some r -> exists d r0, In (f, d, r0) (log s) /\ b_outputs r = b_outputs r0).
  { intros f r Hr. destruct (si_res _ _ _ _ I f r Hr) as (r0 & Hx & E1 & E2). apply (si_log _ _ _ _ I) in Hx. destruct Hx as (d & Hx).
    exists d, r0. split; [assumption|]. unfold b_outputs. rewrite E1, E2. reflexivity. }
  assert (Hlog2 : forall f d r, In (f, d, r) (log s) -> exists r', dget f (results s) = Some r' /\ b_outputs r' = b_outputs r).
  { intros f d r Hi. assert (Hk : In f (dkeys (results s))) by (apply Hrs; eapply in_names; eassumption).
    apply In_dkeys_dget in Hk. destruct Hk as (r' & Hr). exists r'. split; [assumption|].
    destruct (si_res _ _ _ _ I f r' Hr) as (r0 & Hx & E1 & E2).
    assert (Hx2 : dget f (executed s) = Some (Some r)) by (apply (si_log _ _ _ _ I); eauto).
    rewrite Hx in Hx2. injection Hx2 as ->. unfold b_outputs. rewrite E1, E2. reflexivity. }
  assert (Hrep : forall p, reported s p <-> exists g, reported_by (log s) p g).
  { intros p. unfold reported, reported_by. split.
    - intros (f & r & Hr & Hp). destruct (Hlog f r Hr) as (d & r0 & Hi & E). exists f, d, r0. rewrite <- E. auto.
    - intros (f & d & r & Hi & Hp). destruct (Hlog2 f d r Hi) as (r' & Hr & E). exists f, r'. rewrite E. auto. }
  split.
  { intros p. rewrite (unlink_all_spec _ _ _ Hun p). rewrite <- Hrep, <- (oi_sa _ _ OI p). split; intros Hp.
    - apply mem_In in Hp. rewrite Hp. reflexivity.
    - apply mem_false in Hp. rewrite Hp. rewrite (si_disk _ _ _ _ I). reflexivity. }
  exists (results s), inputs. split; [assumption|].
  split. { intros f. rewrite Hin, Hrs, Hnm. tauto. }
  split. { intros f. rewrite Hrs. split; [intros (d & r & Hi); eapply in_names; eassumption|apply names_in]. }
  split; [|assumption].
  intros f d r Hi. destruct (Hlog2 f d r Hi) as (r' & Hr & E). exists r'. split; [assumption|]. split; [assumption|].
  intros Hsc.
  assert (M : MInv (known_producer O scans) s).
  { eapply (MInv_steps _ build e (disk (start e m order fs0))); [| | |constructor|exact Hst].
    - intros x c Hc. right. rewrite EO in Hc. assumption.
    - intros k. rewrite HB, HC. tauto.
    - apply (start_SO build D O P scans newph deleted e m HG Hprep order fs0 Hn Ho). apply steps_refl.
    - cbn [mapping init_sched]. unfold prepare in Hprep.
      destruct (reinterpret_scans _ _ _ _) as [[m1 scs1]|] eqn:Er; [|discriminate].
      destruct (dirty _ _ _ _ _) as [[[? ?] ?]|]; [|discriminate]. injection Hprep as _ <-.
      eapply reinterpret_scans_good; [| |eassumption].
      + intros c ps x Hps Hx. right. destruct HG as (_ & G2 & _). destruct G2 as (_ & _ & _ & G2).
        unfold depends. apply count_In. rewrite G2. apply count_In. unfold api_parents. rewrite Hps. assumption.
      + intros k x Hk. apply produces_mapping_good in Hk. destruct Hk as (sc & A & B). split; [eapply Hsc; eassumption|]. left. exists sc. auto.
    - intros g r1 Hg. discriminate. }
  destruct (mi_rec _ _ M f r' Hr) as (r0 & Hx & _ & _ & Hrec).
  assert (Hx2 : dget f (executed s) = Some (Some r)) by (apply (si_log _ _ _ _ I); eauto).
  rewrite Hx in Hx2. injection Hx2 as ->. assumption.
Qed.

Lemma dirt_dec p : dirt p \/ ~ dirt p.
Proof.
  destruct unfolded as (start & _ & _ & _ & _ & HB & HC & _).
  destruct (in_dec str_eq_dec p (e_dirty_out e)) as [H|H]; [left; apply HB in H; tauto|].
  destruct (in_dec str_eq_dec p (e_dirty_art e)) as [H'|H']; [left; apply HC in H'; tauto|].
  right. intros Hd. destruct (starts_with (lit "artifacts") p) eqn:E.
  - apply H', HC. split; [apply starts_with_iff; assumption|assumption].
  - apply H, HB. split; [|assumption]. intros Ha. apply starts_with_iff in Ha. congruence.
Qed.
Lemma reported_dec p : (exists g, reported_by l p g) \/ ~ exists g, reported_by l p g.
Proof.
  clear HR. induction l as [|[[f d] r] t [IH|IH]].
  - right. intros (g & d & r & [] & _).
  - left. destruct IH as (g & d' & r' & Hi & Hp). exists g, d', r'. split; [right; assumption|assumption].
  - destruct (in_dec str_eq_dec p (b_outputs r)) as [Hp|Hp].
    + left. exists f, d, r. split; [left; reflexivity|assumption].
    + right. intros (g & d' & r' & [[= <- <- <-]|Hi] & Hp'); [contradiction|]. apply IH. exists g, d', r'. auto.
Qed.
Lemma written_reported p : written l p -> exists g, reported_by l p g.
Proof. intros (g & d & r & Hi & Hp). exists g, d, r. split; [assumption|]. unfold b_outputs. apply in_or_app. auto. Qed.

(** ** C15 *)
Lemma untouched p : ~ dirt p -> ~ written l p -> fs1 p = fs0 p.
Proof.
  intros Hd Hw. destruct unfolded as (start & S1 & S2 & S3 & S4 & HB & HC & S5 & _). destruct (S5 p) as (_ & E). rewrite E by (rewrite HC; tauto).
  rewrite (replay_untouched build e l [] start p S2 Hw). rewrite S1. destruct (mem p (e_dirty_out e)) eqn:Em; [|reflexivity].
  apply mem_In, HB in Em. tauto.
Qed.
Lemma survivors p c : fs1 p = Some c -> dirt p ->
  (exists f d r, In (f, d, r) l /\ In (p, c) (b_produced r)) \/ (is_artifact p /\ fs0 p = Some c /\ exists g, reported_by l p g).
Proof.
  intros Hp Hd. destruct unfolded as (start & S1 & S2 & S3 & S4 & HB & HC & S5 & _). destruct (S5 p) as (E1 & E2).
  destruct (reported_dec p) as [Hr|Hr].
  - rewrite E2 in Hp by tauto. destruct (replay_value build e l [] start p c S2 Hp) as [Hv|Hv]; [|auto]. right.
    rewrite S1 in Hv. destruct (mem p (e_dirty_out e)) eqn:Em; [discriminate|]. apply mem_false in Em. rewrite HB in Em.
    split; [|auto]. destruct (starts_with (lit "artifacts") p) eqn:E; [apply starts_with_iff; assumption|]. exfalso. apply Em. split; [|assumption].
    intros Ha. apply starts_with_iff in Ha. congruence.
  - assert (Hna : ~ In p (e_dirty_art e)) by (intros Ha; rewrite E1 in Hp by tauto; discriminate).
    rewrite E2 in Hp by tauto. destruct (replay_value build e l [] start p c S2 Hp) as [Hv|Hv]; [|auto].
    exfalso. rewrite S1 in Hv. destruct (mem p (e_dirty_out e)) eqn:Em; [discriminate|]. apply mem_false in Em. rewrite HB in Em. rewrite HC in Hna.
    apply Em. split; [|assumption]. intros Ha. apply Hna. auto.
Qed.
Lemma contents p c : fs1 p = Some c -> fs0 p = Some c \/ exists f d r, In (f, d, r) l /\ In (p, c) (b_produced r).
Proof.
  intros Hp. destruct unfolded as (start & S1 & S2 & S3 & S4 & HB & HC & S5 & _). destruct (S5 p) as (E1 & E2).
  rewrite E2 in Hp by (intros X; specialize (E1 X); congruence).
  destruct (replay_value build e l [] start p c S2 Hp) as [Hv|Hv]; [|auto]. left. rewrite S1 in Hv.
  destruct (mem p (e_dirty_out e)); [discriminate|assumption].
Qed.
Lemma log_in_split f d r : In (f, d, r) l -> exists l1 l2, l = l1 ++ (f, d, r) :: l2.
Proof. apply in_split. Qed.

(** ** the recorded graphs *)
Lemma graphs_after : project_graphs D1 O1 P1 /\ acyclic D1 /\ acyclic O1 /\ acyclic P1 /\
  (forall f, In f (dkeys D1) <-> (hit f \/ In f (dkeys D)) /\ ~ In f deleted) /\
  (forall f d r, In (f, d, r) l -> api_children O1 f = b_outputs r /\
     ((forall g sc o, In (g, sc) scans -> In o (s_produces sc) -> is_out o = true) -> recorded (known_producer O scans) f (b_children r) (api_children D1 f))) /\
  (forall f, In f (dkeys D1) -> ~ hit f -> api_children D1 f = api_children D f /\ api_children O1 f = api_children O f) /\
  (forall f o, depends O1 f o -> In f (dkeys D1)) /\
  (forall f, In f (dkeys D1) -> exists s m i, input_sig changed added_ D f = Ret (s, m, i) /\ api_meta D1 f = Some (s, m, i) /\ api_meta O1 f = Some (s, m, i)) /\
  (forall a b, depends P1 a b -> In (b, a) newph \/ depends P a b) /\
  (forall a b, In (b, a) newph -> depends P1 a b) /\
  (forall a b, depends P a b -> In a (dkeys D1) -> In b (dkeys D1) -> exists a', depends P a' b /\ depends P1 a' b).
Proof.
  destruct unfolded as (start & S1 & S2 & S3 & S4 & HB & HC & S5 & results & inputs & N1 & N2 & N3 & N4 & Hng).
  destruct HG as (G1 & G2 & G3 & G4 & G5). apply Inv_well_formed in G1, G2, G3.
  destruct (new_graphs_spec _ _ _ _ _ _ _ _ _ _ _ _ _ G1 G2 G3 Hng) as ((A1 & A2 & A3 & A4 & A5) & (B1 & B2 & B3 & B4 & B5) & (C1 & C2 & C3 & C4 & C5 & C6)).
  unfold depends. 
  split. { unfold project_graphs. rewrite A3. split; [apply Inv_well_formed; assumption|]. split; [apply Inv_well_formed; assumption|].
           split; [apply Inv_well_formed; assumption|]. split; [|assumption]. intros k Hk. apply B3. assumption. }
  split; [assumption|]. split; [assumption|]. split; [assumption|]. split; [rewrite A3; assumption|]. rewrite A3.
  split. { intros f d r Hi. destruct (N4 f d r Hi) as (r' & Hr & Ho & Hc).
           assert (Hf : In f inputs). { apply N2. assert (X : In f (names l)) by (eapply in_names; eassumption). apply S4 in X. tauto. }
           rewrite !api_children_ch. destruct (B3 f Hf) as (_ & -> & _). destruct (A5 f Hf) as (-> & _).
           unfold outs_of, deps_of. rewrite Hr. auto. }
  split. { intros f Hf Hn. rewrite !api_children_ch. destruct (B3 f Hf) as (_ & -> & _). destruct (A5 f Hf) as (-> & _).
           unfold outs_of, deps_of. destruct (dget f results) eqn:Er; [|auto]. exfalso. apply Hn.
           apply dget_Some_key, N3 in Er. destruct Er as (d & r & Hi). apply in_names, S4 in Hi. tauto. }
  split. { intros f o Ho. rewrite api_children_ch in Ho. destruct (in_dec str_eq_dec f inputs) as [Hf|Hf]; [assumption|]. rewrite (B4 f Hf) in Ho. destruct Ho. }
  split. { intros f Hf. destruct (A5 f Hf) as (_ & s & m & i & Hs & Hm). destruct (B3 f Hf) as (_ & _ & Hm2). exists s, m, i.
           unfold meta in *. rewrite Hm2. auto. }
  split. { intros a b. rewrite !api_children_ch. apply C4. }
  split. { intros a b. rewrite !api_children_ch. apply C5. }
  intros a b. rewrite !api_children_ch. intros Ha Hb Hc. destruct (C6 a b Ha Hb Hc) as (a' & H1 & H2). exists a'. rewrite !api_children_ch. auto.
Qed.

(** ** C14 *)
Lemma reported_survive p : reuses_existing build -> (exists g, reported_by l p g) -> fs1 p <> None.
Proof.
  intros Hre (g & d & r & Hi & Hp). destruct unfolded as (start & S1 & S2 & S3 & S4 & HB & HC & S5 & _). destruct (S5 p) as (E1 & E2).
  rewrite E2 by (intros (_ & X); apply X; exists g, d, r; auto).
  destruct (log_in_split g d r Hi) as (l1 & l2 & El). destruct (log_ok_order _ _ _ _ _ S2 _ _ _ _ _ El) as (Hdep & Hb & Hd).
  unfold b_outputs in Hp. apply in_app_or in Hp. destruct Hp as [Hp|Hp].
  - eapply replay_exists; [exact S2|]. right. exists g, d, r. auto.
  - pose proof (Hre g d r p Hb Hp) as Hne. rewrite El in *. rewrite replay_app. cbn [replay]. rewrite <- Hd.
    apply log_ok_app in S2. destruct S2 as (_ & S2). cbn [log_ok] in S2. destruct S2 as (_ & _ & _ & S2). rewrite <- Hd in S2.
    eapply replay_exists; [exact S2|]. left. unfold apply_build. destruct (in_dec str_eq_dec p (map fst (b_produced r))) as [Hw|Hw].
    + destruct (apply_writes_in (b_produced r) d p Hw) as (c & _ & ->). discriminate.
    + rewrite apply_writes_not by assumption. assumption.
Qed.
Lemma outputs_exist : reuses_existing build ->
  (forall f o, depends O f o -> ~ hit f -> fs0 o <> None) ->
  (forall f o, depends O f o -> ~ hit f -> dirt o -> exists g, reported_by l o g) ->
  forall f o, depends O1 f o -> fs1 o <> None.
Proof.
  intros Hre Hold Hsh f o Ho. destruct graphs_after as (_ & _ & _ & _ & K1 & K2 & K3 & K4 & _).
  pose proof (K4 f o Ho) as Hf. destruct unfolded as (start & S1 & S2 & S3 & S4 & HB & HC & S5 & _).
  destruct (in_dec str_eq_dec f (names l)) as [Hn|Hn].
  - apply names_in in Hn. destruct Hn as (d & r & Hi). apply reported_survive; [assumption|]. exists f, d, r. split; [assumption|].
    unfold depends in Ho. destruct (K2 f d r Hi) as (<- & _). assumption.
  - assert (Hh : ~ hit f). { intros Hh. apply Hn, S4. apply K1 in Hf. tauto. }
    destruct (K3 f Hf Hh) as (_ & E). unfold depends in Ho. rewrite E in Ho.
    destruct (dirt_dec o) as [Hd|Hd]; [apply reported_survive; [assumption|]; eapply Hsh; eassumption|].
    destruct (written_dec l o) as [Hw|Hw]; [apply reported_survive; [assumption|]; apply written_reported; assumption|].
    rewrite untouched by assumption. eapply Hold; eassumption.
Qed.

(** ** C13 *)
Lemma reported_value f d r p : agreeing l -> In (f, d, r) l -> In p (b_outputs r) -> fs1 p = apply_build r d p.
Proof.
  intros Ha Hi Hp. destruct unfolded as (start & S1 & S2 & S3 & S4 & HB & HC & S5 & _). destruct (S5 p) as (_ & E2).
  rewrite E2 by (intros (_ & X); apply X; exists f, d, r; auto).
  destruct (log_in_split f d r Hi) as (l1 & l2 & El). rewrite El in S2 |- *. apply log_ok_app in S2. destruct S2 as (_ & S2). cbn [log_ok] in S2.
  destruct S2 as (Hd & _ & _ & S2). rewrite replay_app. cbn [replay]. rewrite <- Hd in *. eapply replay_stable; [exact S2|reflexivity|].
  intros g d2 r2 Hi2 Hp2. symmetry. eapply Ha; [exact Hi| |exact Hp|]; [rewrite El; apply in_or_app; right; right; exact Hi2|].
  unfold b_outputs. apply in_or_app. auto.
Qed.

Context (fs_old : fs).
Context (Hreads : reads_declared build) (Hidem : idempotent build) (Hwr : writes_out build).
(** the old outputs may come from other builders, as long as those agree on the
    files this rebuild leaves alone *)
Context (build_old : str -> fs -> option build_result) (Hwro : writes_out build_old)
  (Hsame : forall f s, In f (dkeys D) -> ~ hit f -> build_old f s = build f s).
Context (Hold : up_to_date build_old D O fs_old).
Context (Hsrc : forall p, In p (dkeys D) -> ~ In p (dkeys scans) -> ~ In p deleted -> fs0 p = fs_old p).
Context (Hsrc2 : forall f o, depends O f o -> ~ hit f -> ~ dirt o -> fs0 o = fs_old o).
Context (Hin : forall f, In f (dkeys D) \/ hit f -> is_out f = false).
Context (Hsc : forall g sc o, In (g, sc) scans -> In o (s_produces sc) -> is_out o = true).
Context (Hagree : agreeing l) (Hafter : read_after e dirt l) (Hrec : sources_recorded l D1 O1)
  (Hshared : shared_preserved D O P (dkeys scans) deleted fs_old l).

Lemma dirt_out p : dirt p -> is_out p = true.
Proof.
  intros (f & Hf & Hd). destruct Hold as (K & H). destruct (H f (K f p Hd)) as (r & Hb & Ho & _). eapply Hwro; [exact Hb|]. apply Ho. assumption.
Qed.
Lemma written_out p : written l p -> is_out p = true.
Proof.
  intros (g & d & r & Hi & Hp). destruct unfolded as (start & S1 & S2 & _). destruct (log_in_split g d r Hi) as (l1 & l2 & El).
  destruct (log_ok_order _ _ _ _ _ S2 _ _ _ _ _ El) as (_ & Hb & _). eapply Hwr; [exact Hb|]. unfold b_outputs. apply in_or_app. auto.
Qed.
Lemma source_kept p : is_out p = false -> fs1 p = fs0 p.
Proof. intros H. apply untouched; intros X; [apply dirt_out in X|apply written_out in X]; congruence. Qed.
(** at the time of a build, a file nobody touches is as before *)
Lemma at_build l1 f d r l2 p : l = l1 ++ (f, d, r) :: l2 -> ~ dirt p -> ~ written l p -> d p = fs0 p /\ apply_build r d p = fs0 p.
Proof.
  intros El Hd Hw. destruct unfolded as (start & S1 & S2 & S3 & S4 & HB & HC & S5 & _).
  destruct (log_ok_order _ _ _ _ _ S2 _ _ _ _ _ El) as (_ & _ & Ed).
  assert (E : d p = fs0 p).
  { rewrite Ed. rewrite El in S2. apply log_ok_app in S2. destruct S2 as (S2 & _). rewrite (replay_untouched build e l1 [] start p S2).
    - rewrite S1. destruct (mem p (e_dirty_out e)) eqn:Em; [|reflexivity]. apply mem_In, HB in Em. tauto.
    - intros (g & d' & r' & Hi & Hp). apply Hw. exists g, d', r'. split; [|assumption]. rewrite El. apply in_or_app. auto. }
  split; [assumption|]. unfold apply_build. rewrite apply_writes_not; [assumption|]. intros Hp. apply Hw. exists f, d, r.
  split; [|assumption]. rewrite El. apply in_or_app. right. left. reflexivity.
Qed.

Lemma built_before l1 f d r l2 : l = l1 ++ (f, d, r) :: l2 -> forall g d2 r2, In (g, d2, r2) l -> needs e f g -> In (g, d2, r2) l1.
Proof.
  intros El g d2 r2 Hi2 Hneed. pose proof unfolded as (start & _ & _ & Hnd & S4 & _). pose proof (in_names _ _ _ _ Hi2) as Hh. apply S4 in Hh.
  assert (Hg : In g (names l1)).
  { clear - HR HG Hh El Hneed. inversion HR as [e' m order s fs1' inputs D1' O1' P1' Hprep Hn Hor Hst Hfin Hun Hni Hin' Hng]; subst e' fs1' D1' O1' P1'.
    destruct (dependencies_first build D O P scans newph deleted e m HG Hprep order fs0 Hn Hor s Hst) as (_ & DF & _).
    match goal with H : log s = l |- _ => rewrite H in DF end. destruct (DF l1 f d r l2 El) as (_ & Hbefore).
    destruct (prepared _ _ _ _ _ _ _ _ HG Hprep) as (_ & _ & _ & _ & _ & _ & HA & _).
    apply Hbefore; [apply HA; exact Hh|assumption]. }
  apply names_in in Hg. destruct Hg as (d3 & r3 & Hi3).
  assert (E3 : (g, d3, r3) = (g, d2, r2)).
  { assert (Hi3' : In (g, d3, r3) l) by (rewrite El; apply in_or_app; auto).
    clear -Hi2 Hi3' Hnd. induction l as [|t u IH]; [destruct Hi2|]. simpl in Hnd. inversion Hnd as [|? ? Hx Hy]; subst.
    destruct Hi2 as [->|Hi2], Hi3' as [E|Hi3']; [congruence| | |auto].
    - exfalso. apply Hx. apply in_map_iff. exists (g, d3, r3). auto.
    - exfalso. apply Hx. apply in_map_iff. exists (g, d2, r2). subst t. auto. }
  rewrite <- E3. assumption.
Qed.

Lemma rebuilt_ok f d r : In (f, d, r) l -> forall p, p = f \/ In p (b_children r) \/ In p (b_outputs r) -> fs1 p = apply_build r d p.
Proof.
  intros Hi. destruct (log_in_split f d r Hi) as (l1 & l2 & El).
  assert (Hh : hit f). { destruct unfolded as (start & _ & _ & _ & S4 & _). apply in_names, S4 in Hi. tauto. }
  assert (Hs : forall p, is_out p = false -> fs1 p = apply_build r d p).
  { intros p Hp. rewrite source_kept by assumption. symmetry. apply (at_build l1 f d r l2 p El); intros X; [apply dirt_out in X|apply written_out in X]; congruence. }
  intros p [->|[Hp|Hp]]; [apply Hs, Hin; auto| |apply (reported_value f); assumption].
  destruct (is_out p) eqn:Ep; [|apply Hs; assumption].
  assert (Hcase : (dirt p \/ written l p) \/ (~ dirt p /\ ~ written l p)).
  { destruct (dirt_dec p); [auto|]. destruct (written_dec l p); auto. }
  destruct Hcase as [Hcase|(Hd & Hw)].
  2: { rewrite untouched by assumption. symmetry. apply (at_build l1 f d r l2 p El); assumption. }
  destruct (in_dec str_eq_dec p (b_outputs r)) as [Ho|Ho]; [apply (reported_value f); assumption|].
  destruct (Hafter f d r p Hi Hp Ep Hcase) as [Ho'|(g & Hneed & d2 & r2 & Hi2 & Hp2)]; [contradiction|].
  rewrite (reported_value g d2 r2 p Hagree Hi2 Hp2).
  pose proof (built_before l1 f d r l2 El g d2 r2 Hi2 Hneed) as Hi3.
  apply in_split in Hi3. destruct Hi3 as (la & lb & ->).
  unfold apply_build at 2. rewrite apply_writes_not by (intros X; apply Ho; unfold b_outputs; apply in_or_app; auto).
  destruct unfolded as (start & S1 & S2 & _). destruct (log_ok_order _ _ _ _ _ S2 _ _ _ _ _ El) as (_ & _ & Ed). rewrite Ed.
  rewrite replay_app. cbn [replay]. rewrite El in S2. apply log_ok_app in S2. destruct S2 as (S2 & _). apply log_ok_app in S2. destruct S2 as (_ & S2).
  cbn [log_ok] in S2. destruct S2 as (Ed2 & _ & _ & S2). rewrite <- Ed2 in *. symmetry. eapply replay_stable; [exact S2|reflexivity|].
  intros h d4 r4 Hi4 Hp4. symmetry. eapply Hagree; [exact Hi2| |exact Hp2|]; [|unfold b_outputs; apply in_or_app; auto].
  rewrite El. apply in_or_app. left. apply in_or_app. right. right. exact Hi4.
Qed.

Lemma untouched_ok f : In f (dkeys D) -> ~ hit f -> forall r, build f fs_old = Some r -> (forall o, depends O f o <-> In o (b_outputs r)) ->
    (forall c, In c (b_children r) -> is_out c = false -> depends D f c) ->
    (forall c, In c (b_children r) -> is_out c = true -> exists x, (x = f \/ depends D f x) /\ depends O x c) ->
  forall p, p = f \/ In p (b_children r) \/ In p (b_outputs r) -> fs1 p = fs_old p.
Proof.
  intros Hf Hh r Hb Ho Hc1 Hc2.
  assert (Hup : forall x, depends D f x -> ~ hit x).
  { intros x Hx (s & Hs & Hr). apply Hh. exists s. split; [assumption|]. eapply rt_trans; [exact Hr|]. apply rt_step. left. assumption. }
  assert (Hns : forall x, ~ hit x -> ~ In x (dkeys scans) /\ ~ In x deleted).
  { intros x Hx. split; intros X; apply Hx; exists x; (split; [auto|apply rt_refl]). }
  assert (Hout : forall x o, ~ hit x -> depends O x o -> fs1 o = fs_old o).
  { intros x o Hx Hd. destruct (Hshared x o Hd Hx) as (K1 & K2).
    destruct (reported_dec o) as [(g & d & r' & Hi & Hp)|Hnr].
    - rewrite (reported_value g d r' o Hagree Hi Hp). apply (K2 g d r' Hi Hp).
    - assert (Hnd : ~ dirt o) by (intros X; apply Hnr; apply K1; exact X).
      rewrite untouched; [eapply Hsrc2; eassumption|assumption|]. intros X; apply Hnr, written_reported; assumption. }
  intros p [->|[Hp|Hp]].
  - rewrite source_kept by (apply Hin; auto). destruct (Hns f Hh). apply Hsrc; assumption.
  - destruct (is_out p) eqn:Ep.
    + destruct (Hc2 p Hp Ep) as (x & Hx & Hd). apply (Hout x p); [|assumption]. destruct Hx as [->|Hx]; [assumption|apply Hup; assumption].
    + rewrite source_kept by assumption. destruct (Hns p (Hup p (Hc1 p Hp Ep))). apply Hsrc; try assumption.
      eapply Inv_ch_closed; [apply Inv_well_formed, HG|]. apply depends_ch. apply Hc1; eassumption.
  - apply (Hout f); [assumption|]. apply Ho. assumption.
Qed.

Lemma still_up_to_date : up_to_date build D1 O1 fs1.
Proof.
  destruct graphs_after as (_ & _ & _ & _ & K1 & K2 & K3 & K4 & _). split; [exact K4|].
  intros f Hf. destruct unfolded as (start & S1 & S2 & S3 & S4 & HB & HC & S5 & _).
  destruct (in_dec str_eq_dec f (names l)) as [Hn|Hn].
  - apply names_in in Hn. destruct Hn as (d & r & Hi). destruct (log_in_split f d r Hi) as (l1 & l2 & El).
    destruct (log_ok_order _ _ _ _ _ S2 _ _ _ _ _ El) as (_ & Hb & _). destruct (Hidem f d r Hb) as (r2 & Hb2 & Hc2 & Ho2 & Hw2).
    destruct (K2 f d r Hi) as (Eo & Er). specialize (Er Hsc). destruct Er as (R1 & R2 & R3).
    assert (Hag := rebuilt_ok f d r Hi).
    exists r2. split. { apply (Hreads f (apply_build r d)); [assumption|]. intros p. rewrite Hc2, Ho2. apply Hag. }
    split. { intros o. unfold depends. rewrite Eo, Ho2. reflexivity. }
    split. { intros o c Hoc. rewrite Hag; [apply Hw2; assumption|]. right. right. apply Ho2. unfold b_outputs. apply in_or_app. left. apply in_map_iff. exists (o, c). auto. }
    rewrite Hc2. split; [exact R1|]. intros c Hc Hco. eapply Hrec; eassumption.
  - assert (Hh : ~ hit f). { intros Hh. apply Hn, S4. apply K1 in Hf. tauto. }
    assert (HfD : In f (dkeys D)). { apply K1 in Hf. tauto. }
    destruct (K3 f Hf Hh) as (Ed & Eo). pose proof Hold as (L1 & L2). destruct (L2 f HfD) as (r & Hb & Ho & Hw & Hc1 & Hc2).
    rewrite (Hsame f fs_old HfD Hh) in Hb.
    assert (Hag := untouched_ok f HfD Hh r Hb Ho Hc1 Hc2). exists r.
    split; [apply (Hreads f fs_old); assumption|].
    split. { intros o. unfold depends at 1. rewrite Eo. apply Ho. }
    split. { intros o c Hoc. rewrite Hag; [apply Hw; assumption|]. right. right. unfold b_outputs. apply in_or_app. left. apply in_map_iff. exists (o, c). auto. }
    split. { intros c Hc Hco. unfold depends. rewrite Ed. apply Hc1; assumption. }
    intros c Hc Hco. destruct (Hc2 c Hc Hco) as (x & Hx & Hd). exists x. split; [destruct Hx as [->|Hx]; [auto|right; unfold depends; rewrite Ed; exact Hx]|].
    assert (Hhx : ~ hit x).
    { destruct Hx as [->|Hx]; [assumption|]. intros (s & Hs & Hr). apply Hh. exists s. split; [assumption|]. eapply rt_trans; [exact Hr|]. apply rt_step. left. assumption. }
    assert (Hx1 : In x (dkeys D1)). { apply K1. split; [right; eapply L1; eassumption|]. intros X. apply Hhx. exists x. split; [auto|apply rt_refl]. }
    destruct (K3 x Hx1 Hhx) as (_ & Eox). unfold depends. rewrite Eox. exact Hd.
Qed.
End Rebuild.

(** ** up-to-date states are unique *)
Lemma acyclic_ind (g : graph) (Q : str -> Prop) : acyclic g -> (forall a b, depends g a b -> In b (dkeys g)) ->
  (forall a, In a (dkeys g) -> (forall b, depends g a b -> Q b) -> Q a) -> forall a, In a (dkeys g) -> Q a.
Proof.
  intros Hac Hcl Hstep.
  assert (H : forall n rest, length rest <= n -> (forall x, In x rest -> In x (dkeys g)) ->
            (forall x, In x (dkeys g) -> ~ In x rest -> Q x) -> forall x, In x (dkeys g) -> Q x).
  { induction n as [|n IH]; intros rest Hl Hsub Hdone x Hx.
    - apply Hdone; [assumption|]. destruct rest; [auto|simpl in Hl; lia].
    - destruct rest as [|r0 rest0] eqn:Er; [apply Hdone; auto|]. rewrite <- Er in *.
      assert (Hleaf : exists y, In y rest /\ forall b, depends g y b -> ~ In b rest).
      { destruct (existsb (fun y => forallb (fun b => negb (mem b rest)) (api_children g y)) rest) eqn:E.
        - apply existsb_exists in E. destruct E as (y & Hy & Hb). exists y. split; [assumption|]. intros b Hb'. rewrite forallb_forall in Hb.
          specialize (Hb b Hb'). apply negb_true_iff, mem_false in Hb. assumption.
        - exfalso. destruct (pigeon_cycle (depends g) rest) as (y & _ & Hc); [rewrite Er; discriminate| |apply (Hac y Hc)].
          intros y Hy. assert (Hf : forallb (fun b => negb (mem b rest)) (api_children g y) = false).
          { destruct (forallb _ (api_children g y)) eqn:Ef; [|reflexivity]. rewrite <- not_true_iff_false in E. exfalso. apply E.
            apply existsb_exists. exists y. auto. }
          assert (Hex : exists b, In b (api_children g y) /\ mem b rest = true).
          { clear -Hf. induction (api_children g y) as [|b t IHt]; [discriminate|]. simpl in Hf. destruct (mem b rest) eqn:Em; [exists b; simpl; auto|].
            simpl in Hf. destruct (IHt Hf) as (b' & A & B). exists b'. simpl; auto. }
          destruct Hex as (b & A & B). exists b. split; [apply mem_In; assumption|exact A]. }
      destruct Hleaf as (y & Hy & Hb).
      assert (Qy : Q y). { apply Hstep; [auto|]. intros b Hd. apply Hdone; [eapply Hcl; eassumption|]. apply Hb. assumption. }
      apply (IH (remove_all y rest)); [| | |assumption].
      + assert (Hlt : length (remove_all y rest) < length rest); [|lia]. clear -Hy. unfold remove_all.
        induction rest as [|z t IHt]; [destruct Hy|]. simpl. destruct (str_eqb y z) eqn:E; simpl.
        * assert (length (filter (fun y0 => negb (str_eqb y y0)) t) <= length t); [|lia]. clear. induction t as [|w t IHt]; simpl; [lia|]. destruct (negb (str_eqb y w)); simpl; lia.
        * destruct Hy as [->|Hy]; [rewrite str_eqb_refl in E; discriminate|]. specialize (IHt Hy). lia.
      + intros z Hz. apply remove_all_In in Hz. apply Hsub. tauto.
      + intros z Hz Hn. destruct (str_eq_dec z y) as [->|Hne]; [assumption|]. apply Hdone; [assumption|]. intros Hr. apply Hn. apply remove_all_In. auto. }
  intros a Ha. apply (H (length (dkeys g)) (dkeys g)); auto. intros x Hx Hn. contradiction.
Qed.

Lemma noop_writes r s : (forall o c, In (o, c) (b_produced r) -> s o = Some c) -> forall o, apply_build r s o = s o.
Proof.
  intros H o. unfold apply_build. destruct (in_dec str_eq_dec o (map fst (b_produced r))) as [Hp|Hp].
  - destruct (apply_writes_in (b_produced r) s o Hp) as (c & Hi & ->). symmetry. apply H. assumption.
  - apply apply_writes_not. assumption.
Qed.
Lemma up_to_date_unique build D1 O1 s1 D2 O2 s2 : deterministic build -> well_formed D1 -> acyclic D1 ->
  up_to_date build D1 O1 s1 -> up_to_date build D2 O2 s2 ->
  (forall f, In f (dkeys D1) <-> In f (dkeys D2)) -> (forall f, In f (dkeys D1) -> is_out f = false) ->
  (forall p, is_out p = false -> s1 p = s2 p) ->
  forall f o, (depends O1 f o <-> depends O2 f o) /\ (depends O1 f o -> s1 o = s2 o).
Proof.
  intros Hdet Hwf Hac (K1 & U1) (K2 & U2) Hk Hin Hsrc.
  assert (Hall : forall f, In f (dkeys D1) -> forall o, (depends O1 f o <-> depends O2 f o) /\ (depends O1 f o -> s1 o = s2 o)).
  { apply (acyclic_ind D1 (fun f => forall o, (depends O1 f o <-> depends O2 f o) /\ (depends O1 f o -> s1 o = s2 o))); [assumption| |].
    - intros a b Hab. unfold depends in Hab. rewrite api_children_ch in Hab. eapply Inv_ch_closed; [apply Inv_well_formed; exact Hwf|exact Hab].
    - intros f Hf IH. destruct (U1 f Hf) as (r1 & B1 & Q1 & W1 & C1 & C1'). destruct (U2 f (proj1 (Hk f) Hf)) as (r2 & B2 & Q2 & W2 & _).
      destruct (Hdet f s1 s2 r1 r2 B1 B2) as (A1 & A2).
      + apply Hsrc, Hin. assumption.
      + intros c Hc. destruct (is_out c) eqn:Ec; [|right; apply Hsrc; assumption].
        destruct (C1' c Hc Ec) as (x & Hx & Hd). destruct Hx as [->|Hx]; [left; apply Q1; assumption|]. right. apply (IH x Hx c). assumption.
      + intros o. rewrite Q1, Q2. split; [apply A1|]. intros Ho. specialize (A2 o Ho).
        rewrite (noop_writes r1 s1 W1), (noop_writes r2 s2 W2) in A2. assumption. }
  intros f o. destruct (in_dec str_eq_dec f (dkeys D1)) as [Hf|Hf]; [apply Hall; assumption|].
  split; [split; intros X; exfalso; apply Hf; [eapply K1; eassumption|apply Hk; eapply K2; eassumption]|].
  intros X. exfalso. apply Hf. eapply K1; eassumption.
Qed.

(** ** packaged forms for the property file *)
Lemma rebuild_switched build build_old stat D O P scans newph changed added deleted fs_old fs0 e l fs1 D1 O1 P1 :
  project_graphs D O P -> hot_rebuild build stat D O P scans newph changed added deleted fs0 e l fs1 D1 O1 P1 ->
  reads_declared build -> idempotent build -> writes_out build -> writes_out build_old ->
  (forall f s, In f (dkeys D) -> ~ affected D P (dkeys scans) deleted f -> build_old f s = build f s) -> up_to_date build_old D O fs_old ->
  honest_rebuild D O P scans deleted fs_old fs0 e l D1 O1 -> up_to_date build D1 O1 fs1.
Proof.
  intros HG HR H1 H2 H3 H3' Hs H4 ((A1 & A1') & A2 & A3 & A4 & A5 & A6 & A7). eapply (still_up_to_date build); try eassumption.
Qed.
Lemma rebuild_keeps_up_to_date build stat D O P scans newph changed added deleted fs_old fs0 e l fs1 D1 O1 P1 :
  project_graphs D O P -> hot_rebuild build stat D O P scans newph changed added deleted fs0 e l fs1 D1 O1 P1 ->
  reads_declared build -> idempotent build -> writes_out build -> up_to_date build D O fs_old ->
  honest_rebuild D O P scans deleted fs_old fs0 e l D1 O1 -> up_to_date build D1 O1 fs1.
Proof.
  intros HG HR H1 H2 H3 H4 HH. eapply (rebuild_switched build build); try eassumption. reflexivity.
Qed.
Lemma up_to_date_empty build s : up_to_date build empty_graph empty_graph s.
Proof. split; [intros f o []|intros f []]. Qed.
Lemma incremental_clean build stat D O P scans newph changed added deleted fs_old fs0 e l fs1 D1 O1 P1
    scans' newph' changed' added' fs0' e' l' fs1' D1' O1' P1' :
  reads_declared build -> idempotent build -> writes_out build -> deterministic build ->
  project_graphs D O P -> up_to_date build D O fs_old ->
  hot_rebuild build stat D O P scans newph changed added deleted fs0 e l fs1 D1 O1 P1 ->
  honest_rebuild D O P scans deleted fs_old fs0 e l D1 O1 ->
  hot_rebuild build stat empty_graph empty_graph empty_graph scans' newph' changed' added' [] fs0' e' l' fs1' D1' O1' P1' ->
  honest_rebuild empty_graph empty_graph empty_graph scans' [] fs0' fs0' e' l' D1' O1' ->
  (forall p, is_out p = false -> fs0 p = fs0' p) -> (forall f, In f (dkeys D1) <-> In f (dkeys D1')) ->
  forall f o, (depends O1 f o <-> depends O1' f o) /\ (depends O1 f o -> fs1 o = fs1' o).
Proof.
  intros H1 H2 H3 H4 HG HU HR HH HR' HH' Hs Hk.
  assert (HG' : project_graphs empty_graph empty_graph empty_graph).
  { assert (W : well_formed empty_graph) by (apply Inv_well_formed, Inv_empty). split; [exact W|]. split; [exact W|]. split; [exact W|]. split; intros k []. }
  pose proof (rebuild_keeps_up_to_date _ _ _ _ _ _ _ _ _ _ _ _ _ _ _ _ _ _ HG HR H1 H2 H3 HU HH) as U1.
  pose proof (rebuild_keeps_up_to_date _ _ _ _ _ _ _ _ _ _ _ _ _ _ _ _ _ _ HG' HR' H1 H2 H3 (up_to_date_empty build fs0') HH') as U2.
  destruct (graphs_after _ _ _ _ _ _ _ _ _ _ _ _ _ _ _ _ _ HG HR) as ((W & _) & Hac & _ & _ & K1 & _).
  destruct HH as ((A1 & _) & A2 & A3 & _). destruct HH' as ((B1 & _) & B2 & B3 & _).
  apply (up_to_date_unique build D1 O1 fs1 D1' O1' fs1'); try assumption.
  - intros f Hf. apply K1 in Hf. apply A2. unfold hit in Hf. tauto.
  - intros p Hp. assert (E1 : fs1 p = fs0 p) by (eapply (source_kept build stat D O P scans newph changed added deleted fs0 e l fs1 D1 O1 P1); eassumption).
    assert (E2 : fs1' p = fs0' p).
    { eapply (source_kept build stat _ _ _ scans' newph' changed' added' [] fs0' e' l' fs1' D1' O1' P1'); try eassumption. apply (up_to_date_empty build fs0'). }
    rewrite E1, E2. auto.
Qed.

Section Packaged.
Context (build : str -> fs -> option build_result) (stat : fs -> str -> option fsig)
  (D O P : graph) (scans : dict scan_result) (newph : dict str) (changed added_ : dict fsig) (deleted : list str) (fs0 : fs)
  (e : env) (l : build_log) (fs1 : fs) (D1 O1 P1 : graph).
Context (HG : project_graphs D O P).
Context (HR : hot_rebuild build stat D O P scans newph changed added_ deleted fs0 e l fs1 D1 O1 P1).
Lemma graphs_valid : project_graphs D1 O1 P1 /\ acyclic D1 /\ acyclic O1 /\ acyclic P1.
Proof. destruct (graphs_after _ _ _ _ _ _ _ _ _ _ _ _ _ _ _ _ _ HG HR) as (A & B & C & F & _). auto. Qed.
Lemma stored_inputs : (forall f, In f (dkeys D1) <-> (affected D P (dkeys scans) deleted f \/ In f (dkeys D)) /\ ~ In f deleted) /\
  forall f, In f (dkeys D1) -> exists sig, api_meta D1 f = Some sig /\ api_meta O1 f = Some sig /\
    (dget f changed = Some sig \/ (dget f changed = None /\ dget f added_ = Some sig) \/
     (dget f changed = None /\ dget f added_ = None /\ api_meta D f = Some sig)).
Proof.
  destruct (graphs_after _ _ _ _ _ _ _ _ _ _ _ _ _ _ _ _ _ HG HR) as (_ & _ & _ & _ & A & _ & _ & _ & B & _).
  split; [exact A|]. intros f Hf. destruct (B f Hf) as (s & m & i & Hs & M1 & M2). exists (s, m, i). split; [assumption|]. split; [assumption|].
  revert Hs. unfold input_sig. destruct (dget f changed) as [x|]; [intros [= ->]; left; reflexivity|]. destruct (dget f added_) as [x|]; [intros [= ->]; right; left; auto|].
  destruct (dget f D) as [n|] eqn:E; [|discriminate]. intros [= <- <- <-]. right. right. split; [reflexivity|]. split; [reflexivity|].
  exact (meta_get D f n E).
Qed.
Lemma stored_edges : (forall f, In f (dkeys D1) -> affected D P (dkeys scans) deleted f -> exists d r, In (f, d, r) l) /\
  (forall f d r, In (f, d, r) l -> api_children O1 f = b_outputs r /\
     ((forall g sc o, In (g, sc) scans -> In o (s_produces sc) -> is_out o = true) -> recorded (known_producer O scans) f (b_children r) (api_children D1 f))) /\
  (forall f, In f (dkeys D1) -> ~ affected D P (dkeys scans) deleted f ->
     api_children D1 f = api_children D f /\ api_children O1 f = api_children O f) /\
  (forall f o, depends O1 f o -> In f (dkeys D1)).
Proof.
  destruct (graphs_after _ _ _ _ _ _ _ _ _ _ _ _ _ _ _ _ _ HG HR) as (_ & _ & _ & _ & A & B & C & F & _).
  split; [|split; [exact B|split; [exact C|exact F]]].
  intros f Hf Ha. destruct (unfolded _ _ _ _ _ _ _ _ _ _ _ _ _ _ _ _ _ HG HR) as (start & _ & _ & _ & S4 & _). apply names_in, S4. apply A in Hf. split; [exact Ha|tauto].
Qed.
Lemma stored_placeholders : (forall a b, depends P1 a b -> In (b, a) newph \/ depends P a b) /\
  (forall a b, In (b, a) newph -> depends P1 a b) /\
  (forall a b, depends P a b -> In a (dkeys D1) -> In b (dkeys D1) -> exists a', depends P a' b /\ depends P1 a' b).
Proof. destruct (graphs_after _ _ _ _ _ _ _ _ _ _ _ _ _ _ _ _ _ HG HR) as (_ & _ & _ & _ & _ & _ & _ & _ & _ & A). exact A. Qed.
End Packaged.
