(** Proofs of C17 and C18. *)
From Verif Require Import Base PyStr Hot HotGraphs ColdSpec External ExternalSpec.
From Coq Require Import String ZArith Bool List Lia.
Import ListNotations.
Open Scope list_scope.

Section Proofs.
Context (hash : str -> option (str -> str)) (stat : fs -> str -> option fsig).
Notation ensure := (ensure_integrity hash).
Notation verified := (verified hash).

Lemma ensure_ok s p i : ensure s p i = XRet tt -> exists c, s p = Some c /\ verified i c.
Proof.
  unfold ensure_integrity. destruct (split_on 45 i) as [|t [|d [|? ?]]] eqn:E; try discriminate.
  destruct (hash t) as [h|] eqn:Eh; [|discriminate]. destruct (s p) as [c|]; [|discriminate]. destruct (is_ascii d); [|discriminate].
  destruct (str_eqb d (h c)) eqn:Ed; [|discriminate]. intros _. exists c. split; [reflexivity|]. exists t, d, h. apply str_eqb_eq in Ed.
  split; [|auto]. rewrite <- (join_split 45 i), E. reflexivity.
Qed.
Lemma ensure_complete s p i c : s p = Some c -> verified i c -> (forall t h c, hash t = Some h -> is_ascii (h c) = true /\ ~ In 45%N (h c)) ->
  (forall t h, hash t = Some h -> ~ In 45%N t) -> ensure s p i = XRet tt.
Proof.
  intros Hs (t & d & h & -> & Hh & ->) Ha Ht. unfold ensure_integrity. change (lit "-") with [45%N]. cbn [app].
  rewrite split_on_app by eauto. rewrite split_on_none by (eapply Ha; exact Hh). rewrite Hh, Hs. rewrite (proj1 (Ha _ _ c Hh)), str_eqb_refl. reflexivity.
Qed.
Lemma ensure_agree s s' p i : s p = s' p -> ensure s p i = ensure s' p i.
Proof. intros H. unfold ensure_integrity. rewrite H. reflexivity. Qed.

(** ** one handler *)
Definition phase_inv (d0 : option str) (i : str) (ph : phase) (d t : option str) : Prop :=
  match ph with
  | PCheck | PGet | POpen => d = d0 /\ t = None
  | PWrite | PVerify => d = d0 /\ t <> None
  | PUnlink => d = d0 /\ exists c, t = Some c /\ verified i c
  | PRename => d = None /\ exists c, t = Some c /\ verified i c
  | PFinally (XRet _) | PDone (XRet _) => t = None /\ exists c, d = Some c /\ verified i c
  | PFinally (XRaise _) => d = d0
  | PDone (XRaise _) => d = d0 /\ t = None
  end.
Lemma set_same p c s : fs_set p c s p = Some c.
Proof. unfold fs_set. rewrite str_eqb_refl. reflexivity. Qed.
Lemma set_other p c s q : q <> p -> fs_set p c s q = s q.
Proof. intros H. unfold fs_set. destruct (str_eqb q p) eqn:E; [apply str_eqb_eq in E; contradiction|reflexivity]. Qed.
Lemma del_same p s : fs_del p s p = None.
Proof. unfold fs_del. rewrite str_eqb_refl. reflexivity. Qed.
Lemma del_other p s q : q <> p -> fs_del p s q = s q.
Proof. intros H. unfold fs_del. destruct (str_eqb q p) eqn:E; [apply str_eqb_eq in E; contradiction|reflexivity]. Qed.
Lemma handle_frame x temp ph s ph' s' q : handle_step hash x temp ph s ph' s' -> q <> x_relpath x -> q <> temp -> s' q = s q.
Proof. intros H H1 H2. destruct H; repeat first [rewrite set_other by assumption | rewrite del_other by assumption]; reflexivity. Qed.
Lemma handle_inv d0 x temp ph s ph' s' : temp <> x_relpath x -> handle_step hash x temp ph s ph' s' ->
  phase_inv d0 (x_integrity x) ph (s (x_relpath x)) (s temp) -> phase_inv d0 (x_integrity x) ph' (s' (x_relpath x)) (s' temp).
Proof.
  intros Hne H. assert (Hne' : x_relpath x <> temp) by congruence. destruct H as [s H|s e H He|s e H H1 H2| | | |s chunk c Hc| | |s H|s e H| |s c Hc|s Hc|s r]; cbn [phase_inv]; intros I.
  - destruct I as (I1 & I2). split; [assumption|]. apply ensure_ok in H. destruct H as (c & H & Hv). eauto.
  - assumption.
  - assumption.
  - assumption.
  - tauto.
  - destruct I as (I1 & I2). rewrite set_same, set_other by assumption. split; [assumption|discriminate].
  - destruct I as (I1 & I2). rewrite set_same, set_other by assumption. split; [assumption|discriminate].
  - assumption.
  - tauto.
  - destruct I as (I1 & I2). split; [assumption|]. apply ensure_ok in H. destruct H as (c & H & Hv). eauto.
  - tauto.
  - destruct I as (I1 & c & I2 & I3). rewrite del_same, del_other by assumption. eauto.
  - destruct I as (I1 & c' & I2 & I3). rewrite set_same, set_other, del_same by assumption. split; [reflexivity|]. exists c. split; [reflexivity|congruence].
  - destruct I as (I1 & c' & I2 & I3). congruence.
  - rewrite del_same, del_other by assumption. destruct r as [[]|e]; [|auto]. destruct I as (_ & c & I1 & I2). eauto.
Qed.

(** ** the pool *)
Definition pool_inv (s1 : fs) (ps : list proc) (s : fs) : Prop :=
  (forall p, In p ps -> phase_inv (s1 (x_relpath (pr_x p))) (x_integrity (pr_x p)) (pr_phase p) (s (x_relpath (pr_x p))) (s (pr_temp p))) /\
  (forall q, ~ In q (map (fun p => x_relpath (pr_x p)) ps) -> ~ In q (map pr_temp ps) -> s q = s1 q).
Definition names_ok (ps : list proc) : Prop := NoDup (map (fun p => x_relpath (pr_x p)) ps) /\ NoDup (map pr_temp ps) /\
  forall p q, In p ps -> In q ps -> pr_temp p <> x_relpath (pr_x q).
Definition static (ps : list proc) : list (external * str) := map (fun p => (pr_x p, pr_temp p)) ps.
Lemma names_static ps ps' : static ps = static ps' -> names_ok ps -> names_ok ps'.
Proof.
  intros E (A & B & C).
  assert (E1 : forall l, map (fun p => x_relpath (pr_x p)) l = map (fun xt => x_relpath (fst xt)) (static l)) by (intros l; unfold static; rewrite map_map; reflexivity).
  assert (E2 : forall l, map pr_temp l = map snd (static l)) by (intros l; unfold static; rewrite map_map; reflexivity).
  split; [rewrite E1, <- E, <- E1; assumption|]. split; [rewrite E2, <- E, <- E2; assumption|].
  assert (X : forall p, In p ps' -> exists q, In q ps /\ pr_x q = pr_x p /\ pr_temp q = pr_temp p).
  { intros p Hp. assert (Y : In (pr_x p, pr_temp p) (static ps)). { rewrite E. unfold static. apply in_map_iff. eauto. }
    unfold static in Y. apply in_map_iff in Y. destruct Y as (q & Eq & Hq). injection Eq as E3 E4. eauto. }
  intros p q Hp Hq. destruct (X p Hp) as (p' & Hp' & _ & <-). destruct (X q Hq) as (q' & Hq' & <- & _). auto.
Qed.
Lemma pool_step_inv s1 ps s ps' s' : names_ok ps -> pool_step hash (ps, s) (ps', s') -> pool_inv s1 ps s -> pool_inv s1 ps' s' /\ static ps = static ps'.
Proof.
  intros N H (I & F). inversion H as [before x temp ph after s0 ph' s0' Hh E1 E2]. subst s0 s0' ps ps'. clear H.
  assert (Est : static (before ++ mkProc x temp ph :: after) = static (before ++ mkProc x temp ph' :: after)) by (unfold static; rewrite !map_app; reflexivity).
  split; [|exact Est]. pose proof (names_static _ _ Est N) as N'. destruct N as (N1 & N2 & N3).
  assert (Hin : In (mkProc x temp ph) (before ++ mkProc x temp ph :: after)) by (apply in_or_app; right; left; reflexivity).
  split.
  - intros p Hp. apply in_app_or in Hp. assert (Hp' : p = mkProc x temp ph' \/ In p (before ++ after)) by (destruct Hp as [Hp|[Hp|Hp]]; [right; apply in_or_app; auto|auto|right; apply in_or_app; auto]).
    destruct Hp' as [->|Hp'].
    + cbn [pr_x pr_temp pr_phase]. eapply handle_inv; [apply (N3 _ _ Hin Hin)|exact Hh|]. exact (I _ Hin).
    + assert (Hold : In p (before ++ mkProc x temp ph :: after)) by (apply in_app_or in Hp'; apply in_or_app; destruct Hp'; [auto|right; right; assumption]).
      assert (R : forall q, q <> x_relpath x -> q <> temp -> s' q = s q) by (intros q; eapply handle_frame; exact Hh).
      assert (A1 : x_relpath (pr_x p) <> x_relpath x).
      { rewrite map_app in N1. cbn [map pr_x] in N1. apply NoDup_remove_2 in N1. intros X. apply N1. rewrite <- map_app, <- X. apply in_map_iff. eauto. }
      assert (A2 : pr_temp p <> temp).
      { rewrite map_app in N2. cbn [map pr_temp] in N2. apply NoDup_remove_2 in N2. intros X. apply N2. rewrite <- map_app, <- X. apply in_map_iff. eauto. }
      rewrite (R (x_relpath (pr_x p))), (R (pr_temp p)); [apply I; assumption|exact (N3 _ _ Hold Hin)|assumption|assumption|].
      intros X. exact (N3 _ _ Hin Hold (eq_sym X)).
  - intros q H1 H2. rewrite map_app in H1, H2. cbn [map pr_x pr_temp] in H1, H2. rewrite (handle_frame _ _ _ _ _ _ q Hh).
    + apply F; rewrite map_app; cbn [map pr_x pr_temp]; assumption.
    + intros ->. apply H1. apply in_or_app. right. left. reflexivity.
    + intros ->. apply H2. apply in_or_app. right. left. reflexivity.
Qed.
Lemma pool_steps_inv a b : pool_steps hash a b -> names_ok (fst a) -> forall s1, pool_inv s1 (fst a) (snd a) -> pool_inv s1 (fst b) (snd b) /\ static (fst a) = static (fst b).
Proof.
  induction 1 as [a|a b c H IH Hc]; intros N s1 I; [auto|]. destruct (IH N s1 I) as (J & E). destruct b as [ps s], c as [ps' s']. cbn [fst snd] in *.
  destruct (pool_step_inv s1 ps s ps' s' (names_static _ _ E N) Hc J) as (K & E'). split; [exact K|congruence].
Qed.
Lemma start_static xs temps : length temps = length xs -> static (start xs temps) = combine xs temps.
Proof. intros _. unfold static, start. rewrite map_map. cbn [pr_x pr_temp]. rewrite <- (map_id (combine xs temps)) at 2. apply map_ext. intros [x t]. reflexivity. Qed.
Lemma combine_fst {A B} (l : list A) (l' : list B) : length l' = length l -> map fst (combine l l') = l.
Proof. revert l'. induction l as [|a r IH]; intros [|b r'] E; simpl in *; try discriminate; [reflexivity|]. rewrite IH; [reflexivity|lia]. Qed.
Lemma combine_snd {A B} (l : list A) (l' : list B) : length l' = length l -> map snd (combine l l') = l'.
Proof. revert l'. induction l as [|a r IH]; intros [|b r'] E; simpl in *; try discriminate; [reflexivity|]. rewrite IH; [reflexivity|lia]. Qed.
Lemma pool_correct xs temps s1 ps s : length temps = length xs -> NoDup (map x_relpath xs) -> NoDup temps ->
  (forall t, In t temps -> s1 t = None /\ ~ In t (map x_relpath xs)) -> pool_steps hash (start xs temps, s1) (ps, s) ->
  pool_inv s1 ps s /\ map pr_x ps = xs /\ map pr_temp ps = temps.
Proof.
  intros El N1 N2 Ht H.
  assert (Es : forall ps, static ps = combine xs temps -> map pr_x ps = xs /\ map pr_temp ps = temps).
  { intros l E. split.
    - rewrite <- (combine_fst xs temps El), <- E. unfold static. rewrite map_map. reflexivity.
    - rewrite <- (combine_snd xs temps El), <- E. unfold static. rewrite map_map. reflexivity. }
  destruct (Es _ (start_static xs temps El)) as (X1 & X2).
  assert (N : names_ok (start xs temps)).
  { split; [rewrite <- (map_map pr_x x_relpath), X1; assumption|]. split; [rewrite X2; assumption|]. intros p q Hp Hq X.
    apply (proj2 (Ht (pr_temp p) ltac:(rewrite <- X2; apply in_map; assumption))). rewrite X, <- X1. apply in_map, in_map. assumption. }
  destruct (pool_steps_inv _ _ H N s1) as (I & E).
  - cbn [fst snd]. split; [|reflexivity]. intros p Hp. assert (Hph : pr_phase p = PCheck). { unfold start in Hp. apply in_map_iff in Hp. destruct Hp as (? & <- & _). reflexivity. }
    rewrite Hph. split; [reflexivity|]. apply Ht. rewrite <- X2. apply in_map. assumption.
  - cbn [fst snd] in *. split; [exact I|]. apply Es. rewrite <- E. apply start_static. assumption.
Qed.

(** ** removal of files no longer configured *)
Lemma remove_old_spec cfg keys : forall s r s', remove_old cfg keys s = (r, s') ->
  (forall q, In q (dkeys cfg) \/ ~ In q keys -> s' q = s q) /\ (forall q, s q = None -> s' q = None) /\
  (r = XRet tt -> forall q, In q keys -> ~ In q (dkeys cfg) -> s' q = None) /\ (forall e, r = XRaise e -> e = Py FileNotFoundError).
Proof.
  induction keys as [|k ks IH]; intros s r s' H; cbn [remove_old] in H.
  - injection H as <- <-. split; [auto|]. split; [auto|]. split; [intros _ q []|discriminate].
  - destruct (dmem k cfg) eqn:Ek.
    + destruct (IH _ _ _ H) as (A & B & C & D). split; [|split; [exact B|split; [|exact D]]].
      * intros q [Hq|Hq]; apply A; [auto|]. right. intros X. apply Hq. right. assumption.
      * intros Hr q [<-|Hq] Hn; [apply dmem_In in Ek; contradiction|auto].
    + assert (Hk : ~ In k (dkeys cfg)) by (intros X; apply dmem_In in X; congruence). destruct (s k) as [c|] eqn:Es.
      * destruct (IH _ _ _ H) as (A & B & C & D). split; [|split; [|split; [|exact D]]].
        -- intros q Hq. rewrite A by (destruct Hq as [Hq|Hq]; [auto|right; intros X; apply Hq; right; assumption]). apply del_other. intros ->. destruct Hq as [Hq|Hq]; [auto|]. apply Hq. left. reflexivity.
        -- intros q Hq. apply B. unfold fs_del. rewrite Hq. destruct (str_eqb q k); reflexivity.
        -- intros Hr q [<-|Hq] Hn; [|auto]. apply B. apply del_same.
      * injection H as <- <-. split; [auto|]. split; [auto|]. split; [discriminate|intros e [= <-]; reflexivity].
Qed.

(** ** the configuration *)
Lemma load_ok data : config_ok (load_external_files data).
Proof.
  unfold load_external_files. assert (H : forall acc, config_ok acc -> config_ok (fold_left (fun acc kv => let '(key, (rel, url, integrity)) := kv in
    let relpath := match rel with Some p => p | None => key end in dset relpath (mkExternal relpath url integrity) acc) data acc)).
  { induction data as [|[key [[rel url] i]] r IH]; intros acc Ha; [exact Ha|]. cbn [fold_left]. apply IH. destruct Ha as (A & B). split; [apply dict_wf_dset; assumption|].
    intros k x Hx. set (p := match rel with Some p => p | None => key end) in *. assert (G : dget k (dset p (mkExternal p url i) acc) = Some x) by (apply In_dget; [apply dict_wf_dset; assumption|assumption]).
    rewrite dget_dset in G. destruct (str_eqb k p) eqn:E; [injection G as <-; apply str_eqb_eq in E; auto|]. apply B. apply dget_In. assumption. }
  apply H. split; [constructor|intros k x []].
Qed.
Lemma cfg_relpaths cfg : config_ok cfg -> map x_relpath (map snd cfg) = dkeys cfg.
Proof.
  intros (_ & H). unfold dkeys. rewrite map_map. apply map_ext_in. intros [k x] Hx. cbn [fst snd]. apply H. assumption.
Qed.
Lemma cfg_get cfg k x : config_ok cfg -> dget k cfg = Some x <-> In x (map snd cfg) /\ x_relpath x = k.
Proof.
  intros (N & H). split.
  - intros Hg. apply dget_In in Hg. split; [apply in_map_iff; exists (k, x); auto|eapply H; eassumption].
  - intros (Hx & <-). apply in_map_iff in Hx. destruct Hx as ([k' x'] & E & Hx). cbn [snd] in E. subst x'. rewrite (H _ _ Hx). apply In_dget; assumption.
Qed.
Lemma NoDup_map_filter {A B} (f : A -> B) (g : A -> bool) l : NoDup (map f l) -> NoDup (map f (filter g l)).
Proof.
  induction l as [|a r IH]; simpl; [auto|]. intros H. inversion H as [|? ? H1 H2]. subst. destruct (g a); [|auto]. simpl. constructor; [|auto].
  intros X. apply H1. apply in_map_iff in X. destruct X as (b & E & Hb). apply filter_In in Hb. apply in_map_iff. exists b. tauto.
Qed.
Lemma fsig_eqb_eq a b : fsig_eqb a b = true <-> a = b.
Proof.
  destruct a as [[a1 a2] a3], b as [[b1 b2] b3]. unfold fsig_eqb. rewrite !andb_true_iff, !Z.eqb_eq. split; [intros ((-> & ->) & ->); reflexivity|intros [= -> -> ->]; auto].
Qed.
Lemma skippable_spec s state x : skippable stat s state x = true <->
  exists k, dget (x_relpath x) state = Some k /\ k_integrity k = x_integrity x /\ stat s (x_relpath x) = Some (k_sig k).
Proof.
  unfold skippable. destruct (dget (x_relpath x) state) as [k|]; [|split; [discriminate|intros (k & [=] & _)]].
  destruct (str_eqb (k_integrity k) (x_integrity x)) eqn:E.
  - apply str_eqb_eq in E. destruct (stat s (x_relpath x)) as [g|] eqn:Es.
    + rewrite fsig_eqb_eq. split; [intros ->; eauto|intros (k' & [= <-] & _ & Hg)]. change (Some g = Some (k_sig k)) in Hg. injection Hg as ->. reflexivity.
    + split; [discriminate|intros (k' & _ & _ & [=])].
  - split; [discriminate|]. intros (k' & [= <-] & X & _). rewrite X, str_eqb_refl in E. discriminate.
Qed.
Lemma handle_names cfg s1 state temps : config_ok cfg -> fresh cfg s1 temps ->
  NoDup (map x_relpath (to_handle stat s1 state (map snd cfg))) /\ NoDup temps /\
  (forall t, In t temps -> s1 t = None /\ ~ In t (map x_relpath (to_handle stat s1 state (map snd cfg)))) /\
  (forall k, In k (map x_relpath (to_handle stat s1 state (map snd cfg))) -> In k (dkeys cfg)).
Proof.
  intros Hc (F1 & F2).
  assert (Sub : forall k, In k (map x_relpath (to_handle stat s1 state (map snd cfg))) -> In k (dkeys cfg)).
  { intros k Hk. rewrite <- (cfg_relpaths cfg Hc). apply in_map_iff in Hk. destruct Hk as (x & <- & Hx). unfold to_handle in Hx. apply filter_In in Hx. apply in_map. tauto. }
  split; [apply NoDup_map_filter; rewrite cfg_relpaths by assumption; apply Hc|]. split; [assumption|]. split; [|exact Sub].
  intros t Ht. destruct (F2 t Ht) as (A & B). split; [assumption|]. intros X. apply B. apply Sub. assumption.
Qed.

(** ** every moment of a check *)
Lemma moment_safe cfg w s : config_ok cfg -> moment hash stat cfg w s ->
  (forall k x, dget k cfg = Some x -> s k = w_fs w k \/ s k = None \/ exists c, s k = Some c /\ verified (x_integrity x) c) /\
  (forall q c, ~ In q (dkeys cfg) -> ~ In q (dkeys (old_state w)) -> w_fs w q = Some c -> s q = Some c).
Proof.
  intros Hc HM. destruct HM as [keys1 keys2 r s Hn Hk Hr|s1 temps ps s Hn Hr Hf Hl Hp].
  - destruct (remove_old_spec _ _ _ _ _ Hr) as (A & B & _). split.
    + intros k x Hx. left. apply A. left. eapply dget_Some_key. exact Hx.
    + intros q c H1 H2 Hq. rewrite A; [assumption|]. right. intros X. apply H2. rewrite Hk. apply in_or_app. auto.
  - destruct (remove_old_spec _ _ _ _ _ Hr) as (A & B & _). destruct (handle_names cfg s1 (old_state w) temps Hc Hf) as (N1 & N2 & N3 & N4).
    destruct (pool_correct _ _ _ _ _ Hl N1 N2 N3 Hp) as ((I & F) & E1 & E2). split.
    + intros k x Hx. assert (Hk : s1 k = w_fs w k) by (apply A; left; eapply dget_Some_key; exact Hx). apply (cfg_get cfg k x Hc) in Hx. destruct Hx as (Hx & Ek).
      destruct (in_dec str_eq_dec k (map x_relpath (to_handle stat s1 (old_state w) (map snd cfg)))) as [Hin|Hout].
      * assert (Hx' : In x (map pr_x ps)).
        { rewrite E1. apply in_map_iff in Hin. destruct Hin as (y & Ey & Hy). assert (y = x); [|congruence]. unfold to_handle in Hy. apply filter_In in Hy. destruct Hy as (Hy & _).
          assert (G : dget k cfg = Some y) by (apply cfg_get; auto). assert (G' : dget k cfg = Some x) by (apply cfg_get; auto). congruence. }
        apply in_map_iff in Hx'. destruct Hx' as (p & <- & Hp'). specialize (I p Hp'). rewrite Ek in I. rewrite Hk in I.
        destruct (pr_phase p) as [| | | | | | |[]|[]]; cbn [phase_inv] in I; try tauto.
      * left. rewrite F; [assumption| |].
        -- rewrite <- (map_map pr_x x_relpath), E1. assumption.
        -- rewrite E2. intros X. destruct Hf as (_ & Hf). destruct (Hf k X) as (_ & Y). apply Y. rewrite <- Ek. rewrite <- (cfg_relpaths cfg Hc). apply in_map. assumption.
    + intros q c H1 H2 Hq. assert (Hq1 : s1 q = Some c) by (rewrite A; auto). rewrite F; [assumption| |].
      * rewrite <- (map_map pr_x x_relpath), E1. intros X. apply H1. apply N4. assumption.
      * rewrite E2. intros X. destruct (N3 q X) as (Y & _). congruence.
Qed.

(** ** the end of a check *)
Lemma first_error_none ps : first_error ps = None -> (forall p, In p ps -> exists r, pr_phase p = PDone r) -> forall p, In p ps -> pr_phase p = PDone (XRet tt).
Proof.
  induction ps as [|p r IH]; intros H Hd q Hq; [destruct Hq|]. cbn [first_error] in H. destruct (Hd p (or_introl eq_refl)) as (rp & Ep). rewrite Ep in H.
  destruct rp as [[]|e]; [|discriminate]. destruct Hq as [<-|Hq]; [assumption|]. apply IH; [assumption|intros; apply Hd; right; assumption|assumption].
Qed.
Lemma pool_end cfg w s1 temps ps s2 : config_ok cfg -> fresh cfg s1 temps -> length temps = length (to_handle stat s1 (old_state w) (map snd cfg)) ->
  pool_steps hash (start (to_handle stat s1 (old_state w) (map snd cfg)) temps, s1) (ps, s2) -> (forall p, In p ps -> exists r, pr_phase p = PDone r) ->
  (forall q, ~ In q (map x_relpath (to_handle stat s1 (old_state w) (map snd cfg))) -> s2 q = s1 q) /\
  (forall x, In x (to_handle stat s1 (old_state w) (map snd cfg)) -> s2 (x_relpath x) = s1 (x_relpath x) \/ exists c, s2 (x_relpath x) = Some c /\ verified (x_integrity x) c) /\
  (first_error ps = None -> forall x, In x (to_handle stat s1 (old_state w) (map snd cfg)) -> exists c, s2 (x_relpath x) = Some c /\ verified (x_integrity x) c).
Proof.
  intros Hc Hf Hl Hp Hd. destruct (handle_names cfg s1 (old_state w) temps Hc Hf) as (N1 & N2 & N3 & N4). destruct (pool_correct _ _ _ _ _ Hl N1 N2 N3 Hp) as ((I & F) & E1 & E2).
  split; [|split].
  - intros q Hq. destruct (in_dec str_eq_dec q temps) as [Ht|Ht].
    + rewrite (proj1 (N3 q Ht)). rewrite <- E2 in Ht. apply in_map_iff in Ht. destruct Ht as (p & <- & Hp'). specialize (I p Hp'). destruct (Hd p Hp') as (r & Er). rewrite Er in I.
      destruct r; cbn [phase_inv] in I; tauto.
    + apply F; [rewrite <- (map_map pr_x x_relpath), E1; assumption|rewrite E2; assumption].
  - intros x Hx. rewrite <- E1 in Hx. apply in_map_iff in Hx. destruct Hx as (p & <- & Hp'). specialize (I p Hp'). destruct (Hd p Hp') as (r & Er). rewrite Er in I. destruct r; cbn [phase_inv] in I; [right|left]; tauto.
  - intros He x Hx. rewrite <- E1 in Hx. apply in_map_iff in Hx. destruct Hx as (p & <- & Hp'). specialize (I p Hp'). rewrite (first_error_none ps He Hd p Hp') in I. apply I.
Qed.
Lemma check_end cfg w ps r w' : config_ok cfg -> check_files hash stat cfg w ps r w' ->
  (forall k x, dget k cfg = Some x -> w_fs w' k = w_fs w k \/ exists c, w_fs w' k = Some c /\ verified (x_integrity x) c) /\
  (forall q, ~ In q (dkeys cfg) -> w_fs w q = None -> w_fs w' q = None) /\
  (forall q c, ~ In q (dkeys cfg) -> ~ In q (dkeys (old_state w)) -> w_fs w q = Some c -> w_fs w' q = Some c).
Proof.
  intros Hc H.
  assert (Hpool : forall s1 temps s2, remove_old cfg (dkeys (old_state w)) (w_fs w) = (XRet tt, s1) -> fresh cfg s1 temps ->
     length temps = length (to_handle stat s1 (old_state w) (map snd cfg)) -> pool_steps hash (start (to_handle stat s1 (old_state w) (map snd cfg)) temps, s1) (ps, s2) ->
     (forall p, In p ps -> exists r, pr_phase p = PDone r) ->
     (forall k x, dget k cfg = Some x -> s2 k = w_fs w k \/ exists c, s2 k = Some c /\ verified (x_integrity x) c) /\
     (forall q, ~ In q (dkeys cfg) -> w_fs w q = None -> s2 q = None) /\ (forall q c, ~ In q (dkeys cfg) -> ~ In q (dkeys (old_state w)) -> w_fs w q = Some c -> s2 q = Some c)).
  { intros s1 temps s2 Hr Hf Hl Hp Hd. destruct (remove_old_spec _ _ _ _ _ Hr) as (A & B & _). destruct (pool_end cfg w s1 temps ps s2 Hc Hf Hl Hp Hd) as (P1 & P2 & P3).
    destruct (handle_names cfg s1 (old_state w) temps Hc Hf) as (_ & _ & _ & N4). split; [|split].
    - intros k x Hx. assert (Hk : s1 k = w_fs w k) by (apply A; left; eapply dget_Some_key; exact Hx). apply (cfg_get cfg k x Hc) in Hx. destruct Hx as (Hx & <-).
      destruct (skippable stat s1 (old_state w) x) eqn:Es.
      + left. rewrite P1; [assumption|]. intros X. apply in_map_iff in X. destruct X as (y & Ey & Hy). unfold to_handle in Hy. apply filter_In in Hy. destruct Hy as (Hy & Hy').
        assert (G : dget (x_relpath x) cfg = Some y) by (apply cfg_get; auto). assert (G' : dget (x_relpath x) cfg = Some x) by (apply cfg_get; auto). assert (y = x) by congruence. subst y. rewrite Es in Hy'. discriminate.
      + rewrite <- Hk. apply P2. unfold to_handle. apply filter_In. rewrite Es. auto.
    - intros q Hq Hn. rewrite P1; [apply B; assumption|]. intros X. apply Hq. apply N4. assumption.
    - intros q c Hq Ho Hn. rewrite P1; [rewrite A; auto|]. intros X. apply Hq. apply N4. assumption. }
  assert (Hrm : forall r s1, remove_old cfg (dkeys (old_state w)) (w_fs w) = (r, s1) ->
     (forall k x, dget k cfg = Some x -> s1 k = w_fs w k \/ exists c, s1 k = Some c /\ verified (x_integrity x) c) /\
     (forall q, ~ In q (dkeys cfg) -> w_fs w q = None -> s1 q = None) /\ (forall q c, ~ In q (dkeys cfg) -> ~ In q (dkeys (old_state w)) -> w_fs w q = Some c -> s1 q = Some c)).
  { intros r0 s1 Hr. destruct (remove_old_spec _ _ _ _ _ Hr) as (A & B & _). split; [|split].
    - intros k x Hx. left. apply A. left. eapply dget_Some_key. exact Hx.
    - intros q _. apply B.
    - intros q c H1 H2 H3. rewrite A; auto. }
  destruct H; cbn [w_fs]; eauto 6.
Qed.

(** ** bookkeeping *)
Definition recorded_ok (w : ext_world) : Prop := forall k r, dget k (old_state w) = Some r -> exists s c, stat s k = Some (k_sig r) /\ s k = Some c /\ verified (k_integrity r) c.
Lemma kept_state_spec s state xs : forall k r, dget k (kept_state stat s state xs) = Some r -> dget k state = Some r /\ exists x, In x xs /\ x_relpath x = k /\ skippable stat s state x = true.
Proof.
  unfold kept_state. assert (H : forall acc, (forall k r, dget k acc = Some r -> dget k state = Some r /\ exists x, In x xs /\ x_relpath x = k /\ skippable stat s state x = true) ->
    forall ys, (forall y, In y ys -> In y xs) -> forall k r, dget k (fold_left (fun acc x => if skippable stat s state x then match dget (x_relpath x) state with Some k => dset (x_relpath x) k acc | None => acc end else acc) ys acc) = Some r ->
    dget k state = Some r /\ exists x, In x xs /\ x_relpath x = k /\ skippable stat s state x = true).
  { intros acc Hacc ys. revert acc Hacc. induction ys as [|y r IH]; intros acc Hacc Hy k v; [apply Hacc|]. cbn [fold_left]. apply IH; [|intros z Hz; apply Hy; right; assumption].
    destruct (skippable stat s state y) eqn:Es; [|exact Hacc]. destruct (dget (x_relpath y) state) as [old|] eqn:Eo; [|exact Hacc].
    intros k' r'. rewrite dget_dset. destruct (str_eqb k' (x_relpath y)) eqn:E; [|apply Hacc]. intros [= <-]. apply str_eqb_eq in E. subst k'. split; [assumption|].
    exists y. split; [apply Hy; left; reflexivity|auto]. }
  intros k r. apply (H [] ltac:(intros ? ? [=]) xs). auto.
Qed.
Lemma kept_state_has s state xs x : In x xs -> skippable stat s state x = true -> dmem (x_relpath x) (kept_state stat s state xs) = true.
Proof.
  intros Hx Hs. unfold kept_state.
  set (f := fun (acc : @dict recorded) x => if skippable stat s state x then match dget (x_relpath x) state with Some k => dset (x_relpath x) k acc | None => acc end else acc).
  assert (Mono : forall ys acc k, dmem k acc = true -> dmem k (fold_left f ys acc) = true).
  { induction ys as [|y r IH]; intros acc k Hk; [exact Hk|]. cbn [fold_left]. apply IH. unfold f. destruct (skippable stat s state y); [|assumption]. destruct (dget (x_relpath y) state); [|assumption].
    unfold dmem in *. rewrite dget_dset. destruct (str_eqb k (x_relpath y)); [reflexivity|assumption]. }
  enough (H : forall ys acc, In x ys -> dmem (x_relpath x) (fold_left f ys acc) = true) by (apply H; assumption).
  induction ys as [|y r IH]; intros acc Hin; [destruct Hin|]. cbn [fold_left]. destruct Hin as [->|Hin]; [|apply IH; assumption]. apply Mono. unfold f. rewrite Hs.
  apply skippable_spec in Hs. destruct Hs as (k & -> & _). unfold dmem. rewrite dget_dset, str_eqb_refl. reflexivity.
Qed.
Lemma add_states_spec s xs : forall acc state, add_states stat s xs acc = XRet state -> NoDup (map x_relpath xs) ->
  (forall k r, dget k state = Some r -> dget k acc = Some r \/ exists x, In x xs /\ x_relpath x = k /\ dget k acc = None /\ stat s k = Some (k_sig r) /\ k_integrity r = x_integrity x) /\
  (forall k r, dget k acc = Some r -> dget k state = Some r) /\ (forall x, In x xs -> In (x_relpath x) (dkeys state)).
Proof.
  induction xs as [|x r IH]; intros acc state H N; cbn [add_states] in H.
  - injection H as <-. split; [auto|]. split; [auto|intros x []].
  - cbn [map] in N. inversion N as [|? ? N1 N2]. subst. destruct (dmem (x_relpath x) acc) eqn:Em.
    + destruct (IH _ _ H N2) as (A & B & C). split; [|split; [exact B|]].
      * intros k v Hk. destruct (A k v Hk) as [X|(y & Y1 & Y2)]; [auto|]. right. exists y. split; [right; assumption|assumption].
      * intros y [<-|Hy]; [|auto]. unfold dmem in Em. destruct (dget (x_relpath x) acc) as [v|] eqn:E; [|discriminate]. eapply dget_Some_key. apply B. exact E.
    + destruct (stat s (x_relpath x)) as [g|] eqn:Es; [|discriminate]. destruct (IH _ _ H N2) as (A & B & C).
      assert (En : dget (x_relpath x) acc = None) by (unfold dmem in Em; destruct (dget (x_relpath x) acc); [discriminate|reflexivity]). split; [|split].
      * intros k v Hk. destruct (A k v Hk) as [X|(y & Y1 & Y2 & Y3 & Y4)].
        -- rewrite dget_dset in X. destruct (str_eqb k (x_relpath x)) eqn:E; [|auto]. apply str_eqb_eq in E. subst k. injection X as <-. right. exists x. cbn [k_sig k_integrity]. split; [left; reflexivity|]. auto.
        -- rewrite dget_dset in Y3. destruct (str_eqb k (x_relpath x)) eqn:E; [discriminate|]. right. exists y. split; [right; assumption|auto].
      * intros k v Hk. apply B. rewrite dget_dset. destruct (str_eqb k (x_relpath x)) eqn:E; [|assumption]. apply str_eqb_eq in E. subst k. congruence.
      * intros y [<-|Hy]; [|auto]. eapply dget_Some_key. apply B. rewrite dget_dset, str_eqb_refl. reflexivity.
Qed.
Context (Hdet : stat_detects stat).
Lemma skipped_verified w s x : recorded_ok w -> skippable stat s (old_state w) x = true -> exists c, s (x_relpath x) = Some c /\ verified (x_integrity x) c.
Proof.
  intros H Hs. apply skippable_spec in Hs. destruct Hs as (k & Hk & Hi & Hg). destruct (H _ _ Hk) as (s' & c & Hs' & Hc & Hv). exists c. split; [|congruence].
  rewrite (Hdet s s' (x_relpath x)); [assumption|]. rewrite Hs'. exact Hg.
Qed.
(** after a successful check *)
Lemma check_verified cfg w ps w' : config_ok cfg -> recorded_ok w -> check_files hash stat cfg w ps (XRet tt) w' -> forall k x, dget k cfg = Some x -> exists c, w_fs w' k = Some c /\ verified (x_integrity x) c.
Proof.
  intros Hc Hr H k x Hx. inversion H as [E| |s1 Hn Hrm Hh| |s1 temps qs s2 state Hn Hrm Hh Hf Hl Hp Hd He Ha| ]; subst.
  - discriminate Hx.
  - cbn [w_fs]. apply (cfg_get cfg k x Hc) in Hx. destruct Hx as (Hx & <-). apply (skipped_verified w); [assumption|].
    destruct (skippable stat s1 (old_state w) x) eqn:Es; [reflexivity|]. exfalso. apply (in_nil (a := x)). rewrite <- Hh. unfold to_handle. apply filter_In. rewrite Es. auto.
  - cbn [w_fs]. apply (cfg_get cfg k x Hc) in Hx. destruct Hx as (Hx & <-). destruct (pool_end cfg w s1 temps ps s2 Hc Hf Hl Hp Hd) as (P1 & _ & P3).
    destruct (skippable stat s1 (old_state w) x) eqn:Es; [|apply P3; [assumption|]; unfold to_handle; apply filter_In; rewrite Es; auto].
    rewrite P1; [apply (skipped_verified w); assumption|]. intros X. apply in_map_iff in X. destruct X as (y & Ey & Hy). unfold to_handle in Hy. apply filter_In in Hy. destruct Hy as (Hy & Hy').
    assert (G : dget (x_relpath x) cfg = Some y) by (apply cfg_get; auto). assert (G' : dget (x_relpath x) cfg = Some x) by (apply cfg_get; auto). assert (y = x) by congruence. subst y. rewrite Es in Hy'. discriminate.
Qed.
Lemma check_recorded cfg w ps r w' : config_ok cfg -> recorded_ok w -> check_files hash stat cfg w ps r w' -> recorded_ok w'.
Proof.
  intros Hc Hr H. pose proof H as H0. destruct H as [|s1 e Hn Hrm|s1 Hn Hrm Hh|s1 temps ps s2 e Hn Hrm Hh Hf Hl Hp Hd He|s1 temps ps s2 state Hn Hrm Hh Hf Hl Hp Hd He Ha|s1 temps ps s2 e Hn Hrm Hh Hf Hl Hp Hd He Ha]; try exact Hr.
  intros k v Hv. cbn [old_state w_state] in Hv. destruct (add_states_spec _ _ _ _ Ha) as (A & _ & _); [rewrite cfg_relpaths by assumption; apply Hc|].
  destruct (A k v Hv) as [X|(x & Hx & Ek & _ & Hs & Hi)].
  - apply kept_state_spec in X. apply Hr. apply X.
  - destruct (check_verified cfg w ps _ Hc Hr H0 k x) as (c & Hc1 & Hc2); [apply cfg_get; auto|]. exists s2, c. cbn [w_fs] in Hc1. split; [assumption|]. split; [assumption|congruence].
Qed.
Lemma history_recorded w : ext_history hash stat w -> recorded_ok w.
Proof.
  induction 1 as [s|w s H IH|w cfg ps r w' H IH Hc Hk|w cfg s H IH Hc Hm].
  - intros k r [=].
  - exact IH.
  - eapply check_recorded; eassumption.
  - exact IH.
Qed.
Lemma history_verified w cfg ps w' : ext_history hash stat w -> config_ok cfg -> check_files hash stat cfg w ps (XRet tt) w' ->
  forall k x, dget k cfg = Some x -> exists c, w_fs w' k = Some c /\ verified (x_integrity x) c.
Proof. intros H Hc Hk. exact (check_verified cfg w ps w' Hc (history_recorded w H) Hk). Qed.
Lemma removed_gone cfg w ps w' : config_ok cfg -> cfg <> [] -> check_files hash stat cfg w ps (XRet tt) w' -> forall k, In k (dkeys (old_state w)) -> ~ In k (dkeys cfg) -> w_fs w' k = None.
Proof.
  intros Hc Hne H k Hk Hkc. inversion H as [E| |s1 Hn Hrm Hh| |s1 temps qs s2 state Hn Hrm Hh Hf Hl Hp Hd He Ha| ]; subst; cbn [w_fs].
  - contradiction.
  - destruct (remove_old_spec _ _ _ _ _ Hrm) as (_ & _ & X & _). auto.
  - destruct (remove_old_spec _ _ _ _ _ Hrm) as (_ & _ & X & _). destruct (pool_end cfg w s1 temps ps s2 Hc Hf Hl Hp Hd) as (P1 & _ & _).
    destruct (handle_names cfg s1 (old_state w) temps Hc Hf) as (_ & _ & _ & N4). rewrite P1; [auto|]. intros Y. apply Hkc. apply N4. assumption.
Qed.
Lemma remove_old_none cfg keys s : (forall k, In k keys -> In k (dkeys cfg)) -> remove_old cfg keys s = (XRet tt, s).
Proof.
  induction keys as [|k r IH]; intros H; cbn [remove_old]; [reflexivity|]. rewrite (proj2 (dmem_In k cfg)) by (apply H; left; reflexivity). apply IH. intros q Hq. apply H. right. assumption.
Qed.
Lemma remove_old_fails cfg keys k : In k keys -> ~ In k (dkeys cfg) -> forall s, s k = None -> exists s', remove_old cfg keys s = (XRaise (Py FileNotFoundError), s').
Proof.
  intros Hk Hc. induction keys as [|q r IH]; [destruct Hk|]. intros s Hs. cbn [remove_old]. destruct (dmem q cfg) eqn:E.
  - destruct Hk as [->|Hk]; [apply dmem_In in E; contradiction|]. apply IH; assumption.
  - destruct (s q) as [c|] eqn:Eq; [|eauto]. destruct Hk as [->|Hk]; [congruence|]. apply IH; [assumption|]. unfold fs_del. rewrite Hs. destruct (str_eqb k q); reflexivity.
Qed.
(** everything is recorded *)
Definition caught_up (cfg : @dict external) (w : ext_world) : Prop :=
  (forall k, In k (dkeys (old_state w)) -> In k (dkeys cfg)) /\ forall x, In x (map snd cfg) -> skippable stat (w_fs w) (old_state w) x = true.
Lemma to_handle_nil s state xs : (forall x, In x xs -> skippable stat s state x = true) <-> to_handle stat s state xs = [].
Proof.
  unfold to_handle. induction xs as [|x r IH]; simpl; [split; [reflexivity|intros _ x []]|]. destruct (skippable stat s state x) eqn:E; simpl.
  - rewrite <- IH. split; [auto|]. intros H y [<-|Hy]; auto.
  - split; [intros H; specialize (H x (or_introl eq_refl)); congruence|discriminate].
Qed.
Lemma caught_up_idle cfg w : caught_up cfg w -> check_files hash stat cfg w [] (XRet tt) w /\ forall ps r w2, check_files hash stat cfg w ps r w2 -> ps = [] /\ r = XRet tt /\ w2 = w.
Proof.
  intros (H1 & H2). assert (Ew : w = mkExt (w_fs w) (w_state w)) by (destruct w; reflexivity). pose proof (remove_old_none cfg (dkeys (old_state w)) (w_fs w) H1) as Hr.
  pose proof (proj1 (to_handle_nil _ _ _) H2) as Hh. split.
  - destruct cfg as [|a b]; [apply cf_empty; reflexivity|]. rewrite Ew at 2. apply cf_idle; [discriminate|exact Hr|exact Hh].
  - intros ps r w2 H. destruct H as [|s1 e Hn Hrm|s1 Hn Hrm _|s1 temps ps s2 e Hn Hrm Hn2|s1 temps ps s2 state Hn Hrm Hn2|s1 temps ps s2 e Hn Hrm Hn2]; [auto| | | | | ]; rewrite Hr in Hrm; try discriminate; injection Hrm as <-; try contradiction.
    split; [reflexivity|]. split; [reflexivity|]. symmetry. exact Ew.
Qed.
Lemma check_catches_up cfg w ps w' : stat_ok stat -> config_ok cfg -> check_files hash stat cfg w ps (XRet tt) w' -> cfg <> [] ->
  (ps <> [] \/ forall k, In k (dkeys (old_state w)) -> In k (dkeys cfg)) -> caught_up cfg w'.
Proof.
  intros Hst Hc H Hne Hor. inversion H as [E| |s1 Hn Hrm Hh| |s1 temps qs s2 state Hn Hrm Hh Hf Hl Hp Hd He Ha| ]; subst; [contradiction| | ].
  - destruct Hor as [X|X]; [congruence|]. rewrite (remove_old_none cfg _ _ X) in Hrm. injection Hrm as <-. split; [exact X|]. cbn [w_fs old_state w_state]. apply to_handle_nil. exact Hh.
  - assert (N : NoDup (map x_relpath (map snd cfg))) by (rewrite cfg_relpaths by assumption; apply Hc).
    destruct (add_states_spec _ _ _ _ Ha N) as (A & B & C). destruct (pool_end cfg w s1 temps ps s2 Hc Hf Hl Hp Hd) as (P1 & _ & _). split.
    + intros k Hk. cbn [old_state w_state] in Hk. apply In_dkeys_dget in Hk. destruct Hk as (v & Hv). rewrite <- (cfg_relpaths cfg Hc). destruct (A k v Hv) as [X|(x & Hx & <- & _)]; [|apply in_map; assumption].
      apply kept_state_spec in X. destruct X as (_ & x & Hx & <- & _). apply in_map. assumption.
    + intros x Hx. cbn [w_fs old_state w_state]. apply skippable_spec. pose proof (C x Hx) as Hk. apply In_dkeys_dget in Hk. destruct Hk as (v & Hv). exists v. split; [exact Hv|].
      destruct (A _ v Hv) as [X|(y & Hy & Ey & _ & Hs & Hi)].
      * apply kept_state_spec in X. destruct X as (Xo & y & Hy & Ey & Hs). assert (y = x).
        { assert (G : dget (x_relpath x) cfg = Some y) by (apply cfg_get; auto). assert (G' : dget (x_relpath x) cfg = Some x) by (apply cfg_get; auto). congruence. }
        subst y. pose proof Hs as Hs2. apply skippable_spec in Hs. destruct Hs as (k & Hk & Hi & Hg). rewrite Xo in Hk. injection Hk as <-. split; [assumption|].
        rewrite <- Hg. apply (proj1 Hst). apply P1. intros X. apply in_map_iff in X. destruct X as (z & Ez & Hz). unfold to_handle in Hz. apply filter_In in Hz. destruct Hz as (Hz & Hz').
        assert (z = x); [|subst z; rewrite Hs2 in Hz'; discriminate]. assert (G : dget (x_relpath x) cfg = Some z) by (apply cfg_get; auto). assert (G' : dget (x_relpath x) cfg = Some x) by (apply cfg_get; auto). congruence.
      * assert (y = x). { assert (G : dget (x_relpath x) cfg = Some y) by (apply cfg_get; auto). assert (G' : dget (x_relpath x) cfg = Some x) by (apply cfg_get; auto). congruence. }
        subst y. auto.
Qed.
Lemma second_check cfg w ps w' : stat_ok stat -> config_ok cfg -> check_files hash stat cfg w ps (XRet tt) w' -> cfg <> [] ->
  (ps <> [] \/ forall k, In k (dkeys (old_state w)) -> In k (dkeys cfg)) ->
  check_files hash stat cfg w' [] (XRet tt) w' /\ forall ps2 r2 w2, check_files hash stat cfg w' ps2 r2 w2 -> ps2 = [] /\ r2 = XRet tt /\ w2 = w'.
Proof. intros. apply caught_up_idle. eapply check_catches_up; eassumption. Qed.
Lemma removed_stuck cfg w w' k : config_ok cfg -> check_files hash stat cfg w [] (XRet tt) w' -> cfg <> [] -> In k (dkeys (old_state w)) -> ~ In k (dkeys cfg) ->
  forall ps r w2, check_files hash stat cfg w' ps r w2 -> r = XRaise (Py FileNotFoundError).
Proof.
  intros Hc H Hne Hk Hkc ps r w2 H2. pose proof (removed_gone cfg w [] w' Hc Hne H k Hk Hkc) as Hgone.
  assert (Ho : In k (dkeys (old_state w'))).
  { inversion H as [E| |s1 Hn Hrm Hh E1 E2| |s1 temps qs s2 state Hn Hrm Hh Hf Hl Hp Hd He Ha| ]; subst; [assumption|exact Hk|].
    exfalso. apply Hh. destruct (handle_names cfg s1 (old_state w) temps Hc Hf) as (N1 & N2 & N3 & _). destruct (pool_correct _ _ _ _ _ Hl N1 N2 N3 Hp) as (_ & E1 & _). symmetry. exact E1. }
  destruct (remove_old_fails cfg _ k Ho Hkc (w_fs w') Hgone) as (s' & Hf).
  destruct H2 as [|s1 e Hn Hrm|s1 Hn Hrm _|s1 temps ps s2 e Hn Hrm Hn2|s1 temps ps s2 state Hn Hrm Hn2|s1 temps ps s2 e Hn Hrm Hn2]; [contradiction| | | | | ]; rewrite Hf in Hrm; try discriminate. injection Hrm as <- <-. reflexivity.
Qed.
End Proofs.
