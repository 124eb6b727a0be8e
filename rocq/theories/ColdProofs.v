(** Proofs about the classification, the mode file and the scan phase. *)
From Verif Require Import Base Graph GraphSpec GraphProofs Hot HotSpec HotSchedProofs HotMain HotGraphs HotResultSpec HotResultProofs Cold.
From Coq Require Import String ZArith Bool List Relations Lia.
Import ListNotations.
Open Scope list_scope.

(** ** classification *)
Lemma check_file_meta D f s m i : check_file D f s m i = true <-> api_meta D f = Some (s, m, i).
Proof.
  unfold check_file, api_meta. destruct (dget f D) as [n|]; [|split; discriminate].
  rewrite !andb_true_iff, !Z.eqb_eq. split; [intros ((-> & ->) & ->); reflexivity|intros [= <- <- <-]; auto].
Qed.
Lemma contains_meta D f : contains D f = true <-> api_meta D f <> None.
Proof. unfold contains, dmem, api_meta. destruct (dget f D); split; congruence. Qed.
Lemma contains_key D f : contains D f = true <-> In f (dkeys D).
Proof. apply dmem_In. Qed.
Lemma NoDup_dset {V} k (v : V) d : NoDup (dkeys d) -> NoDup (dkeys (dset k v d)).
Proof.
  intros H. induction d as [|[k' v'] r IH]; simpl; [constructor; [auto|constructor]|]. inversion H as [|? ? Hn Hr]; subst.
  destruct (str_eqb k k') eqn:E; simpl; [constructor; assumption|]. constructor; [|auto]. intros X. apply In_dkeys_dset in X.
  destruct X as [->|X]; [rewrite str_eqb_refl in E; discriminate|contradiction].
Qed.
Lemma remove_all_NoDup x l : NoDup l -> NoDup (remove_all x l).
Proof. apply NoDup_filter. Qed.

Definition classified (D : graph) (sig : str -> option fsig) (files : list str) (changed added : dict fsig) (deleted : list str) : Prop :=
  (forall f s, dget f changed = Some s <-> In f files /\ sig f = Some s /\ exists old, api_meta D f = Some old /\ old <> s) /\
  (forall f s, dget f added = Some s <-> In f files /\ sig f = Some s /\ api_meta D f = None) /\
  (forall f, In f deleted <-> api_meta D f <> None /\ ~ In f files) /\
  NoDup (dkeys changed) /\ NoDup (dkeys added) /\ NoDup deleted.

Lemma classify_step D sig files : forall done deleted changed added, NoDup (done ++ files) -> (forall f, In f files -> sig f <> None) ->
  classified D sig done changed added deleted ->
  exists changed' added' deleted', classify D sig files deleted changed added = Ret (changed', added', deleted') /\
    classified D sig (done ++ files) changed' added' deleted'.
Proof.
  induction files as [|f r IH]; intros done deleted changed added Hn Hs HC; cbn [classify].
  - exists changed, added, deleted. rewrite app_nil_r. auto.
  - assert (Hf : ~ In f done). { intros X. apply NoDup_remove_2 in Hn. apply Hn. apply in_or_app. auto. }
    destruct (sig f) as [[[sz mt] ino]|] eqn:Es; [|exfalso; apply (Hs f (or_introl eq_refl)); assumption].
    destruct HC as (C1 & C2 & C3 & C4 & C5 & C6).
    assert (Happ : done ++ f :: r = (done ++ [f]) ++ r) by (rewrite <- app_assoc; reflexivity).
    assert (Hn' : NoDup ((done ++ [f]) ++ r)) by (rewrite <- Happ; assumption).
    rewrite Happ.
    destruct (contains D f) eqn:Ec.
    + assert (Hd : In f deleted) by (apply C3; split; [apply contains_meta; assumption|assumption]).
      unfold sremove. apply mem_In in Hd. rewrite Hd.
      assert (D3 : forall g, In g (remove_all f deleted) <-> api_meta D g <> None /\ ~ In g (done ++ [f])).
      { intros g. rewrite remove_all_In, C3, in_app_iff. simpl. intuition congruence. }
      assert (D2 : forall g s, dget g added = Some s <-> In g (done ++ [f]) /\ sig g = Some s /\ api_meta D g = None).
      { intros g s. rewrite C2, in_app_iff. simpl. split; [tauto|]. intros ([H|[<-|[]]] & A & B); [tauto|]. apply contains_meta in Ec. contradiction. }
      destruct (check_file D f sz mt ino) eqn:Ek.
      * apply (IH (done ++ [f])); [assumption|intros g Hg; apply Hs; right; assumption|].
        apply check_file_meta in Ek. split; [|split; [assumption|split; [assumption|split; [assumption|split; [assumption|apply remove_all_NoDup; assumption]]]]].
        intros g s. rewrite C1, in_app_iff. simpl. split; [tauto|]. intros ([H|[<-|[]]] & A & old & B & C); [eauto 6|]. congruence.
      * apply (IH (done ++ [f])); [assumption|intros g Hg; apply Hs; right; assumption|].
        split; [|split; [assumption|split; [assumption|split; [apply NoDup_dset; assumption|split; [assumption|apply remove_all_NoDup; assumption]]]]].
        intros g s. rewrite dget_dset, in_app_iff. simpl. destruct (str_eqb g f) eqn:Eg.
        -- apply str_eqb_eq in Eg. subst g. rewrite Es. split.
           ++ intros [= <-]. split; [auto|]. split; [reflexivity|]. apply contains_meta in Ec. destruct (api_meta D f) as [old|] eqn:Em; [|congruence].
              exists old. split; [reflexivity|]. intros ->. apply check_file_meta in Em. congruence.
           ++ intros (_ & [= <-] & _). reflexivity.
        -- rewrite C1. apply str_eqb_neq in Eg. split; [tauto|]. intros ([H|[H|[]]] & A); [tauto|congruence].
    + apply (IH (done ++ [f])); [assumption|intros g Hg; apply Hs; right; assumption|].
      assert (Em : api_meta D f = None). { destruct (api_meta D f) eqn:E; [|reflexivity]. exfalso. apply not_true_iff_false in Ec. apply Ec, contains_meta. congruence. }
      split. { intros g s. rewrite C1, in_app_iff. simpl. split; [tauto|]. intros ([H|[<-|[]]] & A & old & B & C); [eauto 6|]. congruence. }
      split. { intros g s. rewrite dget_dset, in_app_iff. simpl. destruct (str_eqb g f) eqn:Eg.
               - apply str_eqb_eq in Eg. subst g. rewrite Es. split; [intros [= <-]; auto|intros (_ & [= <-] & _); reflexivity].
               - rewrite C2. apply str_eqb_neq in Eg. split; [tauto|]. intros ([H|[H|[]]] & A); [tauto|congruence]. }
      split. { intros g. rewrite C3, in_app_iff. simpl. split; [|tauto]. intros (A & B). split; [assumption|]. intros [H|[<-|[]]]; [contradiction|congruence]. }
      split; [assumption|]. split; [apply NoDup_dset; assumption|assumption].
Qed.
Lemma classify_correct D sig files : NoDup (dkeys D) -> NoDup files -> (forall f, In f files -> sig f <> None) ->
  exists changed added deleted, classify D sig files (dkeys D) [] [] = Ret (changed, added, deleted) /\ classified D sig files changed added deleted.
Proof.
  intros Hd Hn Hs. apply (classify_step D sig files [] (dkeys D) [] []); [assumption|assumption|].
  split; [intros f s; simpl; split; [discriminate|tauto]|]. split; [intros f s; simpl; split; [discriminate|tauto]|].
  split; [|split; [constructor|split; [constructor|assumption]]]. intros f. rewrite <- contains_meta, contains_key. simpl. tauto.
Qed.
Lemma classify_sigs D sig files : forall deleted changed added R, classify D sig files deleted changed added = Ret R -> forall f, In f files -> sig f <> None.
Proof.
  induction files as [|g r IH]; intros deleted changed added R H f Hf; cbn [classify] in H; [destruct Hf|].
  destruct (sig g) as [[[a b] c]|] eqn:E; [|discriminate]. destruct Hf as [<-|Hf]; [congruence|].
  destruct (contains D g); [|eapply IH; eassumption]. destruct (sremove g deleted); [|discriminate]. destruct (check_file D g a b c); eapply IH; eassumption.
Qed.
Lemma classify_inv D sig files changed added deleted : NoDup (dkeys D) -> NoDup files ->
  classify D sig files (dkeys D) [] [] = Ret (changed, added, deleted) -> classified D sig files changed added deleted.
Proof.
  intros Hd Hn H. destruct (classify_correct D sig files Hd Hn (classify_sigs _ _ _ _ _ _ _ H)) as (c & a & d & E & HC).
  rewrite H in E. injection E as <- <- <-. assumption.
Qed.

(** ** the mode file *)
Lemma opt_str_eqb_eq a b : opt_str_eqb a b = true <-> a = b.
Proof. destruct a, b; simpl; try (split; congruence). rewrite str_eqb_eq. split; congruence. Qed.
Lemma mode_step_cases constants dev sig s mode changed added changed1 mode1 :
  mode_step constants dev sig s mode changed added = Ret (changed1, mode1) ->
  mode1 = (if s constants then Some (mode_name dev) else None) /\
  ((changed1 = changed /\ (s constants = None \/ mode = Some (mode_name dev) \/ In constants (dkeys changed) \/ In constants (dkeys added))) \/
   (exists g c, s constants = Some c /\ sig constants = Some g /\ mode <> Some (mode_name dev) /\ changed1 = dset constants g changed /\
    ~ In constants (dkeys changed) /\ ~ In constants (dkeys added))).
Proof.
  unfold mode_step. destruct (s constants) as [c|]; [|intros [= <- <-]; auto].
  destruct (opt_str_eqb mode (Some (mode_name dev))) eqn:E.
  { apply opt_str_eqb_eq in E. intros H. injection H as H1 H2. rewrite <- H1, <- H2. auto 8. }
  assert (Hm : mode <> Some (mode_name dev)) by (intros X; apply opt_str_eqb_eq in X; congruence).
  destruct (dmem constants changed) eqn:E1; cbn [negb andb].
  - intros [= <- <-]. split; [reflexivity|]. left. split; [reflexivity|]. apply dmem_In in E1. auto.
  - destruct (dmem constants added) eqn:E2; cbn [negb].
    + intros [= <- <-]. split; [reflexivity|]. left. split; [reflexivity|]. apply dmem_In in E2. auto.
    + destruct (sig constants) as [g|] eqn:Eg; [|discriminate]. intros [= <- <-]. split; [reflexivity|]. right. exists g, c.
      apply dmem_false in E1, E2. auto 7.
Qed.

(** ** the scan phase *)
Section Scan.
Context (scan : str -> fs -> option scan_full) (stat : fs -> str -> option fsig).

Definition sc_declares (scans : dict scan_full) (g p c : str) : Prop := exists x, dget g scans = Some x /\ In (p, c) (f_placeholders x).

(** what holds of the loop variables between two placeholders *)
Record Placed (s0 : fs) (added0 : dict fsig) (decl : str -> str -> str -> Prop) (t : scanning) : Prop := mkPlaced {
  pl_old : forall p c, s0 p = Some c -> sc_fs t p = Some c;
  pl_new : forall p c, sc_fs t p = Some c -> s0 p = None -> exists g, dget p (sc_new t) = Some g /\ decl g p c;
  pl_dom : forall p g, dget p (sc_new t) = Some g -> s0 p = None /\ exists c s, sc_fs t p = Some c /\ stat s p = Some (match dget p (sc_added t) with Some x => x | None => (0, 0, 0)%Z end)
             /\ s p = Some c /\ dget p (sc_added t) <> None;
  pl_wf : NoDup (dkeys (sc_new t));
  pl_added : forall p, dget p (sc_new t) = None -> dget p (sc_added t) = dget p added0;
}.
Lemma place_one_ok s0 added0 (decl decl2 : str -> str -> str -> Prop) gen pc t t' : (forall g p c, decl g p c -> decl2 g p c) -> decl2 gen (fst pc) (snd pc) ->
  Placed s0 added0 decl t -> place_one stat gen pc t = Ret t' ->
  Placed s0 added0 decl2 t' /\ (forall p, In p (sc_next t') <-> In p (sc_next t) \/ (In p (dkeys (sc_new t')) /\ ~ In p (dkeys (sc_new t)))) /\
  (forall p g, dget p (sc_new t) = Some g -> dget p (sc_new t') = Some g) /\ (NoDup (sc_next t) -> (forall p, In p (sc_next t) -> sc_fs t p <> None) -> NoDup (sc_next t') /\ (forall p, In p (sc_next t') -> sc_fs t' p <> None)).
Proof.
  destruct pc as [p c]. cbn [fst snd place_one]. intros Hmono Hdecl [P1 P2 P3 P4 P5] H. destruct (sc_fs t p) as [c0|] eqn:Ep.
  - injection H as <-. split; [constructor; auto|].
    { intros q d Hq Hs. destruct (P2 q d Hq Hs) as (g & A & B). eauto. }
    split; [intros q; tauto|]. split; [auto|]. intros Hn Hx. auto.
  - destruct (stat (fs_set p c (sc_fs t)) p) as [g|] eqn:Eg; [|discriminate]. injection H as <-. cbn [sc_fs sc_new sc_added sc_next].
    assert (Es : s0 p = None). { destruct (s0 p) as [d|] eqn:E; [|reflexivity]. rewrite (P1 p d E) in Ep. discriminate. }
    assert (Hnp : ~ In p (dkeys (sc_new t))). { intros X. apply In_dkeys_dget in X. destruct X as (g' & X). destruct (P3 p g' X) as (_ & c' & _ & Y & _). congruence. }
    split; [|split; [|split]].
    + constructor; cbn [sc_fs sc_new sc_added sc_next].
      * intros q d Hq. unfold fs_set. destruct (str_eqb q p) eqn:E; [|auto]. apply str_eqb_eq in E. subst q. congruence.
      * intros q d Hq Hs. unfold fs_set in Hq. rewrite dget_dset. destruct (str_eqb q p) eqn:E.
        -- apply str_eqb_eq in E. subst q. injection Hq as <-. eauto.
        -- destruct (P2 q d Hq Hs) as (g' & A & B). eauto.
      * intros q g'. rewrite !dget_dset. destruct (str_eqb q p) eqn:E.
        -- intros [= <-]. apply str_eqb_eq in E. subst q. split; [assumption|]. exists c, (fs_set p c (sc_fs t)).
           assert (Hfs : fs_set p c (sc_fs t) p = Some c) by (unfold fs_set; rewrite str_eqb_refl; reflexivity).
           split; [assumption|]. split; [assumption|]. split; [assumption|discriminate].
        -- intros Hq. destruct (P3 q g' Hq) as (A & d & s & B & C). split; [assumption|]. exists d, s. split; [unfold fs_set; rewrite E; assumption|exact C].
      * apply NoDup_dset. assumption.
      * intros q. rewrite !dget_dset. destruct (str_eqb q p); [discriminate|auto].
    + intros q. rewrite in_app_iff, In_dkeys_dset. simpl. split.
      * intros [Hq|[<-|[]]]; [auto|]. right. auto.
      * intros [Hq|([->|Hq] & Hq2)]; [auto|auto|contradiction].
    + intros q g' Hq. rewrite dget_dset. destruct (str_eqb q p) eqn:E; [|assumption]. apply str_eqb_eq in E. subst q. exfalso. apply Hnp. eapply dget_Some_key; eassumption.
    + intros Hn Hx. split.
      * apply NoDup_app_iff. split; [assumption|]. split; [constructor; [auto|constructor]|]. intros q Hq [<-|[]]. apply (Hx _ Hq). assumption.
      * intros q Hq. unfold fs_set. destruct (str_eqb q p) eqn:E; [discriminate|]. apply in_app_or in Hq. destruct Hq as [Hq|[<-|[]]]; [auto|]. rewrite str_eqb_refl in E. discriminate.
Qed.
Definition grows (t t' : scanning) : Prop :=
  (forall p, In p (sc_next t') <-> In p (sc_next t) \/ (In p (dkeys (sc_new t')) /\ ~ In p (dkeys (sc_new t)))) /\
  (forall p g, dget p (sc_new t) = Some g -> dget p (sc_new t') = Some g) /\
  (NoDup (sc_next t) -> (forall p, In p (sc_next t) -> sc_fs t p <> None) -> NoDup (sc_next t') /\ (forall p, In p (sc_next t') -> sc_fs t' p <> None)).
Lemma grows_refl t : grows t t.
Proof. split; [intros p; tauto|]. split; [auto|auto]. Qed.
Lemma dget_keys_mono {V} (d d' : @dict V) : (forall p g, dget p d = Some g -> dget p d' = Some g) -> forall p, In p (dkeys d) -> In p (dkeys d').
Proof. intros H p Hp. apply In_dkeys_dget in Hp. destruct Hp as (v & Hv). eapply dget_Some_key. apply H. eassumption. Qed.
Lemma grows_trans a b c : grows a b -> grows b c -> grows a c.
Proof.
  intros (A1 & A2 & A3) (B1 & B2 & B3). split; [|split; [auto|]].
  - intros p. rewrite B1, A1. pose proof (dget_keys_mono _ _ A2 p). pose proof (dget_keys_mono _ _ B2 p).
    destruct (in_dec str_eq_dec p (dkeys (sc_new b))); tauto.
  - intros Hn Hx. destruct (A3 Hn Hx). auto.
Qed.
Lemma place_all_ok s0 added0 (decl : str -> str -> str -> Prop) gen pcs : forall t t', (forall p c, In (p, c) pcs -> decl gen p c) ->
  Placed s0 added0 decl t -> place_all stat gen pcs t = Ret t' -> Placed s0 added0 decl t' /\ grows t t'.
Proof.
  induction pcs as [|pc r IH]; intros t t' Hd HP H; cbn [place_all] in H; [injection H as <-; split; [assumption|apply grows_refl]|].
  destruct (place_one stat gen pc t) as [t1|] eqn:E; [|discriminate].
  destruct (place_one_ok s0 added0 decl decl gen pc t t1) as (A & B & C & F); [auto| |assumption|assumption|].
  { destruct pc. apply Hd. left. reflexivity. }
  destruct (IH t1 t') as (G1 & G2); [intros p c Hi; apply Hd; right; assumption|assumption|assumption|].
  split; [assumption|]. eapply grows_trans; [|exact G2]. split; [exact B|]. split; [exact C|exact F].
Qed.
Lemma place_batch_ok s0 added0 (decl : str -> str -> str -> Prop) batch : forall t t', (forall g x p c, In (g, x) batch -> In (p, c) (f_placeholders x) -> decl g p c) ->
  Placed s0 added0 decl t -> place_batch stat batch t = Ret t' -> Placed s0 added0 decl t' /\ grows t t'.
Proof.
  induction batch as [|[g x] r IH]; intros t t' Hd HP H; cbn [place_batch] in H; [injection H as <-; split; [assumption|apply grows_refl]|].
  destruct (place_all stat g (f_placeholders x) t) as [t1|] eqn:E; [|discriminate].
  destruct (place_all_ok s0 added0 decl g (f_placeholders x) t t1) as (A & B); [intros p c Hi; eapply Hd; [left; reflexivity|assumption]|assumption|assumption|].
  destruct (IH t1 t') as (G1 & G2); [intros g' x' p c Hi; apply Hd; right; assumption|assumption|assumption|].
  split; [assumption|]. eapply grows_trans; eassumption.
Qed.
Lemma place_one_mono gen pc t t' : place_one stat gen pc t = Ret t' -> (forall q c, sc_fs t q = Some c -> sc_fs t' q = Some c) /\ sc_fs t' (fst pc) <> None.
Proof.
  destruct pc as [p c]. unfold place_one. destruct (sc_fs t p) as [d|] eqn:E; [intros [= <-]; cbn [fst]; split; [auto|congruence]|].
  destruct (stat _ p); [|discriminate]. intros [= <-]. cbn [sc_fs fst]. unfold fs_set. split; [|rewrite str_eqb_refl; discriminate].
  intros q x Hq. destruct (str_eqb q p) eqn:Eq; [|assumption]. apply str_eqb_eq in Eq. congruence.
Qed.
Lemma place_all_mono gen pcs : forall t t', place_all stat gen pcs t = Ret t' -> (forall q c, sc_fs t q = Some c -> sc_fs t' q = Some c) /\ (forall q c, In (q, c) pcs -> sc_fs t' q <> None).
Proof.
  induction pcs as [|pc r IH]; intros t t' H; cbn [place_all] in H; [injection H as <-; split; [auto|intros q c []]|].
  destruct (place_one stat gen pc t) as [t1|] eqn:E; [|discriminate]. destruct (place_one_mono _ _ _ _ E) as (A & B). destruct (IH _ _ H) as (C & F).
  split; [auto|]. intros q c [->|Hi]; [|eapply F; eassumption]. cbn [fst] in B. destruct (sc_fs t1 q) as [d|] eqn:Ed; [|congruence]. rewrite (C q d Ed). discriminate.
Qed.
Lemma place_batch_mono batch : forall t t', place_batch stat batch t = Ret t' ->
  (forall q c, sc_fs t q = Some c -> sc_fs t' q = Some c) /\ (forall g x q c, In (g, x) batch -> In (q, c) (f_placeholders x) -> sc_fs t' q <> None).
Proof.
  induction batch as [|[g x] r IH]; intros t t' H; cbn [place_batch] in H; [injection H as <-; split; [auto|intros ? ? ? ? []]|].
  destruct (place_all stat g (f_placeholders x) t) as [t1|] eqn:E; [|discriminate]. destruct (place_all_mono _ _ _ _ E) as (A & B). destruct (IH _ _ H) as (C & F).
  split; [auto|]. intros g' x' q c [[= <- <-]|Hi] Hq; [|eapply F; eassumption]. specialize (B q c Hq). destruct (sc_fs t1 q) as [d|] eqn:Ed; [|congruence]. rewrite (C q d Ed). discriminate.
Qed.
Lemma scan_batch_ok files s : forall acc batch, scan_batch scan files s acc = Ret batch ->
  (forall g x, dget g batch = Some x -> (In g files /\ scan g s = Some x) \/ dget g acc = Some x) /\
  (forall g, In g (dkeys batch) <-> In g files \/ In g (dkeys acc)) /\ (NoDup (dkeys acc) -> NoDup (dkeys batch)).
Proof.
  induction files as [|f r IH]; intros acc batch H; cbn [scan_batch] in H; [injection H as <-; split; [auto|]; split; [simpl; tauto|auto]|].
  destruct (scan f s) as [x|] eqn:E; [|discriminate]. destruct (IH _ _ H) as (A & B & C). split; [|split].
  - intros g y Hg. destruct (A g y Hg) as [(A1 & A2)|A1]; [left; split; [right; assumption|assumption]|].
    rewrite dget_dset in A1. destruct (str_eqb g f) eqn:Eg; [|auto]. apply str_eqb_eq in Eg. subst g. injection A1 as <-. left. split; [left; reflexivity|assumption].
  - intros g. rewrite B, In_dkeys_dset. simpl. split; [intros [H1|[H1|H1]]; auto|intros [[H1|H1]|H1]; auto].
  - intros Hn. apply C, NoDup_dset. assumption.
Qed.
Lemma dupdate_get {V} (e : @dict V) : forall d k, NoDup (dkeys e) -> dget k (dupdate d e) = match dget k e with Some v => Some v | None => dget k d end.
Proof.
  induction e as [|[k' v] r IH]; intros d k Hn; [reflexivity|]. change (dupdate d ((k', v) :: r)) with (dupdate (dset k' v d) r). simpl in Hn.
  inversion Hn as [|? ? Hx Hr]; subst. rewrite IH by assumption. cbn [dget]. rewrite dget_dset. destruct (str_eqb k k') eqn:E; [|reflexivity].
  apply str_eqb_eq in E. subst k'. apply dget_None in Hx. rewrite Hx. reflexivity.
Qed.
Lemma dupdate_keys {V} (e : @dict V) : forall d k, In k (dkeys (dupdate d e)) <-> In k (dkeys d) \/ In k (dkeys e).
Proof.
  induction e as [|[k' v] r IH]; intros d k; [simpl; tauto|]. change (dupdate d ((k', v) :: r)) with (dupdate (dset k' v d) r). rewrite IH.
  rewrite In_dkeys_dset. simpl. split; [intros [[->|H]|H]; auto|intros [H|[->|H]]; auto].
Qed.
Lemma dupdate_NoDup {V} (e : @dict V) : forall d, NoDup (dkeys d) -> NoDup (dkeys (dupdate d e)).
Proof.
  induction e as [|[k' v] r IH]; intros d H; [exact H|]. change (dupdate d ((k', v) :: r)) with (dupdate (dset k' v d) r). apply IH, NoDup_dset. assumption.
Qed.

Record Scanned (s0 : fs) (added0 : dict fsig) (start : list str) (t : scanning) (scans : dict scan_full) : Prop := mkScanned {
  sd_placed : Placed s0 added0 (sc_declares scans) t;
  sd_keys : forall f, In f start \/ In f (dkeys (sc_new t)) <-> In f (dkeys scans) \/ In f (sc_next t);
  sd_disj : forall f, In f (dkeys scans) -> ~ In f (sc_next t);
  sd_next : NoDup (sc_next t) /\ (forall f, In f (sc_next t) -> sc_fs t f <> None);
  sd_wf : NoDup (dkeys scans);
  sd_exist : forall f, In f (dkeys scans) -> sc_fs t f <> None;
  sd_scans : forall f x, dget f scans = Some x -> exists s, scan f s = Some x;
  sd_done : forall f x q c, dget f scans = Some x -> In (q, c) (f_placeholders x) -> sc_fs t q <> None
}.
Lemma Placed_mono s0 added0 (decl decl2 : str -> str -> str -> Prop) t : (forall g p c, decl g p c -> decl2 g p c) -> Placed s0 added0 decl t -> Placed s0 added0 decl2 t.
Proof. intros H [P1 P2 P3 P4 P5]. constructor; auto. intros p c A B. destruct (P2 p c A B) as (g & X & Y). eauto. Qed.
Lemma scan_loop_ok s0 added0 start fuel : forall t scans t' scans', Scanned s0 added0 start t scans -> scan_loop scan stat fuel t scans = Ret (t', scans') ->
  Scanned s0 added0 start t' scans' /\ sc_next t' = [].
Proof.
  induction fuel as [|n IH]; intros t scans t' scans' HS H; cbn [scan_loop] in H.
  - destruct (sc_next t) eqn:E; [injection H as <- <-; auto|discriminate].
  - destruct (sc_next t) as [|f0 r0] eqn:E; [injection H as <- <-; auto|]. rewrite <- E in H.
    destruct (scan_batch scan (sc_next t) (sc_fs t) []) as [batch|] eqn:Eb; [|discriminate].
    destruct (place_batch stat batch _) as [t1|] eqn:Ep; [|discriminate].
    destruct (scan_batch_ok _ _ _ _ Eb) as (B1 & B2 & B3). specialize (B3 (NoDup_nil _)).
    destruct HS as [[P1 P2 P3 P4 P5] K Dj (Nx & Ne) W Ex Sc Dn].
    set (tm := mkScanning (sc_fs t) [] (sc_new t) (sc_added t)) in *.
    assert (Hbk : forall g, In g (dkeys batch) <-> In g (sc_next t)). { intros g. rewrite B2. simpl. tauto. }
    assert (Hold : forall g x, dget g scans = Some x -> dget g (dupdate scans batch) = Some x).
    { intros g x Hg. rewrite dupdate_get by assumption. destruct (dget g batch) as [y|] eqn:Ey; [|assumption]. exfalso.
      apply dget_Some_key in Hg, Ey. apply (Dj g Hg). apply Hbk. assumption. }
    assert (Hdecl : forall g x p c, In (g, x) batch -> In (p, c) (f_placeholders x) -> sc_declares (dupdate scans batch) g p c).
    { intros g x p c Hi Hp. exists x. split; [|assumption]. rewrite dupdate_get by assumption.
      assert (Hg : dget g batch = Some x).
      { clear -B3 Hi. induction batch as [|[k v] r IHb]; [destruct Hi|]. simpl in B3. inversion B3 as [|? ? Hx Hr]; subst. cbn [dget].
        destruct Hi as [[= -> ->]|Hi]; [rewrite str_eqb_refl; reflexivity|]. destruct (str_eqb g k) eqn:E; [|auto]. apply str_eqb_eq in E. subst k.
        exfalso. apply Hx. apply (in_map fst) in Hi. assumption. }
      rewrite Hg. reflexivity. }
    assert (HP : Placed s0 added0 (sc_declares (dupdate scans batch)) tm).
    { constructor; cbn [tm sc_fs sc_new sc_added]; try assumption. intros p c Hp Hs. destruct (P2 p c Hp Hs) as (g & Hg & x & Hx & Hi).
      exists g. split; [assumption|]. exists x. auto. }
    destruct (place_batch_ok s0 added0 _ batch tm t1 Hdecl HP Ep) as (Q & G1 & G2 & G3).
    destruct (place_batch_mono batch tm t1 Ep) as (Hfs & Hpl).
    destruct G3 as (G3 & G4); [constructor|intros p []|].
    cbn [tm sc_next sc_new sc_fs] in G1, G2, Hfs.
    assert (Hnew_not : forall p, In p (sc_next t1) -> ~ In p (dkeys (sc_new t)) /\ sc_fs t p = None).
    { intros p Hp. apply G1 in Hp. destruct Hp as [[]|(Hp1 & Hp2)]. split; [assumption|]. destruct (sc_fs t p) as [c|] eqn:Ec; [|reflexivity]. exfalso.
      apply In_dkeys_dget in Hp1. destruct Hp1 as (g & Hg). destruct (pl_dom _ _ _ _ Q p g Hg) as (Hs & _).
      destruct (P2 p c Ec Hs) as (g' & Hg' & _). apply Hp2. eapply dget_Some_key; eassumption. }
    apply (IH t1 (dupdate scans batch)); [|assumption]. constructor.
    + assumption.
    + intros f. rewrite dupdate_keys, Hbk, G1. pose proof (K f) as Kf. pose proof (dget_keys_mono _ _ G2 f).
      destruct (in_dec str_eq_dec f (dkeys (sc_new t))); simpl; tauto.
    + intros f Hf Hn. apply dupdate_keys in Hf. destruct (Hnew_not f Hn) as (H1 & H2). destruct Hf as [Hf|Hf]; [apply (Ex f Hf); assumption|].
      apply Hbk in Hf. apply (Ne f Hf). assumption.
    + auto.
    + apply dupdate_NoDup. assumption.
    + intros f Hf. apply dupdate_keys in Hf.
      assert (Hx : sc_fs t f <> None) by (destruct Hf as [Hf|Hf]; [auto|apply Ne, Hbk; assumption]).
      destruct (sc_fs t f) as [c|] eqn:Ec; [|congruence]. rewrite (Hfs f c Ec). discriminate.
    + intros f x Hf. rewrite dupdate_get in Hf by assumption. destruct (dget f batch) as [y|] eqn:Ey; [|eauto]. injection Hf as <-.
      destruct (B1 f y Ey) as [(_ & Hx)|Hx]; [eauto|discriminate].
    + intros f x q c Hf Hq. rewrite dupdate_get in Hf by assumption. destruct (dget f batch) as [y|] eqn:Ey.
      * injection Hf as <-. eapply Hpl; [apply dget_In; exact Ey|exact Hq].
      * specialize (Dn f x q c Hf Hq). destruct (sc_fs t q) as [d|] eqn:Ed; [|congruence]. rewrite (Hfs q d Ed). discriminate.
Qed.
Lemma scan_phase s added start fuel t scans : NoDup start -> (forall f, In f start -> s f <> None) ->
  scan_loop scan stat fuel (mkScanning s start [] added) [] = Ret (t, scans) ->
  Scanned s added start t scans /\ sc_next t = [].
Proof.
  intros Hn Hs H. eapply scan_loop_ok; [|exact H]. constructor; cbn [sc_fs sc_next sc_new sc_added].
  - constructor; cbn [sc_fs sc_next sc_new sc_added]; [auto| |discriminate|constructor|auto]. intros p c A B. congruence.
  - intros f. simpl. tauto.
  - intros f [].
  - auto.
  - constructor.
  - intros f [].
  - intros f x Hx. discriminate.
  - intros f x q c Hx. discriminate.
Qed.
End Scan.
