From Verif Require Import Base Dev DevSpec.
From Coq Require Import String ZArith NArith Bool List Lia.
Import ListNotations.
Open Scope list_scope.

Lemma In_sadd x y l : In x (sadd y l) <-> x = y \/ In x l.
Proof. unfold sadd. destruct (mem y l) eqn:E; [apply mem_In in E; split; [auto|intros [->|]; auto]|]. rewrite in_app_iff. cbn. intuition congruence. Qed.
Lemma In_sdel x y l : In x (sdel y l) <-> x <> y /\ In x l.
Proof. unfold sdel. rewrite filter_In, negb_true_iff, str_eqb_neq. intuition congruence. Qed.
Lemma mem_case x l : (mem x l = true /\ In x l) \/ (mem x l = false /\ ~ In x l).
Proof. destruct (mem x l) eqn:E; [left|right]; (split; [reflexivity|]); [apply mem_In|apply mem_false]; exact E. Qed.
Definition good (w : world) (h : watcher) : Prop := right w (deleted h) (changed h) (created h).

Lemma bool_cases b : b = true \/ b = false.
Proof. destruct b; auto. Qed.
Lemma eqb_cases x p : (x = p /\ str_eqb x p = true) \/ (x <> p /\ str_eqb x p = false).
Proof. destruct (str_eqb x p) eqn:E; [left; split; [apply str_eqb_eq; exact E|reflexivity]|right; split; [apply str_eqb_neq; exact E|reflexivity]]. Qed.

Lemma good_modified w h p now : good w h -> now_there w p = true -> good (after (Modified p) w) (on_modified p now h).
Proof.
  intros H Hp x. destruct (H x) as (H1 & H2 & H3). unfold on_modified, after. cbn [deleted changed created at_build now_there touched there_after about].
  split; [exact H1|]. split; [exact H2|]. destruct (mem_case p (created h)) as [(-> & M)|(-> & M)]; cbn [negb].
  - rewrite H3. split; [tauto|]. intros (A & B & [C|C]); [tauto|]. subst. apply H in M. destruct M. congruence.
  - rewrite In_sadd, H3. split; [intros [->|C]; [|tauto]|tauto]. split; [|tauto]. destruct (bool_cases (at_build w p)) as [X|X]; [exact X|]. exfalso. apply M. apply H. auto.
Qed.
Lemma good_created w h p now : good w h -> now_there w p = false -> good (after (Created p) w) (on_created p now h).
Proof.
  intros H Hp x. destruct (H x) as (H1 & H2 & H3). destruct (H p) as (P1 & P2 & P3). unfold on_created.
  destruct (mem_case p (deleted h)) as [(-> & M)|(-> & M)]; unfold after; cbn [deleted changed created at_build now_there touched there_after about]; destruct (eqb_cases x p) as [(-> & E)|(E & E2)]; rewrite ?E, ?E2, ?orb_true_r, ?orb_false_r.
  - assert (A : at_build w p = true) by (apply P2; exact M). rewrite P1, In_sdel, In_sadd. split; [intuition congruence|]. split; [intuition congruence|]. intuition congruence.
  - rewrite H1, In_sdel, In_sadd, H2, H3. intuition congruence.
  - assert (A : at_build w p = false) by (destruct (bool_cases (at_build w p)) as [X|X]; [exfalso; apply M; apply P2; auto|exact X]). rewrite In_sadd, P1, P2, P3. intuition congruence.
  - rewrite In_sadd, H1, H2, H3. intuition congruence.
Qed.
Lemma good_deleted w h p now : good w h -> now_there w p = true -> good (after (Deleted p) w) (on_deleted p now h).
Proof.
  intros H Hp x. destruct (H x) as (H1 & H2 & H3). destruct (H p) as (P1 & P2 & P3). unfold on_deleted.
  destruct (mem_case p (changed h)) as [(-> & M)|(-> & M)]; [|destruct (mem_case p (created h)) as [(-> & M2)|(-> & M2)]];
    unfold after; cbn [deleted changed created at_build now_there touched there_after about]; destruct (eqb_cases x p) as [(-> & E)|(E & E2)]; rewrite ?E, ?E2; cbn [negb]; rewrite ?andb_true_r, ?andb_false_r.
  - rewrite In_sadd, In_sdel, P1, P2. apply P3 in M. intuition congruence.
  - rewrite In_sadd, In_sdel, H1, H2, H3. intuition congruence.
  - rewrite In_sdel, P2, P3. apply P1 in M2. intuition congruence.
  - rewrite In_sdel, H1, H2, H3. intuition congruence.
  - assert (A : at_build w p = true) by (destruct (bool_cases (at_build w p)) as [X|X]; [exact X|exfalso; apply M2; apply P1; auto]). rewrite In_sadd, P1, P2, P3. intuition congruence.
  - rewrite In_sadd, H1, H2, H3. intuition congruence.
Qed.
Lemma good_world w w' h : (forall x, at_build w x = at_build w' x) -> (forall x, now_there w x = now_there w' x) -> (forall x, touched w x <-> touched w' x) -> good w h -> good w' h.
Proof. intros A B C H x. destruct (H x) as (H1 & H2 & H3). rewrite <- A, <- B, <- C. auto. Qed.
Lemma good_event w h e now : good w h -> possible e w -> good (after e w) (on_event e now h).
Proof.
  intros H Hp. destruct e as [p|p|p|p q]; cbn [on_event possible] in *; [apply good_modified|apply good_created|apply good_deleted|]; try assumption. destruct Hp as (Hp & Hq).
  assert (Hne : q <> p) by congruence.
  apply good_world with (w := after (Created q) (after (Deleted p) w)); [reflexivity|reflexivity| |].
  - intros x. cbn. tauto.
  - apply good_created; [apply good_deleted; assumption|]. cbn. rewrite Hq. reflexivity.
Qed.
Lemma take_some debounce now h b h' : take debounce now h = Some (b, h') ->
  b = {| b_deleted := deleted h; b_changed := changed h; b_created := created h |} /\ deleted h' = [] /\ changed h' = [] /\ created h' = [] /\ unbuildable h = false /\ (debounce <= now - last_change h)%Z /\ last_change h' = last_change h.
Proof.
  unfold take. destruct (unbuildable h) eqn:E; [discriminate|]. destruct (now - last_change h <? debounce)%Z eqn:E2.
  - destruct (deleted h), (changed h), (created h); discriminate.
  - intros H. assert (H' : Some ({| b_deleted := deleted h; b_changed := changed h; b_created := created h |}, {| deleted := []; changed := []; created := []; unbuildable := false; last_change := last_change h |}) = Some (b, h')).
    { destruct (deleted h), (changed h), (created h); try discriminate; exact H. }
    injection H' as <- <-. cbn. repeat (split; [reflexivity|]). split; [lia|reflexivity].
Qed.
(** putting everything back *)
Lemma fold_changed ex l : forall h, (forall x, In x l -> ex x = true /\ ~ In x (created h) /\ ~ In x (deleted h)) ->
  let h' := fold_left (retry_changed ex) l h in
  created h' = created h /\ (forall x, In x (deleted h') <-> In x (deleted h)) /\ (forall x, In x (changed h') <-> In x l \/ In x (changed h)) /\ last_change h' = last_change h.
Proof.
  induction l as [|p l IH]; intros h H; cbn zeta; cbn [fold_left]; [cbn [In]; repeat split; tauto|]. destruct (H p ltac:(left; reflexivity)) as (A & B & C).
  unfold retry_changed at 2 4 6 8. rewrite A. apply mem_false in B. rewrite B. cbn [negb].
  match goal with |- context [fold_left _ l ?h1] => specialize (IH h1) end. cbn zeta in IH. cbn [deleted changed created last_change] in IH. destruct IH as (I1 & I2 & I3 & I4).
  - intros x Hx. destruct (H x ltac:(right; exact Hx)) as (A2 & B2 & C2). rewrite In_sdel. tauto.
  - split; [exact I1|]. split; [intros x; rewrite I2, In_sdel; split; [tauto|intros X; split; [intros ->; contradiction|exact X]]|]. split; [|exact I4]. intros x. rewrite I3, In_sadd. cbn [In]. split; [intros [X|[X|X]]; auto|intros [[X|X]|X]; auto].
Qed.
Lemma fold_created ex l : forall h, (forall x, In x l -> ex x = true /\ ~ In x (changed h) /\ ~ In x (deleted h)) ->
  let h' := fold_left (retry_created ex) l h in
  changed h' = changed h /\ (forall x, In x (deleted h') <-> In x (deleted h)) /\ (forall x, In x (created h') <-> In x l \/ In x (created h)) /\ last_change h' = last_change h.
Proof.
  induction l as [|p l IH]; intros h H; cbn zeta; cbn [fold_left]; [cbn [In]; repeat split; tauto|]. destruct (H p ltac:(left; reflexivity)) as (A & B & C).
  unfold retry_created at 2 4 6 8. rewrite A. apply mem_false in B. rewrite B. cbn [negb].
  match goal with |- context [fold_left _ l ?h1] => specialize (IH h1) end. cbn zeta in IH. cbn [deleted changed created last_change] in IH. destruct IH as (I1 & I2 & I3 & I4).
  - intros x Hx. destruct (H x ltac:(right; exact Hx)) as (A2 & B2 & C2). rewrite In_sdel. tauto.
  - split; [exact I1|]. split; [intros x; rewrite I2, In_sdel; split; [tauto|intros X; split; [intros ->; contradiction|exact X]]|]. split; [|exact I4]. intros x. rewrite I3, In_sadd. cbn [In]. split; [intros [X|[X|X]]; auto|intros [[X|X]|X]; auto].
Qed.
Lemma fold_deleted ex l : forall h, (forall x, In x l -> ex x = false /\ ~ In x (changed h) /\ ~ In x (created h)) ->
  let h' := fold_left (retry_deleted ex) l h in
  (forall x, In x (changed h') <-> In x (changed h)) /\ (forall x, In x (created h') <-> In x (created h)) /\ (forall x, In x (deleted h') <-> In x l \/ In x (deleted h)) /\ last_change h' = last_change h.
Proof.
  induction l as [|p l IH]; intros h H; cbn zeta; cbn [fold_left]; [cbn [In]; repeat split; tauto|]. destruct (H p ltac:(left; reflexivity)) as (A & B & C).
  unfold retry_deleted at 2 4 6 8. rewrite A. cbn [negb].
  match goal with |- context [fold_left _ l ?h1] => specialize (IH h1) end. cbn zeta in IH. cbn [deleted changed created last_change] in IH. destruct IH as (I1 & I2 & I3 & I4).
  - intros x Hx. destruct (H x ltac:(right; exact Hx)) as (A2 & B2 & C2). rewrite !In_sdel. tauto.
  - split; [intros x; rewrite I1, In_sdel; split; [tauto|intros X; split; [intros ->; contradiction|exact X]]|]. split; [intros x; rewrite I2, In_sdel; split; [tauto|intros X; split; [intros ->; contradiction|exact X]]|].
    split; [|exact I4]. intros x. rewrite I3, In_sadd. cbn [In]. split; [intros [X|[X|X]]; auto|intros [[X|X]|X]; auto].
Qed.
Lemma good_failed w h debounce now b h' : good w h -> take debounce now h = Some (b, h') ->
  good w (failed (now_there w) b h') /\ (forall x, (In x (deleted (failed (now_there w) b h')) <-> In x (deleted h)) /\ (In x (changed (failed (now_there w) b h')) <-> In x (changed h)) /\ (In x (created (failed (now_there w) b h')) <-> In x (created h))).
Proof.
  intros H Ht. apply take_some in Ht. destruct Ht as (-> & E1 & E2 & E3 & _). cbn [failed b_deleted b_changed b_created]. unfold failed. cbn [b_deleted b_changed b_created].
  destruct (fold_changed (now_there w) (changed h) h') as (A1 & A2 & A3 & _). { intros x Hx. apply H in Hx. rewrite E1, E3. split; [tauto|]. split; intros []. }
  set (h1 := fold_left (retry_changed (now_there w)) (changed h) h') in *.
  destruct (fold_created (now_there w) (created h) h1) as (B1 & B2 & B3 & _). { intros x Hx. apply H in Hx. rewrite A2, A3, E1, E2. split; [tauto|]. split; [intros [X|[]]; apply H in X; destruct X as (X & _); destruct Hx; congruence|intros []]. }
  set (h2 := fold_left (retry_created (now_there w)) (created h) h1) in *.
  destruct (fold_deleted (now_there w) (deleted h) h2) as (C1 & C2 & C3 & _). { intros x Hx. apply H in Hx. destruct Hx as (Hx & Hy). split; [exact Hy|]. rewrite B1, A3, B3, E2, A1, E3. split; (intros [X|[]]; apply H in X; intuition congruence). }
  set (h3 := fold_left (retry_deleted (now_there w)) (deleted h) h2) in *. cbn [deleted changed created].
  assert (R : forall x, (In x (deleted h3) <-> In x (deleted h)) /\ (In x (changed h3) <-> In x (changed h)) /\ (In x (created h3) <-> In x (created h))).
  { intros x. rewrite C1, C2, C3, B1, B3, B2, A2, A3, A1, E1, E2, E3. cbn [In]. tauto. }
  split; [|exact R]. intros x. destruct (R x) as (R1 & R2 & R3). cbn [deleted changed created]. rewrite R1, R2, R3. apply H.
Qed.
Lemma history_good debounce w h : history debounce w h -> good w h.
Proof.
  induction 1 as [files now|w h e now _ IH Hp|w h now b h' _ IH Ht|w h now b h' _ IH Ht].
  - intros x. cbn. intuition congruence.
  - apply good_event; assumption.
  - apply take_some in Ht. destruct Ht as (_ & E1 & E2 & E3 & _). intros x. cbn. rewrite E1, E2, E3. cbn. intuition congruence.
  - eapply good_failed; eassumption.
Qed.
Lemma batch_right debounce w h now b h' : history debounce w h -> take debounce now h = Some (b, h') -> right w (b_deleted b) (b_changed b) (b_created b).
Proof. intros H Ht. apply history_good in H. apply take_some in Ht. destruct Ht as (-> & _). exact H. Qed.
(** events during a successful rebuild are the same as events after it *)
Lemma success_event e now h : succeeded (on_event e now h) = on_event e now (succeeded h).
Proof.
  destruct e as [p|p|p|p q]; cbn [on_event]; unfold on_modified, on_created, on_deleted, succeeded; cbn [deleted changed created unbuildable last_change]; repeat match goal with |- context [if ?b then _ else _] => destruct b; cbn [deleted changed created unbuildable last_change] end; reflexivity.
Qed.
(** * Retrying *)
Lemma failure_kept debounce w h now b h' : history debounce w h -> take debounce now h = Some (b, h') ->
  forall x, (In x (deleted (failed (now_there w) b h')) <-> In x (deleted h)) /\ (In x (changed (failed (now_there w) b h')) <-> In x (changed h)) /\ (In x (created (failed (now_there w) b h')) <-> In x (created h)).
Proof. intros H Ht. eapply good_failed; [eapply history_good; exact H|exact Ht]. Qed.
Lemma failure_waits exs b h debounce now : take debounce now (failed exs b h) = None.
Proof. reflexivity. Qed.
Lemma event_time e now h : last_change (on_event e now h) = now /\ unbuildable (on_event e now h) = false.
Proof. destruct e as [p|p|p|p q]; cbn [on_event]; unfold on_modified, on_created, on_deleted; repeat match goal with |- context [if ?b then _ else _] => destruct b end; split; reflexivity. Qed.
Lemma event_retries debounce w h e at_time now : history debounce w h -> possible e w -> (debounce <= now - at_time)%Z ->
  (exists x, at_build w x <> there_after e (now_there w) x \/ (at_build w x = true /\ (touched w x \/ about e x))) ->
  exists b h', take debounce now (on_event e at_time h) = Some (b, h') /\ right (after e w) (b_deleted b) (b_changed b) (b_created b).
Proof.
  intros H Hp Hd (x & Hx). assert (Hg : history debounce (after e w) (on_event e at_time h)) by (apply Event; assumption).
  destruct (event_time e at_time h) as (E1 & E2). pose proof (history_good _ _ _ Hg) as G.
  assert (Hne : ~ (deleted (on_event e at_time h) = [] /\ changed (on_event e at_time h) = [] /\ created (on_event e at_time h) = [])).
  { intros (N1 & N2 & N3). destruct (G x) as (G1 & G2 & G3). rewrite N3 in G1. rewrite N1 in G2. rewrite N2 in G3. cbn [after at_build now_there touched In] in *.
    destruct (at_build w x), (there_after e (now_there w) x); intuition congruence. }
  assert (T : exists b h', take debounce now (on_event e at_time h) = Some (b, h')).
  { unfold take. rewrite E1, E2. replace (now - at_time <? debounce)%Z with false by (symmetry; apply Z.ltb_ge; exact Hd). destruct (deleted _); [|eauto]. destruct (changed _); [|eauto]. destruct (created _); [|eauto]. exfalso. apply Hne. auto. }
  destruct T as (b & h' & T). exists b, h'. split; [exact T|]. exact (batch_right _ _ _ _ _ _ Hg T).
Qed.
(** * What goes wrong *)
Definition no_files : str -> bool := fun _ => false.
Definition two_files (x : str) : bool := str_eqb x (lit "a.js") || str_eqb x (lit "b.js").
Lemma overwrite_wrong : let h := on_event (Moved (lit "a.js") (lit "b.js")) 0 (new_watcher 0) in
  In (lit "b.js") (created h) /\ ~ In (lit "b.js") (changed h) /\ two_files (lit "b.js") = true.
Proof. vm_compute. repeat split; auto. Qed.
(** a new file, a failing rebuild, and an event during that rebuild *)
Lemma during_wrong e : e = Modified (lit "a.js") \/ e = Deleted (lit "a.js") ->
  exists w h b h', history 0 w h /\ take 0 0 h = Some (b, h') /\ possible e w /\ ~ good (after e w) (failed (now_there (after e w)) b (on_event e 0 h')).
Proof.
  intros He. exists (after (Created (lit "a.js")) (just_built no_files)), (on_event (Created (lit "a.js")) 0 (new_watcher 0)). do 2 eexists.
  split; [apply Event; [apply Start|reflexivity]|]. split; [vm_compute; reflexivity|]. destruct He as [->| ->]; (split; [reflexivity|]); intros G; specialize (G (lit "a.js")); vm_compute in G; intuition discriminate.
Qed.
Lemma during_waits e at_time exs b h debounce now : take debounce now (failed exs b (on_event e at_time h)) = None.
Proof. reflexivity. Qed.
(** examples *)
Lemma ex_history : exists w h, history 10 w h /\ right w [lit "b.js"] [] [lit "c.js"] /\ take 10 50 h <> None.
Proof.
  exists (after (Moved (lit "b.js") (lit "c.js")) (just_built two_files)), (on_event (Moved (lit "b.js") (lit "c.js")) 3 (new_watcher 0)).
  assert (H : history 10 (after (Moved (lit "b.js") (lit "c.js")) (just_built two_files)) (on_event (Moved (lit "b.js") (lit "c.js")) 3 (new_watcher 0))) by (apply Event; [apply Start|split; reflexivity]).
  split; [exact H|]. split; [exact (history_good _ _ _ H)|vm_compute; discriminate].
Qed.
