(** Proofs about graph equality (graph.py:50-204). *)
From Verif Require Import Base Graph GraphSpec GraphProofs.
From Coq Require Import List ZArith Bool Relations Lia Arith.
Import ListNotations.

(** the local loop of [cmp], named *)
Fixpoint any_false (fuel : nat) (g h : graph) (l1 l2 : list str) (m : memo) : option (bool * memo) :=
  match l1, l2 with
  | a :: r1, b :: r2 =>
      match cmp fuel g h m a b with
      | None => None
      | Some (Some false, m') => Some (true, m')
      | Some (_, m') => any_false fuel g h r1 r2 m'
      end
  | _, _ => Some (false, m)
  end.

Lemma cmp_unfold fuel g h m mine others :
  cmp (S fuel) g h m mine others =
      match dget mine g, dget others h with
      | Some x, Some y =>
          if negb (str_eqb mine others) then Some (Some false, m)
          else if negb (same_meta x y) then Some (Some false, m)
          else if negb (Nat.eqb (length (n_parents x)) (length (n_parents y))) then Some (Some false, m)
          else if negb (Nat.eqb (length (n_children x)) (length (n_children y))) then Some (Some false, m)
          else
            match dget mine m with
            | Some r => Some (r, m)
            | None =>
                match any_false fuel g h (n_parents x) (n_parents y) (dset mine None m) with
                | None => None
                | Some (true, m1) => Some (Some false, dset mine (Some false) m1)
                | Some (false, m1) =>
                    match any_false fuel g h (n_children x) (n_children y) m1 with
                    | None => None
                    | Some (true, m2) => Some (Some false, dset mine (Some false) m2)
                    | Some (false, m2) => Some (Some true, dset mine (Some true) m2)
                    end
                end
            end
      | _, _ => Some (Some false, m)
      end.
Proof.
  cbn [cmp]. destruct (dget mine g) as [x|]; [|reflexivity]. destruct (dget others h) as [y|]; [|reflexivity].
  assert (H : forall l1 l2 m,
    (fix any_false (l1 l2 : list str) (m : memo) {struct l1} : option (bool * memo) :=
                  match l1, l2 with
                  | a :: r1, b :: r2 =>
                      match cmp fuel g h m a b with
                      | None => None
                      | Some (Some false, m') => Some (true, m')
                      | Some (_, m') => any_false r1 r2 m'
                      end
                  | _, _ => Some (false, m)
                  end) l1 l2 m = any_false fuel g h l1 l2 m).
  { induction l1 as [|a r1 IH]; intros [|b r2] m0; simpl; try reflexivity.
    destruct (cmp fuel g h m0 a b) as [[[[|]|] m']|]; auto. }
  rewrite H. destruct (any_false fuel g h (n_parents x) (n_parents y) (dset mine None m)) as [[[|] m1]|]; try reflexivity.
  rewrite H. reflexivity.
Qed.

Lemma same_meta_eq x y : same_meta x y = true <-> n_size x = n_size y /\ n_mtime x = n_mtime y /\ n_inode x = n_inode y.
Proof. unfold same_meta. rewrite !andb_true_iff, !Z.eqb_eq. tauto. Qed.

(** non-False implies equal paths *)
Lemma cmp_nonfalse_path fuel g h m a b r m' :
  cmp fuel g h m a b = Some (r, m') -> r <> Some false -> a = b.
Proof.
  destruct fuel as [|fuel]; [discriminate|]. rewrite cmp_unfold.
  destruct (dget a g); [|congruence]. destruct (dget b h); [|congruence].
  destruct (str_eqb a b) eqn:E; simpl; [intros _ _; apply str_eqb_eq; assumption|congruence].
Qed.
Lemma any_false_false_eq fuel g h l1 : forall l2 m m', length l1 = length l2 ->
  any_false fuel g h l1 l2 m = Some (false, m') -> l1 = l2.
Proof.
  induction l1 as [|a r IH]; intros [|b r2] m m' HL H; simpl in *; try discriminate; [reflexivity|].
  destruct (cmp fuel g h m a b) as [[r0 m1]|] eqn:E; [|discriminate].
  assert (a = b /\ any_false fuel g h r r2 m1 = Some (false, m')) as [-> H2].
  { destruct r0 as [[|]|]; try discriminate; (split; [eapply cmp_nonfalse_path; eauto; congruence|assumption]). }
  f_equal. eapply IH; eauto.
Qed.

(** a True answer at the root with an empty table *)
Lemma node_eq_true_sound g h p : node_eq g h p = Some true -> dget p g = dget p h /\ dget p g <> None.
Proof.
  unfold node_eq. destruct (dget p g) as [x|] eqn:Eg; [|discriminate]. destruct (dget p h) as [y|] eqn:Eh; [|discriminate].
  destruct (same_meta x y) eqn:Em; simpl negb; cbn [negb]; [|discriminate].
  rewrite cmp_unfold, Eg, Eh, str_eqb_refl, Em. cbn [negb dget].
  destruct (Nat.eqb (length (n_parents x)) (length (n_parents y))) eqn:L1; cbn [negb]; [|discriminate].
  destruct (Nat.eqb (length (n_children x)) (length (n_children y))) eqn:L2; cbn [negb]; [|discriminate].
  apply Nat.eqb_eq in L1, L2.
  destruct (any_false _ g h (n_parents x) (n_parents y) _) as [[[|] m1]|] eqn:A1; try discriminate.
  destruct (any_false _ g h (n_children x) (n_children y) m1) as [[[|] m2]|] eqn:A2; try discriminate.
  intros _. split; [|discriminate]. apply any_false_false_eq in A1; [|assumption]. apply any_false_false_eq in A2; [|assumption].
  apply same_meta_eq in Em. destruct Em as (H1 & H2 & H3). destruct x, y; simpl in *. congruence.
Qed.

(** ** termination *)
Section Total.
Context (g h : graph).
Definition todo (m : memo) : list str := filter (fun k => negb (dmem k m)) (nodup str_eq_dec (dkeys g)).
Lemma todo_In m k : In k (todo m) <-> In k (dkeys g) /\ ~ In k (dkeys m).
Proof. unfold todo. rewrite filter_In, nodup_In, negb_true_iff, dmem_false. tauto. Qed.
Lemma todo_NoDup m : NoDup (todo m).
Proof. apply NoDup_filter, NoDup_nodup. Qed.
Lemma todo_mono m m' : incl (dkeys m) (dkeys m') -> length (todo m') <= length (todo m).
Proof.
  intros H. apply NoDup_incl_length; [apply todo_NoDup|]. intros k. rewrite !todo_In. intros (H1 & H2). auto.
Qed.
Lemma todo_dset m k v : In k (dkeys g) -> ~ In k (dkeys m) -> length (todo (dset k v m)) < length (todo m).
Proof.
  intros H1 H2. apply (NoDup_incl_length (l := k :: todo (dset k v m))).
  - constructor; [|apply todo_NoDup]. rewrite todo_In, In_dkeys_dset. tauto.
  - intros x [<-|Hx]; rewrite todo_In in *; [tauto|]. rewrite In_dkeys_dset in Hx. tauto.
Qed.

Lemma any_false_total_gen fuel (P : memo -> Prop) :
  (forall m m' a b r, P m -> cmp fuel g h m a b = Some (r, m') -> P m') ->
  (forall m a b, P m -> cmp fuel g h m a b <> None) ->
  forall l1 l2 m, P m -> exists r m', any_false fuel g h l1 l2 m = Some (r, m') /\ P m'.
Proof.
  intros HP HT. induction l1 as [|a r1 IH]; intros [|b r2] m Hm; simpl; eauto.
  destruct (cmp fuel g h m a b) as [[r m']|] eqn:E; [|exfalso; eapply HT; eauto].
  pose proof (HP _ _ _ _ _ Hm E). destruct r as [[|]|]; eauto.
Qed.

Lemma cmp_mono fuel : forall m a b r m', cmp fuel g h m a b = Some (r, m') -> incl (dkeys m) (dkeys m').
Proof.
  induction fuel as [|fuel IH]; intros m a b r m'; [discriminate|]. rewrite cmp_unfold.
  destruct (dget a g) as [x|]; [|intros [= <- <-]; apply incl_refl].
  destruct (dget b h) as [y|]; [|intros [= <- <-]; apply incl_refl].
  repeat match goal with |- context [if ?c then Some (Some false, m) else _] => destruct c; [intros [= <- <-]; apply incl_refl|] end.
  destruct (dget a m); [intros [= <- <-]; apply incl_refl|].
  assert (HA : forall l1 l2 m0 r0 m1, any_false fuel g h l1 l2 m0 = Some (r0, m1) -> incl (dkeys m0) (dkeys m1)).
  { induction l1 as [|a1 r1 IHl]; intros [|b1 r2] m0 r0 m1; simpl; try (intros [= <- <-]; apply incl_refl).
    destruct (cmp fuel g h m0 a1 b1) as [[r2' m2]|] eqn:E; [|discriminate]. apply IH in E.
    destruct r2' as [[|]|]; [|intros [= <- <-]; assumption|]; intros H; apply IHl in H; eapply incl_tran; eauto. }
  assert (HS : forall v (m0 : memo), incl (dkeys m0) (dkeys (dset a v m0))).
  { intros v m0 k Hk. apply In_dkeys_dset. auto. }
  destruct (any_false fuel g h (n_parents x) (n_parents y) (dset a None m)) as [[[|] m1]|] eqn:A1; [| |discriminate].
  - intros [= <- <-]. apply HA in A1. eapply incl_tran; [apply HS|]. eapply incl_tran; [apply A1|apply HS].
  - destruct (any_false fuel g h (n_children x) (n_children y) m1) as [[[|] m2]|] eqn:A2; [| |discriminate];
      intros [= <- <-]; apply HA in A1, A2; (eapply incl_tran; [apply HS|]; eapply incl_tran; [apply A1|]; eapply incl_tran; [apply A2|apply HS]).
Qed.

Lemma cmp_total fuel : forall m a b, length (todo m) < fuel -> cmp fuel g h m a b <> None.
Proof.
  induction fuel as [|fuel IH]; intros m a b Hf; [lia|]. rewrite cmp_unfold.
  destruct (dget a g) as [x|] eqn:Ea; [|discriminate]. destruct (dget b h) as [y|]; [|discriminate].
  repeat match goal with |- context [if ?c then Some (Some false, m) else _] => destruct c; [discriminate|] end.
  destruct (dget a m) eqn:Em; [discriminate|].
  apply dget_None in Em. apply dget_Some_key in Ea.
  assert (Hlt : length (todo (dset a None m)) < fuel) by (pose proof (todo_dset m a None Ea Em); lia).
  destruct (any_false_total_gen fuel (fun m => length (todo m) < fuel)) with (l1 := n_parents x) (l2 := n_parents y) (m := dset a None m)
    as (r1 & m1 & -> & H1); auto.
  { intros m0 m' a0 b0 r Hm E. apply cmp_mono in E. apply todo_mono in E. lia. }
  destruct r1; [discriminate|].
  destruct (any_false_total_gen fuel (fun m => length (todo m) < fuel)) with (l1 := n_children x) (l2 := n_children y) (m := m1)
    as (r2 & m2 & -> & H2); auto.
  { intros m0 m' a0 b0 r Hm E. apply cmp_mono in E. apply todo_mono in E. lia. }
  destruct r2; discriminate.
Qed.
End Total.

Lemma node_eq_total g h p : node_eq g h p <> None.
Proof.
  unfold node_eq. destruct (dget p g); [|discriminate]. destruct (dget p h); [|discriminate].
  destruct (same_meta n n0); [|discriminate]. cbn [negb].
  destruct (cmp (S (S (length g))) g h [] p p) as [[[[|]|] m]|] eqn:E; try discriminate.
  exfalso. eapply (cmp_total g h); [|exact E].
  assert (length (todo g []) <= length (dkeys g)); [|rewrite length_dkeys in *; lia].
  apply NoDup_incl_length; [apply todo_NoDup|]. intros k Hk. apply todo_In in Hk. tauto.
Qed.

(** ** equal graphs compare equal *)
Section Complete.
Context (g h : graph) (Hsame : forall p, dget p g = dget p h).
Context (Hc : forall a b, In b (ch g a) -> In b (dkeys g)) (Hp : forall a b, In b (pa g a) -> In b (dkeys g)).
Definition clean (m : memo) := forall k, dget k m <> Some (Some false).

Lemma cmp_complete fuel : forall m a r m', clean m -> In a (dkeys g) ->
  cmp fuel g h m a a = Some (r, m') ->
  r <> Some false /\ clean m' /\ (dget a m = None -> r = Some true).
Proof.
  induction fuel as [|fuel IH]; intros m a r m' Hm Ha; [discriminate|]. rewrite cmp_unfold.
  destruct (In_dkeys_dget a g Ha) as (x & Ex). rewrite <- (Hsame a), Ex, str_eqb_refl.
  assert (Hs : same_meta x x = true) by (apply same_meta_eq; auto). rewrite Hs, !Nat.eqb_refl. cbn [negb].
  destruct (dget a m) as [r0|] eqn:Em.
  { intros [= <- <-]. split; [|split; [assumption|discriminate]]. intros ->. apply (Hm a). assumption. }
  assert (HA : forall l m0, clean m0 -> (forall y, In y l -> In y (dkeys g)) ->
     forall r1 m1, any_false fuel g h l l m0 = Some (r1, m1) -> r1 = false /\ clean m1).
  { induction l as [|y l IHl]; intros m0 H0 Hl r1 m1; simpl; [intros [= <- <-]; auto|].
    destruct (cmp fuel g h m0 y y) as [[r2 m2]|] eqn:E; [|discriminate].
    destruct (IH _ _ _ _ H0 (Hl y (or_introl eq_refl)) E) as (N1 & N2 & _).
    destruct r2 as [[|]|]; [|congruence|]; apply IHl; auto; intros z Hz; apply Hl; right; assumption. }
  assert (HS : forall v m0, clean m0 -> v <> Some false -> clean (dset a v m0)).
  { intros v m0 H0 Hv k. rewrite dget_dset. destruct (str_eqb k a); [congruence|apply H0]. }
  destruct (any_false fuel g h (n_parents x) (n_parents x) (dset a None m)) as [[r1 m1]|] eqn:A1; [|discriminate].
  apply HA in A1; [|apply HS; [assumption|discriminate]|rewrite <- (pa_get _ _ _ Ex); eauto]. destruct A1 as [-> Hm1].
  destruct (any_false fuel g h (n_children x) (n_children x) m1) as [[r2 m2]|] eqn:A2; [|discriminate].
  apply HA in A2; [|assumption|rewrite <- (ch_get _ _ _ Ex); eauto]. destruct A2 as [-> Hm2].
  intros [= <- <-]. split; [discriminate|]. split; [apply HS; [assumption|discriminate]|reflexivity].
Qed.

Lemma node_eq_complete p : In p (dkeys g) -> node_eq g h p = Some true.
Proof.
  intros Hin. pose proof (node_eq_total g h p) as HT. unfold node_eq in *.
  destruct (In_dkeys_dget p g Hin) as (x & Ex). rewrite <- (Hsame p), Ex in *.
  assert (Hs : same_meta x x = true) by (apply same_meta_eq; auto). rewrite Hs in *. cbn [negb] in *.
  destruct (cmp (S (S (length g))) g h [] p p) as [[r m]|] eqn:E; [|congruence].
  assert (Hnil : clean []) by (intros k; discriminate).
  destruct (cmp_complete _ _ _ _ _ Hnil Hin E) as (_ & _ & H). rewrite (H eq_refl). reflexivity.
Qed.
End Complete.

Lemma graph_eq_loop_total g h ps : graph_eq_loop g h ps <> None.
Proof.
  induction ps as [|p r IH]; simpl; [discriminate|]. destruct (dmem p h); [|discriminate]. cbn [negb].
  pose proof (node_eq_total g h p). destruct (node_eq g h p) as [[|]|]; congruence.
Qed.
Lemma graph_eq_total g h : graph_eq g h <> None.
Proof. unfold graph_eq. destruct (negb _); [discriminate|apply graph_eq_loop_total]. Qed.

Lemma same_length_of_same (g h : graph) : dict_wf g -> dict_wf h -> (forall p, dget p g = dget p h) -> length g = length h.
Proof.
  intros Hg Hh H. rewrite <- (length_dkeys g), <- (length_dkeys h).
  assert (forall k, In k (dkeys g) <-> In k (dkeys h)).
  { intros k. rewrite <- !dmem_In. unfold dmem. rewrite H. tauto. }
  apply Nat.le_antisymm; apply NoDup_incl_length; auto; intros k Hk; apply H0; assumption.
Qed.

Lemma graph_eq_correct g h : Inv g -> Inv h ->
  exists r, graph_eq g h = Some r /\ (r = true <-> forall p, dget p g = dget p h).
Proof.
  intros Hg Hh. pose proof (graph_eq_total g h) as HT.
  destruct (graph_eq g h) as [r|] eqn:E; [|congruence]. exists r. split; [reflexivity|].
  unfold graph_eq in E. destruct (Nat.eqb (length g) (length h)) eqn:L; cbn [negb] in E.
  - apply Nat.eqb_eq in L. split.
    + intros ->.
      assert (HL : forall ps, graph_eq_loop g h ps = Some true -> forall p, In p ps -> dget p g = dget p h).
      { induction ps as [|q r IH]; simpl; [intros _ p []|].
        destruct (dmem q h); [|discriminate]. cbn [negb]. destruct (node_eq g h q) as [[|]|] eqn:En; try discriminate.
        apply node_eq_true_sound in En. intros H p [<-|Hp]; [tauto|auto]. }
      assert (Hin : forall p, In p (dkeys g) -> dget p g = dget p h) by (apply HL; assumption).
      assert (Hincl : incl (dkeys g) (dkeys h)).
      { intros p Hp. pose proof (Hin p Hp) as Hq. destruct (In_dkeys_dget p g Hp) as (v & Ev). rewrite Ev in Hq.
        symmetry in Hq. eapply dget_Some_key; eauto. }
      assert (Hback : incl (dkeys h) (dkeys g)).
      { apply NoDup_length_incl; [apply Hg| |assumption]. rewrite !length_dkeys. lia. }
      intros p. destruct (in_dec str_eq_dec p (dkeys g)) as [i|n]; [auto|].
      rewrite (proj2 (dget_None p g) n). symmetry. apply dget_None. intros Hp. apply n, Hback, Hp.
    + intros Hs. assert (HL : forall ps, (forall p, In p ps -> In p (dkeys g)) -> graph_eq_loop g h ps = Some true).
      { induction ps as [|q l IH]; simpl; [reflexivity|]. intros Hps.
        assert (Hq : In q (dkeys g)) by (apply Hps; left; reflexivity).
        assert (Hqh : dmem q h = true).
        { unfold dmem. rewrite <- Hs. destruct (In_dkeys_dget q g Hq) as (v & ->). reflexivity. }
        rewrite Hqh. cbn [negb]. rewrite (node_eq_complete g h Hs); auto.
        - intros a b Hb. eapply Inv_ch_closed; eauto.
        - intros a b Hb. eapply Inv_pa_closed; eauto. }
      rewrite HL in E by auto. congruence.
  - injection E as <-. split; [discriminate|]. intros Hs. apply Nat.eqb_neq in L. exfalso. apply L.
    apply same_length_of_same; [apply Hg|apply Hh|assumption].
Qed.
