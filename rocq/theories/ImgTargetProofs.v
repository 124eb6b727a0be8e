(** Proofs about the folders of images. *)
From Verif Require Import Base Graph Json JsonProofs PyPath ImgExport ImgExportProofs ImgTarget ImgTargetSpec.
From Coq Require Import String ZArith NArith Bool List Lia Permutation Arith.
Import ListNotations.
Open Scope list_scope.
Open Scope Z_scope.

Lemma zget_zset {T} k (v : option T) l k' : zget k' (zset k v l) = if k' =? k then Some v else zget k' l.
Proof.
  induction l as [|[a b] l IH]; cbn [zset zget]; [destruct (k' =? k); reflexivity|]. destruct (k =? a) eqn:E.
  - apply Z.eqb_eq in E. subst a. cbn [zget]. destruct (k' =? k); reflexivity.
  - cbn [zget]. destruct (k' =? a) eqn:E'; [|exact IH]. apply Z.eqb_eq in E'. subst a. rewrite Z.eqb_sym, E. reflexivity.
Qed.
Lemma zget_bound {T} (l : list (Z * option T)) : exists b, 0 <= b /\ forall id, zget id l <> None -> id <= b.
Proof.
  induction l as [|[a b] l (m & M & H)]; [exists 0; split; [lia|intros id X; exfalso; apply X; reflexivity]|]. exists (Z.max a m). split; [lia|]. intros id. cbn [zget]. destruct (id =? a) eqn:E; [apply Z.eqb_eq in E; lia|]. intros X. apply H in X. lia.
Qed.
Lemma dset_new {A} k (v : A) (d : list (str * A)) : dget k d = None -> dset k v d = d ++ [(k, v)].
Proof. induction d as [|[k' v'] d IH]; cbn [dget dset app]; [reflexivity|]. destruct (str_eqb k k'); [discriminate|]. intros E. rewrite (IH E). reflexivity. Qed.
Lemma int_print z : int_of (print_Z z) = Ret z.
Proof. unfold int_of. rewrite parse_Z_print. reflexivity. Qed.
Section Race.
Context {T : Type} (teqb : T -> T -> bool) (EQ : equality teqb) (target : nat -> T) (sh : Z) (ch : str) (metas : Z -> option (metadata T)).
Notation step := (step teqb target sh ch metas).
Notation steps := (steps teqb target sh ch metas).
Definition critical (c : pc) : bool := match c with Checking _ | Locked | Counted _ | Truncated _ | Written _ | Made _ | Placed _ => true | _ => false end.
Definition owns (c : pc) : option Z := match c with Written c | Made c | Placed c | Reserved c => Some c | _ => None end.
Definition at_pc (b : Z) (s : state) (p : nat) (c : pc) : Prop :=
  match c with
  | Locking id | Checking id => metas id = None
  | Counted c => c = b + 1
  | Truncated c => c = b + 1
  | Written c => zget c (placeholders s) = None
  | Made c => zget c (placeholders s) = Some None
  | Placed c | Reserved c => zget c (placeholders s) = Some (Some (target p))
  | Found id => (exists m, metas id = Some m /\ m_settings_hash m = sh /\ m_contents_hash m = ch /\ m_target m = target p) \/ (metas id = None /\ zget id (placeholders s) = Some (Some (target p)))
  | _ => True
  end.
Record inv (b0 b : Z) (s0 s : state) : Prop := {
  i_lock : forall p, critical (procs s p) = true <-> lock s = Some p;
  i_bound : b0 <= b;
  i_dirs : forall id, zget id (placeholders s) <> None -> id <= b;
  i_owns : forall p c, owns (procs s p) = Some c -> b0 < c <= b;
  i_uniq : forall p q c, owns (procs s p) = Some c -> owns (procs s q) = Some c -> p = q;
  i_count : match count s with None => b = 0 | Some (Some n) => n = b | Some None => True end;
  i_pc : forall p, at_pc b s p (procs s p);
  i_keep : forall id v, zget id (placeholders s0) = Some v -> id <= b0 /\ zget id (placeholders s) = Some v
}.
Lemma goto_same p c (s : @state T) : procs (goto p c s) p = c. Proof using. cbn. rewrite Nat.eqb_refl. reflexivity. Qed.
Lemma goto_other p c (s : @state T) q : q <> p -> procs (goto p c s) q = procs s q. Proof using. intros N. cbn. apply Nat.eqb_neq in N. rewrite N. reflexivity. Qed.
Lemma start_inv s : start metas s -> exists b0, inv b0 b0 s s.
Proof using.
  intros (L & P & _ & C).
  assert (X : exists b0, (forall id, zget id (placeholders s) <> None -> id <= b0) /\ match count s with None => b0 = 0 | Some (Some n) => n = b0 | Some None => True end).
  { destruct (count s) as [[n|]|]; [exists n; split; [apply C|reflexivity]|destruct (zget_bound (placeholders s)) as (b & _ & H); exists b; auto|exists 0; split; [rewrite C; intros id X; exfalso; apply X; reflexivity|reflexivity]]. }
  destruct X as (b0 & D & Cn). exists b0. constructor.
  - intros p. rewrite P, L. split; discriminate.
  - lia.
  - exact D.
  - intros p c. rewrite P. discriminate.
  - intros p q c. rewrite P. discriminate.
  - exact Cn.
  - intros p. rewrite P. exact I.
  - intros id v E. split; [apply D; congruence|exact E].
Qed.
(** a step of [p] that moves neither the counter nor the folders *)
Lemma inv_goto b0 b s0 s p c l : inv b0 b s0 s -> (forall q, q <> p -> (critical (procs s q) = true <-> l = Some q)) -> (critical c = true <-> l = Some p) -> (owns c = None \/ owns c = owns (procs s p)) -> at_pc b s p c -> inv b0 b s0 (goto p c (with_lock l s)).
Proof using.
  intros I L1 L2 O A. constructor.
  - intros q. destruct (Nat.eq_dec q p) as [->|N]; [rewrite goto_same; exact L2|rewrite goto_other by exact N; exact (L1 q N)].
  - apply I.
  - apply (i_dirs _ _ _ _ I).
  - intros q x. destruct (Nat.eq_dec q p) as [->|N]; [rewrite goto_same|rewrite goto_other by exact N; apply (i_owns _ _ _ _ I)]. destruct O as [O|O]; rewrite O; [discriminate|apply (i_owns _ _ _ _ I)].
  - assert (Q : forall q x, owns (procs (goto p c (with_lock l s)) q) = Some x -> owns (procs s q) = Some x). { intros q x. destruct (Nat.eq_dec q p) as [->|N]; [rewrite goto_same|rewrite goto_other by exact N; exact (fun H => H)]. destruct O as [O|O]; rewrite O; [discriminate|exact (fun H => H)]. }
    intros q r x X Y. apply Q in X. apply Q in Y. exact (i_uniq _ _ _ _ I q r x X Y).
  - exact (i_count _ _ _ _ I).
  - intros q. destruct (Nat.eq_dec q p) as [->|N]; [rewrite goto_same; exact A|rewrite goto_other by exact N; exact (i_pc _ _ _ _ I q)].
  - exact (i_keep _ _ _ _ I).
Qed.
Lemma inv_stay b0 b s0 s p c : inv b0 b s0 s -> critical c = critical (procs s p) -> (owns c = None \/ owns c = owns (procs s p)) -> at_pc b s p c -> inv b0 b s0 (goto p c s).
Proof using.
  intros I C O A. change (goto p c s) with (goto p c (with_lock (lock s) s)). apply inv_goto; [exact I| |rewrite C; apply I|exact O|exact A]. intros q _. apply I.
Qed.
Lemma others_free b0 b s0 s p : inv b0 b s0 s -> critical (procs s p) = true -> forall q, q <> p -> (critical (procs s q) = true <-> None = Some q).
Proof using. intros I C q N. split; [|discriminate]. intros X. apply I in X. apply I in C. congruence. Qed.
Lemma judge_cases m t id : teqb (m_target m) t = true \/ teqb (m_target m) t = false -> (judge teqb sh ch m t id = Found id /\ m_settings_hash m = sh /\ m_contents_hash m = ch /\ m_target m = t) \/ (judge teqb sh ch m t id = Looking \/ judge teqb sh ch m t id = Dead).
Proof using EQ.
  intros _. unfold judge. destruct (m_settings_hash m =? sh) eqn:E1; cbn [negb]; [|auto]. destruct (str_eqb (m_contents_hash m) ch) eqn:E2; cbn [negb]; [|auto]. destruct (teqb (m_target m) t) eqn:E3; cbn [negb]; [|auto]. left. apply Z.eqb_eq in E1. apply str_eqb_eq in E2. apply EQ in E3. auto.
Qed.
Lemma step_inv b0 b s0 s s' : inv b0 b s0 s -> step s s' -> exists b', inv b0 b' s0 s'.
Proof using EQ.
  intros I St. destruct St as [p id m s P D M|p id s P D M|p s P|p id s P L|p id t s P D E|p id s P D|p s P L|p n s P C|p s P C|p c s P|p c s P|p c s P|p c s P|p c s P|p s K].
  - exists b. apply inv_stay; [exact I| | |].
    + rewrite P. destruct (judge_cases m (target p) id) as [(-> & _)|[->| ->]]; [destruct (teqb (m_target m) (target p)); auto| | |]; reflexivity.
    + destruct (judge_cases m (target p) id) as [(-> & _)|[->| ->]]; [destruct (teqb (m_target m) (target p)); auto| | |]; left; reflexivity.
    + destruct (judge_cases m (target p) id) as [(-> & X)|[->| ->]]; [destruct (teqb (m_target m) (target p)); auto| |exact Logic.I|exact Logic.I]. left. exists m. tauto.
  - exists b. apply inv_stay; [exact I|rewrite P; reflexivity|left; reflexivity|exact M].
  - exists b. apply inv_stay; [exact I|rewrite P; reflexivity|left; reflexivity|exact Logic.I].
  - exists b. apply inv_goto; [exact I| |split; reflexivity|left; reflexivity|]; [|pose proof (i_pc _ _ _ _ I p) as A; rewrite P in A; exact A]. intros q N. split; [intros X; apply I in X; congruence|intros X; injection X as <-; contradiction].
  - exists b. apply inv_goto; [exact I|apply (others_free _ _ _ _ _ I); rewrite P; reflexivity|split; discriminate|left; reflexivity|]. right. pose proof (i_pc _ _ _ _ I p) as A. rewrite P in A. split; [exact A|]. apply EQ in E. rewrite <- E. exact D.
  - exists b. apply inv_goto; [exact I|apply (others_free _ _ _ _ _ I); rewrite P; reflexivity|split; discriminate|left; reflexivity|exact Logic.I].
  - exists b. apply inv_goto; [exact I| |split; reflexivity|left; reflexivity|exact Logic.I]. intros q N. split; [intros X; apply I in X; congruence|intros X; injection X as <-; contradiction].
  - exists b. apply inv_stay; [exact I|rewrite P; reflexivity|left; reflexivity|]. cbn [at_pc]. pose proof (i_count _ _ _ _ I) as X. destruct (count s) as [[k|]|]; [lia|contradiction|lia].
  - exists b. apply inv_goto; [exact I|apply (others_free _ _ _ _ _ I); rewrite P; reflexivity|split; discriminate|left; reflexivity|exact Logic.I].
  - exists b. pose proof (i_pc _ _ _ _ I p) as A. rewrite P in A. assert (J : inv b0 b s0 (goto p (Truncated c) s)) by (apply inv_stay; [exact I|rewrite P; reflexivity|left; reflexivity|exact A]). destruct J as [J1 J2 J3 J4 J5 J6 J7 J8]. constructor; try assumption. exact Logic.I.
  - exists c. pose proof (i_pc _ _ _ _ I p) as A. rewrite P in A. cbn [at_pc] in A.
    assert (Cp : critical (procs s p) = true) by (rewrite P; reflexivity). assert (Lp : lock s = Some p) by (apply I; exact Cp).
    assert (Oth : forall q, q <> p -> critical (procs s q) = false). { intros q N. destruct (critical (procs s q)) eqn:X; [|reflexivity]. apply I in X. congruence. }
    constructor; cbn [lock count placeholders with_count goto].
    + intros q. destruct (Nat.eq_dec q p) as [->|N]; [rewrite goto_same; split; [intros _; exact Lp|reflexivity]|rewrite goto_other by exact N; apply I].
    + pose proof (i_bound _ _ _ _ I). lia.
    + intros id X. apply (i_dirs _ _ _ _ I) in X. lia.
    + intros q x. destruct (Nat.eq_dec q p) as [->|N]; [rewrite goto_same; intros X; injection X as <-; pose proof (i_bound _ _ _ _ I); lia|rewrite goto_other by exact N; intros X; apply (i_owns _ _ _ _ I) in X; lia].
    + intros q r x X Y. destruct (Nat.eq_dec q p) as [->|N], (Nat.eq_dec r p) as [->|M]; try reflexivity.
      * rewrite goto_same in X. rewrite goto_other in Y by exact M. injection X as <-. apply (i_owns _ _ _ _ I) in Y. lia.
      * rewrite goto_same in Y. rewrite goto_other in X by exact N. injection Y as <-. apply (i_owns _ _ _ _ I) in X. lia.
      * rewrite goto_other in X by exact N. rewrite goto_other in Y by exact M. exact (i_uniq _ _ _ _ I q r x X Y).
    + reflexivity.
    + intros q. destruct (Nat.eq_dec q p) as [->|N].
      * rewrite goto_same. cbn [at_pc placeholders with_count goto]. destruct (zget c (placeholders s)) eqn:X; [|reflexivity]. assert (Y : zget c (placeholders s) <> None) by congruence. apply (i_dirs _ _ _ _ I) in Y. lia.
      * rewrite goto_other by exact N. specialize (Oth q N). pose proof (i_pc _ _ _ _ I q) as B. cbn [procs with_count]. destruct (procs s q); try discriminate Oth; exact B.
    + exact (i_keep _ _ _ _ I).
  - exists b. pose proof (i_pc _ _ _ _ I p) as A. rewrite P in A. cbn [at_pc] in A. rewrite A.
    assert (Cp : critical (procs s p) = true) by (rewrite P; reflexivity). assert (Lp : lock s = Some p) by (apply I; exact Cp).
    assert (Oth : forall q, q <> p -> critical (procs s q) = false). { intros q N. destruct (critical (procs s q)) eqn:X; [|reflexivity]. apply I in X. congruence. }
    assert (Op : owns (procs s p) = Some c) by (rewrite P; reflexivity). pose proof (i_owns _ _ _ _ I p c Op) as Bc.
    constructor; cbn [lock count placeholders with_placeholders goto].
    + intros q. destruct (Nat.eq_dec q p) as [->|N]; [rewrite goto_same; split; [intros _; exact Lp|reflexivity]|rewrite goto_other by exact N; apply I].
    + apply I.
    + intros id. rewrite zget_zset. destruct (id =? c) eqn:X; [apply Z.eqb_eq in X; lia|apply (i_dirs _ _ _ _ I)].
    + intros q x. destruct (Nat.eq_dec q p) as [->|N]; [rewrite goto_same; intros X; injection X as <-; exact Bc|rewrite goto_other by exact N; apply (i_owns _ _ _ _ I)].
    + intros q r x X Y. assert (Q : forall q, owns (procs (goto p (Made c) (with_placeholders (zset c None (placeholders s)) s)) q) = Some x -> owns (procs s q) = Some x). { intros q0. destruct (Nat.eq_dec q0 p) as [->|N]; [rewrite goto_same, P; exact (fun H => H)|rewrite goto_other by exact N; exact (fun H => H)]. } apply Q in X. apply Q in Y. exact (i_uniq _ _ _ _ I q r x X Y).
    + exact (i_count _ _ _ _ I).
    + intros q. destruct (Nat.eq_dec q p) as [->|N].
      * rewrite goto_same. cbn [at_pc placeholders with_placeholders goto]. rewrite zget_zset, Z.eqb_refl. reflexivity.
      * rewrite goto_other by exact N. specialize (Oth q N). pose proof (i_pc _ _ _ _ I q) as B. cbn [procs with_placeholders]. destruct (procs s q) eqn:Pq; try discriminate Oth; try exact B; cbn [at_pc placeholders with_placeholders goto] in *; rewrite zget_zset.
        -- destruct (id =? c) eqn:X; [|exact B]. apply Z.eqb_eq in X. subst id. destruct B as [B|[B1 B2]]; [left; exact B|congruence].
        -- destruct (id =? c) eqn:X; [|exact B]. apply Z.eqb_eq in X. subst id. congruence.
    + intros id v X. destruct (i_keep _ _ _ _ I id v X) as [K1 K2]. split; [exact K1|]. rewrite zget_zset. destruct (id =? c) eqn:Y; [apply Z.eqb_eq in Y; lia|exact K2].
  - exists b. pose proof (i_pc _ _ _ _ I p) as A. rewrite P in A. cbn [at_pc] in A.
    assert (Cp : critical (procs s p) = true) by (rewrite P; reflexivity). assert (Lp : lock s = Some p) by (apply I; exact Cp).
    assert (Oth : forall q, q <> p -> critical (procs s q) = false). { intros q N. destruct (critical (procs s q)) eqn:X; [|reflexivity]. apply I in X. congruence. }
    assert (Op : owns (procs s p) = Some c) by (rewrite P; reflexivity). pose proof (i_owns _ _ _ _ I p c Op) as Bc.
    constructor; cbn [lock count placeholders with_placeholders goto].
    + intros q. destruct (Nat.eq_dec q p) as [->|N]; [rewrite goto_same; split; [intros _; exact Lp|reflexivity]|rewrite goto_other by exact N; apply I].
    + apply I.
    + intros id. rewrite zget_zset. destruct (id =? c) eqn:X; [apply Z.eqb_eq in X; lia|apply (i_dirs _ _ _ _ I)].
    + intros q x. destruct (Nat.eq_dec q p) as [->|N]; [rewrite goto_same; intros X; injection X as <-; exact Bc|rewrite goto_other by exact N; apply (i_owns _ _ _ _ I)].
    + intros q r x X Y. assert (Q : forall q, owns (procs (goto p (Placed c) (with_placeholders (zset c (Some (target p)) (placeholders s)) s)) q) = Some x -> owns (procs s q) = Some x). { intros q0. destruct (Nat.eq_dec q0 p) as [->|N]; [rewrite goto_same, P; exact (fun H => H)|rewrite goto_other by exact N; exact (fun H => H)]. } apply Q in X. apply Q in Y. exact (i_uniq _ _ _ _ I q r x X Y).
    + exact (i_count _ _ _ _ I).
    + intros q. destruct (Nat.eq_dec q p) as [->|N].
      * rewrite goto_same. cbn [at_pc placeholders with_placeholders goto]. rewrite zget_zset, Z.eqb_refl. reflexivity.
      * rewrite goto_other by exact N. specialize (Oth q N). pose proof (i_pc _ _ _ _ I q) as B. cbn [procs with_placeholders]. destruct (procs s q) eqn:Pq; try discriminate Oth; try exact B; cbn [at_pc placeholders with_placeholders goto] in *; rewrite zget_zset.
        -- destruct (id =? c) eqn:X; [|exact B]. apply Z.eqb_eq in X. subst id. destruct B as [B|[B1 B2]]; [left; exact B|congruence].
        -- destruct (id =? c) eqn:X; [|exact B]. apply Z.eqb_eq in X. subst id. congruence.
    + intros id v X. destruct (i_keep _ _ _ _ I id v X) as [K1 K2]. split; [exact K1|]. rewrite zget_zset. destruct (id =? c) eqn:Y; [apply Z.eqb_eq in Y; lia|exact K2].
  - exists b. pose proof (i_pc _ _ _ _ I p) as A. rewrite P in A. apply inv_goto; [exact I|apply (others_free _ _ _ _ _ I); rewrite P; reflexivity|split; discriminate|right; rewrite P; reflexivity|exact A].
  - exists b. apply inv_goto; [exact I| | |left; reflexivity|exact Logic.I].
    + intros q N. rewrite (i_lock _ _ _ _ I q). destruct (lock s) as [r|]; [|reflexivity]. destruct (Nat.eqb r p) eqn:X; [|reflexivity]. apply Nat.eqb_eq in X. subst r. split; [intros Y; injection Y as ->; contradiction|discriminate].
    + cbn [critical]. split; [discriminate|]. destruct (lock s) as [r|]; [|discriminate]. destruct (Nat.eqb r p) eqn:X; [discriminate|]. intros Y. injection Y as ->. rewrite Nat.eqb_refl in X. discriminate X.
Qed.
Lemma steps_inv b0 b s0 s s' : inv b0 b s0 s -> steps s s' -> exists b', inv b0 b' s0 s'.
Proof using EQ. intros I St. revert b I. induction St as [|s s' s'' St IH Sp]; intros b I; [exists b; exact I|]. destruct (IH b I) as [b' I']. exact (step_inv _ _ _ _ _ I' Sp). Qed.
Lemma steps_trans s s' s'' : steps s s' -> steps s' s'' -> steps s s''.
Proof using. intros A B. induction B as [|s1 s2 s3 B IH C]; [exact A|]. econstructor; [exact (IH A)|exact C]. Qed.
Lemma step_done s s' p id : step s s' -> procs s p = Found id \/ procs s p = Reserved id -> procs s' p = procs s p.
Proof using.
  intros St R. destruct St; (destruct (Nat.eq_dec p p0) as [->|N]; [|rewrite goto_other by exact N; reflexivity]); try (destruct R; congruence). destruct (H id) as [A B]. destruct R; contradiction.
Qed.
Lemma steps_done s s' p id : steps s s' -> returned s p id -> returned s' p id /\ procs s' p = procs s p.
Proof using. intros St R. induction St as [|s s' s'' St IH Sp]; [auto|]. destruct (IH R) as [A B]. pose proof (step_done _ _ _ _ Sp A) as C. split; [|congruence]. unfold returned. rewrite C. exact A. Qed.

Lemma unique s0 s s' p q id : start metas s0 -> steps s0 s -> steps s s' -> procs s p = Reserved id -> procs s' q = Reserved id -> p = q.
Proof using EQ.
  intros S A B P Q. destruct (start_inv s0 S) as [b0 I0]. destruct (steps_inv _ _ _ _ _ I0 (steps_trans _ _ _ A B)) as [b I]. destruct (steps_done _ _ p id B (or_intror P)) as [_ P']. apply (i_uniq _ _ _ _ I p q id); [rewrite P', P|rewrite Q]; reflexivity.
Qed.
Lemma new s0 s p id : start metas s0 -> steps s0 s -> procs s p = Reserved id -> zget id (placeholders s0) = None /\ zget id (placeholders s) = Some (Some (target p)).
Proof using EQ.
  intros S A P. destruct (start_inv s0 S) as [b0 I0]. destruct (steps_inv _ _ _ _ _ I0 A) as [b I]. pose proof (i_pc _ _ _ _ I p) as X. rewrite P in X. split; [|exact X].
  destruct (zget id (placeholders s0)) as [v|] eqn:Y; [|reflexivity]. destruct (i_keep _ _ _ _ I id v Y) as [K _]. assert (O : owns (procs s p) = Some id) by (rewrite P; reflexivity). apply (i_owns _ _ _ _ I) in O. lia.
Qed.
Lemma apart_targets s0 s p q id : start metas s0 -> steps s0 s -> returned s p id -> returned s q id -> target p = target q.
Proof using EQ.
  intros S A P Q. destruct (start_inv s0 S) as [b0 I0]. destruct (steps_inv _ _ _ _ _ I0 A) as [b I]. destruct S as (_ & _ & M & _).
  assert (R : forall p, returned s p id -> (exists m, metas id = Some m /\ m_target m = target p) \/ (metas id = None /\ zget id (placeholders s) = Some (Some (target p)))).
  { intros r [R|R]; pose proof (i_pc _ _ _ _ I r) as X; rewrite R in X; cbn [at_pc] in X.
    - destruct X as [(m & X1 & _ & _ & X2)|X]; [left; exists m; auto|right; exact X].
    - right. split; [|exact X]. destruct (metas id) as [m|] eqn:E; [|reflexivity]. exfalso. assert (Z : zget id (placeholders s0) <> None) by (apply M; congruence). destruct (zget id (placeholders s0)) as [v|] eqn:Y; [|contradiction]. destruct (i_keep _ _ _ _ I id v Y) as [K _]. assert (O : owns (procs s r) = Some id) by (rewrite R; reflexivity). apply (i_owns _ _ _ _ I) in O. lia. }
  destruct (R p P) as [(m & E1 & E2)|(E1 & E2)], (R q Q) as [(m' & F1 & F2)|(F1 & F2)]; congruence.
Qed.
Lemma found_match s0 s p id : start metas s0 -> steps s0 s -> procs s p = Found id ->
  (exists m, metas id = Some m /\ m_settings_hash m = sh /\ m_contents_hash m = ch /\ m_target m = target p) \/ (metas id = None /\ zget id (placeholders s) = Some (Some (target p))).
Proof using EQ. intros S A P. destruct (start_inv s0 S) as [b0 I0]. destruct (steps_inv _ _ _ _ _ I0 A) as [b I]. pose proof (i_pc _ _ _ _ I p) as X. rewrite P in X. exact X. Qed.
(** * An empty counter *)
Lemma stuck s s' : count s = Some None -> (forall p, match procs s p with Looking | Locking _ | Checking _ | Reserving | Locked | Found _ | Dead => True | _ => False end) -> steps s s' ->
  count s' = Some None /\ forall p, match procs s' p with Looking | Locking _ | Checking _ | Reserving | Locked | Found _ | Dead => True | _ => False end.
Proof using.
  intros C P St. induction St as [|s s' s'' St IH Sp]; [auto|]. specialize (IH C P). destruct IH as [C' P']. clear St C P s.
  assert (G : forall p c s, (forall q, match procs s q with Looking | Locking _ | Checking _ | Reserving | Locked | Found _ | Dead => True | _ => False end) -> match c with Looking | Locking _ | Checking _ | Reserving | Locked | Found _ | Dead => True | _ => False end -> forall q, match procs (goto (T := T) p c s) q with Looking | Locking _ | Checking _ | Reserving | Locked | Found _ | Dead => True | _ => False end).
  { intros p c s A B q. destruct (Nat.eq_dec q p) as [->|N]; [rewrite goto_same; exact B|rewrite goto_other by exact N; apply A]. }
  destruct Sp; pose proof (P' p) as Pp; try (rewrite H in Pp; contradiction); try (split; [exact C'|apply G; [exact P'|exact I]]).
  - split; [exact C'|]. apply G; [exact P'|]. unfold judge. destruct (negb _); [exact I|]. destruct (negb _); [exact I|]. destruct (negb _); exact I.
  - exfalso. rewrite C' in H0. exact H0.
Qed.
End Race.

(** * One process *)
Section One.
Context {T : Type} (teqb : T -> T -> bool) (EQ : equality teqb) (sh : Z) (ch : str) (t : T).
Notation look := (look teqb sh ch t).
Notation matching := (matching sh ch t).
Lemma look_some l z : look l = Ret (Some z) -> exists name e, In (name, e) l /\ matching e /\ int_of name = Ret z.
Proof using EQ.
  induction l as [|[name e] l IH]; cbn [ImgTarget.look]; [discriminate|]. intros E.
  assert (R : look l = Ret (Some z) -> exists name0 e0, In (name0, e0) ((name, e) :: l) /\ matching e0 /\ int_of name0 = Ret z) by (intros X; destruct (IH X) as (n & x & A & B & C); exists n, x; split; [right; exact A|auto]).
  assert (H : matching e -> int_of name = Ret z -> exists name0 e0, In (name0, e0) ((name, e) :: l) /\ matching e0 /\ int_of name0 = Ret z) by (intros X Y; exists name, e; split; [left; reflexivity|auto]).
  destruct (is_dir e) eqn:D; cbn [negb] in E; [|exact (R E)]. destruct (e_metadata e) as [m|] eqn:M.
  - destruct (m_settings_hash m =? sh) eqn:E1; cbn [negb] in E; [|exact (R E)]. destruct (str_eqb (m_contents_hash m) ch) eqn:E2; cbn [negb] in E; [|discriminate E]. destruct (teqb (m_target m) t) eqn:E3; cbn [negb] in E; [|exact (R E)].
    destruct (int_of name) eqn:N; [|discriminate E]. apply H; [|congruence]. split; [exact D|]. rewrite M. apply Z.eqb_eq in E1. apply str_eqb_eq in E2. apply EQ in E3. auto.
  - destruct (e_placeholder e) as [p|] eqn:P; [|exact (R E)]. destruct (teqb p t) eqn:E3; [|exact (R E)]. destruct (int_of name) eqn:N; [|discriminate E]. apply H; [|congruence]. split; [exact D|]. rewrite M, P. apply EQ in E3. congruence.
Qed.
Lemma look_total l : (forall name e, In (name, e) l -> matching e -> exists z, int_of name = Ret z) -> (forall name e, In (name, e) l -> ~ outdated sh ch e) ->
  (exists z, look l = Ret (Some z)) \/ (look l = Ret None /\ forall name e, In (name, e) l -> ~ matching e).
Proof using EQ.
  induction l as [|[name e] l IH]; intros N O; cbn [ImgTarget.look]; [right; split; [reflexivity|intros name e []]|].
  assert (IH' := IH (fun n x I => N n x (or_intror I)) (fun n x I => O n x (or_intror I))). clear IH.
  assert (R : ~ matching e -> (exists z, look l = Ret (Some z)) \/ (look l = Ret None /\ forall name0 e0, In (name0, e0) ((name, e) :: l) -> ~ matching e0)).
  { intros X. destruct IH' as [Y|[Y1 Y2]]; [left; exact Y|right]. split; [exact Y1|]. intros n x [I|I]; [injection I as <- <-; exact X|exact (Y2 n x I)]. }
  assert (H : matching e -> (exists z, match int_of name with Ret z => Ret (Some z) | Raise x => Raise x end = Ret (Some z))).
  { intros X. destruct (N name e (or_introl eq_refl) X) as [k K]. rewrite K. exists k. reflexivity. }
  destruct (is_dir e) eqn:D; cbn [negb]; [|apply R; intros [X _]; congruence]. destruct (e_metadata e) as [m|] eqn:M.
  - destruct (m_settings_hash m =? sh) eqn:E1; cbn [negb]; [|apply R; intros [_ X]; rewrite M in X; apply Z.eqb_neq in E1; tauto]. apply Z.eqb_eq in E1. destruct (str_eqb (m_contents_hash m) ch) eqn:E2; cbn [negb].
    + apply str_eqb_eq in E2. destruct (teqb (m_target m) t) eqn:E3; cbn [negb].
      * left. apply H. split; [exact D|]. rewrite M. apply EQ in E3. auto.
      * apply R. intros [_ X]. rewrite M in X. destruct X as (_ & _ & X). apply EQ in X. congruence.
    + exfalso. apply (O name e (or_introl eq_refl)). split; [exact D|]. exists m. apply str_eqb_neq in E2. auto.
  - destruct (e_placeholder e) as [p|] eqn:P; [|apply R; intros [_ X]; rewrite M, P in X; discriminate X]. destruct (teqb p t) eqn:E3.
    + left. apply H. split; [exact D|]. rewrite M, P. apply EQ in E3. congruence.
    + apply R. intros [_ X]. rewrite M, P in X. assert (Y : p = t) by congruence. apply EQ in Y. congruence.
Qed.
Lemma look_outdated l name e r : (forall n x, In (n, x) l -> ~ matching x) -> outdated sh ch e -> look (l ++ (name, e) :: r) = Raise TypeError.
Proof using EQ.
  intros N X. induction l as [|[n x] l IH]; cbn [app ImgTarget.look].
  - destruct X as (D & m & M & E1 & E2). rewrite D, M. cbn [negb]. apply Z.eqb_eq in E1. rewrite E1. cbn [negb]. apply str_eqb_neq in E2. rewrite E2. reflexivity.
  - rewrite (IH (fun n' x' I => N n' x' (or_intror I))). specialize (N n x (or_introl eq_refl)). destruct (is_dir x) eqn:D; cbn [negb]; [|reflexivity]. destruct (e_metadata x) as [m|] eqn:M.
    + destruct (m_settings_hash m =? sh) eqn:E1; cbn [negb]; [|reflexivity]. destruct (str_eqb (m_contents_hash m) ch) eqn:E2; cbn [negb]; [|reflexivity]. destruct (teqb (m_target m) t) eqn:E3; cbn [negb]; [|reflexivity]. exfalso. apply N. split; [exact D|]. rewrite M. apply Z.eqb_eq in E1. apply str_eqb_eq in E2. apply EQ in E3. auto.
    + destruct (e_placeholder x) as [p|] eqn:P; [|reflexivity]. destruct (teqb p t) eqn:E3; [|reflexivity]. exfalso. apply N. split; [exact D|]. rewrite M, P. apply EQ in E3. congruence.
Qed.
Definition fresh_entry : entry T := {| is_dir := true; e_metadata := None; e_placeholder := Some t |}.
(** a reservation gives a new folder, for this target *)
Lemma reserve_ok (f : option (folder T)) : proper (taken f) -> exists z g, reserve_target t f = Ret (z, g) /\ proper g /\ 1 <= z /\ dget (print_Z z) (entries (taken f)) = None /\ entries g = entries (taken f) ++ [(print_Z z, fresh_entry)].
Proof using EQ ch sh.
  intros (W & n & N0 & C & B). unfold reserve_target. fold (taken f). assert (X : match counter (taken f) with None => Ret 0 | Some s => int_of s end = Ret n) by (destruct C as [->|[-> ->]]; [apply int_print|reflexivity]). rewrite X.
  assert (G : dget (print_Z (n + 1)) (entries (taken f)) = None). { destruct (dget (print_Z (n + 1)) (entries (taken f))) as [e|] eqn:G; [|reflexivity]. apply dget_In in G. destruct (B _ _ G) as [Y _]. specialize (Y (n + 1) eq_refl). lia. }
  rewrite G. assert (E : dset (print_Z (n + 1)) fresh_entry (entries (taken f)) = entries (taken f) ++ [(print_Z (n + 1), fresh_entry)]) by (apply dset_new; exact G).
  exists (n + 1). eexists. split; [reflexivity|]. split; [|split; [lia|split; [exact G|exact E]]]. split; [apply dict_wf_dset; exact W|]. exists (n + 1). split; [lia|]. split; [left; reflexivity|]. cbn [entries]. fold fresh_entry. rewrite E. intros name e I. apply in_app_iff in I. destruct I as [I|[I|[]]].
  - destruct (B _ _ I) as [Y1 Y2]. split; [intros z Z; specialize (Y1 z Z); lia|exact Y2].
  - injection I as <- <-. split; [|intros _; exists (n + 1); reflexivity]. intros z Z. apply (f_equal parse_Z) in Z. rewrite !parse_Z_print in Z. injection Z as <-. lia.
Qed.
Lemma again (f : option (folder T)) z g l : proper (taken f) -> (forall name e, In (name, e) (entries (taken f)) -> ~ outdated sh ch e) ->
  get_or_reserve_target teqb true (Ret sh) ch t f = Ret (z, g) -> Permutation l (entries (taken g)) ->
  exists z', get_or_reserve_target teqb true (Ret sh) ch t (Some {| counter := counter (taken g); entries := l |}) = Ret (z', Some {| counter := counter (taken g); entries := l |}) /\
    ((forall name e, In (name, e) (entries (taken f)) -> ~ matching e) -> z' = z).
Proof using EQ.
  intros Pf O G Pl.
  assert (H : proper (taken g) /\ (forall name e, In (name, e) (entries (taken g)) -> ~ outdated sh ch e) /\ (exists name e, In (name, e) (entries (taken g)) /\ matching e) /\
     ((forall name e, In (name, e) (entries (taken f)) -> ~ matching e) -> forall name e, In (name, e) (entries (taken g)) -> matching e -> int_of name = Ret z)).
  { assert (Rs : reserve_target t f = Ret (z, taken g) -> proper (taken g) /\ (forall name e, In (name, e) (entries (taken g)) -> ~ outdated sh ch e) /\ (exists name e, In (name, e) (entries (taken g)) /\ matching e) /\ ((forall name e, In (name, e) (entries (taken f)) -> ~ matching e) -> forall name e, In (name, e) (entries (taken g)) -> matching e -> int_of name = Ret z)).
    { intros Rv. destruct (reserve_ok f Pf) as (z' & g' & R1 & R2 & R3 & R4 & R5). rewrite Rv in R1. assert (z' = z /\ g' = taken g) as [-> ->] by (split; congruence). split; [exact R2|]. rewrite R5. split; [|split].
      - intros name e I. apply in_app_iff in I. destruct I as [I|[I|[]]]; [exact (O _ _ I)|]. injection I as <- <-. intros (_ & m & M & _). discriminate M.
      - exists (print_Z z), fresh_entry. split; [apply in_app_iff; right; left; reflexivity|]. split; reflexivity.
      - intros Nm name e I M. apply in_app_iff in I. destruct I as [I|[I|[]]]; [exfalso; exact (Nm _ _ I M)|]. injection I as <- <-. apply int_print. }
    unfold get_or_reserve_target, get_target in G. cbn [negb] in G. destruct f as [f|].
    - destruct (look (entries f)) as [[k|]|x] eqn:L; [|destruct (reserve_target t (Some f)) as [[k k']|x]; [|discriminate G]; injection G as <- <-; apply Rs; reflexivity|discriminate G]. injection G as <- <-. cbn [taken] in *. destruct (look_some _ _ L) as (name & e & I & M & _). split; [exact Pf|]. split; [exact O|]. split; [exists name, e; auto|]. intros Nm. exfalso. exact (Nm _ _ I M).
    - destruct (reserve_target t None) as [[k k']|x]; [|discriminate G]; injection G as <- <-; apply Rs; reflexivity. }
  destruct H as (Pg & Og & (name & e & I & M) & U). unfold get_or_reserve_target, get_target. cbn [negb entries].
  assert (In_l : forall n x, In (n, x) l -> In (n, x) (entries (taken g))) by (intros n x X; exact (Permutation_in _ Pl X)).
  destruct (look_total l) as [[k K]|[K1 K2]].
  - intros n x X Y. destruct Pg as (_ & b & _ & _ & B). destruct (B n x (In_l n x X)) as [_ B2]. destruct B2 as [k ->]; [|exists k; apply int_print]. destruct Y as [_ Y]. destruct (e_metadata x); [left; discriminate|right; congruence].
  - intros n x X. exact (Og n x (In_l n x X)).
  - rewrite K. exists k. split; [reflexivity|]. intros Nm. destruct (look_some _ _ K) as (n & x & X & Y & Z). specialize (U Nm n x (In_l n x X) Y). congruence.
  - exfalso. apply (K2 name e); [|exact M]. exact (Permutation_in _ (Permutation_sym Pl) I).
Qed.
End One.
