(** Basic vocabulary shared by all model files: python strings, dictionaries
    and exceptions.  Nothing here models a particular function of /repo; these
    are the python built-ins the modelled code uses. *)
From Coq Require Import List NArith ZArith Bool Lia Ascii String Arith.
Import ListNotations.

(** A python [str]: the list of its code points. *)
Definition str := list N.

(** String literals. *)
Definition lit (x : string) : str := map N_of_ascii (list_ascii_of_string x).
Arguments lit _ : simpl never.

Definition str_eq_dec : forall a b : str, {a = b} + {a <> b} := list_eq_dec N.eq_dec.

(** python [a == b] on strings *)
Definition str_eqb (a b : str) : bool := if str_eq_dec a b then true else false.

Lemma str_eqb_eq a b : str_eqb a b = true <-> a = b.
Proof. unfold str_eqb. destruct (str_eq_dec a b); split; congruence. Qed.
Lemma str_eqb_neq a b : str_eqb a b = false <-> a <> b.
Proof. unfold str_eqb. destruct (str_eq_dec a b); split; congruence. Qed.
Lemma str_eqb_refl a : str_eqb a a = true.
Proof. apply str_eqb_eq; reflexivity. Qed.
Lemma str_eqb_sym a b : str_eqb a b = str_eqb b a.
Proof. unfold str_eqb. destruct (str_eq_dec a b), (str_eq_dec b a); congruence. Qed.

(** python [x in l] for a list of strings *)
Definition mem (x : str) (l : list str) : bool := existsb (str_eqb x) l.

Lemma mem_In x l : mem x l = true <-> In x l.
Proof.
  unfold mem. rewrite existsb_exists. split.
  - intros (y & Hy & E). apply str_eqb_eq in E. subst. exact Hy.
  - intros H. exists x. split; [exact H | apply str_eqb_refl].
Qed.
Lemma mem_false x l : mem x l = false <-> ~ In x l.
Proof. rewrite <- mem_In. destruct (mem x l); split; congruence. Qed.

(** the number of occurrences of a string in a list *)
Fixpoint count (x : str) (l : list str) : nat :=
  match l with
  | [] => 0
  | y :: r => (if str_eqb x y then 1 else 0) + count x r
  end.

Lemma count_In x l : In x l <-> count x l > 0.
Proof.
  induction l as [|y r IH]; simpl; [split; [tauto|lia]|].
  destruct (str_eqb x y) eqn:E.
  - apply str_eqb_eq in E. subst. split; [lia|auto].
  - apply str_eqb_neq in E. rewrite <- IH. simpl. split; [intros [->|H]; [congruence|assumption] | auto].
Qed.
Lemma count_not_In x l : ~ In x l <-> count x l = 0.
Proof. rewrite count_In. lia. Qed.
Lemma count_app x l1 l2 : count x (l1 ++ l2) = count x l1 + count x l2.
Proof. induction l1; simpl; lia. Qed.

(** python exceptions that the modelled code can raise *)
Inductive exn : Type :=
| ValueError | KeyError | TypeError | IndexError | AssertionError | FileNotFoundError
| RuntimeError | StopIteration | ZeroDivisionError | FileExistsError
| CyclicDependencyException | OverflowError | UnicodeError | AttributeError | MissingConfigurationException
| OutOfFuel (* not a python exception: the loop bound of the model was exceeded *).

(** * Dictionaries: insertion-ordered association lists *)
Section Dict.
Context {V : Type}.
Definition dict := list (str * V).

(** [d.get(k)] *)
Fixpoint dget (k : str) (d : dict) : option V :=
  match d with
  | [] => None
  | (k', v) :: r => if str_eqb k k' then Some v else dget k r
  end.

(** [d[k] = v]: update in place, or append *)
Fixpoint dset (k : str) (v : V) (d : dict) : dict :=
  match d with
  | [] => [(k, v)]
  | (k', v') :: r => if str_eqb k k' then (k', v) :: r else (k', v') :: dset k v r
  end.

(** [del d[k]] *)
Fixpoint ddel (k : str) (d : dict) : dict :=
  match d with
  | [] => []
  | (k', v') :: r => if str_eqb k k' then r else (k', v') :: ddel k r
  end.

(** [k in d] *)
Definition dmem (k : str) (d : dict) : bool :=
  match dget k d with Some _ => true | None => false end.

Definition dkeys (d : dict) : list str := map fst d.

(** A python dictionary has no repeated keys. *)
Definition dict_wf (d : dict) : Prop := NoDup (dkeys d).

Lemma dget_dset_same k v d : dget k (dset k v d) = Some v.
Proof.
  induction d as [|[k' v'] r IH]; simpl; [rewrite str_eqb_refl; reflexivity|].
  destruct (str_eqb k k') eqn:E; simpl; rewrite E; auto.
Qed.
Lemma dget_dset_other k k' v d : k <> k' -> dget k' (dset k v d) = dget k' d.
Proof.
  intros Hne. induction d as [|[k2 v2] r IH]; simpl.
  - destruct (str_eqb k' k) eqn:E; [apply str_eqb_eq in E; congruence|reflexivity].
  - destruct (str_eqb k k2) eqn:E; simpl.
    + apply str_eqb_eq in E. subst. destruct (str_eqb k' k2) eqn:E2; [apply str_eqb_eq in E2; congruence|reflexivity].
    + destruct (str_eqb k' k2); auto.
Qed.
Lemma dget_dset k k' v d : dget k' (dset k v d) = if str_eqb k' k then Some v else dget k' d.
Proof.
  destruct (str_eqb k' k) eqn:E.
  - apply str_eqb_eq in E. subst. apply dget_dset_same.
  - apply str_eqb_neq in E. apply dget_dset_other. congruence.
Qed.

Lemma dget_In k v d : dget k d = Some v -> In (k, v) d.
Proof.
  induction d as [|[k' v'] r IH]; simpl; [discriminate|].
  destruct (str_eqb k k') eqn:E; intros H; [apply str_eqb_eq in E; injection H as ->; subst; auto|auto].
Qed.
Lemma dget_None k d : dget k d = None <-> ~ In k (dkeys d).
Proof.
  induction d as [|[k' v'] r IH]; simpl; [tauto|].
  destruct (str_eqb k k') eqn:E.
  - apply str_eqb_eq in E. subst. split; [discriminate|intros H; exfalso; auto].
  - apply str_eqb_neq in E. rewrite IH. split; [intros H [->|H']; auto|auto].
Qed.
Lemma dget_Some_key k v d : dget k d = Some v -> In k (dkeys d).
Proof.
  intros H. destruct (in_dec str_eq_dec k (dkeys d)) as [|n]; [assumption|].
  apply dget_None in n. congruence.
Qed.
Lemma dmem_In k d : dmem k d = true <-> In k (dkeys d).
Proof.
  unfold dmem. destruct (dget k d) eqn:E.
  - split; [intros _; eapply dget_Some_key; eauto|reflexivity].
  - apply dget_None in E. split; [discriminate|tauto].
Qed.
Lemma dmem_false k d : dmem k d = false <-> ~ In k (dkeys d).
Proof. rewrite <- dmem_In. destruct (dmem k d); split; congruence. Qed.
Lemma In_dkeys_dget k d : In k (dkeys d) -> exists v, dget k d = Some v.
Proof.
  intros H. destruct (dget k d) eqn:E; [eauto|]. apply dget_None in E. contradiction.
Qed.
Lemma In_dget k v d : dict_wf d -> In (k, v) d -> dget k d = Some v.
Proof.
  unfold dict_wf. induction d as [|[k' v'] r IH]; simpl; [tauto|].
  intros Hnd [E|Hin].
  - injection E as -> ->. rewrite str_eqb_refl. reflexivity.
  - inversion Hnd as [|? ? Hni Hnd']; subst.
    destruct (str_eqb k k') eqn:E; [|auto].
    apply str_eqb_eq in E. subst. exfalso. apply Hni.
    change k' with (fst (k', v)). apply in_map. exact Hin.
Qed.

Lemma dkeys_dset_in k v d : In k (dkeys d) -> dkeys (dset k v d) = dkeys d.
Proof.
  induction d as [|[k' v'] r IH]; simpl; [tauto|]. intros H.
  destruct (str_eqb k k') eqn:E; simpl; [reflexivity|].
  apply str_eqb_neq in E. f_equal. apply IH. destruct H; [congruence|assumption].
Qed.
Lemma dkeys_dset_new k v d : ~ In k (dkeys d) -> dkeys (dset k v d) = dkeys d ++ [k].
Proof.
  induction d as [|[k' v'] r IH]; simpl; [reflexivity|]. intros H.
  destruct (str_eqb k k') eqn:E; simpl; [apply str_eqb_eq in E; subst; exfalso; auto|].
  f_equal. apply IH. auto.
Qed.
Lemma In_dkeys_dset k k' v d : In k' (dkeys (dset k v d)) <-> k' = k \/ In k' (dkeys d).
Proof.
  destruct (in_dec str_eq_dec k (dkeys d)) as [i|n].
  - rewrite dkeys_dset_in by assumption. split; [auto|intros [->|]; auto].
  - rewrite dkeys_dset_new by assumption. rewrite in_app_iff. simpl. intuition congruence.
Qed.
Lemma NoDup_snoc {A} (l : list A) x : NoDup l -> ~ In x l -> NoDup (l ++ [x]).
Proof.
  induction l as [|y r IH]; simpl; intros Hn Hi; [constructor; auto using NoDup_nil|].
  inversion Hn; subst. constructor.
  - rewrite in_app_iff. simpl. intros [H|[H|[]]]; [auto|subst; auto].
  - apply IH; auto.
Qed.
Lemma dict_wf_dset k v d : dict_wf d -> dict_wf (dset k v d).
Proof.
  unfold dict_wf. intros H. destruct (in_dec str_eq_dec k (dkeys d)) as [i|n].
  - rewrite dkeys_dset_in by assumption. assumption.
  - rewrite dkeys_dset_new by assumption. apply NoDup_snoc; assumption.
Qed.
Lemma In_dkeys_ddel k k' d : In k' (dkeys (ddel k d)) -> In k' (dkeys d).
Proof.
  induction d as [|[k2 v2] r IH]; simpl; [tauto|].
  destruct (str_eqb k k2); simpl; intuition.
Qed.
Lemma dict_wf_ddel k d : dict_wf d -> dict_wf (ddel k d).
Proof.
  unfold dict_wf. induction d as [|[k2 v2] r IH]; simpl; [auto|].
  intros H. inversion H; subst. destruct (str_eqb k k2); simpl; [assumption|].
  constructor; [|auto]. intros Hin. apply In_dkeys_ddel in Hin. contradiction.
Qed.
Lemma dget_ddel k k' d : dict_wf d -> dget k' (ddel k d) = if str_eqb k' k then None else dget k' d.
Proof.
  unfold dict_wf. induction d as [|[k2 v2] r IH]; simpl; intros Hnd.
  - destruct (str_eqb k' k); reflexivity.
  - inversion Hnd as [|? ? Hni Hnd']; subst.
    destruct (str_eqb k k2) eqn:E.
    + apply str_eqb_eq in E. subst k2. destruct (str_eqb k' k) eqn:E2; [|reflexivity].
      apply str_eqb_eq in E2. subst k'. apply dget_None. exact Hni.
    + simpl. rewrite IH by assumption. destruct (str_eqb k' k2) eqn:E2; [|reflexivity].
      apply str_eqb_eq in E2. subst k2. rewrite str_eqb_sym in E. rewrite E. reflexivity.
Qed.
Lemma length_dkeys d : List.length (dkeys d) = List.length d.
Proof. apply map_length. Qed.
End Dict.
Arguments dict V : clear implicits.

(** * List helpers for python list methods *)

(** [l.remove(x)] on a list of paths: drop the first occurrence, [None] for
    the ValueError python raises if there is none. *)
Fixpoint lremove (x : str) (l : list str) : option (list str) :=
  match l with
  | [] => None
  | y :: r => if str_eqb x y then Some r
              else match lremove x r with Some r' => Some (y :: r') | None => None end
  end.

Lemma lremove_Some x l : In x l -> exists l', lremove x l = Some l'.
Proof.
  induction l as [|y r IH]; simpl; [tauto|]. intros H.
  destruct (str_eqb x y) eqn:E; [eauto|]. apply str_eqb_neq in E.
  destruct H as [->|H]; [congruence|]. destruct (IH H) as (l' & ->). eauto.
Qed.
Lemma lremove_count x y l l' : lremove x l = Some l' ->
  count y l = count y l' + (if str_eqb y x then 1 else 0).
Proof.
  revert l'. induction l as [|z r IH]; simpl; intros l' H; [discriminate|].
  destruct (str_eqb x z) eqn:E.
  - injection H as <-. apply str_eqb_eq in E. subst. lia.
  - destruct (lremove x r) as [r'|]; [|discriminate]. injection H as <-. simpl.
    rewrite (IH r' eq_refl). lia.
Qed.
(** removing all copies, which is what repeated [lremove] amounts to *)
Definition remove_all (x : str) (l : list str) : list str := filter (fun y => negb (str_eqb x y)) l.

Lemma remove_all_In x y l : In y (remove_all x l) <-> In y l /\ y <> x.
Proof.
  unfold remove_all. rewrite filter_In, negb_true_iff, str_eqb_neq. intuition congruence.
Qed.
Lemma count_remove_all x y l : count y (remove_all x l) = if str_eqb y x then 0 else count y l.
Proof.
  induction l as [|z r IH]; simpl; [destruct (str_eqb y x); reflexivity|].
  destruct (str_eqb x z) eqn:E; simpl; rewrite IH.
  - apply str_eqb_eq in E. subst. destruct (str_eqb y z); reflexivity.
  - destruct (str_eqb y x) eqn:E2; [|reflexivity]. apply str_eqb_eq in E2. subst.
    rewrite E. reflexivity.
Qed.
Lemma remove_all_none x l : ~ In x l -> remove_all x l = l.
Proof.
  induction l as [|y r IH]; simpl; intros H; [reflexivity|].
  destruct (str_eqb x y) eqn:E; [apply str_eqb_eq in E; subst; exfalso; auto|].
  simpl. f_equal. apply IH. auto.
Qed.
Lemma lremove_remove_all x l l' : lremove x l = Some l' -> remove_all x l' = remove_all x l.
Proof.
  revert l'. induction l as [|z r IH]; simpl; intros l' H; [discriminate|].
  destruct (str_eqb x z) eqn:E.
  - injection H as <-. reflexivity.
  - destruct (lremove x r) as [r'|]; [|discriminate]. injection H as <-. simpl. rewrite E. simpl.
    f_equal. apply IH. reflexivity.
Qed.

(** [s.startswith(p)] *)
Fixpoint starts_with (p s : str) : bool :=
  match p, s with
  | [], _ => true
  | a :: p', b :: s' => N.eqb a b && starts_with p' s'
  | _ :: _, [] => false
  end.
Lemma starts_with_iff p s : starts_with p s = true <-> exists r, s = p ++ r.
Proof.
  revert s. induction p as [|a p IH]; intros s; simpl.
  - split; [intros _; exists s; reflexivity|reflexivity].
  - destruct s as [|b s]; [split; [discriminate|intros (r & H); discriminate]|].
    rewrite andb_true_iff, N.eqb_eq, IH. split.
    + intros (-> & r & ->). exists r. reflexivity.
    + intros (r & H). injection H as -> ->. split; [reflexivity|]. exists r. reflexivity.
Qed.

(** [s.endswith(p)] *)
Definition ends_with (p s : str) : bool := starts_with (rev p) (rev s).
Lemma ends_with_iff p s : ends_with p s = true <-> exists r, s = r ++ p.
Proof.
  unfold ends_with. rewrite starts_with_iff. split.
  - intros (r & H). exists (rev r). rewrite <- (rev_involutive s), H, rev_app_distr, rev_involutive. reflexivity.
  - intros (r & ->). exists (rev r). apply rev_app_distr.
Qed.
