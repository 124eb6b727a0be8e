(** json with sorted keys: what is read back, and that the order does not matter. *)
From Verif Require Import Base Graph Json JsonProofs Html HtmlSpec HtmlProofs Glue.
From Coq Require Import String ZArith NArith Bool List Lia Permutation Sorted.
Import ListNotations.
Open Scope list_scope.

Lemma dget_insert k x l : dget k (insert_pair x l) = if str_eqb k (fst x) then Some (snd x) else dget k l.
Proof.
  destruct x as [a v]. cbn [fst snd]. induction l as [|[b w] l IH]; cbn [insert_pair dget fst]; [reflexivity|].
  destruct (str_leb a b) eqn:L; [reflexivity|]. cbn [dget]. destruct (str_eqb k b) eqn:E; [|exact IH].
  apply str_eqb_eq in E. subst b. destruct (str_eqb k a) eqn:F; [|reflexivity]. apply str_eqb_eq in F. subst a.
  assert (X : str_leb k k = true) by (apply leb_before; auto). congruence.
Qed.
Lemma dget_sort k l : dget k (sort_pairs l) = dget k l.
Proof. induction l as [|[a v] l IH]; [reflexivity|]. cbn [sort_pairs fold_right]. rewrite dget_insert. fold (sort_pairs l). rewrite IH. reflexivity. Qed.
Lemma insert_perm x l : Permutation (insert_pair x l) (x :: l).
Proof. induction l as [|y l IH]; [reflexivity|]. cbn [insert_pair]. destruct (str_leb _ _); [reflexivity|]. rewrite IH. apply perm_swap. Qed.
Lemma sort_perm l : Permutation (sort_pairs l) l.
Proof. induction l as [|x l IH]; [reflexivity|]. cbn [sort_pairs fold_right]. rewrite insert_perm. fold (sort_pairs l). rewrite IH. reflexivity. Qed.
Lemma insert_sorted x l : ~ In (fst x) (map fst l) -> StronglySorted before (map fst l) -> StronglySorted before (map fst (insert_pair x l)).
Proof.
  induction l as [|y l IH]; intros N S; cbn [insert_pair]; [constructor; constructor|]. cbn [map] in N, S. inversion S as [|a b S1 S2]; subst. destruct (str_leb (fst x) (fst y)) eqn:E.
  - cbn [map]. apply leb_before in E. destruct E as [E|E]; [exfalso; apply N; left; congruence|]. constructor; [exact S|]. constructor; [exact E|]. eapply Forall_impl; [|exact S2]. intros c C. exact (before_trans _ _ _ E C).
  - cbn [map]. apply before_total in E. constructor; [apply IH; [intros X; apply N; right; exact X|exact S1]|]. apply Forall_forall. intros c C. apply in_map_iff in C. destruct C as (z & <- & C). apply (Permutation_in _ (insert_perm x l)) in C. destruct C as [<-|C]; [exact E|]. rewrite Forall_forall in S2. apply S2. apply in_map. exact C.
Qed.
Lemma sort_sorted l : NoDup (map fst l) -> StronglySorted before (map fst (sort_pairs l)).
Proof.
  induction l as [|x l IH]; intros N; [constructor|]. cbn [map] in N. inversion N as [|a b N1 N2]; subst. cbn [sort_pairs fold_right]. fold (sort_pairs l). apply insert_sorted; [|exact (IH N2)]. intros X. apply N1. apply in_map_iff in X. destruct X as (z & E & X). rewrite <- E. apply in_map. apply (Permutation_in _ (sort_perm l)). exact X.
Qed.
Lemma before_not a b : before a b -> ~ before b a.
Proof. intros H X. exact (before_irrefl _ (before_trans _ _ _ H X)). Qed.
Lemma sorted_perm (l l' : list (str * json)) : StronglySorted before (map fst l) -> StronglySorted before (map fst l') -> Permutation l l' -> l = l'.
Proof.
  revert l'. induction l as [|x l IH]; intros l' S S' P; [apply Permutation_nil in P; congruence|]. destruct l' as [|x' l']; [apply Permutation_sym, Permutation_nil in P; congruence|].
  cbn [map] in S, S'. inversion S as [|a b S1 S2]; subst. inversion S' as [|a b S1' S2']; subst. assert (E : x = x').
  { pose proof (Permutation_in x P (or_introl eq_refl)) as I. pose proof (Permutation_in x' (Permutation_sym P) (or_introl eq_refl)) as I'. destruct I as [I|I]; [congruence|]. destruct I' as [I'|I']; [congruence|]. rewrite Forall_forall in S2, S2'. exfalso. apply (before_not (fst x) (fst x')); [apply S2, in_map, I'|apply S2', in_map, I]. }
  subst x'. f_equal. apply IH; try assumption. apply Permutation_cons_inv in P. exact P.
Qed.
Lemma sort_unique l l' : NoDup (map fst l) -> Permutation l l' -> sort_pairs l = sort_pairs l'.
Proof.
  intros N P. apply sorted_perm; [apply sort_sorted; exact N|apply sort_sorted; apply (Permutation_NoDup (Permutation_map fst P)); exact N|]. rewrite !sort_perm. exact P.
Qed.

(** * What can be written *)
Lemma ok_list l : json_ok (JList l) <-> Forall json_ok l.
Proof. cbn [json_ok]. induction l as [|x l IH]; [split; constructor|]. rewrite Forall_cons_iff, <- IH. reflexivity. Qed.
Lemma ok_obj l : json_ok (JObj l) <-> Forall (fun x => json_safe (fst x) /\ json_ok (snd x)) l.
Proof. cbn [json_ok]. induction l as [|[k x] l IH]; [split; constructor|]. rewrite Forall_cons_iff, <- IH. cbn [fst snd]. intuition. Qed.
Fixpoint depth (v : json) : nat :=
  match v with
  | JList l => S (fold_right (fun x n => max (depth x) n) O l)
  | JObj l => S (fold_right (fun x n => max (depth (snd x)) n) O l)
  | _ => O
  end.
Lemma depth_list l v : In v l -> (depth v < depth (JList l))%nat.
Proof. cbn [depth]. induction l as [|x l IH]; [intros []|]. cbn [fold_right]. intros [<-|I]; [lia|]. specialize (IH I). lia. Qed.
Lemma depth_obj l k v : In (k, v) l -> (depth v < depth (JObj l))%nat.
Proof. cbn [depth]. induction l as [|x l IH]; [intros []|]. cbn [fold_right]. intros [->|I]; [cbn [snd]; lia|]. specialize (IH I). lia. Qed.
Lemma sort_ok v : json_ok v -> json_ok (sort_keys v).
Proof.
  remember (depth v) as n eqn:E. assert (L : (depth v <= n)%nat) by lia. clear E. revert v L. induction n as [|n IH]; intros v L K.
  - destruct v; try exact K; cbn [depth] in L; lia.
  - destruct v as [|b|raw|s|l|l]; try exact K; cbn [sort_keys].
    + apply ok_list. apply ok_list in K. rewrite Forall_forall in K. apply Forall_forall. intros x X. apply in_map_iff in X. destruct X as (y & <- & Y). apply IH; [|exact (K y Y)]. pose proof (depth_list l y Y). lia.
    + apply ok_obj. apply ok_obj in K. rewrite Forall_forall in K. apply Forall_forall. intros x X. apply (Permutation_in _ (sort_perm _)) in X. apply in_map_iff in X. destruct X as ([k y] & <- & Y). cbn [fst snd]. destruct (K _ Y) as [K1 K2]. split; [exact K1|]. apply IH; [|exact K2]. pose proof (depth_obj l k y Y). lia.
Qed.
Lemma dump_load v w : json_ok v -> all_ws w -> json_load (dump (sort_keys v) ++ w) = Some (sort_keys v).
Proof. intros K W. apply json_load_Prints; [apply dump_Prints, sort_ok, K|exact W]. Qed.
Lemma dget_sorted k l : dget k (sort_pairs (map (fun kv => (fst kv, sort_keys (snd kv))) l)) = option_map sort_keys (dget k l).
Proof. rewrite dget_sort. induction l as [|[a v] l IH]; [reflexivity|]. cbn [map fst snd dget]. destruct (str_eqb k a); [reflexivity|exact IH]. Qed.
