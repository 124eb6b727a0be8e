(** Properties C01 - C07: the dependency graph. *)
From Verif Require Import Base Graph GraphSpec Json JsonProofs GraphJson GraphMain.
From Coq Require Import List NArith ZArith Bool Relations String.
Import ListNotations.

(** A history used as concrete case below: three files, a failing call, a
    repeated child, a cycle made without cycle prevention. *)
Definition ex_history : list op :=
  [OpAdd (lit "a") 1 2 3 []; OpAdd (lit "b") 4 5 6 [lit "a"; lit "a"]; OpAdd (lit "a") 7 7 7 [];
   OpAdd (lit "c") 7 8 9 [lit "b"]; OpSet (lit "a") [lit "c"] true; OpSet (lit "a") [lit "c"] false].

(** C01 *)
Theorem C01_graph_symmetric_and_closed : forall os, well_formed (history os).
Proof. exact history_well_formed. Qed.
Print Assumptions C01_graph_symmetric_and_closed.
Example C01_case : map is_ok (fst (run_ops ex_history empty_graph)) = [true; true; false; true; false; true]
  /\ get_parents (history ex_history) (lit "a") = Ret [lit "b"; lit "b"].
Proof. vm_compute. auto. Qed.

(** C02 *)
Theorem C02_failed_operation_leaves_graph : forall os o,
  raises o (history os) -> snd (run_op o (history os)) = history os.
Proof. exact history_fail_unchanged. Qed.
Print Assumptions C02_failed_operation_leaves_graph.
Theorem C02_only_value_errors : forall os o e, fst (run_op o (history os)) = Some e -> e = ValueError.
Proof. exact history_fail_value_error. Qed.
Print Assumptions C02_only_value_errors.
Theorem C02_add_raises_iff : forall os a size mtime inode cs,
  raises (OpAdd a size mtime inode cs) (history os) <->
  (contains (history os) a = true \/ exists c, In c cs /\ contains (history os) c = false).
Proof. exact add_raises_iff. Qed.
Print Assumptions C02_add_raises_iff.
Theorem C02_remove_raises_iff : forall os a clear_parents clear_children,
  raises (OpRemove a clear_parents clear_children) (history os) <->
  (contains (history os) a = false \/ (clear_parents = false /\ exists p, depends (history os) p a)
   \/ (clear_children = false /\ exists c, depends (history os) a c)).
Proof. exact remove_raises_iff. Qed.
Print Assumptions C02_remove_raises_iff.
Theorem C02_set_raises_iff : forall os a cs prevent,
  raises (OpSet a cs prevent) (history os) <->
  (contains (history os) a = false \/ (exists c, In c cs /\ contains (history os) c = false)
   \/ (prevent = true /\ clos_trans str (upd_depends (history os) a cs) a a)).
Proof. exact set_raises_iff. Qed.
Print Assumptions C02_set_raises_iff.
Example C02_case : raises (OpRemove (lit "a") false true) (history ex_history)
  /\ ~ raises (OpRemove (lit "a") true true) (history ex_history).
Proof. unfold raises. vm_compute. split; [discriminate|intros H; apply H; reflexivity]. Qed.

(** C03 *)
Theorem C03_acyclic : forall os, (forall o, In o os -> prevents_cycles o) -> acyclic (history os).
Proof. exact history_acyclic. Qed.
Print Assumptions C03_acyclic.
Theorem C03_set_rejects_iff_cycle : forall os a cs,
  contains (history os) a = true -> (forall c, In c cs -> contains (history os) c = true) ->
  (raises (OpSet a cs true) (history os) <-> clos_trans str (upd_depends (history os) a cs) a a).
Proof. exact set_rejects_iff. Qed.
Print Assumptions C03_set_rejects_iff_cycle.
Theorem C03_set_accepted_takes_effect : forall os a cs prevent,
  ~ raises (OpSet a cs prevent) (history os) ->
  let g' := snd (run_op (OpSet a cs prevent) (history os)) in
  get_children g' a = Ret cs /\ forall x y, depends g' x y <-> upd_depends (history os) a cs x y.
Proof. exact set_accepts_children. Qed.
Print Assumptions C03_set_accepted_takes_effect.
Example C03_case : let os := firstn 5 ex_history in
  (forall o, In o os -> prevents_cycles o) /\ contains (history os) (lit "a") = true
  /\ contains (history os) (lit "c") = true /\ raises (OpSet (lit "a") [lit "c"] true) (history os).
Proof.
  cbv zeta. split; [|vm_compute; intuition discriminate].
  intros o Ho. vm_compute in Ho. intuition (subst; exact I || reflexivity).
Qed.

(** C04 *)
Theorem C04_nested_relationship : forall g a b, well_formed g ->
  ((a = b \/ contains g a = false \/ contains g b = false) -> check_nested_relationship g a b = Raise ValueError) /\
  (a <> b -> contains g a = true -> contains g b = true ->
     exists r, check_nested_relationship g a b = Ret r /\ answer_ok (depends_plus g) a b r).
Proof. exact nested_correct. Qed.
Print Assumptions C04_nested_relationship.
Example C04_case : well_formed (history ex_history)
  /\ check_nested_relationship (history ex_history) (lit "a") (lit "b") = Ret RCyclic
  /\ check_nested_relationship (history (firstn 5 ex_history)) (lit "a") (lit "c") = Ret RChild.
Proof. split; [apply history_well_formed|vm_compute; auto]. Qed.

(** C05 *)
Theorem C05_direct_relationship : forall g a b, well_formed g ->
  ((a = b \/ contains g a = false \/ contains g b = false) -> check_direct_relationship g a b = Raise ValueError) /\
  (a <> b -> contains g a = true -> contains g b = true ->
     exists r, check_direct_relationship g a b = Ret r /\ answer_ok (depends g) a b r).
Proof. exact direct_correct. Qed.
Print Assumptions C05_direct_relationship.
Theorem C05_history_refines_edge_lists : forall os, exists s,
  spec_run os [] (map is_ok (fst (run_ops os empty_graph))) s /\ describes s (history os) /\
  (forall a p, count p (api_parents (history os) a) = count a (a_children s p)).
Proof. exact history_refines. Qed.
Print Assumptions C05_history_refines_edge_lists.
Theorem C05_specification_is_deterministic : forall os s b1 s1 b2 s2,
  spec_run os s b1 s1 -> spec_run os s b2 s2 -> b1 = b2 /\ s1 = s2.
Proof. exact spec_run_det. Qed.
Print Assumptions C05_specification_is_deterministic.
Example C05_case : get_children (history ex_history) (lit "b") = Ret [lit "a"; lit "a"]
  /\ check_direct_relationship (history ex_history) (lit "b") (lit "c") = Ret RChild.
Proof. vm_compute. auto. Qed.

(** C06.  [float_repr]/[float_parse] are python's float printing and reading.
    [json_safe]: only valid code points and no high surrogate directly before a
    low surrogate. *)
Theorem C06_load_store : forall (float_repr : Z -> str) (float_parse : str -> option Z) g,
  (forall x, is_num (float_repr x)) -> (forall x, float_parse (float_repr x) = Some x) ->
  well_formed g -> (forall a, contains g a = true -> json_safe a) ->
  exists h, load float_parse (store float_repr g) = Some h /\ well_formed h /\ same_graph h g /\ graph_eq h g = Some true.
Proof. exact load_store_same. Qed.
Print Assumptions C06_load_store.
(** the hypotheses can be met: integers printed in decimal, a path with
    quotes, a newline and an astral character *)
Example C06_case : (forall x, is_num (print_Z x)) /\ (forall x, parse_Z (print_Z x) = Some x) /\
  json_safe (lit "a""\" ++ [10; 128512; 57343]%N) /\
  load parse_Z (store print_Z (history ex_history)) <> None.
Proof.
  split; [exact is_num_print_Z|]. split; [exact parse_Z_print|]. split; [vm_compute; intuition discriminate|vm_compute; discriminate].
Qed.
(** without the surrogate condition the claim is false *)
Theorem C06_surrogate_pair_refuted : exists a,
  let g := history [OpAdd a 1 2 3 []] in
  exists h, load parse_Z (store print_Z g) = Some h /\ graph_eq h g = Some false.
Proof.
  exists [55357; 56832]%N. cbv zeta. eexists. split; [vm_compute; reflexivity|vm_compute; reflexivity].
Qed.
Print Assumptions C06_surrogate_pair_refuted.

(** C07 *)
Theorem C07_equality_is_structural : forall g h, well_formed g -> well_formed h ->
  exists r, graph_eq g h = Some r /\ (r = true <-> same_graph g h).
Proof. exact eq_correct. Qed.
Print Assumptions C07_equality_is_structural.
Example C07_case : well_formed (history ex_history) /\ graph_eq (history ex_history) (history ex_history) = Some true
  /\ graph_eq (history ex_history) (history (firstn 5 ex_history)) = Some false.
Proof. split; [apply history_well_formed|vm_compute; auto]. Qed.
