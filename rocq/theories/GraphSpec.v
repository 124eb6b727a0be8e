(** Specification vocabulary for the graph properties.  It uses only the read
    API of the graph ([get_children], [get_parents], membership) and
    independent mathematical notions. *)
From Verif Require Import Base Graph.
From Coq Require Import List ZArith Bool Relations.
Import ListNotations.

(** the children/parents the API reports ([] for unknown files) *)
Definition api_children (g : graph) (a : str) : list str :=
  match get_children g a with Ret l => l | Raise _ => [] end.
Definition api_parents (g : graph) (a : str) : list str :=
  match get_parents g a with Ret l => l | Raise _ => [] end.

(** [a] depends directly on [b] *)
Definition depends (g : graph) (a b : str) : Prop := In b (api_children g a).
(** [a] depends on [b] through one or more edges *)
Definition depends_plus (g : graph) : str -> str -> Prop := clos_trans str (depends g).
Definition acyclic (g : graph) : Prop := forall a, ~ depends_plus g a a.

(** keys unique, all references inside the graph, parent and child lists
    mirror each other with multiplicity *)
Definition well_formed (g : graph) : Prop :=
  dict_wf g /\
  (forall a b, In b (api_children g a) -> contains g b = true) /\
  (forall a b, In b (api_parents g a) -> contains g b = true) /\
  (forall a b, count b (api_children g a) = count a (api_parents g b)).

(** the metadata recorded for a file *)
Definition api_meta (g : graph) (a : str) : option (Z * Z * Z) :=
  match dget a g with Some n => Some (n_size n, n_mtime n, n_inode n) | None => None end.

(** * The abstract graph: for each file its metadata and its list of
    dependencies; parents are not stored at all. *)
Definition agraph := dict (Z * Z * Z * list str).
Definition a_children (s : agraph) (a : str) : list str :=
  match dget a s with Some (_, l) => l | None => [] end.
Definition a_depends (s : agraph) (a b : str) : Prop := In b (a_children s a).

(** what each operation means on the abstract graph: [spec_step o s ok s'] *)
Inductive spec_step : op -> agraph -> bool -> agraph -> Prop :=
| ss_add_ok a size mtime inode cs s :
    ~ In a (dkeys s) -> (forall c, In c cs -> In c (dkeys s)) ->
    spec_step (OpAdd a size mtime inode cs) s true (s ++ [(a, (size, mtime, inode, cs))])
| ss_add_fail a size mtime inode cs s :
    (In a (dkeys s) \/ exists c, In c cs /\ ~ In c (dkeys s)) ->
    spec_step (OpAdd a size mtime inode cs) s false s
| ss_remove_ok a cp cc s :
    In a (dkeys s) ->
    (cp = true \/ forall p, ~ a_depends s p a) ->
    (cc = true \/ a_children s a = []) ->
    spec_step (OpRemove a cp cc) s true
      (map (fun '(p, (m, l)) => (p, (m, remove_all a l))) (ddel a s))
| ss_remove_fail a cp cc s :
    (~ In a (dkeys s) \/ (cp = false /\ exists p, a_depends s p a)
     \/ (cc = false /\ a_children s a <> [])) ->
    spec_step (OpRemove a cp cc) s false s
| ss_set_ok a cs pc s :
    In a (dkeys s) -> (forall c, In c cs -> In c (dkeys s)) ->
    (pc = true -> forall c, In c cs -> c <> a /\ ~ clos_trans str (a_depends s) c a) ->
    spec_step (OpSet a cs pc) s true
      (map (fun '(p, (m, l)) => (p, (m, if str_eqb p a then cs else l))) s)
| ss_set_fail a cs pc s :
    (~ In a (dkeys s) \/ (exists c, In c cs /\ ~ In c (dkeys s))
     \/ (pc = true /\ exists c, In c cs /\ (c = a \/ clos_trans str (a_depends s) c a))) ->
    spec_step (OpSet a cs pc) s false s.

Inductive spec_run : list op -> agraph -> list bool -> agraph -> Prop :=
| sr_nil s : spec_run [] s [] s
| sr_cons o os s ok s1 oks s2 :
    spec_step o s ok s1 -> spec_run os s1 oks s2 -> spec_run (o :: os) s (ok :: oks) s2.

Definition is_ok (e : option exn) : bool := match e with None => true | Some _ => false end.

(** an abstract graph describes a concrete one *)
Definition describes (s : agraph) (g : graph) : Prop :=
  dkeys s = dkeys g /\
  (forall a m l, dget a s = Some (m, l) -> api_meta g a = Some m /\ api_children g a = l).

(** the dependency relation after the children of [a] were replaced by [cs] *)
Definition upd_depends (g : graph) (a : str) (cs : list str) (x y : str) : Prop :=
  if str_eqb x a then In y cs else depends g x y.

(** operations that ask for cycle prevention ([add_file] and [remove_file]
    have no such switch) *)
Definition prevents_cycles (o : op) : Prop := match o with OpSet _ _ pc => pc = true | _ => True end.

(** the graph after a history of calls, starting from the empty graph *)
Definition history (os : list op) : graph := snd (run_ops os empty_graph).

(** the call raises an exception *)
Definition raises (o : op) (g : graph) : Prop := fst (run_op o g) <> None.

(** what a relationship answer must mean for a relation [R] ("depends on") *)
Definition answer_ok (R : str -> str -> Prop) (a b : str) (r : relationship) : Prop :=
  match r with
  | RCyclic => R b a /\ R a b
  | RChild => R b a /\ ~ R a b
  | RParent => ~ R b a /\ R a b
  | RUnrelated => ~ R b a /\ ~ R a b
  end.

(** same files, and for each file the same metadata and ordered lists *)
Definition same_graph (g h : graph) : Prop :=
  forall a, contains g a = contains h a /\ api_meta g a = api_meta h a /\
            get_parents g a = get_parents h a /\ get_children g a = get_children h a.
