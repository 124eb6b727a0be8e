(** Model of /repo/vanillaplusjs/build/graph.py (in-memory part). *)
From Verif Require Import Base.
From Coq Require Import List ZArith Bool.
Import ListNotations.

(** graph.py:24-48 FileDependencyGraphNode.  Simplification: a node refers to
    its parents and children by path instead of by object reference.  The class
    keeps exactly one node object per path in [nodes], so a path identifies an
    object.  [mtime] is an opaque number (python float, compared with ==). *)
Record node := mkNode {
  n_size : Z; n_mtime : Z; n_inode : Z;
  n_parents : list str; n_children : list str
}.

(** graph.py:179-181 FileDependencyGraph.__init__: [nodes] dictionary. *)
Definition graph := dict node.
Definition empty_graph : graph := [].

(** The outcome of a call that mutates the graph: [None] = returned normally. *)
Definition result := (option exn * graph)%type.

(** Mutating the lists inside a node object. *)
Definition with_parents (f : list str -> list str) (n : node) : node :=
  mkNode (n_size n) (n_mtime n) (n_inode n) (f (n_parents n)) (n_children n).
Definition with_children (f : list str -> list str) (n : node) : node :=
  mkNode (n_size n) (n_mtime n) (n_inode n) (n_parents n) (f (n_children n)).

(** graph.py:287-296 __contains__ *)
Definition contains (g : graph) (a : str) : bool := dmem a g.

(** graph.py:298-318 check_file *)
Definition check_file (g : graph) (a : str) (size mtime inode : Z) : bool :=
  match dget a g with
  | None => false
  | Some n => (n_size n =? size)%Z && (n_mtime n =? mtime)%Z && (n_inode n =? inode)%Z
  end.

(** graph.py:8-21 FileRelationship *)
Inductive relationship := RParent | RChild | RCyclic | RUnrelated.
Definition is_cyclic_or_child (r : relationship) : bool :=
  match r with RCyclic | RChild => true | _ => false end.

Inductive res (A : Type) := Ret (a : A) | Raise (e : exn).
Arguments Ret {A} a. Arguments Raise {A} e.

(** graph.py:320-354 check_direct_relationship *)
Definition check_direct_relationship (g : graph) (a b : str) : res relationship :=
  if str_eqb a b then Raise ValueError else
  match dget a g with
  | None => Raise ValueError
  | Some an =>
      let b_is_parent_of_a := existsb (fun p => str_eqb p b) (n_parents an) in
      let b_is_child_of_a := existsb (fun p => str_eqb p b) (n_children an) in
      if b_is_parent_of_a && b_is_child_of_a then Ret RCyclic
      else if b_is_parent_of_a then Ret RChild
      else if b_is_child_of_a then Ret RParent
      else if negb (dmem b g) then Raise ValueError
      else Ret RUnrelated
  end.

(** graph.py:385-392, 400-409: the list of neighbours in the given direction. *)
Inductive direction := DirChild | DirParent.
Definition neighbours (g : graph) (d : direction) (p : str) : list str :=
  match dget p g with
  | None => []
  | Some n => match d with DirChild => n_children n | DirParent => n_parents n end
  end.

(** graph.py:400-409: the body of the while loop that extends queue and
    seen_paths with the not yet seen neighbours. *)
Fixpoint push_unseen (ns : list str) (queue seen : list str) : list str * list str :=
  match ns with
  | [] => (queue, seen)
  | c :: r => if mem c seen then push_unseen r queue seen
              else push_unseen r (queue ++ [c]) (c :: seen)
  end.

(** graph.py:394-411: [while queue: ...].  [None] = loop bound exceeded. *)
Fixpoint bfs (fuel : nat) (g : graph) (d : direction) (b : str) (queue seen : list str)
  : option bool :=
  match fuel with
  | O => None
  | S fuel' =>
      match queue with
      | [] => Some false
      | item :: rest =>
          if str_eqb item b then Some true
          else let '(queue', seen') := push_unseen (neighbours g d item) rest seen in
               bfs fuel' g d b queue' seen'
      end
  end.

(** graph.py:379-411 check_tree: all direct neighbours are queued (also
    repeated ones) before the loop. *)
Definition check_tree (g : graph) (d : direction) (a b : str) : option bool :=
  let ns := neighbours g d a in
  bfs (S (length ns + length g)) g d b ns ns.

(** graph.py:356-422 check_nested_relationship *)
Definition check_nested_relationship (g : graph) (a b : str) : res relationship :=
  if str_eqb a b then Raise ValueError
  else if negb (dmem a g) then Raise ValueError
  else if negb (dmem b g) then Raise ValueError
  else match check_tree g DirParent a b, check_tree g DirChild a b with
       | Some b_is_parent_of_a, Some b_is_child_of_a =>
           if b_is_parent_of_a && b_is_child_of_a then Ret RCyclic
           else if b_is_parent_of_a then Ret RChild
           else if b_is_child_of_a then Ret RParent
           else Ret RUnrelated
       | _, _ => Raise OutOfFuel
       end.

(** graph.py:424-440 get_parents *)
Definition get_parents (g : graph) (a : str) : res (list str) :=
  match dget a g with None => Raise ValueError | Some n => Ret (n_parents n) end.

(** graph.py:442-458 get_children *)
Definition get_children (g : graph) (a : str) : res (list str) :=
  match dget a g with None => Raise ValueError | Some n => Ret (n_children n) end.

(** graph.py:491-494 (loop of add_file): the new node object is not in the
    dictionary yet; [node] is threaded through. *)
Fixpoint add_loop (a : str) (cs : list str) (g : graph) (n : node) : option exn * graph * node :=
  match cs with
  | [] => (None, g, n)
  | c :: r =>
      match dget c g with
      | None => (Some KeyError, g, n)
      | Some cn =>
          add_loop a r (dset c (with_parents (fun l => l ++ [a]) cn) g)
                   (with_children (fun l => l ++ [c]) n)
      end
  end.

(** graph.py:460-496 add_file.  [children = None] and the empty list behave
    alike. *)
Definition add_file (a : str) (size mtime inode : Z) (children : list str) (g : graph) : result :=
  if dmem a g then (Some ValueError, g)
  else if existsb (fun c => negb (dmem c g)) children then (Some ValueError, g)
  else
    let '(e, g', n) := add_loop a children g (mkNode size mtime inode [] []) in
    match e with
    | Some _ => (e, g')
    | None => (None, dset a n g')
    end.

(** graph.py:532-533: [for parent in node.parents: parent.children.remove(node)].
    list.remove compares with ==, which first compares paths (graph.py:65), and
    there is one object per path, so it removes the first entry with path [a];
    it raises ValueError if there is none. *)
Fixpoint unlink_children (a : str) (ps : list str) (g : graph) : result :=
  match ps with
  | [] => (None, g)
  | p :: r =>
      match dget p g with
      | None => (Some KeyError, g)
      | Some pn =>
          match lremove a (n_children pn) with
          | None => (Some ValueError, g)
          | Some l => unlink_children a r (dset p (with_children (fun _ => l) pn) g)
          end
      end
  end.

(** graph.py:537-538 and 582-583: [for child in node.children:
    child.parents.remove(node)]. *)
Fixpoint unlink_parents (a : str) (cs : list str) (g : graph) : result :=
  match cs with
  | [] => (None, g)
  | c :: r =>
      match dget c g with
      | None => (Some KeyError, g)
      | Some cn =>
          match lremove a (n_parents cn) with
          | None => (Some ValueError, g)
          | Some l => unlink_parents a r (dset c (with_parents (fun _ => l) cn) g)
          end
      end
  end.

(** [node.parents.clear()] / [node.children.clear()] *)
Definition clear_parents_of (a : str) (g : graph) : graph :=
  match dget a g with None => g | Some n => dset a (with_parents (fun _ => []) n) g end.
Definition clear_children_of (a : str) (g : graph) : graph :=
  match dget a g with None => g | Some n => dset a (with_children (fun _ => []) n) g end.

Definition nonempty (l : list str) : bool := match l with [] => false | _ => true end.

(** graph.py:498-541 remove_file *)
Definition remove_file (a : str) (clear_parents clear_children : bool) (g : graph) : result :=
  match dget a g with
  | None => (Some ValueError, g)
  | Some n =>
      if nonempty (n_parents n) && negb clear_parents then (Some ValueError, g)
      else if nonempty (n_children n) && negb clear_children then (Some ValueError, g)
      else
        (* 531-534 *)
        match unlink_children a (n_parents n) g with
        | (Some e, g1) => (Some e, g1)
        | (None, g1) =>
            let g2 := clear_parents_of a g1 in
            (* 536-539: node.children is read after the first loop *)
            match unlink_parents a (neighbours g2 DirChild a) g2 with
            | (Some e, g3) => (Some e, g3)
            | (None, g3) => (None, ddel a (clear_children_of a g3))
            end
        end
  end.

(** graph.py:585-588: the loop adding the new child edges. *)
Fixpoint link_loop (a : str) (cs : list str) (g : graph) : result :=
  match cs with
  | [] => (None, g)
  | c :: r =>
      match dget c g with
      | None => (Some KeyError, g)
      | Some cn =>
          let g1 := dset c (with_parents (fun l => l ++ [a]) cn) g in
          match dget a g1 with
          | None => (Some KeyError, g1)
          | Some an => link_loop a r (dset a (with_children (fun l => l ++ [c]) an) g1)
          end
      end
  end.

(** graph.py:567-571: [any(check_nested_relationship(a, c) in (cyclic, child)
    for c in children)]; an exception inside propagates. *)
Fixpoint any_cyclic (g : graph) (a : str) (cs : list str) : res bool :=
  match cs with
  | [] => Ret false
  | c :: r =>
      match check_nested_relationship g a c with
      | Raise e => Raise e
      | Ret rel => if is_cyclic_or_child rel then Ret true else any_cyclic g a r
      end
  end.

(** graph.py:543-588 set_children *)
Definition set_children (a : str) (children : list str) (prevent_cycles : bool) (g : graph) : result :=
  match dget a g with
  | None => (Some ValueError, g)
  | Some n =>
      if existsb (fun c => negb (dmem c g)) children then (Some ValueError, g)
      else
        match (if prevent_cycles then any_cyclic g a children else Ret false) with
        | Raise e => (Some e, g)
        | Ret true => (Some ValueError, g)
        | Ret false =>
            match unlink_parents a (n_children n) g with
            | (Some e, g1) => (Some e, g1)
            | (None, g1) => link_loop a children (clear_children_of a g1)
            end
        end
  end.

(** The mutating calls a client can make. *)
Inductive op :=
| OpAdd (a : str) (size mtime inode : Z) (children : list str)
| OpRemove (a : str) (clear_parents clear_children : bool)
| OpSet (a : str) (children : list str) (prevent_cycles : bool).

Definition run_op (o : op) (g : graph) : result :=
  match o with
  | OpAdd a s m i cs => add_file a s m i cs g
  | OpRemove a cp cc => remove_file a cp cc g
  | OpSet a cs pc => set_children a cs pc g
  end.

(** A client that catches every exception and carries on. *)
Fixpoint run_ops (os : list op) (g : graph) : list (option exn) * graph :=
  match os with
  | [] => ([], g)
  | o :: r => let '(e, g1) := run_op o g in
              let '(es, g2) := run_ops r g1 in (e :: es, g2)
  end.

(** * Equality: graph.py:50-171 and 183-204 *)

(** graph.py:65-72, 96-103 metadata comparison *)
Definition same_meta (x y : node) : bool :=
  (n_size x =? n_size y)%Z && (n_mtime x =? n_mtime y)%Z && (n_inode x =? n_inode y)%Z.

(** graph.py:74-148: the two "seen" tables.  With one object per path and the
    path comparison at 96 done first, a pair (mine, others) is identified by
    the common path, and both tables always hold the same entries, so a single
    table from path to Optional[bool] is kept. *)
Definition memo := dict (option bool).

(** graph.py:93-169 [cmp]; returns Optional[bool] and the updated table.  The
    outer option is [None] when the recursion bound of the model is exceeded. *)
Fixpoint cmp (fuel : nat) (g h : graph) (m : memo) (mine others : str)
  : option (option bool * memo) :=
  match fuel with
  | O => None
  | S fuel' =>
      match dget mine g, dget others h with
      | Some x, Some y =>
          if negb (str_eqb mine others) then Some (Some false, m)
          else if negb (same_meta x y) then Some (Some false, m)
          else if negb (Nat.eqb (length (n_parents x)) (length (n_parents y))) then Some (Some false, m)
          else if negb (Nat.eqb (length (n_children x)) (length (n_children y))) then Some (Some false, m)
          else
            match dget mine m with
            | Some r => Some (r, m)
            | None =>
                (* [any(cmp(a, b) is False for a, b in zip(l1, l2))] *)
                let any_false := fix any_false (l1 l2 : list str) (m : memo) : option (bool * memo) :=
                  match l1, l2 with
                  | a :: r1, b :: r2 =>
                      match cmp fuel' g h m a b with
                      | None => None
                      | Some (Some false, m') => Some (true, m')
                      | Some (_, m') => any_false r1 r2 m'
                      end
                  | _, _ => Some (false, m)
                  end in
                match any_false (n_parents x) (n_parents y) (dset mine None m) with
                | None => None
                | Some (true, m1) => Some (Some false, dset mine (Some false) m1)
                | Some (false, m1) =>
                    match any_false (n_children x) (n_children y) m1 with
                    | None => None
                    | Some (true, m2) => Some (Some false, dset mine (Some false) m2)
                    | Some (false, m2) => Some (Some true, dset mine (Some true) m2)
                    end
                end
            end
      | _, _ => Some (Some false, m) (* dangling reference: not in a closed graph *)
      end
  end.

(** graph.py:50-171 node equality *)
Definition node_eq (g h : graph) (p : str) : option bool :=
  match dget p g, dget p h with
  | Some x, Some y =>
      if negb (same_meta x y) then Some false
      else match cmp (S (S (length g))) g h [] p p with
           | None => None
           | Some (Some true, _) => Some true
           | Some (_, _) => Some false
           end
  | _, _ => Some false
  end.

(** graph.py:199-204 *)
Fixpoint graph_eq_loop (g h : graph) (ps : list str) : option bool :=
  match ps with
  | [] => Some true
  | p :: r =>
      if negb (dmem p h) then Some false
      else match node_eq g h p with
           | None => None
           | Some false => Some false
           | Some true => graph_eq_loop g h r
           end
  end.

(** graph.py:183-204 FileDependencyGraph.__eq__ *)
Definition graph_eq (g h : graph) : option bool :=
  if negb (Nat.eqb (length g) (length h)) then Some false
  else graph_eq_loop g h (dkeys g).
