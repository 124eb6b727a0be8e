(** Model of /repo/vanillaplusjs/build/hot_incremental_rebuild.py lines 468-593:
    the dependency, output and placeholder graphs stored after a rebuild. *)
From Verif Require Import Base Graph Hot.
From Coq Require Import String ZArith Bool List.
Import ListNotations.
Open Scope list_scope.

(** a graph call that must succeed *)
Definition lift (r : result) : res graph :=
  match r with (None, g) => Ret g | (Some x, _) => Raise x end.

(** file_signature.py:6-20: size, mtime, inode *)
Definition fsig := (Z * Z * Z)%type.

(** 482-491 *)
Definition input_sig (changed added : dict fsig) (D : graph) (f : str) : res fsig :=
  match dget f changed with
  | Some s => Ret s
  | None => match dget f added with
            | Some s => Ret s
            | None => match dget f D with
                      | Some n => Ret (n_size n, n_mtime n, n_inode n)
                      | None => Raise KeyError
                      end
            end
  end.

(** 480-502; [possible_empty_placeholder_nodes] ends up holding all inputs *)
Fixpoint add_inputs (sig : str -> res fsig) (files : list str) (gD gO gP : graph) : res (graph * graph * graph) :=
  match files with
  | [] => Ret (gD, gO, gP)
  | f :: r =>
      match sig f with
      | Raise x => Raise x
      | Ret (size, mtime, inode) =>
          match lift (add_file f size mtime inode [] gD) with
          | Raise x => Raise x
          | Ret gD1 =>
              match lift (add_file f size mtime inode [] gO) with
              | Raise x => Raise x
              | Ret gO1 =>
                  match lift (add_file f size mtime inode [] gP) with
                  | Raise x => Raise x
                  | Ret gP1 => add_inputs sig r gD1 gO1 gP1
                  end
              end
          end
      end
  end.

(** 504-522: nodes of the old output graph that are not inputs *)
Fixpoint keep_outputs (deleted rebuilt : list str) (items : list (str * node)) (gO : graph) (maybe : list str)
  : res (graph * list str) :=
  match items with
  | [] => Ret (gO, maybe)
  | (f, n) :: r =>
      if dmem f gO then keep_outputs deleted rebuilt r gO maybe
      else match n_parents n with
           | [] => if mem f deleted then keep_outputs deleted rebuilt r gO maybe
                   else match lift (add_file f (n_size n) (n_mtime n) (n_inode n) [] gO) with
                        | Raise x => Raise x
                        | Ret gO1 => keep_outputs deleted rebuilt r gO1 maybe
                        end
           | ps => let maybe1 := if existsb (fun p => mem p deleted) ps
                                    && negb (existsb (fun p => negb (mem p deleted) && negb (mem p rebuilt)) ps)
                                 then set_add f maybe else maybe in
                   match lift (add_file f (n_size n) (n_mtime n) (n_inode n) [] gO) with
                   | Raise x => Raise x
                   | Ret gO1 => keep_outputs deleted rebuilt r gO1 maybe1
                   end
           end
  end.

(** 534-545: the first generator that still exists *)
Fixpoint first_in (g : graph) (ps : list str) : option str :=
  match ps with [] => None | p :: r => if dmem p g then Some p else first_in g r end.

(** 524-545 *)
Fixpoint keep_placeholders (items : list (str * node)) (gP : graph) (maybe : list str) : res (graph * list str) :=
  match items with
  | [] => Ret (gP, maybe)
  | (f, n) :: r =>
      if negb (dmem f gP) then keep_placeholders r gP maybe
      else match first_in gP (n_parents n) with
           | None => keep_placeholders r gP maybe
           | Some gen =>
               match get_children gP gen with
               | Raise x => Raise x
               | Ret cs =>
                   match lift (set_children gen (cs ++ [f]) true gP) with
                   | Raise x => Raise x
                   | Ret gP1 =>
                       match sremove gen maybe with
                       | Raise x => Raise x
                       | Ret m1 => match sremove f m1 with
                                   | Raise x => Raise x
                                   | Ret m2 => keep_placeholders r gP1 m2
                                   end
                       end
                   end
               end
           end
  end.

(** 547-551 *)
Fixpoint add_placeholders (items : dict str) (gP : graph) : res graph :=
  match items with
  | [] => Ret gP
  | (p, gen) :: r =>
      match get_children gP gen with
      | Raise x => Raise x
      | Ret cs => match lift (set_children gen (if mem p cs then cs else cs ++ [p]) true gP) with
                  | Raise x => Raise x
                  | Ret gP1 => add_placeholders r gP1
                  end
      end
  end.

(** 573-578 (get_file_signature raises FileNotFoundError) *)
Fixpoint add_outputs (sig : str -> option fsig) (os : list str) (gO : graph) : res graph :=
  match os with
  | [] => Ret gO
  | o :: r =>
      if dmem o gO then add_outputs sig r gO
      else match sig o with
           | None => Raise FileNotFoundError
           | Some (size, mtime, inode) =>
               match lift (add_file o size mtime inode [] gO) with
               | Raise x => Raise x
               | Ret gO1 => add_outputs sig r gO1
               end
           end
  end.

(** 553-583 *)
Fixpoint link_inputs (D O : graph) (results : dict build_result) (sig : str -> option fsig) (files : list str) (gD gO : graph)
  : res (graph * graph) :=
  match files with
  | [] => Ret (gD, gO)
  | f :: r =>
      match (match dget f results with Some b => Ret (b_children b) | None => get_children D f end) with
      | Raise x => Raise x
      | Ret cs =>
          match lift (set_children f cs true gD) with
          | Raise x => Raise x
          | Ret gD1 =>
              let os := match dget f results with Some b => b_outputs b | None => children_in O f end in
              match add_outputs sig os gO with
              | Raise x => Raise x
              | Ret gO1 =>
                  match lift (set_children f os true gO1) with
                  | Raise x => Raise x
                  | Ret gO2 => link_inputs D O results sig r gD1 gO2
                  end
              end
          end
      end
  end.

(** 585-587 *)
Fixpoint drop_outputs (maybe : list str) (gO : graph) : res graph :=
  match maybe with
  | [] => Ret gO
  | f :: r =>
      match get_parents gO f with
      | Raise x => Raise x
      | Ret [] => match lift (remove_file f false false gO) with Raise x => Raise x | Ret g1 => drop_outputs r g1 end
      | Ret _ => drop_outputs r gO
      end
  end.

(** 589-593 *)
Fixpoint drop_placeholders (maybe : list str) (gP : graph) : res graph :=
  match maybe with
  | [] => Ret gP
  | f :: r =>
      match get_parents gP f with
      | Raise x => Raise x
      | Ret ps =>
          match get_children gP f with
          | Raise x => Raise x
          | Ret cs => match ps, cs with
                      | [], [] => match lift (remove_file f false false gP) with Raise x => Raise x | Ret g1 => drop_placeholders r g1 end
                      | _, _ => drop_placeholders r gP
                      end
          end
      end
  end.

(** 468-593.  [inputs] is all_input_files in the order python iterates it. *)
Definition new_graphs (D O P : graph) (changed added : dict fsig) (deleted : list str) (results : dict build_result)
    (new_placeholders : dict str) (sig : str -> option fsig) (inputs : list str) : res (graph * graph * graph) :=
  match add_inputs (input_sig changed added D) inputs empty_graph empty_graph empty_graph with
  | Raise x => Raise x
  | Ret (gD, gO, gP) =>
      match keep_outputs deleted (dkeys results) O gO [] with
      | Raise x => Raise x
      | Ret (gO1, maybe_out) =>
          match keep_placeholders P gP inputs with
          | Raise x => Raise x
          | Ret (gP1, maybe_ph) =>
              match add_placeholders new_placeholders gP1 with
              | Raise x => Raise x
              | Ret gP2 =>
                  match link_inputs D O results sig inputs gD gO1 with
                  | Raise x => Raise x
                  | Ret (gD2, gO2) =>
                      match drop_outputs maybe_out gO2 with
                      | Raise x => Raise x
                      | Ret gO3 =>
                          match drop_placeholders maybe_ph gP2 with
                          | Raise x => Raise x
                          | Ret gP3 => Ret (gD2, gO3, gP3)
                          end
                      end
                  end
              end
          end
      end
  end.

(** A successful rebuild from the end of the scan phase to the new graphs
    (166-593), as a relation: the indices are what was fixed before the scheduling
    loop, the ghost log of the builds, the folder afterwards and the new graphs.  [stat] is get_file_signature
    (file_signature.py:6-20) on a folder.  Simplification: pruning of empty
    folders (459-466) is not modelled. *)
Inductive hot_rebuild (build : str -> fs -> option build_result) (stat : fs -> str -> option fsig)
    (D O P : graph) (scans : dict scan_result) (new_placeholders : dict str) (changed added : dict fsig) (deleted : list str) (fs0 : fs)
  : env -> list (str * fs * build_result) -> fs -> graph -> graph -> graph -> Prop :=
| hot_done e m order s fs1 inputs D1 O1 P1 :
    prepare D O P scans new_placeholders deleted = Ret (e, m) ->
    NoDup order -> (forall f, In f order <-> In f (e_orig e)) ->
    steps build e (init_sched e order m fs0) s -> finished s ->
    unlink_all (still_art s) (disk s) = Some fs1 ->
    NoDup inputs -> (forall f, In f inputs <-> (In f (dkeys (results s)) \/ In f (dkeys D)) /\ ~ In f deleted) ->
    new_graphs D O P changed added deleted (results s) new_placeholders (stat fs1) inputs = Ret (D1, O1, P1) ->
    hot_rebuild build stat D O P scans new_placeholders changed added deleted fs0 e (log s) fs1 D1 O1 P1.
