(** Vocabulary for C77: workers that make folders at the same time. *)
From Verif Require Import Base Graph Prune PruneSpec Makedirs.
From Coq Require Import String ZArith NArith Bool List.
Import ListNotations.
Open Scope list_scope.

(** one worker for each output, about to begin *)
Definition start (fs : list str) : list (str * place) := map (fun f => (f, Stat 0)) fs.
(** there is room for the outputs: each lies in some folder, no file is where one of these folders belongs, no
    folder where one of the outputs does *)
Definition room (t : tree) (fs : list str) : Prop :=
  forall f, In f fs -> proper f /\ In 47%N f /\ ~ In f (t_dirs t) /\ forall x, In x (t_files t) \/ In x fs -> ~ inside x f.
(** how often mkdir was refused to worker [k] *)
Definition refused (k : nat) (log : list (nat * place * bool)) : nat :=
  length (filter (fun e => match e with (j, Make _ _ _, true) => Nat.eqb j k | _ => false end) log).
(** worker [k] could always ask whether a folder exists that it failed to make *)
Definition could_ask (k : nat) (log : list (nat * place * bool)) : Prop := forall i name rest x, ~ In (k, Check i name rest x, true) log.
Definition ended (p : place) : Prop := p = Done \/ exists x, p = Failed x.
(** the same files and the same folders *)
Definition same_tree (a b : tree) : Prop := (forall f, In f (t_files a) <-> In f (t_files b)) /\ forall d, In d (t_dirs a) <-> In d (t_dirs b).
(** the outputs of the source src/public/[q] *)
Definition outputs_of (q : str) : list str := [lit "out/www/" ++ q; lit "out/www/" ++ q ++ lit ".hash"].
(** the names are those of files in one folder, none of which lies in a folder named like another one's hash file *)
Definition no_clash (qs : list str) : Prop := forall a b, In a qs -> In b qs -> proper b /\ ~ inside a b /\ ~ inside (a ++ lit ".hash") b.
(** the project holds what builds of these sources left in out/www, and anything elsewhere *)
Definition built_from (qs : list str) (t : tree) : Prop :=
  sound t /\ (forall d, In d (t_dirs t) -> (exists r, d = lit "out/www/" ++ r) -> occupied t d) /\
  forall x, In x (t_files t) -> In x (flat_map outputs_of qs) \/ (~ exists r, x = lit "out/www/" ++ r) /\ x <> lit "out" /\ x <> lit "out/www".
