(** Model of /repo/vanillaplusjs/build/css/manips/nest.py (whole file).

    A [QualifiedRule] (18-33) is its block: its other two attributes are never read.  A
    python set is a list without repetitions; which element [next(iter(...))] gives is left
    to a parameter.  [processed_files] (65) is never used.  A generator over the tokens of a
    file is what is left of them, with the exception that ends it; the files are those
    before the build of the stylesheet, and closing them is not modelled.  In 371
    [args.lower()] is exact on ASCII (the letter I with a dot would move the index). *)
From Verif Require Import Base Graph PyPath PyNorm Css Builder Handlers IconManip.
From Coq Require Import String ZArith NArith Bool List.
Import ListNotations.
Open Scope list_scope.
Open Scope N_scope.

(** 36-44 *)
Definition ref : Type := str * str.
Definition ref_eqb (a b : ref) : bool := str_eqb (fst a) (fst b) && str_eqb (snd a) (snd b).
Definition rmem (r : ref) (l : list ref) : bool := existsb (ref_eqb r) l.
(** set.add *)
Definition radd (r : ref) (l : list ref) : list ref := if rmem r l then l else l ++ [r].
(** set.discard *)
Definition rdiscard (r : ref) (l : list ref) : list ref := filter (fun x => negb (ref_eqb r x)) l.
(** a - b *)
Definition rminus (a b : list ref) : list ref := filter (fun x => negb (rmem x b)) a.
(** list.remove: the first occurrence *)
Fixpoint rremove (r : ref) (l : list ref) : option (list ref) :=
  match l with [] => None | x :: t => if ref_eqb r x then Some t else option_map (cons x) (rremove r t) end.
(** dictionaries with references as keys *)
Fixpoint rget {A} (k : ref) (d : list (ref * A)) : option A := match d with [] => None | (x, v) :: r => if ref_eqb k x then Some v else rget k r end.
Definition rdel {A} (k : ref) (d : list (ref * A)) : list (ref * A) := filter (fun e => negb (ref_eqb k (fst e))) d.
Fixpoint rset {A} (k : ref) (v : A) (d : list (ref * A)) : list (ref * A) :=
  match d with [] => [(k, v)] | (x, w) :: r => if ref_eqb k x then (x, v) :: r else (x, w) :: rset k v r end.

Section Nest.
Context {F : Type} (float_of : str -> option F) (float_str : F -> str).
Context (high_digit : N -> bool) (int_high : str -> option Z).
Notation token := (token (F := F)).
Notation block := (list token).

(** 58-116 *)
Record rules := mkRules { available : list (ref * block); unresolved : list (ref * (block * list ref)); waiting : list (ref * list ref); counts : list (str * Z); resolvable : list ref }.
Definition no_rules : rules := mkRules [] [] [] [] [].

(** the count of a path less one (154-156, 203-213) *)
Definition decrement (path : str) (c : list (str * Z)) : res (list (str * Z)) :=
  match dget path c with None => Raise KeyError | Some n => if (n - 1 =? 0)%Z then Ret (ddel path c) else Ret (dset path (n - 1)%Z c) end.
(** 158-162 *)
Fixpoint wake (r : ref) (l : list ref) (s : rules) : res rules :=
  match l with
  | [] => Ret s
  | w :: rest =>
      match rget w (unresolved s) with
      | None => Raise KeyError
      | Some (b, m) =>
          if negb (rmem r m) then Raise KeyError
          else let m := rdiscard r m in
               wake r rest (mkRules (available s) (rset w (b, m) (unresolved s)) (waiting s) (counts s) (match m with [] => radd w (resolvable s) | _ => resolvable s end))
      end
  end.
(** 174-191 *)
Fixpoint await (r : ref) (l : list ref) (s : rules) : rules :=
  match l with
  | [] => s
  | m :: rest =>
      let w := match rget m (waiting s) with None => [] | Some w => w end in
      let n := match dget (fst m) (counts s) with None => 0%Z | Some n => n end in
      await r rest (mkRules (available s) (unresolved s) (rset m (w ++ [r]) (waiting s)) (dset (fst m) (n + 1)%Z (counts s)) (resolvable s))
  end.
(** 193-213 *)
Fixpoint forgo (r : ref) (l : list ref) (s : rules) : res rules :=
  match l with
  | [] => Ret s
  | m :: rest =>
      match rget m (waiting s) with
      | None => Raise KeyError
      | Some w =>
          match rremove r w with
          | None => Raise ValueError
          | Some [] => match decrement (fst m) (counts s) with Raise e => Raise e | Ret c => forgo r rest (mkRules (available s) (unresolved s) (rdel m (waiting s)) c (resolvable s)) end
          | Some w => forgo r rest (mkRules (available s) (unresolved s) (rset m w (waiting s)) (counts s) (resolvable s))
          end
      end
  end.
(** 118-213 *)
Definition set_rule (r : ref) (b : block) (missing : list ref) (s : rules) : res rules :=
  match rget r (available s) with
  | Some _ => Raise ValueError
  | None =>
      match missing with
      | [] =>
          let s1 := mkRules (rset r b (available s)) (rdel r (unresolved s)) (rdel r (waiting s)) (counts s) (rdiscard r (resolvable s)) in
          match rget r (waiting s) with
          | None => Ret s1
          | Some l => match decrement (fst r) (counts s) with Raise e => Raise e | Ret c => wake r l (mkRules (available s1) (unresolved s1) (waiting s1) c (resolvable s1)) end
          end
      | _ =>
          let old := match rget r (unresolved s) with Some (_, m) => m | None => [] end in
          forgo r (rminus old missing)
            (await r (rminus missing old) (mkRules (available s) (rset r (b, missing) (rdel r (unresolved s))) (waiting s) (counts s) (resolvable s)))
      end
  end.

(** * The manipulator *)
(** [folder/path] of the project; [self]: the stylesheet; [f]: the files *)
Context (default_css self : str) (f : str -> option str) (pick : nat -> list ref -> nat) (fuel : nat).

(** 217-219: what follows the word import, stripped (368-369); it has no newline *)
Definition import_args (v : str) : option str :=
  obind (after (lit "!") (lstrip v)) (fun s =>
  obind (after (lit "PREPROCESSOR") (lstrip s)) (fun s =>
  obind (after (lit ":") (lstrip s)) (fun s =>
  obind (after_space s) (fun s =>
  obind (after (lit "import") s) (fun s =>
  obind (after_space s) (fun s => if existsb (N.eqb 10) (strip s) then None else Some (strip s))))))).
(** str.lower *)
Definition lower (c : N) : N := if (65 <=? c) && (c <=? 90) then c + 32 else c.
(** 371: what is before and after the first "from" *)
Fixpoint cut_from (s : str) : option (str * str) :=
  match s with
  | [] => None
  | c :: r => if str_eqb (map lower (firstn 4 s)) (lit "from") then Some ([], skipn 4 s) else match cut_from r with Some (a, b) => Some (c :: a, b) | None => None end
  end.
(** 354-390 *)
Definition get_import (t : token) : option ref :=
  match t with
  | TComment v =>
      match import_args v with
      | None => None
      | Some args =>
          match cut_from args with
          | None => Some (default_css, strip args)
          | Some (a, b) =>
              let from_arg := strip b in
              if negb (starts_with (lit "/") from_arg) || existsb (N.eqb 32) from_arg then None
              else Some (join_path (lit "src") [lit "public"; tl from_arg], strip a)
          end
      end
  | _ => None
  end.

Notation gen := (list token * option exn)%type.
(** next(generator) *)
Definition next (g : gen) : res (token * gen) :=
  match g with (t :: r, e) => Ret (t, (r, e)) | ([], Some e) => Raise e | ([], None) => Raise StopIteration end.
(** 470-474, 477-480: reads up to a token of the kind [stop], which is read too *)
Fixpoint read_to (stop : token -> bool) (ts : list token) (e : option exn) : res gen :=
  match ts with
  | [] => match e with Some x => Raise x | None => Raise StopIteration end
  | TEof :: _ => Raise ValueError
  | t :: r => if stop t then Ret (r, e) else read_to stop r e
  end.
(** 481-489, 544-552: reads up to the end of a nested block; what was read *)
Fixpoint read_nested (level : nat) (ts : list token) (e : option exn) : res (list token * gen) :=
  match ts with
  | [] => match e with Some x => Raise x | None => Raise StopIteration end
  | TEof :: _ => Raise ValueError
  | t :: r =>
      let level := match t with TLCurly => S level | TRCurly => pred level | _ => level end in
      match level with
      | O => Ret ([t], (r, e))
      | _ => match read_nested level r e with Raise x => Raise x | Ret (l, g) => Ret (t :: l, g) end
      end
  end.
(** 497-515 *)
Fixpoint read_prelude (ts : list token) (e : option exn) : res (list token * gen) :=
  match ts with
  | [] => match e with Some x => Raise x | None => Raise StopIteration end
  | TEof :: _ => Raise ValueError
  | TLCurly :: r => Ret ([], (r, e))
  | t :: r => match read_prelude r e with Raise x => Raise x | Ret (l, g) => Ret (t :: l, g) end
  end.
Definition is_white (t : token) : bool := match t with TWhitespace _ => true | _ => false end.
Fixpoint drop_white (l : list token) : list token := match l with t :: r => if is_white t then drop_white r else l | [] => [] end.
(** 567-568 *)
Definition rstrip_white (l : list token) : list token := rev (drop_white (rev l)).
(** 525-565: the block, the references that are missing and the rest *)
Fixpoint read_block (n : nat) (av : list (ref * block)) (stack : list token) (g : gen) (value : list token) (missing : list ref) : res (list token * list ref * gen) :=
  match n with
  | O => Raise OutOfFuel
  | S n =>
      match (match stack with t :: r => Ret (t, r, g) | [] => match next g with Raise e => Raise e | Ret (t, g) => Ret (t, [], g) end end) with
      | Raise e => Raise e
      | Ret (t, stack, g) =>
          if match value with [] => is_white t | _ => false end then read_block n av stack g value missing
          else match get_import t with
          | Some r =>
              match rget r av with
              | Some b => read_block n av (b ++ stack) g value missing
              | None => read_block n av stack g (value ++ [t]) (radd r missing)
              end
          | None =>
              match t with
              | TEof => Raise ValueError
              | TLCurly => match read_nested 1 (fst g) (snd g) with Raise e => Raise e | Ret (l, g) => read_block n av stack g (value ++ t :: l) missing end
              | TRCurly => Ret (value, missing, g)
              | _ => read_block n av stack g (value ++ [t]) missing
              end
          end
      end
  end.
(** 465-586: one turn of the loop after 463: the rule that was read, if any *)
Definition read_item (av : list (ref * block)) (g : gen) : res (option (str * block * list ref) * gen) :=
  match next g with
  | Raise e => Raise e
  | Ret (t, g) =>
      match t with
      | TEof => Raise ValueError
      | TCDO => match read_to (fun t => match t with TCDC => true | _ => false end) (fst g) (snd g) with Raise e => Raise e | Ret g => Ret (None, g) end
      | TAt _ =>
          match read_to (fun t => match t with TLCurly => true | _ => false end) (fst g) (snd g) with
          | Raise e => Raise e
          | Ret g => match read_nested 1 (fst g) (snd g) with Raise e => Raise e | Ret (_, g) => Ret (None, g) end
          end
      | TWhitespace _ | TComment _ => Ret (None, g)
      | _ =>
          match read_prelude (fst g) (snd g) with
          | Raise e => Raise e
          | Ret (p, g) =>
              match read_block fuel av [] g [] [] with
              | Raise e => Raise e
              | Ret (value, missing, g) => Ret (Some (strip (serialize_many float_str (t :: p)), rstrip_white value, missing), g)
              end
          end
      end
  end.

(** 599-613: the block of a rule with its references replaced *)
Fixpoint fill (n : nat) (av : list (ref * block)) (stack acc : list token) : res block :=
  match n with
  | O => Raise OutOfFuel
  | S n =>
      match stack with
      | [] => Ret acc
      | t :: r =>
          match get_import t with
          | None => fill n av r (acc ++ [t])
          | Some i => match rget i av with None => Raise KeyError | Some b => fill n av (b ++ r) acc end
          end
      end
  end.
(** 595-615 *)
Definition resolve (r : ref) (s : rules) : res rules :=
  match rget r (unresolved s) with
  | None => Raise KeyError
  | Some (b, _) => match fill fuel (available s) b [] with Raise e => Raise e | Ret b => set_rule r b [] s end
  end.
(** 588-593; [pick n l] tells which element of the set [l] comes first *)
Fixpoint resolve_all (n : nat) (clock : nat) (s : rules) : res (nat * rules) :=
  match resolvable s with
  | [] => Ret (clock, s)
  | d :: _ =>
      match n with
      | O => Raise OutOfFuel
      | S n => match resolve (nth (pick clock (resolvable s)) (resolvable s) d) s with Raise e => Raise e | Ret s => resolve_all n (S clock) s end
      end
  end.

(** 286-325; [seen]: [dependencies] or [children] *)
Record nstate := mkNest { n_rules : rules; resumable : list (str * gen); n_seen : list str; n_clock : nat }.
Definition nest_init : nstate := mkNest no_rules [] [] 0.
(** 461-586; [path]: the key of the generator *)
Fixpoint ensure_using (n : nat) (imp : ref) (path : str) (g : gen) (s : nstate) : res nstate :=
  match resolve_all fuel (n_clock s) (n_rules s) with
  | Raise e => Raise e
  | Ret (clock, rs) =>
      match rget imp (available rs) with
      | Some _ => Ret (mkNest rs (dset path g (resumable s)) (n_seen s) clock)
      | None =>
          match n with
          | O => Raise OutOfFuel
          | S n =>
              match read_item (available rs) g with
              | Raise e => Raise e
              | Ret (None, g) => ensure_using n imp path g (mkNest rs (resumable s) (n_seen s) clock)
              | Ret (Some (p, b, missing), g) =>
                  match set_rule (fst imp, p) b missing rs with
                  | Raise e => Raise e
                  | Ret rs => ensure_using n imp path g (mkNest rs (resumable s) (n_seen s) clock)
                  end
              end
          end
      end
  end.
(** 421-424 *)
Definition out_file (path : str) : str := join_path (lit "out") [lit "www"; skipn 11 path].
(** 426-436, 445-456: the key of the generator, which is never [None] *)
Definition ensure_import_resolved (imp : ref) (s : nstate) : res nstate :=
  let path := if str_eqb (fst imp) self then self else out_file (fst imp) in
  match dget path (resumable s) with
  | Some g => ensure_using fuel imp path g s
  | None =>
      match f path with
      | None => Raise FileNotFoundError
      | Some text => let g := tokenize float_of high_digit int_high text in ensure_using fuel imp path g (mkNest (n_rules s) (dset path g (resumable s)) (n_seen s) (n_clock s))
      end
  end.
(** 399-410 *)
Definition ensure_resolved (imp : ref) (s : nstate) : res nstate :=
  match resolve_all fuel (n_clock s) (n_rules s) with
  | Raise e => Raise e
  | Ret (clock, rs) =>
      let s := mkNest rs (resumable s) (n_seen s) clock in
      match rget imp (available rs) with Some _ => Ret s | None => ensure_import_resolved imp s end
  end.
(** 334-352 *)
Definition nest_start (scan : bool) (t : token) (s : nstate) : res (bool * nstate) :=
  match t with
  | TEof => Ret (false, if scan then s else mkNest (n_rules s) [] (n_seen s) (n_clock s))
  | _ =>
      match get_import t with
      | None => Ret (false, s)
      | Some imp => Ret (negb scan, if str_eqb (fst imp) self then s else mkNest (n_rules s) (resumable s) (if mem (fst imp) (n_seen s) then n_seen s else n_seen s ++ [fst imp]) (n_clock s))
      end
  end.
(** 392-397 *)
Definition nest_continue (t : token) (s : nstate) : res (option (list token) * nstate) :=
  match get_import t with
  | None => Raise AssertionError
  | Some imp =>
      match ensure_resolved imp s with
      | Raise e => Raise e
      | Ret s => match rget imp (available (n_rules s)) with None => Raise KeyError | Some b => Ret (Some b, s) end
      end
  end.
Definition nest (scan : bool) : manip token nstate := {| start_mark := nest_start scan; continue_mark := nest_continue |}.
End Nest.
