(** Model of /repo/vanillaplusjs/build/ioutil.py lines 15-190: the peekable and the
    preprocessing text readers. *)
From Verif Require Import Base Graph.
From Coq Require Import List NArith ZArith Bool.
Import ListNotations.
Open Scope list_scope.

(** The wrapped file: what is still to be read from it.  [fp.read(n)] of a text
    file returns up to [n] characters, all for a negative [n], and the empty
    string at the end; the [None] of non-blocking files (52-56, 86-90) is not
    modelled. *)
Definition take (n : Z) (s : str) : str := if Z.ltb n 0 then s else firstn (Z.to_nat n) s.
Definition drop (n : Z) (s : str) : str := if Z.ltb n 0 then [] else skipn (Z.to_nat n) s.
Definition len (s : str) : Z := Z.of_nat (length s).

(** python slices [s[:n]] and [s[n:]]; a negative [n] counts from the end *)
Definition prefix_to (n : Z) (s : str) : str := if Z.ltb n 0 then firstn (Z.to_nat (len s + n)) s else firstn (Z.to_nat n) s.
Definition suffix_from (n : Z) (s : str) : str := if Z.ltb n 0 then skipn (Z.to_nat (len s + n)) s else skipn (Z.to_nat n) s.

(** 19-25 *)
Record peekable := mkPeekable { file : str; buffer : str; seen_eof : bool }.
Definition open_peekable (text : str) : peekable := mkPeekable text [] false.

Definition nonempty (s : str) : bool := match s with [] => false | _ => true end.

(** 27-66 *)
Definition read (n : Z) (p : peekable) : option str * peekable :=
  if seen_eof p then
    if negb (nonempty (buffer p)) then (None, p)
    else if Z.eqb n (-1) || Z.leb (len (buffer p)) n then (Some (buffer p), mkPeekable (file p) [] true)
    else (Some (prefix_to n (buffer p)), mkPeekable (file p) (suffix_from n (buffer p)) true)
  else if Z.eqb n (-1) then (Some (buffer p ++ file p), mkPeekable [] [] true)
  else if Z.leb n (len (buffer p)) then (Some (prefix_to n (buffer p)), mkPeekable (file p) (suffix_from n (buffer p)) false)
  else
    let want := (n - len (buffer p))%Z in
    let new_data := take want (file p) in
    (Some (buffer p ++ new_data), mkPeekable (drop want (file p)) [] (Z.ltb (len new_data) want)).

(** 68-95 *)
Definition peek (n : Z) (p : peekable) : option str * peekable :=
  if seen_eof p then
    if negb (nonempty (buffer p)) then (None, p)
    else if Z.eqb n (-1) || Z.leb (len (buffer p)) n then (Some (buffer p), p)
    else (Some (prefix_to n (buffer p)), p)
  else if Z.leb n (len (buffer p)) then (Some (prefix_to n (buffer p)), p)
  else
    let want := (n - len (buffer p))%Z in
    let new_data := take want (file p) in
    (Some (buffer p ++ new_data), mkPeekable (drop want (file p)) (buffer p ++ new_data) (Z.ltb (len new_data) want)).

(** 15-16, 122-123: the two substitutions *)
Fixpoint newlines (s : str) : str :=
  match s with
  | [] => []
  | c :: r =>
      if N.eqb c 13 then
        match r with
        | d :: r2 => if N.eqb d 10 then 10%N :: newlines r2 else 10%N :: newlines r
        | [] => [10%N]
        end
      else if N.eqb c 12 then 10%N :: newlines r
      else c :: newlines r
  end.
Definition is_surrogate (c : N) : bool := N.leb 55296 c && N.leb c 57343.
Definition clean (s : str) : str := map (fun c => if is_surrogate c then 65533%N else c) (newlines s).

Definition last_is (c : N) (s : str) : bool := match rev s with x :: _ => N.eqb x c | [] => false end.
Definition ends_crlf (s : str) : bool := match rev s with x :: y :: _ => N.eqb x 10 && N.eqb y 13 | _ => false end.

(** 106-124; [res[-1]] of an empty string raises IndexError *)
Definition pre_read1 (n : Z) (p : peekable) : res (option str * peekable) :=
  let '(r, p1) := read n p in
  match r with
  | None => Ret (None, p1)
  | Some s =>
      if Z.eqb (len s) n then
        match s with
        | [] => Raise IndexError
        | _ =>
            if last_is 13 s then
              let '(q, p2) := peek 1 p1 in
              match q with
              | Some t => if str_eqb t [10%N] then Ret (Some (clean (removelast s)), p2) else Ret (Some (clean s), p2)
              | None => Ret (Some (clean s), p2)
              end
            else Ret (Some (clean s), p1)
        end
      else Ret (Some (clean s), p1)
  end.
(** 126-146 *)
Definition pre_peek1 (n : Z) (p : peekable) : option str * peekable :=
  let '(r, p1) := peek (if Z.ltb n 1 then n else n + 1) p in
  match r with
  | None => (None, p1)
  | Some s =>
      let s1 := if Z.leb 1 n && Z.eqb (len s) (n + 1) then if ends_crlf s then removelast (removelast s) else removelast s else s in
      (Some (clean s1), p1)
  end.
(** 148-167; [fuel] bounds the loop of 161-165 *)
Fixpoint read_more (fuel : nat) (n : Z) (acc : str) (p : peekable) : res (option str * peekable) :=
  if Z.ltb (len acc) n then
    match fuel with
    | 0 => Raise OutOfFuel
    | S k =>
        match pre_read1 (n - len acc) p with
        | Raise e => Raise e
        | Ret (None, p1) => Ret (Some acc, p1)
        | Ret (Some more, p1) => read_more k n (acc ++ more) p1
        end
    end
  else Ret (Some acc, p).
Definition pre_read (fuel : nat) (n : Z) (p : peekable) : res (option str * peekable) :=
  match pre_read1 n p with
  | Raise e => Raise e
  | Ret (None, p1) => Ret (None, p1)
  | Ret (Some s, p1) =>
      if Z.ltb n 1 || Z.eqb (len s) n then Ret (Some s, p1)
      else if negb (nonempty s) then Ret (None, p1)
      else read_more fuel n s p1
  end.
(** 169-190; [len(None)] raises TypeError *)
Fixpoint peek_more (fuel : nat) (n attempted : Z) (s : str) (p : peekable) : res (option str * peekable) :=
  match fuel with
  | 0 => Raise OutOfFuel
  | S k =>
      let want := (attempted + (n - len s))%Z in
      let '(r, p1) := pre_peek1 want p in
      match r with
      | None => Raise TypeError
      | Some s1 => if Z.eqb (len s1) n || Z.eqb (len s1) (len s) then Ret (Some s1, p1) else peek_more k n want s1 p1
      end
  end.
Definition pre_peek (fuel : nat) (n : Z) (p : peekable) : res (option str * peekable) :=
  let '(r, p1) := pre_peek1 n p in
  match r with
  | None => Ret (None, p1)
  | Some s =>
      if Z.ltb n 1 || Z.eqb (len s) n then Ret (Some s, p1)
      else if negb (nonempty s) then Ret (None, p1)
      else peek_more fuel n n s p1
  end.
