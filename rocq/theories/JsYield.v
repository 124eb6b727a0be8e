(** build/js/yield_manipulator.py (build/css/yield_manipulator.py and the html one are
    the same class up to the type of the tokens).

    A generator is defunctionalised: [G] is the type of the points where [handle] can
    be suspended at a [yield]; a method is a function of the attributes [L] of the
    subclass. *)
From Verif Require Import Base Graph Builder.
From Coq Require Import List NArith Bool.
Import ListNotations.
Open Scope list_scope.

(** what [next] and [send] give: the generator returned False or a list, or it yielded *)
Inductive step (tok G : Type) := Done (r : option (list tok)) | Yield (g : G).
Arguments Done {tok G}. Arguments Yield {tok G}.
(** 124-138; [h_send g t stack]: [stack] is [self.stack], to which the token has
    already been appended *)
Record handler (tok G L : Type) := {
  h_start : tok -> L -> res (step tok G * L);
  h_send : G -> tok -> list tok -> L -> res (step tok G * L) }.
Arguments h_start {tok G L}. Arguments h_send {tok G L}.
(** 44-60: the attributes [state], [stack] and [generator] *)
Inductive ystate (tok G : Type) := Unmarked | Replacing (stack : list tok) | Skipping (stack : list tok) (g : G) | Marking (stack : list tok) (g : G).
Arguments Unmarked {tok G}. Arguments Replacing {tok G}. Arguments Skipping {tok G}. Arguments Marking {tok G}.

Section Yield.
Context {tok G L : Type} (is_eof : tok -> bool) (h : handler tok G L).
Definition ymanip_state := (ystate tok G * L)%type.
(** 62-86 *)
Definition y_start (t : tok) (s : ymanip_state) : res (bool * ymanip_state) :=
  match fst s with
  | Unmarked =>
      match h_start h t (snd s) with
      | Raise e => Raise e
      | Ret (Yield g, l) => if is_eof t then Raise RuntimeError else Ret (true, (Skipping [t] g, l))
      | Ret (Done None, l) => Ret (false, (Unmarked, l))
      | Ret (Done (Some r), l) => Ret (true, (Replacing r, l))
      end
  | _ => Raise AssertionError
  end.
(** 88-122 *)
Definition y_continue (t : tok) (s : ymanip_state) : res (option (list tok) * ymanip_state) :=
  match fst s with
  | Unmarked => Raise AssertionError
  | Replacing r => Ret (Some r, (Unmarked, snd s))
  | Skipping st g => Ret (None, (Marking st g, snd s))
  | Marking st g =>
      let st := st ++ [t] in
      match h_send h g t st (snd s) with
      | Raise e => Raise e
      | Ret (Yield g', l) => if is_eof t then Raise RuntimeError else Ret (None, (Marking st g', l))
      | Ret (Done None, l) => Ret (Some st, (Unmarked, l))
      | Ret (Done (Some r), l) => Ret (Some r, (Unmarked, l))
      end
  end.
Definition yield_manip : manip tok ymanip_state := {| start_mark := y_start; continue_mark := y_continue |}.
End Yield.

(** a manipulator whose attributes are one component of the state of the pipeline *)
Section Lift.
Context {tok A B : Type}.
Definition lift_fst (m : manip tok A) : manip tok (A * B) := {|
  start_mark := fun t s => match start_mark m t (fst s) with Raise e => Raise e | Ret (b, a) => Ret (b, (a, snd s)) end;
  continue_mark := fun t s => match continue_mark m t (fst s) with Raise e => Raise e | Ret (r, a) => Ret (r, (a, snd s)) end |}.
Definition lift_snd (m : manip tok B) : manip tok (A * B) := {|
  start_mark := fun t s => match start_mark m t (snd s) with Raise e => Raise e | Ret (b, a) => Ret (b, (fst s, a)) end;
  continue_mark := fun t s => match continue_mark m t (snd s) with Raise e => Raise e | Ret (r, a) => Ret (r, (fst s, a)) end |}.
End Lift.
