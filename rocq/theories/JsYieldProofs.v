(** What the state machine of a yield manipulator amounts to. *)
From Verif Require Import Base Graph Builder BuilderSpec JsYield.
From Coq Require Import List NArith Bool.
Import ListNotations.
Open Scope list_scope.

Section Yield.
Context {tok G L : Type} (is_eof : tok -> bool) (h : handler tok G L).
(** the suspended generator [g] takes the tokens [seg] and then the tokens of the
    mark become [r] *)
Inductive runs : G -> L -> list tok -> list tok -> list tok -> L -> Prop :=
| RunEnd g t stack d l l' : h_send h g t (stack ++ [t]) l = Ret (Done d, l') -> runs g l stack [t] (match d with None => stack ++ [t] | Some r => r end) l'
| RunMore g t stack g' l l1 seg r l' : h_send h g t (stack ++ [t]) l = Ret (Yield g', l1) -> is_eof t = false -> runs g' l1 (stack ++ [t]) seg r l' -> runs g l stack (t :: seg) r l'.
Let m := yield_manip is_eof h.
Lemma y_declines t l l' : h_start h t l = Ret (Done None, l') -> start_mark m t (Unmarked, l) = Ret (false, (Unmarked, l')).
Proof. intros H. cbn. unfold y_start. cbn. rewrite H. reflexivity. Qed.
Lemma y_runs g l stack seg r l' : runs g l stack seg r l' -> replaces m (Marking stack g, l) seg r (Unmarked, l').
Proof.
  induction 1 as [g t stack d l l' H|g t stack g' l l1 seg r l' H He _ IH].
  - apply ReplEnd. cbn. unfold y_continue. cbn. rewrite H. destruct d; reflexivity.
  - eapply ReplMore; [|exact IH]. cbn. unfold y_continue. cbn. rewrite H, He. reflexivity.
Qed.
Lemma y_marks t l g l1 seg r l2 : h_start h t l = Ret (Yield g, l1) -> is_eof t = false -> runs g l1 [t] seg r l2 ->
  exists s1, start_mark m t (Unmarked, l) = Ret (true, s1) /\ replaces m s1 (t :: seg) r (Unmarked, l2).
Proof.
  intros H He HR. exists (Skipping [t] g, l1). split; [cbn; unfold y_start; cbn; rewrite H, He; reflexivity|].
  eapply ReplMore; [|apply y_runs; exact HR]. reflexivity.
Qed.
End Yield.

Section Lift.
Context {tok A B : Type}.
Lemma lift_fst_replaces (m : manip tok A) (b : B) a seg r a' : replaces m a seg r a' -> replaces (lift_fst m) (a, b) seg r (a', b).
Proof. induction 1 as [t s repl s1 H|t s s1 seg repl s2 H _ IH]; [apply ReplEnd|eapply ReplMore; [|exact IH]]; cbn; rewrite H; reflexivity. Qed.
Lemma lift_snd_replaces (m : manip tok B) (a : A) b seg r b' : replaces m b seg r b' -> replaces (lift_snd m) (a, b) seg r (a, b').
Proof. induction 1 as [t s repl s1 H|t s s1 seg repl s2 H _ IH]; [apply ReplEnd|eapply ReplMore; [|exact IH]]; cbn; rewrite H; reflexivity. Qed.
End Lift.
