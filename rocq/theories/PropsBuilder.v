(** C24-C25: the token pipeline and version stamping of stylesheet urls. *)
From Verif Require Import Base Graph PyPath Css Builder BuilderSpec BuilderProofs CssVersion CssVersionSpec CssVersionProofs.
From Coq Require Import String ZArith NArith Bool List.
Import ListNotations.
Open Scope list_scope.
Open Scope N_scope.

(** For all manipulators, handling the tokens one at a time and writing the output
    after each is rewriting the stream: each token passes, in order and once, when
    all manipulators decline it, and otherwise is part of a segment that one
    manipulator takes and replaces, whose replacement is processed in its place.  The
    only tokens that disappear are those of a mark left open at the end. *)
Theorem C24_stream : forall tok S (ms : list (manip tok S)) s ts out s' closed,
  (exists fuel b, pump ms fuel ts (new_builder s) = Ret (out, b) /\ b_st b = s' /\ (b_mark b = None <-> closed = true)) <->
  (exists lost, rewrites ms s ts out lost s' /\ (lost = [] <-> closed = true)).
Proof. exact @pump_stream. Qed.
Print Assumptions C24_stream.
(** Manipulators that never mark leave every stream as it is. *)
Theorem C24_identity : forall tok S (ms : list (manip tok S)),
  (forall m t s, In m ms -> exists s1, start_mark m t s = Ret (false, s1)) ->
  forall ts s, exists s', rewrites ms s ts ts [] s'.
Proof. exact @no_marks_identity. Qed.
Print Assumptions C24_identity.
Example C24_identity_ok : forall m (t : nat) (s : nat),
  In m [{| start_mark := fun _ s => Ret (false, Datatypes.S s); continue_mark := fun _ s => Raise AssertionError |}] -> exists s1, start_mark m t s = Ret (false, s1).
Proof. intros m t s [<-|[]]. eexists. reflexivity. Qed.
(** Manipulators that put back what they took drop, duplicate and reorder nothing. *)
Theorem C24_observers : forall tok S (ms : list (manip tok S)) s ts out lost s',
  (forall m s0 seg repl s1, In m ms -> replaces m s0 seg repl s1 -> repl = seg) ->
  rewrites ms s ts out lost s' -> out ++ lost = ts.
Proof. exact @observers_identity. Qed.
Print Assumptions C24_observers.
Example C24_observers_ok : forall m (s0 : nat) (seg repl : list nat) s1,
  In m [{| start_mark := fun t s => Ret (Nat.eqb t s, s); continue_mark := fun t s => Ret (Some [t], Datatypes.S s) |}] -> replaces m s0 seg repl s1 -> repl = seg.
Proof. intros m s0 seg repl s1 [<-|[]] H. inversion H as [? ? ? ? E|? ? ? ? ? ? E]; cbn in E; [injection E as <- _; reflexivity|discriminate]. Qed.
(** Tokens of a mark that is open when the stream ends are not written. *)
Theorem C24_open_mark_refuted : exists (m : manip nat nat) fuel b,
  pump [m] fuel [1%nat; 2%nat] (new_builder 0%nat) = Ret ([1%nat], b) /\ b_mark b = Some m.
Proof. exists {| start_mark := fun t s => Ret (Nat.eqb t 2, s); continue_mark := fun _ s => Ret (None, s) |}, 5%nat. eexists. split; reflexivity. Qed.
Print Assumptions C24_open_mark_refuted.

(** If every hash file that is needed exists, stamping a stylesheet finishes outside
    a mark, writes exactly the stamped tokens and records exactly the needed files. *)
Theorem C25_build : forall F relpath read (ts : list (@token F)),
  (forall h, needs relpath false ts h -> read h <> None) ->
  exists fuel out b, pump [version_urls relpath read false] fuel ts (new_builder v_init) = Ret (out, b) /\
    b_mark b = None /\ stamped relpath read false ts out /\ (forall h, In h (v_seen (b_st b)) <-> needs relpath false ts h).
Proof. exact @version_build. Qed.
Print Assumptions C25_build.
Example C25_build_ok : forall h, needs (lit "src/public/a.css") false [TUrl (lit "/x.png"); @TColon nat] h -> Some (lit "abc") <> None (A := str).
Proof. discriminate. Qed.
Example C25_build_needs : needs (lit "src/public/a.css") false [TUrl (lit "/x.png"); @TColon nat] (lit "out/www/x.png.hash").
Proof.
  apply (NeedHere (F := nat) _ false (TUrl (lit "/x.png")) (lit "x.png")); [apply AtUrl|]. exists (lit "x.png"). split; [reflexivity|]. split; [vm_compute; intuition discriminate|vm_compute; discriminate].
Qed.
(** A build that finishes found every one of them; otherwise it fails. *)
Theorem C25_missing_hash_fails : forall F relpath read fuel (ts : list (@token F)) out b h,
  pump [version_urls relpath read false] fuel ts (new_builder v_init) = Ret (out, b) -> needs relpath false ts h -> read h <> None.
Proof. exact @version_complete. Qed.
Print Assumptions C25_missing_hash_fails.
(** Scanning changes nothing and reports exactly the files that building reads. *)
Theorem C25_scan : forall F relpath read (ts : list (@token F)),
  exists fuel b, pump [version_urls relpath read true] fuel ts (new_builder v_init) = Ret (ts, b) /\
    b_mark b = None /\ (forall h, In h (v_seen (b_st b)) <-> needs relpath false ts h).
Proof. exact @version_scan. Qed.
Print Assumptions C25_scan.
(** The stamped stylesheet is determined by the stylesheet and the hashes, and
    stamping it again changes nothing. *)
Theorem C25_idempotent : forall F relpath read b (ts out : list (@token F)),
  stamped relpath read b ts out -> stamped relpath read b out out /\ forall out2, stamped relpath read b ts out2 -> out2 = out.
Proof. exact (fun F relpath read b ts out H => conj (stamped_again relpath read b ts out H) (fun out2 H2 => eq_sym (stamped_function relpath read b ts out H out2 H2))). Qed.
Print Assumptions C25_idempotent.
(** Protocol-relative urls and fragments are taken for files of the project: a build
    that meets one succeeds only if a file of that odd name exists. *)
Theorem C25_other_urls_refuted : forall F relpath (ts : list (@token F)),
  (relpath <> lit "/cdn.example/x.png" -> needs relpath false (TUrl (lit "//cdn.example/x.png") :: ts) (lit "/cdn.example/x.png.hash")) /\
  (relpath <> lit "src/public/font.svg#icon" -> needs relpath false (TUrl (lit "/font.svg#icon") :: ts) (lit "out/www/font.svg#icon.hash")).
Proof. exact @odd_urls. Qed.
Print Assumptions C25_other_urls_refuted.
