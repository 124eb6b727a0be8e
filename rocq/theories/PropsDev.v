(** C44 and C45: the watcher of the development server. *)
From Verif Require Import Base Dev DevSpec DevProofs.
From Coq Require Import String ZArith NArith Bool List.
Import ListNotations.
Open Scope list_scope.

(** In every history of file events, successful and failed rebuilds, each rebuild is
    told of every file whether it was added, changed or deleted since the last
    successful build, and of no other file. *)
Theorem C44_classified : forall debounce w h now b h', history debounce w h -> take debounce now h = Some (b, h') -> right w (b_deleted b) (b_changed b) (b_created b).
Proof. exact batch_right. Qed.
Print Assumptions C44_classified.
Example C44_classified_ok : exists w h, history 10 w h /\ right w [lit "b.js"] [] [lit "c.js"] /\ take 10 50 h <> None.
Proof. exact ex_history. Qed.
(** An event during a successful rebuild counts as one after it. *)
Theorem C44_during_success : forall e now h, succeeded (on_event e now h) = on_event e now (succeeded h).
Proof. exact success_event. Qed.
Print Assumptions C44_during_success.
(** A move onto a file that was there at the last build reports the file as new. *)
Theorem C44_overwrite_refuted : let h := on_event (Moved (lit "a.js") (lit "b.js")) 0 (new_watcher 0) in
  In (lit "b.js") (created h) /\ ~ In (lit "b.js") (changed h) /\ two_files (lit "b.js") = true.
Proof. exact overwrite_wrong. Qed.
Print Assumptions C44_overwrite_refuted.

(** After a failed rebuild exactly the same changes are pending as before it, and no
    rebuild is attempted at any later time without a new event. *)
Theorem C45_kept : forall debounce w h now b h', history debounce w h -> take debounce now h = Some (b, h') ->
  (forall x, (In x (deleted (failed (now_there w) b h')) <-> In x (deleted h)) /\ (In x (changed (failed (now_there w) b h')) <-> In x (changed h)) /\
             (In x (created (failed (now_there w) b h')) <-> In x (created h))) /\
  forall later, take debounce later (failed (now_there w) b h') = None.
Proof. exact (fun d w h now b h' H Ht => conj (failure_kept d w h now b h' H Ht) (fun later => failure_waits (now_there w) b h' d later)). Qed.
Print Assumptions C45_kept.
(** After any event, as soon as the debounce time is over, a rebuild is attempted if any
    file differs from the last successful build or was touched since. *)
Theorem C45_retried : forall debounce w h e at_time now, history debounce w h -> possible e w -> (debounce <= now - at_time)%Z ->
  (exists x, at_build w x <> there_after e (now_there w) x \/ (at_build w x = true /\ (touched w x \/ about e x))) ->
  exists b h', take debounce now (on_event e at_time h) = Some (b, h') /\ right (after e w) (b_deleted b) (b_changed b) (b_created b).
Proof. exact event_retries. Qed.
Print Assumptions C45_retried.
Example C45_retried_ok : possible (Modified (lit "a.js")) (just_built two_files) /\ at_build (just_built two_files) (lit "a.js") = true.
Proof. split; reflexivity. Qed.
(** An event that falls into a failing rebuild can leave the file wrongly classified:
    here a new file that is written or deleted during the rebuild. *)
Theorem C45_during_refuted : forall e, e = Modified (lit "a.js") \/ e = Deleted (lit "a.js") ->
  exists w h b h', history 0 w h /\ take 0 0 h = Some (b, h') /\ possible e w /\
    ~ right (after e w) (deleted (failed (now_there (after e w)) b (on_event e 0 h'))) (changed (failed (now_there (after e w)) b (on_event e 0 h'))) (created (failed (now_there (after e w)) b (on_event e 0 h'))).
Proof. exact during_wrong. Qed.
Print Assumptions C45_during_refuted.
(** Nor does it lead to another attempt: the repair of a source while a rebuild is
    failing is not picked up. *)
Theorem C45_during_waits_refuted : forall e at_time exists_ b h debounce now, take debounce now (failed exists_ b (on_event e at_time h)) = None.
Proof. exact during_waits. Qed.
Print Assumptions C45_during_waits_refuted.
