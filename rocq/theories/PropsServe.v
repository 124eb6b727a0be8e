(** C79: what [run] and [dev --watch] do about the web server's threads, an interrupt and the working directory. *)
From Coq Require Import List.
From Verif Require Import Serve ServeSpec ServeProofs.
Import ListNotations.

(** However the threads take turns and whatever happens: on its way out, the command is back in the folder it was called in. *)
Theorem C79_cwd : forall watch bind config index l, let s := after watch bind config index l begin in
  leaving s -> s_www s = false.
Proof. intros watch bind config index l. apply cwd_back. Qed.
Print Assumptions C79_cwd.
Example C79_cwd_meets : leaving (after false true true true [Main; Main; Main; Interrupt; Main] begin) /\ s_www (after false true true true [Main; Main; Main] begin) = true.
Proof. split; [exists Interrupted; left|]; reflexivity. Qed.

(** Without the configuration or the built site nothing is ever served. *)
Theorem C79_refuses : forall watch bind config index l, let s := after watch bind config index l begin in
  config = false \/ index = false -> s_server s = NotYet /\ s_uvicorn s = Absent /\ s_www s = false.
Proof. intros watch bind config index l. apply refuses. Qed.
Print Assumptions C79_refuses.
Example C79_refuses_meets : s_main (after false true true false [Main; Main; Server; Uvicorn; Main] begin) = Ended Exited.
Proof. reflexivity. Qed.

(** While the port is served, the working directory is out/www: always for [run], in the main loop for [dev --watch]. *)
Theorem C79_folder : forall watch bind config index l, let s := after watch bind config index l begin in
  s_uvicorn s = Serving -> watch = false \/ s_main s = Loop -> s_www s = true.
Proof. intros watch bind config index l. apply serves_www. Qed.
Print Assumptions C79_folder.
Definition up : list happening := [Main; Main; Main; Main; Main; Main; Server; Uvicorn; Server].
Example C79_folder_meets : forall watch, let s := after watch true true true up begin in s_uvicorn s = Serving /\ s_main s = Loop.
Proof. intros [|]; split; reflexivity. Qed.

(** After [run] nothing is left that serves. *)
Theorem C79_clean : forall bind config index l, let s := after false bind config index l begin in
  ended s -> s_uvicorn s = Absent \/ s_uvicorn s = Dead.
Proof. intros bind config index l. apply ends_clean. reflexivity. Qed.
Print Assumptions C79_clean.
Definition all_three : list happening := [Uvicorn; Main; Server].
Example C79_clean_meets : let s := after false true true true (up ++ [Interrupt] ++ concat (repeat all_three 6)) begin in ended s /\ s_uvicorn s = Dead.
Proof. split; [exists Returned|]; vm_compute; reflexivity. Qed.

(** Once an interrupt has been noted and if the port is free, fourteen rounds end the command, in whatever order the threads take turns. *)
Theorem C79_stops : forall watch config index l rounds, let s := after watch true config index l begin in
  s_event s = true -> Forall round rounds -> 14 <= length rounds -> ended (after watch true config index (concat rounds) s).
Proof. intros watch config index l rounds. apply stops. reflexivity. Qed.
Print Assumptions C79_stops.
Example C79_stops_meets : s_event (after false true true true (up ++ [Interrupt]) begin) = true /\ Forall round (repeat all_three 14) /\ ~ ended (after false true true true (up ++ [Interrupt]) begin).
Proof.
  split; [reflexivity|]. split; [|intros (r & E); discriminate E].
  apply Forall_forall. intros l I. apply repeat_spec in I. subst l. unfold round, all_three. cbn. tauto.
Qed.

(** Every interrupt after the signal handler is set is noted, as long as the command has not ended. *)
Theorem C79_noted : forall watch bind config index l, let s := after watch bind config index l begin in
  s_main s = Spawn \/ s_main s = Observe \/ s_main s = Loop -> s_event (turn watch bind config index s Interrupt) = true.
Proof. intros watch bind config index l. apply noted. Qed.
Print Assumptions C79_noted.
Example C79_noted_meets : s_main (after false true true true up begin) = Loop /\ s_event (after false true true true up begin) = false.
Proof. split; reflexivity. Qed.

(** A command that returns normally has told its server to stop, also if it ends because the observer died. *)
Theorem C79_told : forall watch bind config index l, let s := after watch bind config index l begin in
  s_main s = Leave Returned \/ s_main s = Ended Returned -> s_event s = true.
Proof. intros watch bind config index l. apply told. Qed.
Print Assumptions C79_told.
Example C79_told_meets : s_main (after true true true true (up ++ [ObserverDies; Main; Main]) begin) = Leave Returned /\ s_main (after false true true true (up ++ [Interrupt] ++ concat (repeat all_three 6)) begin) = Ended Returned.
Proof. split; vm_compute; reflexivity. Qed.

(** Undisturbed, neither command ends by itself, whether the port is free or not. *)
Theorem C79_stays : forall watch bind l, undisturbed l -> ~ leaving (after watch bind true true l begin).
Proof. intros watch bind l. apply stays; reflexivity. Qed.
Print Assumptions C79_stays.
Example C79_stays_meets : undisturbed (up ++ concat (repeat all_three 5)).
Proof. repeat split; cbn; intros I; repeat (destruct I as [I|I]; [discriminate I|]); exact I. Qed.

(** Undisturbed and with a free port, the site is served after nine rounds, and from then on. *)
Theorem C79_serves : forall watch rounds, Forall round rounds -> undisturbed (concat rounds) -> 9 <= length rounds ->
  let s := after watch true true true (concat rounds) begin in s_uvicorn s = Serving /\ s_main s = Loop /\ s_www s = true.
Proof.
  intros watch rounds F U L s. destruct (comes_up watch true true true rounds eq_refl eq_refl eq_refl F U L) as (A & B).
  split; [exact A|]. split; [exact B|]. apply (C79_folder watch true true true (concat rounds) A). right. exact B.
Qed.
Print Assumptions C79_serves.
Example C79_serves_meets : Forall round (repeat all_three 9) /\ undisturbed (concat (repeat all_three 9)) /\ s_uvicorn (after true true true true (concat (repeat all_three 5)) begin) <> Serving.
Proof.
  split; [|split; [repeat split; cbn; intros I; repeat (destruct I as [I|I]; [discriminate I|]); exact I|vm_compute; discriminate]].
  apply Forall_forall. intros l I. apply repeat_spec in I. subst l. unfold round, all_three. cbn. tauto.
Qed.

(** If the port is taken, [run] never ends: no interrupt stops it, and nothing is served. *)
Theorem C79_hangs : forall config index l l', let s := after false false config index l begin in
  s_main s = Loop -> let s' := after false false config index l' s in s_main s' = Loop /\ s_uvicorn s' <> Serving.
Proof. intros config index l l' s E. exact (hangs false false config index l l' eq_refl eq_refl E). Qed.
Print Assumptions C79_hangs.
Example C79_hangs_meets : let s := after false false true true (up ++ [Interrupt]) begin in s_main s = Loop /\ s_event s = true /\ s_uvicorn s = Dead.
Proof. repeat split; reflexivity. Qed.

(** So "an interrupt ends the command" is false as it stands. *)
Theorem C79_interrupt_refuted : ~ (forall watch bind config index l, let s := after watch bind config index l begin in
  s_event s = true -> exists n, forall rounds, Forall round rounds -> n <= length rounds -> ended (after watch bind config index (concat rounds) s)).
Proof.
  intros H. destruct (H false false true true (up ++ [Interrupt]) eq_refl) as (n & Hn).
  assert (F : Forall round (repeat all_three n)) by (apply Forall_forall; intros l I; apply repeat_spec in I; subst l; unfold round, all_three; cbn; tauto).
  destruct (Hn _ F ltac:(rewrite repeat_length; auto)) as (r & E).
  destruct (C79_hangs true true (up ++ [Interrupt]) (concat (repeat all_three n)) eq_refl) as (E' & _). congruence.
Qed.
Print Assumptions C79_interrupt_refuted.

(** In [dev --watch] the port can be served while the working directory is the folder the command was called in. *)
Theorem C79_watch_refuted : ~ (forall l, let s := after true true true true l begin in s_uvicorn s = Serving -> s_www s = true).
Proof. intros H. specialize (H (up ++ [RebuildRaises; Main]) eq_refl). discriminate H. Qed.
Print Assumptions C79_watch_refuted.
Theorem C79_observer_refuted : ~ (forall l, ~ In RebuildRaises l -> let s := after true true true true l begin in s_uvicorn s = Serving -> s_www s = true).
Proof.
  intros H. specialize (H (up ++ [ObserverDies; Main; Main])). discriminate H; [|reflexivity].
  cbn. intros I. repeat (destruct I as [I|I]; [discriminate I|]). exact I.
Qed.
Print Assumptions C79_observer_refuted.
