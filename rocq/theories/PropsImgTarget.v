(** C40: folders of images are reserved once.
    [start metas s]: nobody has begun, [steps … s s']: any interleaving of any number of
    processes, each of which may be killed at any point. *)
From Verif Require Import Base Graph Json PyPath ImgExport ImgTarget ImgTargetSpec ImgTargetProofs ImgTargetExample.
From Coq Require Import String ZArith NArith Bool List Permutation.
Import ListNotations.
Open Scope list_scope.
Open Scope Z_scope.

(** An id is given to one caller only, ever ([s'] is any later state). *)
Theorem C40_unique : forall T (teqb : T -> T -> bool) target sh ch metas s0 s s' p q id, equality teqb ->
  start metas s0 -> steps teqb target sh ch metas s0 s -> steps teqb target sh ch metas s s' ->
  procs s p = Reserved id -> procs s' q = Reserved id -> p = q.
Proof. intros T teqb target sh ch metas s0 s s' p q id EQ. exact (unique teqb EQ target sh ch metas s0 s s' p q id). Qed.
Print Assumptions C40_unique.

(** It is not the id of a folder that was there, and its folder is marked as the caller's. *)
Theorem C40_new : forall T (teqb : T -> T -> bool) target sh ch metas s0 s p id, equality teqb ->
  start metas s0 -> steps teqb target sh ch metas s0 s -> procs s p = Reserved id ->
  zget id (placeholders s0) = None /\ zget id (placeholders s) = Some (Some (target p)).
Proof. intros T teqb target sh ch metas s0 s p id EQ. exact (new teqb EQ target sh ch metas s0 s p id). Qed.
Print Assumptions C40_new.

(** Callers that get the same id, reserved or found, wanted the same target. *)
Theorem C40_targets : forall T (teqb : T -> T -> bool) target sh ch metas s0 s p q id, equality teqb ->
  start metas s0 -> steps teqb target sh ch metas s0 s -> returned s p id -> returned s q id -> target p = target q.
Proof. intros T teqb target sh ch metas s0 s p q id EQ. exact (apart_targets teqb EQ target sh ch metas s0 s p q id). Qed.
Print Assumptions C40_targets.

(** What is found is the caller's: exported for it, or reserved for it and not yet exported. *)
Theorem C40_found : forall T (teqb : T -> T -> bool) target sh ch metas s0 s p id, equality teqb ->
  start metas s0 -> steps teqb target sh ch metas s0 s -> procs s p = Found id ->
  (exists m, metas id = Some m /\ m_settings_hash m = sh /\ m_contents_hash m = ch /\ m_target m = target p) \/
  (metas id = None /\ zget id (placeholders s) = Some (Some (target p))).
Proof. intros T teqb target sh ch metas s0 s p id EQ. exact (found_match teqb EQ target sh ch metas s0 s p id). Qed.
Print Assumptions C40_found.

(** The hypotheses are met: two processes, two targets, folder 4 already there. *)
Example C40_run : start ex_metas ex_start /\ exists s, steps Z.eqb ex_target 7 (lit "h") ex_metas ex_start s /\
  procs s 1%nat = Reserved 5 /\ procs s 2%nat = Reserved 6 /\ procs s 3%nat = Found 5 /\ procs s 4%nat = Dead.
Proof. exact ex_run. Qed.

(** Asking again, whatever order the folders are listed in, reserves nothing, and gives the
    id reserved before. *)
Theorem C40_again : forall T (teqb : T -> T -> bool) sh ch t (f : option (folder T)) z g l, equality teqb ->
  proper (taken f) -> (forall name e, In (name, e) (entries (taken f)) -> ~ outdated sh ch e) ->
  get_or_reserve_target teqb true (Ret sh) ch t f = Ret (z, g) -> Permutation l (entries (taken g)) ->
  exists z', get_or_reserve_target teqb true (Ret sh) ch t (Some {| counter := counter (taken g); entries := l |}) = Ret (z', Some {| counter := counter (taken g); entries := l |}) /\
    ((forall name e, In (name, e) (entries (taken f)) -> ~ matching sh ch t e) -> z' = z).
Proof. intros T teqb sh ch t f z g l EQ. exact (again teqb EQ sh ch t f z g l). Qed.
Print Assumptions C40_again.

Example C40_again_case : proper (taken (Some ex_folder)) /\ (forall name e, In (name, e) (entries ex_folder) -> ~ outdated 7 (lit "h") e) /\
  (forall name e, In (name, e) (entries ex_folder) -> ~ matching 7 (lit "h") 20 e) /\
  exists g, get_or_reserve_target Z.eqb true (Ret 7) (lit "h") 20 (Some ex_folder) = Ret (3, g).
Proof. exact ex_again. Qed.

(** Asking for another target never gives that id. *)
Theorem C40_other : forall T (teqb : T -> T -> bool) sh ch t t' (f : option (folder T)) z z' g g', equality teqb ->
  proper (taken f) -> get_or_reserve_target teqb true (Ret sh) ch t f = Ret (z, g) -> get_or_reserve_target teqb true (Ret sh) ch t' g = Ret (z', g') -> t <> t' -> z <> z'.
Proof. intros T teqb sh ch t t' f z z' g g' EQ. exact (other teqb EQ sh ch t t' f z z' g g'). Qed.
Print Assumptions C40_other.

(** Two concurrent callers may however get two ids for one target (the images are then
    exported twice). *)
Theorem C40_twice_refuted : exists s, steps Z.eqb (fun _ => 10) 7 (lit "h") ex_metas ex_start s /\ procs s 1%nat = Reserved 5 /\ procs s 2%nat = Reserved 6.
Proof. exact ex_twice. Qed.
Print Assumptions C40_twice_refuted.

(** A process killed between opening and writing counter.txt leaves it empty: from then on
    no caller ever gets a new id. *)
Theorem C40_killed_refuted : exists s, steps Z.eqb ex_target 7 (lit "h") ex_metas ex_start s /\
  forall s' p id, steps Z.eqb ex_target 7 (lit "h") ex_metas s s' -> procs s' p <> Reserved id.
Proof. exact ex_killed. Qed.
Print Assumptions C40_killed_refuted.

(** A folder exported from an earlier version of the image makes looking for a target fail
    with TypeError, unless a folder listed before it matches. *)
Theorem C40_edited_refuted : forall T (teqb : T -> T -> bool) sh ch t l name e r, equality teqb ->
  (forall n x, In (n, x) l -> ~ matching sh ch t x) -> outdated sh ch e ->
  get_or_reserve_target teqb true (Ret sh) ch t (Some {| counter := Some (lit "1"); entries := l ++ (name, e) :: r |}) = Raise TypeError.
Proof. intros T teqb sh ch t l name e r EQ. exact (edited teqb EQ sh ch t l name e r). Qed.
Print Assumptions C40_edited_refuted.

Example C40_edited_case : outdated 7 (lit "h2") {| is_dir := true; e_metadata := Some (ex_meta (lit "h")); e_placeholder := Some 10 |}.
Proof. exact ex_edited. Qed.

(** Images that differ only in their extension share their folders. *)
Theorem C40_extension_refuted : forall id, target_art (lit "img/a.jpg") id = target_art (lit "img/a.png") id /\ metadata_path (lit "img/a.jpg") id = metadata_path (lit "img/a.png") id.
Proof. exact extension. Qed.
Print Assumptions C40_extension_refuted.
