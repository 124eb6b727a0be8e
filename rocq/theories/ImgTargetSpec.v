(** Vocabulary for the folders of images. *)
From Verif Require Import Base Graph Json PyPath ImgExport ImgTarget.
From Coq Require Import String ZArith NArith Bool List.
Import ListNotations.
Open Scope list_scope.
Open Scope Z_scope.

Section Spec.
Context {T : Type}.
(** the equality of targets is an equality *)
Definition equality (teqb : T -> T -> bool) : Prop := forall a b, teqb a b = true <-> a = b.
(** the folder is for this target: it was exported from the same contents and settings, or
    nothing was exported yet and it was reserved *)
Definition matching (settings_hash : Z) (contents_hash : str) (t : T) (e : entry T) : Prop :=
  is_dir e = true /\
  match e_metadata e with
  | Some m => m_settings_hash m = settings_hash /\ m_contents_hash m = contents_hash /\ m_target m = t
  | None => e_placeholder e = Some t
  end.
(** the folder was exported with the same settings from an image that has changed since *)
Definition outdated (settings_hash : Z) (contents_hash : str) (e : entry T) : Prop :=
  is_dir e = true /\ exists m, e_metadata e = Some m /\ m_settings_hash m = settings_hash /\ m_contents_hash m <> contents_hash.
(** a missing folder is as an empty one *)
Definition taken (f : option (folder T)) : folder T := match f with None => {| counter := None; entries := [] |} | Some f => f end.
(** as [reserve_target] leaves it: the numbers up to the counter may be taken, and only folders
    named by a number hold metadata or placeholders *)
Definition proper (f : folder T) : Prop :=
  dict_wf (entries f) /\ exists n, 0 <= n /\ (counter f = Some (print_Z n) \/ (counter f = None /\ n = 0)) /\
  forall name e, In (name, e) (entries f) ->
    (forall z, name = print_Z z -> z <= n) /\ (e_metadata e <> None \/ e_placeholder e <> None -> exists z, name = print_Z z).

(** * Several processes *)
(** all are about to call [get_or_reserve_target]; folders are numbered up to the counter,
    and only folders that are there have metadata *)
Definition start (metas : Z -> option (metadata T)) (s : @state T) : Prop :=
  lock s = None /\ (forall p, procs s p = Looking) /\ (forall id, metas id <> None -> zget id (placeholders s) <> None) /\
  match count s with
  | None => placeholders s = []
  | Some (Some n) => 0 <= n /\ forall id, zget id (placeholders s) <> None -> id <= n
  | Some None => True
  end.
(** what the call of [p] has returned *)
Definition returned (s : @state T) (p : nat) (id : Z) : Prop := procs s p = Found id \/ procs s p = Reserved id.
End Spec.
