(** Further proofs, and cases, about the folders of images. *)
From Verif Require Import Base Graph Json JsonProofs PyPath ImgExport ImgExportProofs ImgTarget ImgTargetSpec ImgTargetProofs.
From Coq Require Import String ZArith NArith Bool List Lia Permutation Arith.
Import ListNotations.
Open Scope list_scope.
Open Scope Z_scope.

Section One.
Context {T : Type} (teqb : T -> T -> bool) (EQ : equality teqb) (sh : Z) (ch : str).
Lemma named (f : folder T) name e z : proper f -> In (name, e) (entries f) -> (e_metadata e <> None \/ e_placeholder e <> None) -> int_of name = Ret z -> name = print_Z z.
Proof using.
  intros (_ & n & _ & _ & B) I M E. destruct (B _ _ I) as [_ B2]. destruct (B2 M) as [k ->]. rewrite int_print in E. injection E as ->. reflexivity.
Qed.
Lemma matching_has t (e : entry T) : matching sh ch t e -> e_metadata e <> None \/ e_placeholder e <> None.
Proof using. intros [_ M]. destruct (e_metadata e); [left; discriminate|right; congruence]. Qed.
Lemma matching_fun t t' (e : entry T) : matching sh ch t e -> matching sh ch t' e -> t = t'.
Proof using. intros [_ M] [_ M']. destruct (e_metadata e); [destruct M as (_ & _ & M), M' as (_ & _ & M')|]; congruence. Qed.
Lemma got t (f : option (folder T)) z g : proper (taken f) -> get_or_reserve_target teqb true (Ret sh) ch t f = Ret (z, g) -> proper (taken g) /\ exists e, In (print_Z z, e) (entries (taken g)) /\ matching sh ch t e.
Proof using EQ.
  intros P G. unfold get_or_reserve_target, get_target in G. cbn [negb] in G.
  assert (R : match reserve_target t f with Raise e => Raise e | Ret (z, f0) => Ret (z, Some f0) end = Ret (z, g) -> proper (taken g) /\ exists e, In (print_Z z, e) (entries (taken g)) /\ matching sh ch t e).
  { intros X. destruct (reserve_ok teqb EQ sh ch t f P) as (z' & g' & R1 & R2 & _ & _ & R5). rewrite R1 in X. injection X as -> <-. cbn [taken]. split; [exact R2|]. exists (fresh_entry t). rewrite R5. split; [apply in_app_iff; right; left; reflexivity|split; reflexivity]. }
  destruct f as [f|]; [|exact (R G)]. destruct (look teqb sh ch t (entries f)) as [[k|]|x] eqn:L; [|exact (R G)|discriminate G]. injection G as -> <-. split; [exact P|]. destruct (look_some teqb EQ sh ch t _ _ L) as (name & e & I & M & E). cbn [taken] in *. exists e. rewrite <- (named f name e z P I (matching_has _ _ M) E). auto.
Qed.
Lemma kept t (f : option (folder T)) z g name e : proper (taken f) -> get_or_reserve_target teqb true (Ret sh) ch t f = Ret (z, g) -> In (name, e) (entries (taken f)) -> In (name, e) (entries (taken g)).
Proof using EQ.
  intros P G I. unfold get_or_reserve_target, get_target in G. cbn [negb] in G.
  assert (R : match reserve_target t f with Raise e => Raise e | Ret (z, f0) => Ret (z, Some f0) end = Ret (z, g) -> In (name, e) (entries (taken g))).
  { intros X. destruct (reserve_ok teqb EQ sh ch t f P) as (z' & g' & R1 & R2 & _ & _ & R5). rewrite R1 in X. injection X as -> <-. cbn [taken]. rewrite R5. apply in_app_iff. left. exact I. }
  destruct f as [f|]; [|exact (R G)]. destruct (look teqb sh ch t (entries f)) as [[k|]|x] eqn:L; [|exact (R G)|discriminate G]. injection G as -> <-. exact I.
Qed.
Lemma other t t' (f : option (folder T)) z z' g g' : proper (taken f) -> get_or_reserve_target teqb true (Ret sh) ch t f = Ret (z, g) -> get_or_reserve_target teqb true (Ret sh) ch t' g = Ret (z', g') -> t <> t' -> z <> z'.
Proof using EQ.
  intros P G G' N ->. destruct (got t f z' g P G) as (Pg & e & I & M). destruct (got t' g z' g' Pg G') as ((W & _) & e' & I' & M'). pose proof (kept t' g z' g' _ _ Pg G' I) as J. apply N.
  assert (e = e') as ->; [|exact (matching_fun _ _ _ M M')]. apply In_dget in J; [|exact W]. apply In_dget in I'; [|exact W]. congruence.
Qed.
Lemma edited t l name (e : entry T) r : (forall n x, In (n, x) l -> ~ matching sh ch t x) -> outdated sh ch e -> get_or_reserve_target teqb true (Ret sh) ch t (Some {| counter := Some (lit "1"); entries := l ++ (name, e) :: r |}) = Raise TypeError.
Proof using EQ. intros N O. unfold get_or_reserve_target, get_target. cbn [negb entries]. rewrite (look_outdated teqb EQ sh ch t l name e r N O). reflexivity. Qed.
End One.
Lemma extension id : target_art (lit "img/a.jpg") id = target_art (lit "img/a.png") id /\ metadata_path (lit "img/a.jpg") id = metadata_path (lit "img/a.png") id.
Proof. split; reflexivity. Qed.

(** * Cases *)
Definition ex_meta (h : str) : metadata Z := {| m_settings_hash := 7; m_source := lit "/a.png"; m_width := 1; m_height := 1; m_contents_hash := h; m_target := 10; m_outputs := [] |}.
Definition ex_metas (id : Z) : option (metadata Z) := if id =? 4 then Some (ex_meta (lit "h0")) else None.
Definition ex_start : @state Z := {| lock := None; count := Some (Some 4); placeholders := [(4, Some 10)]; procs := fun _ => Looking |}.
Definition ex_target (p : nat) : Z := match p with 1%nat | 3%nat => 10 | _ => 20 end.
Lemma Z_equality : equality Z.eqb. Proof. intros a b. apply Z.eqb_eq. Qed.
Lemma ex_start_ok : start ex_metas ex_start.
Proof.
  split; [reflexivity|]. split; [reflexivity|]. split.
  - intros id. unfold ex_metas. cbn [ex_start placeholders zget]. destruct (id =? 4); [discriminate|intros X; exfalso; apply X; reflexivity].
  - cbn. split; [lia|]. intros id. destruct (id =? 4) eqn:E; [apply Z.eqb_eq in E; lia|intros X; exfalso; apply X; reflexivity].
Qed.
Lemma first {T} (teqb : T -> T -> bool) tg sh ch mt s s' s'' : step teqb tg sh ch mt s s' -> steps teqb tg sh ch mt s' s'' -> steps teqb tg sh ch mt s s''.
Proof. intros A B. apply (steps_trans teqb tg sh ch mt s s' s''); [|exact B]. eapply Then; [apply Done|exact A]. Qed.
Ltac go c := eapply first; [eapply c; try reflexivity; try (intros ?; split; discriminate); try exact Logic.I; try discriminate|].
Lemma ex_run : start ex_metas ex_start /\ exists s, steps Z.eqb ex_target 7 (lit "h") ex_metas ex_start s /\
  procs s 1%nat = Reserved 5 /\ procs s 2%nat = Reserved 6 /\ procs s 3%nat = Found 5 /\ procs s 4%nat = Dead.
Proof.
  split; [exact ex_start_ok|]. eexists. split.
  - go (SMeta Z.eqb ex_target 7 (lit "h") ex_metas 4%nat 4 (ex_meta (lit "h0"))).
    go (SNone Z.eqb ex_target 7 (lit "h") ex_metas 1%nat). go (SNone Z.eqb ex_target 7 (lit "h") ex_metas 2%nat).
    go (SLock Z.eqb ex_target 7 (lit "h") ex_metas 1%nat). go (SRead Z.eqb ex_target 7 (lit "h") ex_metas 1%nat 4).
    go (STruncate Z.eqb ex_target 7 (lit "h") ex_metas 1%nat 5). go (SWrite Z.eqb ex_target 7 (lit "h") ex_metas 1%nat 5).
    go (SMake Z.eqb ex_target 7 (lit "h") ex_metas 1%nat 5). go (SNoMeta Z.eqb ex_target 7 (lit "h") ex_metas 3%nat 5).
    go (SPlace Z.eqb ex_target 7 (lit "h") ex_metas 1%nat 5). go (SUnlock Z.eqb ex_target 7 (lit "h") ex_metas 1%nat 5).
    go (SLock Z.eqb ex_target 7 (lit "h") ex_metas 2%nat). go (SRead Z.eqb ex_target 7 (lit "h") ex_metas 2%nat 5).
    go (STruncate Z.eqb ex_target 7 (lit "h") ex_metas 2%nat 6). go (SWrite Z.eqb ex_target 7 (lit "h") ex_metas 2%nat 6).
    go (SMake Z.eqb ex_target 7 (lit "h") ex_metas 2%nat 6). go (SPlace Z.eqb ex_target 7 (lit "h") ex_metas 2%nat 6). go (SUnlock Z.eqb ex_target 7 (lit "h") ex_metas 2%nat 6).
    go (SLockC Z.eqb ex_target 7 (lit "h") ex_metas 3%nat 5). go (SCheckYes Z.eqb ex_target 7 (lit "h") ex_metas 3%nat 5 10).
    go (SKill Z.eqb ex_target 7 (lit "h") ex_metas 4%nat). apply Done.
  - repeat split.
Qed.
Lemma ex_twice : exists s, steps Z.eqb (fun _ => 10) 7 (lit "h") ex_metas ex_start s /\ procs s 1%nat = Reserved 5 /\ procs s 2%nat = Reserved 6.
Proof.
  eexists. split.
  - go (SNone Z.eqb (fun _ => 10) 7 (lit "h") ex_metas 1%nat). go (SNone Z.eqb (fun _ => 10) 7 (lit "h") ex_metas 2%nat).
    go (SLock Z.eqb (fun _ => 10) 7 (lit "h") ex_metas 1%nat). go (SRead Z.eqb (fun _ => 10) 7 (lit "h") ex_metas 1%nat 4).
    go (STruncate Z.eqb (fun _ => 10) 7 (lit "h") ex_metas 1%nat 5). go (SWrite Z.eqb (fun _ => 10) 7 (lit "h") ex_metas 1%nat 5).
    go (SMake Z.eqb (fun _ => 10) 7 (lit "h") ex_metas 1%nat 5).
    go (SPlace Z.eqb (fun _ => 10) 7 (lit "h") ex_metas 1%nat 5). go (SUnlock Z.eqb (fun _ => 10) 7 (lit "h") ex_metas 1%nat 5).
    go (SLock Z.eqb (fun _ => 10) 7 (lit "h") ex_metas 2%nat). go (SRead Z.eqb (fun _ => 10) 7 (lit "h") ex_metas 2%nat 5).
    go (STruncate Z.eqb (fun _ => 10) 7 (lit "h") ex_metas 2%nat 6). go (SWrite Z.eqb (fun _ => 10) 7 (lit "h") ex_metas 2%nat 6).
    go (SMake Z.eqb (fun _ => 10) 7 (lit "h") ex_metas 2%nat 6). go (SPlace Z.eqb (fun _ => 10) 7 (lit "h") ex_metas 2%nat 6). go (SUnlock Z.eqb (fun _ => 10) 7 (lit "h") ex_metas 2%nat 6).
    apply Done.
  - repeat split.
Qed.
Lemma ex_killed : exists s, steps Z.eqb ex_target 7 (lit "h") ex_metas ex_start s /\ forall s' p id, steps Z.eqb ex_target 7 (lit "h") ex_metas s s' -> procs s' p <> Reserved id.
Proof.
  eexists. split.
  - go (SNone Z.eqb ex_target 7 (lit "h") ex_metas 1%nat). go (SLock Z.eqb ex_target 7 (lit "h") ex_metas 1%nat). go (SRead Z.eqb ex_target 7 (lit "h") ex_metas 1%nat 4).
    go (STruncate Z.eqb ex_target 7 (lit "h") ex_metas 1%nat 5). go (SKill Z.eqb ex_target 7 (lit "h") ex_metas 1%nat). apply Done.
  - intros s' p id St E. apply stuck in St; [|reflexivity|].
    + destruct St as [_ St]. specialize (St p). rewrite E in St. exact St.
    + intros q. cbn. destruct (Nat.eqb q 1); exact I.
Qed.
Definition ex_folder : folder Z := {| counter := Some (lit "2"); entries :=
  [(lit "counter.txt", {| is_dir := false; e_metadata := None; e_placeholder := None |}); (lit "2", {| is_dir := true; e_metadata := None; e_placeholder := Some 10 |});
   (lit "1", {| is_dir := true; e_metadata := Some (ex_meta (lit "h")); e_placeholder := Some 30 |})] |}.
Lemma ex_again : proper (taken (Some ex_folder)) /\ (forall name e, In (name, e) (entries ex_folder) -> ~ outdated 7 (lit "h") e) /\
  (forall name e, In (name, e) (entries ex_folder) -> ~ matching 7 (lit "h") 20 e) /\
  exists g, get_or_reserve_target Z.eqb true (Ret 7) (lit "h") 20 (Some ex_folder) = Ret (3, g).
Proof.
  split; [|split; [|split]].
  - split.
    + unfold dict_wf, dkeys. cbn. repeat apply NoDup_cons; try apply NoDup_nil; intros X; repeat (destruct X as [X|X]; [discriminate X|]); exact X.
    + exists 2. split; [lia|]. split; [left; reflexivity|]. intros name e I. cbn in I. destruct I as [I|[I|[I|[]]]]; injection I as <- <-.
      * split; [|cbn; intros [X|X]; exfalso; apply X; reflexivity]. intros z E. apply (f_equal parse_Z) in E. rewrite parse_Z_print in E. vm_compute in E. discriminate E.
      * split; [|exists 2; reflexivity]. intros z E. apply (f_equal parse_Z) in E. rewrite parse_Z_print in E. vm_compute in E. injection E as <-. lia.
      * split; [|exists 1; reflexivity]. intros z E. apply (f_equal parse_Z) in E. rewrite parse_Z_print in E. vm_compute in E. injection E as <-. lia.
  - intros name e I. cbn in I. destruct I as [I|[I|[I|[]]]]; injection I as <- <-; intros (D & m & M & A & B); try discriminate. cbn in M. injection M as <-. apply B. reflexivity.
  - intros name e I. cbn in I. destruct I as [I|[I|[I|[]]]]; injection I as <- <-; intros (D & M); try discriminate. cbn in M. destruct M as (_ & _ & M). discriminate M.
  - eexists. vm_compute. reflexivity.
Qed.
Lemma ex_edited : outdated 7 (lit "h2") {| is_dir := true; e_metadata := Some (ex_meta (lit "h")); e_placeholder := Some 10 |}.
Proof. split; [reflexivity|]. exists (ex_meta (lit "h")). split; [reflexivity|]. split; [reflexivity|]. discriminate. Qed.
