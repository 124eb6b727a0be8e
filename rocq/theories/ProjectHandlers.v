(** The builds of Project.v and those of Handlers.v. *)
From Verif Require Import Base Graph GraphSpec GraphProofs Handlers HandlersProofs Hot HotSpec Project.
From Coq Require Import String ZArith NArith Bool List.
Import ListNotations.
Open Scope list_scope.

(** the same result and the same folder afterwards *)
Definition same_result (F : dict str) (a : option build_result) (b : res (Handlers.built * dict str)) : Prop :=
  match a, b with
  | None, Raise _ => True
  | Some r, Ret (h, F') => b_children r = Handlers.children h /\ map fst (b_produced r) = Handlers.produced h /\ b_reused r = Handlers.reused h /\
      forall p, apply_build r (fun p => dget p F) p = dget p F'
  | _, _ => False
  end.
Lemma writes_ext ws s1 s2 : (forall p, s1 p = s2 p) -> forall p, apply_writes ws s1 p = apply_writes ws s2 p.
Proof. revert s1 s2. induction ws as [|[o x] ws IH]; intros s1 s2 H; [exact H|]. apply (IH (fs_set o x s1) (fs_set o x s2)). intros p. unfold fs_set. destruct (str_eqb p o); [reflexivity|apply H]. Qed.
Lemma both_apply a b s p : apply_build (both a b) s p = apply_build b (apply_build a s) p.
Proof. unfold apply_build, both, apply_writes. cbn [b_produced]. rewrite fold_left_app. reflexivity. Qed.
Lemma make_same w t p F s : (forall x, s x = dget x F) -> same_result F (make w t p s) (build_target w t p F).
Proof.
  intros E. unfold make, build_target. destruct t as [t|]; [|cbn; repeat split]. rewrite E, dmem_get. destruct (dget t F); [cbn; repeat split|]. rewrite E. destruct (dget p F) as [data|]; [|exact I].
  cbn. repeat split. intros x. unfold fs_set. rewrite dget_dset. destruct (str_eqb x t) eqn:Ex; reflexivity.
Qed.
Lemma then_same F F1 a h1 (next : fs -> option build_result) (next2 : res (Handlers.built * dict str)) : same_result F (Some a) (Ret (h1, F1)) ->
  (forall s, (forall x, s x = dget x F1) -> same_result F1 (next s) next2) ->
  same_result F (then_ (Some a) (fun p => dget p F) next) (match next2 with Raise e => Raise e | Ret (h, f) =>
     Ret ({| Handlers.children := Handlers.children h1 ++ Handlers.children h; Handlers.produced := Handlers.produced h1 ++ Handlers.produced h; Handlers.reused := Handlers.reused h1 ++ Handlers.reused h |}, f) end).
Proof.
  intros (A1 & A2 & A3 & A4) H. cbn [then_]. specialize (H _ A4). destruct (next _) as [b|]; destruct next2 as [[h f]|]; try (exact H). destruct H as (B1 & B2 & B3 & B4).
  cbn [same_result]. cbn [both b_children b_produced b_reused Handlers.children Handlers.produced Handlers.reused]. rewrite map_app, A1, A2, A3, B1, B2, B3. repeat split.
  intros p. fold (both a b). rewrite both_apply. rewrite <- B4. unfold apply_build at 1 3. apply writes_ext. exact A4.
Qed.
Section Agree.
Context (sha : str -> str) (c : constants) (dev : bool).
Lemma plain_same p F : same_result F (plain_build sha p (fun x => dget x F)) (copy_and_hash_build sha p F).
Proof.
  unfold plain_build, copy_and_hash_build. pose proof (make_same (fun data => data) (copy_target p) p F (fun x => dget x F) (fun x => eq_refl)) as H. unfold copy_build.
  destruct (make _ _ _ _) as [a|]; destruct (build_target _ _ _ _) as [[h F1]|]; try (destruct H); try exact I. refine (then_same F F1 a h _ (hash_build sha p F1) _ _); [split; assumption|]. intros s Es. apply make_same. exact Es.
Qed.
Lemma constants_same F : same_result F (constants_file_build sha c dev (c_relpath c) (fun x => dget x F)) (constants_build sha c dev (c_relpath c) F).
Proof.
  unfold constants_file_build, constants_build. rewrite str_eqb_refl. cbn [negb]. destruct (copy_target (c_relpath c)) as [t|]; [|exact I]. rewrite dmem_get. destruct (dget t F) as [v|] eqn:E.
  - cbn iota. pose proof (then_same F F (mkBuild [] [] [t]) {| Handlers.children := []; Handlers.produced := []; Handlers.reused := [t] |} (hash_file_of sha t) (hash_build sha t F)) as H. apply H; [repeat split|]. intros s Es. apply make_same. exact Es.
  - cbn iota. pose proof (then_same F (dset t (constants_text (merged c dev)) F) (mkBuild [] [(t, constants_text (merged c dev))] []) {| Handlers.children := []; Handlers.produced := [t]; Handlers.reused := [] |} (hash_file_of sha t) (hash_build sha t (dset t (constants_text (merged c dev)) F))) as H. apply H.
    + repeat split. intros x. cbn. unfold fs_set. rewrite dget_dset. destruct (str_eqb x t); reflexivity.
    + intros s Es. apply make_same. exact Es.
Qed.
End Agree.
