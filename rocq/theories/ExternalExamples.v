(** Concrete runs of the check of external files. *)
From Verif Require Import Base PyStr Hot HotDrive HotExamples HotGraphs HotResultExamples ColdSpec ColdExamples External ExternalSpec ExternalProofs.
From Coq Require Import String ZArith Bool List.
Import ListNotations.
Open Scope list_scope.

(** one algorithm, "id", whose digest is the contents *)
Definition i_hash (t : str) : option (str -> str) := if str_eqb t (lit "id") then Some (fun c => c) else None.
Definition xa := mkExternal (lit "lib/a") (lit "http://a") (lit "id-AA").
Definition xb := mkExternal (lit "lib/b") (lit "http://b") (lit "id-B").
Definition i_cfg : @dict external := [(lit "lib/a", xa); (lit "lib/b", xb)].
Definition i_cfg2 : @dict external := [(lit "lib/a", xa)].
(** lib/a is damaged, lib/b is as configured *)
Definition i_w0 : ext_world := mkExt (fs_of [(lit "lib/a", lit "bad"); (lit "lib/b", lit "B"); (lit "x", lit "X")]) None.
Definition ta := lit "out/t1.tmp". Definition tb := lit "out/t2.tmp".
Lemma i_cfg_ok : config_ok i_cfg /\ config_ok i_cfg2.
Proof.
  split; (split; [apply nodup_b_spec; reflexivity|intros k x H; repeat (destruct H as [H|H]; [injection H as <- <-; reflexivity|]); destruct H]).
Qed.
Lemma i_fresh : fresh i_cfg (w_fs i_w0) [ta; tb].
Proof.
  split; [apply nodup_b_spec; reflexivity|]. intros t [<-|[<-|[]]]; (split; [reflexivity|apply mem_false; reflexivity]).
Qed.
(** both handlers run; lib/a is downloaded in two chunks *)
Definition i_s2 : fs := fs_set (lit "lib/a") (lit "AA") (fs_del ta (fs_del (lit "lib/a") (fs_set ta (lit "AA") (fs_set ta (lit "A") (fs_set ta [] (w_fs i_w0)))))).
Definition i_ps : list proc := [mkProc xa ta (PDone (XRet tt)); mkProc xb tb (PDone (XRet tt))].
Lemma i_pool : pool_steps i_hash ([mkProc xa ta PCheck; mkProc xb tb PCheck], w_fs i_w0) (i_ps, fs_del ta i_s2).
Proof.
  eapply ps_step; [|refine (pool_one i_hash [] xa ta (PFinally (XRet tt)) [mkProc xb tb (PDone (XRet tt))] i_s2 _ _ (hs_clean _ _ _ _ _))].
  eapply ps_step; [|refine (pool_one i_hash [] xa ta PRename [mkProc xb tb (PDone (XRet tt))] _ _ _ (hs_rename _ _ _ _ (lit "AA") eq_refl))].
  eapply ps_step; [|refine (pool_one i_hash [] xa ta PUnlink [mkProc xb tb (PDone (XRet tt))] _ _ _ (hs_unlink _ _ _ _))].
  eapply ps_step; [|refine (pool_one i_hash [] xa ta PVerify [mkProc xb tb (PDone (XRet tt))] _ _ _ (hs_verified _ _ _ _ _)); reflexivity].
  eapply ps_step; [|refine (pool_one i_hash [] xa ta PWrite [mkProc xb tb (PDone (XRet tt))] _ _ _ (hs_end _ _ _ _))].
  eapply ps_step; [|refine (pool_one i_hash [] xa ta PWrite [mkProc xb tb (PDone (XRet tt))] _ _ _ (hs_chunk _ _ _ _ (lit "A") (lit "A") eq_refl))].
  eapply ps_step; [|refine (pool_one i_hash [mkProc xa ta PWrite] xb tb PCheck [] _ _ _ (hs_ok _ _ _ _ _)); reflexivity].
  eapply ps_step; [|refine (pool_one i_hash [] xa ta PWrite [mkProc xb tb PCheck] _ _ _ (hs_chunk _ _ _ _ (lit "A") [] eq_refl))].
  eapply ps_step; [|refine (pool_one i_hash [] xa ta POpen [mkProc xb tb PCheck] _ _ _ (hs_open _ _ _ _))].
  eapply ps_step; [|refine (pool_one i_hash [] xa ta PGet [mkProc xb tb PCheck] _ _ _ (hs_response _ _ _ _))].
  eapply ps_step; [|refine (pool_one i_hash [] xa ta PCheck [mkProc xb tb PCheck] _ _ _ (hs_stale i_hash xa ta (w_fs i_w0) IntegrityMismatch eq_refl (or_intror eq_refl)))].
  apply ps_refl.
Qed.
Definition i_state : @dict recorded := match add_states w_stat (fs_del ta i_s2) [xa; xb] [] with XRet d => d | XRaise _ => [] end.
Definition i_w1 : ext_world := mkExt (fs_del ta i_s2) (Some i_state).
Lemma i_check : check_files i_hash w_stat i_cfg i_w0 i_ps (XRet tt) i_w1.
Proof.
  apply (cf_done i_hash w_stat i_cfg i_w0 (w_fs i_w0) [ta; tb] i_ps (fs_del ta i_s2) i_state).
  - discriminate.
  - reflexivity.
  - discriminate.
  - exact i_fresh.
  - reflexivity.
  - exact i_pool.
  - intros p [<-|[<-|[]]]; eexists; reflexivity.
  - reflexivity.
  - reflexivity.
Qed.
Lemma i_history : ext_history i_hash w_stat i_w1.
Proof. eapply eh_check; [apply eh_start|exact (proj1 i_cfg_ok)|]. exact i_check. Qed.
(** lib/b is removed from the configuration *)
Definition i_w2 : ext_world := mkExt (fs_del (lit "lib/b") (w_fs i_w1)) (Some i_state).
Lemma i_removed : check_files i_hash w_stat i_cfg2 i_w1 [] (XRet tt) i_w2.
Proof. apply cf_idle; [discriminate|reflexivity|reflexivity]. Qed.
(** a crash while lib/a is missing: the download was verified, then line 255 *)
Lemma i_moment : moment i_hash w_stat i_cfg i_w0 (fs_del (lit "lib/a") (fs_set ta (lit "AA") (fs_set ta [] (w_fs i_w0)))).
Proof.
  eapply (m_handling i_hash w_stat i_cfg i_w0 (w_fs i_w0) [ta; tb] [mkProc xa ta PRename; mkProc xb tb PCheck]); [discriminate|reflexivity|exact i_fresh|reflexivity|].
  change (start (to_handle w_stat (w_fs i_w0) (old_state i_w0) (map snd i_cfg)) [ta; tb]) with [mkProc xa ta PCheck; mkProc xb tb PCheck].
  eapply ps_step; [|refine (pool_one i_hash [] xa ta PUnlink [mkProc xb tb PCheck] _ _ _ (hs_unlink _ _ _ _))].
  eapply ps_step; [|refine (pool_one i_hash [] xa ta PVerify [mkProc xb tb PCheck] _ _ _ (hs_verified _ _ _ _ _)); reflexivity].
  eapply ps_step; [|refine (pool_one i_hash [] xa ta PWrite [mkProc xb tb PCheck] _ _ _ (hs_end _ _ _ _))].
  eapply ps_step; [|refine (pool_one i_hash [] xa ta PWrite [mkProc xb tb PCheck] _ _ _ (hs_chunk _ _ _ _ (lit "AA") [] eq_refl))].
  eapply ps_step; [|refine (pool_one i_hash [] xa ta POpen [mkProc xb tb PCheck] _ _ _ (hs_open _ _ _ _))].
  eapply ps_step; [|refine (pool_one i_hash [] xa ta PGet [mkProc xb tb PCheck] _ _ _ (hs_response _ _ _ _))].
  eapply ps_step; [|refine (pool_one i_hash [] xa ta PCheck [mkProc xb tb PCheck] _ _ _ (hs_stale i_hash xa ta (w_fs i_w0) IntegrityMismatch eq_refl (or_intror eq_refl)))].
  apply ps_refl.
Qed.
Lemma stuck_example : exists hash stat w cfg w', ext_history hash stat w /\ config_ok cfg /\ check_files hash stat cfg w [] (XRet tt) w' /\
  forall ps r w2, check_files hash stat cfg w' ps r w2 -> r = XRaise (Py FileNotFoundError).
Proof.
  exists i_hash, w_stat, i_w1, i_cfg2, i_w2. split; [exact i_history|]. split; [exact (proj2 i_cfg_ok)|]. split; [exact i_removed|].
  apply (removed_stuck i_hash w_stat i_cfg2 i_w1 i_w2 (lit "lib/b") (proj2 i_cfg_ok) i_removed); [discriminate|apply mem_In; reflexivity|apply mem_false; reflexivity].
Qed.
Lemma empty_check hash stat w ps r w' : check_files hash stat [] w ps r w' -> ps = [] /\ r = XRet tt /\ w' = w.
Proof. intros H. inversion H; auto; congruence. Qed.
