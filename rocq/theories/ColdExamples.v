(** Executable cold builds, an example world, and the counterexamples of C16. *)
From Verif Require Import Base Graph GraphSpec GraphProofs GraphMain Hot HotSpec HotDrive HotSchedProofs HotExamples HotGraphs HotResultSpec HotResultProofs HotResultExamples
  Cold ColdSpec ColdProofs ColdMain ColdHistory.
From Coq Require Import String ZArith Bool List Relations Lia.
Import ListNotations.
Open Scope list_scope.

Definition run_cold (build : str -> fs -> option build_result) (scan : str -> fs -> option scan_full) (stat : fs -> str -> option fsig)
    (constants : str) (dev : bool) (width fuel : nat) (p : project) (files order inputs : list str) : option (option run * project) :=
  match classify (p_D p) (stat (p_fs p)) files (dkeys (p_D p)) [] [] with
  | Raise _ => None
  | Ret (changed, added, deleted) =>
      match mode_step constants dev (stat (p_fs p)) (p_fs p) (p_mode p) changed added with
      | Raise _ => None
      | Ret (changed1, mode1) =>
          match changed1, added, deleted with
          | [], [], [] => match changed with [] => Some (None, mkProject (p_fs p) mode1 (p_D p) (p_O p) (p_P p)) | _ => None end
          | _, _, _ =>
              match scan_loop scan stat fuel (mkScanning (p_fs p) (dkeys changed1 ++ dkeys added) [] added) [] with
              | Raise _ => None
              | Ret (t, full) =>
                  match run_rebuild build stat width fuel (p_D p) (p_O p) (p_P p) (scans_of full) (sc_new t) changed1 (sc_added t) deleted (sc_fs t) order inputs with
                  | None => None
                  | Some oc => Some (Some (mkRun (scans_of full) (sc_new t) deleted (oc_e oc) (oc_log oc)), mkProject (oc_fs oc) mode1 (oc_D oc) (oc_O oc) (oc_P oc))
                  end
              end
          end
      end
  end.
Lemma run_cold_sound build scan stat constants dev width fuel p files order inputs r p1 : lists (p_fs p) files ->
  run_cold build scan stat constants dev width fuel p files order inputs = Some (r, p1) -> cold_build build scan stat constants dev p r p1.
Proof.
  intros (Hn & Hl). unfold run_cold. destruct (classify _ _ _ _ _ _) as [[[changed added] deleted]|] eqn:Ec; [|discriminate].
  destruct (mode_step _ _ _ _ _ _ _) as [[changed1 mode1]|] eqn:Em; [|discriminate].
  assert (Hot : (changed1 <> [] \/ added <> [] \/ deleted <> []) ->
    match scan_loop scan stat fuel (mkScanning (p_fs p) (dkeys changed1 ++ dkeys added) [] added) [] with
    | Raise _ => None
    | Ret (t, full) =>
        match run_rebuild build stat width fuel (p_D p) (p_O p) (p_P p) (scans_of full) (sc_new t) changed1 (sc_added t) deleted (sc_fs t) order inputs with
        | None => None
        | Some oc => Some (Some (mkRun (scans_of full) (sc_new t) deleted (oc_e oc) (oc_log oc)), mkProject (oc_fs oc) mode1 (oc_D oc) (oc_O oc) (oc_P oc))
        end
    end = Some (r, p1) -> cold_build build scan stat constants dev p r p1).
  { intros Hne. destruct (scan_loop _ _ _ _ _) as [[t full]|] eqn:Es; [|discriminate].
    destruct (run_rebuild _ _ _ _ _ _ _ _ _ _ _ _ _ _ _) as [oc|] eqn:Er; [|discriminate]. intros H.
    assert (E1 : Some (mkRun (scans_of full) (sc_new t) deleted (oc_e oc) (oc_log oc)) = r) by congruence.
    assert (E2 : mkProject (oc_fs oc) mode1 (oc_D oc) (oc_O oc) (oc_P oc) = p1) by congruence. rewrite <- E1, <- E2.
    destruct (run_rebuild_sound _ _ _ _ _ _ _ _ _ _ _ _ _ _ _ _ Er) as (HR & _).
    exact (cold_hot build scan stat constants dev p files changed added deleted changed1 mode1 fuel t full _ _ _ _ _ _ Hn Hl Ec Em Hne Es HR). }
  destruct changed1 as [|c1 cr1]; [|apply Hot; left; discriminate]. destruct added as [|a1 ar]; [|apply Hot; right; left; discriminate].
  destruct deleted as [|d1 dr]; [|apply Hot; right; right; discriminate]. destruct changed as [|x xr]; [|discriminate].
  intros H. assert (E1 : None = r) by congruence. assert (E2 : mkProject (p_fs p) mode1 (p_D p) (p_O p) (p_P p) = p1) by congruence. rewrite <- E1, <- E2.
  exact (cold_nothing build scan stat constants dev p files mode1 Hn Hl Ec Em).
Qed.

(** ** folders given by a dictionary *)
Definition fs_of (d : dict str) : fs := fun p => dget p d.
Lemma fs_of_lists d : NoDup (dkeys d) -> lists (fs_of d) (filter in_src (dkeys d)).
Proof.
  intros H. split; [apply NoDup_filter; assumption|]. intros f. rewrite filter_In. unfold fs_of. split; intros (A & B).
  - split; [assumption|]. intros X. apply dget_None in X. contradiction.
  - split; [|assumption]. destruct (dget f d) eqn:E; [eapply dget_Some_key; exact E|congruence].
Qed.
(** two edits of the listed folder *)
Lemma lists_set s files f c : lists s files -> In f files -> lists (fs_set f c s) files.
Proof.
  intros (Hn & Hl) Hf. split; [assumption|]. intros g. rewrite Hl. unfold fs_set. destruct (str_eqb g f) eqn:E; [|reflexivity].
  apply str_eqb_eq in E. subst g. apply Hl in Hf. split; intros (A & B); (split; [assumption|]); [discriminate|tauto].
Qed.
Lemma lists_del s files f : lists s files -> lists (fs_del f s) (remove_all f files).
Proof.
  intros (Hn & Hl). split; [apply NoDup_filter; assumption|]. intros g. rewrite remove_all_In, Hl. unfold fs_del. destruct (str_eqb g f) eqn:E.
  - apply str_eqb_eq in E. subst g. tauto.
  - apply str_eqb_neq in E. tauto.
Qed.

(** ** a signature which depends on the contents only, injectively *)
Definition pair2 (x y : N) : N := (2 ^ x * (2 * y + 1))%N.
Lemma pair2_inj x : forall y x' y', pair2 x y = pair2 x' y' -> x = x' /\ y = y'.
Proof.
  unfold pair2. induction x as [|x IH] using N.peano_ind; intros y x' y' H.
  - destruct (N.zero_or_succ x') as [->|(z & ->)]; [lia|]. exfalso. rewrite N.pow_succ_r in H by lia. rewrite N.pow_0_r in H.
    assert (X : N.odd (1 * (2 * y + 1)) = N.odd (2 * 2 ^ z * (2 * y' + 1))) by congruence. rewrite N.mul_1_l in X.
    rewrite <- N.mul_assoc, N.odd_mul, N.odd_add, !N.odd_mul in X. simpl in X. discriminate.
  - destruct (N.zero_or_succ x') as [->|(z & ->)].
    + exfalso. rewrite N.pow_succ_r in H by lia. rewrite N.pow_0_r in H.
      assert (X : N.odd (2 * 2 ^ x * (2 * y + 1)) = N.odd (1 * (2 * y' + 1))) by congruence. rewrite N.mul_1_l in X.
      rewrite <- N.mul_assoc, N.odd_mul, N.odd_add, !N.odd_mul in X. simpl in X. discriminate.
    + rewrite !N.pow_succ_r in H by lia. rewrite <- !N.mul_assoc in H. apply N.mul_cancel_l in H; [|lia].
      destruct (IH _ _ _ H) as (-> & ->). auto.
Qed.
Lemma pair2_pos x y : pair2 x y <> 0%N.
Proof. unfold pair2. pose proof (N.pow_nonzero 2 x ltac:(lia)). nia. Qed.
(** short for ASCII *)
Definition cell (x y : N) : N := if (x <? 128)%N then (2 * (x + 128 * y) + 1)%N else (2 * pair2 x y)%N.
Lemma cell_inj x y x' y' : cell x y = cell x' y' -> x = x' /\ y = y'.
Proof.
  unfold cell. destruct (N.ltb_spec x 128), (N.ltb_spec x' 128); intros E; try lia. apply pair2_inj. lia.
Qed.
Lemma cell_pos x y : cell x y <> 0%N.
Proof. unfold cell. destruct (x <? 128)%N; [lia|]. pose proof (pair2_pos x y). lia. Qed.
Fixpoint code (s : str) : N := match s with [] => 0%N | x :: r => cell x (code r) end.
Lemma code_inj a : forall b, code a = code b -> a = b.
Proof.
  induction a as [|x r IH]; intros [|y t] H; cbn [code] in H; [reflexivity|exfalso; symmetry in H; apply cell_pos in H; exact H|exfalso; apply cell_pos in H; exact H|].
  apply cell_inj in H. destruct H as (-> & H). f_equal. auto.
Qed.
Definition w_stat (s : fs) (p : str) : option fsig := match s p with None => None | Some c => Some (0, Z.of_N (code c), 0)%Z end.
Lemma w_stat_ok : stat_ok w_stat /\ stat_detects w_stat.
Proof.
  unfold w_stat. split; [split|].
  - intros s s' p ->. reflexivity.
  - intros s p. destruct (s p); split; congruence.
  - intros s s' p. destruct (s p) as [a|], (s' p) as [b|]; try congruence. intros [= H]. apply N2Z.inj, code_inj in H. congruence.
Qed.

(** ** a world in which every file is copied to out, the constants file gets the
    mode, and src/g generates a placeholder *)
Definition w_const : str := lit "src/c".
Definition w_target (f : str) : str := lit "out/" ++ f.
Definition w_build (dev : bool) (f : str) (s : fs) : option build_result :=
  match s f with None => None | Some c => Some (mkBuild [] [(w_target f, if str_eqb f w_const then mode_name dev else c)] []) end.
Definition w_scan (f : str) (s : fs) : option scan_full :=
  Some (mkFull (mkScan [] [w_target f]) (if str_eqb f (lit "src/g") then [(lit "src/p", lit "ph")] else [])).
Lemma target_ne f : str_eqb f (w_target f) = false.
Proof. apply str_eqb_neq. intros E. apply (f_equal (@length N)) in E. unfold w_target in E. rewrite app_length in E. change (length (lit "out/")) with 4 in E. lia. Qed.
Lemma w_build_ok : (forall dev, reads_declared (w_build dev)) /\ (forall dev, idempotent (w_build dev)) /\ (forall dev, writes_out (w_build dev)) /\ mode_only w_build w_const.
Proof.
  split; [|split; [|split]].
  - intros dev f s r s2 H H2. unfold w_build in *. rewrite (H2 f (or_introl eq_refl)). assumption.
  - intros dev f s r H. unfold w_build in *. destruct (s f) as [c|] eqn:Ec; [|discriminate]. injection H as <-.
    unfold apply_build, apply_writes. cbn [b_produced fold_left fst snd]. unfold fs_set at 1. rewrite target_ne, Ec. eexists. split; [reflexivity|]. split; [reflexivity|]. split; [reflexivity|].
    intros o x [[= <- <-]|[]]. unfold fs_set. rewrite str_eqb_refl. reflexivity.
  - intros dev f s r o H Ho. unfold w_build in H. destruct (s f); [|discriminate]. injection H as <-. destruct Ho as [<-|[]]. reflexivity.
  - intros f s Hf. unfold w_build. apply str_eqb_neq in Hf. rewrite Hf. reflexivity.
Qed.
Lemma w_scan_ok : placeholders_ok w_scan w_const.
Proof.
  intros f s x p c H Hi. unfold w_scan in H. injection H as <-. cbn [f_placeholders] in Hi. destruct (str_eqb f (lit "src/g")); [|destruct Hi].
  destruct Hi as [[= <- <-]|[]]. vm_compute. split; [reflexivity|discriminate].
Qed.
Definition w_cold dev p files order inputs := run_cold (w_build dev) w_scan w_stat w_const dev 1 60 p files order inputs.
Lemma w_cold_sound dev p files order inputs r p1 : lists (p_fs p) files -> w_cold dev p files order inputs = Some (r, p1) ->
  cold_build (w_build dev) w_scan w_stat w_const dev p r p1.
Proof. intros HL. unfold w_cold. apply run_cold_sound. exact HL. Qed.
Definition the (x : option (option run * project)) : option run * project :=
  match x with Some y => y | None => (None, mkProject (fun _ => None) None empty_graph empty_graph empty_graph) end.

Definition a_ := lit "src/a". Definition c_ := lit "src/c". Definition g_ := lit "src/g". Definition p_ := lit "src/p".
(** the first build, in production mode *)
Definition w_dict : dict str := [(a_, lit "A"); (c_, lit "C"); (g_, lit "G")].
Definition w_zero : project := mkProject (fs_of w_dict) None empty_graph empty_graph empty_graph.
Definition w_first := w_cold false w_zero [a_; c_; g_] [a_; c_; g_; p_] [a_; c_; g_; p_].
Lemma run_cold_prepared build scan stat constants dev width fuel p files order inputs w p1 :
  run_cold build scan stat constants dev width fuel p files order inputs = Some (Some w, p1) ->
  exists m, prepare (p_D p) (p_O p) (p_P p) (run_scans w) (run_new w) (run_deleted w) = Ret (run_env w, m).
Proof.
  unfold run_cold. destruct (classify _ _ _ _ _ _) as [[[changed added] deleted]|] eqn:Ec; [|discriminate].
  destruct (mode_step _ _ _ _ _ _ _) as [[changed1 mode1]|] eqn:Em; [|discriminate].
  assert (Hot : 
    match scan_loop scan stat fuel (mkScanning (p_fs p) (dkeys changed1 ++ dkeys added) [] added) [] with
    | Raise _ => None
    | Ret (t, full) =>
        match run_rebuild build stat width fuel (p_D p) (p_O p) (p_P p) (scans_of full) (sc_new t) changed1 (sc_added t) deleted (sc_fs t) order inputs with
        | None => None
        | Some oc => Some (Some (mkRun (scans_of full) (sc_new t) deleted (oc_e oc) (oc_log oc)), mkProject (oc_fs oc) mode1 (oc_D oc) (oc_O oc) (oc_P oc))
        end
    end = Some (Some w, p1) -> exists m, prepare (p_D p) (p_O p) (p_P p) (run_scans w) (run_new w) (run_deleted w) = Ret (run_env w, m)).
  { destruct (scan_loop _ _ _ _ _) as [[t full]|] eqn:Es; [|discriminate].
    destruct (run_rebuild _ _ _ _ _ _ _ _ _ _ _ _ _ _ _) as [oc|] eqn:Er; [|discriminate]. intros H.
    assert (E1 : mkRun (scans_of full) (sc_new t) deleted (oc_e oc) (oc_log oc) = w) by congruence. rewrite <- E1.
    destruct (run_rebuild_sound _ _ _ _ _ _ _ _ _ _ _ _ _ _ _ _ Er) as (_ & HR). exact HR. }
  destruct changed1 as [|c1 cr1]; [|exact Hot]. destruct added as [|a1 ar]; [|exact Hot]. destruct deleted as [|d1 dr]; [|exact Hot]. destruct changed; discriminate.
Qed.
Definition honest_b (p : project) (w : run) (p1 : project) : bool :=
  match dirty (p_D p) (p_O p) (p_P p) (dkeys (run_scans w)) (run_deleted w) with
  | None => false
  | Some (files, outs, arts) =>
      forallb (fun f => forallb is_out (api_children (p_O p) f)) (dkeys (p_O p)) &&
      (forallb (fun f => negb (is_out f)) (dkeys (p_D p) ++ files) && forallb (fun gs => forallb is_out (s_produces (snd gs))) (run_scans w) &&
       agreeing_b (run_log w) && read_after_b (run_env w) (run_log w) && sources_recorded_b (run_log w) (p_D p1) (p_O p1) && shared_preserved_b (p_O p) files (outs ++ arts) (run_log w))
  end.
Lemma honest_b_spec p w p1 m last : project_graphs (p_D p) (p_O p) (p_P p) -> prepare (p_D p) (p_O p) (p_P p) (run_scans w) (run_new w) (run_deleted w) = Ret (run_env w, m) ->
  honest_b p w p1 = true -> honest_builds (p_D p) (p_O p) (p_P p) (run_scans w) (run_deleted w) last (run_env w) (run_log w) (p_D p1) (p_O p1).
Proof.
  intros HG Hp H. unfold honest_b in H. destruct (dirty _ _ _ _ _) as [[[files outs] arts]|] eqn:Ed; [|discriminate]. apply andb_true_iff in H. destruct H as (H1 & H2).
  apply (honest_intro (p_D p) (p_O p) (p_P p) (run_scans w) (run_new w) (run_deleted w) last last (run_env w) m files outs arts (run_log w) (p_D p1) (p_O p1) HG Hp Ed); [reflexivity|exact H1|exact H2].
Qed.
(** one more build at the end of a history *)
Definition extend_b (dev : bool) (p : project) (files order inputs : list str) : bool :=
  match w_cold dev p files order inputs with
  | Some (Some w, p1) => honest_b p w p1
  | _ => false
  end.
Lemma extend_spec dev last p dev' files order inputs : project_history w_build w_scan w_stat w_const dev last p -> lists (p_fs p) files ->
  extend_b dev' p files order inputs = true ->
  let p1 := snd (the (w_cold dev' p files order inputs)) in
  project_history w_build w_scan w_stat w_const dev' (p_fs p1) p1 /\ cold_build (w_build dev') w_scan w_stat w_const dev' p (fst (the (w_cold dev' p files order inputs))) p1 /\
  lists (p_fs p1) (dkeys (p_D p1)).
Proof.
  intros H HL. unfold extend_b. destruct (w_cold dev' p files order inputs) as [[[w|] p1]|] eqn:E; [|discriminate|discriminate]. intros Hb. cbn [the snd fst].
  pose proof (run_cold_sound _ _ _ _ _ _ _ _ _ _ _ _ _ HL E) as HB. destruct (run_cold_prepared _ _ _ _ _ _ _ _ _ _ _ _ _ E) as (m & Hp).
  destruct w_build_ok as (B1 & B2 & B3 & B4). destruct w_stat_ok as (S1 & S2).
  pose proof (HInv_history w_build w_scan w_stat w_const S1 S2 w_scan_ok eq_refl B1 B2 B3 B4 _ _ _ H) as (HS & _).
  destruct (cold_settles (w_build dev') w_scan w_stat w_const dev' p S1 w_scan_ok eq_refl (B3 dev') HS _ _ HB) as (HS1 & T1 & _).
  split; [|split; [exact HB|]].
  - eapply h_build; [exact H|exact HB|]. intros w' [= <-]. eapply honest_b_spec; [apply HS|exact Hp|exact Hb].
  - split; [apply HS1|exact T1].
Qed.
Definition w_p1 : project := snd (the w_first).
Lemma w_history1 : project_history w_build w_scan w_stat w_const false (p_fs w_p1) w_p1 /\ cold_build (w_build false) w_scan w_stat w_const false w_zero (fst (the w_first)) w_p1 /\
  lists (p_fs w_p1) (dkeys (p_D w_p1)).
Proof.
  apply (extend_spec false (fs_of w_dict) w_zero false [a_; c_; g_] [a_; c_; g_; p_] [a_; c_; g_; p_]); [apply h_start| |vm_compute; reflexivity].
  apply (fs_of_lists w_dict). apply nodup_b_spec. reflexivity.
Qed.
(** src/a is edited, then a development build *)
Definition w_edited : project := mkProject (fs_set a_ (lit "A2") (p_fs w_p1)) (p_mode w_p1) (p_D w_p1) (p_O w_p1) (p_P w_p1).
Definition w_second := w_cold true w_edited [a_; c_; g_; p_] [a_; c_] [a_; c_; g_; p_].
Definition w_p2 : project := snd (the w_second).
Lemma w_history2 : project_history w_build w_scan w_stat w_const false (p_fs w_p1) w_edited /\ cold_build (w_build true) w_scan w_stat w_const true w_edited (fst (the w_second)) w_p2 /\
  project_history w_build w_scan w_stat w_const true (p_fs w_p2) w_p2 /\ lists (p_fs w_p2) (dkeys (p_D w_p2)).
Proof.
  destruct w_history1 as (H & _ & HL).
  assert (He : project_history w_build w_scan w_stat w_const false (p_fs w_p1) w_edited).
  { apply h_edit; [exact H|]. intros q Hq. unfold fs_set. destruct (str_eqb q a_) eqn:E; [|reflexivity]. apply str_eqb_eq in E. subst q. discriminate Hq. }
  assert (HL2 : lists (p_fs w_edited) [a_; c_; g_; p_]).
  { apply lists_set; [|left; reflexivity]. exact HL. }
  destruct (extend_spec false (p_fs w_p1) w_edited true [a_; c_; g_; p_] [a_; c_] [a_; c_; g_; p_] He HL2) as (A & B & C); [vm_compute; reflexivity|].
  split; [exact He|]. split; [exact B|]. split; [exact A|exact C].
Qed.

(** ** counterexamples for crashes *)
Definition with_mode (p : project) (m : option str) : project := mkProject (p_fs p) m (p_D p) (p_O p) (p_P p).
Definition with_fs (p : project) (s : fs) : project := mkProject s (p_mode p) (p_D p) (p_O p) (p_P p).
(** the dependency graph of [p1] with the other graphs of [p0] *)
Definition half_stored (p0 p1 : project) : project := mkProject (p_fs p1) (p_mode p1) (p_D p1) (p_O p0) (p_P p0).
Section Nothing.
Context (build : str -> fs -> option build_result) (scan : str -> fs -> option scan_full) (stat : fs -> str -> option fsig) (constants : str) (dev : bool).
Context (Hstat : stat_ok stat) (p : project) (HS : sound_project p) (HT : settled stat constants dev p).
Lemma nothing_switched dev' files : p_fs p constants <> None -> lists (p_fs p) files ->
  cold_build build scan stat constants dev' (with_mode p (Some (mode_name dev'))) None (with_mode p (Some (mode_name dev'))).
Proof.
  intros Hc HL. destruct HT as (T1 & T2 & T3).
  refine (proj1 (settled_nothing build scan stat constants dev' Hstat (with_mode p (Some (mode_name dev'))) HS _) files HL).
  split; [exact T1|]. split; [exact T2|]. unfold with_mode. cbn [p_mode p_fs]. destruct (p_fs p constants); [reflexivity|congruence].
Qed.
Lemma nothing_half p0 files : lists (p_fs p) files -> cold_build build scan stat constants dev (half_stored p0 p) None (half_stored p0 p).
Proof.
  intros HL. exact (cold_nothing build scan stat constants dev (half_stored p0 p) files (p_mode p) (proj1 HL) (proj2 HL)
    (settled_classify build scan stat constants dev Hstat p HS HT files HL) (settled_mode stat constants dev p HT [] [])).
Qed.
End Nothing.
Lemma lists_add s files f c : lists s files -> s f = None -> in_src f = true -> lists (fs_set f c s) (files ++ [f]).
Proof.
  intros (Hn & Hl) Hf Hs. split.
  - apply NoDup_app_iff. split; [assumption|]. split; [constructor; [auto|constructor]|]. intros x Hx [<-|[]]. apply Hl in Hx. tauto.
  - intros x. rewrite in_app_iff, Hl. unfold fs_set. simpl. destruct (str_eqb x f) eqn:E.
    + apply str_eqb_eq in E. subst x. split; [|auto]. intros _. split; [assumption|discriminate].
    + apply str_eqb_neq in E. split; [intros [X|[X|[]]]; [exact X|congruence]|auto].
Qed.

Lemma w_settled : sound_project w_p1 /\ settled w_stat w_const false w_p1.
Proof.
  destruct w_build_ok as (B1 & B2 & B3 & B4). destruct w_stat_ok as (S1 & S2).
  assert (HS0 : sound_project w_zero) by (apply (HInv_history w_build w_scan w_stat w_const S1 S2 w_scan_ok eq_refl B1 B2 B3 B4 false (fs_of w_dict)); apply h_start).
  exact (cold_settles (w_build false) w_scan w_stat w_const false w_zero S1 w_scan_ok eq_refl (B3 false) HS0 _ _ (proj1 (proj2 w_history1))).
Qed.
(** the development build of [w_p1] crashed after line 117 *)
Lemma mode_crash : exists build scan stat constants p mode1 changed1,
  project_history build scan stat constants false (p_fs p) p /\ up_to_date (build false) (p_D p) (p_O p) (p_fs p) /\
  mode_step constants true (stat (p_fs p)) (p_fs p) (p_mode p) [] [] = Ret (changed1, mode1) /\
  cold_build (build true) scan stat constants true (with_mode p mode1) None (with_mode p mode1) /\
  ~ up_to_date (build true) (p_D p) (p_O p) (p_fs p).
Proof.
  exists w_build, w_scan, w_stat, w_const, w_p1, (Some (mode_name true)), (match w_stat (p_fs w_p1) w_const with Some g => [(w_const, g)] | None => [] end).
  destruct w_history1 as (H & _ & HL). split; [exact H|]. split; [apply up_to_date_b_spec; vm_compute; reflexivity|]. split; [vm_compute; reflexivity|].
  assert (E : p_fs w_p1 w_const = Some (lit "C")) by (vm_compute; reflexivity). split.
  - apply (nothing_switched (w_build true) w_scan w_stat w_const false (proj1 w_stat_ok) w_p1 (proj1 w_settled) (proj2 w_settled) true (dkeys (p_D w_p1))); [rewrite E; discriminate|exact HL].
  - intros (_ & U). destruct (U w_const) as (r & Hb & _ & Hw & _); [refine (proj1 (mem_In w_const (dkeys (p_D w_p1))) _); vm_compute; reflexivity|].
    unfold w_build in Hb. rewrite E in Hb. injection Hb as <-.
    specialize (Hw _ _ (or_introl eq_refl)).
    assert (Y : p_fs w_p1 (w_target w_const) = Some (mode_name false)) by (vm_compute; reflexivity). rewrite Y in Hw. assert (Z : Some (mode_name false) = Some (mode_name true)) by exact Hw. injection Z as Z. discriminate Z.
Qed.

(** a first build crashed after storing the dependency graph (line 601): the next
    build does nothing although no output is recorded, and after the source is
    deleted its output stays *)
Definition w_half : project := half_stored w_zero w_p1.
Definition w_gone : project := with_fs w_half (fs_del a_ (p_fs w_p1)).
Definition w_third := w_cold false w_gone [c_; g_; p_] [] [c_; g_; p_].
Lemma store_crash : exists build scan stat constants p0 r p1 f o p2 w,
  project_history build scan stat constants false (p_fs p0) p0 /\ cold_build (build false) scan stat constants false p0 r p1 /\
  cold_build (build false) scan stat constants false (half_stored p0 p1) None (half_stored p0 p1) /\
  depends (p_O p1) f o /\
  cold_build (build false) scan stat constants false (with_fs (half_stored p0 p1) (fs_del f (p_fs p1))) (Some w) p2 /\
  ~ In f (dkeys (p_D p2)) /\ p_fs p2 o <> None.
Proof.
  destruct w_history1 as (H & HB & HL).
  assert (HL2 : lists (p_fs w_gone) [c_; g_; p_]).
  { pose proof (lists_del _ _ a_ HL) as X. assert (Y : remove_all a_ (dkeys (p_D w_p1)) = [c_; g_; p_]) by (vm_compute; reflexivity). rewrite Y in X. exact X. }
  assert (E : exists w, w_third = Some (Some w, snd (the w_third))).
  { assert (X : match w_third with Some (Some _, _) => true | _ => false end = true) by (vm_compute; reflexivity).
    destruct w_third as [[[w|] p2]|] eqn:E; [exists w; reflexivity|discriminate|discriminate]. }
  destruct E as (w & E). exists w_build, w_scan, w_stat, w_const, w_zero, (fst (the w_first)), w_p1, a_, (w_target a_), (snd (the w_third)), w.
  split; [apply h_start|]. split; [exact HB|]. split; [|split; [refine (proj1 (mem_In (w_target a_) (api_children (p_O w_p1) a_)) _); vm_compute; reflexivity|split; [|split]]].
  - exact (nothing_half (w_build false) w_scan w_stat w_const false (proj1 w_stat_ok) w_p1 (proj1 w_settled) (proj2 w_settled) w_zero (dkeys (p_D w_p1)) HL).
  - exact (run_cold_sound _ _ _ _ _ _ _ _ _ _ _ _ _ HL2 E).
  - intros X. apply (proj2 (mem_In a_ (dkeys (p_D (snd (the w_third)))))) in X.
    assert (Y : mem a_ (dkeys (p_D (snd (the w_third)))) = false) by (vm_compute; reflexivity). rewrite Y in X. discriminate X.
  - assert (Y : p_fs (snd (the w_third)) (w_target a_) = Some (lit "A")) by (vm_compute; reflexivity). rewrite Y. intros Z. discriminate Z.
Qed.

(** a first build crashed after the placeholder was written (line 160): the next
    build takes it for a source of its own *)
Definition w_crashed : project := mkProject (fs_set p_ (lit "ph") (fs_of w_dict)) None empty_graph empty_graph empty_graph.
Notation w_fourth := (w_cold false w_crashed [a_; c_; g_; p_] [a_; c_; g_; p_] [a_; c_; g_; p_]).
Lemma w_lists : lists (fs_of w_dict) [a_; c_; g_].
Proof. apply (fs_of_lists w_dict). apply nodup_b_spec. reflexivity. Qed.
Lemma w_lists4 : lists (p_fs w_crashed) [a_; c_; g_; p_].
Proof. exact (lists_add (fs_of w_dict) [a_; c_; g_] p_ (lit "ph") w_lists eq_refl eq_refl). Qed.
Lemma w_fourth_ok : exists r2, cold_build (w_build false) w_scan w_stat w_const false w_crashed r2 (snd (the w_fourth)).
Proof.
  assert (X : match w_fourth with Some _ => true | None => false end = true) by (vm_compute; reflexivity).
  destruct w_fourth as [[r2 p2]|] eqn:E; [|discriminate]. exists r2. cbn [the snd].
  exact (w_cold_sound _ _ _ _ _ _ _ w_lists4 E).
Qed.
Lemma placeholder_crash : exists build scan stat constants s g x q c r p1 r2 p2,
  cold_build (build false) scan stat constants false (mkProject s None empty_graph empty_graph empty_graph) r p1 /\
  scan g s = Some x /\ In (q, c) (f_placeholders x) /\ s q = None /\ depends (p_P p1) g q /\
  cold_build (build false) scan stat constants false (mkProject (fs_set q c s) None empty_graph empty_graph empty_graph) r2 p2 /\
  In q (dkeys (p_D p2)) /\ (forall y, ~ depends (p_P p2) y q).
Proof.
  destruct w_history1 as (H & HB & HL).
  destruct w_fourth_ok as (r2 & E).
  exists w_build, w_scan, w_stat, w_const, (fs_of w_dict), g_, (mkFull (mkScan [] [w_target g_]) [(p_, lit "ph")]), p_, (lit "ph"), (fst (the w_first)), w_p1, r2, (snd (the w_fourth)).
  split; [exact HB|]. split; [reflexivity|]. split; [left; reflexivity|]. split; [reflexivity|]. split; [refine (proj1 (mem_In p_ (api_children (p_P w_p1) g_)) _); vm_compute; reflexivity|].
  split; [|split; [refine (proj1 (mem_In p_ (dkeys (p_D (snd (the w_fourth))))) _); vm_compute; reflexivity|]].
  - exact E.
  - intros y Hy. assert (X : p_P (snd (the w_fourth)) = empty_graph) by (vm_compute; reflexivity). rewrite X in Hy. destruct Hy.
Qed.

(** an interrupted rebuild: src/a was edited and its new output half written *)
Definition w_torn : fs := fs_set (w_target a_) (lit "half") (p_fs w_edited).
Definition w_retried : project := with_fs w_edited w_torn.
Notation w_retry := (w_cold false w_retried [a_; c_; g_; p_] [a_] [a_; c_; g_; p_]).
Definition w_scans1 : dict scan_result := [(a_, mkScan [] [w_target a_])].
Lemma w_crash : attempts (w_build false) (p_D w_p1) (p_O w_p1) (p_P w_p1) (p_fs w_p1) [a_] w_torn /\
  (exists r p2, cold_build (w_build false) w_scan w_stat w_const false w_retried (Some r) p2 /\
    run_scans r = w_scans1 /\ run_deleted r = [] /\ p_fs p2 (w_target a_) = Some (lit "A2")).
Proof.
  assert (HL2 : lists w_torn [a_; c_; g_; p_]).
  { destruct w_history1 as (_ & _ & (N & L)). split; [exact N|]. intros f. specialize (L f). unfold w_torn, w_edited. cbn [p_fs]. unfold fs_set.
    destruct (str_eqb f (w_target a_)) eqn:E1.
    - apply str_eqb_eq in E1. subst f. split; [|intros (X & _); discriminate X]. intros X. apply (proj2 (mem_In _ _)) in X. discriminate X.
    - destruct (str_eqb f a_) eqn:E2; [|exact L]. apply str_eqb_eq in E2. subst f. split; [intros _; split; [reflexivity|discriminate]|intros _; left; reflexivity]. }
  assert (HL3 : lists (p_fs w_retried) [a_; c_; g_; p_]) by exact HL2.
  split.
  - destruct (prepare (p_D w_p1) (p_O w_p1) (p_P w_p1) w_scans1 [] []) as [[e m]|x] eqn:Ep.
    + assert (Hord : e_orig e = [a_]).
      { assert (X : match prepare (p_D w_p1) (p_O w_p1) (p_P w_p1) w_scans1 [] [] with Ret (e, _) => e_orig e | Raise _ => [] end = [a_]) by (vm_compute; reflexivity). rewrite Ep in X. exact X. }
      apply (at_crash (w_build false) (p_D w_p1) (p_O w_p1) (p_P w_p1) (p_fs w_p1) [] (p_fs w_edited) w_scans1 [] [] e m [a_] (init_sched e [a_] m (p_fs w_edited)) w_torn).
      * apply at_edit with (s := p_fs w_p1); [apply at_start|]. intros q Hq. unfold w_edited. cbn [p_fs]. unfold fs_set. destruct (str_eqb q a_) eqn:E; [|reflexivity].
        apply str_eqb_eq in E. subst q. discriminate Hq.
      * exact Ep.
      * constructor; [intros []|constructor].
      * intros f. rewrite Hord. tauto.
      * apply steps_refl.
      * intros q. destruct (str_eqb q (w_target a_)) eqn:E.
        -- right. left. apply str_eqb_eq in E. subst q. exists a_. split; [|refine (proj1 (mem_In (w_target a_) (api_children (p_O w_p1) a_)) _); vm_compute; reflexivity].
           exists a_. split; [left; left; reflexivity|apply rt_refl].
        -- left. unfold w_torn. unfold fs_set at 1. rewrite E. cbn [init_sched disk].
           assert (X : match prepare (p_D w_p1) (p_O w_p1) (p_P w_p1) w_scans1 [] [] with Ret (e, _) => e_dirty_out e | Raise _ => [] end = [w_target a_]) by (vm_compute; reflexivity). rewrite Ep in X.
           rewrite X. cbn [fold_left]. unfold fs_del. rewrite E. reflexivity.
      * intros f o Ho Hna. split; [intros g d r []|intros g r []].
    + exfalso. assert (X : match prepare (p_D w_p1) (p_O w_p1) (p_P w_p1) w_scans1 [] [] with Ret _ => true | Raise _ => false end = true) by (vm_compute; reflexivity). rewrite Ep in X. discriminate X.
  - assert (X : match w_retry return option (dict scan_result * list str) with Some (Some r, _) => Some (run_scans r, run_deleted r) | _ => None end = Some (w_scans1, [])) by (vm_compute; reflexivity).
    assert (Y : match w_retry return option str with Some (_, p2) => p_fs p2 (w_target a_) | _ => None end = Some (lit "A2")) by (vm_compute; reflexivity).
    destruct w_retry as [[[r|] p2]|] eqn:E; [|discriminate X|discriminate X]. exists r, p2.
    split; [exact (w_cold_sound false w_retried [a_; c_; g_; p_] [a_] [a_; c_; g_; p_] (Some r) p2 HL3 E)|]. injection X as X1 X2. split; [exact X1|]. split; [exact X2|exact Y].
Qed.

(** a placeholder was deleted and its generator edited: no build succeeds *)
Definition w_lost : project := with_fs w_p1 (fs_set g_ (lit "G2") (fs_del p_ (p_fs w_p1))).
Lemma history_with_fs build scan stat constants dev last p s : project_history build scan stat constants dev last p -> (forall q, is_out q = true -> s q = p_fs p q) ->
  project_history build scan stat constants dev last (with_fs p s).
Proof. apply h_edit. Qed.
Lemma lose_keeps (s : fs) q : is_out q = true -> fs_set g_ (lit "G2") (fs_del p_ s) q = s q.
Proof.
  intros Hq. unfold fs_set, fs_del. destruct (str_eqb q g_) eqn:E; [apply str_eqb_eq in E; subst q; discriminate Hq|].
  destruct (str_eqb q p_) eqn:E2; [apply str_eqb_eq in E2; subst q; discriminate Hq|reflexivity].
Qed.
Lemma w_lost_history : project_history w_build w_scan w_stat w_const false (p_fs w_p1) w_lost /\ in_src g_ = true /\ p_fs w_lost g_ <> None /\
  api_meta (p_D w_lost) g_ <> w_stat (p_fs w_lost) g_ /\ In p_ (dkeys (p_D w_lost)) /\ p_fs w_lost p_ = None.
Proof.
  assert (G : p_fs w_lost g_ = Some (lit "G2")) by reflexivity.
  split; [|split; [reflexivity|split; [rewrite G; discriminate|split; [|split]]]].
  - exact (history_with_fs _ _ _ _ _ _ w_p1 _ (proj1 w_history1) (lose_keeps (p_fs w_p1))).
  - assert (X : match api_meta (p_D w_lost) g_, w_stat (p_fs w_lost) g_ with Some (_, a, _), Some (_, b, _) => Z.eqb a b | _, _ => true end = false) by (vm_compute; reflexivity).
    intros Y. rewrite Y in X. destruct (w_stat (p_fs w_lost) g_) as [[[a b] c]|]; [rewrite Z.eqb_refl in X|]; discriminate X.
  - refine (proj1 (mem_In p_ (dkeys (p_D w_lost))) _). vm_compute. reflexivity.
  - reflexivity.
Qed.
Lemma w_lost_stuck dev r p1 : ~ cold_build (w_build dev) w_scan w_stat w_const dev w_lost r p1.
Proof.
  destruct w_lost_history as (H & A & B & C & E & F). destruct w_build_ok as (B1 & B2 & B3 & B4). destruct w_stat_ok as (S1 & S2).
  apply (cold_recreated (w_build dev) w_scan w_stat w_const dev w_lost S1 eq_refl
    (proj1 (HInv_history w_build w_scan w_stat w_const S1 S2 w_scan_ok eq_refl B1 B2 B3 B4 _ _ _ H)) g_ (mkFull (mkScan [] [w_target g_]) [(p_, lit "ph")]) p_ (lit "ph")); try assumption.
  - left. reflexivity.
  - reflexivity.
Qed.
