(** Executable checks of the hypotheses of C13-C15, used to exhibit concrete
    rebuilds, and the counterexample to C14. *)
From Verif Require Import Base Graph GraphSpec GraphProofs GraphMain Hot HotSpec HotDrive HotDirtyProofs HotSchedProofs HotMain HotExamples
  HotGraphs HotGraphsProofs HotResultSpec HotResultProofs.
From Coq Require Import String ZArith Bool List Relations Permutation.
Import ListNotations.
Open Scope list_scope.

Fixpoint nodup_b (l : list str) : bool := match l with [] => true | x :: r => negb (mem x r) && nodup_b r end.
Lemma nodup_b_spec l : nodup_b l = true -> NoDup l.
Proof.
  induction l as [|x r IH]; simpl; [constructor|]. rewrite andb_true_iff, negb_true_iff, mem_false. intros (A & B). constructor; auto.
Qed.
Definition same_b (a b : list str) : bool := incl_b a b && incl_b b a.
Lemma same_b_spec a b : same_b a b = true -> forall x, In x a <-> In x b.
Proof. unfold same_b. rewrite andb_true_iff. intros (A & B) x. split; apply incl_b_spec; assumption. Qed.
Definition ostr_eqb (a b : option str) : bool :=
  match a, b with Some x, Some y => str_eqb x y | None, None => true | _, _ => false end.
Lemma ostr_eqb_eq a b : ostr_eqb a b = true -> a = b.
Proof. destruct a, b; simpl; try discriminate; [|reflexivity]. intros H. apply str_eqb_eq in H. congruence. Qed.

Record outcome := mkOutcome { oc_e : env; oc_log : build_log; oc_fs : fs; oc_D : graph; oc_O : graph; oc_P : graph }.

Section Run.
Context (build : str -> fs -> option build_result) (stat : fs -> str -> option fsig).

Definition run_rebuild (width fuel : nat) (D O P : graph) (scans : dict scan_result) (newph : dict str) (changed added : dict fsig) (deleted : list str) (fs0 : fs)
  (order inputs : list str) : option outcome :=
  match prepare D O P scans newph deleted with
  | Raise _ => None
  | Ret (e, m) =>
      if nodup_b order && same_b order (e_orig e) then
        match drive build e width fuel (init_sched e order m fs0) with
        | Stopped _ _ => None
        | Running s =>
            match s_phase s, todo s, pending s, unlink_all (still_art s) (disk s) with
            | Scheduling, [], [], Some fs1 =>
                if nodup_b inputs && same_b inputs (filter (fun f => negb (mem f deleted)) (dkeys (results s) ++ dkeys D)) then
                  match new_graphs D O P changed added deleted (results s) newph (stat fs1) inputs with
                  | Ret (D1, O1, P1) => Some (mkOutcome e (log s) fs1 D1 O1 P1)
                  | Raise _ => None
                  end
                else None
            | _, _, _, _ => None
            end
        end
      else None
  end.
Lemma run_rebuild_sound width fuel D O P scans newph changed added deleted fs0 order inputs oc :
  run_rebuild width fuel D O P scans newph changed added deleted fs0 order inputs = Some oc ->
  hot_rebuild build stat D O P scans newph changed added deleted fs0 (oc_e oc) (oc_log oc) (oc_fs oc) (oc_D oc) (oc_O oc) (oc_P oc) /\
  exists m, prepare D O P scans newph deleted = Ret (oc_e oc, m).
Proof.
  unfold run_rebuild. destruct (prepare D O P scans newph deleted) as [[e m]|] eqn:Ep; [|discriminate].
  destruct (nodup_b order && same_b order (e_orig e)) eqn:Eo; [|discriminate]. apply andb_true_iff in Eo. destruct Eo as (Eo1 & Eo2).
  pose proof (drive_sound build e width fuel (init_sched e order m fs0) _ eq_refl) as Hd.
  destruct (drive _ _ _ _ _) as [s|]; [|discriminate].
  destruct (s_phase s) eqn:E1; [|discriminate]. destruct (todo s) eqn:E2; [|discriminate]. destruct (pending s) eqn:E3; [|discriminate].
  destruct (unlink_all _ _) as [fs1|] eqn:E4; [|discriminate].
  destruct (nodup_b inputs && same_b inputs _) eqn:E5; [|discriminate]. apply andb_true_iff in E5. destruct E5 as (E5 & E6).
  destruct (new_graphs _ _ _ _ _ _ _ _ _ _) as [[[D1 O1] P1]|] eqn:E7; [|discriminate]. intros [= <-]. simpl. split; [|eauto].
  refine (hot_done build stat D O P scans newph changed added deleted fs0 e m order s fs1 inputs D1 O1 P1 Ep (nodup_b_spec _ Eo1) (same_b_spec _ _ Eo2) Hd _ E4 (nodup_b_spec _ E5) _ E7);
    [split; [assumption|split; assumption]|].
  intros f. rewrite (same_b_spec _ _ E6 f), filter_In, in_app_iff, negb_true_iff, mem_false. reflexivity.
Qed.

Definition up_to_date_b (D O : graph) (s : fs) : bool :=
  forallb (fun f => match api_children O f with [] => true | _ => dmem f D end) (dkeys O) &&
  forallb (fun f => match build f s with
    | None => false
    | Some r => same_b (api_children O f) (b_outputs r) && forallb (fun oc => ostr_eqb (s (fst oc)) (Some (snd oc))) (b_produced r) &&
        forallb (fun c => if is_out c then existsb (fun x => mem c (api_children O x)) (f :: api_children D f) else mem c (api_children D f)) (b_children r)
    end) (dkeys D).
Lemma depends_dkeys g f o : depends g f o -> In f (dkeys g).
Proof. unfold depends. rewrite api_children_ch. apply ch_key. Qed.
Lemma up_to_date_b_spec D O s : up_to_date_b D O s = true -> up_to_date build D O s.
Proof.
  unfold up_to_date_b. rewrite andb_true_iff, !forallb_forall. intros (H1 & H2). split.
  - intros f o Ho. pose proof (H1 f (depends_dkeys _ _ _ Ho)) as H. unfold depends in Ho. destruct (api_children O f); [destruct Ho|]. apply dmem_In. assumption.
  - intros f Hf. specialize (H2 f Hf). destruct (build f s) as [r|]; [|discriminate]. rewrite !andb_true_iff, !forallb_forall in H2. destruct H2 as ((A & B) & C).
    exists r. split; [reflexivity|]. split; [intros o; unfold depends; apply same_b_spec; assumption|].
    split. { intros o c Hoc. apply ostr_eqb_eq. apply (B (o, c) Hoc). }
    split; intros c Hc Hco; specialize (C c Hc); rewrite Hco in C.
    + apply mem_In in C. exact C.
    + apply existsb_exists in C. destruct C as (x & [<-|Hx] & Hm); apply mem_In in Hm; eexists; (split; [|exact Hm]); auto.
Qed.

Definition agreeing_b (l : build_log) : bool :=
  forallb (fun t => let '(_, d, r) := t in forallb (fun t2 => let '(_, d2, r2) := t2 in
    forallb (fun p => negb (mem p (b_outputs r2)) || ostr_eqb (apply_build r d p) (apply_build r2 d2 p)) (b_outputs r)) l) l.
Lemma agreeing_b_spec l : agreeing_b l = true -> agreeing l.
Proof.
  unfold agreeing_b. rewrite forallb_forall. intros H f d r g d2 r2 p H1 H2 H3 H4. specialize (H _ H1). cbn beta iota in H. rewrite forallb_forall in H.
  specialize (H _ H2). cbn beta iota in H. rewrite forallb_forall in H. specialize (H p H3). apply mem_In in H4. rewrite H4 in H. apply ostr_eqb_eq. assumption.
Qed.
Definition read_after_b (e : env) (l : build_log) : bool :=
  forallb (fun t => let '(f, _, r) := t in forallb (fun c => negb (is_out c) || mem c (b_outputs r) ||
     match depends_on e f with
     | Ret ds => existsb (fun t2 => let '(g, _, r2) := t2 in mem g ds && mem c (b_outputs r2)) l
     | Raise _ => false
     end) (b_children r)) l.
Lemma read_after_b_spec D O P scans newph deleted e m dirt l : project_graphs D O P -> prepare D O P scans newph deleted = Ret (e, m) ->
  read_after_b e l = true -> read_after e dirt l.
Proof.
  intros HG Hp H f d r c Hi Hc Ho _. unfold read_after_b in H. rewrite forallb_forall in H. specialize (H _ Hi). cbn beta iota in H. rewrite forallb_forall in H.
  specialize (H c Hc). rewrite Ho in H. cbn [negb orb] in H. apply orb_true_iff in H. destruct H as [H|H]; [left; apply mem_In; assumption|].
  destruct (depends_on e f) as [ds|] eqn:Ed; [|discriminate]. apply existsb_exists in H. destruct H as ([[g d2] r2] & Hi2 & H). apply andb_true_iff in H.
  destruct H as (A & B). apply mem_In in A, B. right. exists g. split; [eapply depends_on_needs; eassumption|]. exists d2, r2. auto.
Qed.
Definition sources_recorded_b (l : build_log) (D O : graph) : bool :=
  forallb (fun t => let '(f, _, r) := t in forallb (fun c => negb (is_out c) || existsb (fun x => mem c (api_children O x)) (f :: api_children D f)) (b_children r)) l.
Lemma sources_recorded_b_spec l D O : sources_recorded_b l D O = true -> sources_recorded l D O.
Proof.
  intros H f d r c Hi Hc Ho. unfold sources_recorded_b in H. rewrite forallb_forall in H. specialize (H _ Hi). cbn beta iota in H. rewrite forallb_forall in H.
  specialize (H c Hc). rewrite Ho in H. cbn [negb orb] in H. apply existsb_exists in H. destruct H as (x & Hx & Hm). apply mem_In in Hm. exists x.
  split; [destruct Hx; auto|exact Hm].
Qed.
Definition shared_preserved_b (O : graph) (files : list str) (outs : list str) (l : build_log) : bool :=
  forallb (fun f => mem f files || forallb (fun o => negb (mem o outs) && forallb (fun t => negb (mem o (b_outputs (snd t)))) l) (api_children O f)) (dkeys O).
Lemma shared_preserved_b_spec D O P scanned deleted fs0 l files outs arts : project_graphs D O P -> dirty D O P scanned deleted = Some (files, outs, arts) ->
  shared_preserved_b O files (outs ++ arts) l = true -> shared_preserved D O P scanned deleted fs0 l.
Proof.
  intros HG Hd H f o Ho Hn. destruct HG as (G1 & _ & G3 & _).
  destruct (dirty_well_formed D O P scanned deleted G1 G3) as (files' & outs' & arts' & Hd' & _ & _ & _ & A1 & A2 & A3).
  rewrite Hd in Hd'. injection Hd' as <- <- <-.
  unfold shared_preserved_b in H. rewrite forallb_forall in H. specialize (H f (depends_dkeys _ _ _ Ho)). apply orb_true_iff in H.
  destruct H as [H|H]; [apply mem_In, A1 in H; contradiction|]. rewrite forallb_forall in H. specialize (H o Ho). apply andb_true_iff in H.
  destruct H as (B1 & B2). apply negb_true_iff, mem_false in B1. rewrite in_app_iff, A2, A3 in B1. rewrite forallb_forall in B2. split.
  - intros Hdo. exfalso. apply B1. destruct (starts_with (lit "artifacts") o) eqn:E.
    + right. split; [apply starts_with_iff; assumption|exact Hdo].
    + left. split; [intros Ha; apply starts_with_iff in Ha; congruence|exact Hdo].
  - intros g d r Hi Hp. specialize (B2 _ Hi). apply negb_true_iff, mem_false in B2. contradiction.
Qed.

Lemma honest_intro D O P scans newph deleted fs_old fs0 e m files outs arts l D1 O1 : project_graphs D O P ->
  prepare D O P scans newph deleted = Ret (e, m) -> dirty D O P (dkeys scans) deleted = Some (files, outs, arts) ->
  (forall p, ~ In p (dkeys scans) -> ~ In p deleted -> fs0 p = fs_old p) ->
  forallb (fun f => forallb is_out (api_children O f)) (dkeys O) = true ->
  forallb (fun f => negb (is_out f)) (dkeys D ++ files) && forallb (fun gs => forallb is_out (s_produces (snd gs))) scans &&
    agreeing_b l && read_after_b e l && sources_recorded_b l D1 O1 && shared_preserved_b O files (outs ++ arts) l = true ->
  honest_rebuild D O P scans deleted fs_old fs0 e l D1 O1.
Proof.
  intros HG Hp Hd Hs Hoo H. rewrite !andb_true_iff in H. destruct H as (((((H1 & H2) & H3) & H4) & H5) & H6).
  assert (H6' := shared_preserved_b_spec D O P (dkeys scans) deleted fs_old l files outs arts HG Hd H6).
  assert (Hio : forall f, In f (dkeys scans) \/ In f deleted -> is_out f = false).
  { intros f Hf. rewrite forallb_forall in H1. apply negb_true_iff, H1, in_or_app. right. destruct HG as (G1 & _ & G3 & _).
    destruct (dirty_well_formed D O P (dkeys scans) deleted G1 G3) as (files' & outs' & arts' & Hd' & _ & _ & _ & A1 & _).
    rewrite Hd in Hd'. injection Hd' as <- <- <-. apply A1. exists f. split; [assumption|apply rt_refl]. }
  split; [split; [auto|]|]. { intros f o Hfo Hn Hdo. assert (Hfo2 : is_out o = true) by (rewrite forallb_forall in Hoo; specialize (Hoo f (depends_dkeys _ _ _ Hfo)); rewrite forallb_forall in Hoo; apply Hoo; exact Hfo). apply Hs; intros X; rewrite Hio in Hfo2 by auto; discriminate. }
  split.
  { intros f Hf. rewrite forallb_forall in H1. apply negb_true_iff, H1, in_or_app. destruct Hf as [Hf|Hf]; [auto|]. right.
    destruct HG as (G1 & _ & G3 & _). destruct (dirty_well_formed D O P (dkeys scans) deleted G1 G3) as (files' & outs' & arts' & Hd' & _ & _ & _ & A1 & _).
    rewrite Hd in Hd'. injection Hd' as <- <- <-. apply A1. assumption. }
  split. { intros g sc o Hg Ho. rewrite forallb_forall in H2. specialize (H2 _ Hg). rewrite forallb_forall in H2. apply H2. assumption. }
  split; [apply agreeing_b_spec; assumption|]. split; [eapply read_after_b_spec; eassumption|]. split; [apply sources_recorded_b_spec; assumption|].
  assumption.
Qed.
End Run.

(** ** a shared output is lost (C14) *)
Definition sh_stat (s : fs) (p : str) : option fsig := match s p with Some _ => Some (1, 1, 1)%Z | None => None end.
Definition sh_D : graph := history [OpAdd (lit "x") 1 1 1 []; OpAdd (lit "y") 1 1 1 []].
Definition sh_O : graph := history [OpAdd (lit "out/o") 1 1 1 []; OpAdd (lit "x") 1 1 1 [lit "out/o"]; OpAdd (lit "y") 1 1 1 [lit "out/o"]].
(** a file whose contents are "o" writes out/o, any other file nothing *)
Definition sh_build (f : str) (s : fs) : option build_result :=
  match s f with
  | None => None
  | Some c => Some (mkBuild [] (if str_eqb c (lit "o") then [(lit "out/o", lit "o")] else []) [])
  end.
Definition sh_old : fs := fun p => if mem p [lit "x"; lit "y"; lit "out/o"] then Some (lit "o") else None.
Definition sh_new : fs := fs_set (lit "x") (lit "nothing") sh_old.
Definition sh_run : option outcome := run_rebuild sh_build sh_stat 1 10 sh_D sh_O empty_graph [(lit "x", mkScan [] [])] [] [(lit "x", (2, 2, 2)%Z)] [] [] sh_new
  [lit "x"] [lit "x"; lit "y"].
Lemma shared_output_lost : exists build stat D O scans changed fs_old fs0 e l fs1 D1 O1 P1 f o,
  project_graphs D O empty_graph /\ up_to_date build D O fs_old /\ (forall p, ~ In p (dkeys scans) -> fs0 p = fs_old p) /\
  reads_declared build /\ idempotent build /\ writes_out build /\ reuses_existing build /\
  hot_rebuild build stat D O empty_graph scans [] changed [] [] fs0 e l fs1 D1 O1 P1 /\
  depends O1 f o /\ fs1 o = None /\ fs0 o <> None.
Proof.
  destruct sh_run as [oc|] eqn:E; [|vm_compute in E; discriminate].
  destruct (run_rebuild_sound _ _ _ _ _ _ _ _ _ _ _ _ _ _ _ _ E) as (HR & _).
  exists sh_build, sh_stat, sh_D, sh_O, [(lit "x", mkScan [] [])], [(lit "x", (2, 2, 2)%Z)], sh_old, sh_new.
  exists (oc_e oc), (oc_log oc), (oc_fs oc), (oc_D oc), (oc_O oc), (oc_P oc), (lit "y"), (lit "out/o").
  split; [apply (project_graphs_intro _ _ []); vm_compute; reflexivity|].
  split; [apply up_to_date_b_spec; vm_compute; reflexivity|].
  split. { intros p Hp. unfold sh_new, fs_set. destruct (str_eqb p (lit "x")) eqn:Ep; [|reflexivity]. apply str_eqb_eq in Ep. subst. exfalso. apply Hp. left. reflexivity. }
  split. { intros f s r s2 H H2. unfold sh_build in *. rewrite (H2 f (or_introl eq_refl)). assumption. }
  split. { intros f s r H. unfold sh_build in *. destruct (s f) as [c|] eqn:Ec; [|discriminate]. injection H as <-. unfold apply_build. cbn [b_produced].
           destruct (str_eqb c (lit "o")) eqn:Eo; cbn [apply_writes fold_left fst snd].
           - unfold fs_set at 1. destruct (str_eqb f (lit "out/o")) eqn:Ef.
             + rewrite (proj2 (str_eqb_eq (lit "o") (lit "o")) eq_refl). eexists. split; [reflexivity|]. split; [reflexivity|]. split; [reflexivity|].
               intros o c' [[= <- <-]|[]]. unfold fs_set. rewrite str_eqb_refl. reflexivity.
             + rewrite Ec, Eo. eexists. split; [reflexivity|]. split; [reflexivity|]. split; [reflexivity|].
               intros o c' [[= <- <-]|[]]. unfold fs_set. rewrite str_eqb_refl. reflexivity.
           - rewrite Ec, Eo. eexists. split; [reflexivity|]. split; [reflexivity|]. split; [reflexivity|]. intros o c' []. }
  split. { intros f s r o H Ho. unfold sh_build in H. destruct (s f) as [c|]; [|discriminate]. injection H as <-. unfold b_outputs in Ho. cbn [b_produced b_reused] in Ho.
           destruct (str_eqb c (lit "o")); [|destruct Ho]. destruct Ho as [<-|[]]. vm_compute. reflexivity. }
  split. { intros f s r o H Ho. unfold sh_build in H. destruct (s f); [|discriminate]. injection H as <-. destruct Ho. }
  split; [exact HR|].
  assert (Ed : Some oc = sh_run) by (symmetry; exact E).
  assert (E1 : match sh_run with Some oc => mem (lit "out/o") (api_children (oc_O oc) (lit "y")) | None => false end = true) by (vm_compute; reflexivity).
  assert (E2 : match sh_run with Some oc => ostr_eqb (oc_fs oc (lit "out/o")) None | None => false end = true) by (vm_compute; reflexivity).
  rewrite E in E1, E2. split; [apply mem_In in E1; exact E1|]. split; [apply ostr_eqb_eq; assumption|]. vm_compute. discriminate.
Qed.

Definition built_names (oc : outcome) : list str := map (fun t => fst (fst t)) (oc_log oc).
