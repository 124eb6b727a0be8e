(** Outputs of deleted files are forgotten (C52). *)
From Verif Require Import Base Graph GraphSpec GraphProofs Hot HotSpec HotGraphs HotGraphsProofs HotSchedProofs HotResultSpec HotResultProofs.
From Coq Require Import String ZArith Bool List Relations.
Import ListNotations.
Open Scope list_scope.

Definition orphaned (deleted rebuilt ps : list str) : bool :=
  existsb (fun p => mem p deleted) ps && negb (existsb (fun p => negb (mem p deleted) && negb (mem p rebuilt)) ps).
Lemma set_add_In x y l : In x (set_add y l) <-> x = y \/ In x l.
Proof.
  unfold set_add. destruct (mem y l) eqn:E; [apply mem_In in E; split; [auto|intros [->|H]; assumption]|].
  rewrite in_app_iff. simpl. split; [intros [H|[H|[]]]; auto|intros [->|H]; auto].
Qed.
Lemma keep_outputs_maybe deleted rebuilt items : forall g maybe g' maybe', Inv g -> NoDup (map fst items) ->
  keep_outputs deleted rebuilt items g maybe = Ret (g', maybe') ->
  (forall x, In x maybe -> In x maybe') /\
  forall f n, In (f, n) items -> ~ In f (dkeys g) -> orphaned deleted rebuilt (n_parents n) = true -> In f maybe'.
Proof.
  induction items as [|[f n] r IH]; intros g maybe g' maybe' HI Hn H; cbn [keep_outputs] in H.
  - injection H as <- <-. split; [auto|intros f n []].
  - cbn [map fst] in Hn. inversion Hn as [|? ? Hnf Hnr]; subst. destruct (dmem f g) eqn:Ed.
    + destruct (IH _ _ _ _ HI Hnr H) as (A & B). split; [assumption|]. intros k m [[= <- <-]|Hk] Hg Ho; [|eauto].
      exfalso. apply Hg. apply dmem_In. assumption.
    + assert (Hadd : forall m1, (forall x, In x maybe -> In x m1) -> (orphaned deleted rebuilt (n_parents n) = true -> In f m1) ->
        match lift (add_file f (n_size n) (n_mtime n) (n_inode n) [] g) with
        | Raise x => Raise x | Ret gO1 => keep_outputs deleted rebuilt r gO1 m1 end = Ret (g', maybe') ->
        (forall x, In x maybe -> In x maybe') /\
        forall f0 n0, In (f0, n0) ((f, n) :: r) -> ~ In f0 (dkeys g) -> orphaned deleted rebuilt (n_parents n0) = true -> In f0 maybe').
      { intros m1 Hm Ho H1. destruct (lift _) as [g1|] eqn:E; [|discriminate]. destruct (lift_add _ _ _ _ _ _ HI E) as (_ & K & _ & _ & HI1).
        destruct (IH _ _ _ _ HI1 Hnr H1) as (A & B). split; [auto|]. intros k m [[= <- <-]|Hk] Hg Hor; [auto|].
        apply (B k m Hk); [|assumption]. rewrite K, in_app_iff. intros [Hx|[Hx|[]]]; [contradiction|]. subst k. apply Hnf. apply (in_map fst) in Hk. assumption. }
      destruct (n_parents n) as [|p ps] eqn:Ep.
      * destruct (mem f deleted).
        -- destruct (IH _ _ _ _ HI Hnr H) as (A & B). split; [assumption|]. intros k m [[= <- <-]|Hk] Hg Ho; [rewrite Ep in Ho; discriminate|eauto].
        -- eapply Hadd; [| |exact H]; [auto|discriminate].
      * eapply Hadd; [| |exact H]; fold (orphaned deleted rebuilt (p :: ps)).
        -- intros x Hx. destruct (orphaned deleted rebuilt (p :: ps)); [apply set_add_In; auto|assumption].
        -- intros ->. apply set_add_In. auto.
Qed.
Lemma drop_outputs_gone maybe : forall g g', Inv g -> drop_outputs maybe g = Ret g' ->
  forall x, In x maybe -> pa g x = [] -> ~ In x (dkeys g').
Proof.
  induction maybe as [|f r IH]; intros g g' HI H x Hx Hp; [destruct Hx|]. pose proof H as H0. cbn [drop_outputs] in H.
  destruct (get_parents g f) as [ps|] eqn:Ep; [|discriminate]. apply get_parents_pa in Ep. destruct Ep as (-> & Hk).
  destruct (pa g f) eqn:Epa.
  - destruct (lift (remove_file f false false g)) as [g1|] eqn:E; [|discriminate].
    destruct (lift_remove _ _ _ HI E) as (R1 & R2 & R3 & R4 & R5 & R6 & R7 & R8).
    destruct (drop_outputs_spec _ _ _ R7 H) as (_ & _ & _ & A4 & _). intros Hc. pose proof (A4 x Hc) as Hc1. rewrite R2 in Hc1. apply remove_all_In in Hc1.
    destruct Hc1 as (_ & Hne). destruct Hx as [Hx|Hx]; [congruence|]. apply (IH g1 g' R7 H x Hx); [|assumption].
    destruct (pa g1 x) as [|q t] eqn:Eq; [reflexivity|]. exfalso.
    assert (Hq : In x (ch g1 q)) by (apply (Inv_ch_pa g1 q x R7); rewrite Eq; left; reflexivity).
    assert (Hq2 : In x (ch g q)). { destruct (str_eq_dec q f) as [->|Hqf]; [|rewrite <- R3; assumption].
      exfalso. apply ch_key in Hq. rewrite R2 in Hq. apply remove_all_In in Hq. tauto. }
    apply (Inv_ch_pa g q x HI) in Hq2. rewrite Hp in Hq2. destruct Hq2.
  - destruct Hx as [<-|Hx]; [congruence|]. apply (IH g g' HI H x Hx Hp).
Qed.

Section Forget.
Context (build : str -> fs -> option build_result) (stat : fs -> str -> option fsig)
  (D O P : graph) (scans : dict scan_result) (newph : dict str) (changed added_ : dict fsig) (deleted : list str) (fs0 : fs)
  (e : env) (l : build_log) (fs1 : fs) (D1 O1 P1 : graph).
Context (HG : project_graphs D O P).
Context (HR : hot_rebuild build stat D O P scans newph changed added_ deleted fs0 e l fs1 D1 O1 P1).
Lemma outputs_forgotten o p : depends O p o -> In p deleted -> (forall q, depends O q o -> affected D P (dkeys scans) deleted q) ->
  ~ (exists g, reported_by l o g) -> ~ In o (dkeys D1) -> ~ In o (dkeys O1).
Proof.
  intros Ho Hd Hall Hrep HoD.
  destruct (stored_edges _ _ _ _ _ _ _ _ _ _ _ _ _ _ _ _ _ HG HR) as (SE1 & SE2 & SE3 & SE4).
  destruct (unfolded _ _ _ _ _ _ _ _ _ _ _ _ _ _ _ _ _ HG HR) as (st & S1 & S2 & S3 & S4 & HB & HC & S5 & results & inputs & N1 & N2 & N3 & N4 & Hng).
  destruct HG as (G1 & G2 & G3 & _). apply Inv_well_formed in G1, G2, G3.
  destruct (new_graphs_spec _ _ _ _ _ _ _ _ _ _ _ _ _ G1 G2 G3 Hng) as ((_ & _ & A3 & _) & (BI & _ & B3 & B4 & B5) & _). rewrite A3 in HoD.
  unfold new_graphs in Hng.
  destruct (add_inputs _ inputs empty_graph empty_graph empty_graph) as [[[gD gO] gP]|] eqn:E1; [|discriminate].
  destruct (keep_outputs deleted (dkeys results) O gO []) as [[gO1 mo]|] eqn:E2; [|discriminate].
  destruct (keep_placeholders P gP inputs) as [[gP1 mp]|] eqn:E3; [|discriminate].
  destruct (add_placeholders newph gP1) as [gP2|] eqn:E4; [|discriminate].
  destruct (link_inputs D O results (stat fs1) inputs gD gO1) as [[gD2 gO2]|] eqn:E5; [|discriminate].
  destruct (drop_outputs mo gO2) as [gO3|] eqn:E6; [|discriminate].
  destruct (drop_placeholders mp gP2) as [gP3|] eqn:E7; [|discriminate].
  injection Hng as <- <- <-.
  destruct (add_inputs_spec _ _ _ _ _ _ _ _ Inv_empty Inv_empty Inv_empty E1) as
    ((D1' & _) & (O1' & O2' & O3' & _) & _). simpl in O2'.
  assert (Hch : forall x, ch gO x = []) by (intros x; rewrite O3'; destruct (mem x inputs); reflexivity).
  destruct (keep_outputs_spec _ _ _ _ _ _ _ O1' Hch E2) as (K1 & K2 & K3 & K4 & K5 & K6 & K7). rewrite O2' in *.
  destruct (link_inputs_spec _ _ _ _ _ _ _ _ _ D1' K1 N1 K3 E5) as (L1 & L2 & L3 & L4 & L5 & L6 & L7 & _).
  destruct (drop_outputs_spec _ _ _ L2 E6) as (_ & _ & Q3 & _).
  assert (Hno : forall q, ~ In o (ch gO2 q)).
  { intros q Hq. rewrite <- Q3 in Hq. destruct (in_dec str_eq_dec q inputs) as [Hi|Hi]; [|rewrite (B4 q Hi) in Hq; destruct Hq].
    assert (Hqd : ~ affected D P (dkeys scans) deleted q).
    { intros Haf. rewrite <- A3 in Hi. destruct (SE1 q Hi Haf) as (d & r & Hl). apply Hrep. exists q, d, r. split; [assumption|].
      destruct (SE2 q d r Hl) as (E & _). rewrite <- E, api_children_ch. assumption. }
    rewrite <- A3 in Hi. destruct (SE3 q Hi Hqd) as (_ & E). rewrite !api_children_ch in E. rewrite E in Hq. apply Hqd, Hall. unfold depends. rewrite api_children_ch. assumption. }
  apply (drop_outputs_gone _ _ _ L2 E6).
  2: { destruct (pa gO2 o) as [|q t] eqn:Eq; [reflexivity|]. exfalso. apply (Hno q), (Inv_ch_pa gO2 q o L2). rewrite Eq. left. reflexivity. }
  assert (Hin : In o (dkeys O)). { eapply Inv_ch_closed; [exact G2|]. unfold depends in Ho. rewrite api_children_ch in Ho. exact Ho. }
  apply In_dkeys_dget in Hin. destruct Hin as (n & Hn). apply dget_In in Hn as Hn2.
  destruct (keep_outputs_maybe _ _ _ _ _ _ _ O1' (proj1 G2) E2) as (_ & M). apply (M o n Hn2); [rewrite O2'; assumption|].
  assert (Hpa : forall q, In q (n_parents n) <-> depends O q o).
  { intros q. unfold depends. rewrite api_children_ch. rewrite (Inv_ch_pa O q o G2). unfold pa, neighbours. rewrite Hn. reflexivity. }
  unfold orphaned. apply andb_true_intro. split.
  - apply existsb_exists. exists p. split; [apply Hpa; assumption|apply mem_In; assumption].
  - apply negb_true_iff. apply not_true_is_false. intros Hx. apply existsb_exists in Hx. destruct Hx as (q & Hq & Hx).
    apply andb_prop in Hx. destruct Hx as (X1 & X2). apply negb_true_iff in X1, X2. apply mem_false in X1, X2.
    apply Hpa, Hall in Hq. apply X2, N3. apply names_in, S4. split; assumption.
Qed.
End Forget.
