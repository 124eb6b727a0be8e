(** Property C77: workers that make folders at the same time. *)
From Coq Require Import String ZArith NArith Bool List Lia.
From Verif Require Import Base Graph PyPath PyNorm Prune PruneSpec PruneProofs Makedirs MakedirsSpec MakedirsProofs MakedirsExamples.
Import ListNotations.
Open Scope list_scope.

(** However the workers are interleaved, and whatever is refused: nothing that was there is lost, nothing is made except
    the outputs and the folders around them, and each file and folder lies in folders that exist. *)
Theorem C77_harmless : forall t0 fs log t ps, sound t0 -> room t0 fs -> runs t0 (start fs) log t ps ->
  sound t /\ (forall x, In x (t_files t0) -> In x (t_files t)) /\ (forall d, In d (t_dirs t0) -> In d (t_dirs t)) /\
  (forall x, In x (t_files t) -> In x (t_files t0) \/ In x fs) /\ (forall d, In d (t_dirs t) -> In d (t_dirs t0) \/ exists f, In f fs /\ inside d f).
Proof. intros t0 fs log t ps H HR H1. exact (proj1 (runs_right t0 fs H HR log t ps H1)). Qed.
(** A worker does not fail, unless mkdir was refused to it five times; then it fails with PermissionError. What happens to
    other workers does not matter to it. *)
Theorem C77_succeeds : forall t0 fs log t ps k f p, sound t0 -> room t0 fs -> runs t0 (start fs) log t ps -> nth_error ps k = Some (f, p) -> could_ask k log ->
  forall x, p = Failed x -> x = EACCES /\ (5 <= refused k log)%nat.
Proof. intros t0 fs log t ps k f p H HR H1 Hk HC x ->. destruct (runs_right t0 fs H HR log t ps H1) as (_ & _ & HI). exact (proj2 (HI k f _ Hk) HC). Qed.
(** A worker that is done has written its output, and the folders around it are there. *)
Theorem C77_written : forall t0 fs log t ps k f, sound t0 -> room t0 fs -> runs t0 (start fs) log t ps -> nth_error ps k = Some (f, Done) ->
  In f (t_files t) /\ forall d, inside d f -> In d (t_dirs t).
Proof.
  intros t0 fs log t ps k f H HR H1 Hk. destruct (runs_right t0 fs H HR log t ps H1) as ((S & _) & _ & HI). pose proof (proj1 (HI k f _ Hk)) as X. cbn [shape] in X. split; [exact X|]. exact (proj2 (S f (or_introl X))).
Qed.
(** The workers end: no run is longer than this, and a worker that has not ended can go on at any time. *)
Theorem C77_ends : forall t0 fs log t ps, sound t0 -> room t0 fs -> runs t0 (start fs) log t ps ->
  (length log <= list_sum (map (fun f => 15 * length f + 16) fs))%nat /\
  forall k f p denied, nth_error ps k = Some (f, p) -> ended p \/ exists t1 p1, runs t0 (start fs) ((k, p, denied) :: log) t1 (set_nth k (f, p1) ps).
Proof.
  intros t0 fs log t ps H HR H1. split.
  - assert (X : (total (start fs) <= list_sum (map (fun f => 15 * length f + 16) fs))%nat).
    { apply total_start. intros f Hf. pose proof (inside_length _ _ (proj2 (f_folder t0 fs HR f Hf))). lia. }
    pose proof (proj1 (runs_total t0 fs H HR log t ps H1)). lia.
  - intros k f p denied Hk. assert (X : ended p \/ exists t1 p1, act denied f t p = Some (t1, p1)).
    { destruct p as [i|i n r|i n r|i n r x| | |x]; cbn [act].
      - right. destruct denied, (is_dir (dirname f) t), (is_there (dirname f) t); eauto.
      - right. destruct (dirname n) as [|y l]; [eauto|]. destruct (negb denied && is_there (y :: l) t); eauto.
      - right. destruct denied; [eauto|]. destruct (mkdir n t); eauto.
      - right. destruct (negb denied && is_dir n t); eauto.
      - right. destruct (is_dir f t), (is_dir (dirname f) t); eauto.
      - left. left. reflexivity.
      - left. right. eauto. }
    destruct X as [X|(t1 & p1 & X)]; [left; exact X|right]. exists t1, p1. eapply runs_step; eassumption.
Qed.
(** When all are done, the files and folders are those that one worker would leave that writes the outputs one after the
    other (the assumption of C76). *)
Theorem C77_sequential : forall t0 fs log t ps, sound t0 -> room t0 fs -> runs t0 (start fs) log t ps -> (forall k f p, nth_error ps k = Some (f, p) -> p = Done) ->
  exists t', write_files fs t0 = Some t' /\ same_tree t t'.
Proof.
  intros t0 fs log t ps H HR H1 HD. destruct (writes_right fs t0 (fun f Hf => proj1 (HR f Hf)) H) as (t' & E & _ & F & D). exists t'. split; [exact E|].
  destruct (runs_right t0 fs H HR log t ps H1) as ((S & A & B & C & G) & HM & HI). assert (W : forall f, In f fs -> In f (t_files t)).
  { intros f Hf. rewrite <- HM in Hf. apply in_map_iff in Hf. destruct Hf as ((g & p) & Eg & Hp). cbn [fst] in Eg. subst g. apply In_nth_error in Hp. destruct Hp as (k & Hk). pose proof (HD k f p Hk) as ->. exact (proj1 (HI k f _ Hk)). }
  split.
  - intros f. rewrite F. split; [apply C|]. intros [X|X]; [apply A, X|apply W, X].
  - intros d. rewrite D. split; [apply G|]. intros [X|(w & Hw & X)]; [apply B, X|]. exact (proj2 (S w (or_introl (W w Hw))) d X).
Qed.
(** A file where a folder belongs is not replaced, and the workers for outputs in that folder do not complete. *)
Theorem C77_blocked : forall t0 fs log t ps d, In d (t_files t0) -> ~ In d (t_dirs t0) -> runs t0 (start fs) log t ps ->
  In d (t_files t) /\ ~ In d (t_dirs t) /\ forall k f p, nth_error ps k = Some (f, p) -> dirname f = d -> p <> Done.
Proof. intros t0 fs log t ps d H1 H2 H. destruct (runs_blocked d t0 fs log t ps H H1 H2) as ((A & B) & C). auto. Qed.
(** One refusal is too many if it hits the question, asked when another worker made the folder first, whether the
    folder exists: the worker fails with FileExistsError and does not try again. *)
Theorem C77_retries_refuted : ~ forall t0 fs log t ps k f x, sound t0 -> room t0 fs -> runs t0 (start fs) log t ps -> nth_error ps k = Some (f, Failed x) -> (5 <= length (filter (fun e => snd e) log))%nat.
Proof.
  intros H. destruct mk_bad_failed as (A & _ & B). specialize (H _ _ _ _ _ _ _ _ mk_sound mk_room mk_bad_runs A). rewrite B in H. lia.
Qed.
(** The outputs of a site have room: if the sources do not clash, what C77_succeeds and the others say holds of the builds of
    any of them, on whatever earlier builds left. *)
Theorem C77_site : forall qs t0 fs log t ps k f p, no_clash qs -> built_from qs t0 -> (forall f, In f fs -> In f (flat_map outputs_of qs)) -> runs t0 (start fs) log t ps -> nth_error ps k = Some (f, p) -> could_ask k log -> (refused k log < 5)%nat ->
  (forall x, p <> Failed x) /\ (p = Done -> In f (t_files t) /\ forall d, inside d f -> In d (t_dirs t)).
Proof.
  intros qs t0 fs log t ps k f p HN HB Hfs H Hk HC HL. pose proof (site_room qs t0 HN HB) as R. assert (R' : room t0 fs).
  { intros g Hg. destruct (R g (Hfs g Hg)) as (A & B & C & D). split; [exact A|]. split; [exact B|]. split; [exact C|]. intros x [Hx|Hx]; apply D; [left; exact Hx|right; apply Hfs, Hx]. }
  split; [intros x E; destruct (C77_succeeds _ _ _ _ _ _ _ _ (proj1 HB) R' H Hk HC x E); lia|]. intros ->. exact (C77_written _ _ _ _ _ _ _ (proj1 HB) R' H Hk).
Qed.
(** But sources can clash: if there is a source [a] and, in a folder named [a.hash], another one, then not all outputs of
    the two are ever built, in whatever order and however often the builds are tried. *)
Theorem C77_clash : forall t0 fs log t ps a b k j, (forall x, In x (t_files t0) -> ~ In x (t_dirs t0)) -> runs t0 (start fs) log t ps -> dirname b = a ++ lit ".hash" -> 
  nth_error ps k = Some (a ++ lit ".hash", Done) -> nth_error ps j <> Some (b, Done).
Proof.
  intros t0 fs log t ps a b k j H0 H E Hk Hj. destruct (runs_apart t0 fs log t ps H H0) as (A & B). destruct (B k _ Hk) as (X & _). destruct (B j _ Hj) as (_ & Y). rewrite E in Y. exact (A _ X Y).
Qed.
(** three workers, one of which is refused once; they all complete *)
Example C77_three : sound mk_tree /\ room mk_tree mk_fs /\ runs mk_tree (start mk_fs) mk_log mk_after mk_done /\ refused 0 mk_log = 1%nat /\ length mk_log = 21%nat /\ could_ask 0 mk_log.
Proof.
  split; [exact mk_sound|]. split; [exact mk_room|]. split; [exact mk_runs|]. split; [vm_compute; reflexivity|]. split; [vm_compute; reflexivity|]. intros i n r x X. assert (Y : forallb (fun e => match e with (_, Check _ _ _ _, true) => false | _ => true end) mk_log = true) by (vm_compute; reflexivity).
  rewrite forallb_forall in Y. specialize (Y _ X). discriminate Y.
Qed.
(** mkdir refused five times *)
Example C77_gives_up : exists log t ps, runs mk_tree (start mk_fs) log t ps /\ nth_error ps 2 = Some (mk_c, Failed EACCES) /\ could_ask 2 log.
Proof.
  set (l := concat (repeat [(2, false); (2, false); (2, true); (2, false)]%nat 5)). eexists. eexists. eexists. split; [refine (follow_runs _ _ l _ _ _ _ _ _ (runs_start _ _) _); vm_compute; reflexivity|]. split; [vm_compute; reflexivity|].
  intros i n r x X. cbn [In] in X. intuition discriminate.
Qed.
(** a file named css *)
Example C77_css_file : exists t0 log t ps, In (dirname mk_a) (t_files t0) /\ ~ In (dirname mk_a) (t_dirs t0) /\ runs t0 (start mk_fs) log t ps /\ nth_error ps 0 = Some (mk_a, Failed EEXIST).
Proof.
  exists (mkTree [lit "out/www/css"] [lit "out"; lit "out/www"]). eexists. eexists. eexists. split; [left; vm_compute; reflexivity|]. split; [intros X; apply mem_In in X; vm_compute in X; discriminate X|].
  split; [refine (follow_runs _ _ [(0, false)]%nat _ _ _ _ _ _ (runs_start _ _) _); vm_compute; reflexivity|]. vm_compute. reflexivity.
Qed.
(** the sources css/a.css, css/b.css and index.html *)
Example C77_three_sources : no_clash mk_sources /\ built_from mk_sources mk_tree /\ forall f, In f mk_fs -> In f (flat_map outputs_of mk_sources).
Proof. exact (conj mk_no_clash (conj mk_built (fun f Hf => proj1 (mem_In _ _) (proj1 (forallb_forall (fun f => mem f (flat_map outputs_of mk_sources)) mk_fs) eq_refl f Hf)))). Qed.
(** the sources a.css and a.css.hash/b.css: the hash file of the first is written, and the second cannot be *)
Example C77_hash_folder : exists log t ps, runs mk_tree (start [lit "out/www/a.css.hash"; lit "out/www/a.css.hash/b.css"]) log t ps /\ nth_error ps 0 = Some (lit "out/www/a.css.hash", Done) /\ nth_error ps 1 = Some (lit "out/www/a.css.hash/b.css", Failed EEXIST) /\ dirname (lit "out/www/a.css.hash/b.css") = lit "out/www/a.css" ++ lit ".hash".
Proof.
  eexists. eexists. eexists. split; [refine (follow_runs _ _ [(0, false); (0, false); (0, false); (0, false); (1, false)]%nat _ _ _ _ _ _ (runs_start _ _) _); vm_compute; reflexivity|]. vm_compute. repeat split.
Qed.
Print Assumptions C77_site.
Print Assumptions C77_clash.
Print Assumptions C77_harmless.
Print Assumptions C77_succeeds.
Print Assumptions C77_written.
Print Assumptions C77_ends.
Print Assumptions C77_sequential.
Print Assumptions C77_blocked.
Print Assumptions C77_retries_refuted.
