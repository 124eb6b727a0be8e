(** Proofs about a whole export. *)
From Verif Require Import Base Graph Json JsonProofs PyPath Handlers ImgSize ImgSettings ImgExport ImgExportSpec ImgExportProofs.
From Coq Require Import String ZArith NArith Bool List Lia Permutation.
Import ListNotations.
Open Scope list_scope.
Open Scope Z_scope.

Lemma nodup_app {X} (a b : list X) : NoDup a -> NoDup b -> (forall x, In x a -> In x b -> False) -> NoDup (a ++ b).
Proof. induction 1 as [|x a N H IH]; intros B D; [exact B|]. cbn [app]. constructor; [|apply IH; [exact B|intros y I; apply D; right; exact I]]. intros I. apply in_app_or in I. destruct I as [I|I]; [contradiction|]. exact (D x (or_introl eq_refl) I). Qed.
Section Run.
Context (symlinks : bool) (encode : Z -> Z -> str -> list (str * kval) -> res str) (art out sub : str) (A : apart art out).
Notation trial := (trial_file art).
Notation kept := (kept_file art).
Notation public := (kept_file out).
Definition task : Type := (Z * Z) * (str * image_format).
Definition tw (t : task) := fst (fst t). Definition th (t : task) := snd (fst t). Definition tn (t : task) := fst (snd t). Definition tf (t : task) := snd (snd t).
Definition good_task (t : task) : Prop := 0 < tw t /\ 0 < th t /\ ~ In 46%N (tn t) /\ dict_wf (exports (tf t)) /\ forall n e, In (n, e) (exports (tf t)) -> 0 < preference e.
Definition key (t : task) : Z * Z * str := (tw t, th t, tn t).
Definition has (t : task) : bool := existsb (fun e => applies_to (snd e) (tw t) (th t)) (exports (tf t)).
(** the trial files of a task are there *)
Definition ready (f : fs) (t : task) : Prop := forall n e, In (n, e) (exports (tf t)) -> applies_to e (tw t) (th t) = true -> exists d, encode (tw t) (th t) (tn t) (kwargs e) = Ret d /\ dget (trial (tw t) (th t) n (tn t)) f = Some d.
(** the task is done: the best is kept *)
Definition outs (name : str) (s : progress) : list output := match dget name (outputs s) with None => [] | Some l => l end.
Definition finished (s : progress) (t : task) : Prop :=
  has t = true -> exists n e d, In (n, e) (exports (tf t)) /\ applies_to e (tw t) (th t) = true /\ encode (tw t) (th t) (tn t) (kwargs e) = Ret d /\
    dget (kept (tw t) (th t) (tn t)) (files s) = Some d /\ dget (public (tw t) (th t) (tn t)) (files s) = Some d /\
    In {| o_width := tw t; o_height := th t; o_relpath := join2 sub (final_name (tw t) (th t) (tn t)); o_choice := n |} (outs (tn t) s) /\
    forall n' e' d', In (n', e') (exports (tf t)) -> applies_to e' (tw t) (th t) = true -> encode (tw t) (th t) (tn t) (kwargs e') = Ret d' -> no_worse (unit_size (tf t)) e d e' d'.
(** the paths a task touches *)
Definition touches (t : task) (p : str) : Prop :=
  (has t = true /\ (p = kept (tw t) (th t) (tn t) \/ p = public (tw t) (th t) (tn t))) \/ exists n e, In (n, e) (exports (tf t)) /\ applies_to e (tw t) (th t) = true /\ p = trial (tw t) (th t) n (tn t).
Definition cleared (f : fs) (t : task) : Prop := forall n e, In (n, e) (exports (tf t)) -> applies_to e (tw t) (th t) = true -> dget (trial (tw t) (th t) n (tn t)) f = None.

Lemma has_iff t : has t = true <-> exists n e, In (n, e) (exports (tf t)) /\ applies_to e (tw t) (th t) = true.
Proof using. unfold has. rewrite existsb_exists. split; [intros ([n e] & I & Ap); exists n, e; split; assumption|intros (n & e & I & Ap); exists (n, e); split; assumption]. Qed.
Lemma trial_kept t t' n : good_task t -> good_task t' -> trial (tw t) (th t) n (tn t) <> kept (tw t') (th t') (tn t').
Proof using. intros (W & H & _) (W' & H' & _) E. apply join2_inj in E; [|apply temp_rel; assumption|apply final_rel; assumption]. exact (temp_final _ _ _ _ W H W' H' _ _ _ E). Qed.
Lemma trial_public t t' n : good_task t -> good_task t' -> trial (tw t) (th t) n (tn t) <> public (tw t') (th t') (tn t').
Proof using A. intros (W & H & _) (W' & H' & _). apply apart_join; [exact A|apply temp_rel; assumption|apply final_rel; assumption]. Qed.
Lemma kept_public t t' : good_task t -> good_task t' -> kept (tw t) (th t) (tn t) <> public (tw t') (th t') (tn t').
Proof using A. intros (W & H & _) (W' & H' & _). apply apart_join; [exact A|apply final_rel; assumption|apply final_rel; assumption]. Qed.
Lemma kept_inj dir t t' : good_task t -> good_task t' -> kept_file dir (tw t) (th t) (tn t) = kept_file dir (tw t') (th t') (tn t') -> key t = key t'.
Proof using. intros (W & H & _) (W' & H' & _) E. apply join2_inj in E; [|apply final_rel; assumption|apply final_rel; assumption]. apply final_inj in E; try assumption. destruct E as (E1 & E2 & E3). unfold key. rewrite E1, E2, E3. reflexivity. Qed.
Lemma trial_key t t' n n' : good_task t -> good_task t' -> trial (tw t) (th t) n (tn t) = trial (tw t') (th t') n' (tn t') -> key t = key t' /\ n = n'.
Proof using. intros (W & H & D & _) (W' & H' & D' & _) E. apply join2_inj in E; [|apply temp_rel; assumption|apply temp_rel; assumption]. apply temp_inj in E; try assumption. destruct E as (E1 & E2 & E3 & E4). unfold key. rewrite E1, E2, E4. auto. Qed.
Lemma touches_other t t' p : good_task t -> good_task t' -> touches t p -> touches t' p -> key t = key t'.
Proof using A.
  intros G G' [[_ [T|T]]|(n & e & _ & _ & T)] [[_ [T'|T']]|(n' & e' & _ & _ & T')]; subst p.
  - exact (kept_inj _ _ _ G G' T').
  - exfalso. exact (kept_public _ _ G G' T').
  - exfalso. exact (trial_kept _ _ _ G' G (eq_sym T')).
  - exfalso. exact (kept_public _ _ G' G (eq_sym T')).
  - exact (kept_inj _ _ _ G G' T').
  - exfalso. exact (trial_public _ _ _ G' G (eq_sym T')).
  - exfalso. exact (trial_kept _ _ _ G G' T').
  - exfalso. exact (trial_public _ _ _ G G' T').
  - exact (proj1 (trial_key _ _ _ _ G G' T')).
Qed.

Lemma one_ok t s : good_task t -> dict_wf (files s) -> ready (files s) t -> (symlinks = true -> dget (public (tw t) (th t) (tn t)) (files s) = None) ->
  exists s', export_one symlinks art out sub (tw t) (th t) (snd t) s = Ret s' /\ dict_wf (files s') /\ (forall p, ~ touches t p -> dget p (files s') = dget p (files s)) /\ cleared (files s') t /\ finished s' t /\
    made s' = made s ++ (if has t then [kept (tw t) (th t) (tn t); public (tw t) (th t) (tn t)] else []) /\
    (forall name, name <> tn t -> dget name (outputs s') = dget name (outputs s)) /\
    exists l, outs (tn t) s' = outs (tn t) s ++ l /\ map (fun o => (o_width o, o_height o, o_relpath o)) l = if has t then [(tw t, th t, join2 sub (final_name (tw t) (th t) (tn t)))] else [].
Proof using A.
  intros G W R F. assert (G' := G). destruct G' as (w0 & h0 & dot & Wx & Px). unfold export_one. change (fst (snd t)) with (tn t). change (snd (snd t)) with (tf t).
  destruct (choose_ok encode art (tw t) (th t) (tn t) (tf t) w0 h0 dot (exports (tf t)) None (files s) W Wx Px R) as (b' & f' & E & Wf' & O1 & O2 & _ & O4); [intros o Eo; discriminate Eo|].
  rewrite E. destruct b' as [o|].
  - destruct O4 as ((Po & Pr & d & Ed & Gd & Ld) & K & _ & C). destruct K as [K|[K1 K2]]; [discriminate K|].
    assert (Ht : has t = true) by (apply has_iff; exists (b_name o), (b_export o); split; assumption).
    fold (kept (tw t) (th t) (tn t)). fold (public (tw t) (th t) (tn t)). unfold rename. rewrite Gd. set (f2 := dset (kept (tw t) (th t) (tn t)) d (ddel (b_path o) f')).
    assert (W2 : dict_wf f2) by (apply dict_wf_dset, dict_wf_ddel; exact Wf').
    assert (G2 : forall p, dget p f2 = if str_eqb p (kept (tw t) (th t) (tn t)) then Some d else if str_eqb p (b_path o) then None else dget p f') by (intros p; unfold f2; rewrite dget_dset, dget_ddel by exact Wf'; reflexivity).
    assert (L : link symlinks (kept (tw t) (th t) (tn t)) (public (tw t) (th t) (tn t)) f2 = Ret (dset (public (tw t) (th t) (tn t)) d f2)).
    { unfold link. assert (X : dget (kept (tw t) (th t) (tn t)) f2 = Some d) by (rewrite G2, str_eqb_refl; reflexivity). rewrite X. destruct symlinks; [|reflexivity].
      assert (Y : dmem (public (tw t) (th t) (tn t)) f2 = false); [|rewrite Y; reflexivity]. unfold dmem. rewrite G2. destruct (str_eqb _ (kept (tw t) (th t) (tn t))) eqn:Z1; [apply str_eqb_eq in Z1; exfalso; exact (kept_public t t G G (eq_sym Z1))|]. destruct (str_eqb _ (b_path o)) eqn:Z2; [reflexivity|].
      rewrite O1, (F eq_refl); [reflexivity| |intros o' Eo'; discriminate Eo']. intros n e _ _ X'. exact (trial_public t t n G G (eq_sym X')). }
    rewrite L. eexists. split; [reflexivity|]. cbn [files outputs made]. split; [apply dict_wf_dset; exact W2|].
    assert (G3 : forall p, dget p (dset (public (tw t) (th t) (tn t)) d f2) = if str_eqb p (public (tw t) (th t) (tn t)) then Some d else dget p f2) by (intros p; apply dget_dset).
    split; [|split; [|split; [|split; [|split]]]].
    + intros p T. rewrite G3, G2. destruct (str_eqb p (public _ _ _)) eqn:Z1; [apply str_eqb_eq in Z1; exfalso; apply T; left; auto|]. destruct (str_eqb p (kept _ _ _)) eqn:Z2; [apply str_eqb_eq in Z2; exfalso; apply T; left; auto|].
      destruct (str_eqb p (b_path o)) eqn:Z3; [apply str_eqb_eq in Z3; exfalso; apply T; right; exists (b_name o), (b_export o); rewrite Z3, Po; auto|]. apply O1; [|intros o' Eo'; discriminate Eo']. intros n e I Ap X. apply T. right. exists n, e. auto.
    + intros n e I Ap. rewrite G3, G2. destruct (str_eqb _ (public _ _ _)) eqn:Z1; [apply str_eqb_eq in Z1; exfalso; exact (trial_public t t n G G Z1)|]. destruct (str_eqb _ (kept _ _ _)) eqn:Z2; [apply str_eqb_eq in Z2; exfalso; exact (trial_kept t t n G G Z2)|].
      destruct (str_eqb _ (b_path o)) eqn:Z3; [reflexivity|]. apply (O2 n e I Ap). intros o' Eo' X. injection Eo' as <-. apply str_eqb_neq in Z3. apply Z3. rewrite Po, X. reflexivity.
    + intros _. exists (b_name o), (b_export o), d. split; [exact K1|]. split; [exact K2|]. split; [exact Ed|]. cbn [files]. split; [|split; [|split]].
      * rewrite G3, G2, str_eqb_refl. destruct (str_eqb _ (public _ _ _)); reflexivity.
      * rewrite G3, str_eqb_refl. reflexivity.
      * unfold outs at 1. cbn [outputs]. rewrite dget_dset_same. apply in_or_app. right. left. reflexivity.
      * intros n' e' d' I Ap Ed'. specialize (C n' e' d' I Ap Ed'). unfold cmp in C. rewrite Ld in C. exact C.
    + rewrite Ht. reflexivity.
    + intros name N. apply dget_dset_other. congruence.
    + unfold outs. cbn [outputs]. rewrite dget_dset_same. eexists. split; [reflexivity|]. rewrite Ht. reflexivity.
  - destruct O4 as [_ O4]. assert (Ht : has t = false). { destruct (has t) eqn:X; [|reflexivity]. apply has_iff in X. destruct X as (n & e & I & Ap). rewrite (O4 n e I) in Ap. discriminate Ap. }
    eexists. split; [reflexivity|]. cbn [files outputs made]. split; [exact Wf'|]. split; [|split; [|split; [|split; [|split]]]].
    + intros p T. apply O1; [|intros o' Eo'; discriminate Eo']. intros n e I Ap. rewrite (O4 n e I) in Ap. discriminate Ap.
    + intros n e I Ap. rewrite (O4 n e I) in Ap. discriminate Ap.
    + intros X. rewrite X in Ht. discriminate Ht.
    + rewrite Ht, app_nil_r. reflexivity.
    + reflexivity.
    + exists []. rewrite Ht. split; [rewrite app_nil_r; reflexivity|reflexivity].
Qed.

Fixpoint run (ts : list task) (s : progress) : res progress :=
  match ts with [] => Ret s | t :: r => match export_one symlinks art out sub (tw t) (th t) (snd t) s with Raise e => Raise e | Ret s => run r s end end.
Lemma run_app a b s : run (a ++ b) s = match run a s with Raise e => Raise e | Ret s => run b s end.
Proof using. revert s. induction a as [|t a IH]; intros s; [reflexivity|]. cbn [app run]. destruct (export_one _ _ _ _ _ _ _ s); [apply IH|reflexivity]. Qed.
Lemma formats_run w h l s : export_formats symlinks art out sub w h l s = run (map (pair (w, h)) l) s.
Proof using. revert s. induction l as [|fm l IH]; intros s; [reflexivity|]. cbn [map run export_formats]. unfold tw, th. cbn [fst snd]. destruct (export_one _ _ _ _ _ _ _ s); [apply IH|reflexivity]. Qed.
Lemma sizes_run formats l s : export_sizes symlinks art out sub formats l s = run (list_prod l formats) s.
Proof using. revert s. induction l as [|[w h] l IH]; intros s; [reflexivity|]. cbn [export_sizes list_prod]. rewrite run_app, <- formats_run. destruct (export_formats _ _ _ _ _ _ _ s); [apply IH|reflexivity]. Qed.

Lemma finished_mono t s s' : (forall p, touches t p -> dget p (files s') = dget p (files s)) -> (exists l, outs (tn t) s' = outs (tn t) s ++ l) -> finished s t -> finished s' t.
Proof using.
  intros E [l L] F Ht. destruct (F Ht) as (n & e & d & I & Ap & Ed & K & P & O & C). exists n, e, d. split; [exact I|]. split; [exact Ap|]. split; [exact Ed|]. split; [|split; [|split; [|exact C]]].
  - rewrite E; [exact K|]. left. auto.
  - rewrite E; [exact P|]. left. auto.
  - rewrite L. apply in_or_app. left. exact O.
Qed.
Lemma run_ok ts : forall s, Forall good_task ts -> NoDup (map key ts) -> dict_wf (files s) -> Forall (ready (files s)) ts -> (symlinks = true -> Forall (fun t => dget (public (tw t) (th t) (tn t)) (files s) = None) ts) ->
  exists s', run ts s = Ret s' /\ dict_wf (files s') /\ (forall p, (forall t, In t ts -> ~ touches t p) -> dget p (files s') = dget p (files s)) /\ Forall (cleared (files s')) ts /\ Forall (finished s') ts /\
    made s' = made s ++ flat_map (fun t => if has t then [kept (tw t) (th t) (tn t); public (tw t) (th t) (tn t)] else []) ts /\
    forall name, exists l, outs name s' = outs name s ++ l /\ map (fun o => (o_width o, o_height o, o_relpath o)) l = flat_map (fun t => if str_eqb (tn t) name && has t then [(tw t, th t, join2 sub (final_name (tw t) (th t) (tn t)))] else []) ts.
Proof using A.
  induction ts as [|t ts IH]; intros s Gs ND W R F.
  { exists s. cbn [flat_map]. rewrite app_nil_r. repeat split; try constructor; try assumption. intros name. exists []. rewrite app_nil_r. split; reflexivity. }
  inversion Gs as [|? ? G Gs']; subst. inversion R as [|? ? R1 R2]; subst. cbn [map] in ND. inversion ND as [|? ? N1 N2]; subst.
  destruct (one_ok t s G W R1) as (s1 & E1 & W1 & O1 & C1 & F1 & M1 & U1 & l1 & L1 & S1). { intros X. specialize (F X). inversion F; subst. assumption. }
  assert (Far : forall t', In t' ts -> forall p, touches t' p -> ~ touches t p). { intros t' I p T' T. apply N1. rewrite Forall_forall in Gs'. rewrite <- (touches_other t' t p (Gs' t' I) G T' T). apply in_map. exact I. }
  destruct (IH s1 Gs' N2 W1) as (s2 & E2 & W2 & O2 & C2 & F2 & M2 & U2).
  - rewrite Forall_forall in R2 |- *. intros t' I n e In_ Ap. destruct (R2 t' I n e In_ Ap) as (d & Ed & Gd). exists d. split; [exact Ed|]. rewrite O1; [exact Gd|]. apply (Far t' I). right. exists n, e. auto.
  - intros X. specialize (F X). inversion F as [|? ? _ F']; subst. rewrite Forall_forall in F', Gs' |- *. intros t' I. rewrite O1; [exact (F' t' I)|]. intros [[Ht [T|T]]|(n & e & _ & _ & T)].
    + exact (kept_public t t' G (Gs' t' I) (eq_sym T)).
    + apply N1. rewrite <- (kept_inj _ _ _ (Gs' t' I) G T). apply in_map. exact I.
    + exact (trial_public t t' n G (Gs' t' I) (eq_sym T)).
  - assert (Keep : forall p, touches t p -> dget p (files s2) = dget p (files s1)). { intros p T. apply O2. intros t' I T'. exact (Far t' I p T' T). }
    exists s2. cbn [run]. rewrite E1. split; [exact E2|]. split; [exact W2|]. split; [|split; [|split; [|split]]].
    + intros p P. rewrite O2 by (intros t' I; apply P; right; exact I). apply O1. apply P. left. reflexivity.
    + constructor; [|exact C2]. intros n e I Ap. rewrite Keep; [exact (C1 n e I Ap)|]. right. exists n, e. auto.
    + constructor; [|exact F2]. apply (finished_mono t s1 s2 Keep); [|exact F1]. destruct (U2 (tn t)) as (l & L & _). exists l. exact L.
    + rewrite M2, M1, <- app_assoc. reflexivity.
    + intros name. destruct (U2 name) as (l & L & S). cbn [flat_map]. destruct (str_eqb (tn t) name) eqn:X.
      * apply str_eqb_eq in X. rewrite <- X in *. exists (l1 ++ l). rewrite L, L1, <- app_assoc. split; [reflexivity|]. rewrite map_app, S1, S. cbn [andb]. reflexivity.
      * apply str_eqb_neq in X. exists l. cbn [andb]. split; [|exact S]. rewrite L. f_equal. unfold outs. rewrite U1 by congruence. reflexivity.
Qed.

(** * From the configuration *)
Context (formats : list (str * image_format)) (G : good_formats formats) (order : list job -> list job) (O : any_order order).
Notation tasks sizes := (list_prod sizes formats).
Lemma tasks_good sizes : good_sizes sizes -> Forall good_task (tasks sizes).
Proof using G. intros [_ S]. rewrite Forall_forall in S |- *. intros [[w h] [name fm]] I. apply in_prod_iff in I. destruct I as [I J]. destruct (S _ I) as [W H]. destruct (proj2 G name fm J) as (D & X & P). split; [exact W|]. split; [exact H|]. split; [exact D|]. split; [exact X|exact P]. Qed.
Lemma tasks_nodup sizes : NoDup sizes -> NoDup (map key (tasks sizes)).
Proof using G encode art.
  intros N. induction N as [|[w h] l X N IH]; [constructor|]. cbn [list_prod]. rewrite map_app. destruct G as [D _]. apply nodup_app; [|exact IH|].
  - rewrite map_map. clear IH. unfold dict_wf in D. revert D. generalize formats. clear. intros l. induction l as [|[a b] l IH]; intros D; [constructor|]. cbn [map fst] in *. inversion D; subst. constructor; [|apply IH; assumption]. intros I. apply in_map_iff in I. destruct I as ([a' b'] & E & I). apply H1. unfold key, tw, th, tn in E. cbn [fst snd] in E. assert (a' = a) by congruence. subst a'. apply (in_map fst) in I. exact I.
  - intros k I J. rewrite map_map in I. apply in_map_iff in I. destruct I as ([a b] & <- & I). apply in_map_iff in J. destruct J as ([[w' h'] [a' b']] & E & J). apply in_prod_iff in J. unfold key, tw, th, tn in E. cbn [fst snd] in E. apply X. assert (w' = w) by congruence. assert (h' = h) by congruence. subst. tauto.
Qed.
Lemma in_jobs p r sizes : In (p, r) (jobs encode art formats sizes) <-> exists t n e, In t (tasks sizes) /\ In (n, e) (exports (tf t)) /\ applies_to e (tw t) (th t) = true /\ p = trial (tw t) (th t) n (tn t) /\ r = encode (tw t) (th t) (tn t) (kwargs e).
Proof using.
  unfold jobs. rewrite in_flat_map. split.
  - intros ([w h] & I & J). apply in_flat_map in J. destruct J as ([name fm] & J & K). unfold format_jobs in K. apply in_flat_map in K. destruct K as ([n e] & K & L). cbn [fst snd] in *. destruct (applies_to e w h) eqn:Ap; [|destruct L]. destruct L as [L|[]]. injection L as <- <-.
    exists ((w, h), (name, fm)), n, e. split; [apply in_prod; assumption|]. split; [exact K|]. split; [exact Ap|]. split; reflexivity.
  - intros ([[w h] [name fm]] & n & e & I & K & Ap & -> & ->). apply in_prod_iff in I. destruct I as [I J]. exists (w, h). split; [exact I|]. apply in_flat_map. exists (name, fm). split; [exact J|]. unfold format_jobs. apply in_flat_map. exists (n, e). split; [exact K|].
    unfold tw, th in Ap. cbn [fst snd] in Ap. cbn [fst snd]. rewrite Ap. left. reflexivity.
Qed.
Lemma images_ok sizes produced f : good_sizes sizes -> dict_wf f -> encodes encode formats sizes -> free symlinks out formats sizes f ->
  exists s, export_images symlinks encode art out sub formats order sizes produced f = Ret s /\ dict_wf (files s) /\ (forall p, (forall t, In t (tasks sizes) -> ~ touches t p) -> dget p (files s) = dget p f) /\ Forall (cleared (files s)) (tasks sizes) /\ Forall (finished s) (tasks sizes) /\
    made s = produced ++ flat_map (fun t => if has t then [kept (tw t) (th t) (tn t); public (tw t) (th t) (tn t)] else []) (tasks sizes) /\
    forall name, map (fun o => (o_width o, o_height o, o_relpath o)) (outs name s) = flat_map (fun t => if str_eqb (tn t) name && has t then [(tw t, th t, join2 sub (final_name (tw t) (th t) (tn t)))] else []) (tasks sizes).
Proof using A G O.
  intros S W E Fr. unfold export_images. pose proof (tasks_good sizes S) as TG.
  assert (N : first_exception (jobs encode art formats sizes) = None). { apply first_none. intros p r I. apply in_jobs in I. destruct I as ([[w h] [name fm]] & n & e & I & K & Ap & _ & ->). apply in_prod_iff in I. apply applies_iff in Ap. exact (E w h name fm n e (proj1 I) (proj2 I) K Ap). }
  rewrite N, sizes_run. set (f1 := run_jobs (order (jobs encode art formats sizes)) f).
  assert (Ord : forall p r, In (p, r) (order (jobs encode art formats sizes)) <-> In (p, r) (jobs encode art formats sizes)). { intros p r. split; apply Permutation_in; [apply Permutation_sym|]; apply O. }
  assert (Oth : forall p, (forall t n e, In t (tasks sizes) -> In (n, e) (exports (tf t)) -> applies_to e (tw t) (th t) = true -> p <> trial (tw t) (th t) n (tn t)) -> dget p f1 = dget p f).
  { intros p P. apply run_other. intros r I. apply Ord in I. apply in_jobs in I. destruct I as (t & n & e & I & K & Ap & -> & _). exact (P t n e I K Ap eq_refl). }
  destruct (run_ok (tasks sizes) {| outputs := []; made := produced; files := f1 |} TG (tasks_nodup sizes (proj1 S))) as (s & Er & Ws & O1 & C & Fi & M & U).
  - apply run_wf. exact W.
  - rewrite Forall_forall in TG |- *. intros t I n e K Ap. cbn [files].
    assert (X : exists d, encode (tw t) (th t) (tn t) (kwargs e) = Ret d). { destruct t as [[w h] [name fm]]. pose proof I as I'. apply in_prod_iff in I'. apply applies_iff in Ap. exact (E w h name fm n e (proj1 I') (proj2 I') K Ap). }
    destruct X as [d Ed]. exists d. split; [exact Ed|]. apply run_get.
    + apply Ord. apply in_jobs. exists t, n, e. rewrite Ed. auto.
    + intros r J. apply Ord in J. apply in_jobs in J. destruct J as (t' & n' & e' & I' & K' & Ap' & Ep & ->). destruct (trial_key t t' n n' (TG t I) (TG t' I') Ep) as [Ek ->].
      assert (t = t'). { destruct t as [[w h] [name fm]], t' as [[w' h'] [name' fm']]. unfold key, tw, th, tn in Ek. cbn [fst snd] in Ek. apply in_prod_iff in I. apply in_prod_iff in I'. destruct I as [_ I], I' as [_ I']. assert (name' = name) by congruence. subst name'. assert (w' = w) by congruence. assert (h' = h) by congruence. subst w' h'. destruct G as [D _]. apply In_dget in I; [|exact D]. apply In_dget in I'; [|exact D]. assert (fm' = fm) by congruence. subst. reflexivity. }
      subst t'. destruct (TG t I) as (_ & _ & _ & Dx & _). apply In_dget in K; [|exact Dx]. apply In_dget in K'; [|exact Dx]. assert (e' = e) by congruence. subst e'. exact Ed.
  - intros X. rewrite Forall_forall in TG |- *. intros t I. cbn [files]. rewrite Oth; [|intros t' n e I' _ _; intros Y; exact (trial_public t' t n (TG t' I') (TG t I) (eq_sym Y))]. destruct t as [[w h] [name fm]]. pose proof I as I'. apply in_prod_iff in I'. exact (Fr X w h name fm (proj1 I') (proj2 I')).
  - exists s. split; [exact Er|]. split; [exact Ws|]. split; [|split; [exact C|split; [exact Fi|split; [exact M|]]]].
    + intros p P. rewrite O1 by exact P. cbn [files]. apply Oth. intros t n e I K Ap Ep. apply (P t I). right. exists n, e. auto.
    + intros name. destruct (U name) as (l & L & S'). rewrite L. unfold outs at 1. cbn [outputs dget app]. exact S'.
Qed.
End Run.
