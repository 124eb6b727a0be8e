(** Proofs about exported images. *)
From Verif Require Import Base Graph Json JsonProofs PyPath Handlers ImgSize ImgSettings ImgExport ImgExportSpec.
From Coq Require Import String ZArith NArith Bool List Lia Permutation.
Import ListNotations.
Open Scope list_scope.
Open Scope Z_scope.

(** * Names *)
Definition digital (s : str) : Prop := Forall (fun c => is_digit c = true) s.
Lemma print_pos z : 0 < z -> digital (print_Z z) /\ exists c r, print_Z z = c :: r /\ is_digit c = true.
Proof. intros P. destruct z as [|p|p]; [lia| |lia]. cbn [print_Z]. split; [|apply print_N_head]. destruct (print_N_spec (N.pos p)) as (ds & -> & _ & F & _). exact F. Qed.
Lemma digital_split a a' c c' r r' : digital a -> digital a' -> is_digit c = false -> is_digit c' = false -> a ++ c :: r = a' ++ c' :: r' -> a = a' /\ c = c' /\ r = r'.
Proof.
  revert a'. induction a as [|x a IH]; intros [|x' a'] D D' C C' E; cbn [app] in E.
  - injection E as -> ->. auto.
  - injection E as -> _. inversion D'; subst. congruence.
  - injection E as -> _. inversion D; subst. congruence.
  - injection E as -> E. inversion D; subst. inversion D'; subst. destruct (IH a' H2 H4 C C' E) as (-> & -> & ->). auto.
Qed.
Lemma last_dot (a a' f f' : str) : ~ In 46%N f -> ~ In 46%N f' -> a ++ 46%N :: f = a' ++ 46%N :: f' -> a = a' /\ f = f'.
Proof.
  revert a'. induction a as [|x a IH]; intros [|x' a'] D D' E; cbn [app] in E.
  - injection E as ->. auto.
  - injection E as <- ->. exfalso. apply D. apply in_or_app. right. left. reflexivity.
  - injection E as -> <-. exfalso. apply D'. apply in_or_app. right. left. reflexivity.
  - injection E as -> E. destruct (IH a' D D' E) as (-> & ->). auto.
Qed.
Lemma print_Z_inj a b : print_Z a = print_Z b -> a = b.
Proof. intros E. assert (X : Some a = Some b) by (rewrite <- !parse_Z_print, E; reflexivity). congruence. Qed.
Section Names.
Context (w h w' h' : Z) (W : 0 < w) (H : 0 < h) (W' : 0 < w') (H' : 0 < h').
Lemma size_split c c' r r' : is_digit c = false -> is_digit c' = false -> print_Z w ++ lit "x" ++ print_Z h ++ c :: r = print_Z w' ++ lit "x" ++ print_Z h' ++ c' :: r' -> w = w' /\ h = h' /\ c = c' /\ r = r'.
Proof using W H W' H'.
  intros C C' E. apply (digital_split _ _ 120%N 120%N) in E; [|apply print_pos; assumption|apply print_pos; assumption|reflexivity|reflexivity]. destruct E as (E1 & _ & E).
  apply digital_split in E; [|apply print_pos; assumption|apply print_pos; assumption|assumption|assumption]. destruct E as (E2 & E3 & E4). apply print_Z_inj in E1. apply print_Z_inj in E2. auto.
Qed.
Lemma temp_inj n n' f f' : ~ In 46%N f -> ~ In 46%N f' -> temp_name w h n f = temp_name w' h' n' f' -> w = w' /\ h = h' /\ n = n' /\ f = f'.
Proof using W H W' H'. intros D D' E. apply (size_split 45%N 45%N) in E; [|reflexivity|reflexivity]. destruct E as (A & B & _ & E). apply last_dot in E; try assumption. tauto. Qed.
Lemma final_inj f f' : final_name w h f = final_name w' h' f' -> w = w' /\ h = h' /\ f = f'.
Proof using W H W' H'. intros E. apply (size_split 46%N 46%N) in E; [|reflexivity|reflexivity]. tauto. Qed.
Lemma temp_final n f f' : temp_name w h n f <> final_name w' h' f'.
Proof using W H W' H'. intros E. apply (size_split 45%N 46%N) in E; [|reflexivity|reflexivity]. destruct E as (_ & _ & X & _). discriminate X. Qed.
End Names.
Definition relative (n : str) : Prop := exists c r, n = c :: r /\ c <> 47%N.
Lemma temp_rel w h n f : 0 < w -> relative (temp_name w h n f).
Proof. intros W. destruct (proj2 (print_pos w W)) as (c & r & E & D). unfold temp_name. rewrite E. exists c. eexists. split; [reflexivity|]. intros ->. discriminate D. Qed.
Lemma final_rel w h f : 0 < w -> relative (final_name w h f).
Proof. intros W. destruct (proj2 (print_pos w W)) as (c & r & E & D). unfold final_name. rewrite E. exists c. eexists. split; [reflexivity|]. intros ->. discriminate D. Qed.
Lemma join2_shape a : exists a', forall n, relative n -> join2 a n = a' ++ n.
Proof.
  destruct a as [|x a]; [exists []|destruct (N.eqb (last (x :: a) 0%N) 47) eqn:L; [exists (x :: a)|exists ((x :: a) ++ [47%N])]]; intros n (c & r & -> & C); apply N.eqb_neq in C; cbn [join2]; rewrite C; try reflexivity; cbv iota; rewrite L; [reflexivity|rewrite <- app_assoc; reflexivity].
Qed.
Lemma join2_inj a n n' : relative n -> relative n' -> join2 a n = join2 a n' -> n = n'.
Proof. intros N N'. destruct (join2_shape a) as [a' E]. rewrite !E by assumption. apply app_inv_head. Qed.
Lemma join2_head x a n : relative n -> exists r, join2 (x :: a) n = x :: r.
Proof. intros (c & r & -> & C). apply N.eqb_neq in C. cbn [join2]. rewrite C. destruct (N.eqb (last (x :: a) 0%N) 47); eexists; reflexivity. Qed.
Lemma apart_heads art out : apart art out -> exists a o, art = 97%N :: a /\ out = 111%N :: o.
Proof. intros [A B]. apply starts_with_iff in A. apply starts_with_iff in B. destruct A as [a ->]. destruct B as [b ->]. eexists. eexists. split; reflexivity. Qed.
Lemma apart_join art out n n' : apart art out -> relative n -> relative n' -> join2 art n <> join2 out n'.
Proof. intros A N N'. destruct (apart_heads _ _ A) as (a & o & -> & ->). destruct (join2_head 97%N a n N) as [r ->]. destruct (join2_head 111%N o n' N') as [r' ->]. discriminate. Qed.

Lemma applies_iff e w h : applies_to e w h = true <-> applicable e w h.
Proof.
  unfold applies_to, applicable. rewrite andb_true_iff. destruct (min_area e) as [m|], (max_area e) as [m'|]; rewrite ?Z.leb_le; (split; [intros [A B]; split; intros q Q; try discriminate Q; injection Q as <-; assumption|intros [A B]; split; try reflexivity; auto]).
Qed.

(** * The pool *)
Lemma first_none l : first_exception l = None <-> forall p r, In (p, r) l -> exists d, r = Ret d.
Proof.
  induction l as [|[p [d|e]] l IH]; cbn [first_exception].
  - split; [intros _ p r []|reflexivity].
  - rewrite IH. split; [intros A q r [E|I]; [injection E as <- <-; eauto|eauto]|intros A q r I; apply (A q r); right; exact I].
  - split; [discriminate|]. intros A. destruct (A p (Raise e) (or_introl eq_refl)) as [d X]. discriminate X.
Qed.
Lemma run_wf l f : dict_wf f -> dict_wf (run_jobs l f).
Proof. unfold run_jobs. revert f. induction l as [|[p [d|e]] l IH]; intros f W; cbn [fold_left snd fst]; [exact W|apply IH; apply dict_wf_dset; exact W|apply IH; exact W]. Qed.
Lemma run_other l f p : (forall r, ~ In (p, r) l) -> dget p (run_jobs l f) = dget p f.
Proof.
  unfold run_jobs. revert f. induction l as [|[q [d|e]] l IH]; intros f N; cbn [fold_left snd fst]; [reflexivity| |apply IH; intros r I; exact (N r (or_intror I))].
  rewrite IH by (intros r I; exact (N r (or_intror I))). apply dget_dset_other. intros ->. exact (N (Ret d) (or_introl eq_refl)).
Qed.
Lemma run_get l f p d : In (p, Ret d) l -> (forall r, In (p, r) l -> r = Ret d) -> dget p (run_jobs l f) = Some d.
Proof.
  unfold run_jobs. revert f. induction l as [|[q x] l IH]; intros f I U; [destruct I|]. cbn [fold_left snd fst].
  destruct (in_dec (list_eq_dec N.eq_dec) p (map fst l)) as [J|J].
  - apply in_map_iff in J. destruct J as ([q' r'] & <- & J). cbn [fst] in *. assert (r' = Ret d) by (apply U; right; exact J). subst r'. apply IH; [exact J|intros r R; apply U; right; exact R].
  - destruct I as [I|I]; [|exfalso; apply J; apply (in_map fst) in I; exact I]. injection I as -> ->. fold (run_jobs l (dset p d f)). rewrite run_other; [apply dget_dset_same|]. intros r R. apply J. apply (in_map fst) in R. exact R.
Qed.

Section Choose.
Context (symlinks : bool) (encode : Z -> Z -> str -> list (str * kval) -> res str) (art out sub : str) (formats : list (str * image_format)) (A : apart art out) (G : good_formats formats).
Notation trial := (trial_file art).
Section One.
Context (w h : Z) (name : str) (fm : image_format) (w0 : 0 < w) (h0 : 0 < h) (dot : ~ In 46%N name).
Notation unit := (unit_size fm).
Definition cmp (e : image_export) (s : Z) (e' : image_export) (s' : Z) : Prop := Z.max s unit * preference e' <= Z.max s' unit * preference e.
Lemma cmp_trans e s e' s' e'' s'' : 0 < preference e -> 0 < preference e' -> 0 < preference e'' -> 0 <= s -> 0 <= s' -> 0 <= s'' -> cmp e s e' s' -> cmp e' s' e'' s'' -> cmp e s e'' s''.
Proof using encode fm name.
  unfold cmp. intros P P' P'' S S' S'' X Y. set (a := Z.max s unit) in *. set (b := Z.max s' unit) in *. set (c := Z.max s'' unit) in *. assert (0 <= a) by lia. assert (0 <= b) by lia. assert (0 <= c) by lia. clearbody a b c.
  assert (a * preference e'' * preference e' <= c * preference e * preference e') by nia. nia.
Qed.
Definition sound (f : fs) (o : best) : Prop := b_path o = trial w h (b_name o) name /\ 0 < preference (b_export o) /\ exists d, encode w h name (kwargs (b_export o)) = Ret d /\ dget (b_path o) f = Some d /\ b_size o = Z.of_nat (length d).
Lemma trial_inj n n' : trial w h n name = trial w h n' name -> n = n'.
Proof using w0 h0 dot encode. intros E. apply join2_inj in E; [|apply temp_rel; assumption|apply temp_rel; assumption]. apply temp_inj in E; tauto. Qed.
Lemma choose_ok l : forall b f, dict_wf f -> NoDup (map fst l) -> (forall n e, In (n, e) l -> 0 < preference e) ->
  (forall n e, In (n, e) l -> applies_to e w h = true -> exists d, encode w h name (kwargs e) = Ret d /\ dget (trial w h n name) f = Some d) ->
  (forall o, b = Some o -> sound f o /\ ~ In (b_name o) (map fst l)) ->
  exists b' f', choose art w h name fm l b f = Ret (b', f') /\ dict_wf f' /\
   (forall p, (forall n e, In (n, e) l -> applies_to e w h = true -> p <> trial w h n name) -> (forall o, b = Some o -> p <> b_path o) -> dget p f' = dget p f) /\
   (forall n e, In (n, e) l -> applies_to e w h = true -> (forall o, b' = Some o -> n <> b_name o) -> dget (trial w h n name) f' = None) /\
   (forall o, b = Some o -> (forall o', b' = Some o' -> b_name o <> b_name o') -> dget (b_path o) f' = None) /\
   match b' with
   | None => b = None /\ forall n e, In (n, e) l -> applies_to e w h = false
   | Some o' => sound f' o' /\ (b = Some o' \/ (In (b_name o', b_export o') l /\ applies_to (b_export o') w h = true)) /\ (forall o, b = Some o -> cmp (b_export o') (b_size o') (b_export o) (b_size o)) /\
       forall n e d, In (n, e) l -> applies_to e w h = true -> encode w h name (kwargs e) = Ret d -> cmp (b_export o') (b_size o') e (Z.of_nat (length d))
   end.
Proof using w0 h0 dot encode fm name.
  induction l as [|[n e] l IH]; intros b f Wf ND Pf Tf Bf.
  { exists b, f. split; [reflexivity|]. split; [exact Wf|]. split; [reflexivity|]. split; [intros n e []|]. split; [intros o -> K; exfalso; exact (K o eq_refl eq_refl)|].
    destruct b as [o|]; [|split; [reflexivity|intros n e []]]. destruct (Bf o eq_refl) as [S _]. split; [exact S|]. split; [left; reflexivity|]. split; [intros o' E; injection E as <-; unfold cmp; lia|intros n e d []]. }
  cbn [map fst] in ND. inversion ND as [|? ? N1 N2]; subst. cbn [choose]. destruct (applies_to e w h) eqn:Ap; cbn [negb].
  2:{ destruct (IH b f Wf N2) as (b' & f' & E & Wf' & O1 & O2 & O3 & O4).
      - intros; eapply Pf; right; eassumption.
      - intros m x I. apply Tf. right. exact I.
      - intros o Eo. destruct (Bf o Eo) as [S N]. split; [exact S|]. intros I. apply N. right. exact I.
      - exists b', f'. split; [exact E|]. split; [exact Wf'|]. split; [intros p P; apply O1; intros m x I; apply (P m x); right; exact I|]. split; [|split; [exact O3|]].
        + intros m x [I|I]; [injection I as <- <-; congruence|]. exact (O2 m x I).
        + destruct b' as [o'|]; [|destruct O4 as [O4 O5]; split; [exact O4|]; intros m x [I|I]; [injection I as <- <-; exact Ap|exact (O5 m x I)]].
          destruct O4 as (S & K & C1 & C2). split; [exact S|]. split; [destruct K as [K|[K1 K2]]; [left; exact K|right; split; [right; exact K1|exact K2]]|]. split; [exact C1|]. intros m x d [I|I]; [injection I as <- <-; congruence|]. exact (C2 m x d I). }
  destruct (Tf n e (or_introl eq_refl) Ap) as (d & Ed & Gd). fold (trial w h n name). rewrite Gd.
  assert (Pe : 0 < preference e) by (eapply Pf; left; reflexivity).
  set (this := {| b_export := e; b_name := n; b_size := Z.of_nat (length d); b_path := trial w h n name |}).
  assert (Sthis : forall g, dget (trial w h n name) g = Some d -> sound g this) by (intros g Hg; split; [reflexivity|]; split; [exact Pe|]; exists d; auto).
  assert (Tl : forall g, (forall m, m <> n -> (forall o, b = Some o -> m <> b_name o) -> dget (trial w h m name) g = dget (trial w h m name) f) -> forall m x, In (m, x) l -> applies_to x w h = true -> exists d0, encode w h name (kwargs x) = Ret d0 /\ dget (trial w h m name) g = Some d0).
  { intros g Hg m x I Ax. destruct (Tf m x (or_intror I) Ax) as (d0 & X & Y). exists d0. split; [exact X|]. rewrite Hg; [exact Y| |].
    - intros ->. apply N1. apply (in_map fst) in I. exact I.
    - intros o Eo ->. destruct (Bf o Eo) as [_ N]. apply N. right. apply (in_map fst) in I. exact I. }
  destruct b as [o|].
  - destruct (Bf o eq_refl) as [So No]. destruct So as (Po & Pref & d1 & E1 & G1 & L1).
    assert (Nn : b_name o <> n) by (intros X; apply No; left; symmetry; exact X).
    assert (Np : trial w h n name <> b_path o) by (rewrite Po; intros X; apply Nn; symmetry; exact (trial_inj _ _ X)).
    set (c := compare_in_format fm (b_export o) (b_size o) e (Z.of_nat (length d))). destruct (0 <? c) eqn:Cc.
    + (* the new one is better *)
      unfold remove_file. assert (M : dmem (b_path o) f = true) by (unfold dmem; rewrite G1; reflexivity). rewrite M.
      assert (Gg : forall q, dget q (ddel (b_path o) f) = if str_eqb q (b_path o) then None else dget q f) by (intros; apply dget_ddel; exact Wf).
      destruct (IH (Some this) (ddel (b_path o) f)) as (b' & f' & E & Wf' & O1 & O2 & O3 & O4).
      * apply dict_wf_ddel. exact Wf.
      * exact N2.
      * intros; eapply Pf; right; eassumption.
      * apply Tl. intros m Mn Mo. rewrite Gg. destruct (str_eqb _ (b_path o)) eqn:X; [|reflexivity]. apply str_eqb_eq in X. rewrite Po in X. apply trial_inj in X. exfalso. exact (Mo o eq_refl X).
      * intros o' Eo'. injection Eo' as <-. split; [|exact N1]. apply Sthis. rewrite Gg. destruct (str_eqb _ _) eqn:X; [apply str_eqb_eq in X; contradiction|exact Gd].
      * exists b', f'. split; [exact E|]. split; [exact Wf'|].
        assert (Gone : dget (b_path o) f' = None). { rewrite O1; [rewrite Gg, str_eqb_refl; reflexivity| |]. - intros m x I Ax X. rewrite Po in X. apply trial_inj in X. apply No. right. rewrite X. apply (in_map fst) in I. exact I. - intros o' Eo' X. injection Eo' as <-. cbn [b_path this] in X. apply Np. symmetry. exact X. }
        split; [|split; [|split]].
        -- intros p P1 P2. rewrite O1; [rewrite Gg; destruct (str_eqb p (b_path o)) eqn:X; [apply str_eqb_eq in X; exfalso; exact (P2 o eq_refl X)|reflexivity]| |].
           ++ intros m x I Ax. apply (P1 m x (or_intror I) Ax).
           ++ intros o' Eo'. injection Eo' as <-. exact (P1 n e (or_introl eq_refl) Ap).
        -- intros m x [I|I] Ax K; [|exact (O2 m x I Ax K)]. injection I as <- <-. apply (O3 this eq_refl). intros o' Eo'. exact (K o' Eo').
        -- intros o1 Eo1 K. injection Eo1 as <-. exact Gone.
        -- destruct b' as [o'|]; [|destruct O4 as [O4 _]; discriminate O4]. destruct O4 as (S & K & C1 & C2). specialize (C1 this eq_refl). cbn [this b_export b_size] in C1.
           assert (S' := S). destruct S' as (_ & Pr' & d' & _ & _ & L').
           split; [exact S|]. split; [right; destruct K as [K|[K1 K2]]; [injection K as <-; split; [left; reflexivity|exact Ap]|split; [right; exact K1|exact K2]]|]. split.
           ++ intros o1 Eo1. injection Eo1 as <-. eapply (cmp_trans (b_export o') (b_size o') e (Z.of_nat (length d))); [exact Pr'|exact Pe|exact Pref|lia|lia|lia|exact C1|]. apply Z.ltb_lt in Cc. unfold c, compare_in_format, compare in Cc. apply -> Z.lt_0_sub in Cc. apply Z.lt_le_incl. exact Cc.
           ++ intros m x d0 [I|I] Ax Ex; [|exact (C2 m x d0 I Ax Ex)]. injection I as <- <-. assert (d0 = d) by congruence. subst d0. exact C1.
    + (* the old one stays *)
      unfold remove_file. assert (M : dmem (trial w h n name) f = true) by (unfold dmem; rewrite Gd; reflexivity). rewrite M.
      assert (Gg : forall q, dget q (ddel (trial w h n name) f) = if str_eqb q (trial w h n name) then None else dget q f) by (intros; apply dget_ddel; exact Wf).
      destruct (IH (Some o) (ddel (trial w h n name) f)) as (b' & f' & E & Wf' & O1 & O2 & O3 & O4).
      * apply dict_wf_ddel. exact Wf.
      * exact N2.
      * intros; eapply Pf; right; eassumption.
      * apply Tl. intros m Mn Mo. rewrite Gg. destruct (str_eqb _ (trial w h n name)) eqn:X; [|reflexivity]. apply str_eqb_eq in X. apply trial_inj in X. contradiction.
      * intros o' Eo'. injection Eo' as <-. split; [|intros I; apply No; right; exact I]. split; [exact Po|]. split; [exact Pref|]. exists d1. split; [exact E1|]. split; [|exact L1]. rewrite Gg. destruct (str_eqb _ _) eqn:X; [apply str_eqb_eq in X; exfalso; apply Np; symmetry; exact X|exact G1].
      * exists b', f'. split; [exact E|]. split; [exact Wf'|]. split; [|split; [|split]].
        -- intros p P1 P2. rewrite O1; [rewrite Gg; destruct (str_eqb p (trial w h n name)) eqn:X; [apply str_eqb_eq in X; exfalso; exact (P1 n e (or_introl eq_refl) Ap X)|reflexivity]| |exact P2].
           intros m x I Ax. apply (P1 m x (or_intror I) Ax).
        -- intros m x [I|I] Ax K; [|exact (O2 m x I Ax K)]. injection I as <- <-. rewrite O1; [rewrite Gg, str_eqb_refl; reflexivity| |].
           ++ intros m x I Ax' X. apply trial_inj in X. subst m. apply N1. apply (in_map fst) in I. exact I.
           ++ intros o' Eo'. injection Eo' as <-. exact Np.
        -- exact O3.
        -- destruct b' as [o'|]; [|destruct O4 as [O4 _]; discriminate O4]. destruct O4 as (S & K & C1 & C2). split; [exact S|]. split; [destruct K as [K|[K1 K2]]; [left; exact K|right; split; [right; exact K1|exact K2]]|]. split; [exact C1|].
           intros m x d0 [I|I] Ax Ex; [|exact (C2 m x d0 I Ax Ex)]. injection I as <- <-. assert (d0 = d) by congruence. subst d0. destruct S as (_ & Pr' & d' & _ & _ & L').
           eapply (cmp_trans (b_export o') (b_size o') (b_export o) (b_size o)); [exact Pr'|exact Pref|exact Pe|lia|lia|lia|exact (C1 o eq_refl)|]. apply Z.ltb_ge in Cc. unfold c, compare_in_format, compare in Cc. apply -> Z.le_sub_0 in Cc. exact Cc.
  - destruct (IH (Some this) f Wf N2) as (b' & f' & E & Wf' & O1 & O2 & O3 & O4).
    + intros; eapply Pf; right; eassumption.
    + apply Tl. reflexivity.
    + intros o' Eo'. injection Eo' as <-. split; [apply Sthis; exact Gd|exact N1].
    + exists b', f'. split; [exact E|]. split; [exact Wf'|]. split; [|split; [|split]].
      * intros p P1 _. apply O1; [intros m x I Ax; exact (P1 m x (or_intror I) Ax)|]. intros o' Eo'. injection Eo' as <-. exact (P1 n e (or_introl eq_refl) Ap).
      * intros m x [I|I] Ax K; [|exact (O2 m x I Ax K)]. injection I as <- <-. apply (O3 this eq_refl). intros o' Eo'. exact (K o' Eo').
      * intros o Eo. discriminate Eo.
      * destruct b' as [o'|]; [|destruct O4 as [O4 _]; discriminate O4]. destruct O4 as (S & K & C1 & C2). specialize (C1 this eq_refl). split; [exact S|].
        split; [right; destruct K as [K|[K1 K2]]; [injection K as <-; split; [left; reflexivity|exact Ap]|split; [right; exact K1|exact K2]]|]. split; [intros o Eo; discriminate Eo|].
        intros m x d0 [I|I] Ax Ex; [|exact (C2 m x d0 I Ax Ex)]. injection I as <- <-. assert (d0 = d) by congruence. subst d0. exact C1.
Qed.
End One.
End Choose.
