From Verif Require Import Base Graph Json JsonProofs PyStr PyPath Css CssRound Handlers HandlersSpec.
From Coq Require Import String ZArith NArith Bool List Lia ZifyN ZifyBool Permutation.
Import ListNotations.
Open Scope list_scope.
Open Scope N_scope.

(** * Targets *)
Lemma copy_target_below r : copy_target (lit "src/public/" ++ r) = Some (lit "out/www/" ++ r).
Proof. reflexivity. Qed.
Lemma hash_target_below r : hash_target (lit "src/public/" ++ r) = Some (lit "out/www/" ++ r ++ lit ".hash").
Proof. reflexivity. Qed.
Lemma hash_target_out r : hash_target (lit "out/www/" ++ r) = Some (lit "out/www/" ++ r ++ lit ".hash").
Proof. reflexivity. Qed.
Lemma produces_below r : produces (copy_and_hash_scan (lit "src/public/" ++ r)) = [lit "out/www/" ++ r; lit "out/www/" ++ r ++ lit ".hash"].
Proof. reflexivity. Qed.
Lemma produces_collide a b t : In t (produces (copy_and_hash_scan (lit "src/public/" ++ a))) -> In t (produces (copy_and_hash_scan (lit "src/public/" ++ b))) ->
  a = b \/ a = b ++ lit ".hash" \/ b = a ++ lit ".hash".
Proof.
  rewrite !produces_below. intros [Ha|[Ha|[]]] [Hb|[Hb|[]]]; subst.
  - apply app_inv_head in Hb. subst. auto.
  - apply app_inv_head in Hb. subst. auto.
  - apply app_inv_head in Hb. subst. auto.
  - apply app_inv_head in Hb. apply app_inv_tail in Hb. subst. auto.
Qed.
Lemma produces_inside p t : In t (produces (copy_and_hash_scan p)) -> exists r, t = lit "out/www/" ++ r.
Proof.
  unfold copy_and_hash_scan, copy_scan, hash_scan, scan_target. cbn [produces]. rewrite in_app_iff. intros [H|H].
  - destruct (copy_target p) as [x|] eqn:E; cbn [produces In] in H; [|contradiction]. destruct H as [<-|[]]. unfold copy_target in E. destruct (negb _); [discriminate|]. injection E as <-. eexists; reflexivity.
  - destruct (hash_target p) as [x|] eqn:E; cbn [produces In] in H; [|contradiction]. destruct H as [<-|[]]. unfold hash_target, hash_target_in in E. repeat destruct (starts_with _ p); try discriminate; injection E as <-; eexists; reflexivity.
Qed.
Lemma prefix_collision : exists a b t, a <> b /\ In t (produces (copy_and_hash_scan a)) /\ In t (produces (copy_and_hash_scan b)) /\ ~ has_start (lit "src/public/") b.
Proof. exists (lit "src/public/a.txt"), (lit "src/public2a.txt"), (lit "out/www/a.txt"). split; [discriminate|]. split; [left; reflexivity|]. split; [left; reflexivity|]. intros (r & H). discriminate. Qed.
Lemma hash_collision : exists t, In t (produces (copy_and_hash_scan (lit "src/public/a.txt"))) /\ In t (produces (copy_and_hash_scan (lit "src/public/a.txt.hash"))).
Proof. exists (lit "out/www/a.txt.hash"). split; [right; left; reflexivity|left; reflexivity]. Qed.

(** * Building *)
Lemma copy_hash_distinct p t u : copy_target p = Some t -> hash_target p = Some u -> t <> u.
Proof.
  unfold copy_target. destruct (starts_with (lit "src/public") p) eqn:E; cbn [negb]; [|discriminate]. apply starts_with_iff in E. destruct E as (r & ->).
  intros H1 H2 <-. unfold hash_target, hash_target_in in H2. injection H1 as <-.
  destruct (starts_with (lit "src/public/") (lit "src/public" ++ r)) eqn:E.
  - apply starts_with_iff in E. destruct E as (r2 & E). change (lit "src/public/") with (lit "src/public" ++ [47]) in E. rewrite <- app_assoc in E. apply app_inv_head in E. subst r.
    change (Some (lit "out/www/" ++ r2 ++ lit ".hash") = Some (lit "out/www/" ++ r2)) in H2. injection H2 as H2. apply (f_equal (@length N)) in H2. rewrite !app_length in H2. change (length (lit ".hash")) with 5%nat in H2. lia.
  - discriminate.
Qed.
Lemma source_not_target p r : copy_target p <> None -> p <> lit "out/www/" ++ r.
Proof. intros H ->. apply H. reflexivity. Qed.
Lemma copy_target_out p t : copy_target p = Some t -> exists r, t = lit "out/www/" ++ r.
Proof. unfold copy_target. destruct (negb _); [discriminate|]. intros H. injection H as <-. eexists; reflexivity. Qed.
Lemma hash_target_out2 p t : hash_target p = Some t -> (exists r, t = lit "out/www/" ++ r) /\ t <> p.
Proof.
  unfold hash_target, hash_target_in. destruct (starts_with (lit "src/public/") p) eqn:E1; [|destruct (starts_with (lit "out/www/") p) eqn:E2; [|discriminate]]; intros H; injection H as <-.
  - apply starts_with_iff in E1. destruct E1 as (r & ->). split; [eexists; reflexivity|discriminate].
  - apply starts_with_iff in E2. destruct E2 as (r & ->). split; [eexists; reflexivity|]. change (lit "out/www/" ++ r ++ lit ".hash" = lit "out/www/" ++ r -> False). intros H. apply (f_equal (@length N)) in H. rewrite !app_length in H. change (length (lit ".hash")) with 5%nat in H. lia.
Qed.
Lemma dmem_get t (f : fs) : dmem t f = match dget t f with Some _ => true | None => false end.
Proof. reflexivity. Qed.
Lemma build_agrees sha p f b f' : copy_and_hash_build sha p f = Ret (b, f') -> agrees (copied_or_hashed sha f p) (copy_and_hash_scan p) f b f'.
Proof.
  unfold copy_and_hash_build, copy_build, hash_build, copy_and_hash_scan, copy_scan, hash_scan, agrees, copied_or_hashed.
  pose proof (copy_hash_distinct p) as Hd. destruct (copy_target p) as [t|] eqn:Ec; destruct (hash_target p) as [u|] eqn:Eh; cbn [build_target scan_target dependencies produces].
  - specialize (Hd t u eq_refl eq_refl). assert (Hs : t <> p /\ u <> p).
    { destruct (copy_target_out _ _ Ec) as (r & ->). split; [intros <-; discriminate|apply (hash_target_out2 _ _ Eh)]. }
    destruct Hs as (Htp & Hup). rewrite dmem_get. destruct (dget t f) as [old|] eqn:Et.
    + rewrite dmem_get. destruct (dget u f) as [oldu|] eqn:Eu.
      * intros H. injection H as <- <-. cbn [children produced reused app]. split; [reflexivity|]. split; [reflexivity|]. split; [intros x; cbn; split; [intros []|intros ([<-|[<-|[]]] & X); congruence]|].
        split; [intros x; cbn; split; [intros [<-|[<-|[]]]; split; auto; congruence|tauto]|]. split; [reflexivity|intros x []].
      * destruct (dget p f) as [data|] eqn:Ep; [|discriminate]. intros H. injection H as <- <-. cbn [children produced reused app]. split; [apply perm_swap|]. split; [reflexivity|].
        split; [intros x; cbn; split; [intros [<-|[]]; auto|intros ([<-|[<-|[]]] & X); [congruence|auto]]|].
        split; [intros x; cbn; split; [intros [<-|[]]; split; auto; congruence|intros ([<-|[<-|[]]] & X); [auto|congruence]]|].
        split; [intros x Hx; apply dget_dset_other; intros <-; apply Hx; left; reflexivity|]. intros x [<-|[]]. rewrite dget_dset_same, str_eqb_refl. split; [reflexivity|discriminate].
    + destruct (dget p f) as [data|] eqn:Ep; [|discriminate]. rewrite dmem_get. rewrite dget_dset_other by exact Hd. destruct (dget u f) as [oldu|] eqn:Eu.
      * intros H. injection H as <- <-. cbn [children produced reused app]. split; [reflexivity|]. split; [reflexivity|].
        split; [intros x; cbn; split; [intros [<-|[]]; auto|intros ([<-|[<-|[]]] & X); [auto|congruence]]|].
        split; [intros x; cbn; split; [intros [<-|[]]; split; auto; congruence|intros ([<-|[<-|[]]] & X); [congruence|auto]]|].
        split; [intros x Hx; apply dget_dset_other; intros <-; apply Hx; left; reflexivity|]. intros x [<-|[]]. rewrite dget_dset_same, (proj2 (str_eqb_neq _ _) Hd). split; [reflexivity|discriminate].
      * rewrite dget_dset_other by exact Htp. rewrite Ep. intros H. injection H as <- <-. cbn [children produced reused app]. split; [reflexivity|]. split; [reflexivity|].
        split; [intros x; cbn; split; [intros [<-|[<-|[]]]; auto|tauto]|]. split; [intros x; cbn; split; [intros []|intros ([<-|[<-|[]]] & X); congruence]|].
        split; [intros x Hx; rewrite !dget_dset_other; [reflexivity|intros <-; apply Hx; left; reflexivity|intros <-; apply Hx; right; left; reflexivity]|].
        intros x [<-|[<-|[]]]; [rewrite dget_dset_other by congruence; rewrite dget_dset_same, (proj2 (str_eqb_neq _ _) Hd)|rewrite dget_dset_same, str_eqb_refl]; (split; [reflexivity|discriminate]).
  - rewrite dmem_get. destruct (dget t f) as [old|] eqn:Et.
    + intros H. injection H as <- <-. cbn [children produced reused app]. split; [reflexivity|]. split; [reflexivity|]. split; [intros x; cbn; split; [intros []|intros ([<-|[]] & X); congruence]|].
      split; [intros x; cbn; split; [intros [<-|[]]; split; auto; congruence|tauto]|]. split; [reflexivity|intros x []].
    + destruct (dget p f) as [data|] eqn:Ep; [|discriminate]. intros H. injection H as <- <-. cbn [children produced reused app]. split; [reflexivity|]. split; [reflexivity|].
      split; [intros x; cbn; split; [intros [<-|[]]; auto|tauto]|]. split; [intros x; cbn; split; [intros []|intros ([<-|[]] & X); congruence]|].
      split; [intros x Hx; apply dget_dset_other; intros <-; apply Hx; left; reflexivity|]. intros x [<-|[]]. rewrite dget_dset_same. split; [reflexivity|discriminate].
  - rewrite dmem_get. destruct (dget u f) as [old|] eqn:Et.
    + intros H. injection H as <- <-. cbn [children produced reused app]. split; [reflexivity|]. split; [reflexivity|]. split; [intros x; cbn; split; [intros []|intros ([<-|[]] & X); congruence]|].
      split; [intros x; cbn; split; [intros [<-|[]]; split; auto; congruence|tauto]|]. split; [reflexivity|intros x []].
    + destruct (dget p f) as [data|] eqn:Ep; [|discriminate]. intros H. injection H as <- <-. cbn [children produced reused app]. split; [reflexivity|]. split; [reflexivity|].
      split; [intros x; cbn; split; [intros [<-|[]]; auto|tauto]|]. split; [intros x; cbn; split; [intros []|intros ([<-|[]] & X); congruence]|].
      split; [intros x Hx; apply dget_dset_other; intros <-; apply Hx; left; reflexivity|]. intros x [<-|[]]. rewrite dget_dset_same, str_eqb_refl. split; [reflexivity|discriminate].
  - intros H. injection H as <- <-. cbn. split; [reflexivity|]. split; [reflexivity|]. split; [tauto|]. split; [tauto|]. split; [reflexivity|tauto].
Qed.
Lemma build_fails sha p f e : copy_and_hash_build sha p f = Raise e -> e = FileNotFoundError /\ dget p f = None /\ exists t, In t (produces (copy_and_hash_scan p)) /\ dget t f = None.
Proof.
  unfold copy_and_hash_build, copy_build, hash_build, copy_and_hash_scan, copy_scan, hash_scan. pose proof (copy_hash_distinct p) as Hd.
  destruct (copy_target p) as [t|] eqn:Ec; destruct (hash_target p) as [u|] eqn:Eh; cbn [build_target scan_target dependencies produces]; rewrite ?dmem_get.
  - specialize (Hd t u eq_refl eq_refl). assert (Htp : t <> p) by (destruct (copy_target_out _ _ Ec) as (r & ->); intros <-; discriminate).
    destruct (dget t f) eqn:Et.
    + rewrite dmem_get. destruct (dget u f) eqn:Eu; [discriminate|]. destruct (dget p f) eqn:Ep; [discriminate|]. intros H. injection H as <-. split; [reflexivity|]. split; [reflexivity|]. exists u. split; [right; left; reflexivity|exact Eu].
    + destruct (dget p f) eqn:Ep.
      * rewrite dmem_get, dget_dset_other by exact Hd. destruct (dget u f); [discriminate|]. rewrite dget_dset_other by exact Htp. rewrite Ep. discriminate.
      * intros H. injection H as <-. split; [reflexivity|]. split; [reflexivity|]. exists t. split; [left; reflexivity|exact Et].
  - destruct (dget t f) eqn:Et; [discriminate|]. destruct (dget p f) eqn:Ep; [discriminate|]. intros H. injection H as <-. split; [reflexivity|]. split; [reflexivity|]. exists t. split; [left; reflexivity|exact Et].
  - destruct (dget u f) eqn:Et; [discriminate|]. destruct (dget p f) eqn:Ep; [discriminate|]. intros H. injection H as <-. split; [reflexivity|]. split; [reflexivity|]. exists u. split; [left; reflexivity|exact Et].
  - discriminate.
Qed.

(** * Constants *)
Lemma expand_env env s x : starts_with (lit "env://") s = true -> env (skipn 6 s) = Some x -> expanded env (VStr s) (VStr x).
Proof. intros H Hx. apply starts_with_iff in H. destruct H as (r & ->). apply ExpandEnv. exact Hx. Qed.
Lemma expand_text env s : starts_with (lit "env://") s = false -> expanded env (VStr s) (VStr s).
Proof. intros H. apply ExpandText. intros n ->. change (true = false) in H. discriminate. Qed.
Lemma replace_spec env data : NoDup (map fst data) -> forall result out, replace_envvars env data result = Ret out -> dict_wf result -> (forall k, In k (map fst data) -> ~ In k (dkeys result)) ->
  dict_wf out /\ (forall k v, dget k out = Some v <-> dget k result = Some v \/ exists raw, In (k, raw) data /\ expanded env raw v).
Proof.
  induction data as [|[k0 v0] data IH]; intros Hnd result out H Hwf Hdis.
  - injection H as <-. split; [exact Hwf|]. intros k v. split; [auto|intros [X|(raw & [] & _)]; exact X].
  - cbn [map] in Hnd. inversion Hnd as [|? ? Hni Hnd2]; subst.
    assert (Hstep : exists w, expanded env v0 w /\ (forall w', expanded env v0 w' -> w' = w) /\ replace_envvars env data (dset k0 w result) = Ret out).
    { cbn [replace_envvars] in H. destruct v0 as [s|b|z|t]; try (eexists; split; [constructor|]; split; [intros w' X; inversion X; reflexivity|exact H]).
      destruct (starts_with (lit "env://") s) eqn:E.
      - destruct (env (skipn 6 s)) as [x|] eqn:Ex; [|discriminate]. exists (VStr x). split; [apply expand_env; assumption|]. split; [|exact H]. intros w' X. apply starts_with_iff in E. destruct E as (r & ->). change (env r = Some x) in Ex.
        inversion X as [n y Hy| s' Hs| | |]; subst; [congruence|exfalso; eapply Hs; reflexivity].
      - exists (VStr s). split; [apply expand_text; exact E|]. split; [|exact H]. intros w' X. inversion X as [n y Hy| s' Hs| | |]; subst; [change (true = false) in E; discriminate|reflexivity]. }
    destruct Hstep as (w & Hw & Hfun & Hr). apply (IH Hnd2) in Hr; [|apply dict_wf_dset; exact Hwf|].
    + destruct Hr as (Hwo & Hr). split; [exact Hwo|]. intros k v. rewrite Hr, dget_dset. destruct (str_eqb k k0) eqn:E.
      * apply str_eqb_eq in E. subst k0. assert (Hk : dget k result = None) by (apply dget_None; apply Hdis; left; reflexivity). rewrite Hk. split.
        -- intros [X|(raw & Hi & _)]; [injection X as <-; right; exists v0; split; [left; reflexivity|exact Hw]|exfalso; apply Hni; change k with (fst (k, raw)); apply in_map; exact Hi].
        -- intros [X|(raw & [X|X] & Hx)]; [discriminate|injection X as <-; left; f_equal; symmetry; apply Hfun; exact Hx|right; eauto].
      * apply str_eqb_neq in E. split; [intros [X|(raw & Hi & Hx)]; [auto|right; exists raw; split; [right; exact Hi|exact Hx]]|intros [X|(raw & [X|X] & Hx)]; [auto|congruence|right; eauto]].
    + intros k Hk X. apply In_dkeys_dset in X. destruct X as [->|X]; [contradiction|]. apply (Hdis k); [right; exact Hk|exact X].
Qed.
Lemma replace_total env data : (forall k name, In (k, VStr (lit "env://" ++ name)) data -> env name <> None) -> forall result, exists out, replace_envvars env data result = Ret out.
Proof.
  induction data as [|[k v] data IH]; intros H result; [eexists; reflexivity|]. assert (H2 : forall k name, In (k, VStr (lit "env://" ++ name)) data -> env name <> None) by (intros k' n Hi; apply (H k'); right; exact Hi).
  cbn [replace_envvars]. destruct v as [s|b|z|t]; try (apply IH; exact H2). destruct (starts_with (lit "env://") s) eqn:E; [|apply IH; exact H2].
  apply starts_with_iff in E. destruct E as (r & ->). specialize (H k r ltac:(left; reflexivity)). change (skipn 6 (lit "env://" ++ r)) with r. destruct (env r) as [x|]; [apply IH; exact H2|congruence].
Qed.
Lemma replace_missing env data k name : In (k, VStr (lit "env://" ++ name)) data -> env name = None -> forall result, replace_envvars env data result = Raise KeyError.
Proof.
  intros Hi Hn. induction data as [|[k0 v] data IH]; intros result; [destruct Hi|]. destruct Hi as [X|Hi].
  - rewrite X. transitivity (match env name with None => Raise KeyError | Some x => replace_envvars env data (dset k (VStr x) result) end); [reflexivity|]. rewrite Hn. reflexivity.
  - cbn [replace_envvars]. destruct v as [s|b|z|t]; try (apply IH; exact Hi). destruct (starts_with (lit "env://") s); [|apply IH; exact Hi]. destruct (env (skipn 6 s)); [apply IH; exact Hi|reflexivity].
Qed.
Lemma dupdate_spec (e : cdict) : NoDup (map fst e) -> forall d, dict_wf d -> dict_wf (dupdate d e) /\ forall k, dget k (dupdate d e) = match dget k e with Some v => Some v | None => dget k d end.
Proof.
  unfold dupdate. induction e as [|[k0 v0] e IH]; intros Hnd d Hwf; [split; [exact Hwf|reflexivity]|]. cbn [map] in Hnd. inversion Hnd as [|? ? Hni Hnd2]; subst. cbn [fold_left fst snd].
  destruct (IH Hnd2 (dset k0 v0 d) (dict_wf_dset _ _ _ Hwf)) as (H1 & H2). split; [exact H1|]. intros k. rewrite H2. cbn [dget]. destruct (str_eqb k k0) eqn:E.
  - apply str_eqb_eq in E. subst. destruct (dget k0 e) eqn:Ek; [exfalso; apply Hni; apply dget_Some_key in Ek; exact Ek|]. apply dget_dset_same.
  - apply str_eqb_neq in E. destruct (dget k e); [reflexivity|]. apply dget_dset_other. congruence.
Qed.
Lemma expanded_total env data k raw out : replace_envvars env data [] = Ret out -> In (k, raw) data -> exists v, expanded env raw v.
Proof.
  intros H Hi. destruct raw as [s|b|z|t]; [|eexists; apply ExpandBool|eexists; apply ExpandInt|eexists; apply ExpandOther]. destruct (starts_with (lit "env://") s) eqn:E; [|eexists; apply expand_text; exact E].
  destruct (env (skipn 6 s)) as [x|] eqn:Ex; [eexists; apply expand_env; eassumption|]. exfalso. apply starts_with_iff in E. destruct E as (r & ->). change (env r = None) in Ex. rewrite (replace_missing env data k r Hi Ex) in H. discriminate.
Qed.
Lemma constants_lines l : constants_text l = match l with [] => [10] | _ => script_of l end.
Proof. destruct l as [|a l]; [reflexivity|]. unfold constants_text. generalize (a :: l). clear. intros l. induction l as [|a l IH]; [reflexivity|]. cbn [flat_map script_of]. rewrite IH. reflexivity. Qed.
Lemma merged_spec env relpath shared dev prod c (is_dev : bool) : unique shared -> unique dev -> unique prod -> load_constants env relpath shared dev prod = Ret c ->
  unique (merged c is_dev) /\ forall k v, In (k, v) (merged c is_dev) <-> bound env shared (if is_dev then dev else prod) k v.
Proof.
  intros Hs Hd Hp H. unfold load_constants in H. destruct (replace_envvars env shared []) as [s|] eqn:Es; [|discriminate]. destruct (replace_envvars env dev []) as [d|] eqn:Ed; [|discriminate]. destruct (replace_envvars env prod []) as [p|] eqn:Ep; [|discriminate]. injection H as <-.
  assert (Hm : exists raw m, (if is_dev then dev else prod) = raw /\ unique raw /\ replace_envvars env raw [] = Ret m /\ merged {| c_relpath := relpath; c_shared := s; c_dev := d; c_prod := p |} is_dev = dupdate s m) by (destruct is_dev; eauto 10).
  destruct Hm as (raw & m & -> & Hr & Em & ->).
  assert (G : forall data out, unique data -> replace_envvars env data [] = Ret out -> dict_wf out /\ forall k v, dget k out = Some v <-> exists raw, In (k, raw) data /\ expanded env raw v).
  { intros data out Hu Ho. apply replace_spec in Ho; [|exact Hu|constructor|intros k _ []]. destruct Ho as (H1 & H2). split; [exact H1|]. intros k v. rewrite H2. split; [intros [X|X]; [discriminate|exact X]|auto]. }
  destruct (G _ _ Hs Es) as (Gs1 & Gs2). destruct (G _ _ Hr Em) as (Gm1 & Gm2). destruct (dupdate_spec m Gm1 s Gs1) as (U1 & U2). split; [exact U1|]. intros k v.
  assert (E : In (k, v) (dupdate s m) <-> dget k (dupdate s m) = Some v) by (split; [apply In_dget; exact U1|apply dget_In]). rewrite E, U2. unfold bound.
  destruct (dget k m) as [w|] eqn:Ek.
  - split; [intros X; injection X as <-; left; apply Gm2; exact Ek|]. intros [X|(X & _)]; [apply Gm2 in X; congruence|]. apply Gm2 in Ek. destruct Ek as (r & Hi & _). exfalso. exact (X r Hi).
  - split.
    + intros X. right. split; [|apply Gs2; exact X]. intros r Hi. destruct (expanded_total env raw k r m Em Hi) as (w & Hw). assert (dget k m = Some w) by (apply Gm2; eauto). congruence.
    + intros [X|(_ & X)]; [apply Gm2 in X; congruence|apply Gs2; exact X].
Qed.
Lemma constants_agree sha c is_dev f b f' p : p = c_relpath c -> constants_build sha c is_dev p f = Ret (b, f') ->
  exists t s, constants_scan c p = Ret s /\ copy_target p = Some t /\ produces s = [t; t ++ lit ".hash"] /\ Permutation (produced b ++ reused b) (produces s) /\ children b = dependencies s /\
    (forall x, In x (produced b) <-> In x (produces s) /\ dget x f = None) /\ (forall x, ~ In x (produced b) -> dget x f' = dget x f) /\
    (dget t f = None -> dget t f' = Some (constants_text (merged c is_dev))) /\
    (forall text, dget t f' = Some text -> dget (t ++ lit ".hash") f = None -> dget (t ++ lit ".hash") f' = Some (sha text)).
Proof.
  intros Hp H. unfold constants_build, constants_scan in *. rewrite Hp, str_eqb_refl in H. rewrite Hp, str_eqb_refl. cbn [negb] in *. destruct (copy_target (c_relpath c)) as [t|] eqn:Et; [|discriminate].
  destruct (copy_target_out _ _ Et) as (r & Er). set (u := t ++ lit ".hash"). assert (Eh : hash_target t = Some u) by (unfold u; rewrite Er; rewrite <- app_assoc; apply hash_target_out).
  assert (Htu : t <> u) by (destruct (hash_target_out2 _ _ Eh) as (_ & X); congruence).
  exists t, {| dependencies := []; produces := [t; u] |}. do 3 (split; [reflexivity|]). cbn [produces dependencies]. fold u. clearbody u.
  unfold hash_build in H. rewrite Eh in H. cbv zeta in H. rewrite dmem_get in H. destruct (dget t f) as [old|] eqn:Eo; cbn [build_target] in H; rewrite dmem_get in H.
  - destruct (dget u f) as [oldu|] eqn:Eu.
    + injection H as <- <-. cbn [children produced reused app]. do 2 (split; [reflexivity|]). split; [intros x; cbn; split; [intros []|intros ([<-|[<-|[]]] & X); congruence]|]. split; [reflexivity|]. split; [discriminate|intros text _ X; discriminate].
    + rewrite Eo in H. injection H as <- <-. cbn [children produced reused app]. split; [apply perm_swap|]. split; [reflexivity|]. split; [intros x; cbn; split; [intros [<-|[]]; auto|intros ([<-|[<-|[]]] & X); [congruence|auto]]|].
      split; [intros x Hx; apply dget_dset_other; intros <-; apply Hx; left; reflexivity|]. split; [discriminate|]. intros text Ht _. rewrite dget_dset_other in Ht by congruence. rewrite dget_dset_same. congruence.
  - rewrite dget_dset_other in H by exact Htu. destruct (dget u f) as [oldu|] eqn:Eu.
    + injection H as <- <-. cbn [children produced reused app]. do 2 (split; [reflexivity|]). split; [intros x; cbn; split; [intros [<-|[]]; auto|intros ([<-|[<-|[]]] & X); [auto|congruence]]|].
      split; [intros x Hx; apply dget_dset_other; intros <-; apply Hx; left; reflexivity|]. split; [intros _; apply dget_dset_same|intros text _ X; discriminate].
    + rewrite dget_dset_same in H. injection H as <- <-. cbn [children produced reused app]. do 2 (split; [reflexivity|]). split; [intros x; cbn; split; [intros [<-|[<-|[]]]; auto|tauto]|].
      split; [intros x Hx; rewrite !dget_dset_other; [reflexivity|intros <-; apply Hx; left; reflexivity|intros <-; apply Hx; right; left; reflexivity]|].
      split; [intros _; rewrite dget_dset_other by congruence; apply dget_dset_same|]. intros text Ht _. rewrite dget_dset_other in Ht by congruence. rewrite dget_dset_same in *. congruence.
Qed.

(** * String literals *)
Lemma reads_fun q (Hq : q = 34 \/ q = 39) t v : reads q t v -> forall w, reads q t w -> w = v.
Proof.
  assert (Hhex : forall c d e, hex_value c d -> hex_value c e -> d = e) by (unfold hex_value; intros; lia).
  induction 1 as [|c t v H1 H2 H3 H4 _ IH|l c t v Hl _ IH|t v Hd _ IH|a b x y t v Ha Hb _ IH|a b c d x y z w0 t v Ha Hb Hc Hd _ IH|c t v H1 H2 H3 H4 _ _ _ _ _ IH]; intros w Hw; inversion Hw; subst; try congruence; try (f_equal; apply IH; assumption); try (destruct Hq; discriminate).
  - f_equal; [|apply IH; assumption]. cbn in Hl. match goal with X : In (l, _) letter_escapes |- _ => cbn in X; clear - Hl X; intuition congruence end.
  - exfalso. cbn in Hl. clear - Hl. intuition congruence.
  - exfalso. cbn in Hl. clear - Hl. intuition congruence.
  - exfalso. cbn in Hl. clear - Hl. intuition congruence.
  - exfalso. match goal with X : ~ In l _ |- _ => apply X end. change l with (fst (l, c)). apply in_map. exact Hl.
  - exfalso. match goal with X : In (48, _) letter_escapes |- _ => cbn in X; clear - X; intuition congruence end.
  - exfalso. match goal with X : ~ is_digit 48 |- _ => apply X; unfold is_digit; lia end.
  - exfalso. match goal with X : In (120, _) letter_escapes |- _ => cbn in X; clear - X; intuition congruence end.
  - f_equal; [|apply IH; assumption]. f_equal; [f_equal|]; eapply Hhex; eassumption.
  - exfalso. match goal with X : In (117, _) letter_escapes |- _ => cbn in X; clear - X; intuition congruence end.
  - f_equal; [|apply IH; assumption]. f_equal; [f_equal; [f_equal|]|]; try (f_equal; eapply Hhex; eassumption); eapply Hhex; eassumption.
  - exfalso. match goal with X : In (c, _) letter_escapes |- _ => apply H1; change c with (fst (c, c0)); apply in_map; exact X end.
  - exfalso. apply H2. unfold is_digit. lia.
Qed.
Lemma char_escape q c : (q = 34 \/ q = 39) -> 32 <= c <= 126 \/ In c [0; 8; 9; 10; 11; 12; 13] ->
  (serialize_char (q_simple q) c = [92; c] /\ (c = q \/ c = 92)) \/
  (exists l, serialize_char (q_simple q) c = [92; l] /\ In (l, c) letter_escapes) \/
  (serialize_char (q_simple q) c = [92; 48] /\ c = 0) \/
  (serialize_char (q_simple q) c = [c] /\ c <> q /\ 32 <= c <= 126 /\ c <> 92).
Proof.
  intros Hq [Hc|Hc].
  - destruct (N.eq_dec c q) as [->|n1]; [left; split; [|auto]; unfold serialize_char, q_simple; cbn [app existsb]; rewrite N.eqb_refl; reflexivity|].
    destruct (N.eq_dec c 92) as [->|n2]; [left; split; [|auto]; unfold serialize_char, q_simple; cbn [app existsb]; cbn; rewrite ?orb_true_r; reflexivity|].
    right. right. right. split; [|auto]. unfold serialize_char, q_simple. cbn [app existsb]. rewrite !(proj2 (N.eqb_neq _ _)) by assumption. cbn [orb].
    unfold special. rewrite !(proj2 (N.eqb_neq _ _)) by lia. replace ((c <=? 8) || false || ((14 <=? c) && (c <=? 31)) || (127 <=? c)) with false by lia. reflexivity.
  - cbn in Hc. destruct Hc as [<-|[<-|[<-|[<-|[<-|[<-|[<-|[]]]]]]]]; destruct Hq as [->| ->]; try (right; left; eexists; split; [reflexivity|cbn; tauto]); right; right; left; split; reflexivity.
Qed.
Lemma first_char q v : (q = 34 \/ q = 39) -> Forall (fun c => 32 <= c <= 126 \/ In c [0; 8; 9; 10; 11; 12; 13]) v ->
  forall d r, flat_map (serialize_char (q_simple q)) v ++ [q] = d :: r -> is_digit d -> exists v', v = d :: v'.
Proof.
  intros Hq Hv d r E Hd. unfold is_digit in Hd. destruct v as [|c v]; cbn [flat_map app] in E; [injection E as <- _; destruct Hq; lia|]. inversion Hv as [|? ? Hc _]; subst.
  destruct (char_escape q c Hq Hc) as [(X & _)|[(l & X & _)|[(X & _)|(X & _)]]]; rewrite X in E; cbn [app] in E; injection E as <- _; try lia. eauto.
Qed.
Lemma literal_safe v : safe_text v -> js_literal (auto_quote v) v.
Proof.
  intros (Hv & Hz). destruct (auto_quote_shape v) as (q & Hq & E). exists q, (flat_map (serialize_char (q_simple q)) v ++ [q]). split; [exact Hq|]. split; [exact E|]. clear E.
  induction v as [|c v IH]; [apply ReadEnd|]. inversion Hv as [|? ? Hc Hv2]; subst. cbn [flat_map]. rewrite <- app_assoc.
  assert (IH2 : reads q (flat_map (serialize_char (q_simple q)) v ++ [q]) v) by (apply IH; [exact Hv2|intros a d b ->; exact (Hz (c :: a) d b eq_refl)]).
  destruct (char_escape q c Hq Hc) as [(X & Hx)|[(l & X & Hl)|[(X & ->)|(X & H1 & H2 & H3)]]]; rewrite X; cbn [app].
  - apply ReadOther; try exact IH2; try (destruct Hq as [->| ->]; destruct Hx as [->| ->]; cbn; unfold is_digit; first [lia|intuition congruence]).
  - apply ReadLetter; assumption.
  - apply ReadNul; [|exact IH2]. intros d r E Hd. destruct (first_char q v Hq Hv2 d r E Hd) as (v' & ->). exact (Hz [] d v' eq_refl Hd).
  - apply ReadChar; try lia; exact IH2.
Qed.
Lemma literal_fun t v w : js_literal t v -> js_literal t w -> w = v.
Proof. intros (q & t1 & Hq & -> & H) (q2 & t2 & _ & E & H2). injection E as <- <-. exact (reads_fun q Hq _ _ H _ H2). Qed.
Lemma accent_lost : js_literal (jsify (VStr (lit "caf" ++ [233]))) (lit "cafe9").
Proof.
  exists 34, (lit "caf" ++ [92; 101; 57; 34]). split; [auto|]. split; [reflexivity|]. do 3 (apply ReadChar; try discriminate).
  apply ReadOther; try discriminate; [cbn; intuition discriminate|unfold is_digit; cbn; lia|]. apply ReadChar; try discriminate. apply ReadEnd.
Qed.

(** * Dispatch *)
Lemma ends_end e p : ends_with e p = true <-> has_end e p.
Proof. apply ends_with_iff. Qed.
Lemma glue_iff p : glue_handles p = true <-> image_file p.
Proof.
  unfold glue_handles, image_file. change (join2 (lit "src") (lit "public")) with (lit "src/public"). rewrite andb_true_iff, orb_true_iff, starts_with_iff, !ends_with_iff. reflexivity.
Qed.
Lemma end_clash a b p : has_end a p -> has_end b p -> ends_with a b = true \/ ends_with b a = true.
Proof.
  intros (x & ->) (y & E). assert (E2 : rev a ++ rev x = rev b ++ rev y) by (rewrite <- !rev_app_distr, E; reflexivity). unfold ends_with. clear E. revert E2. generalize (rev a), (rev b), (rev x), (rev y). clear.
  induction l as [|c l IH]; intros [|d l0] u v E; cbn; auto. injection E as <- E. rewrite N.eqb_refl. cbn. exact (IH _ _ _ E).
Qed.
Lemma belongs_scan c p : belongs c p (scan_with c p).
Proof.
  unfold scan_with. destruct (str_eqb p c) eqn:E0; [apply BConstants; apply str_eqb_eq; exact E0|]. apply str_eqb_neq in E0.
  destruct (glue_handles p) eqn:E1; [apply BImages; [exact E0|apply glue_iff; exact E1]|]. assert (N1 : ~ image_file p) by (rewrite <- glue_iff; congruence).
  destruct (ends_with (lit ".html") p) eqn:E2; [apply BHtml; [exact E0|apply ends_end; exact E2]|].
  destruct (ends_with (lit ".css") p) eqn:E3; [apply BCss; [exact E0|apply ends_end; exact E3]|].
  destruct (ends_with (lit ".js") p) eqn:E4; [apply BJs; [exact E0|apply ends_end; exact E4|exact N1]|].
  apply BOther; [exact E0| | | |exact N1]; rewrite <- ends_end; congruence.
Qed.
Lemma image_end p : image_file p -> has_end (lit ".json") p \/ has_end (lit ".js") p.
Proof. intros (_ & [(r & ->)|(r & ->)]); [left; exists (r ++ lit ".images")|right; exists (r ++ lit ".images")]; rewrite <- app_assoc; reflexivity. Qed.
Lemma belongs_one c p h h' : belongs c p h -> belongs c p h' -> h = h'.
Proof.
  assert (C : forall a b, has_end a p -> has_end b p -> ends_with a b = false -> ends_with b a = false -> False) by (intros a b Ha Hb X Y; destruct (end_clash _ _ _ Ha Hb); congruence).
  assert (I : forall e, image_file p -> has_end e p -> ends_with (lit ".json") e = false -> ends_with e (lit ".json") = false -> ends_with (lit ".js") e = false -> ends_with e (lit ".js") = false -> False).
  { intros e Hi He H1 H2 H3 H4. destruct (image_end p Hi) as [X|X]; exact (C _ _ X He ltac:(assumption) ltac:(assumption)). }
  intros [H1|H1 H2|H1 H2|H1 H2|H1 H2 H3|H1 H2 H3 H4 H5] [K1|K1 K2|K1 K2|K1 K2|K1 K2 K3|K1 K2 K3 K4 K5]; try reflexivity; try contradiction; exfalso;
    first [eapply I; [eassumption|eassumption|reflexivity|reflexivity|reflexivity|reflexivity] | eapply C; [exact H2|exact K2|reflexivity|reflexivity]].
Qed.
Lemma dispatch_same c p : scan_with c p = build_with c p.
Proof. reflexivity. Qed.

Lemma build_contents sha r data f b f' : copy_and_hash_build sha (lit "src/public/" ++ r) f = Ret (b, f') -> dget (lit "src/public/" ++ r) f = Some data ->
  (dget (lit "out/www/" ++ r) f = None -> dget (lit "out/www/" ++ r) f' = Some data) /\
  (dget (lit "out/www/" ++ r ++ lit ".hash") f = None -> dget (lit "out/www/" ++ r ++ lit ".hash") f' = Some (sha data)).
Proof.
  intros H Hd. apply build_agrees in H. destruct H as (_ & _ & H1 & _ & _ & H2). unfold copied_or_hashed in H2. rewrite Hd, hash_target_below in H2. split; intros Hn.
  - destruct (H2 (lit "out/www/" ++ r)) as (E & _); [apply H1; split; [rewrite produces_below; left; reflexivity|exact Hn]|]. rewrite E. rewrite (proj2 (str_eqb_neq _ _)); [reflexivity|].
    intros X. apply app_inv_head in X. apply (f_equal (@length N)) in X. rewrite app_length in X. change (length (lit ".hash")) with 5%nat in X. lia.
  - destruct (H2 (lit "out/www/" ++ r ++ lit ".hash")) as (E & _); [apply H1; split; [rewrite produces_below; right; left; reflexivity|exact Hn]|]. rewrite E, str_eqb_refl. reflexivity.
Qed.
Lemma constants_script sha env relpath shared dev prod c (is_dev : bool) f b f' t : unique shared -> unique dev -> unique prod -> load_constants env relpath shared dev prod = Ret c ->
  copy_target relpath = Some t -> dget t f = None -> constants_build sha c is_dev relpath f = Ret (b, f') ->
  exists l, unique l /\ (forall k v, In (k, v) l <-> bound env shared (if is_dev then dev else prod) k v) /\ dget t f' = Some (match l with [] => [10] | _ => script_of l end).
Proof.
  intros Hs Hd Hp Hl Ht Hn Hb. assert (Er : relpath = c_relpath c).
  { unfold load_constants in Hl. destruct (replace_envvars env shared []); [|discriminate]. destruct (replace_envvars env dev []); [|discriminate]. destruct (replace_envvars env prod []); [|discriminate]. injection Hl as <-. reflexivity. }
  destruct (merged_spec env relpath shared dev prod c is_dev Hs Hd Hp Hl) as (H1 & H2). exists (merged c is_dev). split; [exact H1|]. split; [exact H2|].
  destruct (constants_agree sha c is_dev f b f' relpath Er Hb) as (t2 & s & _ & Ht2 & _ & _ & _ & _ & _ & H & _). rewrite Ht in Ht2. injection Ht2 as <-. rewrite H by exact Hn. rewrite constants_lines. reflexivity.
Qed.
Lemma constants_load env relpath shared dev prod :
  (exists c, load_constants env relpath shared dev prod = Ret c) \/
  (load_constants env relpath shared dev prod = Raise KeyError /\ exists k name, In (k, VStr (lit "env://" ++ name)) (shared ++ dev ++ prod) /\ env name = None).
Proof.
  assert (G : forall data, (exists out, replace_envvars env data [] = Ret out) \/ (replace_envvars env data [] = Raise KeyError /\ exists k name, In (k, VStr (lit "env://" ++ name)) data /\ env name = None)).
  { intros data. generalize (@nil (str * cval)). induction data as [|[k v] data IH]; intros res; [left; eexists; reflexivity|].
    assert (IH' : forall r, (exists out, replace_envvars env data r = Ret out) \/ (replace_envvars env data r = Raise KeyError /\ exists k0 name, In (k0, VStr (lit "env://" ++ name)) ((k, v) :: data) /\ env name = None)).
    { intros r. destruct (IH r) as [X|(X & k0 & n & Hi & Hn)]; [auto|right; split; [exact X|exists k0, n; split; [right; exact Hi|exact Hn]]]. }
    cbn [replace_envvars]. destruct v as [s|x|z|t]; try apply IH'. destruct (starts_with (lit "env://") s) eqn:E; [|apply IH']. destruct (env (skipn 6 s)) as [x|] eqn:Ex; [apply IH'|].
    right. split; [reflexivity|]. apply starts_with_iff in E. destruct E as (r & ->). exists k, r. split; [left; reflexivity|exact Ex]. }
  unfold load_constants. destruct (G shared) as [(s & ->)|(-> & k & n & Hi & Hn)]; [|right; split; [reflexivity|exists k, n; split; [apply in_or_app; auto|exact Hn]]].
  destruct (G dev) as [(d & ->)|(-> & k & n & Hi & Hn)]; [|right; split; [reflexivity|exists k, n; split; [apply in_or_app; right; apply in_or_app; auto|exact Hn]]].
  destruct (G prod) as [(p & ->)|(-> & k & n & Hi & Hn)]; [left; eexists; reflexivity|right; split; [reflexivity|exists k, n; split; [apply in_or_app; right; apply in_or_app; auto|exact Hn]]].
Qed.
(** examples *)
Definition ex_fs : fs := [(lit "src/public/a.txt", lit "hello"); (lit "out/www/b.txt", lit "old")].
Definition ex_env (name : str) : option str := if str_eqb name (lit "HOST") then Some (lit "x.org") else None.
Definition ex_shared : cdict := [(lit "HOST", VStr (lit "env://HOST")); (lit "DEBUG", VBool false)].
Definition ex_dev : cdict := [(lit "DEBUG", VBool true); (lit "PORT", VInt 80%Z)].
Lemma ex_build_ok : exists b f', copy_and_hash_build (fun d => 35 :: d) (lit "src/public/a.txt") ex_fs = Ret (b, f') /\ produced b = [lit "out/www/a.txt"; lit "out/www/a.txt.hash"].
Proof. do 2 eexists. split; [vm_compute; reflexivity|vm_compute; reflexivity]. Qed.
Lemma ex_constants : exists c b f', load_constants ex_env (lit "src/public/c.js") ex_shared ex_dev [] = Ret c /\
  constants_build (fun d => 35 :: d) c true (lit "src/public/c.js") [] = Ret (b, f') /\
  dget (lit "out/www/c.js") f' = Some (lit "export const HOST = ""x.org"";" ++ [10] ++ lit "export const DEBUG = true;" ++ [10] ++ lit "export const PORT = 80;" ++ [10]).
Proof. do 3 eexists. split; [vm_compute; reflexivity|]. split; [vm_compute; reflexivity|vm_compute; reflexivity]. Qed.
Lemma ex_unique : unique ex_shared /\ unique ex_dev.
Proof. split; repeat constructor; cbn; intuition discriminate. Qed.
Lemma ex_safe : safe_text (lit "a'b" ++ [10]).
Proof.
  split; [apply Forall_forall; intros c Hc; cbn in Hc; repeat (destruct Hc as [<-|Hc]; [cbn; first [left; lia|right; tauto]|]); destruct Hc|]. intros a d b E. exfalso. assert (H : In 0 (lit "a'b" ++ [10])) by (rewrite E; apply in_or_app; right; left; reflexivity). cbn in H. repeat destruct H as [H|H]; first [discriminate|exact H].
Qed.

Lemma plain_values v : (exists b, v = VBool b) \/ (exists z, v = VInt z) -> plain_literal v (jsify v).
Proof. intros [([|] & ->)|(z & ->)]; [apply LitTrue|apply LitFalse|apply LitInt; apply parse_Z_print]. Qed.
