(** images.json: acceptable files, and the module written. *)
From Verif Require Import Base Graph Json JsonProofs JsonReads PyStr PyPath Handlers Html ImgExport ImgCommand ImgCommandSpec ImgCommandProofs ImgPage ImgPageProofs Glue GlueSpec GlueJson.
From Coq Require Import String ZArith NArith QArith Bool List Lia Permutation.
Import ListNotations.
Open Scope list_scope.
Open Scope Z_scope.

(** * The check *)
Section Check.
Context (num : str -> Q) (dims : str -> res (option (Z * Z))).
Lemma as_int_whole v z : as_int v = Some z <-> exists x, v = Some x /\ whole x z.
Proof.
  split.
  - destruct v as [[|b|raw|s|l|l]|]; cbn [as_int]; try discriminate; intros H; eexists; (split; [reflexivity|]).
    + injection H as <-. constructor.
    + constructor. exact H.
  - intros (x & -> & W). destruct W as [raw z W|b]; [exact W|reflexivity].
Qed.
Lemma setting_amount d k q0 q : setting num d k q0 = Ret q <-> amount num d k q0 q.
Proof.
  unfold setting. split.
  - destruct (dget k d) as [[|b|raw|s|l|l]|] eqn:E; cbn [as_number]; try discriminate; intros H; injection H as <-.
    + apply AmountBool. exact E.
    + apply AmountNumber. exact E.
    + apply AmountMissing. exact E.
  - intros [E|raw E|b E]; rewrite E; reflexivity.
Qed.
Lemma no_negative_iff d ks : no_negative num d ks = Ret true <-> Forall (fun k => exists q, amount num d k 0 q /\ (0 <= q)%Q) ks.
Proof.
  induction ks as [|k ks IH]; cbn [no_negative]; [split; constructor|]. rewrite Forall_cons_iff, <- IH. destruct (setting num d k 0) as [q|e] eqn:S.
  - apply setting_amount in S. destruct (Qle_bool 0 q) eqn:L; cbn [negb].
    + apply Qle_bool_iff in L. split; [intros H; split; [exists q; auto|exact H]|tauto].
    + split; [discriminate|]. intros [(q' & A & B) _]. apply setting_amount in S, A. assert (q' = q) by congruence. subst q'. apply Qle_bool_iff in B. congruence.
  - split; [discriminate|]. intros [(q & A & _) _]. apply setting_amount in A. congruence.
Qed.
Lemma share_iff d k : share num d k = Ret true <-> exists q, amount num d k (1 # 2) q /\ (0 <= q <= 1)%Q.
Proof.
  unfold share. destruct (setting num d k (1 # 2)) as [q|e] eqn:S.
  - split.
    + intros H. assert (X : (Qle_bool 0 q && Qle_bool q 1)%bool = true) by congruence. apply andb_prop in X. rewrite !Qle_bool_iff in X. exists q. split; [apply setting_amount; exact S|exact X].
    + intros (q' & A & B). apply setting_amount in A. assert (q' = q) by congruence. subst q'. rewrite <- !Qle_bool_iff in B. destruct B as [-> ->]. reflexivity.
  - split; [discriminate|]. intros (q & A & _). apply setting_amount in A. congruence.
Qed.
Lemma names_iff d : forallb (fun e : str * json => dmem (fst e) crop_names) d = true <-> forall k v, In (k, v) d -> In k [lit "pre_top_crop"; lit "pre_left_crop"; lit "pre_right_crop"; lit "pre_bottom_crop"; lit "crop_left_percentage"; lit "crop_top_percentage"].
Proof.
  rewrite forallb_forall. split.
  - intros H k v I. specialize (H _ I). apply dmem_In in H. exact H.
  - intros H [k v] I. apply dmem_In. exact (H k v I).
Qed.
Lemma check_crop_iff d iw ih w h : check_crop num d iw ih w h = Ret true <-> crop_fine num d iw ih w h.
Proof.
  unfold check_crop. split.
  - intros H. destruct (forallb _ d) eqn:N; [|discriminate]. pose proof (proj1 (names_iff d) N) as N'. clear N. rename N' into N. cbn [negb] in H. destruct (no_negative num d _) as [[|]|] eqn:G; try discriminate. apply no_negative_iff in G. destruct (share num d (lit "crop_left_percentage")) as [[|]|] eqn:X; try discriminate. apply share_iff in X. destruct (share num d (lit "crop_top_percentage")) as [[|]|] eqn:Y; try discriminate. apply share_iff in Y.
    apply Forall_cons_iff in G. destruct G as [(top & T1 & T2) G]. apply Forall_cons_iff in G. destruct G as [(left & L1 & L2) G]. apply Forall_cons_iff in G. destruct G as [(right & R1 & R2) G]. apply Forall_cons_iff in G. destruct G as [(bottom & B1 & B2) _]. destruct X as (x & X1 & X2), Y as (y & Y1 & Y2).
    unfold room in H. rewrite (proj2 (setting_amount _ _ _ _) T1), (proj2 (setting_amount _ _ _ _) L1), (proj2 (setting_amount _ _ _ _) R1), (proj2 (setting_amount _ _ _ _) B1) in H.
    assert (Z : (Qle_bool (inject_Z w) (inject_Z iw - left - right) && Qle_bool (inject_Z h) (inject_Z ih - top - bottom))%bool = true) by congruence. apply andb_prop in Z. rewrite !Qle_bool_iff in Z. destruct Z as [Z1 Z2]. exact (CropFine num d iw ih w h top left right bottom x y N T1 L1 R1 B1 T2 L2 R2 B2 X1 X2 Y1 Y2 Z1 Z2).
  - intros [top left right bottom x y N T1 L1 R1 B1 T2 L2 R2 B2 X1 X2 Y1 Y2 Z1 Z2]. rewrite (proj2 (names_iff d) N). cbn [negb].
    assert (G : no_negative num d [lit "pre_top_crop"; lit "pre_left_crop"; lit "pre_right_crop"; lit "pre_bottom_crop"] = Ret true) by (apply no_negative_iff; repeat constructor; eexists; split; eassumption). rewrite G.
    rewrite (proj2 (share_iff d (lit "crop_left_percentage")) (ex_intro _ x (conj X1 X2))), (proj2 (share_iff d (lit "crop_top_percentage")) (ex_intro _ y (conj Y1 Y2))).
    unfold room. rewrite (proj2 (setting_amount _ _ _ _) T1), (proj2 (setting_amount _ _ _ _) L1), (proj2 (setting_amount _ _ _ _) R1), (proj2 (setting_amount _ _ _ _) B1). apply Qle_bool_iff in Z1, Z2. rewrite Z1, Z2. reflexivity.
Qed.
Lemma check_size_iff v limit z : check_size v limit = Some z <-> (exists x, v = Some x /\ whole x z) /\ 0 < z <= limit.
Proof.
  unfold check_size. rewrite <- as_int_whole. destruct (as_int v) as [y|]; [|split; [discriminate|intros [X _]; discriminate X]].
  destruct (y <=? 0) eqn:A; cbn [orb]; [split; [discriminate|intros [X Y]; injection X as ->; lia]|]. destruct (limit <? y) eqn:B; [split; [discriminate|intros [X Y]; injection X as ->; lia]|]. split; [intros H; injection H as ->; split; [reflexivity|lia]|intros [X _]; exact X].
Qed.
Lemma check_crop_none iw ih w h : 0 < w <= iw -> 0 < h <= ih -> check_crop num [] iw ih w h = Ret true.
Proof.
  intros W H. apply check_crop_iff. apply (CropFine num [] iw ih w h 0 0 0 0 (1 # 2) (1 # 2))%Q; try (apply AmountMissing; reflexivity); try (split; discriminate); try discriminate; try (intros k v []).
  - unfold Qminus. rewrite Qplus_0_r, Qplus_0_r. rewrite <- Zle_Qle. lia.
  - unfold Qminus. rewrite Qplus_0_r, Qplus_0_r. rewrite <- Zle_Qle. lia.
Qed.
Lemma check_image_iff v f : check_image num dims v f = Ret true <-> acceptable num dims f v.
Proof.
  unfold check_image. split.
  - destruct v as [|b|raw|s|l|d]; try discriminate. destruct (dget (lit "path") d) as [[|b|raw|path|l|l]|] eqn:P; try discriminate. destruct path as [|c path]; [discriminate|]. destruct (starts_with (lit "/") (c :: path)) eqn:S; [|discriminate]. cbn [negb tl]. apply starts_with_iff in S. destruct S as [r S]. injection S as -> _.
    destruct (dget _ f) as [image|] eqn:I; [|discriminate]. destruct (dims image) as [[[iw ih]|]|] eqn:D; try discriminate. destruct (check_size (dget (lit "width") d) iw) as [w|] eqn:W; [|discriminate]. destruct (check_size (dget (lit "height") d) ih) as [h|] eqn:H; [|discriminate].
    apply check_size_iff in W, H. destruct W as [(vw & W1 & W2) W3], H as [(vh & H1 & H2) H3].
    assert (T : forall style, style = dget (lit "crop_style") d -> (style = None \/ style = Some (JStr (lit "cover"))) -> match dget (lit "crop_settings") d with None => check_crop num [] iw ih w h | Some (JObj c) => check_crop num c iw ih w h | Some _ => Ret false end = Ret true -> acceptable num dims f (JObj d)).
    { intros style -> St K. apply (Acceptable num dims f d path image iw ih vw w vh h); try assumption. destruct (dget (lit "crop_settings") d) as [[|b|raw|s|l|crop]|]; try discriminate; [right; exists crop; split; [reflexivity|apply check_crop_iff; exact K]|left; reflexivity]. }
    destruct (dget (lit "crop_style") d) as [[|b|raw|s|l|l]|] eqn:St; try discriminate; [|intros K; apply (T None); auto]. destruct (str_eqb s (lit "cover")) eqn:Co; [|discriminate]. cbn [negb]. apply str_eqb_eq in Co. subst s. intros K. apply (T (Some (JStr (lit "cover")))); auto.
  - intros [d path image iw ih vw w vh h P I D W1 W2 W3 H1 H2 H3 St K]. rewrite P.
    replace (starts_with (lit "/") (47%N :: path)) with true by reflexivity. cbn [negb tl]. rewrite I, D. rewrite (proj2 (check_size_iff _ _ w) (conj (ex_intro _ vw (conj W1 W2)) W3)), (proj2 (check_size_iff _ _ h) (conj (ex_intro _ vh (conj H1 H2)) H3)).
    assert (T : match dget (lit "crop_settings") d with None => check_crop num [] iw ih w h | Some (JObj c) => check_crop num c iw ih w h | Some _ => Ret false end = Ret true). { destruct K as [-> |(crop & -> & K)]; [apply check_crop_none; assumption|apply check_crop_iff; exact K]. }
    destruct St as [-> | ->]; [exact T|]. replace (str_eqb (lit "cover") (lit "cover")) with true by reflexivity. exact T.
Qed.
Lemma check_json_iff v f : check_json num dims v f = Ret true <-> exists l, v = JObj l /\ Forall (fun x => acceptable num dims f (snd x)) l.
Proof.
  assert (X : forall l, check_images num dims l f = Ret true <-> Forall (fun x : str * json => acceptable num dims f (snd x)) l).
  { induction l as [|[k x] l IH]; cbn [check_images]; [split; constructor|]. rewrite Forall_cons_iff, <- IH. cbn [snd]. rewrite <- check_image_iff. destruct (check_image num dims x f) as [[|]|]; [tauto| |]; (split; [discriminate|intros [A _]; discriminate A]). }
  destruct v as [|b|raw|s|l|l]; cbn [check_json]; try (split; [discriminate|intros (l' & A & _); discriminate A]). rewrite X. split; [intros H; exists l; auto|intros (l' & A & B); congruence].
Qed.
(** the check itself does not fail, unless an image cannot be opened or crop settings are no numbers *)
Lemma check_json_total v f : (forall image e, dims image <> Raise e) -> (forall l k d, v = JObj l -> In (k, JObj d) l -> dget (lit "crop_settings") d = None) -> exists b, check_json num dims v f = Ret b.
Proof.
  intros D N. destruct v as [|b|raw|s|l|l]; cbn [check_json]; try (eexists; reflexivity). specialize (N l). induction l as [|[k x] l IH]; cbn [check_images]; [eexists; reflexivity|].
  assert (X : exists b, check_image num dims x f = Ret b).
  { unfold check_image. destruct x as [|b|raw|s|l'|d]; try (eexists; reflexivity). destruct (dget (lit "path") d) as [[|b|raw|path|l'|l']|]; try (eexists; reflexivity). destruct (negb _); [eexists; reflexivity|]. destruct (dget _ f) as [image|]; [|eexists; reflexivity]. destruct (dims image) as [[[iw ih]|]|e] eqn:Di; [|eexists; reflexivity|exfalso; exact (D _ _ Di)].
    destruct (check_size (dget (lit "width") d) iw) as [w|]; [|eexists; reflexivity]. destruct (check_size (dget (lit "height") d) ih) as [h|]; [|eexists; reflexivity]. rewrite (N k d eq_refl (or_introl eq_refl)).
    assert (C : exists b, check_crop num [] iw ih w h = Ret b) by (unfold check_crop; cbn; eexists; reflexivity).
    destruct (dget (lit "crop_style") d) as [[|b|raw|s|l'|l']|]; try exact C; try (eexists; reflexivity). destruct (negb _); [eexists; reflexivity|exact C]. }
  destruct X as [[|] ->]; [|eexists; reflexivity]. apply IH. intros k' d E I. apply (N k' d eq_refl). right. exact I.
Qed.
End Check.

(** * Commands *)
Lemma command_of_stands v c : command_of v = Ret c -> stands_for v c /\ c_lazy c = true.
Proof.
  destruct v as [|b|raw|s|l|d]; try discriminate. cbn [command_of]. destruct (dget (lit "path") d) as [[|b|raw|p|l|l]|] eqn:P; try discriminate. destruct (as_int (dget (lit "width") d)) as [w|] eqn:W; [|discriminate]. destruct (as_int (dget (lit "height") d)) as [h|] eqn:H; [|discriminate]. apply as_int_whole in W, H. destruct W as (vw & W1 & W2), H as (vh & H1 & H2).
  destruct (dget (lit "crop_arguments") d) as [[|b|raw|s|l|a]|] eqn:A; try discriminate; intros X; injection X as <-; (split; [|reflexivity]); eapply StandsFor; try eassumption; auto.
Qed.
Lemma stands_command_of v c : stands_for v c -> c_lazy c = true -> command_of v = Ret c.
Proof.
  intros [d path vw w vh h args lazy P W1 W2 H1 H2 A] L. cbn [c_lazy] in L. subst lazy. cbn [command_of]. rewrite P, (proj2 (as_int_whole _ w) (ex_intro _ vw (conj W1 W2))), (proj2 (as_int_whole _ h) (ex_intro _ vh (conj H1 H2))). destruct A as [[-> ->]| ->]; reflexivity.
Qed.
(** an acceptable entry is one of a command, unless its crop arguments are no object *)
Lemma acceptable_stands num dims f d : acceptable num dims f (JObj d) -> (dget (lit "crop_arguments") d = None \/ exists a, dget (lit "crop_arguments") d = Some (JObj a)) ->
  exists c path, stands_for (JObj d) c /\ c_path c = 47%N :: path /\ 0 < c_width c /\ 0 < c_height c /\ exists image iw ih, dget (join_path (lit "src") [lit "public"; path]) f = Some image /\ dims image = Ret (Some (iw, ih)) /\ c_width c <= iw /\ c_height c <= ih.
Proof.
  intros K A. inversion K as [d' path image iw ih vw w vh h P I D W1 W2 W3 H1 H2 H3 St Cr]; subst d'.
  assert (X : exists args, dget (lit "crop_arguments") d = None /\ args = [] \/ dget (lit "crop_arguments") d = Some (JObj args)) by (destruct A as [A|[a A]]; [exists []; auto|exists a; auto]). destruct X as [args X].
  exists {| c_path := 47%N :: path; c_width := w; c_height := h; c_args := args; c_lazy := true |}, path. split; [eapply StandsFor; eassumption|]. cbn [c_path c_width c_height]. split; [reflexivity|]. split; [lia|]. split; [lia|]. exists image, iw, ih. split; [exact I|]. split; [exact D|]. lia.
Qed.

(** * Modules *)
Lemma field_obj k ks l x v : dget k l = Some x -> field ks (sort_keys x) v -> field (k :: ks) (sort_keys (JObj l)) v.
Proof. intros G F. cbn [sort_keys]. econstructor; [|exact F]. rewrite dget_sorted, G. reflexivity. Qed.
Lemma keys_sorted l : NoDup (map fst l) -> keys_are (sort_keys (JObj l)) (map fst l).
Proof.
  intros N. cbn [sort_keys]. eexists. split; [reflexivity|]. set (l' := map _ l). assert (E : map fst l' = map fst l) by (unfold l'; rewrite map_map; reflexivity). split.
  - eapply Permutation_NoDup; [apply Permutation_sym, Permutation_map, sort_perm|]. rewrite E. exact N.
  - intros k. rewrite <- E. split; apply Permutation_in; [|apply Permutation_sym]; apply Permutation_map, sort_perm.
Qed.
Lemma keys_of l ks : map fst l = ks -> NoDup ks -> keys_are (sort_keys (JObj l)) ks. Proof. intros <-. apply keys_sorted. Qed.
Ltac apart := repeat (constructor; [cbn [In]; intros X; repeat (destruct X as [X|X]; [discriminate X|]); exact X|]); constructor.
Lemma shows_output_json o : shows_output o (sort_keys (output_json o)).
Proof.
  constructor.
  - apply keys_of; [reflexivity|apart].
  - eapply field_obj; [reflexivity|constructor].
  - eapply field_obj; [reflexivity|constructor].
  - eapply field_obj; [reflexivity|constructor].
  - eapply field_obj; [reflexivity|constructor].
Qed.
Lemma scalar_sort x : (forall l, x <> JList l) -> (forall l, x <> JObj l) -> sort_keys x = x.
Proof. destruct x; try reflexivity; intros A B; [exfalso; exact (A _ eq_refl)|exfalso; exact (B _ eq_refl)]. Qed.
Lemma shows_image_json m : expressible m -> shows_image m (sort_keys (image_json m)).
Proof.
  intros [K1 _ K3 _ _]. unfold image_json. destruct (m_target m) as [[w h] crop] eqn:T. cbn [snd] in K1. constructor; rewrite ?T; cbn [fst snd].
  - apply keys_of; [reflexivity|apart].
  - eexists. split; [eapply field_obj; [reflexivity|constructor]|]. apply keys_of; [reflexivity|apart].
  - eexists. split; [eapply field_obj; [reflexivity|]; eapply field_obj; [reflexivity|constructor]|]. apply keys_of; [reflexivity|apart].
  - do 3 (eapply field_obj; [reflexivity|]). constructor.
  - do 3 (eapply field_obj; [reflexivity|]). constructor.
  - do 3 (eapply field_obj; [reflexivity|]). constructor.
  - eexists. split; [do 3 (eapply field_obj; [reflexivity|]); constructor|]. apply keys_sorted. exact K1.
  - intros k x G A B. do 3 (eapply field_obj; [reflexivity|]). eapply field_obj; [exact G|]. rewrite (scalar_sort x A B). constructor.
  - eexists. split; [do 2 (eapply field_obj; [reflexivity|]); constructor|]. assert (E : map fst (map (fun x : str * list output => (fst x, JList (map output_json (snd x)))) (m_outputs m)) = map fst (m_outputs m)) by (rewrite map_map; reflexivity). rewrite <- E. apply keys_sorted. rewrite E. exact K3.
  - intros name l G. exists (map sort_keys (map output_json l)). split.
    + do 2 (eapply field_obj; [reflexivity|]). apply (field_obj name [] _ (JList (map output_json l))); [|constructor]. clear - G. induction (m_outputs m) as [|[k y] d IH]; [discriminate|]. cbn [map fst snd dget] in *. destruct (str_eqb name k); [injection G as ->; reflexivity|exact (IH G)].
    + clear. induction l as [|o l IH]; [constructor|]. cbn [map]. constructor; [apply shows_output_json|exact IH].
Qed.
Lemma safe_lit_url s : json_safe s -> json_safe (lit "/" ++ s).
Proof. intros H. cbn [lit app]. apply (safe_cons 47%N s); [reflexivity|exact H|]. intros X. discriminate X. Qed.
Lemma image_ok m : expressible m -> json_ok (image_json m).
Proof.
  intros [K1 K2 K3 K4 K5]. unfold image_json. destruct (m_target m) as [[w h] crop] eqn:T. cbn [snd] in K2.
  assert (S : forall s, forallb (fun c => (c <? 128)%N) s = true -> json_safe s). { induction s as [|c s IH]; [intros _; exact I|]. cbn [forallb]. intros H. apply andb_prop in H. destruct H as [A B]. apply N.ltb_lt in A. apply safe_cons; [lia|exact (IH B)|]. intros X. unfold is_high in X. apply andb_prop in X. destruct X as [X _]. apply N.leb_le in X. lia. }
  assert (C : json_ok (JObj crop)). { apply ok_obj. apply Forall_forall. intros [k v] I. exact (K2 k v I). }
  assert (O : json_ok (JObj (map (fun x : str * list output => (fst x, JList (map output_json (snd x)))) (m_outputs m)))).
  { apply ok_obj. apply Forall_forall. intros x I. apply in_map_iff in I. destruct I as ([name l] & <- & I). cbn [fst snd]. split; [exact (K4 _ _ I)|]. apply ok_list. apply Forall_forall. intros y Y. apply in_map_iff in Y. destruct Y as (o & <- & Y). destruct (K5 _ _ _ I Y) as [U V]. unfold output_json. apply ok_obj. apply Forall_cons; [split; [apply S; reflexivity|apply is_num_print_Z]|]. apply Forall_cons; [split; [apply S; reflexivity|apply is_num_print_Z]|]. apply Forall_cons; [split; [apply S; reflexivity|apply safe_lit_url; exact U]|]. apply Forall_cons; [split; [apply S; reflexivity|exact V]|]. apply Forall_nil. }
  apply ok_obj. constructor; [|constructor]. cbn [fst snd]. split; [apply S; reflexivity|]. apply ok_obj. constructor; [|constructor; [|constructor]]; cbn [fst snd]; (split; [apply S; reflexivity|]); [|exact O].
  apply ok_obj. apply Forall_cons; [split; [apply S; reflexivity|apply is_num_print_Z]|]. apply Forall_cons; [split; [apply S; reflexivity|apply is_num_print_Z]|]. apply Forall_cons; [split; apply S; reflexivity|]. apply Forall_cons; [split; [apply S; reflexivity|exact C]|]. apply Forall_nil.
Qed.
(** reading the module *)
Theorem module_reads l : NoDup (map fst l) -> Forall (fun x : str * metadata target => json_safe (fst x) /\ expressible (snd x)) l ->
  exists t v, module_text l = lit "export default " ++ t ++ lit ";" ++ [10%N] /\ json_load t = Some v /\ keys_are v (map fst l) /\ forall name m, In (name, m) l -> exists x, field [name] v x /\ shows_image m x.
Proof.
  intros N F. set (d := map (fun x : str * metadata target => (fst x, image_json (snd x))) l). assert (E : map fst d = map fst l) by (unfold d; rewrite map_map; reflexivity).
  exists (dump (sort_keys (JObj d))), (sort_keys (JObj d)). split; [reflexivity|]. split; [|split].
  - rewrite <- (app_nil_r (dump _)). apply dump_load; [|constructor]. apply ok_obj. apply Forall_forall. intros x I. unfold d in I. apply in_map_iff in I. destruct I as ([name m] & <- & I). rewrite Forall_forall in F. destruct (F _ I) as [A B]. cbn [fst snd] in *. split; [exact A|apply image_ok; exact B].
  - rewrite <- E. apply keys_sorted. rewrite E. exact N.
  - intros name m I. exists (sort_keys (image_json m)). rewrite Forall_forall in F. destruct (F _ I) as [_ B]. split; [|apply shows_image_json; exact B]. apply (field_obj name [] _ (image_json m)); [|constructor]. assert (W : dict_wf d) by (unfold dict_wf, dkeys; rewrite E; exact N). apply In_dget; [exact W|]. unfold d. apply in_map_iff. exists (name, m). split; [reflexivity|exact I].
Qed.
(** its text does not depend on the order *)
Theorem module_order l l' : NoDup (map fst l) -> Permutation l l' -> module_text l = module_text l'.
Proof.
  intros N P. unfold module_text. cbn [sort_keys]. do 4 f_equal. apply sort_unique; [|apply Permutation_map, Permutation_map; exact P]. rewrite !map_map. cbn [fst]. exact N.
Qed.
