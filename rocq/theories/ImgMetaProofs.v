(** Records of images are read as they were written. *)
From Verif Require Import Base Graph Json JsonProofs JsonTorn JsonPretty JsonPrettyProofs Handlers Html HtmlTemplate ImgSettings ImgExport ImgCommand ImgPage ImgTarget ImgMeta ImgMetaSpec.
From Coq Require Import String ZArith NArith Bool List Lia.
Import ListNotations.
Open Scope list_scope.

Lemma kept_pairs l : dict_wf l -> Forall (fun kv => json_safe (fst kv) /\ kept (snd kv)) l -> kept (JObj l).
Proof.
  intros W F. split; [apply ok_obj; eapply Forall_impl; [|exact F]; intros kv [A [B _]]; exact (conj A B)|]. change (jnorm (JObj l)) with (JObj (norm_obj l)). assert (G : norm_obj l = l); [|rewrite G; reflexivity]. unfold norm_obj. transitivity (fold_left (fun d kv => dset (fst kv) (snd kv) d) l []); [|exact (fold_dset l [] W)]. clear W. generalize (@nil (str * json)). induction F as [|[k v] l [_ [_ E]] F IH]; intros d; [reflexivity|]. cbn [fold_left fst snd] in *. rewrite E. apply IH.
Qed.
Lemma kept_num z : kept (num z). Proof. split; [exact (is_num_print_Z z)|reflexivity]. Qed.
Lemma load_pretty_kept v : kept v -> json_file (pretty 0 v) = Ret v.
Proof. intros [A B]. unfold json_file. pose proof (load_pretty v 0 [] A) as L. rewrite app_nil_r in L. rewrite L; [rewrite B; reflexivity|constructor]. Qed.
Lemma load_dump_kept v : kept v -> json_file (dump v) = Ret v.
Proof. intros [A B]. unfold json_file. rewrite <- (app_nil_r (dump v)), (json_load_Prints v); [rewrite B; reflexivity|apply dump_Prints; exact A|constructor]. Qed.
Lemma lit_safe s : forallb (fun c => (c <? 55296)%N) (lit s) = true -> json_safe (lit s).
Proof.
  generalize (lit s). intros l F. induction l as [|c l IH]; [exact I|]. cbn [forallb] in F. apply andb_prop in F. destruct F as [A B]. apply N.ltb_lt in A. split; [lia|]. split; [|exact (IH B)]. destruct l; [exact I|]. intros H. exfalso. unfold is_high in H. apply andb_prop in H. destruct H as [H _]. apply N.leb_le in H. lia.
Qed.
Ltac pairs := apply kept_pairs; [unfold dict_wf, dkeys; cbn [map fst]; repeat (apply NoDup_cons; [intros X; repeat (destruct X as [X|X]; [discriminate X|]); exact X|]); apply NoDup_nil|repeat (apply Forall_cons; [split; [apply lit_safe; reflexivity|cbn [snd]]|])].
Lemma kept_crop l : crop_fit l -> kept (JObj l).
Proof.
  intros [E F]. apply kept_pairs.
  - unfold dict_wf, dkeys. rewrite E. repeat (apply NoDup_cons; [intros X; repeat (destruct X as [X|X]; [discriminate X|]); exact X|]). apply NoDup_nil.
  - apply Forall_forall. intros kv I. split; [|rewrite Forall_forall in F; exact (F kv I)]. apply (in_map fst) in I. rewrite E in I. repeat (destruct I as [I|I]; [rewrite <- I; apply lit_safe; reflexivity|]). destruct I.
Qed.
Lemma kept_target t : crop_fit (snd t) -> kept (target_json t).
Proof. intros C. unfold target_json. pairs; [apply kept_num|apply kept_num|apply kept_str; apply lit_safe; reflexivity|exact (kept_crop _ C)|constructor]. Qed.
Lemma kept_output o : json_safe (o_relpath o) -> json_safe (o_choice o) -> kept (output_json o).
Proof. intros A B. unfold output_json. pairs; [apply kept_num|apply kept_num|apply kept_str; exact A|apply kept_str; exact B|constructor]. Qed.
Lemma kept_store m : recordable m -> kept (store_metadata m).
Proof.
  intros [A B C D E]. unfold store_metadata. pairs; [apply kept_num| | |constructor].
  - pairs; [apply kept_str; exact A|apply kept_num|apply kept_num|apply kept_str; exact B|constructor].
  - pairs; [exact (kept_target _ C)| |constructor]. apply kept_pairs.
    + unfold dict_wf, dkeys. rewrite map_map. exact D.
    + apply Forall_forall. intros kv I. apply in_map_iff in I. destruct I as ([name l] & <- & I). cbn [fst snd]. split.
      * destruct l as [|o l]; apply (E _ _ {| o_width := 0; o_height := 0; o_relpath := []; o_choice := [] |} I).
      * apply kept_list. apply Forall_forall. intros v J. apply in_map_iff in J. destruct J as (o & <- & J). destruct (proj2 (E name l o I) J). apply kept_output; assumption.
Qed.

Lemma as_int_num z : as_int (num z) = Ret z.
Proof. unfold num, as_int. rewrite parse_Z_print. reflexivity. Qed.
Lemma traverse_map {A B C} (f : B -> res C) (g : A -> B) (h : A -> C) l : (forall x, In x l -> f (g x) = Ret (h x)) -> traverse f (map g l) = Ret (map h l).
Proof. induction l as [|x l IH]; intros H; [reflexivity|]. cbn [map traverse]. rewrite (H x (or_introl eq_refl)). cbn [bind]. rewrite (IH (fun y I => H y (or_intror I))). reflexivity. Qed.
Lemma traverse_id {A B} (f : A -> res B) l r : Forall2 (fun x y => f x = Ret y) l r -> traverse f l = Ret r.
Proof. induction 1 as [|x y l r E F IH]; [reflexivity|]. cbn [traverse]. rewrite E. cbn [bind]. rewrite IH. reflexivity. Qed.
Lemma load_target_json t : crop_fit (snd t) -> load_image_target_settings (target_json t) = Ret t.
Proof.
  intros C. pose proof (proj1 (kept_obj _ (kept_crop _ C))) as W. destruct t as [[w h] l]. cbn [snd] in *. unfold load_image_target_settings, target_json. cbn [fst snd].
  match goal with |- context [item (lit "width") ?v] => set (v0 := v) end.
  assert (E1 : item (lit "width") v0 = Ret (num w)) by reflexivity. assert (E2 : item (lit "height") v0 = Ret (num h)) by reflexivity. assert (E3 : item (lit "crop") v0 = Ret (JStr (lit "cover"))) by reflexivity. assert (E4 : item (lit "crop_settings") v0 = Ret (JObj l)) by reflexivity.
  rewrite E1, E2, E3. cbn [bind]. rewrite !as_int_num. cbn [bind]. change (is_cover (JStr (lit "cover"))) with (Ret tt). cbn [bind].
  rewrite (traverse_id _ crop_names l); [reflexivity|]. destruct C as [C _]. 
  assert (G : forall (a : list (str * json)) (b : list (str * json)), map fst b = map fst a -> (forall kv, In kv b -> In kv l) -> Forall2 (fun x y => bind (item (lit "crop_settings") v0) (fun c => bind (item (fst x) c) (fun z => Ret (fst x, z))) = Ret y) a b).
  { induction a as [|[k x] a IH]; intros [|[k' y] b] M I; try discriminate M; [constructor|]. cbn [map fst] in M. assert (k' = k /\ map fst b = map fst a) as [-> M'] by (split; congruence). constructor; [|apply IH; [exact M'|intros kv J; apply I; right; exact J]]. rewrite E4. cbn [bind fst item]. rewrite (In_dget k y l W (I _ (or_introl eq_refl))). reflexivity. }
  apply G; [exact C|auto].
Qed.
Lemma load_output_json o : load_output (output_json o) = Ret o.
Proof.
  destruct o as [w h r c]. unfold load_output, output_json. cbn [o_width o_height o_relpath o_choice]. match goal with |- context [item (lit "width") ?v] => set (v0 := v) end.
  assert (E1 : item (lit "width") v0 = Ret (num w)) by reflexivity. assert (E2 : item (lit "height") v0 = Ret (num h)) by reflexivity. assert (E3 : item (lit "relpath") v0 = Ret (JStr r)) by reflexivity. assert (E4 : item (lit "choice") v0 = Ret (JStr c)) by reflexivity.
  rewrite E1, E2, E3, E4. cbn [bind]. rewrite !as_int_num. reflexivity.
Qed.
Lemma load_store m : crop_fit (snd (m_target m)) -> load_metadata (store_metadata m) = Ret m.
Proof.
  intros C. destruct m as [hash src w h ch t outs]. unfold load_metadata, store_metadata. cbn [m_settings_hash m_source m_width m_height m_contents_hash m_target m_outputs] in *.
  match goal with |- context [(lit "source", ?v)] => set (s0 := v) end. match goal with |- context [(lit "target", ?v)] => set (t0 := v) end. match goal with |- context [item (lit "settings_hash") ?v] => set (v0 := v) end.
  assert (E1 : item (lit "settings_hash") v0 = Ret (num hash)) by reflexivity. assert (E2 : item (lit "source") v0 = Ret s0) by reflexivity. assert (E3 : item (lit "target") v0 = Ret t0) by reflexivity.
  assert (S1 : item (lit "path") s0 = Ret (JStr src)) by reflexivity. assert (S2 : item (lit "width") s0 = Ret (num w)) by reflexivity. assert (S3 : item (lit "height") s0 = Ret (num h)) by reflexivity. assert (S4 : item (lit "contents_hash") s0 = Ret (JStr ch)) by reflexivity.
  assert (T1 : item (lit "settings") t0 = Ret (target_json t)) by reflexivity. match type of T1 with _ = _ => idtac end. assert (T2 : item (lit "outputs") t0 = Ret (JObj (map (fun kv => (fst kv, JList (map output_json (snd kv)))) outs))) by reflexivity.
  rewrite E1, E2, E3. cbn [bind]. rewrite S1, S2, S3, S4, T1, T2. cbn [bind replaced as_str]. rewrite !as_int_num. cbn [bind]. rewrite (load_target_json t C). cbn [bind].
  rewrite (traverse_map _ _ (fun kv => kv)); [rewrite map_id; reflexivity|]. intros [name l] _. cbn [fst snd load_outputs]. rewrite (traverse_map _ _ (fun o => o)); [rewrite map_id; reflexivity|]. intros o _. apply load_output_json.
Qed.
Theorem record_read m : recordable m -> load_text (store_text m) = Ret m.
Proof. intros R. unfold load_text, store_text. rewrite (load_pretty_kept _ (kept_store m R)). apply load_store. apply R. Qed.
Theorem placeholder_read t : crop_fit (snd t) -> load_placeholder (placeholder_text t) = Ret t.
Proof. intros C. unfold load_placeholder, placeholder_text. rewrite (load_dump_kept _ (kept_target t C)). exact (load_target_json t C). Qed.

(** * Unfinished records *)
Lemma record_torn m p q : recordable m -> store_text m = p ++ q -> q <> [] -> load_text p = Raise ValueError.
Proof.
  intros R E N. destruct (kept_store m R) as [A _]. pose proof (load_pretty (store_metadata m) 0 [] A) as L. rewrite app_nil_r in L. specialize (L (Forall_nil _)). fold (store_text m) in L. rewrite E in L. unfold load_text, json_file. rewrite (torn p q _ L); [reflexivity|intros raw; discriminate|].
  assert (X : exists q', q = q' ++ [125%N]).
  { destruct (exists_last N) as (q' & c & ->). exists q'. f_equal. f_equal. assert (Y : last (store_text m) 0%N = 125%N). { unfold store_text, store_metadata. cbn [pretty]. rewrite !app_assoc. apply last_last. } rewrite E, app_assoc, last_last in Y. exact Y. }
  destruct X as [q' ->]. clear. induction q' as [|c q' IH]; [discriminate|]. cbn [app skip_ws]. destruct (is_ws c); [exact IH|discriminate].
Qed.
Lemma placeholder_torn t p q : crop_fit (snd t) -> placeholder_text t = p ++ q -> q <> [] -> load_placeholder p = Raise ValueError.
Proof.
  intros C E N. destruct (kept_target t C) as [A _]. assert (L : json_load (placeholder_text t) = Some (target_json t)) by (unfold placeholder_text; rewrite <- (app_nil_r (dump _)); apply json_load_Prints; [apply dump_Prints; exact A|constructor]). rewrite E in L. unfold load_placeholder, json_file. rewrite (torn p q _ L); [reflexivity|intros raw; discriminate|].
  assert (X : exists q', q = q' ++ [125%N]).
  { destruct (exists_last N) as (q' & c & ->). exists q'. f_equal. f_equal. assert (Y : last (placeholder_text t) 0%N = 125%N). { unfold placeholder_text, target_json. cbn [dump]. rewrite !app_assoc. apply last_last. } rewrite E, app_assoc, last_last in Y. exact Y. }
  destruct X as [q' ->]. clear. induction q' as [|c q' IH]; [discriminate|]. cbn [app skip_ws]. destruct (is_ws c); [exact IH|discriminate].
Qed.

(** * Equality *)
Lemma json_eqb_eq n : forall a b, (json_size a <= n)%nat -> (json_eqb a b = true <-> a = b).
Proof.
  induction n as [|n IH]; intros a b Hn; [pose proof (json_size_pos a); lia|]. destruct a as [|x|x|x|l|l], b as [|y|y|y|r|r]; try (split; [discriminate|discriminate]); try (split; reflexivity).
  - cbn. rewrite eqb_true_iff. split; congruence.
  - cbn. rewrite str_eqb_eq. split; congruence.
  - cbn. rewrite str_eqb_eq. split; congruence.
  - pose proof (size_list _ _ Hn) as Sz. clear Hn. cbn [json_eqb]. enough (G : (fix all (l m : list json) : bool := match l, m with [], [] => true | x :: l, y :: m => json_eqb x y && all l m | _, _ => false end) l r = true <-> l = r) by (rewrite G; split; congruence).
    revert r. induction l as [|x l IHl]; intros [|y r]; try (split; [discriminate|discriminate]); [split; reflexivity|]. rewrite andb_true_iff, (IH x y (Sz x (or_introl eq_refl))), (IHl (fun z I => Sz z (or_intror I))). split; [intros [-> ->]; reflexivity|intros E; split; congruence].
  - pose proof (size_obj _ _ Hn) as Sz. clear Hn. cbn [json_eqb]. enough (G : (fix all (l m : list (str * json)) : bool := match l, m with [], [] => true | (k, x) :: l, (k', y) :: m => str_eqb k k' && (json_eqb x y && all l m) | _, _ => false end) l r = true <-> l = r) by (rewrite G; split; congruence).
    revert r. induction l as [|[k x] l IHl]; intros [|[k' y] r]; try (split; [discriminate|discriminate]); [split; reflexivity|]. rewrite !andb_true_iff, str_eqb_eq, (IH x y (Sz k x (or_introl eq_refl))), (IHl (fun k z I => Sz k z (or_intror I))). split; [intros (-> & -> & ->); reflexivity|intros E; repeat split; congruence].
Qed.
Lemma target_eqb_eq a b : target_eqb a b = true <-> a = b.
Proof.
  destruct a as [[w h] l], b as [[w' h'] l']. unfold target_eqb. cbn [fst snd]. rewrite !andb_true_iff, !Z.eqb_eq, (json_eqb_eq (json_size (JObj l)) (JObj l) (JObj l') (le_n _)). split; [intros [[-> ->] E]; congruence|intros E; repeat split; congruence].
Qed.
