(** store / load round trip. *)
From Verif Require Import Base Graph GraphSpec GraphProofs GraphEqProofs Json JsonProofs GraphJson.
From Coq Require Import List NArith ZArith Bool String Lia.
Import ListNotations.

(** every path mentioned by the graph can be written as JSON *)
Definition paths_safe (g : graph) : Prop := forall a, In a (dkeys g) -> json_safe a.

Section RoundTrip.
Context (float_repr : Z -> str) (float_parse : str -> option Z).

Definition entry_json (n : node) : json :=
  JObj [(lit "parents", JList (map JStr (n_parents n)));
        (lit "children", JList (map JStr (n_children n)));
        (lit "metadata", meta_json float_repr n)].

Context (repr_num : forall x, is_num (float_repr x)).

Lemma json_safe_lit_parents : json_safe (lit "parents"). Proof. vm_compute. intuition discriminate. Qed.
Lemma json_safe_lit_children : json_safe (lit "children"). Proof. vm_compute. intuition discriminate. Qed.
Lemma json_safe_lit_metadata : json_safe (lit "metadata"). Proof. vm_compute. intuition discriminate. Qed.
Lemma json_safe_lit_filesize : json_safe (lit "filesize"). Proof. vm_compute. intuition discriminate. Qed.
Lemma json_safe_lit_mtime : json_safe (lit "mtime"). Proof. vm_compute. intuition discriminate. Qed.
Lemma json_safe_lit_inode : json_safe (lit "inode"). Proof. vm_compute. intuition discriminate. Qed.

Lemma json_ok_strs l : (forall a, In a l -> json_safe a) -> json_ok (JList (map JStr l)).
Proof.
  intros H. cbn [json_ok]. induction l as [|x l IH]; simpl; [exact I|]. split; [apply H; left; reflexivity|].
  apply IH. intros a Ha. apply H. right. assumption.
Qed.
Lemma json_ok_meta n : json_ok (meta_json float_repr n).
Proof.
  unfold meta_json. cbn [json_ok].
  repeat split; (try exact I); try apply is_num_print_Z; try apply repr_num; try discriminate.
Qed.

Definition entry_text (n : node) : str :=
  lit "{""parents"":" ++ dump (JList (map JStr (n_parents n)))
  ++ lit ",""children"":" ++ dump (JList (map JStr (n_children n)))
  ++ lit ",""metadata"":" ++ dump (meta_json float_repr n) ++ lit "}".
Lemma store_entry_text k n : store_entry float_repr (k, n) = c_quote :: flat_map escape_char k ++ c_quote :: c_colon :: entry_text n.
Proof.
  unfold store_entry, entry_text. change (dump (JStr k)) with (dump_str k). unfold dump_str. rewrite <- !app_assoc. reflexivity.
Qed.

Lemma entry_prints n : (forall a, In a (n_parents n) -> json_safe a) -> (forall a, In a (n_children n) -> json_safe a) ->
  Prints (entry_json n) (lit "{""parents"":" ++ dump (JList (map JStr (n_parents n)))
  ++ lit ",""children"":" ++ dump (JList (map JStr (n_children n)))
  ++ lit ",""metadata"":" ++ dump (meta_json float_repr n) ++ lit "}").
Proof.
  intros Hp Hc. unfold entry_json.
  apply json_ok_strs in Hp, Hc. apply dump_Prints in Hp, Hc.
  pose proof (dump_Prints _ (json_ok_meta n)) as Hm.
  set (tp := dump (JList (map JStr (n_parents n)))) in *.
  set (tc := dump (JList (map JStr (n_children n)))) in *.
  set (tm := dump (meta_json float_repr n)) in *.
  match goal with |- Prints ?v ?t => change t with
    (c_lbrace :: c_quote :: (flat_map escape_char (lit "parents") ++ c_quote :: c_colon :: [] ++ tp ++ c_comma :: [] ++ c_quote ::
       (flat_map escape_char (lit "children") ++ c_quote :: c_colon :: [] ++ tc ++ c_comma :: [] ++ c_quote ::
       (flat_map escape_char (lit "metadata") ++ c_quote :: c_colon :: [] ++ tm ++ [c_rbrace])))) end.
  apply Pr_obj.
  apply Pp_cons; [apply json_safe_lit_parents|constructor|assumption|constructor|].
  apply Pp_cons; [apply json_safe_lit_children|constructor|assumption|constructor|].
  apply Pp_one; [apply json_safe_lit_metadata|constructor|assumption].
Qed.

Definition items (g : graph) : list (str * json) := map (fun kv => (fst kv, entry_json (snd kv))) g.

Definition entry_safe (kv : str * node) : Prop :=
  json_safe (fst kv) /\ (forall a, In a (n_parents (snd kv)) -> json_safe a) /\ (forall a, In a (n_children (snd kv)) -> json_safe a).

Lemma store_pairs g : forall k n, entry_safe (k, n) -> Forall entry_safe g ->
  exists u, join (lit ",") (map (store_entry float_repr) ((k, n) :: g)) ++ lit "}" = c_quote :: u
            /\ PrintsPairs (items ((k, n) :: g)) u.
Proof.
  induction g as [|[k2 n2] g IH]; intros k n (Hk & Hp & Hc) Hg; cbn [fst snd] in *.
  - eexists. split.
    + cbn [map join]. rewrite store_entry_text. cbn [app]. rewrite <- app_assoc. cbn [app]. reflexivity.
    + apply (Pp_one k (entry_json n) []); [assumption|constructor|apply entry_prints; assumption].
  - inversion Hg; subst. destruct (IH k2 n2 H1 H2) as (u & Eu & Hu).
    eexists. split.
    + change (join (lit ",") (map (store_entry float_repr) ((k, n) :: (k2, n2) :: g))) with
        (store_entry float_repr (k, n) ++ lit "," ++ join (lit ",") (map (store_entry float_repr) ((k2, n2) :: g))).
      rewrite <- !app_assoc, Eu. rewrite store_entry_text. cbn [app]. rewrite <- app_assoc. cbn [app]. reflexivity.
    + apply (Pp_cons k (entry_json n) [] (entry_text n) []); [assumption|constructor|apply entry_prints; assumption|constructor|assumption].
Qed.

Lemma store_prints g : Forall entry_safe g -> exists t, store float_repr g = t ++ [10%N] /\ Prints (JObj (items g)) t.
Proof.
  destruct g as [|[k n] g]; intros H.
  - exists [c_lbrace; c_rbrace]. split; [reflexivity|constructor].
  - inversion H; subst. destruct (store_pairs g k n H2 H3) as (u & Eu & Hu).
    exists (c_lbrace :: c_quote :: u). split; [|apply Pr_obj; assumption].
    unfold store.
    replace (lit "{" ++ join (lit ",") (map (store_entry float_repr) ((k, n) :: g)) ++ lit "}" ++ [10%N]) with
      (lit "{" ++ (join (lit ",") (map (store_entry float_repr) ((k, n) :: g)) ++ lit "}") ++ [10%N]) by (rewrite <- !app_assoc; reflexivity).
    rewrite Eu. reflexivity.
Qed.

Lemma Inv_entry_safe g : Inv g -> paths_safe g -> Forall entry_safe g.
Proof.
  intros HI Hs. apply Forall_forall. intros [k n] Hin. pose proof HI as (Hwf & _).
  pose proof (In_dget k n g Hwf Hin) as Hget.
  split; [|split]; cbn [fst snd].
  - apply Hs. apply (dget_Some_key _ _ _ Hget).
  - intros a Ha. apply Hs. apply (Inv_pa_closed g k); [assumption|]. rewrite (pa_get _ _ _ Hget). assumption.
  - intros a Ha. apply Hs. apply (Inv_ch_closed g k); [assumption|]. rewrite (ch_get _ _ _ Hget). assumption.
Qed.

(** ** to_dict *)
Lemma to_dict_acc l : forall d, dict_wf (d ++ l) -> fold_left (fun d kv => dset (fst kv) (snd kv) d) l d = (d ++ l : dict json).
Proof.
  induction l as [|[k v] l IH]; intros d H; cbn [fold_left fst snd]; [rewrite app_nil_r; reflexivity|].
  assert (E : dset k v d = d ++ [(k, v)]).
  { assert (Hk : ~ In k (dkeys d)).
    { unfold dict_wf, dkeys in H. rewrite map_app in H. cbn [map fst] in H. apply NoDup_remove_2 in H.
      rewrite in_app_iff in H. tauto. }
    clear - Hk. induction d as [|[k' v'] d IH]; [reflexivity|]. cbn in *.
    destruct (str_eqb k k') eqn:E; [apply str_eqb_eq in E; subst; tauto|]. rewrite IH by tauto. reflexivity. }
  rewrite E, IH.
  - rewrite <- app_assoc. reflexivity.
  - rewrite <- app_assoc. assumption.
Qed.
Lemma to_dict_wf l : dict_wf l -> to_dict l = l.
Proof. intros H. apply (to_dict_acc l []). assumption. Qed.

(** ** load *)
Definition stub : node := mkNode 0 0 0 [] [].
Definition grows (path : str) (l : list str) (h h' : graph) : Prop :=
  forall q, q <> path -> dget q h' = dget q h \/ (dget q h = None /\ In q l /\ dget q h' = Some stub).

Lemma ensure_get p q (h : graph) : dget q (ensure_node p h) = if str_eqb q p then match dget p h with Some n => Some n | None => Some stub end else dget q h.
Proof.
  unfold ensure_node. destruct (dmem p h) eqn:E.
  - destruct (str_eqb q p) eqn:Eq; [|reflexivity]. apply str_eqb_eq in Eq. subst. apply dmem_In in E.
    apply In_dkeys_dget in E. destruct E as (n & ->). reflexivity.
  - rewrite dget_dset. destruct (str_eqb q p) eqn:Eq; [|reflexivity].
    apply dmem_false in E. apply dget_None in E. rewrite E. reflexivity.
Qed.
Lemma ensure_wf p (h : graph) : dict_wf h -> dict_wf (ensure_node p h).
Proof. intros H. unfold ensure_node. destruct (dmem p h); [assumption|]. apply dict_wf_dset. assumption. Qed.

Lemma load_parents_spec path l : forall h n, dict_wf h -> dget path h = Some n ->
  exists h', load_parents path (map JStr l) h = Some h' /\ dict_wf h' /\
    dget path h' = Some (with_parents (fun x => x ++ l) n) /\ grows path l h h'.
Proof.
  induction l as [|p l IH]; intros h n Hwf Hn; cbn [map load_parents].
  - exists h. repeat split; auto. { rewrite Hn. destruct n; unfold with_parents, with_children; cbn. rewrite app_nil_r. reflexivity. } intros q _. left. reflexivity.
  - assert (Hn1 : dget path (ensure_node p h) = Some n).
    { rewrite ensure_get. destruct (str_eqb path p) eqn:E; [|assumption]. apply str_eqb_eq in E. subst. rewrite Hn. reflexivity. }
    rewrite Hn1.
    destruct (IH (dset path (with_parents (fun x => x ++ [p]) n) (ensure_node p h)) (with_parents (fun x => x ++ [p]) n)) as (h' & E1 & E2 & E3 & E4).
    { apply dict_wf_dset, ensure_wf. assumption. } { rewrite dget_dset, str_eqb_refl. reflexivity. }
    exists h'. split; [assumption|]. split; [assumption|]. split.
    { rewrite E3. destruct n; unfold with_parents, with_children; cbn. rewrite <- app_assoc. reflexivity. }
    intros q Hq. specialize (E4 q Hq). rewrite dget_dset in E4. apply str_eqb_neq in Hq. rewrite Hq in E4.
    rewrite ensure_get in E4. destruct (str_eqb q p) eqn:Eqp.
    + apply str_eqb_eq in Eqp. subst. destruct (dget p h) eqn:Ep.
      * destruct E4 as [E4|(E4 & _)]; [left; assumption|discriminate].
      * destruct E4 as [E4|(E4 & _)]; [right; repeat split; [left; reflexivity|assumption]|discriminate].
    + destruct E4 as [E4|(E4 & E5 & E6)]; [left; assumption|right; repeat split; [assumption|right; assumption|assumption]].
Qed.
Lemma load_children_spec path l : forall h n, dict_wf h -> dget path h = Some n ->
  exists h', load_children path (map JStr l) h = Some h' /\ dict_wf h' /\
    dget path h' = Some (with_children (fun x => x ++ l) n) /\ grows path l h h'.
Proof.
  induction l as [|p l IH]; intros h n Hwf Hn; cbn [map load_children].
  - exists h. repeat split; auto. { rewrite Hn. destruct n; unfold with_parents, with_children; cbn. rewrite app_nil_r. reflexivity. } intros q _. left. reflexivity.
  - assert (Hn1 : dget path (ensure_node p h) = Some n).
    { rewrite ensure_get. destruct (str_eqb path p) eqn:E; [|assumption]. apply str_eqb_eq in E. subst. rewrite Hn. reflexivity. }
    rewrite Hn1.
    destruct (IH (dset path (with_children (fun x => x ++ [p]) n) (ensure_node p h)) (with_children (fun x => x ++ [p]) n)) as (h' & E1 & E2 & E3 & E4).
    { apply dict_wf_dset, ensure_wf. assumption. } { rewrite dget_dset, str_eqb_refl. reflexivity. }
    exists h'. split; [assumption|]. split; [assumption|]. split.
    { rewrite E3. destruct n; unfold with_parents, with_children; cbn. rewrite <- app_assoc. reflexivity. }
    intros q Hq. specialize (E4 q Hq). rewrite dget_dset in E4. apply str_eqb_neq in Hq. rewrite Hq in E4.
    rewrite ensure_get in E4. destruct (str_eqb q p) eqn:Eqp.
    + apply str_eqb_eq in Eqp. subst. destruct (dget p h) eqn:Ep.
      * destruct E4 as [E4|(E4 & _)]; [left; assumption|discriminate].
      * destruct E4 as [E4|(E4 & _)]; [right; repeat split; [left; reflexivity|assumption]|discriminate].
    + destruct E4 as [E4|(E4 & E5 & E6)]; [left; assumption|right; repeat split; [assumption|right; assumption|assumption]].
Qed.

Context (parse_repr : forall x, float_parse (float_repr x) = Some x).

Lemma load_item_spec path n h : dict_wf h -> (dget path h = None \/ dget path h = Some stub) ->
  exists h', load_item float_parse (path, entry_json n) h = Some h' /\ dict_wf h' /\
    dget path h' = Some n /\ grows path (n_parents n ++ n_children n) h h'.
Proof.
  intros Hwf Hst. unfold load_item.
  assert (E0 : dget path (ensure_node path h) = Some stub).
  { rewrite ensure_get, str_eqb_refl. destruct Hst as [->| ->]; reflexivity. }
  change (jget (lit "metadata") (entry_json n)) with (Some (meta_json float_repr n)). cbv iota beta.
  change (jget (lit "mtime") (meta_json float_repr n)) with (Some (JNum (float_repr (n_mtime n)))).
  change (jget (lit "filesize") (meta_json float_repr n)) with (Some (JNum (print_Z (n_size n)))).
  change (jget (lit "inode") (meta_json float_repr n)) with (Some (JNum (print_Z (n_inode n)))).
  change (jget (lit "parents") (entry_json n)) with (Some (JList (map JStr (n_parents n)))).
  change (jget (lit "children") (entry_json n)) with (Some (JList (map JStr (n_children n)))).
  cbn [get_float get_int get_list]. rewrite parse_repr, !parse_Z_print, E0. cbn [stub n_parents n_children].
  set (n0 := mkNode (n_size n) (n_mtime n) (n_inode n) [] []).
  destruct (load_parents_spec path (n_parents n) (dset path n0 (ensure_node path h)) n0) as (h1 & E1 & E2 & E3 & E4).
  { apply dict_wf_dset, ensure_wf. assumption. } { rewrite dget_dset, str_eqb_refl. reflexivity. }
  rewrite E1.
  destruct (load_children_spec path (n_children n) h1 _ E2 E3) as (h2 & F1 & F2 & F3 & F4).
  exists h2. split; [assumption|]. split; [assumption|]. split; [rewrite F3; destruct n; reflexivity|].
  intros q Hq. specialize (E4 q Hq). specialize (F4 q Hq). rewrite dget_dset in E4. apply str_eqb_neq in Hq. rewrite Hq, ensure_get, Hq in E4.
  rewrite in_app_iff.
  destruct E4 as [E4|(E4 & E5 & E6)], F4 as [F4|(F4 & F5 & F6)].
  - left. congruence.
  - right. rewrite E4 in F4. auto.
  - right. rewrite F4. auto.
  - rewrite E6 in F4. discriminate.
Qed.

Lemma load_items_spec g : Inv g -> forall todo done h, g = done ++ todo -> dict_wf h ->
  (forall p, In p (dkeys done) -> dget p h = dget p g) ->
  (forall p, ~ In p (dkeys done) -> dget p h = None \/ (dget p h = Some stub /\ In p (dkeys g))) ->
  exists h', load_items float_parse (items todo) h = Some h' /\ dict_wf h' /\ forall p, dget p h' = dget p g.
Proof.
  intros HI. induction todo as [|[k n] todo IH]; intros done h Eg Hwf Hd Hn; cbn [items map load_items fst snd].
  - exists h. split; [reflexivity|]. split; [assumption|]. intros p. rewrite app_nil_r in Eg. subst done.
    destruct (in_dec str_eq_dec p (dkeys g)) as [Hp|Hp]; [auto|].
    destruct (Hn p Hp) as [H|(_ & H)]; [|contradiction]. rewrite H. symmetry. apply dget_None. assumption.
  - pose proof HI as (Hgwf & _).
    assert (Hk : ~ In k (dkeys done)).
    { subst g. unfold dict_wf, dkeys in Hgwf. rewrite map_app in Hgwf. apply NoDup_remove_2 in Hgwf. rewrite in_app_iff in Hgwf. unfold dkeys. tauto. }
    assert (Hkn : dget k g = Some n). { apply In_dget; [assumption|]. subst g. apply in_or_app. right. left. reflexivity. }
    destruct (load_item_spec k n h Hwf) as (h1 & E1 & E2 & E3 & E4).
    { destruct (Hn k Hk) as [H|(H & _)]; auto. }
    rewrite E1. apply (IH (done ++ [(k, n)])); [subst g; rewrite <- app_assoc; reflexivity|assumption| |].
    + intros p Hp. unfold dkeys in Hp. rewrite map_app, in_app_iff in Hp.
      destruct (str_eq_dec p k) as [->|Hpk]; [congruence|].
      destruct Hp as [Hp|[Hp|[]]]; [|cbn in Hp; congruence]. fold (dkeys done) in Hp.
      specialize (Hd p Hp). destruct (E4 p Hpk) as [H|(H & _)]; [congruence|].
      rewrite H in Hd. symmetry in Hd. apply dget_None in Hd. exfalso. apply Hd. subst g. unfold dkeys. rewrite map_app. apply in_or_app. left. assumption.
    + intros p Hp. unfold dkeys in Hp. rewrite map_app, in_app_iff in Hp. cbn in Hp.
      assert (Hpk : p <> k) by (intros ->; apply Hp; right; left; reflexivity).
      assert (Hpd : ~ In p (dkeys done)) by (intros H; apply Hp; left; assumption).
      destruct (E4 p Hpk) as [H|(H & Hl & H2)].
      * rewrite H. apply Hn. assumption.
      * right. split; [assumption|]. apply in_app_or in Hl. destruct Hl as [Hl|Hl].
        -- apply (Inv_pa_closed g k); [assumption|]. rewrite (pa_get _ _ _ Hkn). assumption.
        -- apply (Inv_ch_closed g k); [assumption|]. rewrite (ch_get _ _ _ Hkn). assumption.
Qed.

Lemma load_store_get g : Inv g -> paths_safe g ->
  exists h, load float_parse (store float_repr g) = Some h /\ dict_wf h /\ forall p, dget p h = dget p g.
Proof.
  intros HI Hs. destruct (store_prints g (Inv_entry_safe g HI Hs)) as (t & Et & Hp).
  unfold load. rewrite Et, (json_load_Prints _ _ [10%N] Hp) by (repeat constructor).
  rewrite to_dict_wf.
  - apply (load_items_spec g HI g [] []); [reflexivity|constructor| |]; [intros p []|]. intros p _. left. reflexivity.
  - pose proof HI as (Hwf & _). unfold dict_wf, items. unfold dkeys. rewrite map_map. cbn. exact Hwf.
Qed.

Lemma Inv_same_get (g h : graph) : dict_wf h -> (forall p, dget p h = dget p g) -> Inv g -> Inv h.
Proof.
  intros Hwf Hg HI. apply Inv_well_formed. apply Inv_well_formed in HI. destruct HI as (_ & H1 & H2 & H3).
  unfold well_formed, api_children, api_parents, get_children, get_parents, contains, dmem in *.
  split; [assumption|].
  assert (Hm : forall b, match dget b h with Some _ => true | None => false end = match dget b g with Some _ => true | None => false end) by (intros; rewrite Hg; reflexivity).
  split; [|split].
  - intros a b. rewrite Hg. intros H. specialize (H1 a b H). rewrite Hm. assumption.
  - intros a b. rewrite Hg. intros H. specialize (H2 a b H). rewrite Hm. assumption.
  - intros a b. rewrite !Hg. apply H3.
Qed.

Lemma load_store_eq g : Inv g -> paths_safe g ->
  exists h, load float_parse (store float_repr g) = Some h /\ Inv h /\ (forall p, dget p h = dget p g) /\ graph_eq h g = Some true.
Proof.
  intros HI Hs. destruct (load_store_get g HI Hs) as (h & E & Hwf & Hg).
  exists h. assert (HIh : Inv h) by (apply (Inv_same_get g h); assumption).
  repeat (split; [assumption|]).
  destruct (graph_eq_correct h g HIh HI) as (r & Er & Hr). rewrite Er. f_equal. apply Hr. assumption.
Qed.
End RoundTrip.

(** a high surrogate followed by a low surrogate is merged on reading *)
