(** What json.dump writes with [indent=2] is read back. *)
From Verif Require Import Base Json JsonProofs GlueJson JsonPretty.
From Coq Require Import String ZArith NArith Bool List Lia ZifyN ZifyBool ZifyNat.
Import ListNotations.
Open Scope list_scope.
Open Scope N_scope.

(** as [Prints], with white space inside of brackets *)
Inductive Lays : json -> str -> Prop :=
| L_flat v t : Prints v t -> (forall l, v <> JList l) -> (forall l, v <> JObj l) -> Lays v t
| L_list_nil : Lays (JList []) [c_lbrack; c_rbrack]
| L_list w l t : all_ws w -> LaysItems l t -> Lays (JList l) (c_lbrack :: w ++ t)
| L_obj_nil : Lays (JObj []) [c_lbrace; c_rbrace]
| L_obj w l t : all_ws w -> LaysPairs l t -> Lays (JObj l) (c_lbrace :: w ++ c_quote :: t)
with LaysItems : list json -> str -> Prop :=
| Li_one v t w : Lays v t -> all_ws w -> LaysItems [v] (t ++ w ++ [c_rbrack])
| Li_cons v t w l u : Lays v t -> all_ws w -> LaysItems l u -> LaysItems (v :: l) (t ++ c_comma :: w ++ u)
with LaysPairs : list (str * json) -> str -> Prop :=
| Lp_one k v w t w2 : json_safe k -> all_ws w -> Lays v t -> all_ws w2 -> LaysPairs [(k, v)] (flat_map escape_char k ++ c_quote :: c_colon :: w ++ t ++ w2 ++ [c_rbrace])
| Lp_cons k v w t w2 l u : json_safe k -> all_ws w -> Lays v t -> all_ws w2 -> LaysPairs l u ->
    LaysPairs ((k, v) :: l) (flat_map escape_char k ++ c_quote :: c_colon :: w ++ t ++ c_comma :: w2 ++ c_quote :: u).
Scheme Lays_mut := Minimality for Lays Sort Prop
with LaysItems_mut := Minimality for LaysItems Sort Prop
with LaysPairs_mut := Minimality for LaysPairs Sort Prop.
Combined Scheme Lays_all from Lays_mut, LaysItems_mut, LaysPairs_mut.

Lemma Lays_head v t : Lays v t -> exists c r, t = c :: r /\ is_ws c = false /\ c <> c_rbrack.
Proof. destruct 1; try (do 2 eexists; split; [reflexivity|]; split; [reflexivity|discriminate]). exact (Prints_head _ _ H). Qed.
Lemma skip_Lays v t s : Lays v t -> skip_ws (t ++ s) = t ++ s.
Proof. intros H. apply Lays_head in H. destruct H as (c & r & -> & H & _). cbn [app skip_ws]. rewrite H. reflexivity. Qed.
Lemma LaysItems_head l t : LaysItems l t -> exists c r, t = c :: r /\ is_ws c = false /\ c <> c_rbrack.
Proof. destruct 1; apply Lays_head in H; destruct H as (c & r & -> & H); do 2 eexists; (split; [reflexivity|assumption]). Qed.
Lemma follow_ws w c rest : all_ws w -> c = c_comma \/ c = c_rbrack \/ c = c_rbrace -> follow (w ++ c :: rest).
Proof. intros W C. destruct W as [|x w H _]; cbn [app follow]; [destruct C as [C|[C|C]]; auto|auto]. Qed.
Lemma parse_Lays :
  (forall v t, Lays v t -> forall fuel rest, (2 * List.length t <= fuel)%nat -> follow rest -> parse_value fuel (t ++ rest) = Some (v, rest)) /\
  (forall l t, LaysItems l t -> forall fuel rest, (2 * List.length t <= fuel)%nat -> parse_items fuel (t ++ rest) = Some (l, rest)) /\
  (forall l t, LaysPairs l t -> forall fuel rest, (2 * List.length t <= fuel)%nat -> parse_pairs fuel (t ++ rest) = Some (l, rest)).
Proof.
  apply Lays_all.
  - intros v t H _ _ fuel rest Hf Hr. exact (proj1 parse_Prints v t H fuel rest Hf Hr).
  - intros fuel rest Hf _. destruct fuel; [simpl in Hf; lia|]. reflexivity.
  - intros w l t Hw Ht IH fuel rest Hf _. destruct fuel as [|fuel]; [simpl in Hf; lia|]. simpl in Hf. rewrite app_length in Hf.
    cbn [app parse_value]. cbn [N.eqb c_quote c_lbrace c_lbrack Pos.eqb]. rewrite <- app_assoc, skip_ws_all by assumption.
    destruct (LaysItems_head _ _ Ht) as (c & r & E & Hc & Hb). specialize (IH fuel rest ltac:(lia)). rewrite E in *. cbn [app] in *. rewrite skip_ws_nonws by assumption.
    apply N.eqb_neq in Hb. rewrite Hb, IH. reflexivity.
  - intros fuel rest Hf _. destruct fuel; [simpl in Hf; lia|]. reflexivity.
  - intros w l t Hw Ht IH fuel rest Hf _. destruct fuel as [|fuel]; [simpl in Hf; lia|]. simpl in Hf. rewrite app_length in Hf. simpl in Hf.
    cbn [app parse_value]. cbn [N.eqb c_quote c_lbrace c_lbrack c_rbrace Pos.eqb]. rewrite <- app_assoc, skip_ws_all by assumption. cbn [app]. rewrite skip_ws_nonws by reflexivity. cbn [N.eqb c_quote c_rbrace Pos.eqb]. rewrite IH by lia. reflexivity.
  - intros v t w Ht IH Hw fuel rest Hf. rewrite !app_length in Hf. simpl in Hf. destruct fuel as [|fuel]; [lia|].
    rewrite <- !app_assoc. cbn [parse_items app]. rewrite IH; [|lia|apply follow_ws; [exact Hw|auto]]. rewrite skip_ws_all by assumption. rewrite skip_ws_nonws by reflexivity. cbn [N.eqb c_rbrack Pos.eqb]. reflexivity.
  - intros v t w l u Ht IH Hw Hu IHu fuel rest Hf. rewrite app_length in Hf. simpl in Hf. rewrite app_length in Hf. destruct fuel as [|fuel]; [lia|].
    rewrite <- app_assoc. cbn [parse_items app]. rewrite IH; [|lia|simpl; auto]. rewrite skip_ws_nonws by reflexivity. cbn [N.eqb c_rbrack c_comma Pos.eqb]. rewrite <- app_assoc, skip_ws_all by assumption.
    destruct (LaysItems_head _ _ Hu) as (c & r & E & Hc & _). assert (Hsk : skip_ws (u ++ rest) = u ++ rest) by (rewrite E; cbn [app]; apply skip_ws_nonws; assumption). rewrite Hsk, IHu by lia. reflexivity.
  - intros k v w t w2 Hk Hw Ht IH Hw2 fuel rest Hf. rewrite app_length in Hf. simpl in Hf. rewrite !app_length in Hf. simpl in Hf. destruct fuel as [|fuel]; [lia|].
    rewrite <- app_assoc. cbn [parse_pairs app]. rewrite scan_str_escape; [|assumption|rewrite app_length; simpl; lia].
    rewrite skip_ws_nonws by reflexivity. cbn [N.eqb c_colon Pos.eqb]. rewrite <- !app_assoc, skip_ws_all by assumption. rewrite (skip_Lays _ _ _ Ht). cbn [app]. rewrite IH; [|lia|apply follow_ws; [exact Hw2|auto]].
    rewrite skip_ws_all by assumption. rewrite skip_ws_nonws by reflexivity. cbn [N.eqb c_rbrace Pos.eqb]. reflexivity.
  - intros k v w t w2 l u Hk Hw Ht IH Hw2 Hu IHu fuel rest Hf.
    rewrite app_length in Hf. simpl in Hf. rewrite !app_length in Hf. simpl in Hf. rewrite !app_length in Hf. simpl in Hf. destruct fuel as [|fuel]; [lia|].
    rewrite <- app_assoc. cbn [parse_pairs app]. rewrite scan_str_escape; [|assumption|rewrite app_length; simpl; lia].
    rewrite skip_ws_nonws by reflexivity. cbn [N.eqb c_colon Pos.eqb]. rewrite <- !app_assoc, skip_ws_all by assumption. rewrite (skip_Lays _ _ _ Ht). cbn [app]. rewrite IH; [|lia|simpl; auto].
    rewrite skip_ws_nonws by reflexivity. cbn [N.eqb c_rbrace c_comma Pos.eqb]. rewrite <- app_assoc, skip_ws_all by assumption. cbn [app]. rewrite skip_ws_nonws by reflexivity. cbn [N.eqb c_quote Pos.eqb]. rewrite IHu by lia. reflexivity.
Qed.
Lemma load_Lays v t w : Lays v t -> all_ws w -> json_load (t ++ w) = Some v.
Proof.
  intros H Hw. unfold json_load. rewrite (skip_Lays _ _ _ H). rewrite (proj1 parse_Lays v t H).
  - assert (E : skip_ws w = []). { rewrite <- (app_nil_r w), skip_ws_all by assumption. reflexivity. } rewrite E. reflexivity.
  - rewrite app_length. lia.
  - destruct w as [|c r]; [exact I|]. simpl. inversion Hw; subst. auto.
Qed.
Lemma line_ws n : all_ws (line n).
Proof. constructor; [reflexivity|]. apply Forall_forall. intros c I. apply repeat_spec in I. subst c. reflexivity. Qed.
Lemma items_lay sep w (f : json -> str) l : all_ws sep -> all_ws w -> l <> [] -> (forall y, In y l -> Lays y (f y)) -> LaysItems l (join ([c_comma] ++ sep) (map f l) ++ w ++ [c_rbrack]).
Proof.
  intros S W. induction l as [|x l IH]; intros N A; [contradiction|]. destruct l as [|y l].
  - cbn [map join]. apply Li_one; [apply A; left; reflexivity|exact W].
  - change (join ([c_comma] ++ sep) (map f (x :: y :: l))) with (f x ++ ([c_comma] ++ sep) ++ join ([c_comma] ++ sep) (map f (y :: l))). rewrite <- !app_assoc. change ([c_comma] ++ ?t) with (c_comma :: t). apply Li_cons; [apply A; left; reflexivity|exact S|]. apply IH; [discriminate|]. intros z I. apply A. right. exact I.
Qed.
Lemma pairs_lay sep w (f : json -> str) l : all_ws sep -> all_ws w -> l <> [] -> (forall k y, In (k, y) l -> json_safe k /\ Lays y (f y)) ->
  exists t, join ([c_comma] ++ sep) (map (fun kv : str * json => dump_str (fst kv) ++ lit ": " ++ f (snd kv)) l) ++ w ++ [c_rbrace] = c_quote :: t /\ LaysPairs l t.
Proof.
  intros S W. induction l as [|[k x] l IH]; intros N A; [contradiction|]. destruct (A k x (or_introl eq_refl)) as [A1 A2]. destruct l as [|y l].
  - eexists. split; [|apply (Lp_one k x (lit " ") (f x) w A1); [repeat constructor|exact A2|exact W]]. cbn [map join fst snd]. unfold dump_str. rewrite <- !app_assoc. reflexivity.
  - destruct IH as (t & E & P); [discriminate|intros k' z I; apply A; right; exact I|].
    eexists. split; [|apply (Lp_cons k x (lit " ") (f x) sep (y :: l) t A1); [repeat constructor|exact A2|exact S|exact P]].
    change (join ([c_comma] ++ sep) (map (fun kv : str * json => dump_str (fst kv) ++ lit ": " ++ f (snd kv)) ((k, x) :: y :: l))) with ((dump_str k ++ lit ": " ++ f x) ++ ([c_comma] ++ sep) ++ join ([c_comma] ++ sep) (map (fun kv : str * json => dump_str (fst kv) ++ lit ": " ++ f (snd kv)) (y :: l))).
    rewrite <- !app_assoc. rewrite E. unfold dump_str. rewrite <- !app_assoc. reflexivity.
Qed.
Lemma pretty_lays d : forall v n, (depth v <= d)%nat -> json_ok v -> Lays v (pretty n v).
Proof.
  induction d as [|d IH]; intros v n D OK; destruct v as [|b|raw|s|l|l]; try (apply L_flat; [apply (dump_Prints _ OK)|discriminate|discriminate]); try (cbn [depth] in D; lia).
  - destruct l as [|x l]; [apply L_list_nil|]. apply ok_list in OK. rewrite Forall_forall in OK. change (pretty n (JList (x :: l))) with (c_lbrack :: line (S n) ++ join ([c_comma] ++ line (S n)) (map (pretty (S n)) (x :: l)) ++ line n ++ [c_rbrack]). apply L_list; [apply line_ws|].
    apply items_lay; [apply line_ws|apply line_ws|discriminate|]. intros y I. apply IH; [|exact (OK y I)]. pose proof (depth_list _ _ I). lia.
  - destruct l as [|x l]; [apply L_obj_nil|]. apply ok_obj in OK. rewrite Forall_forall in OK. change (pretty n (JObj (x :: l))) with (c_lbrace :: line (S n) ++ join ([c_comma] ++ line (S n)) (map (fun kv : str * json => dump_str (fst kv) ++ lit ": " ++ pretty (S n) (snd kv)) (x :: l)) ++ line n ++ [c_rbrace]).
    destruct (pairs_lay (line (S n)) (line n) (pretty (S n)) (x :: l) (line_ws _) (line_ws _)) as (t & E & P); [discriminate| |].
    + intros k y I. destruct (OK _ I) as [A B]. split; [exact A|]. apply IH; [|exact B]. pose proof (depth_obj _ _ _ I). lia.
    + rewrite E. apply L_obj; [apply line_ws|exact P].
Qed.
Theorem load_pretty v n w : json_ok v -> all_ws w -> json_load (pretty n v ++ w) = Some v.
Proof. intros OK W. apply load_Lays; [|exact W]. apply (pretty_lays (depth v)); [lia|exact OK]. Qed.
