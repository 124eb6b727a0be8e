(** Proofs about the image commands of a page. *)
From Verif Require Import Base Graph Json JsonProofs PyStr PyPath Handlers Html OutlineData IconManipProofs ImgSize ImgSettings ImgExport ImgExportSpec ImgExportProofs ImgExportRun ImgExportMain ImgBuildSpec.
From Coq Require Import String ZArith NArith Bool List Lia Permutation.
Import ListNotations.
Open Scope list_scope.
Open Scope Z_scope.

(** * Paths *)
Lemma last_app {A} (a b : list A) d : b <> [] -> last (a ++ b) d = last b d.
Proof. intros N. induction a as [|x a IH]; [reflexivity|]. cbn [app]. destruct (a ++ b) eqn:E; [destruct a; [contradiction|discriminate E]|]. cbn [last]. exact IH. Qed.
Lemma digital_last s : digital s -> last s 0%N <> 47%N.
Proof. intros D. induction D as [|c r H D IH]; [discriminate|]. destruct r; [cbn [last]; intros ->; discriminate H|exact IH]. Qed.
Section Paths.
Context (rel : str) (id : Z) (U : usable rel) (I : 0 < id).
Notation root := (splitext_root rel).
Lemma id_rel : relative (print_Z id).
Proof using I. destruct (print_pos id I) as [_ (c & r & E & D)]. exists c, r. split; [exact E|]. intros ->. discriminate D. Qed.
Lemma id_last : last (print_Z id) 0%N <> 47%N. Proof using I. apply digital_last. apply print_pos. exact I. Qed.
Lemma id_nil : print_Z id <> []. Proof using I. destruct id_rel as (c & r & E & _). rewrite E. discriminate. Qed.
Lemma root_nil : root <> []. Proof using U. destruct U as [(c & r & E & _) _]. rewrite E. discriminate. Qed.
Lemma art_path : target_art rel id = lit "artifacts/" ++ root ++ lit "/" ++ print_Z id.
Proof using U I.
  unfold target_art, source_art. rewrite (join2_file (lit "artifacts") root); [|discriminate|discriminate|exact (proj1 U)]. rewrite join2_file; [|discriminate| |exact id_rel].
  - rewrite <- !app_assoc. reflexivity.
  - rewrite app_assoc, last_app by exact root_nil. exact (proj2 U).
Qed.
Lemma out_path : target_out rel id = lit "out/www/" ++ root ++ lit "/" ++ print_Z id.
Proof using U I.
  unfold target_out, join_path. cbn [fold_left]. rewrite (join2_file (lit "out") (lit "www")); [|discriminate|discriminate|eexists; eexists; split; [reflexivity|discriminate]]. rewrite (join2_file _ root); [|discriminate|discriminate|exact (proj1 U)]. rewrite join2_file; [|discriminate| |exact id_rel].
  - rewrite <- !app_assoc. reflexivity.
  - rewrite app_assoc, last_app by exact root_nil. exact (proj2 U).
Qed.
Lemma sub_path : join2 root (print_Z id) = root ++ lit "/" ++ print_Z id.
Proof using U I. apply join2_file; [exact root_nil|exact (proj2 U)|exact id_rel]. Qed.
Lemma apart_paths : apart (target_art rel id) (target_out rel id).
Proof using U I. rewrite art_path, out_path. split; reflexivity. Qed.
Section File.
Context (w h : Z) (n : str) (W : 0 < w).
Notation addr := (address rel id w h n).
Lemma addr_eq : addr = root ++ lit "/" ++ print_Z id ++ lit "/" ++ final_name w h n. Proof using. reflexivity. Qed.
Lemma sub_file : join2 (join2 root (print_Z id)) (final_name w h n) = addr.
Proof using U I W.
  rewrite sub_path, join2_file; [rewrite addr_eq, <- !app_assoc; reflexivity| | |exact (final_rel w h n W)].
  - intros X. apply app_eq_nil in X. destruct X as [_ X]. discriminate X.
  - rewrite app_assoc, last_app by exact id_nil. exact id_last.
Qed.
Lemma art_file : kept_file (target_art rel id) w h n = lit "artifacts/" ++ addr.
Proof using U I W.
  unfold kept_file. rewrite art_path, join2_file; [rewrite addr_eq, <- !app_assoc; reflexivity|discriminate| |exact (final_rel w h n W)].
  rewrite !app_assoc, last_app by exact id_nil. exact id_last.
Qed.
Lemma out_file : kept_file (target_out rel id) w h n = lit "out/www/" ++ addr.
Proof using U I W.
  unfold kept_file. rewrite out_path, join2_file; [rewrite addr_eq, <- !app_assoc; reflexivity|discriminate| |exact (final_rel w h n W)].
  rewrite !app_assoc, last_app by exact id_nil. exact id_last.
Qed.
Lemma addr_rel : exists c r, addr = c :: r /\ c <> 47%N.
Proof using U. destruct U as [(c & r & E & N) _]. rewrite addr_eq, E. exists c. eexists. split; [reflexivity|exact N]. Qed.
Lemma art_addr : join2 (lit "artifacts") addr = lit "artifacts/" ++ addr.
Proof using U. rewrite join2_file; [reflexivity|discriminate|discriminate|exact addr_rel]. Qed.
Lemma out_addr : join_path (lit "out") [lit "www"; addr] = lit "out/www/" ++ addr.
Proof using U. unfold join_path. cbn [fold_left]. rewrite (join2_file (lit "out") (lit "www")); [|discriminate|discriminate|eexists; eexists; split; [reflexivity|discriminate]]. rewrite join2_file; [reflexivity|discriminate|discriminate|exact addr_rel]. Qed.
End File.
End Paths.

(** * Reading a srcset *)
Lemma upto_app p a c r : forallb (fun x => negb (p x)) a = true -> p c = true -> upto p (a ++ c :: r) = (a, c :: r).
Proof. intros F C. induction a as [|x a IH]; cbn [app upto]; [rewrite C; reflexivity|]. cbn [forallb] in F. apply andb_prop in F. destruct F as [F1 F2]. apply negb_true_iff in F1. rewrite F1, (IH F2). reflexivity. Qed.
Lemma upto_end p a : forallb (fun x => negb (p x)) a = true -> upto p a = (a, []).
Proof. intros F. induction a as [|x a IH]; cbn [upto]; [reflexivity|]. cbn [forallb] in F. apply andb_prop in F. destruct F as [F1 F2]. apply negb_true_iff in F1. rewrite F1, (IH F2). reflexivity. Qed.
Lemma skip_none p c r : p c = false -> skip p (c :: r) = c :: r. Proof. intros C. cbn. rewrite C. reflexivity. Qed.
Lemma digit_plain c : is_digit c = true -> blank c = false /\ comma c = false.
Proof. unfold is_digit, blank, comma. intros D. apply andb_prop in D. destruct D as [A B]. apply N.leb_le in A, B. split; [|apply N.eqb_neq; lia]. repeat (apply orb_false_iff; split); apply N.eqb_neq; lia. Qed.
(** an entry: an address after a slash, and a width *)
Definition entry_ok (e : str * Z) : Prop := forallb (fun c => negb (blank c)) (fst e) = true /\ comma (last (fst e) 0%N) = false /\ 0 < snd e.
Definition entry_text (e : str * Z) : str := lit "/" ++ fst e ++ lit " " ++ print_Z (snd e) ++ lit "w".
Definition width_text (e : str * Z) : str := print_Z (snd e) ++ lit "w".
Lemma width_plain p z : (forall c, is_digit c = true -> p c = false) -> p 119%N = false -> 0 < z -> forallb (fun x => negb (p x)) (print_Z z ++ lit "w") = true.
Proof.
  intros H W P. rewrite forallb_app. apply andb_true_iff. split; [|change (lit "w") with [119%N]; cbn [forallb]; rewrite W; reflexivity]. destruct (print_pos z P) as [D _]. clear P. induction D as [|c r C D IH]; [reflexivity|]. cbn [forallb]. rewrite (H c C), IH. reflexivity.
Qed.
Lemma read_nil k : read_srcset k [] = []. Proof. destruct k; reflexivity. Qed.
Lemma read_entry e k r : entry_ok e -> read_srcset (S k) (entry_text e ++ lit ", " ++ r) = (lit "/" ++ fst e, width_text e) :: read_srcset k (lit ", " ++ r).
Proof.
  intros (B & C & P).
  assert (X : entry_text e ++ lit ", " ++ r = (47%N :: fst e) ++ 32%N :: ((print_Z (snd e) ++ lit "w") ++ 44%N :: 32%N :: r)).
  { unfold entry_text. change (lit "/") with [47%N]. change (lit " ") with [32%N]. change (lit ", ") with [44%N; 32%N]. rewrite <- !app_assoc. reflexivity. }
  rewrite X. cbn [read_srcset]. rewrite <- app_comm_cons. rewrite skip_none by reflexivity. rewrite app_comm_cons.
  rewrite (upto_app blank (47%N :: fst e)) by (cbn [forallb]; try rewrite B; reflexivity).
  assert (L : comma (last (47%N :: fst e) 0%N) = false) by (destruct (fst e); [reflexivity|exact C]). rewrite L.
  change (32%N :: (print_Z (snd e) ++ lit "w") ++ 44%N :: 32%N :: r) with ((32%N :: (print_Z (snd e) ++ lit "w")) ++ 44%N :: 32%N :: r).
  rewrite upto_app; [|cbn [forallb]; rewrite width_plain; [reflexivity|intros c D; apply digit_plain; exact D|reflexivity|exact P]|reflexivity].
  f_equal. f_equal. unfold trim, width_text. cbn [skip blank N.eqb Pos.eqb orb]. destruct (print_pos (snd e) P) as [_ (c & r' & E & D)]. rewrite E. cbn [app]. rewrite skip_none by (apply digit_plain; exact D). change (c :: r' ++ lit "w") with ((c :: r') ++ lit "w"). rewrite rev_app_distr. cbn [rev lit app]. change (rev (lit "w")) with [119%N]. cbn [app]. rewrite skip_none by reflexivity. change (119%N :: rev r' ++ [c]) with ([119%N] ++ rev (c :: r')). rewrite rev_app_distr, rev_involutive. reflexivity.
Qed.
Lemma read_last e k : entry_ok e -> read_srcset (S k) (entry_text e) = [(lit "/" ++ fst e, width_text e)].
Proof.
  intros (B & C & P). cbn [read_srcset]. unfold entry_text. change (lit "/") with [47%N]. change (lit " ") with [32%N]. cbn [app]. rewrite skip_none by reflexivity.
  change (47%N :: fst e ++ 32%N :: print_Z (snd e) ++ lit "w") with ((47%N :: fst e) ++ 32%N :: (print_Z (snd e) ++ lit "w")).
  rewrite (upto_app blank (47%N :: fst e)) by (cbn [forallb]; try rewrite B; reflexivity).
  assert (L : comma (last (47%N :: fst e) 0%N) = false) by (destruct (fst e); [reflexivity|exact C]). rewrite L.
  rewrite upto_end; [|cbn [forallb]; rewrite width_plain; [reflexivity|intros c D; apply digit_plain; exact D|reflexivity|exact P]].
  rewrite read_nil. f_equal. f_equal. unfold trim, width_text. cbn [skip blank N.eqb Pos.eqb orb]. destruct (print_pos (snd e) P) as [_ (c & r' & E & D)]. rewrite E. cbn [app]. rewrite skip_none by (apply digit_plain; exact D). change (c :: r' ++ lit "w") with ((c :: r') ++ lit "w"). rewrite rev_app_distr. change (rev (lit "w")) with [119%N]. cbn [app]. rewrite skip_none by reflexivity. change (119%N :: rev (c :: r')) with ([119%N] ++ rev (c :: r')). rewrite rev_app_distr, rev_involutive. reflexivity.
Qed.
Lemma read_sep k r : read_srcset (S k) (lit ", " ++ r) = read_srcset (S k) r.
Proof. reflexivity. Qed.
Lemma read_all l : Forall entry_ok l -> forall k, (length l <= k)%nat -> read_srcset k (join (lit ", ") (map entry_text l)) = map (fun e => (lit "/" ++ fst e, width_text e)) l.
Proof.
  induction 1 as [|e l E F IH]; intros k K; [apply read_nil|]. cbn [length] in K. destruct k as [|k]; [lia|]. destruct l as [|e' l].
  - cbn [map join]. exact (read_last e k E).
  - change (join (lit ", ") (map entry_text (e :: e' :: l))) with (entry_text e ++ lit ", " ++ join (lit ", ") (map entry_text (e' :: l))). rewrite (read_entry e k _ E). cbn [map]. f_equal. cbn [length] in K. destruct k as [|k]; [lia|]. rewrite read_sep. apply IH. cbn [length]. lia.
Qed.
Lemma joined_length (l : list (str * Z)) : (length l <= S (length (join (lit ", ") (map entry_text l))))%nat.
Proof.
  induction l as [|e l IH]; [cbn; lia|]. destruct l as [|e' l]; [cbn; lia|]. change (join (lit ", ") (map entry_text (e :: e' :: l))) with (entry_text e ++ lit ", " ++ join (lit ", ") (map entry_text (e' :: l))). rewrite !app_length. cbn [length] in *. change (length (lit ", ")) with 2%nat. lia.
Qed.
Lemma candidates_ok l : Forall entry_ok l -> candidates (join (lit ", ") (map entry_text l)) = map (fun e => (lit "/" ++ fst e, width_text e)) l.
Proof. intros F. apply read_all; [exact F|]. apply joined_length. Qed.
