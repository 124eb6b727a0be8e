(** images.json: scanning and building. *)
From Verif Require Import Base Graph Json JsonProofs JsonReads PyStr PyPath PyNorm Handlers Html OutlineData ImgSize ImgSettings ImgExport ImgExportSpec ImgCommand ImgCommandSpec ImgPage ImgPageProofs ImgPageMain Glue GlueSpec GlueJson GlueProofs.
From Coq Require Import String ZArith NArith QArith Bool List Lia Permutation.
Import ListNotations.
Open Scope list_scope.
Open Scope Z_scope.

Definition told (r : report) : str * metadata target * Handlers.built := (r_name r, r_meta r, r_built r).
Section Steps.
Context (scan_one : command -> fs -> res (scanned * fs)) (export_one : command -> fs -> res (metadata target * Handlers.built * fs)).
Lemma export_all_sound l : forall f ms f', export_all export_one l f = Ret (ms, f') -> exists rs, carried export_one f l f' rs /\ ms = map told rs.
Proof.
  induction l as [|[name v] l IH]; intros f ms f' H; cbn [export_all] in H; [injection H as <- <-; exists []; split; [constructor|reflexivity]|]. destruct (command_of v) as [c|] eqn:C; [|discriminate]. destruct (export_one c f) as [[[m b] f1]|] eqn:E; [|discriminate]. destruct (export_all export_one l f1) as [[ms1 f2]|] eqn:A; [|discriminate]. injection H as <- <-.
  apply command_of_stands in C. destruct C as [C L]. apply IH in A. destruct A as (rs & A & ->). eexists. split; [econstructor; eassumption|reflexivity].
Qed.
Lemma export_all_complete f l f' rs : carried export_one f l f' rs -> export_all export_one l f = Ret (map told rs, f').
Proof. induction 1 as [f|name v c m b f f1 l f' rs C L E _ IH]; [reflexivity|]. cbn [export_all]. rewrite (stands_command_of _ _ C L), E, IH. reflexivity. Qed.
Lemma scan_all_sound l : forall f ss f', scan_all scan_one l f = Ret (ss, f') -> surveys scan_one f l f' ss.
Proof.
  induction l as [|[name v] l IH]; intros f ms f' H; cbn [scan_all] in H; [injection H as <- <-; constructor|]. destruct (command_of v) as [c|] eqn:C; [|discriminate]. destruct (scan_one c f) as [[s f1]|] eqn:E; [|discriminate]. destruct (scan_all scan_one l f1) as [[ms1 f2]|] eqn:A; [|discriminate]. injection H as <- <-.
  apply command_of_stands in C. destruct C as [C L]. apply IH in A. econstructor; eassumption.
Qed.
Lemma scan_all_complete f l f' ss : surveys scan_one f l f' ss -> scan_all scan_one l f = Ret (ss, f').
Proof. induction 1 as [f|name v c s f f1 l f' ss C L E _ IH]; [reflexivity|]. cbn [scan_all]. rewrite (stands_command_of _ _ C L), E, IH. reflexivity. Qed.
Lemma carried_names f l f' rs : carried export_one f l f' rs -> map r_name rs = map fst l.
Proof. induction 1 as [f|name v c m b f f1 l f' rs C L E _ IH]; [reflexivity|]. cbn [map r_name fst]. rewrite IH. reflexivity. Qed.
End Steps.
Lemma gather_union ls : union ls (gather ls). Proof. exact (adds_union ls). Qed.

(** * Paths *)
Lemma handled rel : glue_skips (lit "src/public/" ++ rel ++ lit ".images.json") = false.
Proof.
  unfold glue_skips, glue_handles. replace (starts_with (join2 (lit "src") (lit "public")) (lit "src/public/" ++ rel ++ lit ".images.json")) with true by reflexivity. rewrite app_assoc.
  replace (ends_with (lit ".images.json") _) with true by (symmetry; apply ends_with_iff; exists (lit "src/public/" ++ rel); reflexivity). cbn [andb orb negb].
  destruct (ends_with (lit ".images.js") _) eqn:E; [|reflexivity]. apply ends_with_iff in E. destruct E as [q E]. exfalso. apply (f_equal (@rev N)) in E. rewrite !rev_app_distr in E. discriminate E.
Qed.
Lemma skipped p : ends_with (lit ".images.js") p = true -> glue_skips p = true.
Proof. unfold glue_skips. intros ->. apply orb_true_r. Qed.
Lemma name_of_rel rel : name_of (lit "src/public/" ++ rel ++ lit ".images.json") = rel ++ lit ".images.js".
Proof.
  unfold name_of. change (skipn 11 (lit "src/public/" ++ rel ++ lit ".images.json")) with (rel ++ lit ".images.json"). cbv zeta. f_equal. rewrite app_length. change (length (lit ".images.json")) with 12%nat. replace (length rel + 12 - 12)%nat with (length rel) by lia. rewrite firstn_app, Nat.sub_diag, firstn_all, firstn_O. apply app_nil_r.
Qed.
Lemma join2_rel a b : starts_with (lit "/") b = false -> a <> [] -> last a 0%N <> 47%N -> join2 a b = a ++ 47%N :: b.
Proof.
  intros B A L. unfold join2. destruct b as [|c b].
  - destruct a as [|x a]; [contradiction|]. destruct (last (x :: a) 0 =? 47)%N eqn:E; [apply N.eqb_eq in E; contradiction|reflexivity].
  - destruct (N.eqb c 47) eqn:E; [apply N.eqb_eq in E; subst c; discriminate B|]. destruct a as [|x a]; [contradiction|]. destruct (last (x :: a) 0 =? 47)%N eqn:F; [apply N.eqb_eq in F; contradiction|reflexivity].
Qed.
Lemma module_path_rel rel : starts_with (lit "/") rel = false -> module_path (lit "src/public/" ++ rel ++ lit ".images.json") = lit "out/www/" ++ rel ++ lit ".images.js".
Proof.
  intros R. unfold module_path, join_path. cbn [fold_left]. rewrite name_of_rel. change (join2 (lit "out") (lit "www")) with (lit "out/www"). rewrite join2_rel; [reflexivity| |discriminate|discriminate]. destruct rel as [|c rel]; [reflexivity|]. destruct (starts_with (lit "/") ((c :: rel) ++ lit ".images.js")) eqn:E; [|reflexivity]. apply starts_with_iff in E. destruct E as [r E]. injection E as -> _. discriminate R.
Qed.

(** * The handler *)
Lemma longer (a b : str) : b <> [] -> a ++ b <> a.
Proof. intros B X. apply (f_equal (@length N)) in X. rewrite app_length in X. destruct b; [contradiction|]. cbn [length] in X. lia. Qed.
Lemma dmem_dset_other (k k' : str) (d : str) (f : fs) : k <> k' -> dmem k (dset k' d f) = dmem k f.
Proof. intros N. unfold dmem. rewrite dget_dset_other by congruence. reflexivity. Qed.
Section Handler.
Context (num : str -> Q) (dims : str -> res (option (Z * Z))) (sha : str -> str).
Context (scan_one : command -> fs -> res (scanned * fs)) (export_one : command -> fs -> res (metadata target * Handlers.built * fs)).
Context (auto : bool) (text : str) (in_cwd : str -> bool).
Notation scan := (glue_scan num dims scan_one auto text in_cwd).
Notation build := (glue_build num dims sha export_one).
Lemma read_some p f l : glue_read num dims p f = Ret (Some l) <-> exists s v, dget p f = Some s /\ json_load s = Some v /\ jnorm v = JObj l /\ Forall (fun x => acceptable num dims f (snd x)) l.
Proof.
  unfold glue_read. split.
  - destruct (dget p f) as [s|]; [|discriminate]. destruct (json_load s) as [v|] eqn:V; [|discriminate]. cbn [option_map]. destruct (check_json num dims (jnorm v) f) as [[|]|] eqn:C; [| |discriminate]; (destruct (jnorm v) as [| | | | |l'] eqn:J; try discriminate). intros H. injection H as ->. apply check_json_iff in C. destruct C as (l2 & E & C). injection E as <-. exists s, v. auto.
  - intros (s & v & -> & V & J & A). rewrite V. cbn [option_map]. rewrite J. rewrite (proj2 (check_json_iff num dims (JObj l) f)); [reflexivity|]. exists l. auto.
Qed.
Lemma read_refused p f s v : (forall image e, dims image <> Raise e) -> dget p f = Some s -> json_load s = Some v -> (forall l k d, jnorm v = JObj l -> In (k, JObj d) l -> dget (lit "crop_settings") d = None) ->
  (forall l, jnorm v = JObj l -> ~ Forall (fun x => acceptable num dims f (snd x)) l) -> glue_read num dims p f = Ret None.
Proof.
  intros D E V N A. unfold glue_read. rewrite E, V. cbn [option_map]. destruct (check_json_total num dims (jnorm v) f D N) as [b B]. rewrite B. destruct b; [|reflexivity]. apply check_json_iff in B. destruct B as (l & J & B). exfalso. exact (A l J B).
Qed.
Lemma out_hash rel : hash_target (lit "out/www/" ++ rel) = Some (lit "out/www/" ++ rel ++ lit ".hash").
Proof. reflexivity. Qed.

Theorem build_sound rel f b f2 l : starts_with (lit "/") rel = false -> let p := lit "src/public/" ++ rel ++ lit ".images.json" in let out := lit "out/www/" ++ rel ++ lit ".images.js" in
  glue_read num dims p f = Ret (Some l) -> build p f = Ret (b, f2) ->
  exists f1 rs, carried export_one f l f1 rs /\ dget out f2 = Some (module_text (map fst (map told rs))) /\
    dget (out ++ lit ".hash") f2 = match dget (out ++ lit ".hash") f1 with Some h => Some h | None => Some (sha (module_text (map fst (map told rs)))) end /\
    (forall q, q <> out -> q <> out ++ lit ".hash" -> dget q f2 = dget q f1) /\
    union (map (fun r => children (r_built r)) rs) (children b) /\
    (forall q, In q (produced b) <-> q = out \/ q = out ++ lit ".hash" /\ dget q f1 = None \/ exists r, In r rs /\ In q (produced (r_built r))) /\
    (forall q, In q (reused b) <-> q = out ++ lit ".hash" /\ dget q f1 <> None \/ exists r, In r rs /\ In q (reused (r_built r))) /\ NoDup (produced b) /\ NoDup (reused b).
Proof using num dims sha export_one.
  intros R p out G B. unfold glue_build in B. rewrite (handled rel : glue_skips p = false), G in B. destruct (export_all export_one l f) as [[ms f1]|] eqn:E; [|discriminate]. apply export_all_sound in E. destruct E as (rs & E & ->).
  assert (M : module_path p = out) by (apply module_path_rel; exact R). rewrite M in B. exists f1, rs. split; [exact E|].
  set (t := module_text (map fst (map told rs))) in *. unfold hash_build in B. assert (HT : hash_target out = Some (out ++ lit ".hash")) by (unfold out; rewrite out_hash; rewrite <- !app_assoc; reflexivity). rewrite HT in B. cbn [build_target] in B.
  assert (Nh : out ++ lit ".hash" <> out) by (apply longer; discriminate). rewrite (dmem_dset_other _ _ _ _ Nh) in B.
  clearbody out t. pose proof (gather_union (map children (map snd (map told rs)) ++ [[]])) as UC.
  assert (C : forall cs, union (map children (map snd (map told rs)) ++ [[]]) cs -> union (map (fun r => children (r_built r)) rs) cs).
  { intros cs [A1 A2]. split; [exact A1|]. intros x. rewrite A2, !map_map. cbn [told snd]. split; intros (k & K & X).
    - apply in_app_or in K. destruct K as [K|[<-|[]]]; [exists k; auto|destruct X].
    - exists k. split; [apply in_or_app; left; exact K|exact X]. }
  assert (P : forall (F : Handlers.built -> list str) (extra : list (list str)) q, In q (gather (map F (map snd (map told rs)) ++ extra)) <-> (exists k, In k extra /\ In q k) \/ exists r, In r rs /\ In q (F (r_built r))).
  { intros F extra q. rewrite (proj2 (gather_union _) q), !map_map. cbn [told snd]. split.
    - intros (k & K & X). apply in_app_or in K. destruct K as [K|K]; [right; apply in_map_iff in K; destruct K as (r & <- & K); exists r; auto|left; exists k; auto].
    - intros [(k & K & X)|(r & K & X)]; [exists k; split; [apply in_or_app; right; exact K|exact X]|]. exists (F (r_built r)). split; [apply in_or_app; left; apply in_map_iff; exists r; auto|exact X]. }
  unfold dmem in B. destruct (dget (out ++ lit ".hash") f1) as [h|] eqn:H.
  - injection B as <- <-. cbn [children produced reused]. split; [apply dget_dset_same|]. split; [rewrite dget_dset_other by congruence; exact H|]. split; [intros q Q1 Q2; apply dget_dset_other; congruence|]. split; [apply C; exact UC|]. split; [|split; [|split; apply gather_union]].
    + intros q. rewrite P. split.
      * intros [(k & [<-|[<-|[]]] & X)|X]; [destruct X as [<-|[]]; left; reflexivity|destruct X|right; right; exact X].
      * intros [-> |[[-> X]|X]]; [left; exists [out]; split; [left; reflexivity|left; reflexivity]|congruence|right; exact X].
    + intros q. rewrite P. split.
      * intros [(k & [<-|[]] & X)|X]; [destruct X as [<-|[]]; left; split; [reflexivity|congruence]|right; exact X].
      * intros [[-> X]|X]; [left; eexists; split; [left; reflexivity|left; reflexivity]|right; exact X].
  - rewrite dget_dset_same in B. injection B as <- <-. cbn [children produced reused]. split; [rewrite dget_dset_other by congruence; apply dget_dset_same|]. split; [apply dget_dset_same|]. split; [intros q Q1 Q2; rewrite dget_dset_other by congruence; apply dget_dset_other; congruence|]. split; [apply C; exact UC|]. split; [|split; [|split; apply gather_union]].
    + intros q. rewrite P. split.
      * intros [(k & [<-|[<-|[]]] & X)|X]; [destruct X as [<-|[]]; left; reflexivity|destruct X as [<-|[]]; right; left; split; [reflexivity|exact H]|right; right; exact X].
      * intros [-> |[[-> X]|X]]; [left; exists [out]; split; [left; reflexivity|left; reflexivity]|left; eexists; split; [right; left; reflexivity|left; reflexivity]|right; exact X].
    + intros q. rewrite P. split.
      * intros [(k & [<-|[]] & X)|X]; [destruct X|right; exact X].
      * intros [[-> X]|X]; [congruence|right; exact X].
Qed.
Theorem build_complete rel f f1 l rs : let p := lit "src/public/" ++ rel ++ lit ".images.json" in glue_read num dims p f = Ret (Some l) -> carried export_one f l f1 rs -> exists b f2, build p f = Ret (b, f2).
Proof.
  intros p G E. unfold glue_build. rewrite (handled rel : glue_skips p = false), G, (export_all_complete _ _ _ _ _ E). unfold hash_build. destruct (hash_target (module_path p)) as [h|]; cbn [build_target]; [|eexists; eexists; reflexivity]. destruct (dmem h _); [eexists; eexists; reflexivity|]. rewrite dget_dset_same. eexists. eexists. reflexivity.
Qed.
Theorem scan_iff rel f sc ph f1 l : starts_with (lit "/") rel = false -> let p := lit "src/public/" ++ rel ++ lit ".images.json" in let out := lit "out/www/" ++ rel ++ lit ".images.js" in
  glue_read num dims p f = Ret (Some l) -> scan p f = Ret (sc, ph, f1) ->
  exists ss, surveys scan_one f l f1 ss /\ union (map dependencies ss) (dependencies sc) /\ union ([out; out ++ lit ".hash"] :: map produces ss) (produces sc) /\
    ph = (if auto && negb (in_cwd (lit "src/public/" ++ rel ++ lit ".images.js")) then [(lit "src/public/" ++ rel ++ lit ".images.js", text)] else []).
Proof using num dims scan_one auto text in_cwd.
  intros R p out G B. unfold glue_scan in B. rewrite (handled rel : glue_skips p = false), G in B. destruct (scan_all scan_one l f) as [[ss f']|] eqn:E; [|discriminate]. apply scan_all_sound in E.
  assert (M : module_path p = out) by (apply module_path_rel; exact R). rewrite M in B. unfold hash_scan in B. assert (HT : hash_target out = Some (out ++ lit ".hash")) by (unfold out; rewrite out_hash; rewrite <- !app_assoc; reflexivity). rewrite HT in B. cbn [scan_target dependencies produces] in B.
  assert (PH : placeholder_of p = lit "src/public/" ++ rel ++ lit ".images.js"). { unfold placeholder_of, join_path. cbn [fold_left]. rewrite (name_of_rel rel : name_of p = _). change (join2 (lit "src") (lit "public")) with (lit "src/public"). rewrite join2_rel; [reflexivity| |discriminate|discriminate]. destruct rel as [|c rel']; [reflexivity|]. destruct (starts_with (lit "/") ((c :: rel') ++ lit ".images.js")) eqn:S; [|reflexivity]. apply starts_with_iff in S. destruct S as [r S]. injection S as -> _. discriminate R. }
  clearbody out. rewrite PH in B. injection B as <- <- <-. exists ss. split; [exact E|]. cbn [dependencies produces]. split; [|split; [|reflexivity]].
  - destruct (gather_union (map dependencies ss ++ [[]])) as [A1 A2]. split; [exact A1|]. intros x. rewrite A2. split; intros (k & K & X).
    + apply in_app_or in K. destruct K as [K|[<-|[]]]; [exists k; auto|destruct X].
    + exists k. split; [apply in_or_app; left; exact K|exact X].
  - destruct (gather_union ([out] :: map produces ss ++ [[out ++ lit ".hash"]])) as [A1 A2]. split; [exact A1|]. intros x. rewrite A2. split; intros (k & K & X).
    + destruct K as [<-|K]; [exists [out; out ++ lit ".hash"]; split; [left; reflexivity|destruct X as [<-|[]]; left; reflexivity]|]. apply in_app_or in K. destruct K as [K|[<-|[]]]; [exists k; split; [right; exact K|exact X]|]. exists [out; out ++ lit ".hash"]. split; [left; reflexivity|destruct X as [<-|[]]; right; left; reflexivity].
    + destruct K as [<-|K]; [|exists k; split; [right; apply in_or_app; left; exact K|exact X]]. destruct X as [<-|[<-|[]]]; [exists [out]; split; [left; reflexivity|left; reflexivity]|]. eexists. split; [right; apply in_or_app; right; left; reflexivity|left; reflexivity].
Qed.
Theorem scan_complete rel f f1 l ss : let p := lit "src/public/" ++ rel ++ lit ".images.json" in glue_read num dims p f = Ret (Some l) -> surveys scan_one f l f1 ss -> exists sc ph, scan p f = Ret (sc, ph, f1).
Proof. intros p G E. unfold glue_scan. rewrite (handled rel : glue_skips p = false), G, (scan_all_complete _ _ _ _ _ E). eexists. eexists. reflexivity. Qed.
Theorem nothing p f : glue_read num dims p f = Ret None \/ ends_with (lit ".images.js") p = true -> scan p f = Ret ({| dependencies := []; produces := [] |}, [], f) /\ build p f = Ret ({| children := []; produced := []; reused := [] |}, f).
Proof. intros H. unfold glue_scan, glue_build. destruct (glue_skips p) eqn:S; [split; reflexivity|]. destruct H as [-> |H]; [split; reflexivity|]. apply skipped in H. congruence. Qed.
Theorem unreadable rel f s : let p := lit "src/public/" ++ rel ++ lit ".images.json" in dget p f = Some s -> json_load s = None -> scan p f = Raise ValueError /\ build p f = Raise ValueError.
Proof. intros p D J. unfold glue_scan, glue_build. rewrite (handled rel : glue_skips p = false). unfold glue_read. rewrite D, J. split; reflexivity. Qed.
End Handler.
