(** The theorems about exported images. *)
From Verif Require Import Base Graph Json JsonProofs PyPath Handlers ImgSize ImgSettings ImgExport ImgExportSpec ImgExportProofs ImgExportRun.
From Coq Require Import String ZArith NArith Bool List Lia Permutation.
Import ListNotations.
Open Scope list_scope.
Open Scope Z_scope.

Lemma flat_map_ext_in_local {X Y} (g g' : X -> list Y) l : (forall x, In x l -> g x = g' x) -> flat_map g l = flat_map g' l.
Proof. induction l as [|x l IH]; intros H; [reflexivity|]. cbn [flat_map]. rewrite (H x (or_introl eq_refl)), IH; [reflexivity|]. intros y I. apply H. right. exact I. Qed.
Section Main.
Context (symlinks : bool) (encode : Z -> Z -> str -> list (str * kval) -> res str) (art out sub : str) (formats : list (str * image_format)) (order : list job -> list job) (sizes : list (Z * Z)) (produced : list str) (f : fs).
Context (A : apart art out) (G : good_formats formats) (O : any_order order) (S : good_sizes sizes) (W : dict_wf f) (E : encodes encode formats sizes) (Fr : free symlinks out formats sizes f).
Notation result := (export_images symlinks encode art out sub formats order sizes produced f).
Lemma has_served w h name fm : has ((w, h), (name, fm)) = true <-> served fm w h.
Proof using.
  rewrite has_iff. unfold served, tw, th, tf. cbn [fst snd]. split; intros (n & e & I & Ap); exists n, e; (split; [exact I|]); apply applies_iff; exact Ap.
Qed.
Lemma images_done : exists s, result = Ret s.
Proof using A G O S W E Fr. destruct (images_ok symlinks encode art out sub A formats G order O sizes produced f S W E Fr) as (s & R & _). exists s. exact R. Qed.
Lemma images_best s : result = Ret s -> forall w h name fm, In (w, h) sizes -> In (name, fm) formats -> served fm w h ->
  exists n e d, In (n, e) (exports fm) /\ applicable e w h /\ encode w h name (kwargs e) = Ret d /\ dget (kept_file art w h name) (files s) = Some d /\ dget (kept_file out w h name) (files s) = Some d /\
    In {| o_width := w; o_height := h; o_relpath := join2 sub (final_name w h name); o_choice := n |} (recorded name s) /\
    forall n' e' d', In (n', e') (exports fm) -> applicable e' w h -> encode w h name (kwargs e') = Ret d' -> no_worse (unit_size fm) e d e' d'.
Proof using A G O S W E Fr.
  intros R w h name fm I J V. destruct (images_ok symlinks encode art out sub A formats G order O sizes produced f S W E Fr) as (s' & R' & _ & _ & _ & Fi & _). assert (s' = s) by congruence. subst s'.
  rewrite Forall_forall in Fi. assert (K : In ((w, h), (name, fm)) (list_prod sizes formats)) by (apply in_prod; assumption). destruct (Fi _ K (proj2 (has_served w h name fm) V)) as (n & e & d & I1 & I2 & I3 & I4 & I5 & I6 & I7). exists n, e, d.
  split; [exact I1|]. split; [apply applies_iff; exact I2|]. split; [exact I3|]. split; [exact I4|]. split; [exact I5|]. split; [exact I6|]. intros n' e' d' X1 X2 X3. apply (I7 n' e' d'); [exact X1|apply applies_iff; exact X2|exact X3].
Qed.
Lemma images_files s : result = Ret s ->
  (forall w h name fm n e, In (w, h) sizes -> In (name, fm) formats -> In (n, e) (exports fm) -> applicable e w h -> dget (trial_file art w h n name) (files s) = None) /\
  (forall p, (forall w h name fm, In (w, h) sizes -> In (name, fm) formats -> p <> kept_file art w h name /\ p <> kept_file out w h name /\ forall n e, In (n, e) (exports fm) -> p <> trial_file art w h n name) -> dget p (files s) = dget p f).
Proof using A G O S W E Fr.
  intros R. destruct (images_ok symlinks encode art out sub A formats G order O sizes produced f S W E Fr) as (s' & R' & _ & Ot & Cl & _). assert (s' = s) by congruence. subst s'. split.
  - intros w h name fm n e I J K Ap. rewrite Forall_forall in Cl. apply (Cl ((w, h), (name, fm)) (in_prod _ _ _ _ I J) n e K). apply applies_iff. exact Ap.
  - intros p P. apply Ot. intros [[w h] [name fm]] I T. apply in_prod_iff in I. destruct (P w h name fm (proj1 I) (proj2 I)) as (P1 & P2 & P3). destruct T as [[_ [T|T]]|(n & e & K & _ & T)]; [exact (P1 T)|exact (P2 T)|exact (P3 n e K T)].
Qed.
Lemma one_format (name : str) (fm : image_format) w h (x : Z * Z * str) (l : list (str * image_format)) : dict_wf l -> In (name, fm) l ->
  flat_map (fun t : task => if str_eqb (tn t) name && has t then [x] else []) (map (pair (w, h)) l) = if has ((w, h), (name, fm)) then [x] else [].
Proof using.
  clear. intros D I. induction l as [|[a b] l IH]; [destruct I|]. unfold dict_wf in D. cbn [map fst dkeys] in D. inversion D as [|? ? N D']; subst. cbn [map flat_map]. change (tn ((w, h), (a, b))) with a. destruct I as [I|I].
  - injection I as -> ->. rewrite str_eqb_refl. cbn [andb]. assert (X : flat_map (fun t : task => if str_eqb (tn t) name && has t then [x] else []) (map (pair (w, h)) l) = []); [|rewrite X, app_nil_r; reflexivity].
    clear - N. induction l as [|[a b] l IH]; [reflexivity|]. cbn [map flat_map]. change (tn ((w, h), (a, b))) with a. destruct (str_eqb a name) eqn:Y; [apply str_eqb_eq in Y; subst a; exfalso; apply N; left; reflexivity|]. cbn [andb app]. apply IH. intros Z. apply N. right. exact Z.
  - destruct (str_eqb a name) eqn:Y; [apply str_eqb_eq in Y; subst a; exfalso; apply N; apply (in_map fst) in I; exact I|]. cbn [andb app]. apply IH; assumption.
Qed.
Lemma images_listed s : result = Ret s ->
  (forall p, In p (made s) <-> In p produced \/ exists w h name fm, In (w, h) sizes /\ In (name, fm) formats /\ served fm w h /\ (p = kept_file art w h name \/ p = kept_file out w h name)) /\
  (forall name fm keep, In (name, fm) formats -> (forall w h, keep (w, h) = true <-> served fm w h) ->
     map (fun o => (o_width o, o_height o, o_relpath o)) (recorded name s) = map (fun x => (fst x, snd x, join2 sub (final_name (fst x) (snd x) name))) (filter keep sizes)) /\
  (forall name, ~ In name (map fst formats) -> recorded name s = []).
Proof using A G O S W E Fr.
  intros R. destruct (images_ok symlinks encode art out sub A formats G order O sizes produced f S W E Fr) as (s' & R' & _ & _ & _ & _ & M & U). assert (s' = s) by congruence. subst s'. split; [|split].
  - intros p. rewrite M, in_app_iff, in_flat_map. apply or_iff_compat_l. split.
    + intros ([[w h] [name fm]] & I & J). apply in_prod_iff in I. destruct (has (w, h, (name, fm))) eqn:X; [|destruct J]. apply has_served in X. exists w, h, name, fm. split; [apply I|]. split; [apply I|]. split; [exact X|]. destruct J as [J|[J|[]]]; [left|right]; symmetry; exact J.
    + intros (w & h & name & fm & I & J & V & P). exists ((w, h), (name, fm)). split; [apply in_prod; assumption|]. apply has_served with (name := name) in V. rewrite V. destruct P as [->| ->]; [left|right; left]; reflexivity.
  - intros name fm keep I K. change (recorded name s) with (outs name s). rewrite (U name). clear - I K G. induction sizes as [|[w h] l IH]; [reflexivity|]. cbn [list_prod filter]. rewrite flat_map_app.
    assert (X : flat_map (fun t : task => if str_eqb (tn t) name && has t then [(tw t, th t, join2 sub (final_name (tw t) (th t) (tn t)))] else []) (map (pair (w, h)) formats) = if has ((w, h), (name, fm)) then [(w, h, join2 sub (final_name w h name))] else []).
    { rewrite <- (one_format name fm w h _ formats (proj1 G) I). apply flat_map_ext_in_local. intros t T. apply in_map_iff in T. destruct T as ([a b] & <- & _). unfold tw, th, tn. cbn [fst snd]. destruct (str_eqb a name) eqn:Y; [apply str_eqb_eq in Y; subst a; reflexivity|reflexivity]. }
    etransitivity; [apply (f_equal2 (@app _)); [exact X|exact IH]|]. clear X IH. destruct (keep (w, h)) eqn:Kw.
    + apply K in Kw. apply has_served with (name := name) in Kw. rewrite Kw. reflexivity.
    + destruct (has (w, h, (name, fm))) eqn:Hh; [|reflexivity]. apply has_served in Hh. apply K in Hh. congruence.
  - intros name N. change (recorded name s) with (outs name s). pose proof (U name) as V. apply map_eq_nil with (f := fun o => (o_width o, o_height o, o_relpath o)). rewrite V. clear - N. induction sizes as [|[w h] l IH]; [reflexivity|]. cbn [list_prod]. rewrite flat_map_app. etransitivity; [apply (f_equal2 (@app _)); [reflexivity|exact IH]|]. rewrite app_nil_r. clear IH.
    induction formats as [|[a b] r IHf]; [reflexivity|]. cbn [map flat_map]. change (tn ((w, h), (a, b))) with a. destruct (str_eqb a name) eqn:Y; [apply str_eqb_eq in Y; subst a; exfalso; apply N; left; reflexivity|]. cbn [andb app]. apply IHf. intros Z. apply N. right. exact Z.
Qed.
End Main.
