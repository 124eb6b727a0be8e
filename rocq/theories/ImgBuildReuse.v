(** An image that was exported before. *)
From Verif Require Import Base Graph Json JsonProofs PyStr PyPath Handlers Html OutlineData IconManipProofs ImgSize ImgSettings ImgExport ImgExportSpec ImgExportProofs ImgExportRun ImgExportMain ImgBuildSpec ImgBuildProofs ImgBuildMain.
From Coq Require Import String ZArith NArith Bool List Lia Permutation.
Import ListNotations.
Open Scope list_scope.
Open Scope Z_scope.

Definition artf (o : output) : str := join2 (lit "artifacts") (o_relpath o).
Definition outf (o : output) : str := join_path (lit "out") [lit "www"; o_relpath o].
Lemma dmem_dget {A} k (d : list (str * A)) : dmem k d = match dget k d with Some _ => true | None => false end.
Proof. reflexivity. Qed.
Lemma link_new symlinks from to d (f : fs) : dget to f = None -> dget from f = Some d -> link symlinks from to f = Ret (dset to d f).
Proof. intros N D. unfold link. rewrite dmem_dget, N, D. destruct symlinks; reflexivity. Qed.
Lemma reuse_ok symlinks l : forall first p r f, (forall o o', In o l -> In o' l -> outf o <> artf o') -> (forall o o', In o l -> In o' l -> outf o = outf o' -> artf o = artf o') -> (forall o, In o l -> dget (artf o) f <> None) ->
  exists first' p' r' f', reuse_outputs symlinks l first p r f = Ret (first', p ++ p', r ++ r', f') /\
    (forall q, In q p' \/ In q r' <-> exists o, In o l /\ (q = artf o \/ q = outf o)) /\
    (forall q, In q p' -> dget q f = None) /\
    (forall q, (forall o, In o l -> q <> outf o) -> dget q f' = dget q f) /\
    (forall o, In o l -> dget (outf o) f' = match dget (outf o) f with Some d => Some d | None => dget (artf o) f end) /\
    ((forall o, In o l -> dget (outf o) f <> None) -> p' = [] /\ f' = f /\ first' = match l with [] => first | _ => false end).
Proof.
  induction l as [|o l IH]; intros first p r f A B D.
  - exists first, [], [], f. rewrite !app_nil_r. split; [reflexivity|]. split; [intros q; split; [intros [[]|[]]|intros (o & [] & _)]|]. split; [intros q []|]. split; [reflexivity|]. split; [intros o []|]. auto.
  - cbn [reuse_outputs]. change (join2 (lit "artifacts") (o_relpath o)) with (artf o). change (join_path (lit "out") [lit "www"; o_relpath o]) with (outf o).
    assert (A' : forall x y, In x l -> In y l -> outf x <> artf y) by (intros x y I J; apply A; right; assumption). assert (B' : forall x y, In x l -> In y l -> outf x = outf y -> artf x = artf y) by (intros x y I J; apply B; right; assumption). rewrite dmem_dget. destruct (dget (outf o) f) as [d|] eqn:Eo.
    + destruct (IH false p (r ++ [artf o; outf o]) f A' B' (fun x I => D x (or_intror I))) as (f1 & p' & r' & g & E & H1 & H2 & H3 & H4 & H5). exists f1, p', ([artf o; outf o] ++ r'), g. rewrite E, app_assoc. split; [reflexivity|]. split; [|split; [exact H2|split; [intros q Q; apply H3; intros x I; apply Q; right; exact I|split]]].
      * intros q. rewrite in_app_iff. split.
        -- intros [I|[[I|[I|[]]]|I]]; [| | |]; [|exists o; split; [left; reflexivity|left; symmetry; exact I]|exists o; split; [left; reflexivity|right; symmetry; exact I]|]; [destruct (proj1 (H1 q) (or_introl I)) as (x & I1 & I2)|destruct (proj1 (H1 q) (or_intror I)) as (x & I1 & I2)]; exists x; (split; [right; exact I1|exact I2]).
        -- intros (x & [<-|I] & J); [right; left; cbn [In]; destruct J as [->| ->]; auto|]. destruct (proj2 (H1 q) (ex_intro _ x (conj I J))) as [K|K]; auto.
      * intros x [<-|I]; [|exact (H4 x I)]. rewrite Eo. destruct (in_dec (list_eq_dec N.eq_dec) (outf o) (map outf l)) as [Y|Y].
        -- apply in_map_iff in Y. destruct Y as (y & Ey & Y). rewrite <- Ey, (H4 y Y), Ey, Eo. reflexivity.
        -- rewrite H3; [exact Eo|]. intros y I Z. apply Y. rewrite Z. apply in_map. exact I.
      * intros H. destruct (H5 (fun x I => H x (or_intror I))) as (-> & -> & ->). split; [reflexivity|]. split; [reflexivity|]. destruct l; reflexivity.
    + destruct (dget (artf o) f) as [d|] eqn:Ea; [|exfalso; exact (D o (or_introl eq_refl) Ea)]. rewrite (link_new symlinks _ _ _ _ Eo Ea).
      assert (Na : forall x, In x (o :: l) -> dget (artf x) (dset (outf o) d f) = dget (artf x) f) by (intros x I; rewrite Base.dget_dset_other; [reflexivity|]; exact (A o x (or_introl eq_refl) I)).
      destruct (IH first (p ++ [outf o]) (r ++ [artf o]) (dset (outf o) d f) A' B') as (f1 & p' & r' & g & E & H1 & H2 & H3 & H4 & H5); [intros x I; rewrite (Na x (or_intror I)); exact (D x (or_intror I))|].
      exists f1, ([outf o] ++ p'), ([artf o] ++ r'), g. rewrite E, !app_assoc. split; [reflexivity|]. split; [|split; [|split; [|split]]].
      * intros q. rewrite !in_app_iff. cbn [In]. split.
        -- intros [[[I|[]]|I]|[[I|[]]|I]]; [exists o; split; [left; reflexivity|right; symmetry; exact I]| |exists o; split; [left; reflexivity|left; symmetry; exact I]|]; [destruct (proj1 (H1 q) (or_introl I)) as (x & I1 & I2)|destruct (proj1 (H1 q) (or_intror I)) as (x & I1 & I2)]; exists x; (split; [right; exact I1|exact I2]).
        -- intros (x & [<-|I] & J); [destruct J as [->| ->]; auto|]. destruct (proj2 (H1 q) (ex_intro _ x (conj I J))) as [K|K]; auto.
      * intros q I. apply in_app_iff in I. destruct I as [[<-|[]]|I]; [exact Eo|]. specialize (H2 q I). rewrite dget_dset in H2. destruct (str_eqb q (outf o)); [discriminate H2|exact H2].
      * intros q Q. rewrite H3; [rewrite Base.dget_dset_other; [reflexivity|]; intros Z; exact (Q o (or_introl eq_refl) (eq_sym Z))|]. intros x I. apply Q. right. exact I.
      * intros x I. assert (Ex : outf x = outf o -> dget (outf x) g = Some d).
        { intros Z. rewrite Z. destruct (in_dec (list_eq_dec N.eq_dec) (outf o) (map outf l)) as [Y|Y].
          - apply in_map_iff in Y. destruct Y as (y & Ey & Y). rewrite <- Ey, (H4 y Y), Ey, Base.dget_dset_same. reflexivity.
          - rewrite H3; [apply Base.dget_dset_same|]. intros y J W. apply Y. rewrite W. apply in_map. exact J. }
        destruct (str_eqb (outf x) (outf o)) eqn:Xo.
        -- apply str_eqb_eq in Xo. rewrite (Ex Xo). assert (Ea' : artf x = artf o) by (apply B; [exact I|left; reflexivity|exact Xo]). rewrite Ea', Xo, Eo. symmetry. exact Ea.
        -- destruct I as [<-|I]; [rewrite str_eqb_refl in Xo; discriminate Xo|]. rewrite (H4 x I), dget_dset, Xo, (Na x (or_intror I)). reflexivity.
      * intros H. exfalso. exact (H o (or_introl eq_refl) Eo).
Qed.

Section Build.
Context {T : Type} (store : metadata T -> str) (load : str -> res (metadata T)) (dims : str -> res (Z * Z)) (symlinks : bool) (encode : str -> T -> Z -> Z -> str -> list (str * kval) -> res str) (settings : image_settings) (step : dec) (order : list job -> list job) (fuel : nat).
Notation export_command := (export_command store load dims symlinks encode settings step order fuel).
Context (f : fs) (rel : str) (id : Z) (target : T) (w h : Z) (image : str) (iw ih : Z) (sizes : list (Z * Z)).
Context (X : exporting dims symlinks encode settings step order fuel f rel id target w h image iw ih sizes).
Notation addr := (address rel id).
Context (m : metadata T) (b : Handlers.built) (f2 : fs) (E : export_command rel (Some id) target w h f = Ret (m, b, f2)) (L : load (store m) = Ret m).
Notation all := (flat_map snd (m_outputs m)).
Lemma all_outputs o : In o all -> exists a c name fm, In (a, c) sizes /\ In (name, fm) (formats settings) /\ served fm a c /\ o_relpath o = addr a c name.
Proof using X E.
  intros I. destruct (listed _ _ _ _ _ _ _ _ _ _ _ _ _ _ _ _ _ _ _ X _ _ _ E) as (_ & L2 & L3 & L4 & _). apply in_flat_map in I. destruct I as ([name l] & I & J). cbn [snd] in J. destruct (L3 name l I) as [_ F]. apply in_map_iff in F. destruct F as ([n fm] & En & F). cbn [fst] in En. subst n.
  specialize (L2 name fm (keeps fm) F (keeps_ok fm)). rewrite (In_dget _ _ _ L4 I) in L2. assert (K : In (o_width o, o_height o, o_relpath o) (map (fun o => (o_width o, o_height o, o_relpath o)) l)) by (apply in_map_iff; exists o; auto). rewrite L2 in K. apply in_map_iff in K. destruct K as ([a c] & Ea & K). apply filter_In in K. cbn [fst snd] in Ea. exists a, c, name, fm. split; [apply K|]. split; [exact F|]. split; [apply keeps_ok; apply K|]. congruence.
Qed.
Lemma outputs_all a c name fm : In (a, c) sizes -> In (name, fm) (formats settings) -> served fm a c -> exists o, In o all /\ o_relpath o = addr a c name.
Proof using X E.
  intros I F V. destruct (listed _ _ _ _ _ _ _ _ _ _ _ _ _ _ _ _ _ _ _ X _ _ _ E) as (_ & L2 & L3 & L4 & _). specialize (L2 name fm (keeps fm) F (keeps_ok fm)).
  assert (K : In (a, c, addr a c name) (map (fun x => (fst x, snd x, addr (fst x) (snd x) name)) (filter (keeps fm) sizes))) by (apply in_map_iff; exists (a, c); split; [reflexivity|]; apply filter_In; split; [exact I|apply keeps_ok; exact V]). rewrite <- L2 in K. apply in_map_iff in K. destruct K as (o & Eo & K). destruct (dget name (m_outputs m)) as [l|] eqn:D; [|destruct K]. exists o. split; [|congruence]. apply in_flat_map. exists (name, l). split; [apply dget_In; exact D|exact K].
Qed.
Lemma artf_addr o a c name : o_relpath o = addr a c name -> artf o = lit "artifacts/" ++ addr a c name.
Proof using X. intros R. unfold artf. rewrite R. exact (art_addr rel id (x_usable _ _ _ _ _ _ _ _ _ _ _ _ _ _ _ _ _ X) a c name). Qed.
Lemma outf_addr o a c name : o_relpath o = addr a c name -> outf o = lit "out/www/" ++ addr a c name.
Proof using X. intros R. unfold outf. rewrite R. exact (out_addr rel id (x_usable _ _ _ _ _ _ _ _ _ _ _ _ _ _ _ _ _ X) a c name). Qed.
Lemma lock_other : (forall o, In o all -> lock_path rel <> outf o) /\ forall n : str, lock_path rel <> lit "artifacts/" ++ n.
Proof using X E.
  assert (P : lock_path rel = lit "out/locks/" ++ splitext_root rel ++ lit "/reserve_target.lock").
  { destruct (x_usable _ _ _ _ _ _ _ _ _ _ _ _ _ _ _ _ _ X) as [U1 U2]. unfold lock_path, join_path. cbn [fold_left]. rewrite (join2_file (lit "out") (lit "locks")); [|discriminate|discriminate|eexists; eexists; split; [reflexivity|discriminate]]. rewrite (join2_file _ (splitext_root rel)); [|discriminate|discriminate|exact U1]. rewrite join2_file; [rewrite <- !app_assoc; reflexivity|discriminate| |eexists; eexists; split; [reflexivity|discriminate]]. destruct U1 as (c & r & Er & _). rewrite app_assoc, last_app by (rewrite Er; discriminate). exact U2. }
  rewrite P. split.
  - intros o I Z. destruct (all_outputs o I) as (a & c & name & fm & _ & _ & _ & R). rewrite (outf_addr o a c name R) in Z. change (lit "out/locks/") with (lit "out/" ++ 108%N :: lit "ocks/") in Z. change (lit "out/www/") with (lit "out/" ++ 119%N :: lit "ww/") in Z. rewrite <- !app_assoc in Z. apply app_inv_head in Z. discriminate Z.
  - intros n Z. discriminate Z.
Qed.
Lemma again_ok target' w' h' f3 : (forall p, starts_with (lit "artifacts/") p = true -> dget p f3 = dget p f2) ->
  exists b' f4, export_command rel (Some id) target' w' h' f3 = Ret (m, b', f4) /\ children b' = children b /\
    (forall q, In q (Handlers.produced b') \/ In q (reused b') <-> In q (Handlers.produced b)) /\
    (forall q, In q (Handlers.produced b') -> q = lock_path rel \/ dget q f3 = None) /\
    (forall a c name fm, In (a, c) sizes -> In (name, fm) (formats settings) -> served fm a c ->
       dget (lit "out/www/" ++ addr a c name) f4 = match dget (lit "out/www/" ++ addr a c name) f3 with Some d => Some d | None => dget (lit "artifacts/" ++ addr a c name) f3 end) /\
    (forall q, q <> lock_path rel -> (forall a c name fm, In (a, c) sizes -> In (name, fm) (formats settings) -> served fm a c -> q <> lit "out/www/" ++ addr a c name) -> dget q f4 = dget q f3) /\
    ((forall a c name fm, In (a, c) sizes -> In (name, fm) (formats settings) -> served fm a c -> dget (lit "out/www/" ++ addr a c name) f3 <> None) -> (exists a c name fm, In (a, c) sizes /\ In (name, fm) (formats settings) /\ served fm a c) -> Handlers.produced b' = [] /\ f4 = f3).
Proof using X E L.
  intros A. destruct (listed _ _ _ _ _ _ _ _ _ _ _ _ _ _ _ _ _ _ _ X _ _ _ E) as (L1 & _ & _ & _ & L5 & L6). destruct (run_images _ _ _ _ _ _ _ _ _ _ _ _ _ _ _ _ _ _ _ X _ _ _ E) as (s & _ & _ & _ & _ & Cb & _).
  pose proof (art_path rel id (x_usable _ _ _ _ _ _ _ _ _ _ _ _ _ _ _ _ _ X) (x_id _ _ _ _ _ _ _ _ _ _ _ _ _ _ _ _ _ X)) as Ap.
  assert (Mp : starts_with (lit "artifacts/") (metadata_path rel id) = true).
  { unfold metadata_path. rewrite join2_file; [rewrite Ap; reflexivity|rewrite Ap; discriminate| |eexists; eexists; split; [reflexivity|discriminate]]. rewrite Ap, !app_assoc, last_app; [apply id_last|apply id_nil]; exact (x_id _ _ _ _ _ _ _ _ _ _ _ _ _ _ _ _ _ X). }
  unfold ImgExport.export_command. rewrite (A _ Mp), L6. unfold reuse. rewrite L.
  destruct (reuse_ok symlinks all true [] [metadata_path rel id; counter_path rel; placeholder_path rel id] f3) as (f1 & p' & r' & g & Er & H1 & H2 & H3 & H4 & H5).
  - intros o o' I J Z. destruct (all_outputs o I) as (a & c & name & fm & _ & _ & _ & R). destruct (all_outputs o' J) as (a' & c' & name' & fm' & _ & _ & _ & R'). rewrite (outf_addr o _ _ _ R), (artf_addr o' _ _ _ R') in Z. discriminate Z.
  - intros o o' I J Z. destruct (all_outputs o I) as (a & c & name & fm & _ & _ & _ & R). destruct (all_outputs o' J) as (a' & c' & name' & fm' & _ & _ & _ & R'). rewrite (outf_addr o _ _ _ R), (outf_addr o' _ _ _ R') in Z. rewrite (artf_addr o _ _ _ R), (artf_addr o' _ _ _ R'). apply app_inv_head in Z. rewrite Z. reflexivity.
  - intros o I. destruct (all_outputs o I) as (a & c & name & fm & K1 & K2 & K3 & R). rewrite (artf_addr o _ _ _ R), A by reflexivity. destruct (L5 a c name fm K1 K2 K3) as (d & D & _). rewrite D. discriminate.
  - rewrite Er. cbn [app]. destruct lock_other as [Lo _].
    assert (Se : forall q, In q p' \/ In q r' <-> exists a c name fm, In (a, c) sizes /\ In (name, fm) (formats settings) /\ served fm a c /\ (q = lit "artifacts/" ++ addr a c name \/ q = lit "out/www/" ++ addr a c name)).
    { intros q. rewrite H1. split.
      - intros (o & I & J). destruct (all_outputs o I) as (a & c & name & fm & K1 & K2 & K3 & R). exists a, c, name, fm. rewrite (artf_addr o _ _ _ R), (outf_addr o _ _ _ R) in J. auto.
      - intros (a & c & name & fm & K1 & K2 & K3 & J). destruct (outputs_all a c name fm K1 K2 K3) as (o & I & R). exists o. rewrite (artf_addr o _ _ _ R), (outf_addr o _ _ _ R). auto. }
    assert (G1 : forall a c name fm, In (a, c) sizes -> In (name, fm) (formats settings) -> served fm a c -> dget (lit "out/www/" ++ addr a c name) g = match dget (lit "out/www/" ++ addr a c name) f3 with Some d => Some d | None => dget (lit "artifacts/" ++ addr a c name) f3 end).
    { intros a c name fm K1 K2 K3. destruct (outputs_all a c name fm K1 K2 K3) as (o & I & R). specialize (H4 o I). rewrite (artf_addr o _ _ _ R), (outf_addr o _ _ _ R) in H4. exact H4. }
    assert (G2 : forall q, (forall a c name fm, In (a, c) sizes -> In (name, fm) (formats settings) -> served fm a c -> q <> lit "out/www/" ++ addr a c name) -> dget q g = dget q f3).
    { intros q Q. apply H3. intros o I. destruct (all_outputs o I) as (a & c & name & fm & K1 & K2 & K3 & R). rewrite (outf_addr o _ _ _ R). exact (Q a c name fm K1 K2 K3). }
    assert (G3 : (forall a c name fm, In (a, c) sizes -> In (name, fm) (formats settings) -> served fm a c -> dget (lit "out/www/" ++ addr a c name) f3 <> None) -> (exists a c name fm, In (a, c) sizes /\ In (name, fm) (formats settings) /\ served fm a c) -> p' = [] /\ g = f3 /\ f1 = false).
    { intros Q (a & c & name & fm & K1 & K2 & K3). destruct (outputs_all a c name fm K1 K2 K3) as (o & I & _). destruct H5 as (P1 & P2 & P3).
      - intros o' I'. destruct (all_outputs o' I') as (a' & c' & name' & fm' & J1 & J2 & J3 & R'). rewrite (outf_addr o' _ _ _ R'). exact (Q _ _ _ _ J1 J2 J3).
      - split; [exact P1|]. split; [exact P2|]. destruct all; [destruct I|exact P3]. }
    destruct f1.
    + eexists. eexists. split; [reflexivity|]. cbn [children Handlers.produced reused]. split; [symmetry; exact Cb|]. split; [|split; [|split; [|split]]].
      * intros q. rewrite L1, <- Se, in_app_iff. cbn [In]. tauto.
      * intros q I. apply in_app_iff in I. destruct I as [I|[I|[]]]; [right; exact (H2 q I)|left; symmetry; exact I].
      * intros a c name fm K1 K2 K3. rewrite <- (G1 a c name fm K1 K2 K3). destruct (dmem (lock_path rel) g); [reflexivity|]. rewrite Base.dget_dset_other; [reflexivity|]. destruct (outputs_all a c name fm K1 K2 K3) as (o & I & R). rewrite <- (outf_addr o _ _ _ R). exact (Lo o I).
      * intros q Nq Q. rewrite <- (G2 q Q). destruct (dmem (lock_path rel) g); [reflexivity|]. apply Base.dget_dset_other. intros Z. apply Nq. symmetry. exact Z.
      * intros Q1 Q2. destruct (G3 Q1 Q2) as (_ & _ & Z). discriminate Z.
    + eexists. eexists. split; [reflexivity|]. cbn [children Handlers.produced reused]. split; [symmetry; exact Cb|]. split; [|split; [|split; [|split]]].
      * intros q. rewrite L1, <- Se. cbn [In]. rewrite in_app_iff. cbn [In]. tauto.
      * intros q I. right. exact (H2 q I).
      * exact G1.
      * intros q _ Q. exact (G2 q Q).
      * intros Q1 Q2. destruct (G3 Q1 Q2) as (Z1 & Z2 & _). auto.
Qed.
Lemma idle : (exists a c name fm, In (a, c) sizes /\ In (name, fm) (formats settings) /\ served fm a c) ->
  exists b', export_command rel (Some id) target w h f2 = Ret (m, b', f2) /\ Handlers.produced b' = [] /\ (forall q, In q (reused b') <-> In q (Handlers.produced b)).
Proof using X E L.
  intros V. destruct (again_ok target w h f2 (fun p _ => eq_refl)) as (b' & f4 & R & _ & H1 & _ & _ & _ & H5). destruct H5 as [P ->]; [|exact V|].
  - intros a c name fm K1 K2 K3. destruct (listed _ _ _ _ _ _ _ _ _ _ _ _ _ _ _ _ _ _ _ X _ _ _ E) as (_ & _ & _ & _ & L5 & _). destruct (L5 a c name fm K1 K2 K3) as (d & _ & D). rewrite D. discriminate.
  - exists b'. split; [exact R|]. split; [exact P|]. intros q. rewrite <- H1, P. cbn [In]. tauto.
Qed.
End Build.
