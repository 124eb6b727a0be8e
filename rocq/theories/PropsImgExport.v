(** C38: the export that is kept. *)
From Verif Require Import Base Graph Json PyPath Handlers ImgSize ImgSettings ImgExport ImgExportSpec ImgExportProofs ImgExportRun ImgExportMain.
From Coq Require Import String ZArith NArith Bool List Lia Permutation.
Import ListNotations.
Open Scope list_scope.
Open Scope Z_scope.

(** Every export succeeds, in whatever order the processes finish, and for each size and
    format the file that stays, in artifacts and in out, is the encoding of an export that
    applies and is no worse than any other that applies. *)
Theorem C38_best : forall symlinks encode art out sub formats order sizes produced f, apart art out -> good_formats formats -> any_order order -> good_sizes sizes -> dict_wf f ->
  encodes encode formats sizes -> free symlinks out formats sizes f ->
  exists s, export_images symlinks encode art out sub formats order sizes produced f = Ret s /\
    forall w h name fm, In (w, h) sizes -> In (name, fm) formats -> served fm w h ->
      exists n e d, In (n, e) (exports fm) /\ applicable e w h /\ encode w h name (kwargs e) = Ret d /\ dget (kept_file art w h name) (files s) = Some d /\ dget (kept_file out w h name) (files s) = Some d /\
        In {| o_width := w; o_height := h; o_relpath := join2 sub (final_name w h name); o_choice := n |} (recorded name s) /\
        forall n' e' d', In (n', e') (exports fm) -> applicable e' w h -> encode w h name (kwargs e') = Ret d' -> no_worse (unit_size fm) e d e' d'.
Proof. intros symlinks encode art out sub formats order sizes produced f A G O S W E Fr. destruct (images_done symlinks encode art out sub formats order sizes produced f A G O S W E Fr) as [s R]. exists s. split; [exact R|]. exact (images_best symlinks encode art out sub formats order sizes produced f A G O S W E Fr s R). Qed.
Print Assumptions C38_best.
(** The trial encodings are gone, and no other file has changed. *)
Theorem C38_files : forall symlinks encode art out sub formats order sizes produced f s, apart art out -> good_formats formats -> any_order order -> good_sizes sizes -> dict_wf f ->
  encodes encode formats sizes -> free symlinks out formats sizes f -> export_images symlinks encode art out sub formats order sizes produced f = Ret s ->
  (forall w h name fm n e, In (w, h) sizes -> In (name, fm) formats -> In (n, e) (exports fm) -> applicable e w h -> dget (trial_file art w h n name) (files s) = None) /\
  (forall p, (forall w h name fm, In (w, h) sizes -> In (name, fm) formats -> p <> kept_file art w h name /\ p <> kept_file out w h name /\ forall n e, In (n, e) (exports fm) -> p <> trial_file art w h n name) -> dget p (files s) = dget p f).
Proof. intros. eapply images_files; eassumption. Qed.
Print Assumptions C38_files.
(** The files reported are exactly those kept; the record has, for each format, the sizes
    that some export applies to, in the order of the sizes. *)
Theorem C38_recorded : forall symlinks encode art out sub formats order sizes produced f s, apart art out -> good_formats formats -> any_order order -> good_sizes sizes -> dict_wf f ->
  encodes encode formats sizes -> free symlinks out formats sizes f -> export_images symlinks encode art out sub formats order sizes produced f = Ret s ->
  (forall p, In p (made s) <-> In p produced \/ exists w h name fm, In (w, h) sizes /\ In (name, fm) formats /\ served fm w h /\ (p = kept_file art w h name \/ p = kept_file out w h name)) /\
  (forall name fm keep, In (name, fm) formats -> (forall w h, keep (w, h) = true <-> served fm w h) ->
     map (fun o => (o_width o, o_height o, o_relpath o)) (recorded name s) = map (fun x => (fst x, snd x, join2 sub (final_name (fst x) (snd x) name))) (filter keep sizes)) /\
  (forall name, ~ In name (map fst formats) -> recorded name s = []).
Proof. intros. eapply images_listed; eassumption. Qed.
Print Assumptions C38_recorded.
(** Listing the exports of a format in another order gives a file that is just as good. *)
Theorem C38_order : forall symlinks encode art out sub formats formats' order order' sizes produced f s s', apart art out -> good_formats formats -> good_formats formats' -> reordered formats formats' -> any_order order -> any_order order' -> good_sizes sizes -> dict_wf f ->
  encodes encode formats sizes -> encodes encode formats' sizes -> free symlinks out formats sizes f -> free symlinks out formats' sizes f ->
  export_images symlinks encode art out sub formats order sizes produced f = Ret s -> export_images symlinks encode art out sub formats' order' sizes produced f = Ret s' ->
  forall w h name fm, In (w, h) sizes -> In (name, fm) formats -> served fm w h ->
    exists n e d n' e' d', In (n, e) (exports fm) /\ In (n', e') (exports fm) /\ dget (kept_file art w h name) (files s) = Some d /\ dget (kept_file art w h name) (files s') = Some d' /\
      encode w h name (kwargs e) = Ret d /\ encode w h name (kwargs e') = Ret d' /\ no_worse (unit_size fm) e d e' d' /\ no_worse (unit_size fm) e' d' e d.
Proof.
  intros symlinks encode art out sub formats formats' order order' sizes produced f s s' A G G' Re O O' S W E E' Fr Fr' R R' w h name fm I J V.
  assert (X : exists fm', In (name, fm') formats' /\ unit_size fm = unit_size fm' /\ Permutation (exports fm) (exports fm')).
  { clear - Re J. induction Re as [|[a b] [a' b'] l l' (P1 & P2 & P3) Re IH]; [destruct J|]. cbn [fst snd] in *. destruct J as [J|J]; [injection J as -> ->; exists b'; subst a'; split; [left; reflexivity|auto]|]. destruct (IH J) as (fm' & K & L). exists fm'. split; [right; exact K|exact L]. }
  destruct X as (fm' & J' & U & P). assert (V' : served fm' w h) by (destruct V as (n & e & K & Ap); exists n, e; split; [apply (Permutation_in _ P); exact K|exact Ap]).
  destruct (images_best symlinks encode art out sub formats order sizes produced f A G O S W E Fr s R w h name fm I J V) as (n & e & d & K1 & K2 & K3 & K4 & _ & _ & K7).
  destruct (images_best symlinks encode art out sub formats' order' sizes produced f A G' O' S W E' Fr' s' R' w h name fm' I J' V') as (n' & e' & d' & L1 & L2 & L3 & L4 & _ & _ & L7).
  assert (Q : In (n', e') (exports fm)) by (apply (Permutation_in _ (Permutation_sym P)); exact L1).
  exists n, e, d, n', e', d'. split; [exact K1|]. split; [exact Q|]. split; [exact K4|]. split; [exact L4|]. split; [exact K3|]. split; [exact L3|]. split; [exact (K7 n' e' d' Q L2 L3)|].
  rewrite U. apply (L7 n e d); [apply (Permutation_in _ P); exact K1|exact K2|exact K3].
Qed.
Print Assumptions C38_order.

(** * Cases *)
Definition ex_export (p : Z) (q : Z) : image_export := {| min_area := None; max_area := Some 5000; preference := p; kwargs := [(lit "quality", KInt q)] |}.
Definition ex_formats : list (str * image_format) := [(lit "jpeg", {| exports := [(lit "low", ex_export 10 3); (lit "high", ex_export 30 6)]; unit_size := 2 |})].
Definition ex_encode (w h : Z) (name : str) (k : list (str * kval)) : res str := match dget (lit "quality") k with Some (KInt q) => Ret (repeat 7%N (Z.to_nat q)) | _ => Raise TypeError end.
Example C38_example : good_formats ex_formats /\ good_sizes [(10, 20); (60, 120); (20, 40)] /\ encodes ex_encode ex_formats [(10, 20); (60, 120); (20, 40)] /\
  export_images true ex_encode (lit "artifacts/img/a/1") (lit "out/www/img/a/1") (lit "img/a/1") ex_formats (fun l => rev l) [(10, 20); (60, 120); (20, 40)] [] [(lit "x", [])] =
    Ret {| outputs := [(lit "jpeg", [{| o_width := 10; o_height := 20; o_relpath := lit "img/a/1/10x20.jpeg"; o_choice := lit "high" |}; {| o_width := 20; o_height := 40; o_relpath := lit "img/a/1/20x40.jpeg"; o_choice := lit "high" |}])];
           made := [lit "artifacts/img/a/1/10x20.jpeg"; lit "out/www/img/a/1/10x20.jpeg"; lit "artifacts/img/a/1/20x40.jpeg"; lit "out/www/img/a/1/20x40.jpeg"];
           files := [(lit "x", []); (lit "artifacts/img/a/1/10x20.jpeg", repeat 7%N 6); (lit "out/www/img/a/1/10x20.jpeg", repeat 7%N 6); (lit "artifacts/img/a/1/20x40.jpeg", repeat 7%N 6); (lit "out/www/img/a/1/20x40.jpeg", repeat 7%N 6)] |}.
Proof.
  split; [|split; [|split]].
  - split; [repeat constructor; intros []|]. intros name fm [E|[]]. injection E as <- <-. split; [intros X; repeat (destruct X as [X|X]; [discriminate X|]); exact X|]. split; [unfold dict_wf; cbn [exports map fst dkeys]; constructor; [intros [X|[]]; discriminate X|constructor; [intros []|constructor]]|]. intros n e [E|[E|[]]]; injection E as <- <-; cbn [preference ex_export]; lia.
  - split; [|repeat constructor]. constructor; [intros [X|[X|[]]]; discriminate X|]. constructor; [intros [X|[]]; discriminate X|]. constructor; [intros []|constructor].
  - intros w h name fm n e _ [E|[]] I _. injection E as <- <-. destruct I as [E|[E|[]]]; injection E as <- <-; eexists; reflexivity.
  - vm_compute. reflexivity.
Qed.
(** Negative preferences are accepted and make it keep the worst. *)
Theorem C38_negative_refuted : exists e e' s, 
  export_images true ex_encode (lit "artifacts/a/1") (lit "out/www/a/1") (lit "a/1") [(lit "jpeg", {| exports := [(lit "small", e); (lit "large", e')]; unit_size := 0 |})] (fun l => l) [(10, 20)] [] [] = Ret s /\
  preference e = preference e' /\ dget (lit "artifacts/a/1/10x20.jpeg") (files s) = Some (repeat 7%N 900) /\ ex_encode 10 20 (lit "jpeg") (kwargs e) = Ret [7%N].
Proof. exists (ex_export (-1) 1), (ex_export (-1) 900). eexists. split; [vm_compute; reflexivity|]. repeat split. Qed.
Print Assumptions C38_negative_refuted.
(** A size that comes up twice (C37_repeat_refuted) makes the export fail. *)
Theorem C38_repeat_refuted : exists sizes, yield_sizes 2 {| coef := 5; expo := -1 |} 500 500 1 1 9 = Some sizes /\
  export_images true ex_encode (lit "artifacts/a/1") (lit "out/www/a/1") (lit "a/1") ex_formats (fun l => l) sizes [] [] = Raise FileNotFoundError.
Proof. eexists. split; [vm_compute; reflexivity|vm_compute; reflexivity]. Qed.
Print Assumptions C38_repeat_refuted.
(** With symbolic links a file left in out makes the export fail. *)
Theorem C38_left_refuted : export_images true ex_encode (lit "artifacts/a/1") (lit "out/www/a/1") (lit "a/1") ex_formats (fun l => l) [(10, 20)] [] [(lit "out/www/a/1/10x20.jpeg", [])] = Raise FileExistsError /\
  exists s, export_images false ex_encode (lit "artifacts/a/1") (lit "out/www/a/1") (lit "a/1") ex_formats (fun l => l) [(10, 20)] [] [(lit "out/www/a/1/10x20.jpeg", [])] = Ret s.
Proof. split; [vm_compute; reflexivity|]. eexists. vm_compute. reflexivity. Qed.
Print Assumptions C38_left_refuted.
