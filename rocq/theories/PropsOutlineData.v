(** C50: images written as data in a stylesheet become files.  [decode] stands for
    bytes.decode("utf-8", "replace"), [sha] for the hash of a file, [sha f] being the text
    of the hash file.  The tool is run in the project folder, so line 137 looks up the
    project's files. *)
From Verif Require Import Base Graph PyPath Css Builder Handlers OutlineData OutlineDataSpec OutlineDataProofs.
From Coq Require Import String ZArith NArith Bool List.
Import ListNotations.
Open Scope list_scope.
Open Scope N_scope.

(** the sheet written is the sheet read, with each image replaced by the url of its file;
    equal images have the same url, others have others; the urls carry the hashes of the
    files.  The sheet does not end in [url(]. *)
Theorem C50_sheet : forall F decode sha relpath p fuel (ts : list (@token F)) f, stylesheet relpath p -> (5 <= fuel)%nat -> (forall a, ts <> a ++ [open_url]) ->
  forall out b, pump [outline_data decode sha (fun f q => dmem q f) relpath false] fuel ts (beginning f) = Ret (out, b) ->
  exists occ images url, outlined url ts occ out /\ firsts occ images /\
    (forall i data e, is_image p images i data e -> exists h, dget (image_file p i e ++ lit ".hash") (d_files (b_st b)) = Some h /\ url data = image_url p i e ++ lit "?" ++ urlencode [(lit "v", h); (lit "pv", PROCESSOR_VERSION)]) /\
    (forall d d', In d (map fst occ) -> In d' (map fst occ) -> url d = url d' -> d = d').
Proof. intros. eapply sheet_ok; eassumption. Qed.
Print Assumptions C50_sheet.
(** a file that was not there has the image's data, decoded; a hash file that was not there
    the hash of the file; no other file is written *)
Theorem C50_files : forall F decode sha relpath p fuel (ts : list (@token F)) f, stylesheet relpath p -> (5 <= fuel)%nat -> (forall a, ts <> a ++ [open_url]) ->
  forall out b url occ out' images, pump [outline_data decode sha (fun f q => dmem q f) relpath false] fuel ts (beginning f) = Ret (out, b) -> outlined url ts occ out' -> firsts occ images ->
  (forall i data e, is_image p images i data e ->
     (dget (image_file p i e) f = None -> dget (image_file p i e) (d_files (b_st b)) = Some (unquote decode data)) /\
     exists c h, dget (image_file p i e) (d_files (b_st b)) = Some c /\ dget (image_file p i e ++ lit ".hash") (d_files (b_st b)) = Some h /\ (dget (image_file p i e ++ lit ".hash") f = None -> h = sha c)) /\
  (forall q v, dget q f = Some v -> dget q (d_files (b_st b)) = Some v) /\
  (forall q, dget q f = None -> dget q (d_files (b_st b)) <> None -> exists i data e, is_image p images i data e /\ (q = image_file p i e \/ q = image_file p i e ++ lit ".hash")).
Proof. intros. eapply files_ok; eassumption. Qed.
Print Assumptions C50_files.
(** the files reported as produced are those that are new, the files reported as reused are
    the image files and hash files that were there *)
Theorem C50_reported : forall F decode sha relpath p fuel (ts : list (@token F)) f, stylesheet relpath p -> (5 <= fuel)%nat -> (forall a, ts <> a ++ [open_url]) ->
  forall out b url occ out' images, pump [outline_data decode sha (fun f q => dmem q f) relpath false] fuel ts (beginning f) = Ret (out, b) -> outlined url ts occ out' -> firsts occ images ->
  d_seen (b_st b) = [] /\
  (forall q, In q (d_made (b_st b)) <-> dget q f = None /\ dget q (d_files (b_st b)) <> None) /\
  (forall q, In q (d_reused (b_st b)) <-> dget q f <> None /\ exists i data e, is_image p images i data e /\ (q = image_file p i e \/ q = image_file p i e ++ lit ".hash")).
Proof. intros. eapply reported_ok; eassumption. Qed.
Print Assumptions C50_reported.
(** scanning writes nothing and announces the image files and their hash files *)
Theorem C50_scan : forall F decode sha relpath p fuel (ts : list (@token F)) f, stylesheet relpath p -> (5 <= fuel)%nat -> (forall a, ts <> a ++ [open_url]) ->
  forall out b, pump [outline_data decode sha (fun f q => dmem q f) relpath true] fuel ts (beginning f) = Ret (out, b) ->
  exists occ images url, outlined url ts occ out /\ firsts occ images /\
    (forall i data e, is_image p images i data e -> url data = image_url p i e) /\
    (forall q, In q (d_made (b_st b)) <-> exists i data e, is_image p images i data e /\ (q = image_file p i e \/ q = image_file p i e ++ lit ".hash")) /\
    d_seen (b_st b) = [] /\ d_reused (b_st b) = [] /\ d_files (b_st b) = f.
Proof. intros. eapply scan_sheet_ok; eassumption. Qed.
Print Assumptions C50_scan.
(** what scanning announces is what building produces or reuses *)
Theorem C50_agree : forall F decode sha relpath p fuel (ts : list (@token F)) f, stylesheet relpath p -> (5 <= fuel)%nat -> (forall a, ts <> a ++ [open_url]) ->
  forall out b out' b', pump [outline_data decode sha (fun f q => dmem q f) relpath false] fuel ts (beginning f) = Ret (out, b) ->
  pump [outline_data decode sha (fun f q => dmem q f) relpath true] fuel ts (beginning f) = Ret (out', b') ->
  forall q, In q (d_made (b_st b)) \/ In q (d_reused (b_st b)) <-> In q (d_made (b_st b')).
Proof. intros until b'. intros P Q. eapply agree_ok; eassumption. Qed.
Print Assumptions C50_agree.
(** neither fails *)
Theorem C50_succeeds : forall F decode sha relpath p fuel (ts : list (@token F)) f, stylesheet relpath p -> (5 <= fuel)%nat ->
  (exists out b, pump [outline_data decode sha (fun f q => dmem q f) relpath false] fuel ts (beginning f) = Ret (out, b)) /\
  (exists out b, pump [outline_data decode sha (fun f q => dmem q f) relpath true] fuel ts (beginning f) = Ret (out, b)).
Proof. intros. eapply total_ok; eassumption. Qed.
Print Assumptions C50_succeeds.
(** percent encoded data give the text that they encode *)
Theorem C50_content : forall decode data text, (forall s, decode (flat_map utf8 s) = s) -> percent data (flat_map utf8 text) -> unquote decode data = text.
Proof. exact unquote_ok. Qed.
Print Assumptions C50_content.

(** * A sheet *)
Definition sheet : list (@token N) :=
  [TIdent (lit "a"); open_url; TString (lit "data:image/svg+xml,%3Cb%3E"); open_url; TString (lit "/x.png"); TWhitespace [32]; open_url; TString (lit "data:image/gif;R"); open_url; TString (lit "data:image/svg+xml,%3Cb%3E"); open_url; open_url; TIdent (lit "z")].
Definition files0 : fs := [(lit "out/www/img/gen/css/main/2.gif", lit "old")].
Example C50_example : exists out b, pump [outline_data (fun s => s) (fun c => lit "h" ++ c) (fun f q => dmem q f) (lit "src/public/css/main.css") false] 5 sheet (beginning files0) = Ret (out, b) /\
  out = [TIdent (lit "a"); open_url; TString (lit "/img/gen/css/main/1.svg?v=h%3Cb%3E&pv=" ++ PROCESSOR_VERSION); open_url; TString (lit "/x.png"); TWhitespace [32]; open_url; TString (lit "/img/gen/css/main/2.gif?v=hold&pv=" ++ PROCESSOR_VERSION); open_url; TString (lit "/img/gen/css/main/1.svg?v=h%3Cb%3E&pv=" ++ PROCESSOR_VERSION); open_url; open_url; TIdent (lit "z")] /\
  dget (lit "out/www/img/gen/css/main/1.svg") (d_files (b_st b)) = Some (lit "<b>") /\
  d_made (b_st b) = [lit "out/www/img/gen/css/main/1.svg"; lit "out/www/img/gen/css/main/1.svg.hash"; lit "out/www/img/gen/css/main/2.gif.hash"] /\ d_reused (b_st b) = [lit "out/www/img/gen/css/main/2.gif"].
Proof. eexists. eexists. split; [vm_compute; reflexivity|]. vm_compute. auto. Qed.
Example C50_example_sheet : stylesheet (lit "src/public/css/main.css") (lit "css/main") /\ (forall a, sheet <> a ++ [open_url]) /\
  outlined (fun d => d) sheet [(lit "%3Cb%3E", lit "svg+xml"); (lit "R", lit "gif"); (lit "%3Cb%3E", lit "svg+xml")]
    [TIdent (lit "a"); open_url; TString (lit "%3Cb%3E"); open_url; TString (lit "/x.png"); TWhitespace [32]; open_url; TString (lit "R"); open_url; TString (lit "%3Cb%3E"); open_url; open_url; TIdent (lit "z")] /\
  firsts [(lit "%3Cb%3E", lit "svg+xml"); (lit "R", lit "gif"); (lit "%3Cb%3E", lit "svg+xml")] [(lit "%3Cb%3E", lit "svg+xml"); (lit "R", lit "gif")] /\
  is_image (lit "css/main") [(lit "%3Cb%3E", lit "svg+xml"); (lit "R", lit "gif")] 0 (lit "%3Cb%3E") (lit "svg").
Proof.
  split; [|split; [|split; [|split]]].
  - exists (lit "css/"), (lit "main"). split; [reflexivity|]. split; [right; exists (lit "css"); split; [reflexivity|intros [r [=]]]|]. split; [intros X; vm_compute in X; repeat (destruct X as [X|X]; [discriminate X|]); exact X|]. split; [|reflexivity]. exists 109. split; [left; reflexivity|discriminate].
  - intros a H. apply (f_equal (fun l => last l open_url)) in H. rewrite last_last in H. discriminate H.
  - assert (D1 : data_uri (lit "data:image/svg+xml,%3Cb%3E") (lit "svg+xml") (lit "%3Cb%3E")) by (apply image_data_iff; vm_compute; reflexivity).
    assert (D2 : data_uri (lit "data:image/gif;R") (lit "gif") (lit "R")) by (apply image_data_iff; vm_compute; reflexivity).
    apply OutOther; [intros v ty d r E; discriminate E|]. apply OutImage; [exact D1|].
    apply OutOther; [intros v ty d r _ E D; injection E as <- _; apply image_data_iff in D; vm_compute in D; discriminate D|]. apply OutOther; [intros v ty d r E; discriminate E|]. apply OutOther; [intros v ty d r E; discriminate E|].
    apply OutImage; [exact D2|]. apply OutImage; [exact D1|]. apply OutOther; [intros v ty d r _ E; discriminate E|]. apply OutOther; [intros v ty d r _ E; discriminate E|]. apply OutOther; [intros v ty d r E; discriminate E|]. apply OutEnd.
  - apply (FirstsAgain [_; _]); [|left; reflexivity]. apply (FirstsNew [_] [_]); [|cbn; intros [E|[]]; discriminate E]. apply (FirstsNew [] []); [constructor|intros []].
  - exists (lit "svg+xml"). split; [reflexivity|]. split; [intros X; vm_compute in X; repeat (destruct X as [X|X]; [discriminate X|]); exact X|]. right. exists (lit "xml"). reflexivity.
Qed.
Example C50_example_content : percent (lit "%3Cb%3e %c3%A9") (flat_map utf8 [60; 98; 62; 32; 233]).
Proof.
  vm_compute. apply (PctCode 51 67 3 12); [left; split; [split; discriminate|reflexivity]|right; left; split; [split; discriminate|reflexivity]|]. apply PctChar; [reflexivity|discriminate|].
  apply (PctCode 51 101 3 14); [left; split; [split; discriminate|reflexivity]|right; right; split; [split; discriminate|reflexivity]|]. apply PctChar; [reflexivity|discriminate|].
  apply (PctCode 99 51 12 3); [right; right; split; [split; discriminate|reflexivity]|left; split; [split; discriminate|reflexivity]|]. apply (PctCode 65 57 10 9); [right; left; split; [split; discriminate|reflexivity]|left; split; [split; discriminate|reflexivity]|]. apply PctEnd.
Qed.

(** * Where it goes wrong *)
(** the parameters of the data are taken for data: an image in base64 is not decoded, and its
    file begins with [base64,] *)
Theorem C50_base64_refuted : exists (ts : list (@token N)), ts = [open_url; TString (lit "data:image/png;base64,QUFB")] /\
  forall decode sha, exists out b, pump [outline_data decode sha (fun f q => dmem q f) (lit "src/public/a.css") false] 5 ts (beginning []) = Ret (out, b) /\
    dget (lit "out/www/img/gen/a/1.png") (d_files (b_st b)) = Some (lit "base64,QUFB").
Proof. eexists. split; [reflexivity|]. intros. eexists. eexists. split; vm_compute; reflexivity. Qed.
Print Assumptions C50_base64_refuted.
(** images with the same data and different types share the first one's file *)
Theorem C50_type_refuted : exists (ts : list (@token N)), ts = [open_url; TString (lit "data:image/png,A"); open_url; TString (lit "data:image/gif,A")] /\
  forall decode sha, exists b u, pump [outline_data decode sha (fun f q => dmem q f) (lit "src/public/a.css") false] 5 ts (beginning []) = Ret ([open_url; TString u; open_url; TString u], b) /\
    u = lit "/img/gen/a/1.png?" ++ urlencode [(lit "v", sha (lit "A")); (lit "pv", PROCESSOR_VERSION)].
Proof. eexists. split; [reflexivity|]. intros. eexists. eexists. split; vm_compute; reflexivity. Qed.
Print Assumptions C50_type_refuted.
(** an existing file is kept, whatever it has in it: after the images of a sheet change
    without the old files being removed, the sheet shows the old ones *)
Theorem C50_stale_refuted : exists (ts : list (@token N)), ts = [open_url; TString (lit "data:image/png,A")] /\
  forall decode sha, exists out b, pump [outline_data decode sha (fun f q => dmem q f) (lit "src/public/a.css") false] 5 ts (beginning [(lit "out/www/img/gen/a/1.png", lit "B")]) = Ret (out, b) /\
    dget (lit "out/www/img/gen/a/1.png") (d_files (b_st b)) = Some (lit "B").
Proof. eexists. split; [reflexivity|]. intros. eexists. eexists. split; vm_compute; reflexivity. Qed.
Print Assumptions C50_stale_refuted.
(** run in another folder, the build fails if that folder has such a file, and overwrites the
    project's file if it has not *)
Theorem C50_folder_refuted : exists (ts : list (@token N)), ts = [open_url; TString (lit "data:image/png,A")] /\
  forall decode sha, pump [outline_data decode sha (fun _ _ => true) (lit "src/public/a.css") false] 5 ts (beginning []) = Raise FileNotFoundError /\
    exists out b, pump [outline_data decode sha (fun _ _ => false) (lit "src/public/a.css") false] 5 ts (beginning [(lit "out/www/img/gen/a/1.png", lit "B"); (lit "out/www/img/gen/a/1.png.hash", sha (lit "B"))]) = Ret (out, b) /\
      dget (lit "out/www/img/gen/a/1.png") (d_files (b_st b)) = Some (lit "A") /\ dget (lit "out/www/img/gen/a/1.png.hash") (d_files (b_st b)) = Some (sha (lit "B")).
Proof. eexists. split; [reflexivity|]. intros. split; [vm_compute; reflexivity|]. eexists. eexists. split; [vm_compute; reflexivity|]. split; vm_compute; reflexivity. Qed.
Print Assumptions C50_folder_refuted.
