(** Example pages. *)
From Verif Require Import Base Graph Json PyPath PyNorm CssVersion Builder BuilderSpec BuilderProofs Handlers Html HtmlSpec HtmlProofs HtmlRun HtmlMain.
From Coq Require Import String ZArith NArith Bool List Lia.
Import ListNotations.
Open Scope list_scope.
Open Scope N_scope.

Definition x_page : str := lit "src/public/a/index.html".
(** the templates of the example are their own names *)
Definition x_fragment (text : str) : list htoken :=
  if str_eqb text (lit "HEAD") then [HStart (lit "h1") []; HComment (lit "[STACK: [""retrieve"", ""title""]]"); HEnd (lit "h1"); HComment (lit " [TEMPLATE: [""/nav.html"", {""t"": {""type"": ""variable"", ""name"": ""title""}}]] ")]
  else if str_eqb text (lit "NAV") then [HComment (lit "[STACK: [""define"", ""title"", 7]]"); HComment (lit "[STACK: [""retrieve"", ""title""]]"); HComment (lit "[STACK: [""retrieve"", ""t""]]")]
  else if str_eqb text (lit "ESCAPE") then [HComment (lit "[STACK: [""pop""]]"); HComment (lit "[STACK: [""define"", ""x"", ""leaked""]]"); HComment (lit "[STACK: [""push"", ""p""]]")]
  else if str_eqb text (lit "SELF") then [HComment (lit "[TEMPLATE: [""/self.html""]]")]
  else [HChars text].
Definition x_files : fs :=
  [(lit "src/partials/head.html", lit "HEAD"); (lit "src/partials/nav.html", lit "NAV"); (lit "src/partials/escape.html", lit "ESCAPE"); (lit "src/partials/self.html", lit "SELF"); (lit "src/public/a/b.html", lit "B");
   (lit "out/www/css/main.css.hash", lit "abc" ++ [10]); (lit "src/public/js/gen/a/index/2.js", lit "mine")].
(** scripts and stylesheets are copied *)
Definition x_scan (path : str) (f : fs) : res scanned := Ret (copy_and_hash_scan path).
Definition x_build : str -> fs -> res (built * fs) := copy_and_hash_build (fun text => lit "hash-of-" ++ text).
Definition x_pump (host : option str) (scan : bool) (fuel : nat) (ts : list htoken) : res (list htoken * builder htoken hstate) :=
  pump (manipulators host x_page x_fragment (fun raw => raw) x_scan x_scan x_build x_build scan) fuel ts (new_builder (h_init x_page x_files)).
Definition x_passes : bool -> fs -> list htoken -> list htoken -> hstate -> Prop := passes (Some (lit "example.com")) x_page x_fragment (fun raw => raw) x_scan x_scan x_build x_build.
Definition x_tokens : list htoken :=
  [HStart (lit "head") []; HEmpty (lit "link") [(lit "rel", lit "canonical"); (lit "href", lit "/a")]; HEmpty (lit "meta") [(lit "property", lit "og:url")];
   HEmpty (lit "link") [(lit "rel", lit "stylesheet"); (lit "href", lit "/css/main.css"); (lit "media", lit "print")];
   HComment (lit "[STACK: [""define"", ""title"", ""Hi""]]"); HComment (lit "[TEMPLATE: [""/head.html"", {""title"": {""type"": ""variable"", ""name"": ""title""}}]]"); HComment (lit "[STACK: [""retrieve"", ""title""]]");
   HStart (lit "script") [(lit "async", lit "")]; HChars (lit "run"); HSpace [32]; HChars (lit "()"); HEnd (lit "script");
   HStart (lit "style") []; HChars (lit "p{}"); HEnd (lit "style"); HComment (lit "note"); HEnd (lit "head")].
Definition x_out : list htoken :=
  [HStart (lit "head") []; HEmpty (lit "link") [(lit "href", lit "https://example.com/a"); (lit "rel", lit "canonical")]; HEmpty (lit "meta") [(lit "content", lit "https://example.com/a/index.html"); (lit "property", lit "og:url")];
   HEmpty (lit "link") [(lit "href", lit "/css/main.css?v=abc&pv=" ++ PROCESSOR_VERSION); (lit "media", lit "print"); (lit "rel", lit "stylesheet")];
   HStart (lit "h1") []; HChars (lit "Hi"); HEnd (lit "h1"); HChars (lit "7"); HChars (lit "Hi"); HChars (lit "Hi");
   HStart (lit "script") [(lit "async", lit ""); (lit "src", lit "/js/gen/a/index/1.js?v=hash-of-run+%28%29&pv=" ++ PROCESSOR_VERSION)]; HEnd (lit "script");
   HEmpty (lit "link") [(lit "href", lit "/css/gen/a/index/1.css?v=hash-of-p%7B%7D&pv=" ++ PROCESSOR_VERSION); (lit "rel", lit "stylesheet")]; HComment (lit "note"); HEnd (lit "head")].
Lemma x_page_ok : page_file x_page (lit "a/index").
Proof. exists (lit "a/"), (lit "index"). split; [reflexivity|]. split; [right; exists (lit "a"); split; [reflexivity|intros (r & X); discriminate X]|]. split; [intros X; repeat (destruct X as [X|X]; [discriminate X|]); exact X|]. split; [exists 105; split; [left; reflexivity|discriminate]|reflexivity]. Qed.
Lemma x_build_ok : exists s', x_passes false x_files x_tokens x_out s' /\ links s' = [lit "src/public/css/main.css"] /\ t_seen s' = [lit "src/partials/head.html"; lit "src/partials/nav.html"] /\
  dget (lit "out/www/js/gen/a/index/1.js") (files s') = Some (lit "run ()") /\ dget (lit "src/public/js/gen/a/index/1.js") (files s') = None.
Proof.
  eexists. split; [exists 100%nat; eexists; split; [vm_compute; reflexivity|split; reflexivity]|]. vm_compute. auto.
Qed.
Lemma x_scan_ok : exists out s', x_passes true x_files x_tokens out s' /\ links s' = [lit "src/public/css/main.css"] /\ t_seen s' = [lit "src/partials/head.html"; lit "src/partials/nav.html"] /\ In (lit "out/www/js/gen/a/index/1.js") (o_made s').
Proof.
  eexists. eexists. split; [exists 100%nat; eexists; split; [vm_compute; reflexivity|split; reflexivity]|]. vm_compute. auto 9.
Qed.
Lemma attrs_nodup (d : list (str * str)) : (fix nd (l : list str) := match l with [] => true | x :: r => negb (mem x r) && nd r end) (dkeys d) = true -> dict_wf d.
Proof. unfold dict_wf. induction (dkeys d) as [|x l IH]; intros H; [constructor|]. apply andb_true_iff in H. destruct H as [A B]. constructor; [|exact (IH B)]. intros X. apply mem_In in X. rewrite X in A. discriminate. Qed.
Lemma x_tokens_ok : Forall tag_ok x_tokens.
Proof. unfold x_tokens. repeat (constructor; [first [exact I|apply attrs_nodup; reflexivity]|]). constructor. Qed.
Lemma x_fragment_ok text : Forall tag_ok (x_fragment text).
Proof. unfold x_fragment. repeat match goal with |- context [if ?b then _ else _] => destruct b end; repeat (constructor; [first [exact I|apply attrs_nodup; reflexivity]|]); constructor. Qed.
(** a template that includes itself never ends *)
Definition x_self : htoken := HComment (lit "[TEMPLATE: [""/self.html""]]").
Lemma self_loop scan host fuel : forall rest o s, files s = x_files ->
  loop (manipulators host x_page x_fragment (fun raw => raw) x_scan x_scan x_build x_build scan) fuel (x_self :: rest) {| b_out := o; b_mark := None; b_st := s |} = Raise OutOfFuel.
Proof.
  set (ms := manipulators host x_page x_fragment (fun raw => raw) x_scan x_scan x_build x_build scan).
  assert (T : template_command x_self = Some (lit "/self.html", [])) by (vm_compute; reflexivity). assert (T' : stack_command x_self = None) by (vm_compute; reflexivity).
  assert (P : stack_command (push_cmd (lit "src/partials/self.html")) = Some (lit "push", [JStr (lit "src/partials/self.html")])) by (vm_compute; reflexivity).
  set (tm := template x_fragment (fun raw => raw)).
  assert (M1 : forall s, find_mark ms x_self s = Ret (Some tm, s)).
  { intros s. unfold ms, manipulators. cbn [find_mark start_mark canonical link_hash outline template]. unfold canonical_start, link_start, outline_start, template_start. change (canonical_tag x_self) with (@None (str * str * option str * list (str * str))). change (link_dependency x_self) with (@None (str * str * list (str * str))). cbn [find_mark]. change (inline_script x_self) with (@None (list (str * str))). change (inline_style x_self) with (@None (list (str * str))). rewrite T, T'. reflexivity. }
  assert (M2 : forall s, find_mark ms (push_cmd (lit "src/partials/self.html")) s = Ret (Some tm, s)).
  { intros s. unfold ms, manipulators. cbn [find_mark start_mark canonical link_hash outline template]. unfold canonical_start, link_start, outline_start, template_start. change (canonical_tag (push_cmd (lit "src/partials/self.html"))) with (@None (str * str * option str * list (str * str))). change (link_dependency (push_cmd (lit "src/partials/self.html"))) with (@None (str * str * list (str * str))). cbn [find_mark]. change (inline_script (push_cmd (lit "src/partials/self.html"))) with (@None (list (str * str))). change (inline_style (push_cmd (lit "src/partials/self.html"))) with (@None (list (str * str))). rewrite P. reflexivity. }
  induction fuel as [fuel IH] using lt_wf_ind. intros rest o s Hf. destruct fuel as [|[|fuel]]; [reflexivity|..].
  - cbn [loop b_mark b_st b_out]. rewrite M1. unfold tm. cbn [continue_mark template]. unfold template_continue. rewrite T, T'. unfold handle_template. change (template_import (t_frame s) (lit "/self.html") []) with (Some (lit "src/partials/self.html", @nil (str * json))). cbn [with_templates files]. rewrite Hf. 
    change (dget (lit "src/partials/self.html") x_files) with (Some (lit "SELF")). reflexivity.
  - cbn [loop b_mark b_st b_out]. rewrite M1. unfold tm at 1. cbn [continue_mark template]. unfold template_continue. rewrite T, T'. unfold handle_template. change (template_import (t_frame s) (lit "/self.html") []) with (Some (lit "src/partials/self.html", @nil (str * json))). cbn [with_templates files]. rewrite Hf. 
    change (dget (lit "src/partials/self.html") x_files) with (Some (lit "SELF")). cbn [map app]. change (x_fragment (lit "SELF")) with [x_self]. cbn [app].
    change (stack_comment [JStr (lit "push"); JStr (lit "src/partials/self.html")]) with (push_cmd (lit "src/partials/self.html")).
    cbn [b_mark b_st b_out]. rewrite M2. unfold tm. cbn [continue_mark template]. unfold template_continue. rewrite P. unfold handle_stack. change (str_eqb (lit "push") (lit "push")) with true. cbv iota beta. cbn [app]. apply IH; [lia|exact Hf].
Qed.
Lemma self_pump scan host fuel : x_pump host scan fuel [x_self] = Raise OutOfFuel.
Proof. unfold x_pump, new_builder. cbn [pump handle_token]. unfold handle_token. rewrite self_loop; reflexivity. Qed.
(** the templates without a hand-written [pop] *)
Definition y_fragment (text : str) : list htoken := if str_eqb text (lit "ESCAPE") then [] else x_fragment text.
Definition y_passes : bool -> fs -> list htoken -> list htoken -> hstate -> Prop := passes (Some (lit "example.com")) x_page y_fragment (fun raw => raw) x_scan x_scan x_build x_build.
Definition plain_b (t : htoken) : bool :=
  match t with HComment text => forallb (fun c => c <? 55296) text | _ => true end && match stack_command t with Some (c, _) => negb (str_eqb c (lit "pop")) && negb (str_eqb c (lit "push")) | None => true end.
Lemma plain_b_ok t : plain_b t = true -> plain_token t.
Proof.
  unfold plain_b. intros H. apply andb_true_iff in H. destruct H as [A B]. split; [|split].
  - intros text ->. unfold written. rewrite Forall_forall. intros c Hc. rewrite forallb_forall in A. specialize (A c Hc). apply N.ltb_lt in A. lia.
  - intros l K. apply stack_some in K. rewrite K in B. discriminate B.
  - intros p l K. apply stack_some in K. rewrite K in B. discriminate B.
Qed.
Lemma all_plain ts : forallb plain_b ts = true -> Forall plain_token ts.
Proof. intros H. apply Forall_forall. intros t Ht. rewrite forallb_forall in H. apply plain_b_ok, H, Ht. Qed.
Lemma x_tokens_plain : Forall plain_token x_tokens.
Proof. apply all_plain. vm_compute. reflexivity. Qed.
Lemma y_fragment_plain text : Forall plain_token (y_fragment text).
Proof.
  unfold y_fragment, x_fragment. destruct (str_eqb text (lit "ESCAPE")); [constructor|]. destruct (str_eqb text (lit "HEAD")); [apply all_plain; vm_compute; reflexivity|]. destruct (str_eqb text (lit "NAV")); [apply all_plain; vm_compute; reflexivity|]. destruct (str_eqb text (lit "SELF")); [apply all_plain; vm_compute; reflexivity|]. apply all_plain. reflexivity.
Qed.
Lemma y_fragment_ok text : Forall tag_ok (y_fragment text).
Proof. unfold y_fragment. destruct (str_eqb text (lit "ESCAPE")); [constructor|apply x_fragment_ok]. Qed.
Lemma x_page_written : written x_page.
Proof. unfold written. rewrite Forall_forall. intros c Hc. assert (H : forallb (fun c => c <? 55296) x_page = true) by reflexivity. rewrite forallb_forall in H. specialize (H c Hc). apply N.ltb_lt in H. lia. Qed.
Lemma y_build_ok : exists s', y_passes false x_files x_tokens x_out s'.
Proof. eexists. exists 100%nat. eexists. split; [vm_compute; reflexivity|split; reflexivity]. Qed.

Theorem x_one_by_one : let ts := firstn 4 x_tokens in Forall tag_ok ts /\ Forall one_by_one ts /\ Forall2 (becomes (lit "example.com") (lit "a/index") x_files) ts (firstn 4 x_out).
Proof.
  cbv zeta. assert (Ok : Forall tag_ok (firstn 4 x_tokens)) by (unfold x_tokens; cbn [firstn]; repeat (constructor; [first [exact I|apply attrs_nodup; reflexivity]|]); constructor). assert (O : Forall one_by_one (firstn 4 x_tokens)).
  { unfold x_tokens; cbn [firstn]. constructor; [|constructor; [|constructor; [|constructor; [|constructor]]]].
    - left. apply ordinary_none. vm_compute. auto 9.
    - right. left. eexists _, _, _. split; [apply HintLink; reflexivity|]. intros u r X Y. vm_compute in X. injection X as <-. discriminate Y.
    - right. left. eexists _, _, _. split; [apply HintMeta; reflexivity|]. intros u r X Y. vm_compute in X. discriminate X.
    - right. right. exists [(lit "rel", lit "stylesheet"); (lit "href", lit "/css/main.css"); (lit "media", lit "print")], (lit "href"), (lit "css/main.css"). split; [apply RefLink; left; reflexivity|]. split; [reflexivity|]. split; intros X; repeat (destruct X as [X|X]; [discriminate X|]); exact X. }
  split; [exact Ok|]. split; [exact O|]. apply (one_by_one_build (lit "example.com") x_page (lit "a/index") x_fragment (fun raw => raw) x_scan x_scan x_build x_build x_page_ok x_fragment_ok x_files _ _ Ok O).
  eexists. exists 9%nat. eexists. split; [vm_compute; reflexivity|split; reflexivity].
Qed.
