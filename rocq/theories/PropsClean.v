(** C46: cleaning a project. *)
From Verif Require Import Base Graph GraphJson GraphSpec Json Clean CleanSpec CleanProofs.
From Coq Require Import String ZArith NArith Bool List.
Import ListNotations.
Open Scope list_scope.
Open Scope N_scope.

(** after a successful clean the files that remain, with their contents, are exactly those
    that are not in out/, not in artifacts/ and, if asked for, not recorded as generated
    placeholders *)
Theorem C46_clean : forall float_parse ph f f', dict_wf f -> clean float_parse ph f = Some (Ret f') ->
  forall p, ((below (lit "out") p \/ below (lit "artifacts") p \/ (ph = true /\ generated float_parse f p)) -> dget p f' = None) /\
            (~ (below (lit "out") p \/ below (lit "artifacts") p \/ (ph = true /\ generated float_parse f p)) -> dget p f' = dget p f).
Proof. exact clean_exact. Qed.
Print Assumptions C46_clean.
(** it succeeds in a project folder if the recorded placeholders can be read and exist *)
Theorem C46_succeeds : forall float_parse ph f, dict_wf f -> dget (lit "vanillaplusjs.json") f <> None ->
  (ph = true -> forall text, dget (lit "out/placeholder_graph.json") f = Some text -> load float_parse text <> None) ->
  (ph = true -> forall p, generated float_parse f p -> dget p f <> None) ->
  exists f', clean float_parse ph f = Some (Ret f').
Proof. exact clean_total. Qed.
Print Assumptions C46_succeeds.
(** outside a project nothing is done *)
Theorem C46_no_project : forall float_parse ph f, dget (lit "vanillaplusjs.json") f = None -> clean float_parse ph f = None.
Proof. intros fp ph f H. unfold clean, dmem. rewrite H. reflexivity. Qed.
Print Assumptions C46_no_project.
(** finding: if a recorded placeholder has been deleted already the clean always fails *)
Theorem C46_missing_refuted : forall float_parse f p, dict_wf f -> dget (lit "vanillaplusjs.json") f <> None ->
  generated float_parse f p -> dget p f = None -> clean float_parse true f = Some (Raise FileNotFoundError).
Proof. exact clean_missing. Qed.
Print Assumptions C46_missing_refuted.
(** the command: without a yes (option, or first valid answer typed) no file outside out/
    and artifacts/ is touched *)
Theorem C46_confirmation : forall float_parse yes no answers f f', dict_wf f -> main float_parse yes no answers f = Ret (Some f') ->
  ~ (yes = true \/ (no = false /\ answers_yes answers)) ->
  forall p, ~ below (lit "out") p -> ~ below (lit "artifacts") p -> dget p f' = dget p f.
Proof. exact main_choice. Qed.
Print Assumptions C46_confirmation.
(** with a yes all recorded placeholders go *)
Theorem C46_confirmed : forall float_parse yes no answers f f', dict_wf f -> main float_parse yes no answers f = Ret (Some f') ->
  (yes = true \/ (no = false /\ answers_yes answers)) ->
  forall p, generated float_parse f p -> dget p f' = None.
Proof. exact main_agrees. Qed.
Print Assumptions C46_confirmed.
(** if no placeholder is recorded the command cleans without asking *)
Theorem C46_no_question : forall float_parse yes no answers f, dict_wf f -> dget (lit "vanillaplusjs.json") f <> None ->
  (forall text, dget (lit "out/placeholder_graph.json") f = Some text -> load float_parse text <> None) ->
  (forall p, ~ generated float_parse f p) ->
  exists f', main float_parse yes no answers f = Ret (Some f').
Proof. exact main_silent. Qed.
Print Assumptions C46_no_question.
(** a project with one placeholder [b] generated by [a] *)
Definition ex_graph : str := store print_Z (history [OpAdd (lit "b") 1 2 3 []; OpAdd (lit "a") 1 2 3 [lit "b"]]).
Definition ex_project : fs :=
  [(lit "vanillaplusjs.json", []); (lit "a", []); (lit "b", []); (lit "out/placeholder_graph.json", ex_graph); (lit "out/www/a", []); (lit "outer", []); (lit "artifacts/x/y", [])].
Example C46_case : dict_wf ex_project /\
  main parse_Z false false [lit "what"; lit "Y"] ex_project = Ret (Some [(lit "vanillaplusjs.json", []); (lit "a", []); (lit "outer", [])]) /\
  main parse_Z false false [lit "n"; lit "y"] ex_project = Ret (Some [(lit "vanillaplusjs.json", []); (lit "a", []); (lit "b", []); (lit "outer", [])]) /\
  main parse_Z false false [] (ddel (lit "out/placeholder_graph.json") ex_project) <> Ret None /\
  clean parse_Z true (ddel (lit "b") ex_project) = Some (Raise FileNotFoundError).
Proof.
  split; [|split; [|split; [|split]]]; try (vm_compute; reflexivity); try (vm_compute; discriminate).
  unfold dict_wf. repeat (apply NoDup_cons; [vm_compute; intuition discriminate|]). apply NoDup_nil.
Qed.
