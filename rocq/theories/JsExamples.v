From Verif Require Import Base Graph Css CssSpec CssSound Js JsTables JsSpec JsProofs JsRoundSpec JsRound.
From Coq Require Import String ZArith NArith Bool List Lia ZifyN ZifyBool.
Import ListNotations.
Open Scope list_scope.
Open Scope N_scope.

Definition script : str := lit "import {a} from ""/b.js""; // it's */ a\comment" ++ [10] ++ lit "x = y / 2;" ++ [10].
(** one step of [js_spelled_as], checked by running the tokenizer on the rest *)
Lemma spelled_step t ts p rest : p <> [] -> js_next (S (length (p ++ rest))) (hd 0 (p ++ rest)) (tl (p ++ rest)) = Ret (t, rest) -> tame t p -> js_spelled_as tame ts rest -> js_spelled_as tame (t :: ts) (p ++ rest).
Proof.
  intros Hp E Ht H. destruct (p ++ rest) as [|c r] eqn:Ea; [destruct p; [congruence|discriminate]|]. cbn [hd tl] in E. destruct (js_next_sound (S (length (c :: r))) c r ltac:(lia)) as (t' & p' & rest' & E' & Es & Hp' & Hd).
  rewrite E in E'. injection E' as <- <-. rewrite <- Ea. assert (p' = p) as -> by (rewrite <- Ea in Es; apply app_inv_tail in Es; congruence). apply JaMore; assumption.
Qed.
Ltac piece x := match goal with |- js_spelled_as _ _ ?s => let r := eval vm_compute in (skipn (length x) s) in let p := eval vm_compute in x in change s with (p ++ r) end;
  eapply spelled_step; [discriminate|vm_compute; reflexivity| |].
Ltac nob := cbn; intuition discriminate.
Ltac plains := repeat constructor; discriminate.
Lemma script_tame : exists ts, js_spelled_as tame ts script.
Proof.
  eexists. unfold script. match goal with |- js_spelled_as _ _ ?s => let r := eval vm_compute in s in change s with r end.
  piece (lit "import"); [nob|]. piece [32]; [exact I|]. piece [123]; [exact I|]. piece (lit "a"); [nob|]. piece [125]; [exact I|]. piece [32]; [exact I|]. piece (lit "from"); [nob|]. piece [32]; [exact I|].
  piece (lit """/b.js"""); [plains|]. piece [59]; [exact I|]. piece [32]; [exact I|]. piece (lit "// it's */ a\comment"); [exact I|]. piece [10]; [exact I|].
  piece (lit "x"); [nob|]. piece [32]; [exact I|]. piece (lit "="); [right; nob|]. piece [32]; [exact I|]. piece (lit "y"); [nob|]. piece [32]; [exact I|]. piece (lit "/ 2;"); [left; reflexivity|]. piece [10]; [exact I|]. apply JaEnd.
Qed.
Lemma script_bare : bare (lit "import * as a; b = c / 2;" ++ [10]).
Proof.
  repeat split; try (intros X; repeat (destruct X as [X|X]; [discriminate|]); exact X); intros a b E; repeat (destruct a as [|? a]; [discriminate|injection E as _ E; try (destruct a; discriminate)]).
Qed.
Lemma unicode_string_lost : exists v v2, js_tokenize (js_serialize (JString v)) = Ret [JString v2; JEof] /\ v2 <> v.
Proof. exists [233], (lit "e9"). split; [vm_compute; reflexivity|discriminate]. Qed.
(** the address in the template literal becomes a comment that runs past its end *)
Lemma template_lost : exists ts, js_tokenize (lit "`http://a`;") = Ret ts /\ js_serialize_many ts = lit "`http:/*a`;*/".
Proof. eexists. split; vm_compute; reflexivity. Qed.
Lemma hex_escape_lost : js_tokenize (lit """\x41""") = Ret [JString (lit "x41"); JEof].
Proof. vm_compute. reflexivity. Qed.
Lemma continuation_kept : exists ts, js_tokenize ([34; 97; 92; 10; 98; 34]) = Ret ts /\ js_serialize_many ts = lit """a\nb""".
Proof. eexists. split; vm_compute; reflexivity. Qed.
Lemma end_escape : js_tokenize (lit "\u{41}") <> Ret [JIdent (lit "A"); JEof] /\ js_tokenize (lit "\u{41};") = Ret [JIdent (lit "A"); JSemi; JEof].
Proof. split; vm_compute; [discriminate|reflexivity]. Qed.
Lemma digit_starts : id_start 49 /\ ~ id_start 95 /\ ~ id_start 36.
Proof. rewrite <- !is_id_start_iff. repeat split; vm_compute; try reflexivity; discriminate. Qed.
