(** What the run over a stylesheet writes. *)
From Verif Require Import Base Graph PyPath PyNorm Css CssVersion CssVersionSpec CssVersionProofs Builder BuilderSpec BuilderProofs Handlers OutlineData IconManip Nest NestSpec NestText NestProofs NestSound Js JsYield JsManip Hot Project ProjectCss.
From Coq Require Import String ZArith NArith Bool List.
Import ListNotations.
Open Scope list_scope.

Section Sheet.
Context (K : setting) (p : str) (s : fs).
Notation ctoken := (token (F := k_float K)).
Notation cstate := (nstate (F := k_float K) * vstate)%type.
Notation get_import := (get_import (k_css K)).
Notation import := (import (k_css K)).
Notation ms := (css_manips K p s false).
Notation rule_of := (rule_of (k_float_of K) (k_float_str K) (k_high_digit K) (k_int_high K) p s).
Notation expanded := (expanded rule_of import).
Notation readable := (readable (k_float_of K) (k_high_digit K) (k_int_high K) p s).
Notation fine := (fine (k_float_of K) (k_float_str K) (k_high_digit K) (k_int_high K) (k_css K) p s).

Lemma v_start_false (t : ctoken) b l r : v_start p false t {| v_in_url := b; v_seen := l |} = Ret (false, r) -> (forall v, url_of b t = Some v -> hash_path p v = None) /\ r = {| v_in_url := next_flag b t; v_seen := l |}.
Proof.
  intros H. assert (X : forall v, url_of b t = Some v -> hash_path p v = None).
  { intros v Hv. destruct (hash_path p v) as [h|] eqn:E; [|reflexivity]. destruct (start_some p b l t v h Hv E) as (A & _). congruence. }
  split; [exact X|]. pose proof (start_none p false b l t X). congruence.
Qed.
Lemma v_start_true (t : ctoken) b l r : v_start p false t {| v_in_url := b; v_seen := l |} = Ret (true, r) -> exists v h, url_of b t = Some v /\ hash_path p v = Some h.
Proof.
  intros H. destruct (url_of b t) as [v|] eqn:E; [destruct (hash_path p v) as [h|] eqn:Eh; [eauto|]|]; (assert (X : v_start p false t {| v_in_url := b; v_seen := l |} = Ret (false, {| v_in_url := next_flag b t; v_seen := l |})) by (apply start_none; intros w Hw; congruence)); congruence.
Qed.
Lemma css_composed a ts out lost a' : rewrites ms a ts out lost a' -> fine (fst a) -> (forall t r, In t ts -> import t r -> readable r) ->
  lost = [] /\ exists mid, expanded ts mid /\ stamped p s (v_in_url (snd a)) mid out.
Proof.
  intros H. induction H as [a|t a a1 ts out lost a2 D R IH|t m a a1 seg repl a2 ts out lost a3 M RP R IH|t m a a1 seg a2 M HD]; intros FN RD.
  - split; [reflexivity|]. exists []. split; constructor.
  - apply css_declined in D. destruct D as (D1 & _ & D2 & D3 & _ & D4). destruct a as [n [b l]]. cbn [fst snd v_in_url] in *. destruct (v_start_false _ _ _ _ D4) as (D5 & D6).
    destruct IH as (-> & mid & M1 & M2); [destruct FN as (G & J); split; [rewrite D2; exact G|intros file g X; exact (J file g (D3 _ _ X))]|intros x r I; apply RD; right; exact I|].
    split; [reflexivity|]. exists (t :: mid). split; [apply ExpandedToken; [apply import_none; exact D1|exact M1]|]. rewrite D6 in M2. cbn [v_in_url] in M2. apply (StSame _ _ _ (next_flag b t)); [|apply next_flag_spec; reflexivity|exact M2].
    intros v Hv. apply url_of_spec in Hv. apply hash_path_none. exact (D5 v Hv).
  - destruct (css_replaced _ _ _ _ _ _ _ M) as (_ & X). destruct (X _ _ _ RP) as (-> & [(x & y & E1 & E2 & ->)|(D1 & D2 & D3 & _ & D4 & D5)]); clear X M RP.
    + apply nest_start_seen in E1. destruct E1 as (_ & _ & _ & _ & S3 & S4). cbn [fst snd] in *.
      assert (FX : fine x) by (destruct FN as (G & J); split; [rewrite S3; exact G|intros file g X; exact (J file g (S4 _ _ X))]).
      destruct (get_import t) as [r|] eqn:I; [|unfold nest_continue in E2; rewrite I in E2; discriminate].
      assert (RR : readable r) by (apply (RD t r); [left; reflexivity|apply get_import_iff; exact I]).
      destruct (continue_sound _ _ _ _ _ _ _ _ _ _ _ _ _ _ FX I RR E2) as (v & Ev & V & P & F2 & _). injection Ev as ->.
      assert (GP : forall z, In z v -> get_import z = None) by (intros z Hz; unfold NestProofs.plain in P; rewrite Forall_forall in P; exact (proj1 (P z Hz))).
      destruct IH as (-> & mid & M1 & M2); [exact F2|intros z rz Iz Hz; apply in_app_iff in Iz; destruct Iz as [Iz|Iz]; [apply get_import_iff in Hz; rewrite (GP z Iz) in Hz; discriminate|apply (RD z rz); [right; exact Iz|exact Hz]]|].
      split; [reflexivity|]. apply expanded_plain_inv in M1; [|exact GP]. destruct M1 as (z & -> & Z). exists (v ++ z). split; [|exact M2]. apply (ExpandedImport _ _ _ r); [apply get_import_iff; exact I|exact V|exact Z].
    + destruct a as [n [b l]]. cbn [fst snd v_in_url] in *. destruct (v_start_true _ _ _ _ D4) as (v & h & Hv & Hh). unfold v_continue in D5.
      assert (Hw : value_of t = Some v) by (destruct b, t; cbn in Hv |- *; congruence). rewrite Hw, Hh in D5. destruct (s h) as [hash|] eqn:Eh; [|discriminate]. injection D5 as <- D5.
      change ([63%N] ++ urlencode [(lit "v", hash); (lit "pv", PROCESSOR_VERSION)]) with (suffix hash) in *. set (t' := with_value t (v ++ suffix hash)) in *.
      assert (E : t' = match t with TUrl _ => TUrl (v ++ suffix hash) | _ => TString (v ++ suffix hash) end) by (unfold t'; destruct b, t; cbn in Hv |- *; congruence).
      assert (GN : get_import t' = None) by (rewrite E; destruct t; reflexivity).
      destruct IH as (-> & mid & M1 & M2).
      { destruct FN as (G & J); split; [rewrite D2; exact G|intros file g X; exact (J file g (D3 _ _ X))]. }
      { intros z rz [<-|Iz] Hz; [apply get_import_iff in Hz; discriminate (eq_trans (eq_sym GN) Hz)|]. apply (RD z rz); [right; exact Iz|exact Hz]. }
      split; [reflexivity|]. apply (expanded_plain_inv _ _ _ _ _ _ _ [t']) in M1; [|intros z [<-|[]]; exact GN]. destruct M1 as (z & -> & Z). exists (t :: z). split; [apply ExpandedToken; [apply import_none; exact D1|exact Z]|].
      rewrite <- D5 in M2. cbn [v_in_url app] in M2.
      assert (Hn : forall w, at_url b t' w -> ~ wants_version p w).
      { intros w Hz. apply url_of_spec in Hz. assert (w = v ++ suffix hash) as -> by (rewrite E in Hz; destruct b, t; cbn in Hv, Hz; try discriminate; injection Hz as <-; reflexivity). apply hash_path_none. apply stamped_not_wanted. }
      assert (Hf : next_flag b t' = b) by (rewrite E; destruct b, t; cbn in Hv |- *; congruence).
      inversion M2 as [|b0 t0 w w' ts0 out0 A W V M3|b0 b1 t0 ts0 out0 A N M3]; subst; [destruct (Hn w A W)|]. apply next_flag_spec in N. rewrite Hf in N. subst b1. rewrite E.
      apply hash_path_some in Hh. destruct Hh as (W & rel & -> & ->). eapply StVersion; [apply url_of_spec; exact Hv|exact W| |exact M3]. exists rel, hash. rewrite suffix_eq. auto.
  - destruct (css_replaced _ _ _ _ _ _ _ M) as (X & _). destruct (X _ _ HD).
Qed.
Lemma css_written out ch rs : css_run K false p s = Some (out, ch, rs) ->
  exists text ts, s p = Some text /\ tokenize (k_float_of K) (k_high_digit K) (k_int_high K) text = (ts, None) /\
    ((forall t r, In t ts -> import t r -> readable r) -> exists mid res, expanded ts mid /\ stamped p s false mid res /\ out = serialize_many (k_float_str K) res).
Proof.
  unfold css_run. destruct (s p) as [text|]; [|discriminate]. destruct (tokenize _ _ _ text) as [ts [e|]] eqn:ET; [discriminate|]. destruct (pump _ _ _ _) as [[res b]|] eqn:E; [|discriminate]. destruct (existsb _ _); [discriminate|]. intros H. injection H as <- <- <-.
  exists text, ts. split; [reflexivity|]. split; [exact ET|]. intros RD. assert (X : exists lost, rewrites ms (nest_init, v_init) ts res lost (b_st b)) by (apply pump_rewrites; exists (k_fuel K), b; split; [exact E|reflexivity]). destruct X as (lost & X).
  destruct (css_composed _ _ _ _ _ X (init_fine _ _ _ _ _ _ _) RD) as (_ & mid & M1 & M2). exists mid, res. auto.
Qed.
End Sheet.
