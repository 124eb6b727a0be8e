(** What the scan of a stylesheet without imports finds, its build finds. *)
From Verif Require Import Base Graph Css Builder PyPath PyNorm CssVersion CssVersionSpec CssVersionProofs Handlers Nest Js JsYield Hot Project ProjectPump.
From Coq Require Import String ZArith NArith Bool List Lia.
Import ListNotations.
Open Scope list_scope.

Section Sheets.
Context (K : setting) (p : str) (read read2 : fs).
Notation ctoken := (token (F := k_float K)).
Notation cstate := (nstate (F := k_float K) * vstate)%type.
Notation scans := (css_manips K p read true).
Notation builds := (css_manips K p read2 false).
Lemma nest_passes scan (t : ctoken) n : get_import (k_css K) t = None -> exists n', nest_start (k_css K) p scan t n = Ret (false, n') /\ n_seen n' = n_seen n.
Proof. intros H. unfold nest_start. rewrite H. destruct t; eexists; (split; [reflexivity|]); try reflexivity; destruct scan; reflexivity. Qed.
Lemma sheet_found (r : fs) scan (t : ctoken) n v x : get_import (k_css K) t = None -> find_mark (css_manips K p r scan) t (n, v) = Ret x ->
  exists n' b v', v_start p scan t v = Ret (b, v') /\ n_seen n' = n_seen n /\ x = (if b then Some (lift_snd (version_urls p r scan)) else None, (n', v')).
Proof.
  intros H. unfold css_manips. cbn [find_mark]. unfold lift_fst, lift_snd at 1. cbn [start_mark nest no_icons_or_images version_urls fst snd]. destruct (nest_passes scan t n H) as (n' & E & S). rewrite E. cbn [fst snd].
  destruct (left_out K t); [discriminate|]. cbn [fst snd]. destruct (v_start p scan t v) as [[[|] v']|]; [| |discriminate]; intros X; injection X as <-; [exists n', true, v'|exists n', false, v']; auto.
Qed.
Notation plain := (Forall (fun t : ctoken => get_import (k_css K) t = None)).
Lemma loop_sheet f : forall g stack o o2 n n2 v b1 b2, plain stack -> n_seen n = n_seen n2 -> loop scans f stack {| b_out := o; b_mark := None; b_st := (n, v) |} = Ret b1 -> loop builds g stack {| b_out := o2; b_mark := None; b_st := (n2, v) |} = Ret b2 ->
  b_mark b1 = None /\ b_mark b2 = None /\ n_seen (fst (b_st b1)) = n_seen (fst (b_st b2)) /\ snd (b_st b1) = snd (b_st b2).
Proof.
  induction f as [|f IH]; intros g [|t rest] o o2 n n2 v b1 b2 Hp Hn L1 L2; cbn [loop] in L1; try discriminate.
  1, 2: injection L1 as <-; destruct g; cbn [loop] in L2; injection L2 as <-; auto.
  destruct g as [|g]; cbn [loop] in L2; [discriminate|]. cbn [b_mark b_st b_out] in *. inversion Hp as [|x y Ht Hr]; subst.
  destruct (find_mark scans t (n, v)) as [x|] eqn:E1; [|discriminate]. destruct (find_mark builds t (n2, v)) as [y|] eqn:E2; [|discriminate].
  destruct (sheet_found _ _ _ _ _ _ Ht E1) as (n' & r1 & v' & V1 & N1 & ->). destruct (sheet_found _ _ _ _ _ _ Ht E2) as (n2' & r2 & v2' & V2 & N2 & ->). destruct v as [u l].
  destruct (url_of u t) as [w|] eqn:U; [destruct (hash_path p w) as [h|] eqn:Hh|].
  - destruct (start_some p u l t w h U Hh) as (S1 & S2 & Nf). rewrite S2 in V1. rewrite S1 in V2. injection V1 as <- <-. injection V2 as <- <-.
    unfold lift_snd in L2. cbn [continue_mark version_urls fst snd] in L2. unfold v_continue in L2.
    assert (Hv : value_of t = Some w) by (destruct u, t; cbn in U |- *; congruence). rewrite Hv, Hh in L2. destruct (read2 h) as [hash|]; [|discriminate]. cbn [app] in L2. change (v_in_url {| v_in_url := u; v_seen := l |}) with u in L2. change (v_seen {| v_in_url := u; v_seen := l |}) with l in L2.
    set (t' := with_value t _) in L2. destruct g as [|g]; cbn [loop] in L2; [discriminate|]. cbn [b_mark b_st b_out] in L2.
    assert (Ht' : get_import (k_css K) t' = None) by (destruct u, t; try discriminate U; reflexivity). destruct (find_mark builds t' _) as [y|] eqn:E3; [|discriminate].
    destruct (sheet_found _ _ _ _ _ _ Ht' E3) as (n3 & r3 & v3 & V3 & N3 & ->).
    assert (U' : url_of u t' = Some (w ++ suffix hash)) by (unfold t'; destruct u, t; cbn in U |- *; try discriminate U; injection U as ->; reflexivity).
    assert (Nf' : next_flag u t' = u) by (unfold t'; destruct u, t; try discriminate U; reflexivity).
    pose proof (start_none p false u (CssVersion.set_add h l) t') as X. rewrite X in V3 by (intros z Z; rewrite U' in Z; injection Z as <-; apply stamped_not_wanted). injection V3 as <- <-. rewrite Nf' in L2.
    eapply IH; [exact Hr| |exact L1|exact L2]. congruence.
  - assert (X : forall scan, v_start p scan t {| v_in_url := u; v_seen := l |} = Ret (false, {| v_in_url := next_flag u t; v_seen := l |})) by (intros scan; apply start_none; intros z Z; rewrite U in Z; injection Z as <-; exact Hh). rewrite X in V1, V2. injection V1 as <- <-. injection V2 as <- <-.
    eapply IH; [exact Hr| |exact L1|exact L2]. congruence.
  - assert (X : forall scan, v_start p scan t {| v_in_url := u; v_seen := l |} = Ret (false, {| v_in_url := next_flag u t; v_seen := l |})) by (intros scan; apply start_none; intros z Z; rewrite U in Z; discriminate). rewrite X in V1, V2. injection V1 as <- <-. injection V2 as <- <-.
    eapply IH; [exact Hr| |exact L1|exact L2]. congruence.
Qed.
Lemma pump_sheet f g : forall ts n n2 v o1 b1 o2 b2, plain ts -> n_seen n = n_seen n2 -> pump scans f ts (new_builder (n, v)) = Ret (o1, b1) -> pump builds g ts (new_builder (n2, v)) = Ret (o2, b2) ->
  n_seen (fst (b_st b1)) = n_seen (fst (b_st b2)) /\ snd (b_st b1) = snd (b_st b2).
Proof.
  induction ts as [|t ts IH]; intros n n2 v o1 b1 o2 b2 Hp Hn L1 L2; cbn [pump] in *; [injection L1 as _ <-; injection L2 as _ <-; auto|]. unfold handle_token, new_builder in *. inversion Hp as [|x y Ht Hr]; subst.
  destruct (loop scans f [t] _) as [c1|] eqn:E1; [|discriminate]. destruct (loop builds g [t] _) as [c2|] eqn:E2; [|discriminate]. cbn [consume_tokens] in *.
  destruct (pump scans f ts _) as [[p1 d1]|] eqn:P1; [|discriminate]. destruct (pump builds g ts _) as [[p2 d2]|] eqn:P2; [|discriminate]. injection L1 as _ <-. injection L2 as _ <-.
  destruct (loop_sheet f g [t] [] [] n n2 v c1 c2 ltac:(repeat constructor; exact Ht) Hn E1 E2) as (M1 & M2 & N & V). rewrite M1 in P1. rewrite M2 in P2. destruct (b_st c1) as [m1 w1], (b_st c2) as [m2 w2]. cbn [fst snd] in *. subst w2. eapply IH; eassumption.
Qed.
End Sheets.
