From Verif Require Import Base Graph Css CssSpec CssSound CssRoundSpec CssRound Js JsTables JsSpec JsProofs JsRoundSpec.
From Coq Require Import String ZArith NArith Bool List Lia ZifyN ZifyBool ZifyNat.
Import ListNotations.
Open Scope list_scope.
Open Scope N_scope.

(** * Comments *)
Lemma guard_cons c v : guard (c :: v) = match v with d :: r2 => if (c =? 42) && (d =? 47) then 42 :: 92 :: 47 :: guard r2 else c :: guard v | [] => [c] end.
Proof. destruct v; reflexivity. Qed.
Lemma guard_head n : forall v, (length v < n)%nat -> begins (fun d => d = 47) (guard v) -> begins (fun d => d = 47) v.
Proof.
  intros v _ (d & t & E & ->). destruct v as [|c v]; [discriminate|]. rewrite guard_cons in E. destruct v as [|x v]; [injection E as ->; exists 47, []; auto|].
  destruct ((c =? 42) && (x =? 47)); [discriminate|]. injection E as -> _. exists 47, (x :: v). auto.
Qed.
Lemma guard_no_end n : forall v, (length v < n)%nat -> no_end (guard v).
Proof.
  induction n as [|n IH]; intros v Hf; [lia|]. destruct v as [|c v]; [intros [|? ?] b; discriminate|]. rewrite guard_cons. cbn [length] in Hf. destruct v as [|d v].
  - intros a b E. destruct a as [|? [|? a]]; discriminate.
  - destruct ((c =? 42) && (d =? 47)) eqn:E.
    + cbn [length] in Hf. apply no_end_cons; [apply no_end_cons; [apply no_end_cons; [apply IH; lia|]|]|]; intros (X & d' & t & Y & Z); try discriminate. injection Y as <- _. discriminate.
    + apply no_end_cons; [apply IH; lia|]. intros (-> & Hb). apply (guard_head (S (length (d :: v)))) in Hb; [|lia]. destruct Hb as (x & t & X & ->). injection X as -> ->. discriminate.
Qed.
Lemma guard_safe v : no_end (guard v).
Proof. apply (guard_no_end (S (length v))). lia. Qed.
Lemma guard_same v : no_end v -> guard v = v.
Proof.
  induction v as [|c v IH]; intros H; [reflexivity|]. rewrite guard_cons. destruct v as [|d v]; [reflexivity|]. destruct ((c =? 42) && (d =? 47)) eqn:E.
  - exfalso. assert (c = 42) by lia. assert (d = 47) by lia. subst. apply (H [] v). reflexivity.
  - f_equal. apply IH. eapply no_end_tail. exact H.
Qed.
Theorem comment_closed v rest ts : js_tokenize rest = Ret ts -> js_tokenize (js_serialize (JComment v) ++ rest) = Ret (JComment (guard v) :: ts).
Proof.
  intros H. apply js_tokenize_iff in H. apply js_tokenize_iff. apply (JsMore (JComment (guard v)) ts ([47; 42] ++ guard v ++ [42; 47]) rest); [discriminate| |exact H]. constructor. apply guard_safe.
Qed.

(** * Strings *)
Lemma ahead_u s : escape_ahead s -> exists r, s = 117 :: r.
Proof. intros H. destruct H; eexists; reflexivity. Qed.
Lemma string_spelled q rest : q = 34 \/ q = 39 -> forall v, Forall plain_char v -> js_spells q rest (flat_map (serialize_char (q_simple q)) v) v.
Proof.
  intros Hq. induction v as [|c v IH]; intros H; [constructor|]. inversion H as [|? ? Hc Hv]; subst. specialize (IH Hv). cbn [flat_map]. unfold serialize_char at 1.
  assert (Go : forall x, simple_escape x c -> x <> 117 -> js_spells q rest (92 :: x :: flat_map (serialize_char (q_simple q)) v) (c :: v)).
  { intros x Hx Hn. apply JsEsc; [exact Hx| |exact IH]. intros Ha. apply ahead_u in Ha. destruct Ha as (r & E). injection E as E _. congruence. }
  destruct (q_simple q c) eqn:Eq.
  - cbn [app]. assert (D : c = q \/ c = 92) by (unfold q_simple in Eq; cbn [existsb app] in Eq; lia). apply Go; [apply simple_escape_iff; destruct Hq; destruct D; subst; reflexivity|lia].
  - assert (D : c <> q /\ c <> 92) by (unfold q_simple in Eq; cbn [existsb app] in Eq; lia).
    destruct (special c) as [x|] eqn:Es.
    + cbn [app]. unfold special in Es. repeat match type of Es with (if ?b then _ else _) = _ => destruct b eqn:?E; [injection Es as <-; match goal with H : (c =? _) = true |- _ => apply N.eqb_eq in H; subst c end; apply Go; [constructor|discriminate]|] end. discriminate.
    + assert (R : 32 <= c <= 126) by (destruct Hc as [R|R]; [exact R|]; exfalso; cbn [In] in R; unfold special in Es; repeat match type of Es with (if ?b then _ else _) = _ => destruct b eqn:?E; [discriminate|] end; lia).
      destruct ((c <=? 8) || (c =? 11) || ((14 <=? c) && (c <=? 31)) || (127 <=? c)) eqn:E; [lia|]. cbn [app]. apply JsChar; [tauto| |tauto|exact IH]. unfold js_newline. lia.
Qed.

(** * Copied tokens *)
Lemma id_copied rest b p v : id_spells rest b p v -> ~ In 92 p -> p = v.
Proof.
  intros H. induction H as [b|c p v Hc H IH|c p v Hc H IH|b e x p v He Ha H IH]; intros Hn; [reflexivity| | |exfalso; apply Hn; left; reflexivity]; f_equal; apply IH; intros X; apply Hn; right; exact X.
Qed.
Lemma js_copied q rest p v : js_spells q rest p v -> ~ In 92 p -> p = v.
Proof.
  intros H. induction H as [|c p v H1 H2 H3 H IH|e x p v He Ha H IH|c x p v He Ha H IH]; intros Hn; [reflexivity| |exfalso; apply Hn; left; reflexivity|exfalso; apply Hn; left; reflexivity]. f_equal. apply IH. intros X. apply Hn. right. exact X.
Qed.
Definition rewritten (t : jtok) : bool := match t with JComment _ | JString _ | JNewline => true | _ => false end.
Lemma word_serialized v t : word_token v t -> js_serialize t = v /\ rewritten t = false /\ (forall p, tame t p <-> ~ In 92 p).
Proof. intros H. destruct H; (split; [reflexivity|]); (split; [reflexivity|]); intros p; reflexivity. Qed.
Theorem tame_copied t p rest : js_denotes t p rest -> tame t p -> rewritten t = false -> js_serialize t = p.
Proof.
  intros H Ht Hr. destruct H as [v rest Hv Hs Hn|x rest Hx|v rest Hv Hn|v rest Hv|v Hv|p v t rest Hp Hs Hg Hw|rest|rest|rest|rest|rest|q p v rest Hq Hs|q p v rest Hq Hs He|q p v Hq Hs|b f rest Hb Hc Hx Hfl He|b l rest Hc Hx He|x rest H1 H2 H3 H4 H5]; try reflexivity; try discriminate.
  - destruct (word_serialized v t Hw) as (E & _ & Hp'). apply Hp' in Ht. rewrite E. symmetry. eapply id_copied; eassumption.
  - cbn [tame js_serialize] in *. destruct Ht as [->|Ht]; [lia|]. f_equal. symmetry. eapply js_copied; [exact Hs|]. intros X. apply Ht. right. exact X.
  - cbn [tame js_serialize] in *. exfalso. destruct Ht as [->|Ht]; [lia|]. apply Ht. right. apply in_or_app. right. left. reflexivity.
Qed.

(** * The whole text *)
Definition norm (t : jtok) : jtok := match t with JComment v => JComment (guard v) | _ => t end.
Definition class_le (c c' : N) : Prop :=
  (js_newline c -> js_newline c') /\ (js_space c' -> js_space c) /\ (id_part c' -> id_part c) /\ (js_flag c' -> js_flag c) /\ c' <> 92.
Lemma class_same c : c <> 92 -> class_le c c.
Proof. intros H. repeat split; auto. Qed.
Lemma class_other c c' : ~ js_newline c -> ~ js_space c' -> ~ id_part c' -> ~ js_flag c' -> c' <> 92 -> class_le c c'.
Proof. intros. repeat split; tauto. Qed.
Lemma punct_other c : In c [10; 47; 34; 39] -> ~ js_space c /\ ~ id_part c /\ ~ js_flag c /\ c <> 92.
Proof.
  intros H. rewrite <- is_whitespace_iff, <- id_part_iff, <- is_flag_iff. repeat (destruct H as [<-|H]; [repeat split; vm_compute; discriminate|]). destruct H.
Qed.
Lemma rx_change rest rest' l b l2 : (begins (fun d => d = 47) rest' -> begins (fun d => d = 47) rest) -> rx rest l b l2 -> rx rest' l b l2.
Proof.
  intros Hr H. induction H as [l|l b l2 H IH|l b l2 H IH|l b l2 H IH|l c b l2 H1 H2 H3 H4 H5 H IH]; constructor; try assumption.
  intros Hc X. apply (H5 Hc). destruct b as [|d b]; [apply Hr; exact X|]. destruct X as (y & t & E & ->). injection E as -> _. exists 47, (b ++ rest). auto.
Qed.
Lemma tame_again t p rest rest' : js_denotes t p rest -> tame t p -> (ends_line rest -> ends_line rest') ->
  (begins js_space rest' -> begins js_space rest) -> (begins id_part rest' -> begins id_part rest) -> (begins js_flag rest' -> begins js_flag rest) -> ~ begins (fun c => c = 92) rest' -> (rest = [] -> rest' = []) ->
  js_denotes (norm t) (js_serialize t) rest'.
Proof.
  intros H Ht R1 R2 R3 R4 R5 R6. destruct (rewritten t) eqn:Er.
  - destruct t; try discriminate; cbn [norm].
    + change (js_serialize JNewline) with [10]. constructor. left. reflexivity.
    + change (js_serialize (JComment v)) with ([47; 42] ++ guard v ++ [42; 47]). constructor. apply guard_safe.
    + cbn [js_serialize tame] in *. destruct (auto_quote_shape v) as (q & Hq & E). rewrite E. change (q :: flat_map (serialize_char (q_simple q)) v ++ [q]) with (q :: (flat_map (serialize_char (q_simple q)) v) ++ [q]). apply JdString; [exact Hq|]. apply string_spelled; assumption.
  - assert (En : norm t = t) by (destruct t; try reflexivity; discriminate). rewrite En, (tame_copied t p rest H Ht Er). clear En.
    destruct H as [v rest Hv Hs Hn|x rest Hx|v rest Hv Hn|v rest Hv|v Hv|p v t rest Hp Hs Hg Hw|rest|rest|rest|rest|rest|q p v rest Hq Hs|q p v rest Hq Hs He|q p v Hq Hs|b f rest Hb Hc Hx Hfl He|b l rest Hc Hx He|x rest H1 H2 H3 H4 H5]; try discriminate.
    + apply JdSpace; [exact Hv|exact Hs|]. intros X. auto.
    + destruct (word_serialized v t Hw) as (_ & _ & Hp'). apply Hp' in Ht. apply (JdWord p v); [exact Hp| | |exact Hw].
      * clear - Hs Ht. induction Hs as [b|c p v Hc H IH|c p v Hc H IH|b e x p v He Ha H IH]; [constructor|constructor; [exact Hc|]|constructor; [exact Hc|]|exfalso; apply Ht; left; reflexivity]; apply IH; intros X; apply Ht; right; exact X.
      * intros [X|(r & X & _)]; [apply Hg; left; auto|]. apply R5. exists 92, r. auto.
    + constructor.
    + constructor.
    + constructor.
    + constructor.
    + constructor.
    + cbn [tame] in Ht. destruct Ht as [->|Ht]; [lia|]. assert (Hp : ~ In 92 p) by (intros X; apply Ht; right; exact X). apply JdOpenString; [exact Hq| |auto].
      clear - Hs Hp. induction Hs as [|c p v H1 H2 H3 H IH|e x p v He Ha H IH|c x p v He Ha H IH]; [constructor| |exfalso; apply Hp; left; reflexivity|exfalso; apply Hp; left; reflexivity]. constructor; try assumption. apply IH. intros X. apply Hp. right. exact X.
    + cbn [tame] in Ht. exfalso. destruct Ht as [->|Ht]; [lia|]. apply Ht. right. apply in_or_app. right. left. reflexivity.
    + apply JdRegex; try assumption; [|intros X; auto]. apply (rx_change (47 :: f ++ rest)); [|exact Hx]. intros _. exists 47, (f ++ rest). auto.
    + apply (JdOpenRegex b l); [exact Hc| |auto]. apply (rx_change rest); [|exact Hx]. intros (d & t & -> & ->). exfalso. destruct (R1 He) as [X|(y & t' & X & Hy)]; [discriminate|]. injection X as <- <-. unfold js_newline in Hy. lia.
    + apply JdOther; try assumption. intros ->. exfalso. cbn [tame] in Ht. destruct Ht as [Ht|Ht]; [discriminate|]. apply Ht. left. reflexivity.
Qed.
Lemma tame_heads t p rest : js_denotes t p rest -> p <> [] -> tame t p -> exists c r c' r', p = c :: r /\ js_serialize t = c' :: r' /\ class_le c c'.
Proof.
  intros H Hp Ht. destruct (rewritten t) eqn:Er.
  - destruct t; try discriminate.
    + inversion H as [|x ? Hx|? ? ? ?|? ? ?|? ?|? ? ? ? ? Hs Hg Hw| | | | | | | | | | |]; subst; [|inversion Hw]. exists x, [], 10, []. split; [reflexivity|]. split; [reflexivity|]. destruct (punct_other 10) as (A & B & C & D); [cbn; tauto|]. repeat split; try tauto; try congruence. left. reflexivity.
    + assert (E : exists r, p = 47 :: r) by (inversion H as [|x ? Hx|? ? ? ?|? ? ?|? ?|? ? ? ? ? Hs Hg Hw| | | | | | | | | | |]; subst; try (eexists; reflexivity); inversion Hw). destruct E as (r & ->).
      exists 47, r, 47, (42 :: guard v ++ [42; 47]). split; [reflexivity|]. split; [reflexivity|]. apply class_same. discriminate.
    + assert (E : exists q r, (q = 34 \/ q = 39) /\ p = q :: r) by (inversion H as [|x ? Hx|? ? ? ?|? ? ?|? ?|? ? ? ? ? Hs Hg Hw| | | | | |q ? ? ? Hq| | | | |]; subst; [inversion Hw|eauto]). destruct E as (q & r & Hq & ->).
      destruct (auto_quote_shape v) as (q' & Hq' & E). cbn [js_serialize]. rewrite E. do 4 eexists. split; [reflexivity|]. split; [reflexivity|]. destruct (punct_other q') as (A & B & C & D); [destruct Hq' as [->| ->]; cbn; tauto|]. apply class_other; try assumption. unfold js_newline. lia.
  - rewrite (tame_copied t p rest H Ht Er). destruct p as [|c r]; [congruence|]. exists c, r, c, r. split; [reflexivity|]. split; [reflexivity|]. apply class_same. intros ->.
    inversion H as [v ? Hv Hs Hn E1 E2|x ? Hx|v ? Hv Hn|v ? Hv|v Hv|? v ? ? ? Hs Hg Hw|?|?|?|?|?|q ? v ? Hq Hs|q ? v ? Hq Hs He|q ? v Hq Hs|b f ? Hb Hc Hx Hfl He|b l ? Hc Hx He|x ? H1 H2 H3 H4 H5]; subst; try discriminate; try lia.
    + inversion Hs as [|? ? X _]; subst. apply is_whitespace_iff in X. discriminate.
    + destruct (word_serialized v t Hw) as (_ & _ & Hp'). apply Hp' in Ht. apply Ht. left. reflexivity.
    + cbn [tame] in Ht. destruct Ht as [Ht|Ht]; [discriminate|]. apply Ht. left. reflexivity.
Qed.
Theorem tame_round ts s : js_spelled_as tame ts s -> js_spelled (map norm ts) (js_serialize_many ts).
Proof.
  intros H. enough (G : js_spelled (map norm ts) (js_serialize_many ts) /\ match s with [] => js_serialize_many ts = [] | c :: _ => exists c' r', js_serialize_many ts = c' :: r' /\ class_le c c' end) by apply G.
  induction H as [|t ts p rest Hp Hd Ht H (IH1 & IH2)]; [split; [constructor|reflexivity]|]. cbn [map]. change (js_serialize_many (t :: ts)) with (js_serialize t ++ js_serialize_many ts).
  destruct (tame_heads t p rest Hd Hp Ht) as (c & r & c' & r' & Ep & Es & Hc). split.
  - apply JsMore; [rewrite Es; discriminate| |exact IH1]. apply (tame_again t p rest); try assumption.
    + intros [->|(x & y & -> & Hx)]; [left; exact IH2|]. destruct IH2 as (z & w & Ez & Hz). right. exists z, w. split; [exact Ez|apply Hz; exact Hx].
    + intros (x & y & Ex & Hx). destruct rest as [|z rest]; [rewrite IH2 in Ex; discriminate|]. destruct IH2 as (z' & w & Ez & Hz). rewrite Ez in Ex. injection Ex as -> ->. exists z, rest. split; [reflexivity|apply Hz; exact Hx].
    + intros (x & y & Ex & Hx). destruct rest as [|z rest]; [rewrite IH2 in Ex; discriminate|]. destruct IH2 as (z' & w & Ez & Hz). rewrite Ez in Ex. injection Ex as -> ->. exists z, rest. split; [reflexivity|apply Hz; exact Hx].
    + intros (x & y & Ex & Hx). destruct rest as [|z rest]; [rewrite IH2 in Ex; discriminate|]. destruct IH2 as (z' & w & Ez & Hz). rewrite Ez in Ex. injection Ex as -> ->. exists z, rest. split; [reflexivity|apply Hz; exact Hx].
    + intros (x & y & Ex & ->). destruct rest as [|z rest]; [rewrite IH2 in Ex; discriminate|]. destruct IH2 as (z' & w & Ez & Hz). rewrite Ez in Ex. injection Ex as -> ->. apply Hz. reflexivity.
    + intros ->. exact IH2.
  - rewrite Ep, Es. cbn [app]. eauto.
Qed.
Lemma norm_same t : same_code t (norm t).
Proof. destruct t; try constructor. apply guard_safe. Qed.
Theorem round_trip ts s : js_spelled_as tame ts s -> js_tokenize s = Ret ts /\ exists ts2, js_tokenize (js_serialize_many ts) = Ret ts2 /\ Forall2 same_code ts ts2.
Proof.
  intros H. split.
  - apply js_tokenize_iff. induction H as [|t ts p rest Hp Hd Ht H IH]; constructor; assumption.
  - exists (map norm ts). split; [apply js_tokenize_iff; eapply tame_round; exact H|]. clear H s. induction ts as [|t ts IH]; constructor; [apply norm_same|exact IH].
Qed.
Theorem bare_copied ts s : bare s -> js_tokenize s = Ret ts -> js_serialize_many ts = s.
Proof.
  intros Hb H. apply js_tokenize_iff in H. revert Hb. induction H as [|t ts p rest Hp Hd H IH]; intros (B1 & B2 & B3 & B4 & B5 & B6 & B7); [reflexivity|]. change (js_serialize_many (t :: ts)) with (js_serialize t ++ js_serialize_many ts).
  assert (Bp : forall c, ~ In c (p ++ rest) -> ~ In c p) by (intros c X Y; apply X; apply in_or_app; left; exact Y).
  f_equal.
  - destruct (rewritten t) eqn:Er.
    + destruct t; try discriminate.
      * inversion Hd as [|x ? Hx|? ? ? ?|? ? ?|? ?|? ? ? ? ? Hs Hg Hw| | | | | | | | | | |]; subst; [|inversion Hw]. unfold js_newline in Hx; destruct Hx as [E|[E|E]]; subst x; [reflexivity|exfalso; apply B4; left; reflexivity|exfalso; apply B5; left; reflexivity].
      * exfalso. inversion Hd as [|x ? Hx|? ? ? ?|? ? ?|? ?|? ? ? ? ? Hs Hg Hw| | | | | | | | | | |]; subst; [eapply (B6 []); reflexivity|eapply (B7 []); reflexivity|eapply (B7 []); reflexivity|inversion Hw].
      * exfalso. inversion Hd as [|x ? Hx|? ? ? ?|? ? ?|? ?|? ? ? ? ? Hs Hg Hw| | | | | |q ? ? ? Hq| | | | |]; subst; [inversion Hw|]. destruct Hq as [->| ->]; [apply B1|apply B2]; left; reflexivity.
    + apply (tame_copied t p rest Hd); [|exact Er]. destruct t as [| | | | | | | | | | | | | |[|? ?]|]; try exact I; try discriminate; try (apply Bp; exact B3). right. apply Bp. exact B3.
  - assert (Br : forall c, ~ In c (p ++ rest) -> ~ In c rest) by (intros c X Y; apply X; apply in_or_app; right; exact Y).
    apply IH. split; [auto|]. split; [auto|]. split; [auto|]. split; [auto|]. split; [auto|]. split; intros a b ->; [apply (B6 (p ++ a) b)|apply (B7 (p ++ a) b)]; rewrite <- app_assoc; reflexivity.
Qed.
