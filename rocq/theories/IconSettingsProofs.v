(** Reading the [:root] rule. *)
From Verif Require Import Base Graph Json Css Handlers IconColor IconColorSpec IconColorProofs IconParse IconManip ImgMeta IconSettings IconSettingsSpec.
From Coq Require Import String ZArith NArith Bool List Lia.
Import ListNotations.
Open Scope list_scope.
Open Scope N_scope.

Section Proofs.
Context {F : Type} (plain : N -> N) (lower_high : N -> str).
Notation tok := (token (F := F)).
Lemma next_gaps (g l : list tok) : gaps g -> next_significant (g ++ l) = next_significant l.
Proof. induction 1 as [|t g Ht _ IH]; [reflexivity|]. destruct t; try destruct Ht; exact IH. Qed.
Lemma next_here (t : tok) l : ~ gap t -> next_significant (t :: l) = Some (t, l).
Proof. destruct t; cbn [gap]; intros H; try reflexivity; destruct (H I). Qed.
Lemma next_at (g : list tok) t l : gaps g -> ~ gap t -> next_significant (g ++ t :: l) = Some (t, l).
Proof. intros G H. rewrite (next_gaps _ _ G). apply next_here, H. Qed.
Lemma next_inv (l : list tok) t r : next_significant l = Some (t, r) -> exists g, gaps g /\ ~ gap t /\ l = g ++ t :: r.
Proof.
  induction l as [|x l IH]; [discriminate|]. intros H.
  assert (K : gap x \/ ~ gap x) by (destruct x; cbn [gap]; auto). destruct K as [K|K].
  - assert (E : next_significant (x :: l) = next_significant l) by (destruct x; destruct K; reflexivity). rewrite E in H.
    destruct (IH H) as (g & G & T & ->). exists (x :: g). split; [constructor; assumption|]. split; [exact T|reflexivity].
  - rewrite (next_here _ _ K) in H. injection H as <- <-. exists []. split; [apply Forall_nil|]. split; [exact K|reflexivity].
Qed.
Lemma next_shorter (l : list tok) t r : next_significant l = Some (t, r) -> (length r < length l)%nat.
Proof. intros H. destruct (next_inv _ _ _ H) as (g & _ & _ & ->). rewrite app_length. cbn [length]. lia. Qed.

Lemma skip_balanced (b : list tok) : balanced b -> forall n l, skip_block (S n) (b ++ l) = skip_block (S n) l.
Proof.
  induction 1 as [|t b N1 N2 _ IH|b l0 _ IHb _ IHl]; intros n l.
  - reflexivity.
  - cbn [app]. destruct t; try (exact (IH n l)); [destruct (N1 eq_refl)|destruct (N2 eq_refl)].
  - cbn [app]. rewrite <- app_assoc. cbn [app]. cbn [skip_block]. rewrite IHb. cbn [skip_block]. apply IHl.
Qed.
Lemma skip_whole (b l : list tok) : balanced b -> skip_block 1 (b ++ TRCurly :: l) = Some l.
Proof. intros H. rewrite (skip_balanced b H 0). reflexivity. Qed.

Definition seek (fuel : nat) (l : list tok) : res (option (list tok)) := match next_significant l with Some (t, r) => find_root fuel (t :: r) | None => Ret None end.
Lemma find_other k (t : tok) r : t <> TLCurly -> t <> TColon -> find_root (S k) (t :: r) = seek k r.
Proof. destruct t; intros A B; try reflexivity; [destruct (B eq_refl)|destruct (A eq_refl)]. Qed.
Lemma seek_gap fuel (t : tok) r : gap t -> seek fuel (t :: r) = seek fuel r.
Proof. destruct t; intros []; reflexivity. Qed.
Lemma seek_here fuel (t : tok) r : ~ gap t -> seek fuel (t :: r) = find_root fuel (t :: r).
Proof. intros H. unfold seek. rewrite (next_here _ _ H). reflexivity. Qed.
Lemma gap_dec (t : tok) : gap t \/ ~ gap t.
Proof. destruct t; cbn [gap]; auto. Qed.
Lemma not_gap_ident n : ~ gap (TIdent n : tok). Proof. exact (fun x => x). Qed.
Lemma find_colon k (g : list tok) t r : gaps g -> ~ gap t -> t <> TIdent (lit "root") -> find_root (S k) (TColon :: g ++ t :: r) = find_root k (t :: r).
Proof.
  intros G T R. cbn [find_root]. rewrite (next_at _ _ _ G T). destruct t; try reflexivity.
  rewrite (proj2 (str_eqb_neq v (lit "root"))); [reflexivity|]. intros ->. exact (R eq_refl).
Qed.
Lemma find_selector k (g g' : list tok) t r : gaps g -> gaps g' -> ~ gap t -> t <> TLCurly ->
  find_root (S k) (TColon :: g ++ TIdent (lit "root") :: g' ++ t :: r) = find_root k (t :: r).
Proof.
  intros G G' T R. cbn [find_root]. rewrite (next_at _ _ _ G (not_gap_ident _)), str_eqb_refl, (next_at _ _ _ G' T).
  destruct t; try reflexivity. destruct (R eq_refl).
Qed.
Lemma find_block k (b r : list tok) : balanced b -> find_root (S k) (TLCurly :: b ++ TRCurly :: r) = find_root k r.
Proof. intros B. cbn [find_root]. rewrite (skip_whole _ _ B). reflexivity. Qed.
(** nothing before the rule changes what follows *)
Lemma find_past (pre : list tok) : no_root pre -> forall tail x, (forall fuel, (length tail < fuel)%nat -> find_root fuel tail = x /\ seek fuel tail = x) ->
  forall fuel, (length pre + length tail < fuel)%nat -> find_root fuel (pre ++ tail) = x /\ seek fuel (pre ++ tail) = x.
Proof.
  induction 1 as [|t l N1 N2 _ IH|b l B _ IH|g t l G T R _ IH|g g' t l G G' T R _ IH]; intros tail x HT fuel L.
  - exact (HT fuel L).
  - destruct fuel as [|k]; [lia|]. cbn [app length] in *. rewrite (find_other _ _ _ N1 N2).
    split; [apply (IH _ _ HT); lia|]. destruct (gap_dec t) as [K|K].
    + rewrite (seek_gap _ _ _ K). apply (IH _ _ HT). lia.
    + rewrite (seek_here _ _ _ K), (find_other _ _ _ N1 N2). apply (IH _ _ HT). lia.
  - destruct fuel as [|k]; [lia|]. cbn [app length] in *. rewrite app_length in L. cbn [length] in L. rewrite <- app_assoc. cbn [app].
    rewrite seek_here by exact (fun x => x). rewrite (find_block _ _ _ B). split; apply (IH _ _ HT); lia.
  - destruct fuel as [|k]; [lia|]. cbn [app length] in *. rewrite app_length in L. cbn [length] in L. rewrite <- app_assoc. cbn [app].
    rewrite seek_here by exact (fun x => x). rewrite (find_colon _ _ _ _ G T R). split; apply (IH _ _ HT); lia.
  - destruct fuel as [|k]; [lia|]. cbn [app length] in *. rewrite app_length in L. cbn [length] in L. rewrite app_length in L. cbn [length] in L.
    repeat (rewrite <- app_assoc; cbn [app]).
    rewrite seek_here by exact (fun x => x). rewrite (find_selector _ _ _ _ _ G G' T R). split; apply (IH _ _ HT); lia.
Qed.
Lemma find_rule (rule l : list tok) fuel : root_rule rule -> (length (rule ++ l) < fuel)%nat -> find_root fuel (rule ++ l) = Ret (Some l) /\ seek fuel (rule ++ l) = Ret (Some l).
Proof.
  intros (g & g' & G & G' & ->) L. destruct fuel as [|k]; [lia|].
  assert (E : find_root (S k) ((TColon :: g ++ TIdent (lit "root") :: g' ++ [TLCurly]) ++ l) = Ret (Some l)).
  { cbn [app]. repeat (rewrite <- app_assoc; cbn [app]). cbn [find_root]. rewrite (next_at _ _ _ G (not_gap_ident _)), str_eqb_refl.
    rewrite (next_at g' TLCurly l G' (fun x => x)). reflexivity. }
  split; [exact E|]. cbn [app]. rewrite seek_here by exact (fun x => x). exact E.
Qed.
Lemma find_end fuel : (0 < fuel)%nat -> find_root fuel [] = Ret (None : option (list tok)) /\ seek fuel [] = Ret None.
Proof. intros H. destruct fuel; [lia|]. split; reflexivity. Qed.
(** the fuel is enough *)
Lemma skip_shorter (l : list tok) : forall n r, skip_block n l = Some r -> (length r < length l)%nat.
Proof.
  induction l as [|t l IH]; intros n r H; [discriminate|].
  destruct t; cbn [skip_block] in H; try (specialize (IH _ _ H); cbn [length]; lia).
  destruct n as [|[|n]]; [injection H as <-; cbn [length]; lia|injection H as <-; cbn [length]; lia|specialize (IH _ _ H); cbn [length]; lia].
Qed.
Lemma find_total fuel : forall l : list tok, (length l < fuel)%nat -> exists o, find_root fuel l = Ret o /\ forall r, o = Some r -> (length r < length l)%nat.
Proof.
  induction fuel as [|k IH]; intros l L; [lia|].
  assert (D : forall l' : list tok, (length l' < length l)%nat -> exists o, find_root k l' = Ret o /\ forall r : list tok, o = Some r -> (length r < length l)%nat).
  { intros l' L'. destruct (IH l') as (o & E & Q); [lia|]. exists o. split; [exact E|]. intros r ->. specialize (Q r eq_refl). lia. }
  assert (NN : exists o, Ret None = Ret o /\ forall r, o = Some r -> (length (r : list tok) < length l)%nat) by (exists None; split; [reflexivity|discriminate]).
  assert (K : forall r : list tok, (length r < length l)%nat -> exists o, seek k r = Ret o /\ forall r0, o = Some r0 -> (length r0 < length l)%nat).
  { intros r L'. unfold seek. destruct (next_significant r) as [[t' r']|] eqn:E; [|exact NN]. apply D. pose proof (next_shorter _ _ _ E). cbn [length]. lia. }
  destruct l as [|t r]; [exact NN|].
  destruct t; try (apply K; cbn [length]; lia).
  - cbn [find_root]. destruct (next_significant r) as [[t' r']|] eqn:E; [|exact NN]. pose proof (next_shorter _ _ _ E) as E'.
    assert (D' : exists o, find_root k (t' :: r') = Ret o /\ forall r0, o = Some r0 -> (length r0 < length (TColon :: r))%nat) by (apply D; cbn [length]; lia).
    destruct t'; try exact D'. destruct (str_eqb v (lit "root")); [|exact D'].
    destruct (next_significant r') as [[t2 r2]|] eqn:E2; [|exact NN]. pose proof (next_shorter _ _ _ E2) as E2'.
    assert (D2 : exists o, find_root k (t2 :: r2) = Ret o /\ forall r0, o = Some r0 -> (length r0 < length (TColon :: r))%nat) by (apply D; cbn [length]; lia).
    destruct t2; try exact D2. exists (Some r2). split; [reflexivity|]. intros r0 H. injection H as <-. cbn [length]. lia.
  - cbn [find_root]. destruct (skip_block 1 r) as [r'|] eqn:E; [|exact NN]. pose proof (skip_shorter _ _ _ E). apply D. cbn [length]. lia.
Qed.

(** * Declarations *)
Lemma arguments_reads (l l' : list tok) : significant l l' -> ~ In TRParen l -> forall r, arguments (l ++ TRParen :: r) = Some (l' ++ [TRParen], r).
Proof.
  induction 1 as [|t l l' G _ IH|t l l' G _ IH]; intros N r.
  - reflexivity.
  - cbn [app]. assert (E : arguments (t :: l ++ TRParen :: r) = arguments (l ++ TRParen :: r)) by (destruct t; destruct G; reflexivity).
    rewrite E. apply IH. intros H. apply N. right. exact H.
  - cbn [app]. assert (E : arguments (t :: l ++ TRParen :: r) = match arguments (l ++ TRParen :: r) with Some (a, r) => Some (t :: a, r) | None => None end).
    { destruct t; try reflexivity; try (destruct (G I)). destruct N. left. reflexivity. }
    rewrite E, IH; [reflexivity|]. intros H. apply N. right. exact H.
Qed.
Lemma value_reads v vt : value_tokens v vt -> forall (g r : list tok), gaps g -> component_value (g ++ vt ++ r) = Some (v, r).
Proof.
  intros H g r G. unfold component_value. destruct H as [t T N|f l l' N S].
  - cbn [app]. rewrite (next_at _ _ _ G T). destruct t; try reflexivity. destruct (N _ eq_refl).
  - cbn [app]. rewrite (next_at g (TFunction f) _ G (fun x => x)), <- app_assoc. cbn [app]. rewrite (arguments_reads _ _ S N). reflexivity.
Qed.
Lemma arguments_shorter (l : list tok) : forall a r, arguments l = Some (a, r) -> (length r < length l)%nat.
Proof.
  induction l as [|t l IH]; intros a r H; [discriminate|].
  destruct t; cbn [arguments] in H; try (specialize (IH _ _ H); cbn [length]; lia);
  try (injection H as <- <-; cbn [length]; lia);
  destruct (arguments l) as [[a' r']|] eqn:E; try discriminate; injection H as <- <-; specialize (IH _ _ eq_refl); cbn [length]; lia.
Qed.
Lemma value_shorter (l : list tok) a r : component_value l = Some (a, r) -> (length r < length l)%nat.
Proof.
  unfold component_value. destruct (next_significant l) as [[t r']|] eqn:E; [|discriminate]. apply next_shorter in E.
  assert (G : Some ([t], r') = Some (a, r) -> (length r < length l)%nat) by (intros H; injection H as <- <-; exact E).
  destruct t; try exact G. destruct (arguments r') as [[a' r'']|] eqn:E2; [|discriminate]. intros H. injection H as <- <-. apply arguments_shorter in E2. lia.
Qed.
Notation color_of := (color_of plain lower_high).
Definition noted (name : str) (v : list tok) (acc : list (str * color) * list str) : list (str * color) * list str :=
  if starts_with (lit "--col-") name then (match color_of v with Some c => dset (skipn 6 name) c (fst acc) | None => fst acc end, snd acc)
  else if starts_with (lit "--icon-size-") name then (fst acc, snd acc ++ [skipn 12 name]) else acc.
Lemma note_noted name (v : list tok) acc : note plain lower_high name v acc = Ret (noted name v acc).
Proof.
  unfold note, noted, IconSettingsSpec.color_of. destruct acc as [colors sizes]. cbn [fst snd].
  destruct (interpret_total plain lower_high v) as (o & -> & _). destruct (starts_with (lit "--col-") name); [destruct o; reflexivity|].
  destruct (starts_with (lit "--icon-size-") name); reflexivity.
Qed.
Definition all_noted (ds : list (str * list tok)) (acc : list (str * color) * list str) := fold_left (fun acc d => noted (fst d) (snd d) acc) ds acc.
Notation declarations := (declarations plain lower_high).
Lemma declarations_total fuel : forall (l : list tok) acc, (length l < fuel)%nat -> exists x b, declarations fuel l acc = Ret (x, b).
Proof.
  induction fuel as [|k IH]; intros l acc L; [lia|]. cbn [IconSettings.declarations].
  assert (R : forall acc' b, exists x b', Ret (acc', b) = Ret (x, b') :> res ((list (str * color) * list str) * bool)) by eauto.
  destruct (next_significant l) as [[t l1]|] eqn:E1; [|apply R]. apply next_shorter in E1. destruct t; try apply R.
  destruct (next_significant l1) as [[t l2]|] eqn:E2; [|apply R]. apply next_shorter in E2. destruct t; try apply R.
  destruct (component_value l2) as [[w l3]|] eqn:E3; [|apply R]. apply value_shorter in E3.
  destruct (next_significant l3) as [[t l4]|] eqn:E4; [|apply R]. apply next_shorter in E4. destruct t; try apply R.
  destruct (next_significant l4) as [p|]; [|apply R]. rewrite note_noted. cbn [bind]. apply IH. lia.
Qed.
Lemma opened_reads name v o : opened name v o -> forall fuel r acc,
  declarations (S fuel) (o ++ r) acc =
  match next_significant r with
  | None => Ret (acc, true)
  | Some (TSemicolon, l) => match next_significant l with None => Ret (acc, true) | Some _ => declarations fuel l (noted name v acc) end
  | Some _ => Ret (acc, false)
  end.
Proof.
  intros (g1 & g2 & g3 & vt & G1 & G2 & G3 & V & ->) fuel r acc. repeat (rewrite <- app_assoc; cbn [app]). cbn [IconSettings.declarations].
  rewrite (next_at g1 (TIdent name) _ G1 (fun x => x)), (next_at g2 TColon _ G2 (fun x => x)), (value_reads _ _ V g3 r G3).
  destruct (next_significant r) as [[t l]|]; [|reflexivity]. destruct t; try reflexivity. destruct (next_significant l); [|reflexivity].
  rewrite note_noted. reflexivity.
Qed.
Lemma declared_reads ds body : declared ds body -> forall r acc x, next_significant r <> None ->
  (forall fuel, (length r < fuel)%nat -> declarations fuel r (all_noted ds acc) = x) -> forall fuel, (length (body ++ r) < fuel)%nat -> declarations fuel (body ++ r) acc = x.
Proof.
  induction 1 as [|name v l ds body D _ IH]; intros r acc x N H fuel L.
  - exact (H fuel L).
  - destruct D as (o & g & O & G & ->). destruct fuel as [|k]; [lia|]. repeat rewrite <- app_assoc. cbn [app].
    rewrite (opened_reads _ _ _ O), (next_at g TSemicolon _ G (fun x => x)).
    assert (M : next_significant (body ++ r) <> None).
    { clear - N. induction body as [|t b IHb]; [exact N|]. cbn [app]. destruct t; cbn [next_significant]; try exact IHb; discriminate. }
    destruct (next_significant (body ++ r)); [|destruct (M eq_refl)].
    apply (IH r _ x N); [exact H|]. revert L. repeat (rewrite app_length; cbn [length]). lia.
Qed.

(** * The whole sheet *)
Definition stops (r : list tok) : Prop :=
  (exists g t post, gaps g /\ ~ gap t /\ (forall n, t <> TIdent n) /\ r = g ++ t :: post) \/
  (exists n v o g t post, opened n v o /\ gaps g /\ ~ gap t /\ t <> TSemicolon /\ r = o ++ g ++ t :: post).
Lemma stops_next r : stops r -> next_significant r <> None.
Proof.
  intros [(g & t & post & G & T & _ & ->)|(n & v & o & g & t & post & (g1 & g2 & g3 & vt & G1 & _ & _ & _ & ->) & _ & _ & _ & ->)].
  - rewrite (next_at _ _ _ G T). discriminate.
  - repeat (rewrite <- app_assoc; cbn [app]). rewrite (next_at g1 (TIdent n) _ G1 (fun x => x)). discriminate.
Qed.
Lemma stops_reads r acc : stops r -> forall fuel, (length r < fuel)%nat -> declarations fuel r acc = Ret (acc, false).
Proof.
  intros H fuel L. destruct fuel as [|k]; [lia|]. destruct H as [(g & t & post & G & T & N & ->)|(n & v & o & g & t & post & O & G & T & N & ->)].
  - cbn [IconSettings.declarations]. rewrite (next_at _ _ _ G T). destruct t; try reflexivity. destruct (N _ eq_refl).
  - rewrite (opened_reads _ _ _ O), (next_at _ _ _ G T). destruct t; try reflexivity. destruct (N eq_refl).
Qed.
Lemma no_root_seek (pre tail : list tok) e x : no_root pre -> (forall fuel, (length tail < fuel)%nat -> find_root fuel tail = Ret x /\ seek fuel tail = Ret x) ->
  read_root plain lower_high (pre ++ tail) e =
  let ended acc : res (list (str * color) * list str) := match e with None => Ret acc | Some x => Raise x end in
  match x with None => ended ([], []) | Some l => bind (declarations (S (length l)) l ([], [])) (fun x => if snd x then ended (fst x) else Ret (fst x)) end.
Proof.
  intros N H. unfold read_root. cbv zeta. pose proof (find_past pre N tail _ H (S (S (length (pre ++ tail))))) as [_ K]; [rewrite app_length; lia|].
  revert K. unfold seek. destruct (next_significant (pre ++ tail)) as [[t r]|].
  - intros ->. reflexivity.
  - intros K. injection K as <-. reflexivity.
Qed.
Lemma read_rule pre rule ds body r e : no_root pre -> root_rule rule -> declared ds body -> stops r ->
  read_root plain lower_high (pre ++ rule ++ body ++ r) e = Ret (all_noted ds ([], [])).
Proof.
  intros N R D S. rewrite (no_root_seek pre (rule ++ body ++ r) e (Some (body ++ r)) N (fun fuel => find_rule _ _ _ R)). cbv zeta.
  rewrite (declared_reads ds body D r ([], []) (Ret (all_noted ds ([], []), false)) (stops_next _ S)); [reflexivity| |lia].
  intros fuel L. apply stops_reads; assumption.
Qed.
Lemma read_none (ts : list tok) : no_root ts -> read_root plain lower_high ts None = Ret ([], []).
Proof. intros N. rewrite <- (app_nil_r ts). rewrite (no_root_seek ts [] None None N); [reflexivity|]. intros fuel L. apply find_end. exact L. Qed.
Lemma read_total (ts : list tok) e : (exists x, read_root plain lower_high ts e = Ret x) \/ (exists x, e = Some x /\ read_root plain lower_high ts e = Raise x).
Proof.
  unfold read_root. set (ended := fun acc : list (str * color) * list str => match e with None => Ret acc | Some x => Raise x end). cbv zeta.
  assert (EE : forall acc, (exists x, ended acc = Ret x) \/ (exists x, e = Some x /\ ended acc = Raise x)) by (intros acc; unfold ended; destruct e; eauto).
  destruct (next_significant ts) as [[t r]|] eqn:E; [|apply EE]. apply next_shorter in E.
  destruct (find_total (S (S (length ts))) (t :: r)) as (o & -> & _); [cbn [length]; lia|]. destruct o as [l|]; [|apply EE].
  destruct (declarations_total (S (length l)) l ([], [])) as (x & b & ->); [lia|]. cbn [bind fst snd]. destruct b; [apply EE|eauto].
Qed.

(** * What is noted *)
Lemma starts_app p s : starts_with p (p ++ s) = true.
Proof. apply starts_with_iff. exists s. reflexivity. Qed.
Lemma skipn_app_exact {A} (p s : list A) : skipn (length p) (p ++ s) = s.
Proof. rewrite skipn_app, skipn_all, Nat.sub_diag. reflexivity. Qed.
Lemma noted_color n (v : list tok) acc : noted (lit "--col-" ++ n) v acc = (match color_of v with Some c => dset n c (fst acc) | None => fst acc end, snd acc).
Proof. unfold noted. rewrite starts_app. change 6%nat with (length (lit "--col-")). rewrite skipn_app_exact. reflexivity. Qed.
Lemma noted_size n (v : list tok) acc : noted (lit "--icon-size-" ++ n) v acc = (fst acc, snd acc ++ [n]).
Proof.
  unfold noted. assert (E : starts_with (lit "--col-") (lit "--icon-size-" ++ n) = false) by reflexivity. rewrite E, starts_app.
  change 12%nat with (length (lit "--icon-size-")). rewrite skipn_app_exact. reflexivity.
Qed.
Lemma noted_other name (v : list tok) acc : (forall n, name <> lit "--col-" ++ n) -> (forall n, name <> lit "--icon-size-" ++ n) -> noted name v acc = acc.
Proof.
  intros A B. unfold noted. destruct (starts_with (lit "--col-") name) eqn:E; [apply starts_with_iff in E; destruct E as [n ->]; destruct (A n eq_refl)|].
  destruct (starts_with (lit "--icon-size-") name) eqn:E2; [apply starts_with_iff in E2; destruct E2 as [n ->]; destruct (B n eq_refl)|]. reflexivity.
Qed.
Lemma name_cases name : (exists n, name = lit "--col-" ++ n) \/ (exists n, name = lit "--icon-size-" ++ n) \/ ((forall n, name <> lit "--col-" ++ n) /\ (forall n, name <> lit "--icon-size-" ++ n)).
Proof.
  destruct (starts_with (lit "--col-") name) eqn:E; [left; apply starts_with_iff, E|]. destruct (starts_with (lit "--icon-size-") name) eqn:E2; [right; left; apply starts_with_iff, E2|].
  right. right. split; intros n ->; rewrite starts_app in *; discriminate.
Qed.
Lemma col_inj (n m : str) : lit "--col-" ++ n = lit "--col-" ++ m -> n = m.
Proof. apply app_inv_head. Qed.
Lemma col_size (n m : str) : lit "--col-" ++ n <> lit "--icon-size-" ++ m.
Proof. discriminate. Qed.
Lemma all_snoc ds d acc : all_noted (ds ++ [d]) acc = noted (fst d) (snd d) (all_noted ds acc).
Proof. unfold all_noted. rewrite fold_left_app. reflexivity. Qed.
Lemma last_snoc n c (ds : list (str * list tok)) name v : last_color color_of n c (ds ++ [(name, v)]) <->
  (name = lit "--col-" ++ n /\ color_of v = Some c) \/ ((name <> lit "--col-" ++ n \/ color_of v = None) /\ last_color color_of n c ds).
Proof.
  split.
  - intros (d1 & w & d2 & E & C & L). destruct (rev d2) as [|y d2'] eqn:R.
    + assert (d2 = []) by (rewrite <- (rev_involutive d2), R; reflexivity). subst. apply app_inj_tail in E. destruct E as [-> E]. injection E as -> ->. left. auto.
    + assert (E2 : d2 = rev d2' ++ [y]) by (rewrite <- (rev_involutive d2), R; reflexivity). subst d2.
      rewrite app_comm_cons, app_assoc in E. apply app_inj_tail in E. destruct E as [-> <-]. right. split.
      * destruct (list_eq_dec N.eq_dec name (lit "--col-" ++ n)) as [->|D]; [|left; exact D]. right. apply L. apply in_or_app. right. left. reflexivity.
      * exists d1, w, (rev d2'). split; [reflexivity|]. split; [exact C|]. intros v' I'. apply L. apply in_or_app. left. exact I'.
  - intros [[-> C]|[D (d1 & w & d2 & -> & C & L)]].
    + exists ds, v, []. split; [reflexivity|]. split; [exact C|]. intros v' [].
    + exists d1, w, (d2 ++ [(name, v)]). split; [rewrite <- app_assoc; reflexivity|]. split; [exact C|]. intros v' I'. apply in_app_or in I'. destruct I' as [I'|[I'|[]]]; [exact (L v' I')|].
      injection I' as -> ->. destruct D as [D|D]; [destruct (D eq_refl)|exact D].
Qed.
Lemma colors_noted (ds : list (str * list tok)) n c : dget n (fst (all_noted ds ([], []))) = Some c <-> last_color color_of n c ds.
Proof.
  induction ds as [|[name v] ds IH] using rev_ind.
  - split; [discriminate|]. intros (d1 & v & d2 & E & _). destruct d1; discriminate.
  - rewrite all_snoc, last_snoc. cbn [fst snd]. destruct (name_cases name) as [[m ->]|[[m ->]|[A B]]].
    + rewrite noted_color. cbn [fst]. destruct (color_of v) as [x|] eqn:C.
      * destruct (list_eq_dec N.eq_dec n m) as [->|D].
        -- rewrite Base.dget_dset_same. split; [intros H; left; split; [reflexivity|exact H]|]. intros [[_ H]|[[H|H] _]]; [exact H|destruct (H eq_refl)|discriminate].
        -- rewrite Base.dget_dset_other by congruence. rewrite IH. split; [intros H; right; split; [left; intros K; apply col_inj in K; congruence|exact H]|].
           intros [[K _]|[_ H]]; [apply col_inj in K; congruence|exact H].
      * rewrite IH. split; [intros H; right; auto|]. intros [[_ H]|[_ H]]; [discriminate|exact H].
    + rewrite noted_size. cbn [fst]. rewrite IH. split; [intros H; right; split; [left; intros K; symmetry in K; exact (col_size _ _ K)|exact H]|].
      intros [[K _]|[_ H]]; [symmetry in K; destruct (col_size _ _ K)|exact H].
    + rewrite (noted_other _ _ _ A B), IH. split; [intros H; right; split; [left; apply A|exact H]|]. intros [[K _]|[_ H]]; [destruct (A _ K)|exact H].
Qed.
Fixpoint size_names (ds : list (str * list tok)) : list str :=
  match ds with [] => [] | d :: r => if starts_with (lit "--icon-size-") (fst d) then skipn 12 (fst d) :: size_names r else size_names r end.
Lemma sizes_from ds : forall acc, snd (all_noted ds acc) = snd acc ++ size_names ds.
Proof.
  induction ds as [|[name v] ds IH]; intros acc; [cbn; symmetry; apply app_nil_r|].
  cbn [all_noted fold_left size_names fst snd]. change (fold_left _ ds ?a) with (all_noted ds a). rewrite IH. destruct (name_cases name) as [[m ->]|[[m ->]|[A B]]].
  - rewrite noted_color. cbn [snd]. assert (E : starts_with (lit "--icon-size-") (lit "--col-" ++ m) = false) by reflexivity. rewrite E. reflexivity.
  - rewrite noted_size, starts_app. cbn [snd]. change 12%nat with (length (lit "--icon-size-")). rewrite skipn_app_exact, <- app_assoc. reflexivity.
  - rewrite (noted_other _ _ _ A B). destruct (starts_with (lit "--icon-size-") name) eqn:E2; [apply starts_with_iff in E2; destruct E2 as [n ->]; destruct (B n eq_refl)|]. reflexivity.
Qed.
Lemma size_names_in s ds : In s (size_names ds) <-> exists v, In (lit "--icon-size-" ++ s, v) ds.
Proof.
  induction ds as [|[name v] ds IH]; [split; [intros []|intros [v []]]|]. cbn [size_names fst]. destruct (starts_with (lit "--icon-size-") name) eqn:E.
  - apply starts_with_iff in E. destruct E as [n ->]. change 12%nat with (length (lit "--icon-size-")). rewrite skipn_app_exact. cbn [In]. rewrite IH. split.
    + intros [->|[w H]]; [exists v; left; reflexivity|exists w; right; exact H].
    + intros [w [H|H]]; [injection H as H _; left; congruence|right; exists w; exact H].
  - rewrite IH. split; [intros [w H]; exists w; right; exact H|]. intros [w [H|H]]; [|exists w; exact H]. assert (Q : name = lit "--icon-size-" ++ s) by (exact (f_equal fst H)). rewrite Q, starts_app in E. discriminate.
Qed.
End Proofs.

(** * [distinct] *)
Lemma fold_keys (l : list str) : forall d : list (str * unit), map fst (fold_left (fun d s => dset s tt d) l d) =
  fold_left (fun acc s => if mem s acc then acc else acc ++ [s]) l (map fst d).
Proof.
  induction l as [|s l IH]; intros d; [reflexivity|]. cbn [fold_left]. rewrite IH. f_equal.
  clear. induction d as [|[k u] d IH]; [reflexivity|]. cbn [dset map fst mem existsb].
  destruct (str_eqb s k) eqn:E.
  - cbn [map fst app]. unfold mem. cbn [existsb]. try rewrite E. reflexivity.
  - cbn [map fst]. rewrite IH. unfold mem. cbn [existsb]. try rewrite E. cbn [orb]. destruct (existsb (str_eqb s) (map fst d)); reflexivity.
Qed.
Lemma distinct_fold l : distinct l = fold_left (fun acc s => if mem s acc then acc else acc ++ [s]) l [].
Proof. apply (fold_keys l []). Qed.
Lemma fold_mem l : forall acc s, In s (fold_left (fun acc s => if mem s acc then acc else acc ++ [s]) l acc) <-> In s acc \/ In s l.
Proof.
  induction l as [|x l IH]; intros acc s; cbn [fold_left In]; [tauto|]. rewrite IH. destruct (mem x acc) eqn:E.
  - apply mem_In in E. split; [intros [H|H]; auto|]. intros [H|[->|H]]; auto.
  - rewrite in_app_iff. cbn [In]. tauto.
Qed.
Lemma fold_nodup l : forall acc, NoDup acc -> NoDup (fold_left (fun acc s => if mem s acc then acc else acc ++ [s]) l acc).
Proof.
  induction l as [|x l IH]; intros acc N; [exact N|]. cbn [fold_left]. apply IH. destruct (mem x acc) eqn:E; [exact N|].
  assert (M : ~ In x acc) by (intros K; apply mem_In in K; congruence).
  clear - N M. induction N as [|y acc Hy _ IH]; cbn [app]; [constructor; [intros []|constructor]|].
  constructor; [rewrite in_app_iff; cbn [In]; intros [K|[K|[]]]; [exact (Hy K)|subst; apply M; left; reflexivity]|apply IH; intros K; apply M; right; exact K].
Qed.
Lemma fold_prefix l : forall acc, exists r, fold_left (fun acc s => if mem s acc then acc else acc ++ [s]) l acc = acc ++ r.
Proof.
  induction l as [|x l IH]; intros acc; [exists []; symmetry; apply app_nil_r|]. cbn [fold_left]. destruct (mem x acc); [apply IH|].
  destruct (IH (acc ++ [x])) as [r ->]. exists (x :: r). rewrite <- app_assoc. reflexivity.
Qed.
Lemma distinct_in l s : In s (distinct l) <-> In s l.
Proof. rewrite distinct_fold, fold_mem. cbn [In]. tauto. Qed.
Lemma distinct_nodup l : NoDup (distinct l).
Proof. rewrite distinct_fold. apply fold_nodup. constructor. Qed.
Lemma distinct_order l x y : sooner x y l -> sooner x y (distinct l).
Proof.
  intros (l1 & l2 & -> & N & I2 & D). rewrite distinct_fold, fold_left_app. cbn [fold_left].
  set (acc := fold_left _ l1 []). assert (A : forall s, In s acc <-> In s l1) by (intros s; unfold acc; rewrite fold_mem; cbn [In]; tauto).
  set (acc' := if mem x acc then acc else acc ++ [x]).
  assert (X : In x acc') by (unfold acc'; destruct (mem x acc) eqn:E; [apply mem_In, E|apply in_or_app; right; left; reflexivity]).
  assert (Y : ~ In y acc') by (unfold acc'; destruct (mem x acc); [rewrite A; exact N|rewrite in_app_iff, A; cbn [In]; intros [K|[K|[]]]; [exact (N K)|exact (D K)]]).
  destruct (fold_prefix l2 acc') as [r E]. pose proof (proj2 (fold_mem l2 acc' y) (or_intror I2)) as K. rewrite E in K. rewrite E.
  apply in_app_or in K. destruct K as [K|K]; [destruct (Y K)|]. apply in_split in X. destruct X as (a1 & a2 & EA). rewrite EA in Y |- *.
  exists a1, (a2 ++ r). split; [rewrite <- app_assoc; reflexivity|]. split; [intros Q; apply Y, in_or_app; left; exact Q|]. split; [apply in_or_app; right; exact K|exact D].
Qed.
