(** More steps change nothing (C26). *)
From Verif Require Import Base Graph PyPath PyNorm Css Builder BuilderSpec BuilderProofs Handlers Nest NestSpec NestText NestProofs NestSound.
From Coq Require Import String ZArith NArith Bool List Lia.
Import ListNotations.
Open Scope list_scope.
Open Scope N_scope.

Section Nest.
Context {F : Type} (float_str : F -> str).
Notation token := (token (F := F)).
Notation rules := (rules (F := F)).
Notation nstate := (nstate (F := F)).
Context (default_css : str).
Notation get_import := (get_import default_css).

(** * More steps *)
Lemma read_block_more (av : list (ref * list token)) n : forall n' stack g value missing x, (n <= n')%nat -> read_block default_css n av stack g value missing = Ret x -> read_block default_css n' av stack g value missing = Ret x.
Proof.
  induction n as [|n IH]; intros n' stack g value missing x L; [discriminate|]. destruct n' as [|n']; [lia|]. cbn [read_block]. destruct (match stack with t :: r => Ret (t, r, g) | [] => match next g with Raise e => Raise e | Ret (t, g) => Ret (t, [], g) end end) as [[[t st] g']|]; [|discriminate].
  destruct (match value with [] => is_white t | _ => false end); [apply IH; lia|]. destruct (get_import t) as [i|]; [destruct (rget i av); apply IH; lia|]. destruct t; try (apply IH; lia); try (intros H; exact H). destruct (read_nested 1 (fst g') (snd g')) as [[l g2]|]; [apply IH; lia|discriminate].
Qed.
Lemma fill_more (av : list (ref * list token)) n : forall n' stack acc x, (n <= n')%nat -> fill default_css n av stack acc = Ret x -> fill default_css n' av stack acc = Ret x.
Proof.
  induction n as [|n IH]; intros n' stack acc x L; [discriminate|]. destruct n' as [|n']; [lia|]. cbn [fill]. destruct stack as [|t r]; [trivial|]. destruct (get_import t) as [i|]; [destruct (rget i av); [|discriminate]|]; apply IH; lia.
Qed.
Lemma read_item_more fuel fuel' av g x : (fuel <= fuel')%nat -> read_item float_str default_css fuel av g = Ret x -> read_item float_str default_css fuel' av g = Ret x.
Proof.
  intros L. unfold read_item. destruct (next g) as [[t g1]|]; [|discriminate].
  assert (M : match read_prelude (fst g1) (snd g1) with Raise e => Raise e | Ret (p, g) => match read_block default_css fuel av [] g [] [] with Raise e => Raise e | Ret (value, missing, g) => Ret (Some (strip (serialize_many float_str (t :: p)), rstrip_white value, missing), g) end end = Ret x -> match read_prelude (fst g1) (snd g1) with Raise e => Raise e | Ret (p, g) => match read_block default_css fuel' av [] g [] [] with Raise e => Raise e | Ret (value, missing, g) => Ret (Some (strip (serialize_many float_str (t :: p)), rstrip_white value, missing), g) end end = Ret x).
  { destruct (read_prelude (fst g1) (snd g1)) as [[p g2]|]; [|discriminate]. destruct (read_block default_css fuel av [] g2 [] []) as [y|] eqn:E; [|discriminate]. rewrite (read_block_more av fuel fuel' _ _ _ _ _ L E). trivial. }
  destruct t; try exact M; intros H; exact H.
Qed.
Lemma resolve_more fuel fuel' r (rs : rules) x : (fuel <= fuel')%nat -> resolve default_css fuel r rs = Ret x -> resolve default_css fuel' r rs = Ret x.
Proof. intros L. unfold resolve. destruct (rget r (unresolved rs)) as [[b m]|]; [|discriminate]. destruct (fill default_css fuel (available rs) b []) as [v|] eqn:E; [|discriminate]. rewrite (fill_more _ _ fuel' _ _ _ L E). trivial. Qed.
Lemma resolve_all_more pick fuel fuel' n : forall n' clock (rs : rules) x, (fuel <= fuel')%nat -> (n <= n')%nat -> resolve_all default_css pick fuel n clock rs = Ret x -> resolve_all default_css pick fuel' n' clock rs = Ret x.
Proof.
  induction n as [|n IH]; intros n' clock rs x Lf L; cbn [resolve_all].
  - destruct (resolvable rs) eqn:R; [|discriminate]. destruct n'; cbn [resolve_all]; rewrite R; trivial.
  - destruct n' as [|n']; [lia|]. cbn [resolve_all]. destruct (resolvable rs) as [|d l]; [trivial|]. destruct (resolve default_css fuel _ rs) as [rs1|] eqn:E; [|discriminate]. rewrite (resolve_more _ _ _ _ _ Lf E). apply IH; lia.
Qed.
Lemma ensure_using_more pick fuel fuel' n : forall n' imp path g s x, (fuel <= fuel')%nat -> (n <= n')%nat -> ensure_using float_str default_css pick fuel n imp path g s = Ret x -> ensure_using float_str default_css pick fuel' n' imp path g s = Ret x.
Proof.
  induction n as [|n IH]; intros n' imp path g s x Lf L; cbn [ensure_using]; destruct (resolve_all default_css pick fuel fuel (n_clock s) (n_rules s)) as [[clock rs]|] eqn:RA; try discriminate; (destruct n' as [|n']; try lia; cbn [ensure_using]; rewrite (resolve_all_more pick fuel fuel' _ _ _ _ _ Lf Lf RA); destruct (rget imp (available rs)); trivial); [discriminate..|].
  destruct (read_item float_str default_css fuel (available rs) g) as [[[[[p b] m]|] g']|] eqn:RI; try discriminate; rewrite (read_item_more _ _ _ _ _ Lf RI); [destruct (set_rule (fst imp, p) b m rs) as [rs'|]; [|discriminate]|]; apply IH; lia.
Qed.
(** * Rules that are found in the same way *)
Definition alike {A} (d d' : list (ref * A)) : Prop := forall r, rget r d = rget r d'.
Lemma read_block_ext (av : list (ref * list token)) av' n : alike av av' -> forall stack g value missing, read_block default_css n av stack g value missing = read_block default_css n av' stack g value missing.
Proof.
  intros A. induction n as [|n IH]; intros stack g value missing; [reflexivity|]. cbn [read_block]. destruct (match stack with t :: r => Ret (t, r, g) | [] => match next g with Raise e => Raise e | Ret (t, g) => Ret (t, [], g) end end) as [[[t st] g']|]; [|reflexivity].
  destruct (match value with [] => is_white t | _ => false end); [apply IH|]. destruct (get_import t) as [i|]; [rewrite (A i); destruct (rget i av'); apply IH|]. destruct t; try apply IH; try reflexivity. destruct (read_nested 1 (fst g') (snd g')) as [[l g2]|]; [apply IH|reflexivity].
Qed.
Lemma read_item_ext av av' fuel g : alike av av' -> read_item float_str default_css fuel av g = read_item float_str default_css fuel av' g.
Proof. intros A. unfold read_item. destruct (next g) as [[t g1]|]; [|reflexivity]. assert (M : forall r, read_block default_css fuel av [] r [] [] = read_block default_css fuel av' [] r [] []) by (intros r; apply read_block_ext; exact A). destruct t; try reflexivity; destruct (read_prelude (fst g1) (snd g1)) as [[p g2]|]; try reflexivity; rewrite M; reflexivity. Qed.
Lemma read_item_same av av' fuel fuel' g x y : alike av av' -> read_item float_str default_css fuel av g = Ret x -> read_item float_str default_css fuel' av' g = Ret y -> x = y.
Proof.
  intros A X Y. rewrite (read_item_ext av av' fuel g A) in X. apply (read_item_more fuel (max fuel fuel')) in X; [|lia]. apply (read_item_more fuel' (max fuel fuel')) in Y; [|lia]. rewrite X in Y. injection Y as ->. reflexivity.
Qed.

(** * There are enough steps *)
Notation plain := (plain default_css).
Definition filled (av : list (ref * list token)) : Prop := forall r v, rget r av = Some v -> plain v.
Lemma fill_plain (av : list (ref * list token)) b : plain b -> forall n r acc, fill default_css (length b + n) av (b ++ r) acc = fill default_css n av r (acc ++ b).
Proof.
  induction b as [|t b IH]; intros P n r acc; [cbn; rewrite app_nil_r; reflexivity|]. inversion P as [|? ? (I & _) P']; subst. cbn [length app Nat.add fill]. rewrite I. rewrite IH by exact P'. rewrite <- app_assoc. reflexivity.
Qed.
(** the block with its imports replaced *)
Fixpoint splice (av : list (ref * list token)) (stack : list token) : option (list token) :=
  match stack with
  | [] => Some []
  | t :: r => match get_import t with None => option_map (cons t) (splice av r) | Some i => match rget i av with None => None | Some b => option_map (app b) (splice av r) end end
  end.
Lemma fill_splice av stack : filled av -> forall v, splice av stack = Some v -> exists n, forall acc, fill default_css n av stack acc = Ret (acc ++ v).
Proof.
  intros G. induction stack as [|t r IH]; intros v; cbn [splice].
  - intros [= <-]. exists 1%nat. intros acc. rewrite app_nil_r. reflexivity.
  - destruct (get_import t) as [i|] eqn:I.
    + destruct (rget i av) as [b|] eqn:R; [|discriminate]. destruct (splice av r) as [w|]; [|discriminate]. intros [= <-]. destruct (IH w eq_refl) as (n & H). exists (S (length b + n)). intros acc. cbn [fill]. rewrite I, R, fill_plain by exact (G _ _ R). rewrite H, app_assoc. reflexivity.
    + destruct (splice av r) as [w|]; [|discriminate]. intros [= <-]. destruct (IH w eq_refl) as (n & H). exists (S n). intros acc. cbn [fill]. rewrite I, H, <- app_assoc. reflexivity.
Qed.
Lemma splice_total av stack : (forall t i, In t stack -> get_import t = Some i -> rget i av <> None) -> exists v, splice av stack = Some v.
Proof.
  induction stack as [|t r IH]; intros H; [exists []; reflexivity|]. destruct IH as (v & E); [intros u i I; apply H; right; exact I|]. cbn [splice]. rewrite E. destruct (get_import t) as [i|] eqn:I; [|eexists; reflexivity]. pose proof (H t i (or_introl eq_refl) I). destruct (rget i av) as [b|]; [eexists; reflexivity|congruence].
Qed.
Lemma fill_is_splice av n : filled av -> forall stack acc v, fill default_css n av stack acc = Ret v -> exists w, splice av stack = Some w /\ v = acc ++ w.
Proof.
  intros G stack acc v H. assert (X : exists w, splice av stack = Some w).
  { apply splice_total. revert stack acc H. induction n as [|n IH]; intros stack acc H; [discriminate|]. cbn [fill] in H. destruct stack as [|t r]; [intros t i []|]. destruct (get_import t) as [i|] eqn:I.
    - destruct (rget i av) as [b|] eqn:R; [|discriminate]. pose proof (IH _ _ H) as K. intros u j [<-|Iu] Eu; [congruence|]. apply (K u j); [apply in_app_iff; right; exact Iu|exact Eu].
    - pose proof (IH _ _ H) as K. intros u j [<-|Iu] Eu; [congruence|exact (K u j Iu Eu)]. }
  destruct X as (w & E). exists w. split; [exact E|]. destruct (fill_splice av stack G w E) as (m & M). apply (fill_more av n (max n m)) in H; [|lia]. pose proof (fill_more av m (max n m) stack acc _ ltac:(lia) (M acc)) as M'. rewrite M' in H. injection H as <-. reflexivity.
Qed.
Lemma read_block_total av b : filled av -> flat b -> forall stack r value missing, plain stack -> exists n x, read_block default_css n av stack (b ++ TRCurly :: r, None) value missing = Ret x.
Proof.
  intros G. induction b as [|t b IH]; intros FB stack r.
  - induction stack as [|u stack IHs]; intros value missing P.
    + exists 1%nat. cbn [app read_block next is_white get_import]. destruct value; eexists; reflexivity.
    + inversion P as [|? ? (I & C & E) P']; subst. destruct (IHs value missing P') as (n1 & x1 & H1). destruct (IHs (value ++ [u]) missing P') as (n2 & x2 & H2).
      destruct (match value with [] => is_white u | _ => false end) eqn:W; [exists (S n1), x1|exists (S n2), x2]; cbn [read_block]; rewrite W; [exact H1|]. rewrite I. destruct u; try exact H2; [destruct C; left; reflexivity|destruct C; right; reflexivity|destruct E; reflexivity].
  - inversion FB as [|? ? [C E] FB']; subst. induction stack as [|u stack IHs]; intros value missing P.
    + cbn [app]. destruct (match value with [] => is_white t | _ => false end) eqn:W.
      * destruct (IH FB' [] r value missing P) as (n & x & H). exists (S n), x. cbn [read_block next]. rewrite W. exact H.
      * destruct (get_import t) as [i|] eqn:I.
        -- destruct (rget i av) as [b0|] eqn:R; [destruct (IH FB' (b0 ++ []) r value missing) as (n & x & H); [rewrite app_nil_r; exact (G _ _ R)|]|destruct (IH FB' [] r (value ++ [t]) (radd i missing) P) as (n & x & H)]; exists (S n), x; cbn [read_block next]; rewrite W, I, R; exact H.
        -- destruct (IH FB' [] r (value ++ [t]) missing P) as (n & x & H). exists (S n), x. cbn [read_block next]. rewrite W, I. destruct t; try exact H; [destruct C; left; reflexivity|destruct C; right; reflexivity|destruct E; reflexivity].
    + inversion P as [|? ? (I & C' & E') P']; subst. destruct (IHs value missing P') as (n1 & x1 & H1). destruct (IHs (value ++ [u]) missing P') as (n2 & x2 & H2).
      destruct (match value with [] => is_white u | _ => false end) eqn:W; [exists (S n1), x1|exists (S n2), x2]; cbn [read_block]; rewrite W; [exact H1|]. rewrite I. destruct u; try exact H2; [destruct C'; left; reflexivity|destruct C'; right; reflexivity|destruct E'; reflexivity].
Qed.
Lemma read_item_total av ts l : filled av -> sheet ts l -> ts <> [TEof] -> exists n x, read_item float_str default_css n av (ts, None) = Ret x.
Proof.
  intros G H NE. unfold read_item. destruct H as [|v r l H|v r l H|a r l N E H|v a b r l N E B H|t a b r l T N E Fb H]; cbn [next fst snd app].
  - congruence.
  - exists O. eexists. reflexivity.
  - exists O. eexists. reflexivity.
  - exists O. rewrite read_to_app; [|intros t I; destruct t; try reflexivity; contradiction|exact E|discriminate|reflexivity]. eexists. reflexivity.
  - exists O. rewrite read_to_app; [|intros t I; destruct t; try reflexivity; contradiction|exact E|discriminate|reflexivity]. cbn [fst snd]. rewrite read_nested_end by exact B. eexists. reflexivity.
  - destruct T as (T1 & T2 & T3 & T4 & T5 & T6). destruct (read_block_total av b G (proj2 (Forall_forall _ _) Fb) [] r [] [] ltac:(constructor)) as (n & [[v m] g] & R).
    exists n. assert (X : exists x, match read_prelude (a ++ TLCurly :: b ++ TRCurly :: r) None with Raise e => Raise e | Ret (p, g) => match read_block default_css n av [] g [] [] with Raise e => Raise e | Ret (value, missing, g) => Ret (Some (strip (serialize_many float_str (t :: p)), rstrip_white value, missing), g) end end = Ret x) by (rewrite read_prelude_app by assumption; rewrite R; eexists; reflexivity).
    destruct t; try exact X; exfalso; try congruence; first [exact (T4 _ eq_refl)|exact (T5 _ eq_refl)|exact (T6 _ eq_refl)].
Qed.
Lemma radd_nodup r l : NoDup l -> NoDup (radd r l).
Proof. intros H. unfold radd. destruct (rmem r l) eqn:E; [exact H|]. apply rmem_false in E. clear -H E. induction l as [|x l IH]; cbn; [constructor; [intros []|constructor]|]. inversion H; subst. constructor; [rewrite in_app_iff; cbn; intros [X|[X|[]]]; [contradiction|subst; apply E; left; reflexivity]|apply IH; [assumption|intros X; apply E; right; exact X]]. Qed.
Lemma read_block_nodup (av : list (ref * list token)) n : forall stack g value missing v m g', NoDup missing -> read_block default_css n av stack g value missing = Ret (v, m, g') -> NoDup m.
Proof.
  induction n as [|n IH]; intros stack g value missing v m g' N; [discriminate|]. cbn [read_block]. destruct (match stack with t :: r => Ret (t, r, g) | [] => match next g with Raise e => Raise e | Ret (t, g) => Ret (t, [], g) end end) as [[[t st] g1]|]; [|discriminate].
  destruct (match value with [] => is_white t | _ => false end); [apply IH; exact N|]. destruct (get_import t) as [i|]; [destruct (rget i av); apply IH; [exact N|apply radd_nodup; exact N]|]. destruct t; try (apply IH; exact N); try discriminate; [|intros [= _ <- _]; exact N].
  destruct (read_nested 1 (fst g1) (snd g1)) as [[l g2]|]; [apply IH; exact N|discriminate].
Qed.
Lemma read_item_nodup fuel av g p b m g' : read_item float_str default_css fuel av g = Ret (Some (p, b, m), g') -> NoDup m.
Proof.
  unfold read_item. destruct (next g) as [[t g1]|]; [|discriminate]. intros H.
  assert (X : match read_prelude (fst g1) (snd g1) with Raise e => Raise e | Ret (p, g) => match read_block default_css fuel av [] g [] [] with Raise e => Raise e | Ret (value, missing, g) => Ret (Some (strip (serialize_many float_str (t :: p)), rstrip_white value, missing), g) end end = Ret (Some (p, b, m), g')).
  { destruct t; try exact H; try discriminate; match type of H with context [read_to ?q ?a ?b] => destruct (read_to q a b) as [[g2 g3]|]; [|discriminate]; try discriminate; cbn [fst snd] in H; destruct (read_nested 1 g2 g3) as [[? ?]|]; discriminate end. }
  destruct (read_prelude (fst g1) (snd g1)) as [[p' g2]|]; [|discriminate]. destruct (read_block default_css fuel av [] g2 [] []) as [[[v m'] g3]|] eqn:R; [|discriminate]. injection X as _ _ <- _. exact (read_block_nodup _ _ _ _ _ _ _ _ _ (NoDup_nil _) R).
Qed.

(** * The manipulator *)
Context (float_of : str -> option F) (high_digit : N -> bool) (int_high : str -> option Z) (self : str) (f : str -> option str).
Lemma continue_more pick fuel fuel' t s x : (fuel <= fuel')%nat -> nest_continue float_of float_str high_digit int_high default_css self f pick fuel t s = Ret x -> nest_continue float_of float_str high_digit int_high default_css self f pick fuel' t s = Ret x.
Proof.
  intros L. unfold nest_continue. destruct (get_import t) as [imp|]; [|discriminate]. assert (E : forall y, ensure_resolved float_of float_str high_digit int_high default_css self f pick fuel imp s = Ret y -> ensure_resolved float_of float_str high_digit int_high default_css self f pick fuel' imp s = Ret y).
  { intros y. unfold ensure_resolved. destruct (resolve_all default_css pick fuel fuel (n_clock s) (n_rules s)) as [[clock rs]|] eqn:RA; [|discriminate]. rewrite (resolve_all_more pick fuel fuel' _ _ _ _ _ L L RA). destruct (rget imp (available rs)); [trivial|]. unfold ensure_import_resolved.
    destruct (dget _ (resumable _)); [apply ensure_using_more; exact L|]. destruct (f _); [apply ensure_using_more; exact L|trivial]. }
  destruct (ensure_resolved float_of float_str high_digit int_high default_css self f pick fuel imp s) as [y|]; [|discriminate]. rewrite (E y eq_refl). trivial.
Qed.
Notation nest pick fuel scan := (nest float_of float_str high_digit int_high default_css self f pick fuel scan).
Lemma rewrites_more pick fuel fuel' scan s ts out lost s' : (fuel <= fuel')%nat -> rewrites [nest pick fuel scan] s ts out lost s' -> rewrites [nest pick fuel' scan] s ts out lost s'.
Proof.
  intros L H. induction H as [s|t s s1 ts out lost s2 D R IH|t m s s1 seg repl s2 ts out lost s3 M RP R IH|t m s s1 seg s2 M HD].
  - constructor.
  - apply (RwPass _ _ _ s1); [|exact IH]. inversion D as [|? ? ? ? sa sb ST D']; subst. inversion D'; subst. apply (DeclCons _ _ _ _ s1); [exact ST|constructor].
  - assert (X : m = nest pick fuel scan /\ start_mark (nest pick fuel scan) t s = Ret (true, s1)) by (inversion M as [|? ? ? ? ? ? ? ? M']; subst; [split; [reflexivity|assumption]|inversion M']). destruct X as [-> ST].
    apply (RwMark _ _ (nest pick fuel' scan) _ s1 seg repl s2); [apply MarkHere; exact ST| |exact IH]. clear -RP L. induction RP as [t0 s0 rp s4 C|t0 s0 s4 sg rp s5 C RP IH]; [apply ReplEnd|eapply ReplMore; [|exact IH]]; cbn [continue_mark Nest.nest] in *; apply (continue_more pick fuel); assumption.
  - assert (X : m = nest pick fuel scan /\ start_mark (nest pick fuel scan) t s = Ret (true, s1)) by (inversion M as [|? ? ? ? ? ? ? ? M']; subst; [split; [reflexivity|assumption]|inversion M']). destruct X as [-> ST].
    apply (RwOpen _ _ (nest pick fuel' scan) _ s1 seg s2); [apply MarkHere; exact ST|]. clear -HD L. induction HD as [s0|t0 s0 s4 sg s5 C HD IH]; [constructor|econstructor; [|exact IH]]. cbn [continue_mark Nest.nest] in *. apply (continue_more pick fuel); assumption.
Qed.
End Nest.
