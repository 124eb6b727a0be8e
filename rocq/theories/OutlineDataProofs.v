From Verif Require Import Base Graph Json JsonProofs PyPath PyNorm PyNormProofs Css CssVersion Builder Handlers OutlineData OutlineDataSpec.
From Coq Require Import String ZArith NArith Bool List Lia ZifyN ZifyBool ZifyNat.
Import ListNotations.
Open Scope list_scope.
Open Scope N_scope.

(** * Strings *)
Lemma cut_type_some s t d : cut_type s = Some (t, d) <-> ~ In 59 t /\ ~ In 44 t /\ exists sep, (sep = 59 \/ sep = 44) /\ s = t ++ sep :: d.
Proof.
  revert t. induction s as [|c s IH]; intros t; cbn [cut_type].
  - split; [discriminate|]. intros (_ & _ & sep & _ & H). destruct t; discriminate.
  - destruct ((c =? 59) || (c =? 44)) eqn:E.
    + assert (Hc : c = 59 \/ c = 44) by lia. split.
      * intros [= <- <-]. split; [auto|]. split; [auto|]. exists c. split; [exact Hc|reflexivity].
      * intros (N1 & N2 & sep & Hs & H). destruct t as [|x t]; [injection H as -> ->; reflexivity|]. injection H as <- _. exfalso. destruct Hc as [-> | ->]; [apply N1|apply N2]; left; reflexivity.
    + destruct (cut_type s) as [[t' d']|] eqn:Es.
      * split.
        -- intros [= <- <-]. destruct (proj1 (IH t') eq_refl) as (N1 & N2 & sep & Hs & ->). split; [intros [X|X]; [lia|auto]|]. split; [intros [X|X]; [lia|auto]|]. exists sep. auto.
        -- intros (N1 & N2 & sep & Hs & H). destruct t as [|x t]; [injection H as -> ->; lia|]. injection H as <- ->. 
           assert (X : Some (t', d') = Some (t, d)) by (apply IH; split; [intros X; apply N1; right; exact X|split; [intros X; apply N2; right; exact X|eauto]]). injection X as -> ->. reflexivity.
      * split; [discriminate|]. intros (N1 & N2 & sep & Hs & H). destruct t as [|x t]; [injection H as -> ->; lia|]. injection H as <- ->.
        assert (X : None = Some (t, d)) by (apply IH; split; [intros X; apply N1; right; exact X|split; [intros X; apply N2; right; exact X|eauto]]). discriminate.
Qed.
Lemma existsb_In x s : existsb (N.eqb x) s = true <-> In x s.
Proof. rewrite existsb_exists. split; [intros (y & H & E); apply N.eqb_eq in E; subst; exact H|intros H; exists x; split; [exact H|apply N.eqb_refl]]. Qed.
Lemma existsb_not x s : existsb (N.eqb x) s = false <-> ~ In x s.
Proof. rewrite <- existsb_In. destruct (existsb (N.eqb x) s); intuition congruence. Qed.
Lemma image_data_iff v ty d : image_data v = Some (ty, d) <-> data_uri v ty d.
Proof.
  unfold image_data, data_uri. set (pre := lit "data:image/"). clearbody pre. destruct (starts_with pre v) eqn:E.
  - apply starts_with_iff in E. destruct E as [r ->]. rewrite skipn_app, skipn_all, Nat.sub_diag. cbn [skipn app].
    destruct (cut_type r) as [[t' d']|] eqn:Ec.
    + apply cut_type_some in Ec. destruct Ec as (N1 & N2 & sep & Hs & ->). split.
      * destruct t' as [|x t']; [discriminate|]. destruct d' as [|y d']; [discriminate|]. destruct (existsb (N.eqb 34) (y :: d')) eqn:Eq; [discriminate|]. apply existsb_not in Eq. intros [= <- <-].
        split; [discriminate|]. split; [exact N1|]. split; [exact N2|]. split; [discriminate|]. split; [exact Eq|]. exists sep. auto.
      * intros (A1 & A2 & A3 & A4 & A5 & sep' & Hs' & Hv). apply app_inv_head in Hv.
        assert (X : cut_type (t' ++ sep :: d') = Some (ty, d)) by (apply cut_type_some; eauto 6). assert (Y : cut_type (t' ++ sep :: d') = Some (t', d')) by (apply cut_type_some; eauto 6). rewrite X in Y. injection Y as <- <-.
        destruct ty; [contradiction|]. destruct d; [contradiction|]. apply existsb_not in A5. rewrite A5. reflexivity.
    + split; [discriminate|]. intros (A1 & A2 & A3 & A4 & A5 & sep' & Hs' & Hv). apply app_inv_head in Hv. assert (X : cut_type r = Some (ty, d)) by (apply cut_type_some; eauto 6). congruence.
  - split; [discriminate|]. intros (_ & _ & _ & _ & _ & sep & _ & ->). assert (X : starts_with pre (pre ++ ty ++ sep :: d) = true) by (apply starts_with_iff; eauto). congruence.
Qed.
Lemma before_plus_ok ty : extension ty (before_plus ty).
Proof.
  unfold extension. induction ty as [|c r [IH1 IH2]]; cbn [before_plus]; [split; [intros []|left; reflexivity]|]. destruct (c =? 43) eqn:E.
  - apply N.eqb_eq in E. subst c. split; [intros []|]. right. exists r. reflexivity.
  - apply N.eqb_neq in E. split; [intros [X|X]; auto|]. destruct IH2 as [E2|[x E2]]; [left; f_equal; exact E2|right; exists x; cbn [app]; f_equal; exact E2].
Qed.
Lemma extension_fun ty e : extension ty e -> e = before_plus ty.
Proof.
  intros [N H]. destruct H as [<-|[r ->]].
  - induction ty as [|c ty IH]; [reflexivity|]. cbn [before_plus]. destruct (c =? 43) eqn:E; [apply N.eqb_eq in E; exfalso; apply N; left; exact E|]. rewrite <- IH; [reflexivity|]. intros X. apply N. right. exact X.
  - induction e as [|c e IH]; [reflexivity|]. cbn [app before_plus]. destruct (c =? 43) eqn:E; [apply N.eqb_eq in E; exfalso; apply N; left; exact E|]. rewrite <- IH; [reflexivity|]. intros X. apply N. right. exact X.
Qed.
Lemma before_last_dot_app a b : ~ In 46 b -> before_last_dot (a ++ 46 :: b) = Some a.
Proof.
  intros H. assert (N : before_last_dot b = None).
  { induction b as [|c b IH]; [reflexivity|]. cbn [before_last_dot]. rewrite IH by (intros X; apply H; right; exact X). destruct (c =? 46) eqn:E; [apply N.eqb_eq in E; exfalso; apply H; left; exact E|reflexivity]. }
  induction a as [|c a IH]; cbn [app before_last_dot]; [rewrite N; reflexivity|]. rewrite IH. reflexivity.
Qed.
Lemma splitext_css dir name : ~ In 47 name -> (exists c, In c name /\ c <> 46) -> splitext_root ((dir ++ [47]) ++ name ++ lit ".css") = (dir ++ [47]) ++ name.
Proof.
  intros S (c & Hc & D). unfold splitext_root. rewrite <- app_assoc. change ([47] ++ name ++ lit ".css") with (47 :: (name ++ lit ".css")).
  rewrite cut_last_slash by (intros X; apply in_app_iff in X; destruct X as [X|X]; [contradiction|repeat (destruct X as [X|X]; [discriminate X|]); exact X]).
  change (lit ".css") with (46 :: lit "css"). rewrite before_last_dot_app by (intros X; repeat (destruct X as [X|X]; [discriminate X|]); exact X).
  destruct (forallb (N.eqb 46) name) eqn:E; [|reflexivity]. rewrite forallb_forall in E. specialize (E c Hc). apply N.eqb_eq in E. congruence.
Qed.
Lemma path_in_gen_ok relpath p : stylesheet relpath p -> path_in_gen relpath = p /\ p <> [] /\ (forall r, p <> 47 :: r) /\ last p 0 <> 47.
Proof.
  intros (dir & name & -> & D & S & (c & Hc & Nc) & ->). 
  assert (Nn : name <> []) by (intros ->; exact Hc). assert (Hl : last (dir ++ name) 0 <> 47).
  { destruct (exists_last Nn) as (a & x & ->). rewrite app_assoc, last_last. intros ->. apply S, in_app_iff. right. left. reflexivity. }
  split; [|split; [|split; [|exact Hl]]].
  - unfold path_in_gen. replace (lit "src/public/" ++ (dir ++ name) ++ lit ".css") with ((((lit "src/public" ++ (match dir with [] => [] | _ => [47] end)) ++ removelast dir) ++ [47]) ++ name ++ lit ".css").
    + rewrite splitext_css by eauto. 
      replace ((((lit "src/public" ++ (match dir with [] => [] | _ => [47] end)) ++ removelast dir) ++ [47]) ++ name) with (lit "src/public" ++ 47 :: dir ++ name).
      * destruct (starts_with (lit "src/public") (lit "src/public" ++ 47 :: dir ++ name)) eqn:E; [reflexivity|]. exfalso. assert (X : starts_with (lit "src/public") (lit "src/public" ++ 47 :: dir ++ name) = true) by (apply starts_with_iff; eauto). congruence.
      * destruct D as [-> |(d & -> & _)]; [reflexivity|]. rewrite removelast_last. destruct (d ++ [47]) eqn:E; [destruct d; discriminate|]. rewrite <- E, <- !app_assoc. reflexivity.
    + destruct D as [-> |(d & -> & _)]; [reflexivity|]. rewrite removelast_last. destruct (d ++ [47]) eqn:E; [destruct d; discriminate|]. rewrite <- E, <- !app_assoc. reflexivity.
  - intros H. apply app_eq_nil in H. destruct H. contradiction.
  - intros r H. destruct D as [-> |(d & -> & X)]; [|apply X; destruct d as [|y d]; [eexists; reflexivity|injection H as -> _; eexists; reflexivity]]. cbn [app] in H. subst name. apply S. left. reflexivity.
Qed.
Lemma print_N_dot n : ~ In 46 (print_N n) /\ ~ In 47 (print_N n).
Proof. destruct (print_N_spec n) as (ds & -> & _ & H & _). rewrite Forall_forall in H. split; intros X; apply H in X; discriminate. Qed.
Lemma image_path_ok relpath p n ty : stylesheet relpath p -> image_path relpath (N.of_nat n + 1) ty = image_file p n (before_plus ty).
Proof.
  intros H. apply path_in_gen_ok in H. destruct H as (E & N & S & L). unfold image_path, image_out_folder, join_path. rewrite E. cbn [fold_left].
  change (join2 (join2 (join2 (lit "out") (lit "www")) (lit "img")) (lit "gen")) with (lit "out/www/img/gen").
  assert (J : join2 (lit "out/www/img/gen") p = lit "out/www/img/gen/" ++ p).
  { unfold join2. destruct p as [|c r]; [contradiction|]. destruct (c =? 47) eqn:Ec; [apply N.eqb_eq in Ec; subst c; exfalso; exact (S r eq_refl)|reflexivity]. }
  rewrite J. unfold image_file, image_url. replace (N.of_nat (n + 1)) with (N.of_nat n + 1) by lia. set (q := N.of_nat n + 1). clearbody q.
  destruct (print_N_head q) as (c & r & Ep & Hd). unfold join2. rewrite Ep. cbn [app].
  destruct (c =? 47) eqn:Ec; [apply N.eqb_eq in Ec; subst c; discriminate|].
  change (lit "out/www/img/gen/" ++ p) with (111 :: lit "ut/www/img/gen/" ++ p). cbv beta iota.
  replace (last (111 :: lit "ut/www/img/gen/" ++ p) 0) with (last p 0) by (change (111 :: lit "ut/www/img/gen/" ++ p) with (lit "out/www/img/gen/" ++ p); destruct (exists_last N) as (a & x & ->); rewrite app_assoc, !last_last; reflexivity).
  destruct (last p 0 =? 47) eqn:El; [apply N.eqb_eq in El; contradiction|].
  change (111 :: lit "ut/www/img/gen/" ++ p) with (lit "out/www/img/gen/" ++ p). change (lit "out/www/img/gen/") with (lit "out/www" ++ lit "/img/gen/"). rewrite <- !app_assoc. reflexivity.
Qed.
Lemma cut_at (x : N) (a b c d : str) : ~ In x a -> ~ In x c -> a ++ x :: b = c ++ x :: d -> a = c /\ b = d.
Proof.
  revert c. induction a as [|y a IH]; intros [|z c] A C H; cbn [app] in H; injection H.
  - auto.
  - intros _ ->. exfalso. apply C. left. reflexivity.
  - intros _ ->. exfalso. apply A. left. reflexivity.
  - intros H' ->. destruct (IH c) as [-> ->]; auto; intros X; [apply A|apply C]; right; exact X.
Qed.
Lemma image_file_inj p i e j e' : image_file p i e = image_file p j e' -> i = j /\ e = e'.
Proof.
  unfold image_file, image_url. intros H. do 4 apply app_inv_head in H. change (lit "." ++ e) with (46 :: e) in H. change (lit "." ++ e') with (46 :: e') in H.
  apply cut_at in H; try apply print_N_dot. destruct H as [H ->]. apply (f_equal parse_N) in H. rewrite !parse_N_print in H. injection H as H. split; [lia|reflexivity].
Qed.
Lemma image_hash p i e : image_file p i e ++ lit ".hash" = image_file p i (e ++ lit ".hash").
Proof. unfold image_file, image_url. rewrite <- !app_assoc. reflexivity. Qed.
Lemma hash_of_image p i e : hash_target (image_file p i e) = Some (image_file p i e ++ lit ".hash").
Proof. reflexivity. Qed.

(** * unquote *)
Lemma hex_val_iff c v : hex_val c = Some v <-> hex_digit c v.
Proof.
  unfold hex_val, hex_digit. destruct ((48 <=? c) && (c <=? 57)) eqn:E1; [|destruct ((65 <=? c) && (c <=? 70)) eqn:E2; [|destruct ((97 <=? c) && (c <=? 102)) eqn:E3]].
  all: split; [intros [= <-]; lia || (intros; discriminate)|intros H; f_equal; lia].
Qed.
Lemma percent_bytes s bytes : percent s bytes -> unquote_to_bytes s = bytes /\ Forall (fun c => c < 128) s.
Proof.
  induction 1 as [|a b x y s bytes Ha Hb H [IH1 IH2]|c s bytes Hc Hn H [IH1 IH2]]; [split; [reflexivity|constructor]| |].
  - apply hex_val_iff in Ha as Ha'. apply hex_val_iff in Hb as Hb'. cbn [unquote_to_bytes]. change (37 =? 37) with true. cbv iota. rewrite Ha', Hb', IH1. split; [reflexivity|].
    repeat (apply Forall_cons); try exact IH2; unfold hex_digit in *; lia.
  - cbn [unquote_to_bytes]. destruct (c =? 37) eqn:E; [apply N.eqb_eq in E; contradiction|]. rewrite IH1. split; [reflexivity|]. constructor; assumption.
Qed.
Lemma unquote_ascii decode s : Forall (fun c => c < 128) s -> forall run, unquote_runs decode run s = match run ++ s with [] => [] | _ => decode (unquote_to_bytes (run ++ s)) end.
Proof.
  induction 1 as [|c s Hc H IH]; intros run; cbn [unquote_runs].
  - rewrite app_nil_r. reflexivity.
  - apply N.ltb_lt in Hc. rewrite Hc, IH, <- app_assoc. reflexivity.
Qed.
Lemma percent_no s bytes : percent s bytes -> ~ In 37 s -> bytes = s.
Proof. induction 1 as [|a b x y s bytes Ha Hb H IH|c s bytes Hc Hn H IH]; intros N; [reflexivity|exfalso; apply N; left; reflexivity|]. rewrite IH; [reflexivity|]. intros X. apply N. right. exact X. Qed.
Lemma utf8_ascii s : Forall (fun c => c < 128) s -> flat_map utf8 s = s.
Proof. induction 1 as [|c s Hc H IH]; [reflexivity|]. cbn [flat_map]. unfold utf8 at 1. apply N.ltb_lt in Hc. rewrite Hc, IH. reflexivity. Qed.
Lemma unquote_ok decode data text : (forall s, decode (flat_map utf8 s) = s) -> percent data (flat_map utf8 text) -> unquote decode data = text.
Proof.
  intros D P. destruct (percent_bytes _ _ P) as [B A]. unfold unquote. destruct (existsb (N.eqb 37) data) eqn:E.
  - rewrite unquote_ascii by exact A. cbn [app]. rewrite B, D. destruct data; [discriminate|reflexivity].
  - apply existsb_not in E. pose proof (percent_no _ _ P E) as X. rewrite <- (D text), X. transitivity (decode (flat_map utf8 data)); [symmetry; apply D|]. rewrite utf8_ascii by exact A. reflexivity.
Qed.

(** * The state machine *)
Section Machine.
Context {F : Type} (decode : list N -> str) (sha : str -> str) (lexists : fs -> str -> bool) (relpath : str).
Notation token := (@token F).
Notation dstate := (@dstate F).
Notation d_continue := (d_continue decode sha lexists relpath).
Notation m scan := (outline_data decode sha lexists relpath scan).
Definition is_open (t : token) : bool := match t with TFunction n => str_eqb n (lit "url") | _ => false end.
Lemma is_open_iff t : is_open t = true <-> t = open_url.
Proof. unfold open_url. destruct t; cbn [is_open]; try (split; intros X; discriminate X). rewrite str_eqb_eq. split; [intros ->; reflexivity|intros [= ->]; reflexivity]. Qed.
Definition ok (s : dstate) : Prop := d_skip s = false /\ d_stack s = None.
Definition set_flags (skip : bool) (stack : option token) (s : dstate) : dstate :=
  {| d_seen := d_seen s; d_made := d_made s; d_reused := d_reused s; d_by_data := d_by_data s; d_count := d_count s; d_skip := skip; d_stack := stack; d_files := d_files s |}.
Definition hold (s : dstate) : dstate := set_flags false (Some open_url) s.
Definition unskip (s : dstate) : dstate := set_flags false (d_stack s) s.
Lemma flags_ok s : ok s -> set_flags false None s = s.
Proof. intros [A B]. destruct s; cbn in *; subst; reflexivity. Qed.
Lemma start_no t s : is_open t = false -> d_start t s = Ret (false, s).
Proof. destruct t; cbn [is_open d_start]; intros H; try reflexivity. rewrite H. reflexivity. Qed.
Lemma start_skip s : d_skip s = true -> d_start open_url s = Ret (false, unskip s).
Proof. intros H. unfold open_url. cbn [d_start]. rewrite str_eqb_refl. cbn [negb]. rewrite H. reflexivity. Qed.
Lemma start_open s : ok s -> d_start open_url s = Ret (true, s).
Proof. intros H. unfold open_url. cbn [d_start]. rewrite str_eqb_refl. cbn [negb]. destruct s, H. cbn in *. subst. reflexivity. Qed.
Lemma continue_open scan s : ok s -> d_continue scan open_url s = Ret (None, hold s).
Proof. intros [A B]. unfold open_url, OutlineData.d_continue. rewrite B, str_eqb_refl, A. reflexivity. Qed.

Notation idle out s := {| b_out := out; b_mark := None; b_st := s |}.
Notation held scan out s := {| b_out := out; b_mark := Some (m scan); b_st := hold s |}.
Lemma handle_idle scan k t s out : ok s -> handle_token [m scan] (5 + k) t (idle out s) = Ret (if is_open t then held scan out s else idle (out ++ [t]) s).
Proof.
  intros O. unfold handle_token. cbn [plus loop b_mark find_mark outline_data start_mark b_st]. destruct (is_open t) eqn:E.
  - apply is_open_iff in E. subst t. rewrite (start_open _ O). cbn [continue_mark outline_data]. rewrite (continue_open _ _ O). reflexivity.
  - rewrite (start_no _ _ E). reflexivity.
Qed.
Lemma continue_other scan t s : (forall v, t = TString v -> image_data v = None) -> d_continue scan t (hold s) = Ret (Some [open_url; t], set_flags true None s).
Proof. intros H. unfold OutlineData.d_continue. cbn [hold set_flags d_stack]. destruct t; try reflexivity. rewrite (H v eq_refl). reflexivity. Qed.
Definition image_token (t : token) : bool := match t with TString v => match image_data v with Some _ => true | None => false end | _ => false end.
Lemma handle_held scan k t s : ok s -> handle_token [m scan] (5 + k) t (held scan [] s) =
  if image_token t then
    match d_continue scan t (hold s) with
    | Raise e => Raise e
    | Ret (None, s1) => Ret {| b_out := []; b_mark := Some (m scan); b_st := s1 |}
    | Ret (Some r, s1) => loop [m scan] (4 + k) (r ++ []) (idle [] s1)
    end
  else Ret (if is_open t then held scan [open_url] s else idle [open_url; t] s).
Proof.
  intros O. unfold handle_token. cbn [plus loop b_mark continue_mark outline_data b_st b_out]. destruct (image_token t) eqn:I; [destruct (d_continue scan t (hold s)) as [[[r|] s1]|]; reflexivity|].
  rewrite continue_other by (intros v ->; cbn in I; destruct (image_data v); [discriminate|reflexivity]).
  cbn [app loop b_mark find_mark outline_data start_mark b_st b_out]. rewrite start_skip by reflexivity. cbn [app loop b_mark find_mark outline_data start_mark b_st b_out].
  change (unskip (set_flags true None s)) with (set_flags false None s). rewrite (flags_ok _ O).
  destruct (is_open t) eqn:E.
  - apply is_open_iff in E. subst t. rewrite (start_open _ O). cbn [continue_mark outline_data]. rewrite (continue_open _ _ O). destruct k; reflexivity.
  - rewrite (start_no _ _ E). destruct k; reflexivity.
Qed.
Lemma continue_image scan v s r s1 : image_token (TString v) = true -> d_continue scan (TString v) (hold s) = Ret (r, s1) -> (exists u, r = Some [open_url; TString u]) /\ d_skip s1 = true /\ d_stack s1 = None.
Proof.
  cbn [image_token]. destruct (image_data v) as [[ty d]|] eqn:E; [|discriminate]. intros _. unfold OutlineData.d_continue. cbn [hold set_flags d_stack d_by_data d_count]. rewrite E.
  set (x := match dget d (d_by_data s) with Some p => _ | None => _ end). destruct x as [[[path fresh] count] by_data]. clear.
  destruct scan.
  - intros [= <- <-]. split; [eexists; reflexivity|]. destruct fresh; split; reflexivity.
  - destruct fresh.
    + unfold write_image. cbn [d_files d_made d_reused d_seen d_by_data d_count d_skip d_stack]. destruct (if lexists (d_files s) path then _ else _) as [[a b] c]. destruct (hash_build sha path c) as [[h f]|]; [|discriminate].
      cbn [d_files]. destruct (dget (path ++ lit ".hash") f); [|discriminate]. intros [= <- <-]. split; [eexists; reflexivity|split; reflexivity].
    + cbv iota. match goal with |- context [dget (path ++ lit ".hash") ?f] => destruct (dget (path ++ lit ".hash") f) end; [|discriminate]. intros [= <- <-]. split; [eexists; reflexivity|split; reflexivity].
Qed.
Lemma handle_image scan k v s : ok s -> image_token (TString v) = true -> handle_token [m scan] (5 + k) (TString v) (held scan [] s) =
    match d_continue scan (TString v) (hold s) with
    | Raise e => Raise e
    | Ret (Some r, s1) => Ret (idle r (unskip s1))
    | Ret (None, s1) => Ret {| b_out := []; b_mark := Some (m scan); b_st := s1 |}
    end.
Proof.
  intros O I. rewrite (handle_held scan k _ s O), I. destruct (d_continue scan (TString v) (hold s)) as [[r s1]|] eqn:E; [|reflexivity].
  destruct (continue_image _ _ _ _ _ I E) as ([u ->] & Sk & St). cbn [app plus loop b_mark find_mark outline_data start_mark b_st b_out]. rewrite (start_skip _ Sk). cbn [app loop b_mark find_mark outline_data start_mark b_st b_out].
  rewrite start_no by reflexivity. destruct k; reflexivity.
Qed.

Inductive run (scan : bool) : list token -> dstate -> list (str * str) -> list token -> dstate -> Prop :=
| RunEnd s : run scan [] s [] [] s
| RunImage v ty d u ts s s1 occ out s' : data_uri v ty d -> d_continue scan (TString v) (hold s) = Ret (Some [open_url; TString u], s1) -> run scan ts (unskip s1) occ out s' ->
    run scan (open_url :: TString v :: ts) s ((d, ty) :: occ) (open_url :: TString u :: out) s'
| RunOther t ts s occ out s' : (forall v ty d r, t = open_url -> ts = TString v :: r -> ~ data_uri v ty d) -> run scan ts s occ out s' -> run scan (t :: ts) s occ (t :: out) s'.
Lemma image_token_iff v : image_token (TString v) = true <-> exists ty d, data_uri v ty d.
Proof. cbn [image_token]. destruct (image_data v) as [[ty d]|] eqn:E; split; [intros _; exists ty, d; apply image_data_iff; exact E|reflexivity|discriminate|intros (ty & d & H); apply image_data_iff in H; congruence]. Qed.
Lemma not_last t (ts : list token) x : (forall a, t :: ts <> a ++ [x]) -> forall a, ts <> a ++ [x].
Proof. intros H a ->. apply (H (t :: a)). reflexivity. Qed.
Lemma pump_run scan k ts : (forall a, ts <> a ++ [open_url]) ->
  (forall s out b, ok s -> pump [m scan] (5 + k) ts (idle [] s) = Ret (out, b) -> exists occ, run scan ts s occ out (b_st b)) /\
  (ts <> [] -> forall s out b, ok s -> pump [m scan] (5 + k) ts (held scan [] s) = Ret (out, b) -> exists occ, run scan (open_url :: ts) s occ out (b_st b)).
Proof.
  induction ts as [|t ts IH]; intros L.
  - split; [|intros X; contradiction]. intros s out b O. cbn [pump]. intros [= <- <-]. exists []. constructor.
  - specialize (IH (not_last _ _ _ L)). destruct IH as [IH1 IH2]. assert (Lt : is_open t = true -> ts <> []) by (intros E ->; apply is_open_iff in E; subst t; exact (L [] eq_refl)). split.
    + intros s out b O. cbn [pump]. rewrite (handle_idle scan k t s [] O). destruct (is_open t) eqn:E.
      * cbn [consume_tokens b_out b_mark b_st]. destruct (pump [m scan] (5 + k) ts (held scan [] s)) as [[o2 b3]|] eqn:P; [|discriminate]. intros [= <- <-]. apply is_open_iff in E. subst t. cbn [app]. exact (IH2 (Lt eq_refl) _ _ _ O P).
      * cbn [consume_tokens b_out b_mark b_st app]. destruct (pump [m scan] (5 + k) ts (idle [] s)) as [[o2 b3]|] eqn:P; [|discriminate]. intros [= <- <-]. destruct (IH1 _ _ _ O P) as [occ R].
        exists occ. apply RunOther; [|exact R]. intros v ty d r -> _. unfold open_url in E. cbn [is_open] in E. rewrite str_eqb_refl in E. discriminate.
    + intros _ s out b O. cbn [pump]. destruct (image_token t) eqn:I.
      * destruct t; try discriminate I. rewrite (handle_image scan k v s O I). destruct (d_continue scan (TString v) (hold s)) as [[r s1]|] eqn:C; [|discriminate].
        destruct (continue_image _ _ _ _ _ I C) as ([u ->] & Sk & St). cbn [consume_tokens b_out b_mark b_st]. destruct (pump [m scan] (5 + k) ts (idle [] (unskip s1))) as [[o2 b3]|] eqn:P; [|discriminate]. intros [= <- <-].
        destruct (IH1 (unskip s1) _ _ (conj eq_refl St) P) as [occ R]. apply image_token_iff in I. destruct I as (ty & d & D). exists ((d, ty) :: occ). eapply RunImage; eassumption.
      * rewrite (handle_held scan k t s O), I. destruct (is_open t) eqn:E.
        -- cbn [consume_tokens b_out b_mark b_st]. destruct (pump [m scan] (5 + k) ts (held scan [] s)) as [[o2 b3]|] eqn:P; [|discriminate]. intros [= <- <-]. apply is_open_iff in E. subst t.
           destruct (IH2 (Lt eq_refl) _ _ _ O P) as [occ R]. exists occ. apply RunOther; [|exact R]. intros v ty d r _ X. discriminate X.
        -- cbn [consume_tokens b_out b_mark b_st]. destruct (pump [m scan] (5 + k) ts (idle [] s)) as [[o2 b3]|] eqn:P; [|discriminate]. intros [= <- <-]. destruct (IH1 _ _ _ O P) as [occ R].
           exists occ. cbn [app]. apply RunOther; [|apply RunOther; [|exact R]].
           ++ intros v ty d r _ [= -> <-] D. assert (X : image_token (TString v) = true) by (apply image_token_iff; eauto). congruence.
           ++ intros v ty d r -> _. unfold open_url in E. cbn [is_open] in E. rewrite str_eqb_refl in E. discriminate.
Qed.
(** if the images never raise, nothing does *)
Lemma pump_total scan k ts (Inv : dstate -> Prop) : (forall s, Inv s -> ok s) -> (forall s v, Inv s -> image_token (TString v) = true -> exists r s1, d_continue scan (TString v) (hold s) = Ret (r, s1) /\ Inv (unskip s1)) ->
  (forall s, Inv s -> exists out b, pump [m scan] (5 + k) ts (idle [] s) = Ret (out, b)) /\ (forall s, Inv s -> exists out b, pump [m scan] (5 + k) ts (held scan [] s) = Ret (out, b)).
Proof.
  intros Ok St. induction ts as [|t ts [IH1 IH2]].
  - split; intros s I; eexists; eexists; reflexivity.
  - split; intros s I; cbn [pump].
    + rewrite (handle_idle scan k t s [] (Ok s I)). destruct (is_open t); cbn [consume_tokens b_out b_mark b_st]; [destruct (IH2 s I) as (o & b & ->)|destruct (IH1 s I) as (o & b & ->)]; eauto.
    + destruct (image_token t) eqn:E.
      * destruct t; try discriminate E. rewrite (handle_image scan k v s (Ok s I) E). destruct (St s v I E) as (r & s1 & C & I1). rewrite C. destruct (continue_image _ _ _ _ _ E C) as ([u ->] & _).
        cbn [consume_tokens b_out b_mark b_st]. destruct (IH1 _ I1) as (o & b & ->). eauto.
      * rewrite (handle_held scan k t s (Ok s I)), E. destruct (is_open t); cbn [consume_tokens b_out b_mark b_st]; [destruct (IH2 s I) as (o & b & ->)|destruct (IH1 s I) as (o & b & ->)]; eauto.
Qed.
End Machine.

(** * The images of a sheet *)
Fixpoint numbered (p : str) (i : nat) (l : list (str * str)) : list (str * str) :=
  match l with [] => [] | (d, ty) :: r => (d, image_file p i (before_plus ty)) :: numbered p (S i) r end.
Lemma numbered_keys p i l : dkeys (numbered p i l) = map fst l.
Proof. revert i. induction l as [|[d ty] l IH]; intros i; [reflexivity|]. cbn. f_equal. apply IH. Qed.
Lemma numbered_app p i l d ty : numbered p i (l ++ [(d, ty)]) = numbered p i l ++ [(d, image_file p (i + length l) (before_plus ty))].
Proof. revert i. induction l as [|[d' ty'] l IH]; intros i; cbn; [rewrite Nat.add_0_r; reflexivity|]. rewrite IH. cbn. replace (S (i + length l)) with (i + S (length l))%nat by lia. reflexivity. Qed.
Lemma dset_new (d : str) (v : str) m : ~ In d (dkeys m) -> dset d v m = m ++ [(d, v)].
Proof. induction m as [|[k x] m IH]; intros H; [reflexivity|]. cbn [dset app]. cbn in H. destruct (str_eqb d k) eqn:E; [apply str_eqb_eq in E; exfalso; apply H; left; congruence|]. rewrite IH; [reflexivity|]. intros X. apply H. right. exact X. Qed.
Lemma dget_numbered p l : NoDup (map fst l) -> forall i j d ty, nth_error l j = Some (d, ty) -> dget d (numbered p i l) = Some (image_file p (i + j) (before_plus ty)).
Proof.
  induction l as [|[d0 ty0] l IH]; intros N i j d ty H; [destruct j; discriminate|]. cbn [map fst] in N. inversion N as [|x y N1 N2]; subst. cbn [numbered dget]. destruct j as [|j].
  - injection H as -> ->. rewrite str_eqb_refl, Nat.add_0_r. reflexivity.
  - cbn in H. destruct (str_eqb d d0) eqn:E.
    + apply str_eqb_eq in E. subst d0. exfalso. apply N1. apply nth_error_In in H. apply (in_map fst) in H. exact H.
    + rewrite (IH N2 (S i) j d ty H). f_equal. f_equal. lia.
Qed.
Section Images.
Context {F : Type} (decode : list N -> str) (sha : str -> str) (relpath p : str).
Context (Sheet : stylesheet relpath p).
Notation token := (@token F).
Notation dstate := (@dstate F).
Definition here : fs -> str -> bool := fun f q => dmem q f.
Notation d_continue := (d_continue decode sha here relpath).
Definition file (i : nat) (ty : str) : str := image_file p i (before_plus ty).
Definition hfile (i : nat) (ty : str) : str := file i ty ++ lit ".hash".
Definition stamp (path h : str) : str := skipn (length (lit "out/www")) path ++ lit "?" ++ urlencode [(lit "v", h); (lit "pv", PROCESSOR_VERSION)].
Definition url_in (s : dstate) (d : str) : str :=
  match dget d (d_by_data s) with Some path => match dget (path ++ lit ".hash") (d_files s) with Some h => stamp path h | None => [] end | None => [] end.
Lemma file_inj i ty j ty' : file i ty = file j ty' -> i = j /\ before_plus ty = before_plus ty'.
Proof. apply image_file_inj. Qed.
Lemma hfile_inj i ty j ty' : hfile i ty = hfile j ty' -> i = j.
Proof. unfold hfile, file. intros H. apply app_inv_tail in H. apply image_file_inj in H. apply H. Qed.
Lemma file_hfile i ty j ty' : file i ty = hfile j ty' -> i = j.
Proof. unfold hfile, file. rewrite image_hash. intros H. apply image_file_inj in H. apply H. Qed.
Lemma file_not_own i ty : file i ty <> hfile i ty.
Proof. unfold hfile. intros H. rewrite <- (app_nil_r (file i ty)) in H at 1. apply app_inv_head in H. discriminate. Qed.

Definition tracked (images : list (str * str)) (s : dstate) : Prop :=
  ok s /\ NoDup (map fst images) /\ d_count s = N.of_nat (length images) /\ d_by_data s = numbered p 0 images.
Definition Inv (images : list (str * str)) (s : dstate) : Prop := tracked images s /\ forall i d ty, nth_error images i = Some (d, ty) -> dget (hfile i ty) (d_files s) <> None.
Record grown (images : list (str * str)) (s : dstate) (images' : list (str * str)) (s' : dstate) : Prop := {
  g_images : exists l, images' = images ++ l;
  g_seen : d_seen s' = d_seen s;
  g_kept : forall q v, dget q (d_files s) = Some v -> dget q (d_files s') = Some v;
  g_file : forall i d ty, (length images <= i)%nat -> nth_error images' i = Some (d, ty) -> dget (file i ty) (d_files s) = None -> dget (file i ty) (d_files s') = Some (unquote decode d);
  g_hash : forall i d ty, (length images <= i)%nat -> nth_error images' i = Some (d, ty) -> exists c h, dget (file i ty) (d_files s') = Some c /\ dget (hfile i ty) (d_files s') = Some h /\ (dget (hfile i ty) (d_files s) = None -> h = sha c);
  g_new : forall q, dget q (d_files s) = None -> dget q (d_files s') <> None -> exists i d ty, (length images <= i)%nat /\ nth_error images' i = Some (d, ty) /\ (q = file i ty \/ q = hfile i ty);
  g_made : forall q, In q (d_made s') <-> In q (d_made s) \/ (dget q (d_files s) = None /\ dget q (d_files s') <> None);
  g_reused : forall q, In q (d_reused s') <-> In q (d_reused s) \/ (dget q (d_files s) <> None /\ exists i d ty, (length images <= i)%nat /\ nth_error images' i = Some (d, ty) /\ (q = file i ty \/ q = hfile i ty)) }.
Lemma nth_lt {A} (l : list A) i x : nth_error l i = Some x -> (i < length l)%nat.
Proof. intros H. apply nth_error_Some. congruence. Qed.
Lemma grown_same images s s' : d_seen s' = d_seen s -> d_files s' = d_files s -> d_made s' = d_made s -> d_reused s' = d_reused s -> grown images s images s'.
Proof.
  intros A B C D. assert (X : forall i x, (length images <= i)%nat -> nth_error images i = Some x -> False) by (intros i x H1 H2; apply nth_lt in H2; lia).
  constructor; rewrite ?A, ?B, ?C, ?D; auto.
  - exists []. rewrite app_nil_r. reflexivity.
  - intros i d ty H1 H2. destruct (X _ _ H1 H2).
  - intros i d ty H1 H2. destruct (X _ _ H1 H2).
  - intros q H1 H2. contradiction.
  - intros q. intuition.
  - intros q. split; [auto|]. intros [H|(_ & i & d & ty & H1 & H2 & _)]; [exact H|destruct (X _ _ H1 H2)].
Qed.
Lemma grown_trans im s im1 s1 im2 s2 : grown im s im1 s1 -> grown im1 s1 im2 s2 -> grown im s im2 s2.
Proof.
  intros G H. destruct (g_images _ _ _ _ G) as [l ->]. destruct (g_images _ _ _ _ H) as [l2 ->]. 
  assert (Sp : forall i x, (length im <= i)%nat -> nth_error ((im ++ l) ++ l2) i = Some x -> ((i < length (im ++ l))%nat /\ nth_error (im ++ l) i = Some x) \/ (length (im ++ l) <= i)%nat).
  { intros i x _ E. destruct (Nat.lt_ge_cases i (length (im ++ l))) as [L|L]; [left; split; [exact L|]; rewrite nth_error_app1 in E by exact L; exact E|auto]. }
  assert (Le : forall i, (length (im ++ l) <= i)%nat -> (length im <= i)%nat) by (intros i; rewrite app_length; lia).
  assert (Up : forall i x, nth_error (im ++ l) i = Some x -> nth_error ((im ++ l) ++ l2) i = Some x) by (intros i x E; rewrite nth_error_app1 by (exact (nth_lt _ _ _ E)); exact E).
  assert (Ab : forall i d ty q, (length (im ++ l) <= i)%nat -> nth_error ((im ++ l) ++ l2) i = Some (d, ty) -> (q = file i ty \/ q = hfile i ty) -> dget q (d_files s) = dget q (d_files s1)).
  { intros i d ty q L E Q. destruct (dget q (d_files s)) as [v|] eqn:E0; [symmetry; exact (g_kept _ _ _ _ G _ _ E0)|]. destruct (dget q (d_files s1)) eqn:E1; [|reflexivity]. exfalso.
    destruct (g_new _ _ _ _ G q E0 ltac:(congruence)) as (j & d' & ty' & _ & Ej & Qj). apply nth_lt in Ej. assert (i = j); [|lia].
    destruct Q as [-> | ->], Qj as [Q|Q]; [apply file_inj in Q; apply Q|apply file_hfile in Q; exact Q|symmetry in Q; apply file_hfile in Q; auto|apply hfile_inj in Q; exact Q]. }
  constructor.
  - exists (l ++ l2). rewrite app_assoc. reflexivity.
  - rewrite (g_seen _ _ _ _ H). apply (g_seen _ _ _ _ G).
  - intros q v E. apply (g_kept _ _ _ _ H), (g_kept _ _ _ _ G), E.
  - intros i d ty L E N. destruct (Sp _ _ L E) as [[L1 E1]|L1]; [apply (g_kept _ _ _ _ H), (g_file _ _ _ _ G i d ty L E1 N)|]. apply (g_file _ _ _ _ H i d ty L1 E). rewrite <- (Ab i d ty _ L1 E (or_introl eq_refl)). exact N.
  - intros i d ty L E. destruct (Sp _ _ L E) as [[L1 E1]|L1].
    + destruct (g_hash _ _ _ _ G i d ty L E1) as (c & h & A & B & C). exists c, h. split; [apply (g_kept _ _ _ _ H), A|]. split; [apply (g_kept _ _ _ _ H), B|exact C].
    + destruct (g_hash _ _ _ _ H i d ty L1 E) as (c & h & A & B & C). exists c, h. split; [exact A|]. split; [exact B|]. rewrite (Ab i d ty _ L1 E (or_intror eq_refl)). exact C.
  - intros q N1 N2. destruct (dget q (d_files s1)) as [v|] eqn:E1.
    + destruct (g_new _ _ _ _ G q N1 ltac:(congruence)) as (i & d & ty & L & E & Q). exists i, d, ty. auto.
    + destruct (g_new _ _ _ _ H q E1 N2) as (i & d & ty & L & E & Q). exists i, d, ty. auto.
  - intros q. rewrite (g_made _ _ _ _ H), (g_made _ _ _ _ G). destruct (dget q (d_files s)) as [v|] eqn:E0; [rewrite (g_kept _ _ _ _ G _ _ E0); intuition discriminate|].
    destruct (dget q (d_files s1)) as [v|] eqn:E1; [rewrite (g_kept _ _ _ _ H _ _ E1); intuition discriminate|]. intuition congruence.
  - intros q. rewrite (g_reused _ _ _ _ H), (g_reused _ _ _ _ G). split.
    + intros [[X|(X & i & d & ty & L & E & Q)]|(X & i & d & ty & L & E & Q)]; [auto|right; split; [exact X|exists i, d, ty; auto]|right]. split; [rewrite (Ab i d ty q L E Q); exact X|]. exists i, d, ty. auto.
    + intros [X|(X & i & d & ty & L & E & Q)]; [auto|]. destruct (Sp _ _ L E) as [[L1 E1]|L1]; [left; right; split; [exact X|exists i, d, ty; auto]|]. right. rewrite <- (Ab i d ty q L1 E Q). split; [exact X|exists i, d, ty; auto].
Qed.
Lemma set_add_In x l y : In y (set_add x l) <-> In y l \/ y = x.
Proof. unfold set_add. destruct (mem x l) eqn:E; [apply mem_In in E; split; [auto|intros [H| ->]; auto]|]. rewrite in_app_iff. cbn. intuition. Qed.
Lemma dmem_get q (f : fs) : dmem q f = match dget q f with Some _ => true | None => false end.
Proof. destruct (dget q f) eqn:E. - apply dmem_In. apply dget_In in E. apply (in_map fst) in E. exact E. - apply dget_None in E. destruct (dmem q f) eqn:D; [apply dmem_In in D; contradiction|reflexivity]. Qed.

Lemma write_ok n d ty s : ok s -> exists s1, write_image decode sha here (file n ty) d s = Ret s1 /\ d_seen s1 = d_seen s /\ d_by_data s1 = d_by_data s /\ d_count s1 = d_count s /\ d_skip s1 = d_skip s /\ d_stack s1 = d_stack s /\
  forall images, length images = n -> grown images s (images ++ [(d, ty)]) s1.
Proof.
  intros O. unfold write_image, here. rewrite dmem_get. unfold hash_build. unfold file at 5. rewrite hash_of_image. fold (file n ty). fold (hfile n ty).
  assert (G : forall f' made' reused', 
    (forall q, dget q f' = match dget q (d_files s) with Some v => Some v | None => if str_eqb q (file n ty) then Some (unquote decode d) else if str_eqb q (hfile n ty) then option_map sha (match dget (file n ty) (d_files s) with Some c => Some c | None => Some (unquote decode d) end) else None end) ->
    (forall q, In q made' <-> In q (d_made s) \/ (dget q (d_files s) = None /\ (q = file n ty \/ q = hfile n ty))) ->
    (forall q, In q reused' <-> In q (d_reused s) \/ (dget q (d_files s) <> None /\ (q = file n ty \/ q = hfile n ty))) ->
    forall bd ct sk st images, length images = n -> grown images s (images ++ [(d, ty)]) {| d_seen := d_seen s; d_made := made'; d_reused := reused'; d_by_data := bd; d_count := ct; d_skip := sk; d_stack := st; d_files := f' |}).
  { intros f' made' reused' Hf Hm Hr bd ct sk st images L.
    assert (One : forall i x, (length images <= i)%nat -> nth_error (images ++ [(d, ty)]) i = Some x -> i = n /\ x = (d, ty)).
    { intros i x Li E. rewrite nth_error_app2 in E by exact Li. destruct (i - length images)%nat as [|k] eqn:Ek; [|destruct k; discriminate]. injection E as <-. split; [lia|reflexivity]. }
    assert (Self : (length images <= n)%nat /\ nth_error (images ++ [(d, ty)]) n = Some (d, ty)) by (split; [lia|]; rewrite nth_error_app2, L, Nat.sub_diag by lia; reflexivity).
    assert (Ne : str_eqb (hfile n ty) (file n ty) = false) by (apply str_eqb_neq; intros X; symmetry in X; exact (file_not_own _ _ X)).
    constructor; cbn [d_seen d_files d_made d_reused].
    - exists [(d, ty)]. reflexivity.
    - reflexivity.
    - intros q v E. rewrite Hf, E. reflexivity.
    - intros i d0 ty0 Li E N. destruct (One _ _ Li E) as [-> [= -> ->]]. rewrite Hf, N, str_eqb_refl. reflexivity.
    - intros i d0 ty0 Li E. destruct (One _ _ Li E) as [-> [= -> ->]]. rewrite !Hf, Ne, !str_eqb_refl.
      destruct (dget (file n ty) (d_files s)) as [c|]; destruct (dget (hfile n ty) (d_files s)) as [h|]; eexists; eexists; (split; [reflexivity|]); (split; [reflexivity|]); intros X; try discriminate X; reflexivity.
    - intros q N. rewrite Hf, N. destruct (str_eqb q (file n ty)) eqn:E1; [apply str_eqb_eq in E1; intros _; exists n, d, ty; split; [apply Self|split; [apply Self|auto]]|].
      destruct (str_eqb q (hfile n ty)) eqn:E2; [apply str_eqb_eq in E2; intros _; exists n, d, ty; split; [apply Self|split; [apply Self|auto]]|contradiction].
    - intros q. rewrite Hm, Hf. destruct (dget q (d_files s)) as [v|]; [intuition discriminate|]. destruct (str_eqb q (file n ty)) eqn:E1; [apply str_eqb_eq in E1; intuition discriminate|].
      apply str_eqb_neq in E1. destruct (str_eqb q (hfile n ty)) eqn:E2; [apply str_eqb_eq in E2|apply str_eqb_neq in E2]; [|intuition congruence].
      destruct (dget (file n ty) (d_files s)); cbn [option_map]; intuition discriminate.
    - intros q. rewrite Hr. split.
      + intros [X|(X & Q)]; [auto|right]. split; [exact X|]. exists n, d, ty. split; [apply Self|split; [apply Self|exact Q]].
      + intros [X|(X & i & d0 & ty0 & Li & E & Q)]; [auto|right]. split; [exact X|]. destruct (One _ _ Li E) as [-> [= -> ->]]. exact Q. }
  assert (Ne1 : file n ty <> hfile n ty) by apply file_not_own.
  assert (Ne : str_eqb (hfile n ty) (file n ty) = false) by (apply str_eqb_neq; congruence).
  assert (D : forall q q' v (f : fs), dget q (dset q' v f) = if str_eqb q q' then Some v else dget q f) by (intros; apply dget_dset).
  unfold build_target. destruct (dget (file n ty) (d_files s)) as [c|] eqn:Ef.
  - rewrite dmem_get. destruct (dget (hfile n ty) (d_files s)) as [h|] eqn:Eh.
    + eexists. split; [reflexivity|]. cbn [d_seen d_by_data d_count d_skip d_stack children]. do 5 (split; [reflexivity|]). intros images L. cbn [set_update fold_left children produced reused]. apply G; [| | |exact L].
      * intros q. destruct (dget q (d_files s)) as [v|] eqn:E; [reflexivity|]. destruct (str_eqb q (file n ty)) eqn:E1; [apply str_eqb_eq in E1; congruence|]. destruct (str_eqb q (hfile n ty)) eqn:E2; [apply str_eqb_eq in E2; congruence|reflexivity].
      * intros q. split; [auto|]. intros [X|(X & [-> | ->])]; [exact X|congruence|congruence].
      * intros q. rewrite !set_add_In. split; [intros [[X| ->]| ->]; [auto|right; split; [congruence|auto]|right; split; [congruence|auto]]|]. intros [X|(X & [-> | ->])]; auto.
    + rewrite Ef. eexists. split; [reflexivity|]. cbn [d_seen d_by_data d_count d_skip d_stack children]. do 5 (split; [reflexivity|]). intros images L. cbn [set_update fold_left children produced reused]. apply G; [| | |exact L].
      * intros q. rewrite D. destruct (str_eqb q (hfile n ty)) eqn:E2; [apply str_eqb_eq in E2; subst q; rewrite Eh, Ne; reflexivity|]. destruct (dget q (d_files s)) as [v|] eqn:E; [reflexivity|].
        destruct (str_eqb q (file n ty)) eqn:E1; [apply str_eqb_eq in E1; congruence|reflexivity].
      * intros q. rewrite set_add_In. split; [intros [X| ->]; [auto|right; split; [congruence|auto]]|]. intros [X|(X & [-> | ->])]; auto. congruence.
      * intros q. rewrite !set_add_In. split; [intros [X| ->]; [auto|right; split; [congruence|auto]]|]. intros [X|(X & [-> | ->])]; auto. congruence.
  - rewrite dmem_get, D, Ne. destruct (dget (hfile n ty) (d_files s)) as [h|] eqn:Eh.
    + eexists. split; [reflexivity|]. cbn [d_seen d_by_data d_count d_skip d_stack children]. do 5 (split; [reflexivity|]). intros images L. cbn [set_update fold_left children produced reused]. apply G; [| | |exact L].
      * intros q. rewrite D. destruct (str_eqb q (file n ty)) eqn:E1; [apply str_eqb_eq in E1; subst q; rewrite Ef; reflexivity|]. destruct (dget q (d_files s)) as [v|] eqn:E; [reflexivity|].
        destruct (str_eqb q (hfile n ty)) eqn:E2; [apply str_eqb_eq in E2; congruence|reflexivity].
      * intros q. rewrite !set_add_In. split; [intros [X| ->]; [auto|right; split; [congruence|auto]]|]. intros [X|(X & [-> | ->])]; auto. congruence.
      * intros q. rewrite !set_add_In. split; [intros [X| ->]; [auto|right; split; [congruence|auto]]|]. intros [X|(X & [-> | ->])]; auto. congruence.
    + rewrite D, str_eqb_refl. eexists. split; [reflexivity|]. cbn [d_seen d_by_data d_count d_skip d_stack children]. do 5 (split; [reflexivity|]). intros images L. cbn [set_update fold_left children produced reused]. apply G; [| | |exact L].
      * intros q. rewrite !D. destruct (str_eqb q (hfile n ty)) eqn:E2; [apply str_eqb_eq in E2; subst q; rewrite Eh, Ne; reflexivity|]. destruct (str_eqb q (file n ty)) eqn:E1; [apply str_eqb_eq in E1; subst q; rewrite Ef; reflexivity|].
        destruct (dget q (d_files s)); reflexivity.
      * intros q. rewrite !set_add_In. split; [intros [[X| ->]| ->]; [auto|right; split; [congruence|auto]|right; split; [congruence|auto]]|]. intros [X|(X & [-> | ->])]; auto.
      * intros q. split; [auto|]. intros [X|(X & [-> | ->])]; [exact X|congruence|congruence].
Qed.

Lemma Ret_inj {A} (a b : A) : Ret a = Ret b -> a = b.
Proof. intros [= H]. exact H. Qed.
(** ** Building *)
Lemma nth_key (l : list (str * str)) d : In d (map fst l) -> exists i ty, nth_error l i = Some (d, ty).
Proof using. intros H. apply in_map_iff in H. destruct H as [[x ty] [E H]]. cbn in E. subst x. apply In_nth_error in H. destruct H as [i H]. eauto. Qed.
Lemma key_dec d (l : list (str * str)) : {In d (map fst l)} + {~ In d (map fst l)}.
Proof. apply in_dec. apply str_eq_dec. Qed.
Lemma tracked_again images s d : tracked images s -> In d (map fst images) -> exists i ty, nth_error images i = Some (d, ty) /\ dget d (d_by_data s) = Some (file i ty).
Proof. intros (_ & N & _ & B) H. destruct (nth_key _ _ H) as (i & ty & E). exists i, ty. split; [exact E|]. rewrite B. exact (dget_numbered p images N 0 i d ty E). Qed.
Lemma tracked_fresh images s d : tracked images s -> ~ In d (map fst images) -> dget d (d_by_data s) = None.
Proof. intros (_ & _ & _ & B) H. rewrite B. apply dget_None. change (map fst (numbered p 0 images)) with (dkeys (numbered p 0 images)). rewrite numbered_keys. exact H. Qed.
Lemma fresh_nodup images (d ty : str) : NoDup (map fst images) -> ~ In d (map fst images) -> NoDup (map fst (images ++ [(d, ty)])).
Proof. intros N H. rewrite map_app. apply NoDup_snoc; assumption. Qed.
Lemma fresh_by_data images s (d ty : str) : tracked images s -> ~ In d (map fst images) -> dset d (file (length images) ty) (d_by_data s) = numbered p 0 (images ++ [(d, ty)]).
Proof. intros T H. pose proof (tracked_fresh _ _ _ T H) as X. destruct T as (_ & _ & _ & B). rewrite numbered_app, dset_new; [rewrite B; reflexivity|]. rewrite B, numbered_keys. exact H. Qed.
Lemma fresh_path images s ty : tracked images s -> image_path relpath (d_count s + 1) ty = file (length images) ty.
Proof. intros (_ & _ & -> & _). apply image_path_ok. exact Sheet. Qed.

Lemma build_step images s v ty d : Inv images s -> data_uri v ty d -> exists images' s1 u, d_continue false (TString v) (hold s) = Ret (Some [open_url; TString u], s1) /\
  Inv images' (unskip s1) /\ grown images s images' (unskip s1) /\ u = url_in (unskip s1) d /\ ((In d (map fst images) /\ images' = images) \/ (~ In d (map fst images) /\ images' = images ++ [(d, ty)])).
Proof.
  intros [T Hh] D. apply image_data_iff in D. unfold OutlineData.d_continue. cbn [hold set_flags d_stack d_by_data d_count]. rewrite D.
  destruct (key_dec d images) as [I|I].
  - destruct (tracked_again _ _ _ T I) as (i & ty0 & E & G). rewrite G. cbv zeta iota. cbn [hold set_flags d_files d_seen d_made d_reused]. fold (hfile i ty0). destruct (dget (hfile i ty0) (d_files s)) as [h|] eqn:Eh; [|destruct (Hh _ _ _ E Eh)].
    eexists images, _, _. split; [reflexivity|]. split; [|split; [|split]].
    + split; [|exact Hh]. destruct T as (O & N & C & B). split; [split; reflexivity|]. split; [exact N|]. split; [exact C|exact B].
    + apply grown_same; reflexivity.
    + unfold url_in. cbn [unskip set_flags d_by_data d_files]. rewrite G. fold (hfile i ty0). rewrite Eh. reflexivity.
    + left. split; [exact I|reflexivity].
  - rewrite (tracked_fresh _ _ _ T I). cbv zeta iota. cbn [hold set_flags d_files d_seen d_made d_reused]. rewrite (fresh_path _ _ ty T), (fresh_by_data _ _ d ty T I).
    match goal with |- context [write_image _ _ _ _ _ ?x] => set (s0 := x) end.
    assert (W : exists s1, write_image decode sha here (file (length images) ty) d (set_flags false None s0) = Ret s1 /\ d_seen s1 = d_seen s0 /\ d_by_data s1 = d_by_data s0 /\ d_count s1 = d_count s0 /\ d_skip s1 = false /\ d_stack s1 = None /\ forall images0, length images0 = length images -> grown images0 (set_flags false None s0) (images0 ++ [(d, ty)]) s1).
    { exact (write_ok (length images) d ty (set_flags false None s0) (conj eq_refl eq_refl)). }
    assert (W' : exists s1, write_image decode sha here (file (length images) ty) d s0 = Ret s1 /\ d_seen s1 = d_seen s0 /\ d_by_data s1 = d_by_data s0 /\ d_count s1 = d_count s0 /\ d_skip s1 = true /\ d_stack s1 = None /\ grown images s (images ++ [(d, ty)]) (unskip s1)).
    { destruct W as (s1 & W & A1 & A2 & A3 & A4 & A5 & A6). revert W. unfold write_image. cbn [set_flags d_files d_made d_reused d_seen d_by_data d_count d_skip d_stack]. 
      destruct (if here (d_files s0) (file (length images) ty) then _ else _) as [[a b] c]. destruct (hash_build sha (file (length images) ty) c) as [[h f]|]; [|discriminate]. intros W. apply Ret_inj in W.
      eexists. split; [reflexivity|]. cbn [d_seen d_by_data d_count d_skip d_stack]. rewrite <- W in A1. cbn [d_seen] in A1. split; [exact A1|]. do 4 (split; [reflexivity|]).
      specialize (A6 images eq_refl). rewrite <- W in A6. destruct A6. constructor; assumption. }
    destruct W' as (s1 & W1 & A1 & A2 & A3 & A4 & A5 & Gr). rewrite W1.
    destruct (g_hash _ _ _ _ Gr (length images) d ty (le_n _)) as (c & h & Hc & Hx & _); [rewrite nth_error_app2, Nat.sub_diag by lia; reflexivity|].
    cbn [unskip set_flags d_files] in Hc, Hx. fold (hfile (length images) ty). rewrite Hx. eexists (images ++ [(d, ty)]), _, _. split; [reflexivity|]. split; [|split; [|split]].
    + split.
      * split; [split; [reflexivity|exact A5]|]. split; [apply fresh_nodup; [apply T|exact I]|]. cbn [unskip set_flags d_count d_by_data]. rewrite A2, A3. split; [|reflexivity].
        cbn [s0 d_count]. destruct T as (_ & _ & -> & _). rewrite app_length. cbn [length]. lia.
      * intros i d0 ty0 E. destruct (Nat.lt_ge_cases i (length images)) as [L|L].
        -- rewrite nth_error_app1 in E by exact L. specialize (Hh i d0 ty0 E). destruct (dget (hfile i ty0) (d_files s)) as [v0|] eqn:Ev; [|contradiction]. rewrite (g_kept _ _ _ _ Gr _ _ Ev). discriminate.
        -- destruct (g_hash _ _ _ _ Gr i d0 ty0 L E) as (c' & h' & _ & X & _). congruence.
    + exact Gr.
    + unfold url_in. cbn [unskip set_flags d_by_data d_files]. rewrite A2. cbn [s0 d_by_data]. rewrite numbered_app. cbn [Nat.add].
      assert (X : dget d (numbered p 0 images ++ [(d, file (length images) ty)]) = Some (file (length images) ty)).
      { rewrite <- (dset_new d (file (length images) ty) (numbered p 0 images)) by (rewrite numbered_keys; exact I). apply dget_dset_same. }
      unfold file in X at 1. rewrite X. fold (hfile (length images) ty). rewrite Hx. reflexivity.
    + right. split; [exact I|reflexivity].
Qed.

Lemma url_keep im s im' s' d : Inv im s -> grown im s im' s' -> tracked im' s' -> In d (map fst im) -> url_in s' d = url_in s d.
Proof.
  intros [T Hh] G T' I. destruct (tracked_again _ _ _ T I) as (i & ty & E & B). destruct (g_images _ _ _ _ G) as [l El]. subst im'.
  assert (B' : dget d (d_by_data s') = Some (file i ty)).
  { destruct T' as (_ & N & _ & ->). apply (dget_numbered p _ N 0 i d ty). rewrite nth_error_app1 by exact (nth_lt _ _ _ E). exact E. }
  unfold url_in. rewrite B, B'. fold (hfile i ty). destruct (dget (hfile i ty) (d_files s)) as [h|] eqn:Eh; [|destruct (Hh _ _ _ E Eh)]. rewrite (g_kept _ _ _ _ G _ _ Eh). reflexivity.
Qed.
Lemma firsts_keys l im : firsts l im -> forall d, In d (map fst l) <-> In d (map fst im).
Proof using. clear. induction 1 as [|l m d0 ty H IH N|l m d0 ty H IH I]; intros d; [tauto| |]; rewrite !map_app, !in_app_iff, IH; [tauto|]. cbn. apply IH in I. split; [intros [X|[<-|[]]]; auto|auto]. Qed.
Lemma firsts_step l im d (ty : str) im' : firsts l im -> ((In d (map fst im) /\ im' = im) \/ (~ In d (map fst im) /\ im' = im ++ [(d, ty)])) -> firsts (l ++ [(d, ty)]) im'.
Proof using. intros H [[I ->]|[I ->]]; rewrite <- (firsts_keys _ _ H) in I; [apply FirstsAgain|apply FirstsNew]; assumption. Qed.
Lemma run_build ts s occ out s' : run decode sha here relpath false ts s occ out s' -> forall im done, Inv im s -> firsts done im ->
  exists im', Inv im' s' /\ grown im s im' s' /\ outlined (url_in s') ts occ out /\ firsts (done ++ occ) im'.
Proof.
  induction 1 as [s|v ty d u ts s s1 occ out s' D C R IH|t ts s occ out s' D R IH]; intros im done I Fi.
  - exists im. split; [exact I|]. split; [apply grown_same; reflexivity|]. split; [constructor|]. rewrite app_nil_r. exact Fi.
  - destruct (build_step im s v ty d I D) as (im1 & s2 & u2 & C2 & I1 & G1 & U & Cs). rewrite C in C2. apply Ret_inj in C2. assert (X : u = u2 /\ s1 = s2) by (split; congruence). destruct X as [<- <-]. clear C2.
    pose proof (firsts_step _ _ _ ty _ Fi Cs) as F1. destruct (IH im1 (done ++ [(d, ty)]) I1 F1) as (im' & I' & G' & O' & F'). exists im'. split; [exact I'|]. split; [exact (grown_trans _ _ _ _ _ _ G1 G')|]. split.
    + replace u with (url_in s' d); [apply OutImage; assumption|]. rewrite U. apply (url_keep im1 _ im'); [exact I1|exact G'|apply I'|]. apply (firsts_keys _ _ F1). rewrite map_app, in_app_iff. right. left. reflexivity.
    + rewrite <- app_assoc in F'. exact F'.
  - destruct (IH im done I Fi) as (im' & A & B & C & E). exists im'. do 2 (split; [assumption|]). split; [apply OutOther; assumption|exact E].
Qed.
Lemma Inv_init f : Inv [] (d_init f).
Proof. split; [|intros i d ty E; destruct i; discriminate]. split; [split; reflexivity|]. split; [constructor|]. split; reflexivity. Qed.
Lemma build_result k (ts : list token) f out b : (forall a, ts <> a ++ [open_url]) -> pump [outline_data decode sha here relpath false] (5 + k) ts (beginning f) = Ret (out, b) ->
  exists occ im, Inv im (b_st b) /\ grown [] (d_init f) im (b_st b) /\ outlined (url_in (b_st b)) ts occ out /\ firsts occ im.
Proof.
  intros L P. destruct (proj1 (pump_run decode sha here relpath false k ts L) (d_init f) out b (conj eq_refl eq_refl) P) as [occ R].
  destruct (run_build _ _ _ _ _ R [] [] (Inv_init f) FirstsNil) as (im & A & B & C & D). exists occ, im. auto.
Qed.
Lemma build_total k (ts : list token) f : exists out b, pump [outline_data decode sha here relpath false] (5 + k) ts (beginning f) = Ret (out, b).
Proof.
  apply (proj1 (pump_total decode sha here relpath false k ts (fun s => exists im, Inv im s) (fun s X => match X with ex_intro _ _ Y => proj1 (proj1 Y) end)
    ltac:(intros s v [im I] E; apply image_token_iff in E; destruct E as (ty & d & D); destruct (build_step im s v ty d I D) as (im1 & s1 & u & C & I1 & _); eauto))). exists []. apply Inv_init.
Qed.

(** ** Scanning *)
Definition web (s : dstate) (d : str) : str := match dget d (d_by_data s) with Some path => skipn (length (lit "out/www")) path | None => [] end.
Record listed (images : list (str * str)) (s : dstate) (images' : list (str * str)) (s' : dstate) : Prop := {
  l_images : exists l, images' = images ++ l;
  l_seen : d_seen s' = d_seen s; l_reused : d_reused s' = d_reused s; l_files : d_files s' = d_files s;
  l_made : forall q, In q (d_made s') <-> In q (d_made s) \/ exists i d ty, (length images <= i)%nat /\ nth_error images' i = Some (d, ty) /\ (q = file i ty \/ q = hfile i ty) }.
Lemma listed_same images s s' : d_seen s' = d_seen s -> d_files s' = d_files s -> d_made s' = d_made s -> d_reused s' = d_reused s -> listed images s images s'.
Proof.
  intros A B C D. constructor; [exists []; rewrite app_nil_r; reflexivity|assumption|assumption|assumption|]. intros q. rewrite C. split; [auto|]. intros [X|(i & d & ty & L & E & _)]; [exact X|]. apply nth_lt in E. lia.
Qed.
Lemma listed_trans im s im1 s1 im2 s2 : listed im s im1 s1 -> listed im1 s1 im2 s2 -> listed im s im2 s2.
Proof.
  intros G H. destruct (l_images _ _ _ _ G) as [l ->]. destruct (l_images _ _ _ _ H) as [l2 ->]. constructor.
  - exists (l ++ l2). rewrite app_assoc. reflexivity.
  - rewrite (l_seen _ _ _ _ H). apply (l_seen _ _ _ _ G).
  - rewrite (l_reused _ _ _ _ H). apply (l_reused _ _ _ _ G).
  - rewrite (l_files _ _ _ _ H). apply (l_files _ _ _ _ G).
  - intros q. rewrite (l_made _ _ _ _ H), (l_made _ _ _ _ G). split.
    + intros [[X|(i & d & ty & L & E & Q)]|(i & d & ty & L & E & Q)]; [auto|right; exists i, d, ty|right; exists i, d, ty].
      * split; [exact L|]. split; [rewrite nth_error_app1 by exact (nth_lt _ _ _ E); exact E|exact Q].
      * split; [rewrite app_length in L; lia|]. auto.
    + intros [X|(i & d & ty & L & E & Q)]; [auto|]. destruct (Nat.lt_ge_cases i (length (im ++ l))) as [L1|L1].
      * left. right. exists i, d, ty. rewrite nth_error_app1 in E by exact L1. auto.
      * right. exists i, d, ty. auto.
Qed.
Lemma scan_step images s v ty d : tracked images s -> data_uri v ty d -> exists images' s1 u, d_continue true (TString v) (hold s) = Ret (Some [open_url; TString u], s1) /\
  tracked images' (unskip s1) /\ listed images s images' (unskip s1) /\ u = web (unskip s1) d /\ ((In d (map fst images) /\ images' = images) \/ (~ In d (map fst images) /\ images' = images ++ [(d, ty)])).
Proof.
  intros T D. apply image_data_iff in D. unfold OutlineData.d_continue. cbn [hold set_flags d_stack d_by_data d_count]. rewrite D.
  destruct (key_dec d images) as [I|I].
  - destruct (tracked_again _ _ _ T I) as (i & ty0 & E & G). rewrite G. cbv zeta iota. cbn [hold set_flags d_files d_seen d_made d_reused].
    eexists images, _, _. split; [reflexivity|]. split; [|split; [|split]].
    + destruct T as (O & N & C & B). split; [split; reflexivity|]. split; [exact N|]. split; [exact C|exact B].
    + apply listed_same; reflexivity.
    + unfold web. cbn [unskip set_flags d_by_data]. rewrite G. reflexivity.
    + left. split; [exact I|reflexivity].
  - rewrite (tracked_fresh _ _ _ T I). cbv zeta iota. cbn [hold set_flags d_files d_seen d_made d_reused]. rewrite (fresh_path _ _ ty T), (fresh_by_data _ _ d ty T I).
    eexists (images ++ [(d, ty)]), _, _. split; [reflexivity|]. split; [|split; [|split]].
    + split; [split; reflexivity|]. split; [apply fresh_nodup; [apply T|exact I]|]. split; [|reflexivity]. cbn [unskip set_flags d_count]. destruct T as (_ & _ & -> & _). rewrite app_length. cbn [length]. lia.
    + constructor.
      * exists [(d, ty)]. reflexivity.
      * reflexivity.
      * reflexivity.
      * reflexivity.
      * intros q. cbn [unskip set_flags d_made]. unfold hash_scan, file at 1. cbn [produces]. rewrite hash_of_image. fold (file (length images) ty). cbn [set_update fold_left]. fold (hfile (length images) ty). unfold scan_target. cbn [produces set_update fold_left]. rewrite !set_add_In. split.
        -- assert (E : nth_error (images ++ [(d, ty)]) (length images) = Some (d, ty)) by (rewrite nth_error_app2, Nat.sub_diag by lia; reflexivity).
           intros [[X| ->]| ->]; [auto|right; exists (length images), d, ty|right; exists (length images), d, ty]; auto.
        -- intros [X|(i & d0 & ty0 & L & E & Q)]; [auto|]. rewrite nth_error_app2 in E by exact L. destruct (i - length images)%nat as [|n] eqn:Ei; [|destruct n; discriminate]. injection E as <- <-.
           assert (i = length images) by lia. subst i. destruct Q; auto.
    + unfold web. cbn [unskip set_flags d_by_data]. rewrite numbered_app. cbn [Nat.add].
      assert (X : dget d (numbered p 0 images ++ [(d, file (length images) ty)]) = Some (file (length images) ty)).
      { rewrite <- (dset_new d (file (length images) ty) (numbered p 0 images)) by (rewrite numbered_keys; exact I). apply dget_dset_same. }
      unfold file in X at 1. rewrite X. reflexivity.
    + right. split; [exact I|reflexivity].
Qed.
Lemma web_keep im s im' s' d : tracked im s -> listed im s im' s' -> tracked im' s' -> In d (map fst im) -> web s' d = web s d.
Proof.
  intros T G T' I. destruct (tracked_again _ _ _ T I) as (i & ty & E & B). destruct (l_images _ _ _ _ G) as [l El]. subst im'. unfold web. rewrite B.
  destruct T' as (_ & N & _ & ->). rewrite (dget_numbered p _ N 0 i d ty); [reflexivity|]. rewrite nth_error_app1 by exact (nth_lt _ _ _ E). exact E.
Qed.
Lemma run_scan ts s occ out s' : run decode sha here relpath true ts s occ out s' -> forall im done, tracked im s -> firsts done im ->
  exists im', tracked im' s' /\ listed im s im' s' /\ outlined (web s') ts occ out /\ firsts (done ++ occ) im'.
Proof.
  induction 1 as [s|v ty d u ts s s1 occ out s' D C R IH|t ts s occ out s' D R IH]; intros im done I Fi.
  - exists im. split; [exact I|]. split; [apply listed_same; reflexivity|]. split; [constructor|]. rewrite app_nil_r. exact Fi.
  - destruct (scan_step im s v ty d I D) as (im1 & s2 & u2 & C2 & I1 & G1 & U & Cs). rewrite C in C2. apply Ret_inj in C2. assert (X : u = u2 /\ s1 = s2) by (split; congruence). destruct X as [<- <-]. clear C2.
    pose proof (firsts_step _ _ _ ty _ Fi Cs) as F1. destruct (IH im1 (done ++ [(d, ty)]) I1 F1) as (im' & I' & G' & O' & F'). exists im'. split; [exact I'|]. split; [exact (listed_trans _ _ _ _ _ _ G1 G')|]. split.
    + replace u with (web s' d); [apply OutImage; assumption|]. rewrite U. apply (web_keep im1 _ im'); [exact I1|exact G'|apply I'|]. apply (firsts_keys _ _ F1). rewrite map_app, in_app_iff. right. left. reflexivity.
    + rewrite <- app_assoc in F'. exact F'.
  - destruct (IH im done I Fi) as (im' & A & B & C & E). exists im'. do 2 (split; [assumption|]). split; [apply OutOther; assumption|exact E].
Qed.
Lemma scan_result k (ts : list token) f out b : (forall a, ts <> a ++ [open_url]) -> pump [outline_data decode sha here relpath true] (5 + k) ts (beginning f) = Ret (out, b) ->
  exists occ im, tracked im (b_st b) /\ listed [] (d_init f) im (b_st b) /\ outlined (web (b_st b)) ts occ out /\ firsts occ im.
Proof.
  intros L P. destruct (proj1 (pump_run decode sha here relpath true k ts L) (d_init f) out b (conj eq_refl eq_refl) P) as [occ R].
  destruct (run_scan _ _ _ _ _ R [] [] (proj1 (Inv_init f)) FirstsNil) as (im & A & B & C & D). exists occ, im. auto.
Qed.
Lemma scan_total k (ts : list token) f : exists out b, pump [outline_data decode sha here relpath true] (5 + k) ts (beginning f) = Ret (out, b).
Proof.
  apply (proj1 (pump_total decode sha here relpath true k ts (fun s => exists im, tracked im s) (fun s X => match X with ex_intro _ _ Y => proj1 Y end)
    ltac:(intros s v [im I] E; apply image_token_iff in E; destruct E as (ty & d & D); destruct (scan_step im s v ty d I D) as (im1 & s1 & u & C & I1 & _); eauto))). exists []. apply (Inv_init f).
Qed.

(** * The statements *)
Lemma outlined_occ url url' (ts : list token) occ out : outlined url ts occ out -> forall occ' out', outlined url' ts occ' out' -> occ = occ'.
Proof.
  induction 1 as [|v ty d ts im out D H IH|t ts im out D H IH]; intros occ' out' H'; inversion H' as [|v' ty' d' ts' im' o' D' X|t' ts' im' o' D' X]; subst.
  - reflexivity.
  - apply image_data_iff in D. apply image_data_iff in D'. assert (E : Some (ty', d') = Some (ty, d)) by congruence. injection E as -> ->. f_equal. exact (IH _ _ X).
  - destruct (D' v ty d ts eq_refl eq_refl D).
  - destruct (D v' ty' d' ts' eq_refl eq_refl D').
  - exact (IH _ _ X).
Qed.
Lemma firsts_fun l im : firsts l im -> forall im', firsts l im' -> im = im'.
Proof.
  induction 1 as [|l m d ty H IH N|l m d ty H IH I]; intros im' H'.
  - inversion H' as [|l' m' d' ty' A B C D|l' m' d' ty' A B C D]; [reflexivity| |]; destruct l'; discriminate C.
  - inversion H' as [A|l' m' d' ty' A B C D|l' m' d' ty' A B C D]; [destruct l; discriminate A| |]; apply app_inj_tail in C; destruct C as [-> [= -> ->]]; [|contradiction]. f_equal. exact (IH _ A).
  - inversion H' as [A|l' m' d' ty' A B C D|l' m' d' ty' A B C D]; [destruct l; discriminate A| |]; apply app_inj_tail in C; destruct C as [-> [= -> ->]]; [contradiction|]. exact (IH _ A).
Qed.
Lemma is_image_at images i d e : is_image p images i d e <-> exists ty, nth_error images i = Some (d, ty) /\ image_file p i e = file i ty /\ e = before_plus ty.
Proof. split; intros (ty & E & X); exists ty; (split; [exact E|]); [pose proof (extension_fun _ _ X); subst e; split; reflexivity|]. destruct X as [_ ->]. apply before_plus_ok. Qed.
End Images.

Lemma urls_distinct p occ images (url : str -> str) : firsts occ images -> (forall i data e, is_image p images i data e -> exists q, url data = image_url p i e ++ lit "?" ++ q) ->
  forall d d', In d (map fst occ) -> In d' (map fst occ) -> url d = url d' -> d = d'.
Proof.
  intros Fi U d d' I I' E. apply (firsts_keys _ _ Fi) in I. apply (firsts_keys _ _ Fi) in I'. destruct (nth_key _ _ I) as (i & ty & N). destruct (nth_key _ _ I') as (j & ty' & N').
  destruct (U i d (before_plus ty)) as [q Q]; [exists ty; split; [exact N|apply before_plus_ok]|]. destruct (U j d' (before_plus ty')) as [q' Q']; [exists ty'; split; [exact N'|apply before_plus_ok]|].
  assert (X : image_file p i (before_plus ty ++ lit "?" ++ q) = image_file p j (before_plus ty' ++ lit "?" ++ q')).
  { unfold image_file. f_equal. rewrite Q, Q' in E. unfold image_url in *. rewrite <- !app_assoc in E. exact E. }
  apply image_file_inj in X. destruct X as [-> _]. congruence.
Qed.
Section Final.
Context {F : Type} (decode : list N -> str) (sha : str -> str) (relpath p : str) (fuel : nat) (ts : list (@token F)) (f : fs).
Context (Sheet : stylesheet relpath p) (Fuel : (5 <= fuel)%nat) (Last : forall a, ts <> a ++ [open_url]).
Notation build := (pump [outline_data decode sha (fun f q => dmem q f) relpath false] fuel ts (beginning f)).
Notation scan := (pump [outline_data decode sha (fun f q => dmem q f) relpath true] fuel ts (beginning f)).
Lemma fuel_eq : fuel = (5 + (fuel - 5))%nat.
Proof. clear - Fuel. lia. Qed.
Lemma total_ok : (exists out b, build = Ret (out, b)) /\ (exists out b, scan = Ret (out, b)).
Proof. rewrite fuel_eq. split; [exact (build_total decode sha relpath p Sheet _ ts f)|exact (scan_total decode sha relpath p Sheet _ ts f)]. Qed.
Lemma build_ok out b : build = Ret (out, b) -> exists occ im, Inv p im (b_st b) /\ grown decode sha p [] (d_init f) im (b_st b) /\ outlined (url_in (b_st b)) ts occ out /\ firsts occ im.
Proof. rewrite fuel_eq. apply build_result; assumption. Qed.
Lemma scan_ok out b : scan = Ret (out, b) -> exists occ im, tracked p im (b_st b) /\ listed p [] (d_init f) im (b_st b) /\ outlined (web (b_st b)) ts occ out /\ firsts occ im.
Proof. rewrite fuel_eq. apply scan_result; assumption. Qed.
Lemma sheet_ok out b : build = Ret (out, b) -> exists occ images url, outlined url ts occ out /\ firsts occ images /\
  (forall i data e, is_image p images i data e -> exists h, dget (image_file p i e ++ lit ".hash") (d_files (b_st b)) = Some h /\ url data = image_url p i e ++ lit "?" ++ urlencode [(lit "v", h); (lit "pv", PROCESSOR_VERSION)]) /\
  (forall d d', In d (map fst occ) -> In d' (map fst occ) -> url d = url d' -> d = d').
Proof.
  intros P. assert (X : exists occ images url, outlined url ts occ out /\ firsts occ images /\
    (forall i data e, is_image p images i data e -> exists h, dget (image_file p i e ++ lit ".hash") (d_files (b_st b)) = Some h /\ url data = image_url p i e ++ lit "?" ++ urlencode [(lit "v", h); (lit "pv", PROCESSOR_VERSION)]));
  [|destruct X as (occ & images & url & A & B & C); exists occ, images, url; do 3 (split; [assumption|]); exact (urls_distinct _ _ _ _ B (fun i d e H => match C i d e H with ex_intro _ h (conj _ E) => ex_intro _ _ E end))].
  destruct (build_ok _ _ P) as (occ & im & I & G & O & Fi). exists occ, im, (url_in (b_st b)). split; [exact O|]. split; [exact Fi|]. intros i d e X. apply is_image_at in X. destruct X as (ty & E & X & Ee).
  destruct (g_hash _ _ _ _ _ _ _ G i d ty (Nat.le_0_l _) E) as (c & h & _ & Hh & _). exists h. rewrite X. split; [exact Hh|]. unfold url_in. destruct I as [(_ & N & _ & ->) _]. rewrite (dget_numbered p im N 0 i d ty E). cbn [Nat.add]. fold (file p i ty). fold (hfile p i ty). rewrite Hh. unfold stamp. rewrite <- X. reflexivity.
Qed.
Lemma files_ok out b url occ out' images : build = Ret (out, b) -> outlined url ts occ out' -> firsts occ images ->
  (forall i data e, is_image p images i data e ->
     (dget (image_file p i e) f = None -> dget (image_file p i e) (d_files (b_st b)) = Some (unquote decode data)) /\
     exists c h, dget (image_file p i e) (d_files (b_st b)) = Some c /\ dget (image_file p i e ++ lit ".hash") (d_files (b_st b)) = Some h /\ (dget (image_file p i e ++ lit ".hash") f = None -> h = sha c)) /\
  (forall q v, dget q f = Some v -> dget q (d_files (b_st b)) = Some v) /\
  (forall q, dget q f = None -> dget q (d_files (b_st b)) <> None -> exists i data e, is_image p images i data e /\ (q = image_file p i e \/ q = image_file p i e ++ lit ".hash")).
Proof.
  intros P O Fi. destruct (build_ok _ _ P) as (occ' & im & I & G & O' & Fi'). assert (occ = occ') by exact (outlined_occ _ _ _ _ _ O _ _ O'). subst occ'. assert (images = im) by exact (firsts_fun _ _ Fi _ Fi'). subst im.
  split; [|split].
  - intros i d e X. apply is_image_at in X. destruct X as (ty & E & X & _). rewrite X. fold (hfile p i ty). split; [exact (g_file _ _ _ _ _ _ _ G i d ty (Nat.le_0_l _) E)|exact (g_hash _ _ _ _ _ _ _ G i d ty (Nat.le_0_l _) E)].
  - exact (g_kept _ _ _ _ _ _ _ G).
  - intros q A B. destruct (g_new _ _ _ _ _ _ _ G q A B) as (i & d & ty & _ & E & Q). exists i, d, (before_plus ty). split; [apply is_image_at; exists ty; auto|exact Q].
Qed.
Lemma image_iff images q : (exists i d ty, (0 <= i)%nat /\ nth_error images i = Some (d, ty) /\ (q = file p i ty \/ q = hfile p i ty)) <-> exists i data e, is_image p images i data e /\ (q = image_file p i e \/ q = image_file p i e ++ lit ".hash").
Proof.
  split.
  - intros (i & d & ty & _ & E & Q). exists i, d, (before_plus ty). split; [apply is_image_at; exists ty; auto|exact Q].
  - intros (i & d & e & X & Q). apply is_image_at in X. destruct X as (ty & E & X & _). exists i, d, ty. split; [apply Nat.le_0_l|]. split; [exact E|]. rewrite X in Q. exact Q.
Qed.
Lemma reported_ok out b url occ out' images : build = Ret (out, b) -> outlined url ts occ out' -> firsts occ images ->
  d_seen (b_st b) = [] /\
  (forall q, In q (d_made (b_st b)) <-> dget q f = None /\ dget q (d_files (b_st b)) <> None) /\
  (forall q, In q (d_reused (b_st b)) <-> dget q f <> None /\ exists i data e, is_image p images i data e /\ (q = image_file p i e \/ q = image_file p i e ++ lit ".hash")).
Proof.
  intros P O Fi. destruct (build_ok _ _ P) as (occ' & im & I & G & O' & Fi'). assert (occ = occ') by exact (outlined_occ _ _ _ _ _ O _ _ O'). subst occ'. assert (images = im) by exact (firsts_fun _ _ Fi _ Fi'). subst im.
  split; [exact (g_seen _ _ _ _ _ _ _ G)|]. split; intros q.
  - rewrite (g_made _ _ _ _ _ _ _ G q). cbn [d_init d_made d_files In]. tauto.
  - rewrite (g_reused _ _ _ _ _ _ _ G q). cbn [d_init d_reused d_files In length]. rewrite image_iff. tauto.
Qed.
Lemma scan_sheet_ok out b : scan = Ret (out, b) -> exists occ images url, outlined url ts occ out /\ firsts occ images /\
  (forall i data e, is_image p images i data e -> url data = image_url p i e) /\
  (forall q, In q (d_made (b_st b)) <-> exists i data e, is_image p images i data e /\ (q = image_file p i e \/ q = image_file p i e ++ lit ".hash")) /\
  d_seen (b_st b) = [] /\ d_reused (b_st b) = [] /\ d_files (b_st b) = f.
Proof.
  intros P. destruct (scan_ok _ _ P) as (occ & im & I & G & O & Fi). exists occ, im, (web (b_st b)). split; [exact O|]. split; [exact Fi|]. split; [|split; [|split; [|split]]].
  - intros i d e X. apply is_image_at in X. destruct X as (ty & E & X & _). unfold web. destruct I as (_ & N & _ & ->). rewrite (dget_numbered p im N 0 i d ty E). cbn [Nat.add]. fold (file p i ty). rewrite <- X. reflexivity.
  - intros q. rewrite (l_made _ _ _ _ _ G q). cbn [d_init d_made In length]. rewrite image_iff. tauto.
  - exact (l_seen _ _ _ _ _ G).
  - exact (l_reused _ _ _ _ _ G).
  - exact (l_files _ _ _ _ _ G).
Qed.
Lemma agree_ok out b out' b' : build = Ret (out, b) -> scan = Ret (out', b') ->
  forall q, In q (d_made (b_st b)) \/ In q (d_reused (b_st b)) <-> In q (d_made (b_st b')).
Proof.
  intros P Q. destruct (build_ok _ _ P) as (occ & im & I & G & O & Fi). destruct (scan_sheet_ok _ _ Q) as (occ' & im' & url & O' & Fi' & _ & M & _).
  assert (occ = occ') by exact (outlined_occ _ _ _ _ _ O _ _ O'). subst occ'. assert (im = im') by exact (firsts_fun _ _ Fi _ Fi'). subst im'. intros q. rewrite M.
  destruct (reported_ok _ _ _ _ _ _ P O Fi) as (_ & A & B). rewrite A, B. clear A B M. split.
  - intros [[X Y]|[_ Y]]; [|exact Y]. destruct (files_ok _ _ _ _ _ _ P O Fi) as (_ & _ & C). exact (C q X Y).
  - intros Y. destruct (dget q f) eqn:E; [right; split; [discriminate|exact Y]|left; split; [reflexivity|]]. destruct Y as (i & d & e & X & Z). destruct (files_ok _ _ _ _ _ _ P O Fi) as (C & _). destruct (C i d e X) as (_ & c & h & H1 & H2 & _). destruct Z as [-> | ->]; congruence.
Qed.
End Final.
