(** Image commands: pages. *)
From Verif Require Import Base Graph Json PyStr PyPath PyNorm PyNormProofs Builder BuilderSpec BuilderProofs Handlers Html HtmlSpec HtmlProofs OutlineData ImgSize ImgSettings ImgExport ImgCommand ImgPage IconManipSpec ImgCommandSpec ImgCommandProofs.
From Coq Require Import String ZArith NArith Bool List Lia ZifyN ZifyBool ZifyNat.
Import ListNotations.
Open Scope list_scope.

Lemma written_unique int_high args c c' : written int_high args c -> written int_high args c' -> c = c'.
Proof. intros A B. apply parse_command_iff in A, B. congruence. Qed.
Section Comment.
Context (int_high : str -> option Z) (cwd folder page : str) (dims : str -> res (option (Z * Z))).
Notation command_of := (ImgCommand.get_command int_high cwd folder page dims).
Lemma image_name : name_ok (lit "IMAGE"). Proof. split; [discriminate|reflexivity]. Qed.
Lemma comment_iff t args : image_comment t args <-> exists text, t = HComment text /\ rule_args false (lit "IMAGE") text = Some args.
Proof.
  split; intros (text & -> & H); exists text; (split; [reflexivity|]).
  - destruct H as [R N]. apply rule_args_rule; [exact image_name|exact R|intros _; exact N].
  - destruct (rule_args_ok false _ text args image_name H) as [R N]. split; [exact R|exact (N eq_refl)].
Qed.
Lemma public_iff c : starts_with (lit "src/public") (source_path cwd folder page (c_path c)) = true <-> public_source cwd folder page c.
Proof. apply starts_with_iff. Qed.
Lemma validate_true c f : validate cwd folder page dims c f = Ret true <-> public_source cwd folder page c /\ exists image w h, dget (source_path cwd folder page (c_path c)) f = Some image /\ dims image = Ret (Some (w, h)) /\ (c_width c <= w)%Z /\ (c_height c <= h)%Z.
Proof.
  unfold validate. rewrite <- public_iff. destruct (starts_with _ _); cbn [negb]; [|split; [discriminate|intros [X _]; discriminate]]. destruct (dget _ f) as [image|]; [|split; [discriminate|intros (_ & ? & ? & ? & X & _); discriminate]].
  destruct (dims image) as [[[w h]|]|e] eqn:D.
  - split.
    + intros H. split; [reflexivity|]. exists image, w, h. repeat split; try assumption; injection H as H; lia.
    + intros (_ & i & w' & h' & X & Y & W & H). injection X as <-. rewrite D in Y. injection Y as <- <-. f_equal. lia.
  - split; [discriminate|]. intros (_ & i & w' & h' & X & Y & _). injection X as <-. congruence.
  - split; [discriminate|]. intros (_ & i & w' & h' & X & Y & _). injection X as <-. congruence.
Qed.
Lemma validate_false c f : validate cwd folder page dims c f = Ret false <-> ~ public_source cwd folder page c \/ dget (source_path cwd folder page (c_path c)) f = None \/
  exists image, dget (source_path cwd folder page (c_path c)) f = Some image /\ (dims image = Ret None \/ exists w h, dims image = Ret (Some (w, h)) /\ (w < c_width c \/ h < c_height c)%Z).
Proof.
  unfold validate. rewrite <- public_iff. destruct (starts_with _ _); cbn [negb]; [|split; [left; discriminate|reflexivity]]. destruct (dget _ f) as [image|]; [|split; auto].
  split.
  - intros H. right. right. exists image. split; [reflexivity|]. destruct (dims image) as [[[w h]|]|e]; [|left; reflexivity|discriminate]. right. exists w, h. split; [reflexivity|]. injection H as H. lia.
  - intros [X|[X|(i & X & Y)]]; [contradiction X; reflexivity|discriminate|]. injection X as <-. destruct Y as [->|(w & h & -> & Y)]; [reflexivity|]. f_equal. lia.
Qed.
Theorem command_iff t f c : command_of t f = Ret (Some c) <-> image_command int_high cwd folder page dims t f c.
Proof.
  split.
  - intros H. destruct t; try discriminate. cbn [ImgCommand.get_command] in H. destruct (rule_args false (lit "IMAGE") text) as [args|] eqn:R; [|discriminate]. destruct (parse_command int_high args) as [c'|] eqn:P; [|discriminate]. destruct (validate cwd folder page dims c' f) as [b|] eqn:V; [|discriminate]. destruct b; [|discriminate]. injection H as ->. apply validate_true in V. destruct V as (S & image & w & h & G & D & W & Hh).
    apply (ImageCommand _ _ _ _ _ _ args c f image w h); try assumption; [apply comment_iff; exists text; auto|apply parse_command_iff; exact P].
  - intros [t' args c' f' image w h C Wr S G D W H]. apply comment_iff in C. destruct C as (text & -> & R). cbn [ImgCommand.get_command]. rewrite R. apply parse_command_iff in Wr. rewrite Wr. rewrite (proj2 (validate_true c' f')); [reflexivity|]. split; [exact S|]. exists image, w, h. auto.
Qed.
Theorem ignored_iff t f : command_of t f = Ret None <-> image_ignored int_high cwd folder page dims t f.
Proof.
  split.
  - intros H. destruct t; try (apply IgnoredOther; intros args C; apply comment_iff in C; destruct C as (x & X & _); discriminate). cbn [ImgCommand.get_command] in H.
    destruct (rule_args false (lit "IMAGE") text) as [args|] eqn:R; [|apply IgnoredOther; intros args C; apply comment_iff in C; destruct C as (x & X & Y); injection X as <-; congruence]. assert (C : image_comment (HComment text) args) by (apply comment_iff; exists text; auto).
    destruct (parse_command int_high args) as [c|] eqn:P; [|discriminate]. apply parse_command_iff in P. destruct (validate cwd folder page dims c f) as [b|] eqn:V; [|discriminate]. destruct b; [discriminate|]. apply validate_false in V. destruct V as [V|[V|(image & G & [V|(w & h & D & V)])]].
    + exact (IgnoredPlace _ _ _ _ _ _ args c f C P V).
    + exact (IgnoredMissing _ _ _ _ _ _ args c f C P V).
    + exact (IgnoredFormat _ _ _ _ _ _ args c f image C P G V).
    + exact (IgnoredSmall _ _ _ _ _ _ args c f image w h C P G D V).
  - assert (K : forall t args c f, image_comment t args -> written int_high args c -> validate cwd folder page dims c f = Ret false -> command_of t f = Ret None).
    { intros t' args c f' C P V. apply comment_iff in C. destruct C as (text & -> & R). cbn [ImgCommand.get_command]. apply parse_command_iff in P. rewrite R, P, V. reflexivity. }
    intros [t' f' N|t' args c f' C P V|t' args c f' C P V|t' args c f' image C P G V|t' args c f' image w h C P G D V].
    + destruct t'; try reflexivity. cbn [ImgCommand.get_command]. destruct (rule_args false (lit "IMAGE") text) as [args|] eqn:R; [|reflexivity]. contradiction (N args). apply comment_iff. exists text. auto.
    + apply (K _ _ _ _ C P). apply validate_false. left. exact V.
    + apply (K _ _ _ _ C P). apply validate_false. right. left. exact V.
    + apply (K _ _ _ _ C P). apply validate_false. right. right. exists image. auto.
    + apply (K _ _ _ _ C P). apply validate_false. right. right. exists image. split; [exact G|]. right. exists w, h. auto.
Qed.
(** otherwise the build fails: the command cannot be read, or the image cannot *)
Theorem command_fails t f e : command_of t f = Raise e <-> exists args, image_comment t args /\
  ((e = ValueError /\ forall c, ~ written int_high args c) \/ exists c image, written int_high args c /\ public_source cwd folder page c /\ dget (source_path cwd folder page (c_path c)) f = Some image /\ dims image = Raise e).
Proof.
  split.
  - intros H. destruct t; try discriminate. cbn [ImgCommand.get_command] in H. destruct (rule_args false (lit "IMAGE") text) as [args|] eqn:R; [|discriminate]. exists args. split; [apply comment_iff; exists text; auto|]. destruct (parse_command_total int_high args) as [(c & P)|P]; rewrite P in H.
    + right. exists c. destruct (validate cwd folder page dims c f) as [b|e'] eqn:V; [destruct b; discriminate|]. injection H as ->. unfold validate in V. destruct (starts_with _ _) eqn:S; cbn [negb] in V; [|discriminate]. destruct (dget _ f) as [image|]; [|discriminate]. exists image. split; [apply parse_command_iff; exact P|]. split; [apply public_iff; exact S|]. split; [reflexivity|]. destruct (dims image) as [[[w h]|]|x]; [discriminate|discriminate|]. congruence.
    + left. split; [congruence|]. intros c W. apply parse_command_iff in W. congruence.
  - intros (args & C & H). apply comment_iff in C. destruct C as (text & -> & R). cbn [ImgCommand.get_command]. rewrite R. destruct H as [[-> N]|(c & image & W & S & G & D)].
    + destruct (parse_command_total int_high args) as [(c & P)|P]; rewrite P; [|reflexivity]. contradiction (N c). apply parse_command_iff. exact P.
    + apply parse_command_iff in W. rewrite W. unfold validate. apply public_iff in S. rewrite S, G, D. reflexivity.
Qed.
End Comment.

(** * Pages *)
Lemma Forall2_imp {A B} (P Q : A -> B -> Prop) l l' : (forall a b, P a b -> Q a b) -> Forall2 P l l' -> Forall2 Q l l'. Proof. intros H. induction 1; constructor; auto. Qed.
Lemma add_all_in l : forall s x, In x (add_all l s) <-> In x s \/ In x l.
Proof.
  unfold add_all. induction l as [|a l IH]; intros s x; cbn [fold_left]; [cbn; tauto|]. rewrite IH. destruct (mem a s) eqn:M.
  - apply mem_In in M. cbn. split; [tauto|]. intros [H|[->|H]]; auto.
  - rewrite in_app_iff. cbn. tauto.
Qed.
Lemma add_all_nodup l : forall s, NoDup s -> NoDup (add_all l s).
Proof.
  unfold add_all. induction l as [|a l IH]; intros s H; cbn [fold_left]; [exact H|]. apply IH. destruct (mem a s) eqn:M; [exact H|]. assert (~ In a s) by (intros X; apply mem_In in X; congruence). clear IH. induction s as [|b s IH]; [repeat constructor; intros []|]. cbn [app]. inversion H as [|? ? X Y]; subst. constructor.
  - rewrite in_app_iff. intros [Z|[Z|[]]]; [exact (X Z)|]. subst. apply H0. left. reflexivity.
  - apply IH; [exact Y| |intros Z; apply H0; right; exact Z]. destruct (mem a s) eqn:Q; [|reflexivity]. apply mem_In in Q. contradiction H0. right. exact Q.
Qed.
Definition adds (ls : list (list str)) (s : list str) : list str := fold_left (fun s l => add_all l s) ls s.
Lemma adds_union ls : union ls (adds ls []).
Proof.
  assert (K : forall s, NoDup s -> NoDup (adds ls s) /\ forall x, In x (adds ls s) <-> In x s \/ exists k, In k ls /\ In x k).
  { unfold adds. induction ls as [|l ls IH]; intros s N; cbn [fold_left]; [split; [exact N|]; intros x; split; [auto|intros [H|(k & [] & _)]; exact H]|]. destruct (IH (add_all l s) (add_all_nodup l s N)) as [A B]. split; [exact A|]. intros x. rewrite B, add_all_in. split.
    - intros [[H|H]|(k & H & H')]; [left; exact H|right; exists l; split; [left; reflexivity|exact H]|right; exists k; split; [right; exact H|exact H']].
    - intros [H|(k & [->|H] & H')]; [auto|auto|right; exists k; auto]. }
  destruct (K [] (NoDup_nil _)) as [A B]. split; [exact A|]. intros x. rewrite B. split; [intros [[]|H]; exact H|auto].
Qed.
Section Run.
Context (int_high : str -> option Z) (cwd folder page : str) (dims : str -> res (option (Z * Z))).
Context {M : Type} (scan_one : command -> fs -> res (scanned * fs)) (export : command -> fs -> res (M * Handlers.built * fs)) (show : command -> M -> res (list htoken)).
Notation command_of := (ImgCommand.get_command int_high cwd folder page dims).
Notation m scan := (images int_high cwd folder page dims scan_one export show scan).
Notation cmd := (image_command int_high cwd folder page dims).
Notation other := (image_ignored int_high cwd folder page dims).
Definition after_build (s : pstate) (f : fs) (bs : list Handlers.built) : pstate :=
  {| p_files := f; p_seen := adds (map Handlers.children bs) (p_seen s); p_made := adds (map Handlers.produced bs) (p_made s); p_reused := adds (map Handlers.reused bs) (p_reused s) |}.
Definition after_scan (s : pstate) (f : fs) (bs : list scanned) : pstate :=
  {| p_files := f; p_seen := adds (map dependencies bs) (p_seen s); p_made := adds (map produces bs) (p_made s); p_reused := p_reused s |}.
Lemma plain_ignored t f : plain_html t -> command_of t f = Ret None.
Proof. intros P. destruct t; try reflexivity. contradiction (P text eq_refl). Qed.

Section Build.
Context (Plain : forall c x l, show c x = Ret l -> Forall plain_html l).
Lemma declined_build t s s1 : declined [m false] t s s1 <-> command_of t (p_files s) = Ret None /\ s1 = s.
Proof.
  split.
  - intros H. inversion H as [|m0 r t0 s0 s2 s3 E D]; subst. inversion D; subst. cbn [start_mark images] in E. unfold images_start in E. destruct (command_of t (p_files s)) as [[c|]|]; try discriminate. injection E as <-. auto.
  - intros [E ->]. apply (DeclCons (m false) [] t s s s); [|constructor]. cbn [start_mark images]. unfold images_start. rewrite E. reflexivity.
Qed.
Lemma marked_build t s m' s1 : marked [m false] t s m' s1 <-> (exists c, command_of t (p_files s) = Ret (Some c)) /\ m' = m false /\ s1 = s.
Proof.
  split.
  - intros H. inversion H as [m0 r t0 s0 s2 E|m0 m1 r t0 s0 s2 s3 E D]; subst; [|inversion D]. cbn [start_mark images] in E. unfold images_start in E. destruct (command_of t (p_files s)) as [[c|]|]; try discriminate. injection E as <-. eauto.
  - intros ((c & E) & -> & ->). apply MarkHere. cbn [start_mark images]. unfold images_start. rewrite E. reflexivity.
Qed.
Lemma continue_build t s r s1 : continue_mark (m false) t s = Ret (r, s1) <-> exists c x b l f, command_of t (p_files s) = Ret (Some c) /\ export c (p_files s) = Ret (x, b, f) /\ show c x = Ret l /\ r = Some l /\ s1 = after_build s f [b].
Proof.
  cbn [continue_mark images]. unfold images_continue. split.
  - destruct (command_of t (p_files s)) as [[c|]|] eqn:C; try discriminate. destruct (export c (p_files s)) as [[[x b] f]|] eqn:E; [|discriminate]. destruct (show c x) as [l|] eqn:S; [|discriminate]. intros H. injection H as <- <-. exists c, x, b, l, f. auto.
  - intros (c & x & b & l & f & -> & -> & -> & -> & ->). reflexivity.
Qed.
Lemma pictures_plain l : Forall plain_html l -> forall f ts out f' bs, pictures cmd other export show f (l ++ ts) out f' bs -> exists out', out = l ++ out' /\ pictures cmd other export show f ts out' f' bs.
Proof.
  induction 1 as [|t l P _ IH]; intros f ts out f' bs H; [exists out; auto|]. cbn [app] in H. inversion H; subst.
  - match goal with X : pictures _ _ _ _ _ (l ++ ts) _ _ _ |- _ => destruct (IH _ _ _ _ _ X) as (o & -> & Y) end. exists o. auto.
  - match goal with X : cmd t f c |- _ => apply command_iff in X; rewrite (plain_ignored t f P) in X; discriminate end.
Qed.
Lemma plain_rewrites l : Forall plain_html l -> forall s ts out lost s', rewrites [m false] s ts out lost s' -> rewrites [m false] s (l ++ ts) (l ++ out) lost s'.
Proof. induction 1 as [|t l P _ IH]; intros s ts out lost s' H; [exact H|]. cbn [app]. apply (RwPass _ t s s); [apply declined_build; split; [apply plain_ignored; exact P|reflexivity]|]. apply IH. exact H. Qed.
Lemma rewrites_pictures s ts out lost s' : rewrites [m false] s ts out lost s' -> exists f' bs, lost = [] /\ pictures cmd other export show (p_files s) ts out f' bs /\ s' = after_build s f' bs.
Proof.
  induction 1 as [s|t s s1 ts out lost s2 D _ (f' & bs & -> & P & ->)|t m' s s1 seg repl s2 ts out lost s3 K R _ (f' & bs & -> & P & ->)|t m' s s1 seg s2 K R].
  - exists (p_files s), []. split; [reflexivity|]. split; [constructor|]. destruct s; reflexivity.
  - apply declined_build in D. destruct D as [D ->]. exists f', bs. split; [reflexivity|]. split; [|reflexivity]. apply PicturesOther; [apply ignored_iff; exact D|exact P].
  - apply marked_build in K. destruct K as (_ & -> & ->). inversion R as [t0 s0 r0 s4 C|t0 s0 s4 seg0 r0 s5 C R2]; subst; apply continue_build in C; destruct C as (c & x & b & l & f & C & E & S & Q & ->); [|discriminate]. injection Q as ->.
    destruct (pictures_plain l (Plain c x l S) _ _ _ _ _ P) as (out' & -> & P'). exists f', (b :: bs). split; [reflexivity|]. split; [|reflexivity]. apply (PicturesCommand _ _ _ _ t c x b l (p_files s) f); try assumption. apply command_iff. exact C.
  - apply marked_build in K. destruct K as (_ & -> & ->). inversion R as [|t0 s0 s4 seg0 s5 C R2]; subst. apply continue_build in C. destruct C as (c & x & b & l & f & C & E & S & Q & ->). discriminate.
Qed.
Lemma pictures_rewrites f ts out f' bs : pictures cmd other export show f ts out f' bs -> forall s, p_files s = f -> rewrites [m false] s ts out [] (after_build s f' bs).
Proof.
  induction 1 as [f|t f ts out f' bs O _ IH|t c x b l f f1 ts out f' bs C E S _ IH]; intros s <-.
  - replace (after_build s (p_files s) []) with s by (destruct s; reflexivity). constructor.
  - apply (RwPass _ t s s); [apply declined_build; split; [apply ignored_iff; exact O|reflexivity]|]. apply IH. reflexivity.
  - apply command_iff in C. apply (RwMark [m false] t (m false) s s [] l (after_build s f1 [b]) ts); [apply marked_build; eauto|apply ReplEnd; apply continue_build; exists c, x, b, l, f1; auto|].
    apply plain_rewrites; [exact (Plain _ _ _ S)|]. exact (IH (after_build s f1 [b]) eq_refl).
Qed.
Theorem page_built ts f out f' bs s' : s' = after_build {| p_files := f; p_seen := []; p_made := []; p_reused := [] |} f' bs ->
  (pictures cmd other export show f ts out f' bs -> exists fuel b, pump [m false] fuel ts (new_builder {| p_files := f; p_seen := []; p_made := []; p_reused := [] |}) = Ret (out, b) /\ b_st b = s').
Proof. intros -> H. apply pump_rewrites. exists []. exact (pictures_rewrites _ _ _ _ _ H {| p_files := f; p_seen := []; p_made := []; p_reused := [] |} eq_refl). Qed.
Theorem built_page ts f fuel out b : pump [m false] fuel ts (new_builder {| p_files := f; p_seen := []; p_made := []; p_reused := [] |}) = Ret (out, b) ->
  exists bs, pictures cmd other export show f ts out (p_files (b_st b)) bs /\ b_st b = after_build {| p_files := f; p_seen := []; p_made := []; p_reused := [] |} (p_files (b_st b)) bs.
Proof.
  intros H. destruct (proj1 (pump_rewrites [m false] {| p_files := f; p_seen := []; p_made := []; p_reused := [] |} ts out (b_st b))) as (lost & R); [exists fuel, b; auto|]. destruct (rewrites_pictures _ _ _ _ _ R) as (f' & bs & _ & P & E). exists bs. rewrite E. cbn [p_files after_build]. auto.
Qed.
End Build.

(** scanning *)
Lemma start_scan t s x s1 : images_start int_high cwd folder page dims scan_one true t s = Ret (x, s1) <-> x = false /\ ((command_of t (p_files s) = Ret None /\ s1 = s) \/ exists c b f, command_of t (p_files s) = Ret (Some c) /\ scan_one c (p_files s) = Ret (b, f) /\ s1 = after_scan s f [b]).
Proof.
  unfold images_start. split.
  - destruct (command_of t (p_files s)) as [[c|]|] eqn:C; try discriminate.
    + destruct (scan_one c (p_files s)) as [[b f]|] eqn:E; [|discriminate]. intros H. injection H as <- <-. split; [reflexivity|]. right. exists c, b, f. auto.
    + intros H. injection H as <- <-. auto.
  - intros (-> & [[-> ->]|(c & b & f & -> & -> & ->)]); reflexivity.
Qed.
Lemma rewrites_survey s ts out lost s' : rewrites [m true] s ts out lost s' -> exists f' bs, lost = [] /\ out = ts /\ surveyed cmd other scan_one (p_files s) ts f' bs /\ s' = after_scan s f' bs.
Proof.
  induction 1 as [s|t s s1 ts out lost s2 D _ (f' & bs & -> & -> & P & ->)|t m' s s1 seg repl s2 ts out lost s3 K R _ _|t m' s s1 seg s2 K R].
  - exists (p_files s), []. split; [reflexivity|]. split; [reflexivity|]. split; [constructor|]. destruct s; reflexivity.
  - inversion D as [|m0 r t0 s0 s3 s4 E D']; subst. inversion D'; subst. cbn [start_mark images] in E. apply start_scan in E. destruct E as (_ & [[E ->]|(c & b & f & C & E & ->)]).
    + exists f', bs. split; [reflexivity|]. split; [reflexivity|]. split; [|reflexivity]. apply SurveyedOther; [apply ignored_iff; exact E|exact P].
    + exists f', (b :: bs). split; [reflexivity|]. split; [reflexivity|]. split; [|reflexivity]. apply (SurveyedCommand _ _ _ t c b _ f); [apply command_iff; exact C|exact E|exact P].
  - exfalso. inversion K as [m0 r t0 s0 s5 E|m0 m1 r t0 s0 s5 s6 E D]; subst; [|inversion D]. cbn [start_mark images] in E. apply start_scan in E. destruct E as [X _]. discriminate.
  - exfalso. inversion K as [m0 r t0 s0 s5 E|m0 m1 r t0 s0 s5 s6 E D]; subst; [|inversion D]. cbn [start_mark images] in E. apply start_scan in E. destruct E as [X _]. discriminate.
Qed.
Lemma survey_rewrites f ts f' bs : surveyed cmd other scan_one f ts f' bs -> forall s, p_files s = f -> rewrites [m true] s ts ts [] (after_scan s f' bs).
Proof.
  induction 1 as [f|t f ts f' bs O _ IH|t c b f f1 ts f' bs C E _ IH]; intros s <-.
  - replace (after_scan s (p_files s) []) with s by (destruct s; reflexivity). constructor.
  - apply (RwPass _ t s s); [|apply IH; reflexivity]. apply (DeclCons (m true) [] t s s s); [|constructor]. apply start_scan. split; [reflexivity|]. left. split; [apply ignored_iff; exact O|reflexivity].
  - apply (RwPass _ t s (after_scan s f1 [b])); [|exact (IH (after_scan s f1 [b]) eq_refl)]. apply (DeclCons (m true) [] t s (after_scan s f1 [b]) _); [|constructor]. apply start_scan. split; [reflexivity|]. right. exists c, b, f1. split; [apply command_iff; exact C|auto].
Qed.
Theorem scanned_page ts f fuel out b : pump [m true] fuel ts (new_builder {| p_files := f; p_seen := []; p_made := []; p_reused := [] |}) = Ret (out, b) ->
  out = ts /\ exists bs, surveyed cmd other scan_one f ts (p_files (b_st b)) bs /\ b_st b = after_scan {| p_files := f; p_seen := []; p_made := []; p_reused := [] |} (p_files (b_st b)) bs.
Proof.
  intros H. destruct (proj1 (pump_rewrites [m true] {| p_files := f; p_seen := []; p_made := []; p_reused := [] |} ts out (b_st b))) as (lost & R); [exists fuel, b; auto|]. destruct (rewrites_survey _ _ _ _ _ R) as (f' & bs & _ & -> & P & E). split; [reflexivity|]. exists bs. rewrite E. cbn [p_files after_scan]. auto.
Qed.
Theorem page_scanned ts f f' bs : surveyed cmd other scan_one f ts f' bs -> exists fuel b, pump [m true] fuel ts (new_builder {| p_files := f; p_seen := []; p_made := []; p_reused := [] |}) = Ret (ts, b) /\ b_st b = after_scan {| p_files := f; p_seen := []; p_made := []; p_reused := [] |} f' bs.
Proof. intros H. apply pump_rewrites. exists []. exact (survey_rewrites _ _ _ _ H {| p_files := f; p_seen := []; p_made := []; p_reused := [] |} eq_refl). Qed.

(** * Scanning and building *)
Lemma same_source f g c : same_sources f g -> public_source cwd folder page c -> dget (source_path cwd folder page (c_path c)) f = dget (source_path cwd folder page (c_path c)) g.
Proof. intros S (r & ->). change (lit "src/public" ++ r) with (lit "src/" ++ (lit "public" ++ r)). apply S. Qed.
Lemma same_commands f g t : same_sources f g -> command_of t f = command_of t g.
Proof.
  intros S. destruct t; try reflexivity. cbn [ImgCommand.get_command]. destruct (rule_args _ _ _) as [args|]; [|reflexivity]. destruct (parse_command int_high args) as [c|]; [|reflexivity]. unfold validate. destruct (starts_with _ _) eqn:P; cbn [negb]; [|reflexivity]. apply public_iff in P. rewrite (same_source f g c S P). reflexivity.
Qed.
Context (KeepScan : forall c f b f', scan_one c f = Ret (b, f') -> same_sources f f').
Context (KeepBuild : forall c f x b f', export c f = Ret (x, b, f') -> same_sources f f').
Theorem survey_pictures f ts f' scs : surveyed cmd other scan_one f ts f' scs -> forall g out g' bs, same_sources f g -> pictures cmd other export show g ts out g' bs ->
  Forall2 (fun sc b => exists t c f1 f2 g1 g2 x, In t ts /\ cmd t f1 c /\ cmd t g1 c /\ same_sources f f1 /\ same_sources g g1 /\ scan_one c f1 = Ret (sc, f2) /\ export c g1 = Ret (x, b, g2)) scs bs.
Proof.
  induction 1 as [f|t f ts f' scs O _ IH|t c sc f f1 ts f' scs C E _ IH]; intros g out g' bs S P; inversion P; subst.
  - constructor.
  - eapply Forall2_imp; [|eapply IH; eassumption]. intros sc b (t' & R). destruct R as (c & f1 & f2 & g1 & g2 & x & I & R). exists t', c, f1, f2, g1, g2, x. split; [right; exact I|exact R].
  - exfalso. match goal with O : other t f, X : cmd t g _ |- _ => apply ignored_iff in O; apply command_iff in X; rewrite (same_commands f g t S) in O; congruence end.
  - exfalso. match goal with O : other t g, X : cmd t f _ |- _ => apply ignored_iff in O; apply command_iff in X; rewrite (same_commands f g t S) in X; congruence end.
  - match goal with X : cmd t g ?d, E' : export ?d g = Ret (?x, ?b, ?g2), P' : pictures _ _ _ _ ?g2 ts _ _ _ |- _ => assert (c = d) by (apply command_iff in X, C; rewrite (same_commands f g t S) in C; congruence); subst d; rename X into C'; rename E' into E2; rename P' into P2 end.
    assert (S1 : same_sources f f1) by (eapply KeepScan; eassumption). match type of E2 with _ = Ret (?x, ?b, ?g2) => assert (S2 : same_sources g g2) by (eapply KeepBuild; eassumption); assert (S3 : same_sources f1 g2) by (intros p; rewrite <- S1, <- S2; apply S) end. constructor.
    + exists t, c, f, f1, g. eexists. eexists. split; [left; reflexivity|]. split; [exact C|]. split; [exact C'|]. split; [intros p; reflexivity|]. split; [intros p; reflexivity|]. split; [exact E|exact E2].
    + eapply Forall2_imp; [|eapply IH; eassumption]. intros sc' b' (t' & d & f3 & f4 & g3 & g4 & x' & I & R1 & R2 & R3 & R4 & R5 & R6). exists t', d, f3, f4, g3, g4, x'. split; [right; exact I|]. split; [exact R1|]. split; [exact R2|]. split; [intros p; rewrite <- R3; apply S1|]. split; [intros p; rewrite <- R4; apply S2|]. auto.
Qed.
End Run.
