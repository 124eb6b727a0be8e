(** The threads of the web server: invariants and progress. *)
From Verif Require Import Serve ServeSpec.
From Coq Require Import Bool List Arith Lia.
Import ListNotations.

Section Serve.
Context (watch bind config index : bool).
Notation turn := (turn watch bind config index).
Notation after := (after watch bind config index).

Definition no_threads (s : state) : Prop := s_server s = NotYet /\ s_uvicorn s = Absent /\ s_started s = false /\ s_should_exit s = false.
Definition threads (s : state) : Prop :=
  match s_server s with
  | NotYet | StartUvicorn => s_uvicorn s = Absent /\ s_started s = false /\ s_should_exit s = false
  | Poll => s_should_exit s = false /\ (s_uvicorn s = Starting /\ s_started s = false \/ s_uvicorn s = Serving /\ s_started s = true /\ bind = true \/ s_uvicorn s = Dead /\ s_started s = false /\ bind = false)
  | WaitEvent => s_should_exit s = false /\ s_uvicorn s = Serving /\ s_started s = true /\ bind = true
  | Stop => s_should_exit s = false /\ s_uvicorn s = Serving /\ s_started s = true /\ s_event s = true /\ bind = true
  | Join => s_should_exit s = true /\ (s_uvicorn s = Serving \/ s_uvicorn s = Dead) /\ s_started s = true /\ bind = true
  | Over => s_uvicorn s = Dead /\ s_started s = true /\ bind = true
  end.
Definition inv (s : state) : Prop :=
  match s_main s with
  | Config => no_threads s /\ s_handler s = false /\ s_event s = false /\ s_www s = false
  | Index => no_threads s /\ s_handler s = false /\ s_event s = false /\ s_www s = false /\ config = true
  | Chdir => no_threads s /\ s_handler s = false /\ s_event s = false /\ s_www s = false /\ config = true /\ index = true
  | Handler => no_threads s /\ s_handler s = false /\ s_event s = false /\ s_www s = true /\ config = true /\ index = true
  | Spawn => no_threads s /\ s_handler s = true /\ s_www s = true /\ config = true /\ index = true
  | Observe => threads s /\ s_server s <> NotYet /\ s_handler s = true /\ s_www s = true /\ config = true /\ index = true
  | Loop => threads s /\ s_server s <> NotYet /\ s_handler s = true /\ s_www s = true /\ config = true /\ index = true
  | Finally _ => threads s /\ s_www s = true /\ config = true /\ index = true /\ (watch = false -> s_server s = Over \/ s_server s = NotYet)
  | Leave _ | Ended _ => threads s /\ s_www s = false /\ (watch = false -> s_server s = Over \/ s_server s = NotYet) /\ (config = false \/ index = false -> s_server s = NotYet)
  end.
Lemma inv_begin : inv begin.
Proof. cbn. unfold no_threads. cbn. tauto. Qed.
Definition same_main (s s' : state) : Prop := s_main s' = s_main s /\ s_handler s' = s_handler s /\ s_www s' = s_www s /\ s_event s' = s_event s.
Lemma server_right s : threads s -> threads (server_turn s) /\ same_main s (server_turn s) /\ (s_server s = NotYet <-> s_server (server_turn s) = NotYet) /\ (s_server s = Over -> s_server (server_turn s) = Over).
Proof.
  destruct s as [m sv u st sx ev hd ww ob]. unfold threads, server_turn, same_main. destruct sv; cbn; intros H.
  - intuition congruence.
  - destruct H as (-> & -> & ->). cbn. intuition congruence.
  - destruct H as (-> & [(-> & ->)|[(-> & -> & H)|(-> & -> & H)]]); cbn; intuition congruence.
  - destruct H as (-> & -> & -> & H). destruct ev; cbn; intuition congruence.
  - destruct H as (-> & -> & -> & -> & H). cbn. intuition congruence.
  - destruct H as (-> & [->| ->] & -> & H); cbn; intuition congruence.
  - intuition congruence.
Qed.
Lemma uvicorn_right s : threads s -> threads (uvicorn_turn bind s) /\ same_main s (uvicorn_turn bind s) /\ s_server (uvicorn_turn bind s) = s_server s.
Proof.
  destruct s as [m sv u st sx ev hd ww ob]. unfold threads, uvicorn_turn, same_main. destruct sv; cbn; intros H.
  - destruct H as (-> & -> & ->). cbn. intuition congruence.
  - destruct H as (-> & -> & ->). cbn. intuition congruence.
  - destruct H as (-> & [(-> & ->)|[(-> & -> & H)|(-> & -> & H)]]); cbn; [destruct bind eqn:B; cbn; intuition congruence|intuition congruence|intuition congruence].
  - destruct H as (-> & -> & -> & H). cbn. intuition congruence.
  - destruct H as (-> & -> & -> & -> & H). cbn. intuition congruence.
  - destruct H as (-> & [->| ->] & -> & H); cbn; intuition congruence.
  - destruct H as (-> & -> & H). cbn. intuition congruence.
Qed.
Lemma threads_same s s' : threads s -> s_server s' = s_server s -> s_uvicorn s' = s_uvicorn s -> s_started s' = s_started s -> s_should_exit s' = s_should_exit s -> (s_event s = true -> s_event s' = true) -> threads s'.
Proof. unfold threads. intros H -> -> -> -> E. destruct (s_server s); intuition. Qed.
Lemma no_threads_threads s : no_threads s -> threads s.
Proof. unfold no_threads, threads. intros (-> & -> & -> & ->). auto. Qed.
Lemma inv_turn s h : inv s -> inv (turn s h).
Proof.
  intros H. assert (SV : forall s, (forall r, s_main s <> Ended r) -> inv s -> inv (server_turn s)).
  { clear. intros s _ H. unfold inv in *. assert (T : threads s) by (destruct (s_main s); try (apply no_threads_threads; tauto); tauto). destruct (server_right s T) as (A & (M & Hd & W & E) & B & C). rewrite M, Hd, W, E. unfold no_threads in *.
    assert (N : s_server s = NotYet -> server_turn s = s) by (unfold server_turn; intros ->; reflexivity). destruct (s_main s); intuition (try congruence); rewrite N by assumption; intuition. }
  assert (UV : forall s, (forall r, s_main s <> Ended r) -> inv s -> inv (uvicorn_turn bind s)).
  { clear. intros s _ H. unfold inv in *. assert (T : threads s) by (destruct (s_main s); try (apply no_threads_threads; tauto); tauto). destruct (uvicorn_right s T) as (A & (M & Hd & W & E) & B). rewrite M, Hd, W, E, B. unfold no_threads in *.
    assert (N : s_uvicorn s = Absent -> uvicorn_turn bind s = s) by (unfold uvicorn_turn; intros ->; reflexivity). destruct (s_main s); intuition (try congruence); rewrite N by assumption; intuition. }
  unfold Serve.turn. destruct (s_main s) eqn:EM; destruct h; try exact H; try (apply SV; [intros r'; rewrite EM; discriminate|exact H]); try (apply UV; [intros r'; rewrite EM; discriminate|exact H]).
  all: unfold main_turn, interrupt; try rewrite EM; unfold inv in *; rewrite EM in H.
  all: clear SV UV; destruct s as [m sv u st sx ev hd ww ob]; cbn in EM; subst m; unfold no_threads in *; cbn in *.
  all: try (destruct H as ((-> & -> & -> & ->) & H)).
  all: repeat match goal with H : _ /\ _ |- _ => destruct H end; try subst hd; try subst ww; try subst ev.
  all: assert (K : forall s s', threads s -> s_server s' = s_server s -> s_uvicorn s' = s_uvicorn s -> s_started s' = s_started s -> s_should_exit s' = s_should_exit s -> (s_event s = true -> s_event s' = true) -> threads s') by exact threads_same.
  all: repeat match goal with T : threads ?x |- context[threads ?y] => lazymatch y with x => fail | _ => assert (threads y) by (apply (K x); [exact T|cbn; auto ..]); clear T end end.
  all: try (match goal with T : threads _ |- threads _ /\ _ => split; [exact T|] end; intuition congruence).
  all: try (repeat split; intuition (try congruence); fail).
  - destruct config; cbn; intuition.
  - destruct index; cbn; intuition.
  - destruct watch; cbn; intuition discriminate.
  - assert (G : forall s', s_main s' = Finally Returned -> s_server s' = sv -> s_uvicorn s' = u -> s_started s' = st -> s_should_exit s' = sx -> (ev = true -> s_event s' = true) -> s_www s' = true -> (watch = false -> sv = Over) -> inv s').
    { intros s' M S U St Sx E W O. unfold inv. rewrite M. split; [eapply threads_same; [eassumption|assumption..]|]. rewrite S. intuition. }
    fold (inv (match sv with Over => at_main (Finally Returned) (set_observer false (mkState Loop sv u st sx ev true true ob)) | _ => if watch && negb ob then at_main (Finally Returned) (set_event (mkState Loop sv u st sx ev true true ob)) else mkState Loop sv u st sx ev true true ob end)).
    assert (Q : forall s', s' = mkState Loop sv u st sx ev true true ob -> inv s') by (intros s' ->; unfold inv; cbn; intuition).
    destruct sv; try (destruct (watch && negb ob) eqn:C; [apply andb_prop in C; destruct C as (C & _); apply G; cbn; auto; intros; congruence|apply Q; reflexivity]). apply G; cbn; auto.
  - destruct watch; cbn; intuition; eapply threads_same; try eassumption; auto.
  - destruct watch eqn:W; cbn; intuition (try discriminate); eapply threads_same; try eassumption; auto.
  - destruct hd; cbn; intuition; eapply threads_same; try eassumption; auto.
  - destruct hd; cbn; intuition; eapply threads_same; try eassumption; auto.
Qed.
Lemma after_app l l' s : after (l ++ l') s = after l' (after l s).
Proof. apply fold_left_app. Qed.
Lemma inv_run l : forall s, inv s -> inv (after l s).
Proof. induction l as [|h l IH]; intros s H; [exact H|]. apply IH, inv_turn, H. Qed.
Lemma inv_after l : inv (after l begin).
Proof. apply inv_run, inv_begin. Qed.

Lemma cwd_back l : leaving (after l begin) -> s_www (after l begin) = false.
Proof. pose proof (inv_after l) as H. unfold inv in H. intros (r & [E|E]); rewrite E in H; tauto. Qed.
Lemma refuses l : config = false \/ index = false -> s_server (after l begin) = NotYet /\ s_uvicorn (after l begin) = Absent /\ s_www (after l begin) = false.
Proof.
  pose proof (inv_after l) as H. revert H. generalize (after l begin). intros s H D. assert (T : forall s, threads s -> s_server s = NotYet -> s_uvicorn s = Absent) by (clear; unfold threads; intros s H E; rewrite E in H; tauto).
  unfold inv, no_threads in H. destruct (s_main s); try (intuition congruence).
  all: destruct H as (H1 & H2 & _ & H3); auto.
Qed.
Lemma serves_www l : s_uvicorn (after l begin) = Serving -> watch = false \/ s_main (after l begin) = Loop -> s_www (after l begin) = true.
Proof.
  pose proof (inv_after l) as H. revert H. generalize (after l begin). intros s H E D.
  unfold inv, no_threads in H. destruct (s_main s); try tauto; try (intuition congruence).
  all: destruct H as (H1 & H2 & H3 & _); destruct D as [D|D]; [|discriminate D]; unfold threads in H1; destruct (H3 D) as [F|F]; rewrite F in H1; destruct H1 as (H1 & _); rewrite H1 in E; discriminate E.
Qed.
Lemma ends_clean l : watch = false -> ended (after l begin) -> s_uvicorn (after l begin) = Absent \/ s_uvicorn (after l begin) = Dead.
Proof.
  pose proof (inv_after l) as H. revert H. generalize (after l begin). intros s H D (r & E).
  unfold inv in H. rewrite E in H. destruct H as (H1 & _ & H3 & _). unfold threads in H1. destruct (H3 D) as [F|F]; rewrite F in H1; tauto.
Qed.

Lemma hang_turn s h : bind = false -> watch = false -> inv s -> s_main s = Loop -> s_main (turn s h) = Loop.
Proof.
  intros B W H E. unfold inv in H. rewrite E in H. destruct H as (H & N & Hd & _). unfold threads in H. unfold Serve.turn. rewrite E. destruct h.
  - unfold main_turn. rewrite E. rewrite W. cbn. destruct (s_server s); auto. destruct H as (_ & _ & H). congruence.
  - unfold server_turn. destruct (s_server s); cbn; auto. all: repeat match goal with |- context[if ?b then _ else _] => destruct b end; cbn; auto. destruct (s_uvicorn s); auto.
  - unfold uvicorn_turn. destruct (s_uvicorn s); cbn; auto. + destruct bind; auto. + destruct (s_should_exit s); auto.
  - unfold interrupt. rewrite Hd. exact E.
  - rewrite W. exact E.
  - rewrite W. exact E.
Qed.
Lemma hang_run l : forall s, bind = false -> watch = false -> inv s -> s_main s = Loop -> s_main (after l s) = Loop.
Proof. induction l as [|h l IH]; intros s B W H E; [exact E|]. apply IH; auto using inv_turn, hang_turn. Qed.
Lemma hangs l l' : bind = false -> watch = false -> s_main (after l begin) = Loop -> s_main (after l' (after l begin)) = Loop /\ s_uvicorn (after l' (after l begin)) <> Serving.
Proof.
  intros B W E. pose proof (hang_run l' _ B W (inv_after l) E) as M. split; [exact M|]. pose proof (inv_run l' _ (inv_after l)) as H. unfold inv in H. rewrite M in H. destruct H as (H & _). unfold threads in H.
  destruct (s_server (after l' (after l begin))); intuition congruence.
Qed.
Lemma noted l : s_main (after l begin) = Spawn \/ s_main (after l begin) = Observe \/ s_main (after l begin) = Loop -> s_event (turn (after l begin) Interrupt) = true.
Proof.
  pose proof (inv_after l) as H. revert H. generalize (after l begin). intros s H D. assert (K : s_handler s = true) by (unfold inv in H; destruct D as [D|[D|D]]; rewrite D in H; tauto).
  unfold Serve.turn, interrupt. rewrite K. destruct D as [D|[D|D]]; rewrite D; reflexivity.
Qed.

Definition main_w (m : main_at) : nat := match m with Config => 9 | Index => 8 | Chdir => 7 | Handler => 6 | Spawn => 5 | Observe => 4 | Loop => 3 | Finally _ => 2 | Leave _ => 1 | Ended _ => 0 end.
Definition server_w (x : server_at) : nat := match x with NotYet => 6 | StartUvicorn => 5 | Poll => 4 | WaitEvent => 3 | Stop => 2 | Join => 1 | Over => 0 end.
Definition uvicorn_w (x : uvicorn_at) : nat := match x with Absent => 3 | Starting => 2 | Serving => 1 | Dead => 0 end.
Definition rank (s : state) : nat := match s_main s with Ended _ => 0 | m => main_w m + (server_w (s_server s) + uvicorn_w (s_uvicorn s)) end.
(** whose turn would make progress *)
Definition next (s : state) : happening :=
  match s_main s with
  | Loop =>
      match s_server s with
      | StartUvicorn | WaitEvent | Stop => Server
      | Poll => if s_started s then Server else Uvicorn
      | Join => match s_uvicorn s with Dead => Server | _ => Uvicorn end
      | _ => Main
      end
  | _ => Main
  end.
Lemma rank_zero s : rank s = 0 -> ended s.
Proof. unfold rank, ended. destruct (s_main s) eqn:E; cbn; try discriminate; eauto. Qed.
Lemma next_kind s : next s = Main \/ next s = Server \/ next s = Uvicorn.
Proof. unfold next. destruct (s_main s), (s_server s), (s_uvicorn s), (s_started s); auto. Qed.
Definition ready (s : state) : Prop := bind = true /\ inv s /\ s_event s = true.
Lemma event_stays s h : s_event s = true -> s_event (turn s h) = true.
Proof.
  intros E. unfold Serve.turn, main_turn, server_turn, uvicorn_turn, interrupt.
  destruct (s_main s), h; auto; cbn.
  all: repeat match goal with |- context[match ?x with _ => _ end] => destruct x eqn:?; cbn end; auto; congruence.
Qed.
Lemma ready_turn s h : ready s -> ready (turn s h).
Proof. intros (B & H & E). split; [exact B|]. split; [apply inv_turn, H|apply event_stays, E]. Qed.
Lemma server_down s : threads s -> server_turn s = s \/ server_w (s_server (server_turn s)) + uvicorn_w (s_uvicorn (server_turn s)) < server_w (s_server s) + uvicorn_w (s_uvicorn s).
Proof.
  unfold threads, server_turn. destruct (s_server s) eqn:E; intros H; auto.
  - right. destruct H as (-> & _). cbn. lia.
  - destruct (s_started s); auto; right; cbn; lia.
  - destruct (s_event s); auto; right; cbn; lia.
  - destruct (s_uvicorn s) eqn:U; auto; right; cbn; rewrite U; cbn; lia.
Qed.
Lemma uvicorn_down s : uvicorn_turn bind s = s \/ server_w (s_server (uvicorn_turn bind s)) + uvicorn_w (s_uvicorn (uvicorn_turn bind s)) < server_w (s_server s) + uvicorn_w (s_uvicorn s).
Proof.
  unfold uvicorn_turn. destruct (s_uvicorn s) eqn:E; auto.
  - right. destruct bind; cbn; lia.
  - destruct (s_should_exit s); auto; right; cbn; lia.
Qed.
Lemma inv_threads s : inv s -> threads s.
Proof. unfold inv. destruct (s_main s); try tauto; intros (H & _); apply no_threads_threads, H. Qed.
Lemma server_main s : s_main (server_turn s) = s_main s.
Proof. unfold server_turn. destruct (s_server s); cbn; auto. all: repeat match goal with |- context[match ?x with _ => _ end] => destruct x end; auto. Qed.
Lemma uvicorn_main s : s_main (uvicorn_turn bind s) = s_main s.
Proof. unfold uvicorn_turn. destruct (s_uvicorn s); cbn; auto. all: repeat match goal with |- context[if ?x then _ else _] => destruct x end; auto. Qed.
Lemma turn_down s h : ready s -> rank (turn s h) < rank s \/ rank (turn s h) = rank s /\ next (turn s h) = next s.
Proof.
  intros (B & H & E). pose proof (inv_threads _ H) as T.
  assert (SV : rank (server_turn s) < rank s \/ rank (server_turn s) = rank s /\ next (server_turn s) = next s).
  { destruct (server_down s T) as [->|D]; [auto|]. unfold rank at 1 2. rewrite server_main. destruct (s_main s) eqn:M; try (left; cbn; lia). right. unfold rank, next. rewrite server_main, M. auto. }
  assert (UV : rank (uvicorn_turn bind s) < rank s \/ rank (uvicorn_turn bind s) = rank s /\ next (uvicorn_turn bind s) = next s).
  { destruct (uvicorn_down s) as [->|D]; [auto|]. unfold rank at 1 2. rewrite uvicorn_main. destruct (s_main s) eqn:M; try (left; cbn; lia). right. unfold rank, next. rewrite uvicorn_main, M. auto. }
  unfold Serve.turn. destruct (s_main s) eqn:M; destruct h; try exact SV; try exact UV; auto.
  all: clear SV UV; unfold inv in H; rewrite M in H.
  all: try (destruct H as (_ & _ & H & _); congruence).
  all: unfold main_turn, interrupt; try rewrite M.
  - left. destruct H as ((N & U & _) & _). unfold rank. rewrite M, N, U. destruct watch; cbn; rewrite U; cbn; lia.
  - destruct H as (_ & -> & _). right. unfold rank, next; cbn; rewrite M; auto.
  - left. unfold rank; cbn; rewrite M; cbn; lia.
  - destruct H as (_ & _ & -> & _). right. unfold rank, next; cbn; rewrite M; auto.
  - destruct (s_server s) eqn:S; try (destruct (watch && negb (s_observer s)); [left|right; auto]; unfold rank; cbn; rewrite M, S; cbn; lia). left. unfold rank; cbn; rewrite M, S; cbn; lia.
  - destruct H as (_ & _ & -> & _). right. unfold rank, next; cbn; rewrite M; auto.
  - destruct watch; right; auto; unfold rank, next; cbn; rewrite M; auto.
  - destruct watch; [left|right; auto]. unfold rank; cbn; rewrite M; cbn; lia.
  - left. unfold rank; cbn; rewrite M; cbn; lia.
  - destruct (s_handler s); right; auto; unfold rank, next; cbn; rewrite M; auto.
  - left. unfold rank; cbn; rewrite M; cbn; lia.
  - destruct (s_handler s); right; auto; unfold rank, next; cbn; rewrite M; auto.
Qed.
Lemma next_down s : ready s -> 0 < rank s -> rank (turn s (next s)) < rank s.
Proof.
  intros R P. destruct (turn_down s (next s) R) as [D|(D & _)]; [exact D|]. exfalso. destruct R as (B & H & E). pose proof (inv_threads _ H) as T. revert D.
  unfold next, Serve.turn, rank in *. unfold inv in H. destruct (s_main s) eqn:M; try lia; try (destruct H as (_ & _ & H & _); congruence).
  - unfold main_turn. rewrite M. destruct H as ((N & U & _) & _). rewrite N, U. destruct watch; cbn; rewrite U; cbn; lia.
  - unfold main_turn. rewrite M. cbn. lia.
  - destruct H as (_ & N & _). unfold threads in T. destruct (s_server s) eqn:S; [congruence|..].
    + unfold server_turn. rewrite S. cbn. rewrite M. destruct T as (-> & _). cbn. lia.
    + destruct T as (_ & [(U & St)|[(U & St & _)|(_ & _ & T)]]); [..|congruence]; rewrite St.
      * unfold uvicorn_turn. rewrite U, B. cbn. rewrite M, S. cbn. lia.
      * unfold server_turn. rewrite S, St. cbn. rewrite M. cbn. lia.
    + unfold server_turn. rewrite S, E. cbn. rewrite M. cbn. lia.
    + unfold server_turn. rewrite S. cbn. rewrite M. cbn. lia.
    + destruct T as (X & [U|U] & _); rewrite U.
      * unfold uvicorn_turn. rewrite U, X. cbn. rewrite M, S. cbn. lia.
      * unfold server_turn. rewrite S, U. cbn. rewrite M, U. cbn. lia.
    + unfold main_turn. rewrite M, S. cbn. rewrite S. cbn. lia.
  - unfold main_turn. rewrite M. cbn. lia.
  - unfold main_turn. rewrite M. cbn. lia.
Qed.
Lemma run_down l : forall s, ready s -> rank (after l s) <= rank s.
Proof. induction l as [|h l IH]; intros s R; [reflexivity|]. cbn. specialize (IH _ (ready_turn _ h R)). unfold Serve.after in IH. destruct (turn_down s h R) as [D|(D & _)]; lia. Qed.
Lemma ready_run l : forall s, ready s -> ready (after l s).
Proof. induction l as [|h l IH]; intros s R; [exact R|]. apply IH, ready_turn, R. Qed.
Lemma list_down l : forall s, ready s -> 0 < rank s -> In (next s) l -> rank (after l s) < rank s.
Proof.
  induction l as [|h l IH]; intros s R P I; [destruct I|].
  pose proof (run_down l _ (ready_turn _ h R)) as L. change (after (h :: l) s) with (after l (turn s h)).
  destruct I as [->|I]; [pose proof (next_down s R P); lia|].
  destruct (turn_down s h R) as [D|(D & N)]; [lia|]. rewrite <- D. apply IH; [apply ready_turn, R|lia|rewrite N; exact I].
Qed.
Lemma rounds_down ls : forall s, ready s -> Forall round ls -> rank s <= length ls -> ended (after (concat ls) s).
Proof.
  induction ls as [|l ls IH]; intros s R F L; cbn in L.
  - apply rank_zero. cbn. lia.
  - inversion F as [|? ? (F1 & F2 & F3) F4]; subst. cbn [concat]. rewrite after_app. apply IH; [apply ready_run, R|exact F4|].
    destruct (Nat.eq_dec (rank s) 0) as [Z|Z]; [pose proof (run_down l s R); lia|].
    assert (I : In (next s) l) by (destruct (next_kind s) as [->|[->| ->]]; assumption). pose proof (list_down l s R ltac:(lia) I). lia.
Qed.
Lemma rank_most s : inv s -> s_event s = true -> rank s <= 14.
Proof.
  unfold inv, rank. destruct (s_main s); intros H E; try (destruct H as (_ & _ & H & _); congruence).
  all: destruct (s_server s), (s_uvicorn s); cbn; lia.
Qed.
Lemma stops l ls : bind = true -> s_event (after l begin) = true -> Forall round ls -> 14 <= length ls -> ended (after (concat ls) (after l begin)).
Proof. intros B E F L. apply rounds_down; [split; [exact B|split; [apply inv_after|exact E]]|exact F|]. pose proof (rank_most _ (inv_after l) E). lia. Qed.

(** what holds while nobody disturbs *)
Definition quiet (x : server_at) : Prop := match x with Stop | Join | Over => False | _ => True end.
Definition before (m : main_at) : bool := match m with Finally _ | Leave _ | Ended _ => false | _ => true end.
Definition calm (s : state) : Prop := s_event s = false /\ quiet (s_server s) /\ before (s_main s) = true /\ (s_main s = Loop -> watch = true -> s_observer s = true).
Definition harmless (h : happening) : Prop := h = Main \/ h = Server \/ h = Uvicorn.
Lemma calm_turn s h : config = true -> index = true -> harmless h -> calm s -> calm (turn s h).
Proof.
  intros C I L (E & Q & B & O). destruct s as [m sv u st sx ev hd ww ob]. cbn in E, Q, B, O. subst ev. unfold Serve.turn. cbn [s_main]. destruct L as [->|[->| ->]].
  - unfold main_turn, calm. destruct m; try discriminate B; cbn; rewrite ?C, ?I; cbn.
    1-4: repeat split; auto; discriminate.
    + destruct watch; repeat split; auto; discriminate.
    + repeat split; auto.
    + replace (watch && negb ob) with false by (destruct watch; [rewrite O by auto|]; reflexivity). destruct sv; try contradiction Q; cbn; auto.
  - replace (match m with Ended _ => _ | _ => _ end) with (server_turn (mkState m sv u st sx false hd ww ob)) by (destruct m; auto; discriminate B). unfold calm, server_turn; cbn. destruct sv; try contradiction Q; cbn; auto. destruct st; cbn; auto.
  - replace (match m with Ended _ => _ | _ => _ end) with (uvicorn_turn bind (mkState m sv u st sx false hd ww ob)) by (destruct m; auto; discriminate B). unfold calm, uvicorn_turn; cbn. destruct u; cbn; auto. + destruct bind; cbn; auto. + destruct sx; cbn; auto.
Qed.
Lemma calm_run l : forall s, config = true -> index = true -> Forall harmless l -> calm s -> calm (after l s).
Proof. induction l as [|h l IH]; intros s C I F H; [exact H|]. apply Forall_cons_iff in F; destruct F as (F1 & F2). apply IH; auto using calm_turn. Qed.
Lemma undisturbed_harmless l : undisturbed l -> Forall harmless l.
Proof. intros (A & B & C). apply Forall_forall. intros h I. unfold harmless. destruct h; auto; contradiction. Qed.
Lemma calm_begin : calm begin.
Proof. unfold calm. cbn. repeat split; auto; discriminate. Qed.
Lemma stays l : config = true -> index = true -> undisturbed l -> ~ leaving (after l begin).
Proof. intros C I U (r & [E|E]); destruct (calm_run l begin C I (undisturbed_harmless _ U) calm_begin) as (_ & _ & B & _); rewrite E in B; discriminate B. Qed.

Definition rank2 (s : state) : nat :=
  match s_main s with Config => 6 | Index => 5 | Chdir => 4 | Handler => 3 | Spawn => 2 | Observe => 1 | _ => 0 end
  + match s_uvicorn s with Absent => match s_server s with NotYet => 3 | _ => 2 end | Starting => 1 | _ => 0 end.
Definition next2 (s : state) : happening := match s_main s with Loop => match s_uvicorn s with Absent => Server | _ => Uvicorn end | _ => Main end.
Definition sound (s : state) : Prop := bind = true /\ config = true /\ index = true /\ inv s /\ calm s.
Lemma sound_turn s h : harmless h -> sound s -> sound (turn s h).
Proof. intros L (B & C & I & H & K). repeat split; auto using inv_turn; apply (calm_turn s h C I L K). Qed.
Lemma turn_down2 s h : harmless h -> sound s -> (rank2 (turn s h) < rank2 s \/ rank2 (turn s h) = rank2 s /\ next2 (turn s h) = next2 s) /\ (h = next2 s -> 0 < rank2 s -> rank2 (turn s h) < rank2 s).
Proof.
  intros L (B & C & I & H & (E & Q & A & O)). pose proof (inv_threads _ H) as T. destruct s as [m sv u st sx ev hd ww ob]. unfold inv, no_threads in H. cbn in E, Q, A, O, H. subst ev. unfold Serve.turn, rank2, next2. cbn [s_main s_server s_uvicorn]. destruct L as [->|[->| ->]].
  - unfold main_turn. destruct m; try discriminate A; cbn; rewrite ?C, ?I; cbn.
    1-4: split; [left; lia|intros; lia].
    + destruct H as ((-> & -> & _) & _). destruct watch; cbn; split; try (left; lia); intros; lia.
    + split; [left; lia|intros; lia].
    + replace (watch && negb ob) with false by (destruct watch; [rewrite O by auto|]; reflexivity). destruct sv; try contradiction Q; cbn; (split; [right; auto|destruct u; discriminate]).
  - replace (match m with Ended _ => _ | _ => _ end) with (server_turn (mkState m sv u st sx false hd ww ob)) by (destruct m; auto; discriminate A). unfold server_turn. unfold threads in T. cbn in T |- *. destruct sv; try contradiction Q; cbn.
    + destruct T as (-> & _). split; [right; auto|]. destruct m; try discriminate; try discriminate A. destruct H as (_ & H & _). congruence.
    + destruct T as (-> & _). split; [left; lia|intros; lia].
    + destruct T as (_ & [(-> & ->)|[(-> & -> & _)|(_ & _ & T)]]); cbn; [..|congruence]; (split; [right; auto|]; destruct m; try discriminate; discriminate A).
    + destruct T as (_ & -> & _). split; [right; auto|]. destruct m; try discriminate; discriminate A.
  - replace (match m with Ended _ => _ | _ => _ end) with (uvicorn_turn bind (mkState m sv u st sx false hd ww ob)) by (destruct m; auto; discriminate A). unfold uvicorn_turn. unfold threads in T. cbn in T |- *. destruct u; cbn.
    + split; [right; auto|]. destruct m; try discriminate; discriminate A.
    + rewrite B. cbn. split; [left; lia|intros; lia].
    + assert (X : sx = false) by (destruct sv; try contradiction Q; tauto). rewrite X. cbn. split; [right; auto|]. destruct m; try discriminate; try discriminate A. cbn. lia.
    + exfalso. destruct sv; try contradiction Q; intuition congruence.
Qed.
Lemma list_down2 l : forall s, Forall harmless l -> sound s -> rank2 (after l s) <= rank2 s /\ (0 < rank2 s -> In (next2 s) l -> rank2 (after l s) < rank2 s).
Proof.
  induction l as [|h l IH]; intros s F R; [split; [reflexivity|intros _ []]|].
  inversion F as [|? ? L F']; subst. destruct (IH _ F' (sound_turn s h L R)) as (L1 & L2). destruct (turn_down2 s h L R) as (D & N).
  change (after (h :: l) s) with (after l (turn s h)). split; [lia|]. intros P [->|J]; [specialize (N eq_refl P); lia|].
  destruct D as [D|(D & N')]; [lia|]. rewrite <- D, N' in *. apply L2; [lia|exact J].
Qed.
Lemma sound_run l : forall s, Forall harmless l -> sound s -> sound (after l s).
Proof. induction l as [|h l IH]; intros s F H; [exact H|]. apply Forall_cons_iff in F; destruct F as (F1 & F2). apply IH; auto using sound_turn. Qed.
Lemma rounds_down2 ls : forall s, sound s -> Forall harmless (concat ls) -> Forall round ls -> rank2 s <= length ls -> rank2 (after (concat ls) s) = 0.
Proof.
  induction ls as [|l ls IH]; intros s R FH F L; cbn [length] in L; [cbn; lia|].
  inversion F as [|? ? (F1 & F2 & F3) F4]; subst. cbn [concat] in *. apply Forall_app in FH. destruct FH as (FH1 & FH2). rewrite after_app. apply IH; auto using sound_run.
  destruct (list_down2 l s FH1 R) as (L1 & L2). destruct (Nat.eq_dec (rank2 s) 0) as [Z|Z]; [lia|].
  assert (J : In (next2 s) l) by (unfold next2; destruct (s_main s); auto; destruct (s_uvicorn s); auto). specialize (L2 ltac:(lia) J). lia.
Qed.
Lemma comes_up ls : bind = true -> config = true -> index = true -> Forall round ls -> undisturbed (concat ls) -> 9 <= length ls -> s_uvicorn (after (concat ls) begin) = Serving /\ s_main (after (concat ls) begin) = Loop.
Proof.
  intros B C I F U L. pose proof (undisturbed_harmless _ U) as FH. assert (R : sound begin) by (repeat split; auto using inv_begin; try discriminate; apply calm_begin).
  pose proof (rounds_down2 ls begin R FH F ltac:(cbn; lia)) as Z. destruct (sound_run _ _ FH R) as (_ & _ & _ & H & (E & Q & A & O)). revert Z H E Q A. generalize (after (concat ls) begin). intros s Z H E Q A.
  pose proof (inv_threads _ H) as T. unfold rank2 in Z. unfold threads in T. destruct (s_main s); try discriminate Z; try discriminate A. split; [|reflexivity].
  destruct (s_uvicorn s); auto; try (destruct (s_server s); discriminate Z). destruct (s_server s); try contradiction Q; intuition congruence.
Qed.

Definition noticed (s : state) : Prop := (match s_server s with Stop | Join | Over => True | _ => False end -> s_event s = true) /\ (match s_main s with Finally Returned | Leave Returned | Ended Returned => True | _ => False end -> s_event s = true).
Lemma noticed_set s : s_event s = true -> noticed s.
Proof. intros E. split; auto. Qed.
Lemma noticed_turn s h : noticed s -> noticed (turn s h).
Proof.
  intros (A & B). destruct (s_event s) eqn:E; [apply noticed_set, event_stays, E|].
  destruct s as [m sv u st sx ev hd ww ob]. cbn in A, B, E. subst ev.
  assert (Q : forall x, sv = x -> match x with Stop | Join | Over => False | _ => True end) by (intros x <-; destruct sv; auto; discriminate (A I)).
  assert (M : forall r, m = Finally r \/ m = Leave r \/ m = Ended r -> r <> Returned) by (intros r [->|[->| ->]] ->; discriminate (B I)).
  unfold noticed, Serve.turn; cbn [s_main]. destruct h; destruct m; cbn; auto.
  all: try (unfold main_turn, server_turn, uvicorn_turn, interrupt; cbn).
  all: repeat match goal with |- context[if ?b then _ else _] => destruct b; cbn end.
  all: try (split; [exact A|auto]; fail); auto.
  all: try (destruct sv; cbn in *; try contradiction (Q _ eq_refl); auto; fail).
  all: try (destruct sv; cbn in *; repeat match goal with |- context[if ?b then _ else _] => destruct b; cbn end; auto; split; intuition; fail).
  all: try (destruct u; cbn in *; repeat match goal with |- context[if ?b then _ else _] => destruct b; cbn end; auto; split; intuition; fail).
  all: try (split; [auto|contradiction]; fail).
  all: try (split; [contradiction|contradiction]; fail).
Qed.
Lemma noticed_run l : forall s, noticed s -> noticed (after l s).
Proof. induction l as [|h l IH]; intros s H; [exact H|]. apply IH, noticed_turn, H. Qed.
Lemma told l : s_main (after l begin) = Leave Returned \/ s_main (after l begin) = Ended Returned -> s_event (after l begin) = true.
Proof. intros D. assert (N : noticed (after l begin)) by (apply noticed_run; split; contradiction). destruct N as (_ & N). apply N. destruct D as [->| ->]; exact I. Qed.
End Serve.
