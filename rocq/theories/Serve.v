(** runners/run.py:31-72, runners/dev.py:104-159 and http_server.py:25-60: the threads of the web server, the interrupt
    (Ctrl-C) and the working directory. uvicorn is modelled as a thread that either starts to serve or, if it
    cannot (the port is in use), ends without setting [started]. *)
From Coq Require Import Bool List.
Import ListNotations.

(** how the command ends: it returns; sys.exit(1) (run.py:36, 42); KeyboardInterrupt; another exception *)
Inductive result := Returned | Exited | Interrupted | Raised.
(** the main thread is about to: look for vanillaplusjs.json (run.py:32), look for out/www/index.html (38; in dev.py:109
    for out/www), change the working directory (45), set the signal handler (54), start the server thread (65), start the
    observer (dev.py:139-141), look whether the server thread is alive (66-69, dev.py:142-151), change the
    directory back (72); [Leave]: the command is over and the interpreter shuts down; [Ended]: the process is gone *)
Inductive main_at := Config | Index | Chdir | Handler | Spawn | Observe | Loop | Finally (r : result) | Leave (r : result) | Ended (r : result).
(** the server thread: not there; starts uvicorn (http_server.py:40-42); [while not server.started] (44-45); [event.wait()]
    (60); [server.should_exit = True] (48); [thread.join()] (49); over *)
Inductive server_at := NotYet | StartUvicorn | Poll | WaitEvent | Stop | Join | Over.
Inductive uvicorn_at := Absent | Starting | Serving | Dead.
Record state := mkState {
  s_main : main_at; s_server : server_at; s_uvicorn : uvicorn_at;
  s_started : bool; s_should_exit : bool;  (* the fields of the uvicorn server *)
  s_event : bool;                          (* shutdown_event *)
  s_handler : bool;                        (* the handler is set *)
  s_www : bool;                            (* the working directory is out/www, and not where the command was called *)
  s_observer : bool                        (* dev.py: the observer is alive *)
}.
Definition begin : state := mkState Config NotYet Absent false false false false false false.
(** a step of one of the threads; the interrupt; the observer dies; a rebuild raises an exception (dev.py:151) *)
Inductive happening := Main | Server | Uvicorn | Interrupt | ObserverDies | RebuildRaises.

(** [watch]: dev --watch; [bind]: uvicorn can start; [config], [index]: these files exist. Simplifications: the look
    at the files and the steps up to [try] are one step each; no second interrupt during [finally]. *)
Section Serve.
Context (watch bind config index : bool).
Definition at_main (m : main_at) (s : state) : state := mkState m (s_server s) (s_uvicorn s) (s_started s) (s_should_exit s) (s_event s) (s_handler s) (s_www s) (s_observer s).
Definition set_event (s : state) : state := mkState (s_main s) (s_server s) (s_uvicorn s) (s_started s) (s_should_exit s) true (s_handler s) (s_www s) (s_observer s).
Definition set_www (b : bool) (s : state) : state := mkState (s_main s) (s_server s) (s_uvicorn s) (s_started s) (s_should_exit s) (s_event s) (s_handler s) b (s_observer s).
Definition set_observer (b : bool) (s : state) : state := mkState (s_main s) (s_server s) (s_uvicorn s) (s_started s) (s_should_exit s) (s_event s) (s_handler s) (s_www s) b.
Definition at_server (x : server_at) (s : state) : state := mkState (s_main s) x (s_uvicorn s) (s_started s) (s_should_exit s) (s_event s) (s_handler s) (s_www s) (s_observer s).
Definition main_turn (s : state) : state :=
  match s_main s with
  | Config => at_main (if config then Index else Leave Exited) s
  | Index => at_main (if index then Chdir else Leave (if watch then Raised else Exited)) s
  | Chdir => at_main Handler (set_www true s)
  | Handler => mkState Spawn (s_server s) (s_uvicorn s) (s_started s) (s_should_exit s) (s_event s) true (s_www s) (s_observer s)
  | Spawn => at_main (if watch then Observe else Loop) (at_server StartUvicorn s)
  | Observe => at_main Loop (set_observer true s)
  | Loop =>
      match s_server s with
      | Over => at_main (Finally Returned) (set_observer false s)
      | _ => if watch && negb (s_observer s) then at_main (Finally Returned) (set_event s) else s
      end
  | Finally r => at_main (Leave r) (set_www false s)
  | Leave r => at_main (Ended r) s
  | Ended _ => s
  end.
Definition server_turn (s : state) : state :=
  match s_server s with
  | NotYet | Over => s
  | StartUvicorn => mkState (s_main s) Poll Starting (s_started s) (s_should_exit s) (s_event s) (s_handler s) (s_www s) (s_observer s)
  | Poll => if s_started s then at_server WaitEvent s else s
  | WaitEvent => if s_event s then at_server Stop s else s
  | Stop => mkState (s_main s) Join (s_uvicorn s) (s_started s) true (s_event s) (s_handler s) (s_www s) (s_observer s)
  | Join => match s_uvicorn s with Dead => at_server Over s | _ => s end
  end.
Definition uvicorn_turn (s : state) : state :=
  let at_uvicorn x b := mkState (s_main s) (s_server s) x b (s_should_exit s) (s_event s) (s_handler s) (s_www s) (s_observer s) in
  match s_uvicorn s with
  | Absent | Dead => s
  | Starting => if bind then at_uvicorn Serving true else at_uvicorn Dead (s_started s)
  | Serving => if s_should_exit s then at_uvicorn Dead (s_started s) else s
  end.
(** run.py:50-52: the handler sets the event; before it is set, Python raises KeyboardInterrupt in the main thread *)
Definition interrupt (s : state) : state :=
  if s_handler s then set_event s
  else match s_main s with Config | Index | Chdir => at_main (Leave Interrupted) s | Handler => at_main (Finally Interrupted) s | _ => s end.
(** all threads are daemons: when the main thread is gone, nothing happens any more *)
Definition turn (s : state) (h : happening) : state :=
  match s_main s with
  | Ended _ => s
  | m =>
      match h with
      | Main => main_turn s
      | Server => server_turn s
      | Uvicorn => uvicorn_turn s
      | Interrupt => interrupt s
      | ObserverDies => match m with Loop => if watch then set_observer false s else s | _ => s end
      | RebuildRaises => match m with Loop => if watch then at_main (Finally Raised) s else s | _ => s end
      end
  end.
Definition after (l : list happening) (s : state) : state := fold_left turn l s.
End Serve.
