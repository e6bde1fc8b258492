(** Model of a server process between listening and its end: cmd/grpc/server/main.go:172-219 and
    simulations/multi/server/server.go:149-185, with the notifications of cmd/grpc/sdnotify/sdnotify.go. A state is advanced by
    events; every interleaving of the goroutines, calls and signals is a list of events. *)
From Coq Require Import String ZArith List Bool Arith.
From Verif Require Import GoBase EncodingModel.
Import ListNotations.
Open Scope Z_scope.
Open Scope go_scope.

(** sdnotify.go:30-38 SdNotifyReady, SdNotifyStopping *)
Definition sd_ready : string := "READY=1".
Definition sd_stopping : string := "STOPPING=1".

(** sdnotify.go:56-86 SdNotify(false, state): [socket] is the value of NOTIFY_SOCKET, [send] connects to that socket and writes *)
Definition sd_notify (socket : string) (send : string -> string -> res unit) (state : string) : res bool :=
  if String.eqb socket "" then Ok false else _ <- send socket state ;; Ok true.

(** The servers: the key server, which serves HTTP only in experiments, and the benchmark server, which always does. *)
Inductive kind := KeyServer (experiment : bool) | BenchServer.
(** The surroundings of a process: the notification socket, and whether port 8080 can be listened on (the error of
    srv.ListenAndServe is ignored). *)
Record surroundings := mkSur { e_kind : kind; e_socket : string; e_send : string -> string -> res unit; e_http : bool }.

(** Where the main goroutine is: before the HTTP server (main.go:187-201), before the first notification (203-206), in the select
    (208-211), after stopWorker (212), in GracefulStop (213), in srv.Shutdown (server.go:182), before the last notification (218);
    or the process has ended. *)
Inductive place := Starting | Telling | Waiting | Closing | Draining | Shutting | Leaving | Exited | Dead (m : string) | Crashed (m : string).

(** The goroutine that calls rpcServer.Serve (main.go:179-184): not yet, serving, or returned. *)
Inductive serving := NotYet | Accepting | Over.

(** [s_sig]: the channel of signals, of capacity one, is full; [s_err]: the channel of errors; [s_entering]: calls whose handler has
    not yet put the query into the queue; [s_working]: other calls being answered; [s_blocked]: HTTP handlers blocked on the channel of
    signals; [s_told]: the notifications sent, oldest first. *)
Record server_state := mkState {
  s_place : place; s_sig : bool; s_err : option string; s_entering : nat; s_working : nat;
  s_listening : bool; s_serving : serving; s_http : bool; s_blocked : nat; s_queue_closed : bool; s_told : list string }.

(** main.go:128-177: the process listens and has registered for signals *)
Definition listening_server : server_state := mkState Starting false None 0 0 true NotYet false 0 false [].

(** grpc.ErrServerStopped, which Serve returns when the server was stopped before *)
Definition stopped_error : string := "grpc: the server has been stopped".

Inductive event :=
| Signal                      (* SIGINT or SIGTERM arrives *)
| Http                        (* an HTTP request arrives on port 8080 *)
| Unblock                     (* a blocked HTTP handler goes on *)
| Serve                       (* the goroutine of main.go:179-184 calls rpcServer.Serve *)
| ServeFails (m : string)     (* rpcServer.Serve returns an error *)
| Info                        (* a DatabaseInfo call arrives *)
| Query                       (* a Query call arrives *)
| Enqueue                     (* its handler puts it into the queue *)
| Finish                      (* a call ends *)
| Main (prefer_error : bool). (* the main goroutine advances; its select takes any case that is ready *)

Definition alive (p : place) : bool := match p with Exited | Dead _ | Crashed _ => false | _ => true end.
Definition has_worker (k : kind) : bool := match k with KeyServer _ => true | BenchServer => false end.
Definition serves_http (k : kind) : bool := match k with KeyServer e => e | BenchServer => true end.

(** Calls are taken once Serve has been called, until GracefulStop; after an error of Serve only on existing connections, which
    are not told apart here. *)
Definition takes_calls (p : place) (se : serving) : bool :=
  match se, p with
  | NotYet, _ => false
  | _, (Starting | Telling | Waiting | Closing) => true
  | _, _ => false
  end.

(** main.go:187-218 and server.go:176-184: the main goroutine; None if it waits *)
Definition main_step (e : surroundings) (prefer_error : bool) (s : server_state) : option server_state :=
  let '(mkState p sig err en wo li se ht bl qc told) := s in
  let at_place p := mkState p sig err en wo li se ht bl qc told in
  let notify state := sd_notify (e_socket e) (e_send e) state in
  match p with
  | Starting =>
    let next := match e_kind e with KeyServer _ => Telling | BenchServer => Waiting end in
    Some (mkState next sig err en wo li se (serves_http (e_kind e) && e_http e) bl qc told)
  | Telling =>
    match notify sd_ready with
    | Ok true => Some (mkState Waiting sig err en wo li se ht bl qc (told ++ [sd_ready]))
    | Ok false => Some (at_place Waiting)
    | Err m => Some (at_place (Dead ("failed to sdnotify: " ++ m)))
    | Panic m => Some (at_place (Crashed m))
    | Fatal m => Some (at_place (Dead m))
    end
  | Waiting =>
    match err, sig with
    | Some m, false => Some (at_place (Dead ("failed to serve: " ++ m)))
    | None, false => None
    | _, true =>
      match err, prefer_error with
      | Some m, true => Some (at_place (Dead ("failed to serve: " ++ m)))
      | _, _ => Some (mkState Closing false err en wo li se ht bl (has_worker (e_kind e)) told)
      end
    end
  | Closing => Some (mkState Draining sig err en wo false (match se with Accepting => Over | x => x end) ht bl qc told)
  | Draining =>
    if (en =? 0)%nat && (wo =? 0)%nat then
      match e_kind e with
      | KeyServer _ => Some (at_place Leaving)
      | BenchServer => Some (mkState Shutting sig err en wo li se false bl qc told)
      end
    else None
  | Shutting => if (bl =? 0)%nat then Some (at_place Exited) else None
  | Leaving =>
    match notify sd_stopping with
    | Ok true => Some (mkState Exited sig err en wo li se ht bl qc (told ++ [sd_stopping]))
    | Panic m => Some (at_place (Crashed m))
    | _ => Some (at_place Exited)
    end
  | _ => None
  end.

(** One event; None if it cannot happen in this state. A call of the key server
    goes through the queue (main.go:256-274, startWorker 276-292), and sending on the closed queue panics. signal.Notify drops a
    signal when the channel is full; the HTTP handler (main.go:192-194, server.go:166-168) waits. *)
Definition step (e : surroundings) (ev : event) (s : server_state) : option server_state :=
  if alive (s_place s) then
    let '(mkState p sig err en wo li se ht bl qc told) := s in
    match ev with
    | Signal => Some (mkState p true err en wo li se ht bl qc told)
    | Http => if ht then if sig then Some (mkState p sig err en wo li se ht (S bl) qc told) else Some (mkState p true err en wo li se ht bl qc told)
              else None
    | Unblock => match bl, sig with S b, false => Some (mkState p true err en wo li se ht b qc told) | _, _ => None end
    | Serve => match se with
               | NotYet => if li then Some (mkState p sig err en wo li Accepting ht bl qc told)
                           else Some (mkState p sig (Some stopped_error) en wo li Over ht bl qc told)
               | _ => None
               end
    | ServeFails m => match se with Accepting => Some (mkState p sig (Some m) en wo false Over ht bl qc told) | _ => None end
    | Info => if takes_calls p se then Some (mkState p sig err en (S wo) li se ht bl qc told) else None
    | Query => if takes_calls p se then
                 if has_worker (e_kind e) then Some (mkState p sig err (S en) wo li se ht bl qc told)
                 else Some (mkState p sig err en (S wo) li se ht bl qc told)
               else None
    | Enqueue => match en with
                 | O => None
                 | S n => if qc then Some (mkState (Crashed "send on closed channel") sig err en wo li se ht bl qc told)
                          else Some (mkState p sig err n (S wo) li se ht bl qc told)
                 end
    | Finish => match wo with O => None | S n => Some (mkState p sig err en n li se ht bl qc told) end
    | Main b => main_step e b s
    end
  else None.

(** A history: events that can happen one after the other. *)
Fixpoint history (e : surroundings) (evs : list event) (s : server_state) : option server_state :=
  match evs with
  | [] => Some s
  | ev :: t => match step e ev s with Some s' => history e t s' | None => None end
  end.
