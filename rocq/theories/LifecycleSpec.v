(** Specification vocabulary for the life of a server process. *)
From Coq Require Import String ZArith List Bool Arith.
From Verif Require Import GoBase EncodingModel LifecycleModel.
Import ListNotations.

(** The states a process can be in after these events. *)
Definition after (e : surroundings) (evs : list event) (s : server_state) : Prop := history e evs listening_server = Some s.

(** Calls the process has accepted and not answered. *)
Definition open_calls (s : server_state) : nat := (s_entering s + s_working s)%nat.

(** Somebody asked the process to stop. *)
Definition asked_to_stop (evs : list event) : Prop := In Signal evs \/ In Http evs.

(** The main goroutine has taken a request to stop. *)
Definition stopping (p : place) : Prop := p = Closing \/ p = Draining \/ p = Shutting \/ p = Leaving.

(** A service manager that can be reached: it is told everything that is sent. *)
Definition notifies (e : surroundings) : Prop :=
  (exists experiment, e_kind e = KeyServer experiment) /\ e_socket e <> ""%string /\ forall m, e_send e (e_socket e) m = Ok tt.
(** No service manager. *)
Definition unmanaged (e : surroundings) : Prop := e_socket e = ""%string.

(** Stop requests that the process has not taken yet: the one in the channel and those of blocked HTTP handlers. *)
Definition unread_requests (s : server_state) : nat := ((if s_sig s then 1 else 0) + s_blocked s)%nat.
