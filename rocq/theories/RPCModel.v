(** The query server of the deployment (cmd/grpc/server/main.go): RPC handlers, the bounded query queue, the single worker
    and the shutdown sequence, as a transition system. A label says which goroutine moves and what it does; [fire] gives the
    next state, or None if that goroutine cannot make that move now. *)
From Coq Require Import String ZArith List Bool.
From Verif Require Import GoBase.
Import ListNotations.
Open Scope nat_scope.

(** What a call of Query returns to its caller (main.go:264-274). *)
Inductive outcome :=
| Answered (a : list Z)
| Failed (m : string)
| Expired.

(** Where a handler stands: at the send (main.go:262), at the select (main.go:264), or returned. *)
Inductive hpc := Sending | Waiting | Returned (o : outcome).

(** One running call of Query (main.go:256-275): its query, its position, whether its context is done, and its two channels
    answerCh and errorCh of capacity 1 (main.go:260-261). *)
Record handler := mkH { h_query : list Z; h_pc : hpc; h_done : bool; h_answer : option (list Z); h_error : option string }.

(** Where the worker stands (main.go:277-296): at the receive of the range loop, computing an answer, at one of the two sends
    (main.go:282, 291), or returned. *)
Inductive wpc := Ranging | Computing (i : nat) | Delivering (i : nat) (r : list Z + string) | Ended.

(** Where main stands: in the final select (main.go:206), after stopWorker (main.go:210), inside GracefulStop (main.go:211),
    or returned. *)
Inductive mpc := Serving | Closed | Draining | Exited.

Section Server.
(** The server object: [srv st q] = AnswerBytes (lib/server/server.go:9-12) in state [st]; only the worker calls it. *)
Context {St : Type} (srv : St -> list Z -> St * res (list Z)).

(** [queue] holds the numbers of the handlers whose wrappers are in queryChan (main.go:218-222, 178); [crash] is set when the
    process has died. *)
Record state := mkS { handlers : list handler; queue : list nat; worker : wpc; main : mpc; crash : option string; object : St }.

(** make(chan queryWrapper, 10), main.go:178 *)
Definition queue_capacity : nat := 10.

(** main.go:173-182 *)
Definition initial (st : St) : state := mkS [] [] Ranging Serving None st.

Inductive label :=
| LArrive (q : list Z)
| LSend (i : nat)
| LDone (i : nat)
| LReturn (i : nat) (o : outcome)
| LTake (i : nat)
| LEnd
| LCompute
| LDeliver
| LSignal
| LGraceful
| LExit.

(** close(queryChan), main.go:298-300, has been executed *)
Definition closed (s : state) : bool := match main s with Serving => false | _ => true end.

Definition set_handler (s : state) (i : nat) (h : handler) : state :=
  mkS (upd (handlers s) i h) (queue s) (worker s) (main s) (crash s) (object s).
Definition set_worker (s : state) (w : wpc) : state :=
  mkS (handlers s) (queue s) w (main s) (crash s) (object s).
Definition set_main (s : state) (m : mpc) : state :=
  mkS (handlers s) (queue s) (worker s) m (crash s) (object s).
Definition die (s : state) (m : string) : state :=
  mkS (handlers s) (queue s) (worker s) (main s) (Some m) (object s).

Definition returned (h : handler) : bool := match h_pc h with Returned _ => true | _ => false end.

(** A panic in any goroutine, and log.Fatal, end the process; gRPC does not recover panics of handlers. *)
Definition fire (l : label) (s : state) : option state :=
  match crash s, main s with
  | Some _, _ => None
  | _, Exited => None
  | None, _ =>
    match l with
    | LArrive q => (** a new RPC; refused once GracefulStop runs *)
      match main s with
      | Serving | Closed =>
        Some (mkS (handlers s ++ [mkH q Sending false None None]) (queue s) (worker s) (main s) (crash s) (object s))
      | _ => None
      end
    | LSend i => (** main.go:262; a send on a closed channel panics, also for senders already blocked *)
      match nth_error (handlers s) i with
      | Some h =>
        match h_pc h with
        | Sending =>
          if closed s then Some (die s "send on closed channel")
          else if length (queue s) <? queue_capacity
               then Some (mkS (upd (handlers s) i (mkH (h_query h) Waiting (h_done h) (h_answer h) (h_error h)))
                              (queue s ++ [i]) (worker s) (main s) (crash s) (object s))
               else None
        | _ => None
        end
      | None => None
      end
    | LDone i => (** the context of the call is cancelled or its deadline passes *)
      match nth_error (handlers s) i with
      | Some h => Some (set_handler s i (mkH (h_query h) (h_pc h) true (h_answer h) (h_error h)))
      | None => None
      end
    | LReturn i o => (** main.go:264-274: any ready case of the select may be taken *)
      match nth_error (handlers s) i with
      | Some h =>
        match h_pc h, o with
        | Waiting, Answered a =>
          match h_answer h with
          | Some b => if list_eq_dec Z.eq_dec a b
                      then Some (set_handler s i (mkH (h_query h) (Returned o) (h_done h) None (h_error h))) else None
          | None => None
          end
        | Waiting, Failed m =>
          match h_error h with
          | Some e => if string_dec m e
                      then Some (set_handler s i (mkH (h_query h) (Returned o) (h_done h) (h_answer h) None)) else None
          | None => None
          end
        | Waiting, Expired =>
          if h_done h then Some (set_handler s i (mkH (h_query h) (Returned o) (h_done h) (h_answer h) (h_error h))) else None
        | _, _ => None
        end
      | None => None
      end
    | LTake i => (** main.go:278 *)
      match worker s, queue s with
      | Ranging, j :: q' =>
        if i =? j then Some (mkS (handlers s) q' (Computing i) (main s) (crash s) (object s)) else None
      | _, _ => None
      end
    | LEnd => (** main.go:278: the loop ends when the queue is closed and empty *)
      match worker s, queue s with
      | Ranging, [] => if closed s then Some (set_worker s Ended) else None
      | _, _ => None
      end
    | LCompute => (** main.go:280-281 *)
      match worker s with
      | Computing i =>
        match nth_error (handlers s) i with
        | Some h =>
          let '(st', r) := srv (object s) (h_query h) in
          let s' := mkS (handlers s) (queue s) (worker s) (main s) (crash s) st' in
          match r with
          | Ok a => Some (set_worker s' (Delivering i (inl a)))
          | Err m => Some (set_worker s' (Delivering i (inr m)))
          | Panic m => Some (die s' m)
          | Fatal m => Some (die s' m)
          end
        | None => None
        end
      | _ => None
      end
    | LDeliver => (** main.go:282, 291: blocks while the channel is full *)
      match worker s with
      | Delivering i r =>
        match nth_error (handlers s) i with
        | Some h =>
          match r, h_answer h, h_error h with
          | inl a, None, _ => Some (set_worker (set_handler s i (mkH (h_query h) (h_pc h) (h_done h) (Some a) (h_error h))) Ranging)
          | inr m, _, None => Some (set_worker (set_handler s i (mkH (h_query h) (h_pc h) (h_done h) (h_answer h) (Some m))) Ranging)
          | _, _, _ => None
          end
        | None => None
        end
      | _ => None
      end
    | LSignal => (** main.go:209-210 *)
      match main s with Serving => Some (set_main s Closed) | _ => None end
    | LGraceful => (** main.go:211 *)
      match main s with Closed => Some (set_main s Draining) | _ => None end
    | LExit => (** main.go:211-217: GracefulStop returns when no call is running *)
      match main s with
      | Draining => if forallb returned (handlers s) then Some (set_main s Exited) else None
      | _ => None
      end
    end
  end.

(** A schedule: the moves in the order in which they happen; None if one of them was not possible. *)
Fixpoint run (ls : list label) (s : state) : option state :=
  match ls with
  | [] => Some s
  | l :: t => match fire l s with Some s' => run t s' | None => None end
  end.
End Server.

Arguments mkS {St}.
Arguments state : clear implicits.
