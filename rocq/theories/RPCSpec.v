(** What happened in a schedule, read off its labels. *)
From Coq Require Import String ZArith List Bool.
From Verif Require Import GoBase RPCModel.
Import ListNotations.
Open Scope nat_scope.

(** the queries of the calls, in order of arrival: call number i asks the i-th *)
Fixpoint arrivals (ls : list label) : list (list Z) :=
  match ls with [] => [] | LArrive q :: t => q :: arrivals t | _ :: t => arrivals t end.
(** the calls whose query entered the queue, in order *)
Fixpoint accepted (ls : list label) : list nat :=
  match ls with [] => [] | LSend i :: t => i :: accepted t | _ :: t => accepted t end.
(** the calls the worker took up, in order *)
Fixpoint taken (ls : list label) : list nat :=
  match ls with [] => [] | LTake i :: t => i :: taken t | _ :: t => taken t end.
(** the calls that returned, with what they returned *)
Fixpoint returns (ls : list label) : list (nat * outcome) :=
  match ls with [] => [] | LReturn i o :: t => (i, o) :: returns t | _ :: t => returns t end.
(** the moves of the worker *)
Definition by_worker (l : label) : bool :=
  match l with LTake _ | LCompute | LDeliver => true | _ => false end.
Definition worker_moves (ls : list label) : nat := length (filter by_worker ls).

(** the server object after it has answered some queries *)
Definition after {St} (srv : St -> list Z -> St * res (list Z)) (st : St) (qs : list (list Z)) : St :=
  fold_left (fun s q => fst (srv s q)) qs st.

(** what a call must return for a result of the server object *)
Definition reports (r : res (list Z)) (o : outcome) : Prop :=
  match o with Answered a => r = Ok a | Failed m => r = Err m | Expired => True end.

(** the server object neither panics nor exits *)
Definition total {St} (srv : St -> list Z -> St * res (list Z)) : Prop :=
  forall s q, match snd (srv s q) with Ok _ | Err _ => True | _ => False end.

(** the worker's result for a call has reached it, or the call is over *)
Definition served {St} (s : state St) (i : nat) : Prop :=
  exists h, nth_error (handlers s) i = Some h /\ (returned h = true \/ h_answer h <> None \/ h_error h <> None).

(** moves that are not the environment's: everything but new calls, cancellations and the signal *)
Definition internal (l : label) : bool :=
  match l with LArrive _ | LDone _ | LSignal => false | _ => true end.
