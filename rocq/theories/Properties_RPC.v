(** C58-C60, C80: the query server under every schedule of callers, worker, cancellations and shutdown. *)
From Coq Require Import String ZArith List Bool Lia.
From Verif Require Import GoBase BaseFacts RPCModel RPCSpec RPCProofs RPCProofs2.
Import ListNotations.
Open Scope nat_scope.

(** A small server object for the examples: it counts the queries it has seen, refuses the empty one, and panics on the query
    [[255]]. *)
Definition counting_server (n : nat) (q : list Z) : nat * res (list Z) :=
  match q with
  | [] => (S n, Err "empty query")
  | [255%Z] => (n, Panic "index out of range")
  | _ => (S n, Ok (Z.of_nat n :: q))
  end.

(** C58: in every schedule, whatever a call returned is either the expiry of its own, cancelled, context or the result the
    server object gave to that call's query, applied in the state reached after the queries taken up before it, in order; no
    call returns twice; queries are taken up in the order in which they entered the queue, each at most once. *)
Theorem C58_every_call_gets_its_answer :
  forall (St : Type) (srv : St -> list Z -> St * res (list Z)) (st : St) ls s, run srv ls (initial st) = Some s ->
  (forall i o, In (i, o) (returns ls) ->
     exists q, nth_error (arrivals ls) i = Some q /\ In i (accepted ls) /\
       ((o = Expired /\ In (LDone i) ls) \/
        exists before rest, taken ls = before ++ i :: rest /\ o <> Expired /\
          reports (snd (srv (after srv st (map (fun j => nth j (arrivals ls) []) before)) q)) o)) /\
  NoDup (map fst (returns ls)) /\ NoDup (accepted ls) /\ (exists rest, accepted ls = taken ls ++ rest) /\
  (forall i, In i (accepted ls) -> i < length (arrivals ls)).
Proof. intros St srv st ls s R. exact (trace_facts srv st ls s R). Qed.
Print Assumptions C58_every_call_gets_its_answer.

(** If the answers do not depend on the queries answered before, every answer is the one to the caller's own query. *)
Theorem C58_own_answer :
  forall (St : Type) (srv : St -> list Z -> St * res (list Z)) (st : St) (f : list Z -> res (list Z)),
  (forall qs q, snd (srv (after srv st qs) q) = f q) ->
  forall ls s i a, run srv ls (initial st) = Some s -> In (i, Answered a) (returns ls) ->
  exists q, nth_error (arrivals ls) i = Some q /\ f q = Ok a.
Proof.
  intros St srv st f HF ls s i a R I. destruct (trace_facts srv st ls s R) as (T & _). destruct (T _ _ I) as (q & Q1 & _ & [[Q _]|(b & r & _ & _ & Q)]).
  - discriminate.
  - exists q. split; auto. cbn in Q. rewrite HF in Q. auto.
Qed.
Print Assumptions C58_own_answer.

(** Three overlapping calls, one refused, one abandoned: the answers show the order in which they were computed. *)
Definition busy : list label :=
  [LArrive [7%Z]; LArrive []; LSend 1; LArrive [9%Z]; LTake 1; LSend 2; LSend 0; LCompute; LDone 0; LReturn 0 Expired; LDeliver;
   LTake 2; LReturn 1 (Failed "empty query"); LCompute; LDeliver; LTake 0; LCompute; LDeliver; LReturn 2 (Answered [1%Z; 9%Z])].
Example C58_example :
  (exists s, run counting_server busy (initial 0) = Some s /\ crash s = None /\ object s = 3) /\
  returns busy = [(0, Expired); (1, Failed "empty query"); (2, Answered [1%Z; 9%Z])] /\ taken busy = [1; 2; 0] /\
  (forall qs q, snd ((fun (n : nat) q => (S n, Ok q)) (after (fun (n : nat) q => (S n, Ok q)) 0 qs) q) = @Ok (list Z) q).
Proof.
  split; [eexists; split; [vm_compute; reflexivity|split; reflexivity]|]. split; [reflexivity|]. split; [reflexivity|]. reflexivity.
Qed.

(** C59: whenever there is a query in the queue or in progress, the worker can move, whatever the callers did. *)
Theorem C59_worker_never_stuck :
  forall (St : Type) (srv : St -> list Z -> St * res (list Z)) (st : St) ls s,
  run srv ls (initial st) = Some s -> crash s = None -> main s <> Exited ->
  queue s <> [] \/ (exists i, worker s = Computing i) \/ (exists i r, worker s = Delivering i r) ->
  exists l, by_worker l = true /\ fire srv l s <> None.
Proof. intros St srv st. exact (worker_enabled srv st). Qed.
Print Assumptions C59_worker_never_stuck.

(** ... and a query that entered the queue is served after at most 32 moves of the worker, so a caller never waits for callers
    that arrive later; once served, a call that has not returned can return the result. *)
Theorem C59_bounded_service :
  forall (St : Type) (srv : St -> list Z -> St * res (list Z)) (st : St) l1 l2 i s,
  run srv (l1 ++ LSend i :: l2) (initial st) = Some s -> crash s = None -> 32 <= worker_moves l2 ->
  served s i /\
  (main s <> Exited -> forall h, nth_error (handlers s) i = Some h ->
     returned h = true \/ exists o, o <> Expired /\ fire srv (LReturn i o) s <> None).
Proof.
  intros St srv st l1 l2 i s R C B. assert (S : served s i) by exact (bounded_service srv st l1 l2 i s R C B).
  split; auto. intros NX h E. exact (served_returns srv st _ s i h R C NX E S).
Qed.
Print Assumptions C59_bounded_service.

(** The bound is attained: 11 calls, ten queued behind one in progress; the last needs exactly 32 moves. *)
Definition eleven : list label :=
  map (fun k => LArrive [Z.of_nat k]) (seq 0 11) ++ [LSend 0; LTake 0] ++ map LSend (seq 1 9).
Definition one_round (i : nat) : list label := [LTake i; LCompute; LDeliver].
Definition many_moves : list label := [LCompute; LDeliver] ++ flat_map one_round (seq 1 10).
Example C59_example :
  worker_moves many_moves = 32 /\
  (exists s, run counting_server (eleven ++ LSend 10 :: many_moves) (initial 0) = Some s /\ crash s = None /\ main s <> Exited) /\
  (exists s, run counting_server (eleven ++ LSend 10 :: firstn 31 many_moves) (initial 0) = Some s /\ ~ served s 10) /\
  (exists s, run counting_server eleven (initial 0) = Some s /\ crash s = None /\ queue s = seq 1 9 /\ worker s = Computing 0).
Proof.
  split; [reflexivity|]. split; [eexists; split; [vm_compute; reflexivity|split; [reflexivity|discriminate]]|].
  split; [|eexists; split; [vm_compute; reflexivity|repeat split; reflexivity]].
  eexists. split; [vm_compute; reflexivity|]. intros (h & E & X). cbn in E. injection E as <-. cbn in X. intuition congruence.
Qed.

(** C60, refuted: from every state in which the server is serving, a signal and one call that arrives before GracefulStop
    kill the process, and so does a signal while any call is waiting to enter the queue. *)
Theorem C60_shutdown_refuted :
  forall (St : Type) (srv : St -> list Z -> St * res (list Z)) (s : state St), crash s = None -> main s = Serving ->
  (forall q, exists s', run srv [LSignal; LArrive q; LSend (length (handlers s))] s = Some s' /\ crash s' = Some "send on closed channel"%string) /\
  (forall i h, nth_error (handlers s) i = Some h -> h_pc h = Sending ->
     exists s', run srv [LSignal; LSend i] s = Some s' /\ crash s' = Some "send on closed channel"%string).
Proof.
  intros St srv [hs qu w m c o] C M. cbn [crash main handlers] in *. subst c m. split.
  - intros q. eexists. cbn [run fire crash main set_main handlers queue worker object].
    rewrite nth_error_app2, Nat.sub_diag by lia. cbn. split; reflexivity.
  - intros i h E EP. eexists. cbn [run fire crash main set_main handlers queue worker object]. rewrite E, EP. cbn. split; reflexivity.
Qed.
Print Assumptions C60_shutdown_refuted.

Example C60_refuted_example :
  exists s, run counting_server [LArrive [1%Z]] (initial 0) = Some s /\ crash s = None /\ main s = Serving /\
    exists h, nth_error (handlers s) 0 = Some h /\ h_pc h = Sending.
Proof. eexists. split; [reflexivity|]. repeat split; auto. eexists. split; reflexivity. Qed.

(** What holds: if no call is waiting to enter the queue when the signal comes, none arrives afterwards, and the server object
    neither panics nor exits, then the process does not crash, some goroutine can move until the server has exited, it exits
    after at most 4n+5 moves of its goroutines (n calls so far), and when it has exited every call has returned. *)
Theorem C60_shutdown_partial :
  forall (St : Type) (srv : St -> list Z -> St * res (list Z)) (st : St) l1 l2 m s, total srv ->
  run srv l1 (initial st) = Some m -> crash m = None -> main m = Serving ->
  (forall i h, nth_error (handlers m) i = Some h -> h_pc h <> Sending) -> arrivals l2 = [] ->
  run srv (LSignal :: l2) m = Some s ->
  crash s = None /\ length (filter internal l2) <= 4 * length (arrivals l1) + 5 /\
  (main s = Exited \/ exists l, internal l = true /\ fire srv l s <> None) /\
  (main s = Exited -> Forall (fun h => returned h = true) (handlers s)).
Proof.
  intros St srv st l1 l2 m s T R C M NS NA R2. cbn [run] in R2. unfold fire in R2 at 1. rewrite C, M in R2.
  assert (Q : quiet (set_main m Closed)) by (split; [reflexivity|exact NS]).
  assert (C1 : crash (set_main m Closed) = None) by exact C.
  destruct (quiet_run srv l2 _ _ T NA Q C1 R2) as [QS CS].
  assert (R3 : run srv (l1 ++ LSignal :: l2) (initial st) = Some s).
  { rewrite run_app, R. cbn [run]. unfold fire at 1. rewrite C, M. exact R2. }
  split; auto. split; [|split].
  - pose proof (left_over_run srv st l2 _ _ T NA Q C1 R2) as L. pose proof (inv_run srv st l1 m R C) as V.
    assert (B : length (filter (fun h => negb (returned h)) (handlers m)) <= length (arrivals l1)).
    { rewrite <- (I_len _ _ _ _ V). clear. induction (handlers m) as [|h t IH]; cbn [filter length]; [lia|]. destruct (negb (returned h)); cbn [length]; lia. }
    assert (BQ : length (queue m) <= length (arrivals l1)).
    { rewrite <- (I_len _ _ _ _ V). pose proof (I_nodup _ _ _ _ V) as ND. pose proof (I_acc _ _ _ _ V) as EA.
      assert (ND' : NoDup (queue m)) by (rewrite EA in ND; clear -ND; induction (taken l1); auto; inversion ND; auto).
      rewrite <- (seq_length (length (handlers m)) 0). apply NoDup_incl_length; auto. intros x I. apply in_seq. split; [lia|]. cbn.
      apply (I_lt _ _ _ _ V). rewrite EA. apply in_or_app. auto. }
    unfold left_over in L. cbn [set_main handlers queue worker main] in L.
    assert (BW : cost (worker m) + match worker m with Ended => 0 | _ => 1 end <= 3) by (destruct (worker m); cbn; lia). lia.
  - destruct (main s) eqn:E; auto; right; eapply quiet_progress; eauto; congruence.
  - intros E. destruct (exists_last (l := l2)) as (l' & l & El). { intros ->. cbn in R2. injection R2 as <-. discriminate. }
    rewrite El in R2. clear -R2 E C1. revert R2. generalize (set_main m Closed). intros m0 R2. apply run_snoc in R2 as (k & R2 & F).
    unfold fire in F. destruct l; fires F; try congruence; injection F as <-; cbn [set_main set_worker set_handler die main] in E; try congruence.
    cbn [set_main handlers]. match goal with X : forallb _ _ = true |- _ => rewrite forallb_forall in X; apply Forall_forall; auto end.
Qed.
Print Assumptions C60_shutdown_partial.

(** One call in the queue and one being computed at the signal; all finish and the server exits, in 9 moves. *)
Definition polite (n : nat) (q : list Z) : nat * res (list Z) := (S n, Ok q).
Definition closing : list label :=
  [LCompute; LGraceful; LDeliver; LTake 1; LReturn 0 (Answered [1%Z]); LCompute; LDeliver; LReturn 1 (Answered [2%Z]); LEnd; LExit].
Example C60_example :
  total polite /\ arrivals closing = [] /\
  exists m s, run polite [LArrive [1%Z]; LArrive [2%Z]; LSend 0; LSend 1; LTake 0] (initial 0) = Some m /\ crash m = None /\ main m = Serving /\
    (forall i h, nth_error (handlers m) i = Some h -> h_pc h <> Sending) /\
    run polite (LSignal :: closing) m = Some s /\ main s = Exited.
Proof.
  split; [intros s q; exact I|]. split; [reflexivity|].
  eexists _, _. split; [vm_compute; reflexivity|]. split; [reflexivity|]. split; [reflexivity|]. split.
  - intros [|[|i]] h E; cbn in E; try (injection E as <-; discriminate). destruct i; discriminate.
  - split; [vm_compute; reflexivity|reflexivity].
Qed.

(** C80, refuted: a call that finds the queue full has no move of its own, cancelled or not, ... *)
Theorem C80_cancelled_but_blocked_refuted :
  forall (St : Type) (srv : St -> list Z -> St * res (list Z)) (s : state St) i h,
  crash s = None -> main s = Serving -> nth_error (handlers s) i = Some h -> h_pc h = Sending -> queue_capacity <= length (queue s) ->
  fire srv (LSend i) s = None /\ forall o, fire srv (LReturn i o) s = None.
Proof. intros St srv s i h. exact (blocked srv (object s) i h s). Qed.
Print Assumptions C80_cancelled_but_blocked_refuted.

(** ... which happens: twelve calls while the first is being computed, then the twelfth is cancelled. *)
Definition crowded : list label :=
  map (fun k => LArrive [Z.of_nat k]) (seq 0 12) ++ [LSend 0; LTake 0] ++ map LSend (seq 1 10) ++ [LDone 11].
Example C80_refuted_example :
  exists s h, run counting_server crowded (initial 0) = Some s /\ crash s = None /\ main s = Serving /\
    nth_error (handlers s) 11 = Some h /\ h_pc h = Sending /\ h_done h = true /\ queue_capacity <= length (queue s).
Proof. eexists _, _. split; [vm_compute; reflexivity|]. repeat split; auto. Qed.

(** An abandoned query is still computed: nothing removes it from the queue. *)
Theorem C80_abandoned_still_computed_refuted :
  forall (St : Type) (srv : St -> list Z -> St * res (list Z)) (st : St) q, exists s,
  run srv [LArrive q; LSend 0; LDone 0; LReturn 0 Expired; LTake 0; LCompute] (initial st) = Some s /\ object s = fst (srv st q).
Proof. intros St srv st q. cbn. destruct (srv st q) as [st' [a|m|m|m]]; eexists; split; reflexivity. Qed.
Print Assumptions C80_abandoned_still_computed_refuted.

(** What holds: a cancelled call whose query has entered the queue can return at once, and one that finds room can do so in
    two moves. *)
Theorem C80_partial :
  forall (St : Type) (srv : St -> list Z -> St * res (list Z)) (s : state St) i h,
  crash s = None -> main s <> Exited -> nth_error (handlers s) i = Some h -> h_done h = true ->
  (h_pc h = Waiting -> fire srv (LReturn i Expired) s <> None) /\
  (h_pc h = Sending -> main s = Serving -> length (queue s) < queue_capacity -> run srv [LSend i; LReturn i Expired] s <> None).
Proof.
  intros St srv s i h C NX E D. split.
  - intros EP. unfold fire. rewrite C, E, EP, D. destruct (main s); congruence.
  - intros EP M L. cbn [run]. unfold fire at 1. rewrite C, M, E, EP. unfold closed. rewrite M.
    destruct (Nat.ltb_spec (length (queue s)) queue_capacity); [|lia].
    unfold fire. cbn [crash main handlers]. rewrite nth_error_upd_eq by (apply nth_error_Some; congruence).
    cbn [h_pc h_done]. rewrite D. discriminate.
Qed.
Print Assumptions C80_partial.

Example C80_example :
  exists s h, run counting_server [LArrive [1%Z]; LSend 0; LDone 0] (initial 0) = Some s /\ crash s = None /\ main s <> Exited /\
    nth_error (handlers s) 0 = Some h /\ h_done h = true /\ h_pc h = Waiting.
Proof. eexists _, _. split; [vm_compute; reflexivity|]. repeat split; auto. discriminate. Qed.
