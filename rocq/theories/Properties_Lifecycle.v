(** C118-C119: the life of a server process. *)
From Coq Require Import String ZArith List Bool Lia Arith.
From Verif Require Import GoBase EncodingModel LifecycleModel LifecycleSpec LifecycleProofs.
Import ListNotations.
Open Scope Z_scope.
Open Scope go_scope.

(** ** C118: the key server and its service manager *)

(** In every history the service manager is told at most that the server is ready and then that it is stopping, each once; and
    without service manager nothing is sent. *)
Theorem C118_notifications :
  forall e evs s, after e evs s ->
  (s_told s = [] \/ s_told s = ["READY=1"%string] \/ s_told s = ["READY=1"%string; "STOPPING=1"%string]) /\
  (unmanaged e \/ e_kind e = BenchServer -> s_told s = []).
Proof.
  intros e evs s A. destruct (told_cases e evs s A) as [T|[(W & R & T)|(W & R & S & P & T)]]; rewrite T; (split; [unfold sd_ready, sd_stopping; auto|]); auto;
    (intros [U|K]; [unfold heard, sd_notify in R; rewrite U in R; discriminate R|rewrite K in W; discriminate W]).
Qed.
Print Assumptions C118_notifications.

(** It is told that the server is ready while the server listens (unless accepting connections has already failed, which ends
    the process next), ... *)
Theorem C118_ready_when_listening :
  forall e evs s ev s', after e evs s -> step e ev s = Some s' -> s_told s' = s_told s ++ ["READY=1"%string] ->
  (s_listening s = true \/ s_err s <> None) /\ s_place s' = Waiting.
Proof.
  intros e evs s ev s' A E T. pose proof (after_invariant _ _ _ A) as I.
  destruct s as [p sig err en wo li se ht bl qc told].
  assert (NN : forall x : string, told <> told ++ [x]).
  { intros x X. apply (f_equal (@length string)) in X. rewrite app_length in X. cbn in X. lia. }
  unfold step in E. destruct (alive _) eqn:AL; [|discriminate]. cbn [s_place s_told s_listening s_err] in *.
  destruct ev.
  1-9: exfalso; repeat match type of E with context [match ?x with _ => _ end] => destruct x; try discriminate end; injection E as <-; cbn [s_told] in T; exact (NN _ T).
  destruct p; cbn [main_step] in E; try discriminate.
  - exfalso. injection E as <-. cbn [s_told] in T. exact (NN _ T).
  - destruct (sd_notify _ _ sd_ready) as [[]|m|m|m]; injection E as <-; cbn [s_told] in T; try (exfalso; exact (NN _ T)). split; auto.
    cbn [invariant] in I. destruct I as (_ & _ & IL & _). destruct li; auto.
  - exfalso. repeat match type of E with context [match ?x with _ => _ end] => destruct x; try discriminate end; injection E as <-; cbn [s_told] in T; exact (NN _ T).
  - exfalso. injection E as <-. cbn [s_told] in T. exact (NN _ T).
  - exfalso. destruct (_ && _)%bool; [|discriminate]. destruct (e_kind e); injection E as <-; cbn [s_told] in T; exact (NN _ T).
  - exfalso. destruct (bl =? 0)%nat; [|discriminate]. injection E as <-. cbn [s_told] in T. exact (NN _ T).
  - exfalso. destruct (sd_notify _ _ sd_stopping) as [[]|m|m|m]; injection E as <-; cbn [s_told] in T; try exact (NN _ T).
    apply app_inv_head in T. discriminate.
Qed.
Print Assumptions C118_ready_when_listening.

(** ... and that it is stopping only after everything is over: somebody asked for it, the server does not listen any more and all
    calls have ended. The name of the message promises the beginning of the shutdown, so this refutes that reading. *)
Theorem C118_stopping_told_at_the_end_refuted :
  forall e evs s, after e evs s -> In "STOPPING=1"%string (s_told s) ->
  s_place s = Exited /\ open_calls s = 0%nat /\ s_listening s = false /\ asked_to_stop evs.
Proof.
  intros e evs s A I. destruct (told_cases e evs s A) as [T|[(W & R & T)|(W & R & S & P & T)]]; rewrite T in I.
  - destruct I.
  - destruct I as [X|[]]. discriminate X.
  - pose proof (after_invariant _ _ _ A) as J. assert (Q : requested s) by (unfold requested; auto).
    destruct (after_requested e evs s A Q) as [X|[X _]]; (split; [exact P|]); destruct s as [p sig err en wo li se ht bl qc told]; cbn [s_place] in P; subst p;
      cbn [invariant] in J; destruct J as (_ & _ & _ & _ & -> & -> & -> & _); unfold open_calls, asked_to_stop; cbn; auto.
Qed.
Print Assumptions C118_stopping_told_at_the_end_refuted.

(** A key server that listens gets to the point where it waits for requests to stop, with a service manager that can be reached,
    which is told so, or without one. *)
Theorem C118_starts :
  forall e x evs s, e_kind e = KeyServer x -> notifies e \/ unmanaged e -> after e evs s -> s_place s = Starting ->
  exists s', history e [Main false; Main false] s = Some s' /\ s_place s' = Waiting /\ s_listening s' = s_listening s /\
    open_calls s' = open_calls s /\ (notifies e -> s_told s' = ["READY=1"%string]) /\ (unmanaged e -> s_told s' = []).
Proof.
  intros e x evs s K N A P. pose proof (told_cases e evs s A) as T. destruct s as [p sig err en wo li se ht bl qc told]. cbn [s_place s_told s_listening] in *. subst p.
  assert (T0 : told = []).
  { pose proof (after_invariant _ _ _ A) as I. cbn [invariant] in I. intuition. }
  subst told. cbn [history step alive s_place main_step]. rewrite K. cbn [history step alive s_place main_step].
  destruct N as [(_ & NS & SE)|U].
  - unfold sd_notify. destruct (String.eqb_spec (e_socket e) ""); [contradiction|]. rewrite SE. cbn [bind]. eexists. split; [reflexivity|].
    cbn [s_place s_listening s_told open_calls s_entering s_working]. repeat split; auto. intros U. exfalso. apply NS. exact U.
  - unfold sd_notify. rewrite U. change (String.eqb "" "") with true. cbv iota. eexists. split; [reflexivity|].
    cbn [s_place s_listening s_told open_calls s_entering s_working]. repeat split; auto. intros (_ & NS & _). exfalso. apply NS. exact U.
Qed.
Print Assumptions C118_starts.

(** A process that exits normally was asked to, by a signal or, in experiments, by HTTP; it has answered all the calls it accepted,
    and a service manager that can be reached has been told both. *)
Theorem C118_clean_exit :
  forall e evs s, after e evs s -> s_place s = Exited ->
  open_calls s = 0%nat /\ s_listening s = false /\
  (In Signal evs \/ (In Http evs /\ e_kind e <> KeyServer false)) /\
  (notifies e -> s_told s = ["READY=1"%string; "STOPPING=1"%string]).
Proof.
  intros e evs s A P. pose proof (after_invariant _ _ _ A) as J. assert (Q : requested s) by (unfold requested; auto).
  pose proof (after_requested e evs s A Q) as R. destruct s as [p sig err en wo li se ht bl qc told]. cbn [s_place] in P. subst p.
  cbn [invariant] in J. destruct J as (_ & _ & _ & _ & -> & -> & -> & T). unfold open_calls. cbn [s_entering s_working s_listening s_told].
  split; [reflexivity|]. split; [reflexivity|]. split.
  - destruct R as [R|[R S]]; auto. right. split; auto. intros K. rewrite K in S. discriminate.
  - intros ((x & K) & NS & SN). rewrite K in T. cbn [has_worker] in T. rewrite (T eq_refl). unfold heard, sd_notify.
    destruct (String.eqb_spec (e_socket e) ""); [contradiction|]. rewrite !SN. reflexivity.
Qed.
Print Assumptions C118_clean_exit.

(** A request to stop is honoured once the calls have ended, provided none of them was still on its way into the queue. *)
Theorem C118_stops :
  forall e x s, e_kind e = KeyServer x -> notifies e \/ unmanaged e ->
  s_place s = Waiting -> s_sig s = true -> s_err s = None -> s_entering s = 0%nat ->
  exists s', history e ([Main false; Main false] ++ repeat Finish (s_working s) ++ [Main false; Main false]) s = Some s' /\ s_place s' = Exited.
Proof.
  intros e x s K N P S E EN. destruct s as [p sig err en wo li se ht bl qc told]. cbn [s_place s_sig s_err s_entering s_working] in *. subst p sig err en.
  rewrite history_app. cbn [history step alive s_place main_step]. rewrite K. cbn [has_worker].
  assert (F : forall n se', history e (repeat Finish n ++ [Main false; Main false]) (mkState Draining false None 0 n false se' ht bl true told) =
              history e [Main false; Main false] (mkState Draining false None 0 0 false se' ht bl true told)).
  { induction n as [|n IH]; intros se'; [reflexivity|]. cbn [repeat app history step alive s_place]. apply IH. }
  rewrite F. cbn [history step alive s_place main_step Nat.eqb andb]. rewrite K. cbn [history step alive s_place main_step].
  destruct N as [(_ & NS & SN)|U]; unfold sd_notify.
  - destruct (String.eqb_spec (e_socket e) ""); [contradiction|]. rewrite SN. cbn [bind]. eexists. split; reflexivity.
  - rewrite U. cbn [String.eqb]. eexists. split; reflexivity.
Qed.
Print Assumptions C118_stops.

(** Refuted: a request to stop that comes while a call is on its way into the queue crashes the process, and a process that crashes
    or dies never tells that it stops. *)
Theorem C118_crash_refuted :
  forall e x evs s, e_kind e = KeyServer x -> after e evs s ->
  s_place s = Waiting -> s_sig s = true -> s_err s = None -> s_entering s <> 0%nat ->
  exists s', history e [Main false; Enqueue] s = Some s' /\ s_place s' = Crashed "send on closed channel".
Proof.
  intros e x evs s K A P S E EN. destruct s as [p sig err en wo li se ht bl qc told]. cbn [s_place s_sig s_err s_entering s_working] in *. subst p sig err.
  cbn [history step alive s_place main_step]. rewrite K. cbn [has_worker]. destruct en as [|en]; [contradiction|]. eexists. split; reflexivity.
Qed.
Print Assumptions C118_crash_refuted.

(** ... and even one that comes while the server is idle does, when a call arrives right after it. *)
Theorem C118_late_call_refuted :
  forall e x evs s, e_kind e = KeyServer x -> after e evs s ->
  s_place s = Waiting -> s_sig s = true -> s_err s = None -> s_serving s = Accepting ->
  exists s', history e [Main false; Query; Enqueue] s = Some s' /\ s_place s' = Crashed "send on closed channel".
Proof.
  intros e x evs s K A P S E SE. destruct s as [p sig err en wo li se ht bl qc told]. cbn [s_place s_sig s_err s_serving] in *. subst p sig err se.
  cbn [history step alive s_place main_step takes_calls]. rewrite K. cbn [has_worker]. eexists. split; reflexivity.
Qed.
Print Assumptions C118_late_call_refuted.

Theorem C118_silent_death_refuted :
  forall e evs s m, after e evs s -> s_place s = Dead m \/ s_place s = Crashed m -> ~ In "STOPPING=1"%string (s_told s).
Proof.
  intros e evs s m A D I. destruct (C118_stopping_told_at_the_end_refuted e evs s A I) as (P & _). rewrite P in D. destruct D; discriminate.
Qed.
Print Assumptions C118_silent_death_refuted.

(** Refuted: a call that does not end keeps the process alive against any number of signals: they have no effect any more. *)
Theorem C118_unstoppable_refuted :
  forall e more s s', s_place s = Draining -> s_working s <> 0%nat -> s_entering s = 0%nat ->
  history e more s = Some s' -> ~ In Finish more -> s_place s' = Draining /\ s_told s' = s_told s.
Proof.
  intros e. induction more as [|ev more IH]; intros s s' P W EN E NF; cbn [history] in E; [injection E as <-; auto|].
  destruct (step e ev s) as [t|] eqn:ES; [|discriminate]. cbn [In] in NF.
  assert (C : s_place t = Draining /\ s_working t <> 0%nat /\ s_entering t = 0%nat /\ s_told t = s_told s).
  { clear IH E. destruct s as [p sig err en wo li se ht bl qc told]. cbn [s_place s_working s_entering s_told] in *. subst p en.
    unfold step in ES. cbn [s_place alive] in ES. destruct ev; try (exfalso; apply NF; auto; fail).
    - injection ES as <-. auto.
    - destruct ht; [|discriminate]. destruct sig; injection ES as <-; auto.
    - destruct bl; [discriminate|]. destruct sig; [discriminate|]. injection ES as <-; auto.
    - destruct se; try discriminate. destruct li; injection ES as <-; auto.
    - destruct se; try discriminate. injection ES as <-; auto.
    - destruct se; discriminate.
    - destruct se; discriminate.
    - discriminate.
    - cbn [main_step Nat.eqb andb] in ES. destruct wo; [contradiction|]. discriminate. }
  destruct C as (P' & W' & EN' & T). destruct (IH t s' P' W' EN' E ltac:(tauto)) as [X Y]. split; congruence.
Qed.
Print Assumptions C118_unstoppable_refuted.

(** Refuted: a service manager that cannot be reached (the error of the notification is meant to be ignored) kills the server
    before it ever waits for a signal. *)
Theorem C118_notification_failure_kills_refuted :
  forall e x m evs s, e_kind e = KeyServer x -> e_socket e <> ""%string -> e_send e (e_socket e) "READY=1" = Err m -> after e evs s ->
  s_place s = Starting \/ s_place s = Telling \/ s_place s = Dead ("failed to sdnotify: " ++ m).
Proof.
  intros e x m evs. induction evs as [|ev evs IH] using rev_ind; intros s K NS SE A.
  - unfold after in A. cbn in A. injection A as <-. auto.
  - apply after_snoc in A as (t & A & E). specialize (IH t K NS SE A). pose proof (after_invariant _ _ _ A) as I.
    destruct t as [p sig err en wo li se ht bl qc told]. unfold step in E. cbn [s_place] in *.
    destruct IH as [Q|[Q|Q]]; subst p; cbn [alive] in E; try discriminate.
    + cbn [invariant] in I. destruct I as (_ & _ & _ & _ & _ & -> & _).
      destruct ev; cbn [main_step] in E; rewrite ?K in E; try (left; repeat match type of E with context [match ?x with _ => _ end] => destruct x; try discriminate end; injection E as <-; reflexivity).
      right. left. injection E as <-. reflexivity.
    + cbn [invariant] in I. destruct I as (_ & _ & _ & _ & _ & ->).
      destruct ev; cbn [main_step] in E; try (right; left; repeat match type of E with context [match ?x with _ => _ end] => destruct x; try discriminate end; injection E as <-; reflexivity).
      unfold sd_notify in E. destruct (String.eqb_spec (e_socket e) ""); [contradiction|]. change sd_ready with "READY=1"%string in E. rewrite SE in E.
      cbn [bind] in E. injection E as <-. right. right. reflexivity.
Qed.
Print Assumptions C118_notification_failure_kills_refuted.

(** Refuted: in experiments anybody who can reach port 8080 stops the server with one HTTP request, whatever it asks for. *)
Theorem C118_http_stops_refuted :
  forall e evs s, e_kind e = KeyServer true -> notifies e \/ unmanaged e -> after e evs s ->
  s_place s = Waiting -> s_http s = true -> s_err s = None -> s_sig s = false -> open_calls s = 0%nat ->
  exists s', history e [Http; Main false; Main false; Main false; Main false] s = Some s' /\ s_place s' = Exited.
Proof.
  intros e evs s K N A P HT E SG OC. destruct s as [p sig err en wo li se ht bl qc told]. unfold open_calls in OC. cbn [s_place s_sig s_err s_entering s_working s_http] in *.
  assert (en = 0%nat /\ wo = 0%nat) as [-> ->] by lia. subst p sig err ht.
  change (history e (Http :: ?l) ?s0) with (match step e Http s0 with Some s' => history e l s' | None => None end).
  set (s1 := mkState Waiting true None 0 0 li se true bl qc told).
  change (step e Http _) with (Some s1).
  destruct (C118_stops e true s1 K N eq_refl eq_refl eq_refl eq_refl) as (s' & H & X). exists s'. split; auto.
Qed.
Print Assumptions C118_http_stops_refuted.

(** A key server under a service manager that can be reached, in an experiment: it is told to be ready, answers a query, and
    stops after a signal; with a query on its way it crashes instead. The hypotheses of the theorems are met on the way. *)
Definition managed : surroundings := mkSur (KeyServer true) "/run/notify" (fun _ _ => Ok tt) true.
Definition unreachable : surroundings := mkSur (KeyServer false) "/run/notify" (fun _ _ => Err "connection refused") true.
Definition started : list event := [Main false; Serve; Main false; Query; Enqueue; Info].
Example C118_example :
  notifies managed /\
  (exists s, after managed (started ++ [Signal]) s /\ s_place s = Waiting /\ s_sig s = true /\ s_working s = 2%nat /\ s_entering s = 0%nat /\
             s_told s = ["READY=1"%string] /\ s_http s = true /\ s_serving s = Accepting) /\
  (exists s, after managed (started ++ [Signal; Main false; Main false; Finish; Signal]) s /\ s_place s = Draining /\ s_working s = 1%nat /\ s_entering s = 0%nat /\
             s_told s = ["READY=1"%string]) /\
  (exists s, after managed (started ++ [Signal; Main false; Main false; Finish; Finish; Main false; Main false]) s /\ s_place s = Exited /\
             s_told s = ["READY=1"%string; "STOPPING=1"%string]) /\
  (exists s, after managed (started ++ [Query; Signal; Main false; Enqueue]) s /\ s_place s = Crashed "send on closed channel") /\
  (exists s, after managed (started ++ [Finish; Finish]) s /\ open_calls s = 0%nat /\ s_sig s = false /\ s_place s = Waiting /\ s_http s = true /\ s_err s = None) /\
  (exists s, after managed [Main false; Main false; Serve; ServeFails "accept: too many open files"; Main false] s /\
             s_place s = Dead "failed to serve: accept: too many open files" /\ s_told s = ["READY=1"%string]) /\
  (exists s, after unreachable [Main false; Main false] s /\ s_place s = Dead "failed to sdnotify: connection refused").
Proof.
  split. { unfold notifies, managed. cbn. split; [eauto|]. split; [discriminate|]. intros; reflexivity. }
  unfold after. repeat split; try (vm_compute; eexists; repeat split; reflexivity).
Qed.

(** ** C119: stopping the benchmark server *)

(** It exits only when asked to, with all calls answered. *)
Theorem C119_clean_exit :
  forall e evs s, e_kind e = BenchServer -> after e evs s -> s_place s = Exited ->
  open_calls s = 0%nat /\ s_listening s = false /\ asked_to_stop evs /\ s_told s = [].
Proof.
  intros e evs s K A P. destruct (C118_clean_exit e evs s A P) as (O & L & R & _).
  split; auto. split; auto. split. { destruct R as [R|[R _]]; [left|right]; auto. }
  destruct (C118_notifications e evs s A) as [_ N]. apply N. auto.
Qed.
Print Assumptions C119_clean_exit.

(** Having taken a request to stop, it exits once its calls have ended, if at most one more request has come meanwhile. *)
Theorem C119_stops :
  forall e evs s, e_kind e = BenchServer -> after e evs s -> s_place s = Draining -> (unread_requests s <= 1)%nat ->
  exists more s', history e more s = Some s' /\ s_place s' = Exited /\ ~ In Signal more /\ ~ In Http more.
Proof.
  intros e evs s K A P U. pose proof (after_invariant _ _ _ A) as I.
  destruct s as [p sig err en wo li se ht bl qc told]. unfold unread_requests in U. cbn [s_place s_sig s_blocked] in *. subst p.
  cbn [invariant] in I. destruct I as (_ & IK & _ & _ & _ & -> & _). rewrite K in IK. destruct (IK eq_refl) as (-> & -> & -> & _).
  assert (F : forall n l, history e (repeat Finish n ++ l) (mkState Draining sig err 0 n false se ht bl false []) =
              history e l (mkState Draining sig err 0 0 false se ht bl false [])).
  { induction n as [|n IH]; intros l; [reflexivity|]. cbn [repeat app history step alive s_place]. apply IH. }
  assert (NI : forall n (ev : event), In ev (repeat Finish n) -> ev = Finish) by (intros n ev X; apply repeat_spec in X; auto).
  destruct bl as [|[|bl]]; [| |lia].
  - exists (repeat Finish wo ++ [Main false; Main false]). rewrite F. cbn [history step alive s_place main_step Nat.eqb andb]. rewrite K.
    cbn [history step alive s_place main_step Nat.eqb]. eexists. split; [reflexivity|]. split; [reflexivity|].
    split; intros X; apply in_app_or in X as [X|X]; try (apply NI in X; discriminate); cbn [In] in X; intuition discriminate.
  - destruct sig; [lia|].
    exists (repeat Finish wo ++ [Main false; Unblock; Main false]). rewrite F. cbn [history step alive s_place main_step Nat.eqb andb]. rewrite K.
    cbn [history step alive s_place main_step Nat.eqb]. eexists. split; [reflexivity|]. split; [reflexivity|].
    split; intros X; apply in_app_or in X as [X|X]; try (apply NI in X; discriminate); cbn [In] in X; intuition discriminate.
Qed.
Print Assumptions C119_stops.

(** Refuted: with two more requests it hangs for ever, whatever happens: the HTTP handlers wait for somebody to take the requests,
    and the shutdown of the HTTP server waits for the handlers. *)
Theorem C119_three_requests_hang_refuted :
  forall e more s s', e_kind e = BenchServer -> stopping (s_place s) -> s_place s <> Leaving -> (2 <= unread_requests s)%nat ->
  history e more s = Some s' -> s_place s' <> Exited.
Proof.
  intros e more s s' K ST NL U E.
  assert (INV : forall more s, (s_place s = Closing \/ s_place s = Draining \/ s_place s = Shutting \/ exists m, s_place s = Crashed m) -> (2 <= unread_requests s)%nat ->
    history e more s = Some s' -> s_place s' <> Exited).
  { clear - K. induction more as [|ev more IH]; intros s P U E; cbn [history] in E.
    - injection E as <-. intros X. rewrite X in P. destruct P as [P|[P|[P|(m & P)]]]; discriminate.
    - destruct (step e ev s) as [t|] eqn:ES; [|discriminate]. apply (IH t); auto; clear IH E;
        unfold step in ES; destruct (alive (s_place s)) eqn:AL; try discriminate;
        destruct s as [p sig err en wo li se ht bl qc told]; unfold unread_requests in *; cbn [s_place s_sig s_blocked] in *; destruct ev.
      1-9: repeat match type of ES with context [match ?x with _ => _ end] => destruct x; try discriminate end; injection ES as <-; cbn [s_place s_sig s_blocked]; eauto 6.
      2-10: repeat match type of ES with context [match ?x with _ => _ end] => destruct x; try discriminate end; injection ES as <-; cbn [s_place s_sig s_blocked]; try (destruct sig); lia.
      + destruct P as [Q|[Q|[Q|(m & Q)]]]; subst p; cbn [main_step] in ES; try discriminate.
        * injection ES as <-. auto.
        * destruct (_ && _)%bool; [|discriminate]. rewrite K in ES. injection ES as <-. auto.
        * destruct bl as [|bl]; [destruct sig; lia|]. discriminate.
      + destruct P as [Q|[Q|[Q|(m & Q)]]]; subst p; cbn [main_step] in ES; try discriminate.
        * injection ES as <-. exact U.
        * destruct (_ && _)%bool; [|discriminate]. rewrite K in ES. injection ES as <-. exact U.
        * destruct bl as [|bl]; [destruct sig; lia|]. discriminate. }
  apply (INV more s); auto. unfold stopping in ST. intuition.
Qed.
Print Assumptions C119_three_requests_hang_refuted.

(** ... which three HTTP requests bring about. *)
Theorem C119_three_requests_refuted :
  forall e evs s, e_kind e = BenchServer -> after e evs s -> s_place s = Waiting -> s_http s = true -> s_err s = None ->
  exists t, history e [Http; Http; Http; Main false] s = Some t /\
  forall more s', history e more t = Some s' -> s_place s' <> Exited.
Proof.
  intros e evs s K A P HT E. destruct s as [p sig err en wo li se ht bl qc told]. cbn [s_place s_http s_err s_sig s_blocked] in *. subst p ht err.
  destruct sig; cbn [history step alive s_place main_step]; eexists; (split; [reflexivity|]); intros more s' X.
  - eapply C119_three_requests_hang_refuted; [exact K| | | |exact X]; unfold stopping, unread_requests; cbn; auto; try discriminate; lia.
  - eapply C119_three_requests_hang_refuted; [exact K| | | |exact X]; unfold stopping, unread_requests; cbn; auto; try discriminate; lia.
Qed.
Print Assumptions C119_three_requests_refuted.

(** The benchmark server with two requests to stop and a call that ends, and with three requests. *)
Definition bench : surroundings := mkSur BenchServer "" (fun _ _ => Ok tt) true.
Example C119_example :
  (exists s, after bench [Main false; Serve; Query] s /\ s_place s = Waiting /\ s_http s = true /\ s_err s = None /\ s_sig s = false) /\
  (exists s, after bench [Main false; Serve; Query; Http; Http; Main false; Main false] s /\ s_place s = Draining /\ unread_requests s = 1%nat /\ s_working s = 1%nat) /\
  (exists s, after bench [Main false; Serve; Query; Http; Http; Main false; Main false; Finish; Main false; Unblock; Main false] s /\ s_place s = Exited) /\
  (exists s, after bench [Main false; Serve; Http; Http; Http; Main false; Main false] s /\ s_place s = Draining /\ unread_requests s = 2%nat /\ stopping (s_place s)).
Proof. unfold after. repeat split; vm_compute; eexists; repeat split; auto. Qed.
