(** C122 and C123: profiles of the servers, the command-line client and the benchmark. *)
From Coq Require Import String ZArith List Bool Arith Lia.
From Verif Require Import GoBase EncodingModel LifecycleModel LifecycleSpec LifecycleProofs ProfileModel ProfileSpec ProfileProofs.
Import ListNotations.
Open Scope Z_scope.

(** C122: with any flags the server behaves as without them (C118) until it is interrupted or killed: what a profiled process does
    is a history of a server, and every history of a server is one of a profiled process that is stopped by SIGTERM. *)
Theorem C122_same_server :
  forall e o,
    (forall hs p, runs e o hs p -> after e (all_seen hs) (p_server p)) /\
    (creatable o -> forall evs s, after e evs s -> exists p, runs e o (map by_sigterm evs) p /\ p_server p = s).
Proof.
  intros e o. split.
  - intros hs p H. apply runs_sound in H. exact (proj1 H).
  - intros Hc evs s H. unfold after in H.
    destruct (by_sigterm_history e o evs listening_server s false H eq_refl) as (en & Hh).
    exists (mkProc s false (start_files o) en). split; [|reflexivity]. exists (start_files o), (defers o). split; [apply creatable_listens; exact Hc|exact Hh].
Qed.
Print Assumptions C122_same_server.

(** C122: a server whose main function returns has written every profile it was asked for, and ends with status 0. *)
Theorem C122_clean_stop :
  forall e o hs p, runs e o hs p -> s_place (p_server p) = Exited -> o_mem_file o = Ok tt ->
    p_end p = Some (mkEnd 0 (mkFiles (if o_prof o then Complete else Absent) (if o_mprof o then Complete else Absent) false)).
Proof.
  intros e o hs p H Hx Hm. apply runs_sound in H. destruct H as (_ & Hc & _).
  inversion Hc as [Ha|Hp|m Hp|m Hp|m Hp|Ha|Ha Hpr]; try (rewrite Hx in *; discriminate).
  rewrite (deferred_ok o 0 Hm). reflexivity.
Qed.
Print Assumptions C122_clean_stop.

(** C122: whatever happens, status 0 means that the CPU profile is complete if it was asked for, and statuses 1 (a fatal error) and
    137 (killed) that it is not; there is no other status than these and 2 (a panic). *)
Theorem C122_status :
  forall e o hs p en, runs e o hs p -> p_end p = Some en -> o_mem_file o = Ok tt \/ (exists m, o_mem_file o = Err m) ->
    (e_status en = 0 /\ f_cpu (e_files en) = (if o_prof o then Complete else Absent)) \/
    ((e_status en = 1 \/ e_status en = 137) /\ f_cpu (e_files en) = (if o_prof o then Unfinished else Absent)) \/
    e_status en = 2.
Proof.
  intros e o hs p en H He Hm. apply runs_sound in H. destruct H as (_ & Hc & _). rewrite He in Hc.
  inversion Hc as [Ha|Hp|m Hp|m Hp|m Hp|Ha|Ha Hpr]; subst en.
  - destruct Hm as [Hm|[m Hm]].
    + rewrite (deferred_ok o 0 Hm). left. split; reflexivity.
    + destruct (o_mprof o) eqn:Mp.
      * rewrite (deferred_mem_fails o 0 m Mp Hm). right. left. split; [left|]; reflexivity.
      * left. unfold defers, start_files. rewrite Mp. destruct (o_prof o), (o_log o); split; reflexivity.
  - right. left. split; [left; reflexivity|]. reflexivity.
  - destruct Hm as [Hm|[m' Hm]].
    + rewrite (deferred_ok o 2 Hm). right. right. reflexivity.
    + destruct (o_mprof o) eqn:Mp.
      * rewrite (deferred_mem_fails o 2 m' Mp Hm). right. left. split; [left|]; reflexivity.
      * right. right. unfold defers, start_files. rewrite Mp. destruct (o_prof o), (o_log o); reflexivity.
  - right. right. reflexivity.
  - right. left. split; [right; reflexivity|]. reflexivity.
  - left. rewrite Hpr. split; reflexivity.
Qed.
Print Assumptions C122_status.

(** C122: without an interruption or a kill, the process ends exactly when its server does. *)
Theorem C122_no_shortcut :
  forall e o hs p, runs e o hs p -> ~ In Interrupt hs -> ~ In Kill hs ->
    (p_end p = None <-> alive (s_place (p_server p)) = true).
Proof.
  intros e o hs p H HI HK. split; [apply (runs_alive _ _ _ _ H)|].
  apply runs_inv in H.
  assert (G : forall more q, (p_caught q = false /\ (p_end q = None \/ alive (s_place (p_server q)) = false)) ->
    ~ In Interrupt more -> ~ In Kill more -> process_history e (o_prof o) (defers o) more q = Some p ->
    p_caught p = false /\ (p_end p = None \/ alive (s_place (p_server p)) = false)).
  { clear H HI HK. induction more as [|h t IH]; intros q Hq HI HK Hh; cbn [process_history] in Hh.
    - assert (p = q) by congruence. subst. exact Hq.
    - destruct (process_step e (o_prof o) (defers o) h q) as [q'|] eqn:E; [|discriminate].
      assert (Hc : forall ev, server_event e (defers o) ev (p_caught q) q = Some q' -> p_caught q' = false /\ (p_end q' = None \/ alive (s_place (p_server q')) = false)).
      { intros ev Hs. apply server_event_inv in Hs. destruct Hs as (s & Hs & ->). cbn [p_caught p_end p_server]. split; [exact (proj1 Hq)|].
        destruct (s_place s); cbn [ends alive]; [left; reflexivity..|right; reflexivity|right; reflexivity|right; reflexivity]. }
      apply (IH q'); [|intro X; apply HI; right; exact X|intro X; apply HK; right; exact X|exact Hh].
      unfold process_step in E. destruct (p_end q) as [en|] eqn:En; [discriminate|].
      destruct h as [ | | | |ev].
      + exfalso. apply HI. left. reflexivity.
      + apply (Hc Signal). exact E.
      + exfalso. apply HK. left. reflexivity.
      + rewrite (proj1 Hq) in E. discriminate.
      + destruct ev; try discriminate E; eapply Hc; exact E. }
  destruct (G hs (mkProc listening_server false (start_files o) None) (conj eq_refl (or_introl eq_refl)) HI HK H) as (_ & [Hn|Ha]); [auto|].
  intro X. rewrite X in Ha. discriminate.
Qed.
Print Assumptions C122_no_shortcut.

(** C122: a server with -prof that has been interrupted can always end at once, even where it would otherwise wait for ever (C118). *)
Theorem C122_interrupt_ends :
  forall e o hs p, runs e o hs p -> o_prof o = true -> In Interrupt hs -> p_end p = None ->
    exists p', runs e o (hs ++ [Profiler]) p' /\ p_end p' = Some (mkEnd 0 (mkFiles Complete Absent (o_log o))).
Proof.
  intros e o hs p H Hp HI En. pose proof (runs_files _ _ _ _ H En) as Hf.
  pose proof (runs_sound _ _ _ _ H) as (_ & _ & Hc). pose proof (proj2 Hc (conj Hp HI)) as Hcaught.
  eexists. split.
  - eapply runs_snoc; [exact H|]. unfold process_step. rewrite En, Hcaught, Hf. unfold start_files. rewrite Hp. reflexivity.
  - reflexivity.
Qed.
Print Assumptions C122_interrupt_ends.

(** C122, refuted part: with -prof an interruption need not be a clean stop. From every state of a running server, with any number
    of calls being answered, it can end at once with status 0: no call is answered, the service manager is not told, and no memory profile
    is written, although -mprof may have been given. *)
Theorem C122_interrupt_refuted :
  forall e o hs p, runs e o hs p -> p_end p = None -> o_prof o = true ->
    exists p', runs e o (hs ++ [Interrupt; Profiler]) p' /\
      p_end p' = Some (mkEnd 0 (mkFiles Complete Absent (o_log o))) /\
      open_calls (p_server p') = open_calls (p_server p) /\ s_told (p_server p') = s_told (p_server p).
Proof. exact interrupt_then_profiler. Qed.
Print Assumptions C122_interrupt_refuted.

(** C122: without -prof an interruption is a request to stop like SIGTERM: replacing one by the other changes nothing. *)
Theorem C122_interrupt_is_a_request :
  forall e o hs p, o_prof o = false ->
    (runs e o hs p <-> runs e o (map (fun h => match h with Interrupt => Terminate | _ => h end) hs) p).
Proof.
  intros e o hs p H. unfold runs. rewrite H.
  assert (G : forall ds l q, process_history e false ds (map (fun h => match h with Interrupt => Terminate | _ => h end) l) q = process_history e false ds l q).
  { intros ds. induction l as [|h t IH]; intro q; [reflexivity|]. cbn [map process_history].
    destruct h; try (destruct (process_step e false ds _ q); [apply IH|reflexivity]). }
  split; intros (f & ds & Hl & Hh); exists f, ds; (split; [exact Hl|]); [rewrite G|rewrite G in Hh]; exact Hh.
Qed.
Print Assumptions C122_interrupt_is_a_request.

(** C122, refuted part: when the memory profile cannot be created, a server that stopped cleanly ends with status 1 and without its CPU
    profile. *)
Theorem C122_memory_file_refuted :
  forall e o hs p m, runs e o hs p -> s_place (p_server p) = Exited -> o_mprof o = true -> o_mem_file o = Err m ->
    p_end p = Some (mkEnd 1 (mkFiles (if o_prof o then Unfinished else Absent) Absent false)).
Proof.
  intros e o hs p m H Hx Hm Hf. apply runs_sound in H. destruct H as (_ & Hc & _).
  inversion Hc as [Ha|Hp|m' Hp|m' Hp|m' Hp|Ha|Ha Hpr]; try (rewrite Hx in *; discriminate).
  rewrite (deferred_mem_fails o 0 m Hm Hf). reflexivity.
Qed.
Print Assumptions C122_memory_file_refuted.

(** C122, refuted part: a server that ends before it listens, because its configuration, its data or its address is refused, leaves an
    unfinished CPU profile and no memory profile; a panic there writes both. *)
Theorem C122_failed_start_refuted :
  forall o m, creatable o ->
    launch o (Err m) = Ended (mkEnd 1 (mkFiles (if o_prof o then Unfinished else Absent) Absent (o_log o))) /\
    launch o (Fatal m) = Ended (mkEnd 1 (mkFiles (if o_prof o then Unfinished else Absent) Absent (o_log o))) /\
    launch o (Panic m) = Ended (mkEnd 2 (mkFiles (if o_prof o then Complete else Absent) (if o_mprof o then Complete else Absent) false)).
Proof.
  intros o m (Hc & Hm & Hl). unfold launch. rewrite Hc, Hm, Hl. destruct (o_prof o), (o_mprof o), (o_log o); repeat split.
Qed.
Print Assumptions C122_failed_start_refuted.

(** C122: a profile or log file that cannot be created ends the server before it has loaded anything. *)
Theorem C122_unwritable :
  forall o load m,
    (o_prof o = true -> o_cpu_file o = Err m -> launch o load = Ended (mkEnd 1 no_files)) /\
    (o_prof o = true -> o_cpu_file o = Ok tt -> o_log o = true -> o_log_file o = Err m -> launch o load = Ended (mkEnd 1 (mkFiles Unfinished Absent false))) /\
    (o_prof o = false -> o_log o = true -> o_log_file o = Err m -> launch o load = Ended (mkEnd 1 no_files)).
Proof.
  intros o load m. unfold launch. split; [|split]; intros H; intros.
  - rewrite H, H0. reflexivity.
  - rewrite H, H0, H1, H2. reflexivity.
  - rewrite H, H0, H1. reflexivity.
Qed.
Print Assumptions C122_unwritable.

(** A server with all flags answers two calls and is stopped by SIGTERM: both profiles are written. The same server, interrupted. *)
Definition profiled_env : surroundings := mkSur (KeyServer true) "/run/notify" (fun _ _ => Ok tt) true.
Definition all_flags : options := mkOpt true true true (Ok tt) (Ok tt) (Ok tt).
Definition busy : list happening := map Other [Main false; Serve; Main false; Query; Enqueue; Info].
Example C122_example :
  creatable all_flags /\
  (exists p, runs profiled_env all_flags busy p /\ p_end p = None /\ open_calls (p_server p) = 2%nat) /\
  (exists p, runs profiled_env all_flags (busy ++ [Terminate; Other (Main false); Other (Main false); Other Finish; Other Finish;
                                                    Other (Main false); Other (Main false)]) p /\
             s_place (p_server p) = Exited /\ p_end p = Some (mkEnd 0 (mkFiles Complete Complete false))) /\
  (exists p, runs profiled_env all_flags (busy ++ [Interrupt; Profiler]) p /\ open_calls (p_server p) = 2%nat /\
             p_end p = Some (mkEnd 0 (mkFiles Complete Absent true))) /\
  (exists p, runs profiled_env all_flags (busy ++ [Interrupt; Other (Main false); Other (Main false)]) p /\ p_end p = None /\ s_place (p_server p) = Draining) /\
  (exists p, runs profiled_env all_flags (busy ++ [Kill]) p /\ p_end p = Some (mkEnd 137 (mkFiles Unfinished Absent true))) /\
  (exists p, runs profiled_env all_flags (busy ++ [Other Query; Terminate; Other (Main false); Other (Main false); Other Enqueue]) p /\
             p_end p = Some (mkEnd 2 (mkFiles Unfinished Absent true))).
Proof.
  split; [repeat split|].
  split; [|split; [|split; [|split; [|split]]]]; (eexists; split; [eexists; eexists; split; [reflexivity|vm_compute; reflexivity]|vm_compute; auto]).
Qed.

(** C123: the benchmark. A run that ends with status 0 has written its results and every profile it was asked for, and the CPU profile
    covers the experiments; a run that panics has its CPU profile. *)
Theorem C123_benchmark :
  forall cpu mem load run write,
    let p := simul_main cpu mem load run write in
    (snd p = 0 -> In WriteResults (fst p) /\ (cpu <> None -> profile_written (fst p) /\ In Experiment (recorded (fst p))) /\
                  (mem <> None -> In WriteMem (fst p))) /\
    (snd p = 2 -> cpu = Some (Ok tt) -> profile_written (fst p)).
Proof.
  intros cpu mem load run write. unfold simul_main.
  assert (W : forall (b c : list act) x, x = StartCpu :: b ++ StopCpu :: c -> ~ In CloseCpu b -> profile_written x)
    by (intros b c x -> Hn; exists [], b, c; split; [reflexivity|exact Hn]).
  destruct cpu as [[[]| | | ]|], load as [[]| | | ], run as [[]| | | ], write as [[]| | | ], mem as [[[]| | | ]|]; cbv zeta; cbn [fst snd app];
    (split; [intro H0; try discriminate H0|intros H0 H1; try discriminate H0; try discriminate H1]).
  all: try (split; [cbn; tauto|split; [intro N; try (exfalso; apply N; reflexivity)|intro N; try (exfalso; apply N; reflexivity); cbn; tauto]]).
  all: try (split; [|vm_compute; tauto]).
  all: try (apply (W [LoadConfig; Experiment; WriteResults; WriteMem; CloseMem] [CloseCpu]); [reflexivity|cbn; intuition discriminate]).
  all: try (apply (W [LoadConfig; Experiment; WriteResults] [CloseCpu]); [reflexivity|cbn; intuition discriminate]).
  all: try (apply (W [LoadConfig; Experiment] [CloseCpu]); [reflexivity|cbn; intuition discriminate]).
  all: try (apply (W [LoadConfig] [CloseCpu]); [reflexivity|cbn; intuition discriminate]).
Qed.
Print Assumptions C123_benchmark.

(** C123, refuted part: a fatal error loses the CPU profile, even when everything has been computed and the results written, and only
    the memory profile could not be created. *)
Theorem C123_benchmark_fatal_refuted :
  forall cpu mem load run write,
    let p := simul_main cpu mem load run write in
    (snd p = 1 -> ~ profile_written (fst p)) /\
    (forall m, cpu = Some (Ok tt) -> load = Ok tt -> run = Ok tt -> write = Ok tt -> mem = Some (Err m) ->
       snd p = 1 /\ In WriteResults (fst p) /\ In Experiment (recorded (fst p))).
Proof.
  intros cpu mem load run write p. split.
  - subst p. unfold simul_main. intro H. apply not_written. revert H.
    destruct cpu as [[[]| | | ]|], load as [[]| | | ], run as [[]| | | ], write as [[]| | | ], mem as [[[]| | | ]|]; cbn [fst snd app];
      intro H0; try discriminate H0; cbn [In]; intuition discriminate.
  - intros m -> -> -> -> ->. subst p. cbn. repeat split; tauto.
Qed.
Print Assumptions C123_benchmark_fatal_refuted.

(** C123: the command-line client ends with status 0, when nobody interrupts it, exactly if everything it did succeeded. *)
Theorem C123_client_status :
  forall prof create load connect lookup,
    snd (client_main prof create load connect lookup) = 0 <->
    (prof = true -> create = Ok tt) /\ load = Ok tt /\ connect = Ok tt /\ lookup = Ok tt.
Proof.
  intros prof create load connect lookup. unfold client_main, new_local_client.
  destruct prof, create as [[]| | | ], load as [[]| | | ], connect as [[]| | | ], lookup as [[]| | | ]; cbn [snd fst];
    (split; [intro H; try discriminate H; repeat split; try reflexivity; intro X; try discriminate X; reflexivity
            |intros (H1 & H2 & H3 & H4); try discriminate H2; try discriminate H3; try discriminate H4; try (specialize (H1 eq_refl); discriminate H1); reflexivity]).
Qed.
Print Assumptions C123_client_status.

(** C123, refuted part: the client's CPU profile covers only the reading of its configuration: never a connection or a lookup, whatever
    happens and whenever the client is interrupted. *)
Theorem C123_client_profile_refuted :
  forall prof create load connect lookup n,
    let p := client_main prof create load connect lookup in
    (forall a, In a (recorded (fst p)) -> a = LoadConfig) /\
    (forall a, In a (recorded (fst (interrupted n p))) -> a = LoadConfig) /\
    (prof = true -> create = Ok tt -> load = Ok tt -> profile_written (fst p) /\ recorded (fst p) = [LoadConfig]).
Proof.
  intros prof create load connect lookup n p. subst p. unfold client_main, new_local_client.
  destruct prof, create as [[]| | | ], load as [[]| | | ], connect as [[]| | | ], lookup as [[]| | | ]; cbn [snd fst app];
    (split; [cbn; intuition congruence|split;
      [destruct n as [|[|[|[|[|[|[|n]]]]]]]; cbn; intuition congruence
      |intros H1 H2 H3; try discriminate H1; try discriminate H2; try discriminate H3;
       (split; [exists [], [LoadConfig]; eexists; split; [reflexivity|cbn; intuition discriminate]|reflexivity])]]).
Qed.
Print Assumptions C123_client_profile_refuted.

(** C123, refuted part: with -prof an interrupted client reports success although nothing was looked up; without -prof the
    interruption is reported. *)
Theorem C123_interrupted_client_refuted :
  forall connect lookup,
    (exists n, let p := interrupted n (client_main true (Ok tt) (Ok tt) connect lookup) in snd p = 0 /\ ~ In Lookup (fst p)) /\
    (forall load n, let q := client_main false (Ok tt) load connect lookup in
       (n < length (fst q))%nat -> snd (interrupted n q) = 130).
Proof.
  intros connect lookup. split.
  - exists 3%nat. unfold client_main, new_local_client.
    destruct connect as [[]| | | ], lookup as [[]| | | ]; cbn; split; try reflexivity; intuition discriminate.
  - intros load n q. subst q. unfold client_main, new_local_client.
    destruct load as [[]| | | ], connect as [[]| | | ], lookup as [[]| | | ]; cbn [fst snd app length]; intro H;
      (destruct n as [|[|[|[|n]]]]; try (exfalso; lia); reflexivity).
Qed.
Print Assumptions C123_interrupted_client_refuted.

(** C123, refuted part: the client closes its connections only when the lookup panics, not when it succeeds or fails. *)
Theorem C123_connections_left_open_refuted :
  forall prof create load connect lookup,
    In CloseConnections (fst (client_main prof create load connect lookup)) <->
    (prof = true -> create = Ok tt) /\ load = Ok tt /\ connect = Ok tt /\ exists m, lookup = Panic m.
Proof.
  intros prof create load connect lookup. unfold client_main, new_local_client.
  destruct prof, create as [[]| | | ], load as [[]| | | ], connect as [[]| | | ], lookup as [[]| | | ]; cbn [snd fst app In];
    (split; [intro H; try (exfalso; intuition discriminate); repeat split; try reflexivity; try (intro X; discriminate X); try (eexists; reflexivity)
            |intros (H1 & H2 & H3 & m' & H4); try discriminate H2; try discriminate H3; try discriminate H4; try (specialize (H1 eq_refl); discriminate H1); tauto]).
Qed.
Print Assumptions C123_connections_left_open_refuted.

Example C123_example :
  simul_main (Some (Ok tt)) (Some (Ok tt)) (Ok tt) (Ok tt) (Ok tt) =
    ([StartCpu; LoadConfig; Experiment; WriteResults; WriteMem; CloseMem; StopCpu; CloseCpu], 0) /\
  simul_main (Some (Ok tt)) None (Ok tt) (Fatal "unknown primitive type") (Ok tt) = ([StartCpu; LoadConfig; Experiment], 1) /\
  client_main true (Ok tt) (Ok tt) (Ok tt) (Ok tt) = ([StartCpu; LoadConfig; StopCpu; Connect; Lookup], 0) /\
  client_main true (Ok tt) (Err "no configuration") (Ok tt) (Ok tt) = ([StartCpu; LoadConfig], 1) /\
  client_main false (Ok tt) (Ok tt) (Ok tt) (Err "no answer") = ([LoadConfig; Connect; Lookup], 1) /\
  interrupted 4 (client_main true (Ok tt) (Ok tt) (Ok tt) (Ok tt)) = ([StartCpu; LoadConfig; StopCpu; Connect; StopCpu], 0) /\
  interrupted 2 (client_main false (Ok tt) (Ok tt) (Ok tt) (Ok tt)) = ([LoadConfig; Connect], 130).
Proof. repeat split. Qed.
