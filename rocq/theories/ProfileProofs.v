(** Proofs about profiling. *)
From Coq Require Import String ZArith List Bool Arith Lia.
From Verif Require Import GoBase EncodingModel LifecycleModel LifecycleSpec LifecycleProofs ProfileModel ProfileSpec.
Import ListNotations.
Open Scope Z_scope.

Lemma process_history_app e b ds x y p :
  process_history e b ds (x ++ y) p = match process_history e b ds x p with Some q => process_history e b ds y q | None => None end.
Proof. revert p. induction x as [|h t IH]; intro p; cbn [app process_history]; [reflexivity|]. destruct (process_step e b ds h p); auto. Qed.

(** The flags with which a server listens, its files and deferred functions. *)
Definition start_files (o : options) : files := mkFiles (if o_prof o then Unfinished else Absent) Absent (o_log o).
Definition defers (o : options) : list (files -> res files) :=
  (if o_log o then [close_log] else []) ++ (if o_mprof o then [write_mem_profile (o_mem_file o)] else []) ++ (if o_prof o then [stop_profiling] else []).

Lemma launch_listens o f ds : launch o (Ok tt) = Listens f ds -> f = start_files o /\ ds = defers o.
Proof.
  unfold launch, start_files, defers. destruct o as [pr mp lg cf mf lf]; cbn [o_prof o_mprof o_log o_cpu_file o_mem_file o_log_file].
  destruct pr; [destruct cf; cbn [start_profiling]; try discriminate|]; destruct lg; [destruct lf; try discriminate| |destruct lf; try discriminate|];
    destruct mp; intro H; injection H as <- <-; split; reflexivity.
Qed.
Lemma creatable_listens o : creatable o -> launch o (Ok tt) = Listens (start_files o) (defers o).
Proof.
  intros (Hc & Hm & Hl). unfold launch. rewrite Hc, Hl. unfold start_files, defers.
  destruct (o_prof o), (o_log o), (o_mprof o); reflexivity.
Qed.

Lemma runs_inv e o hs p : runs e o hs p -> process_history e (o_prof o) (defers o) hs (mkProc listening_server false (start_files o) None) = Some p.
Proof. intros (f & ds & Hl & Hh). apply launch_listens in Hl. destruct Hl as [-> ->]. exact Hh. Qed.
Lemma runs_snoc e o hs h p p' : runs e o hs p -> process_step e (o_prof o) (defers o) h p = Some p' -> runs e o (hs ++ [h]) p'.
Proof.
  intros (f & ds & Hl & Hh) Hs. destruct (launch_listens _ _ _ Hl) as [-> ->].
  exists (start_files o), (defers o). split; [exact Hl|]. rewrite process_history_app, Hh. cbn [process_history]. rewrite Hs. reflexivity.
Qed.

(** The invariant of a process: its server is in a state of [LifecycleModel], and the end of the process is described by its cause. *)
Inductive cause (o : options) (s : server_state) : files -> option ending -> Prop :=
| Lives : alive (s_place s) = true -> cause o s (start_files o) None
| Main_returned : s_place s = Exited -> cause o s (start_files o) (Some (run_deferred (defers o) 0 (start_files o)))
| Main_fatal m : s_place s = Dead m -> cause o s (start_files o) (Some (mkEnd 1 (start_files o)))
| Main_panics m : s_place s = Crashed m -> cause o s (start_files o) (Some (run_deferred (defers o) 2 (start_files o)))
| Handler_panics m : s_place s = Crashed m -> cause o s (start_files o) (Some (mkEnd 2 (start_files o)))
| Was_killed : alive (s_place s) = true -> cause o s (start_files o) (Some (mkEnd 137 (start_files o)))
| Was_interrupted : alive (s_place s) = true -> o_prof o = true ->
    cause o s (mkFiles Complete Absent (o_log o)) (Some (mkEnd 0 (mkFiles Complete Absent (o_log o)))).

Lemma server_event_inv e ds ev c p p' : server_event e ds ev c p = Some p' ->
  exists s, step e ev (p_server p) = Some s /\
    p' = mkProc s c (p_files p) (ends ds (match ev with Main _ => true | _ => false end) (s_place s) (p_files p)).
Proof. unfold server_event. destruct (step e ev (p_server p)) as [s|]; [|discriminate]. intro H. exists s. split; congruence. Qed.

Lemma ends_cause o b s : cause o s (start_files o) (ends (defers o) b (s_place s) (start_files o)).
Proof.
  destruct (s_place s) eqn:E; cbn [ends]; try (apply Lives; rewrite E; reflexivity).
  - apply Main_returned. exact E.
  - eapply Main_fatal. exact E.
  - destruct b; [eapply Main_panics|eapply Handler_panics]; exact E.
Qed.

Definition sound (e : surroundings) (o : options) (hs : list happening) (p : process) : Prop :=
  history e (all_seen hs) listening_server = Some (p_server p) /\ cause o (p_server p) (p_files p) (p_end p) /\
  (p_caught p = true <-> o_prof o = true /\ In Interrupt hs).

Lemma all_seen_snoc hs h : all_seen (hs ++ [h]) = all_seen hs ++ seen h.
Proof. unfold all_seen. rewrite flat_map_app. cbn [flat_map]. rewrite app_nil_r. reflexivity. Qed.
Lemma history_one e ev s s' : step e ev s = Some s' -> history e [ev] s = Some s'.
Proof. intro H. cbn [history]. rewrite H. reflexivity. Qed.

Lemma sound_step e o hs h p p' : sound e o hs p -> process_step e (o_prof o) (defers o) h p = Some p' -> sound e o (hs ++ [h]) p'.
Proof.
  intros (Hh & Hc & Hi) Hs. unfold process_step in Hs.
  destruct (p_end p) as [en|] eqn:En; [discriminate|].
  assert (Hf : p_files p = start_files o /\ alive (s_place (p_server p)) = true) by (inversion Hc; split; congruence).
  destruct Hf as [Hf Ha].
  assert (Hev : forall ev c, seen h = [ev] -> (c = true <-> o_prof o = true /\ In Interrupt (hs ++ [h])) ->
    server_event e (defers o) ev c p = Some p' -> sound e o (hs ++ [h]) p').
  { intros ev c Hseen Hcaught Hse. apply server_event_inv in Hse. destruct Hse as (s & Hst & ->). rewrite Hf.
    split; [|split]; cbn [p_server p_files p_end p_caught].
    - rewrite all_seen_snoc, Hseen, history_app, Hh. apply history_one. exact Hst.
    - apply ends_cause.
    - exact Hcaught. }
  assert (Hin : h <> Interrupt -> (p_caught p = true <-> o_prof o = true /\ In Interrupt (hs ++ [h]))).
  { intro Hn. rewrite Hi, in_app_iff. cbn [In]. intuition congruence. }
  destruct h as [ | | | |ev].
  - apply (Hev Signal (o_prof o || p_caught p)); [reflexivity| |exact Hs].
    rewrite orb_true_iff, Hi, in_app_iff. cbn [In]. destruct (o_prof o); intuition congruence.
  - apply (Hev Signal (p_caught p)); [reflexivity|apply Hin; discriminate|exact Hs].
  - assert (Hp : p' = mkProc (p_server p) (p_caught p) (p_files p) (Some (mkEnd 137 (p_files p)))) by congruence. subst p'.
    split; [|split]; cbn [p_server p_files p_end p_caught].
    + rewrite all_seen_snoc. cbn [seen]. rewrite app_nil_r. exact Hh.
    + rewrite Hf. apply Was_killed. exact Ha.
    + apply Hin. discriminate.
  - destruct (p_caught p) eqn:Cg; [|discriminate].
    destruct (proj1 Hi eq_refl) as [Hpr HI].
    cbn [stop_profiling] in Hs. rewrite Hf in Hs. unfold start_files in Hs. rewrite Hpr in Hs. cbn [f_cpu f_mem f_log] in Hs.
    match type of Hs with Some ?q = _ => assert (Hp : p' = q) by congruence end. subst p'.
    split; [|split]; cbn [p_server p_files p_end p_caught].
    + rewrite all_seen_snoc. cbn [seen]. rewrite app_nil_r. exact Hh.
    + apply Was_interrupted; assumption.
    + apply Hin. discriminate.
  - destruct ev; try discriminate Hs;
      (eapply (Hev _ (p_caught p)); [reflexivity|apply Hin; discriminate|exact Hs]).
Qed.

Lemma sound_history e o : forall more hs p p', sound e o hs p -> process_history e (o_prof o) (defers o) more p = Some p' -> sound e o (hs ++ more) p'.
Proof.
  induction more as [|h t IH]; intros hs p p' Hs Hh; cbn [process_history] in Hh.
  - rewrite app_nil_r. assert (p' = p) by congruence. subst. exact Hs.
  - destruct (process_step e (o_prof o) (defers o) h p) as [q|] eqn:E; [|discriminate].
    replace (hs ++ h :: t) with ((hs ++ [h]) ++ t) by (rewrite <- app_assoc; reflexivity).
    eapply IH; [eapply sound_step; eassumption|exact Hh].
Qed.

Theorem runs_sound e o hs p : runs e o hs p -> sound e o hs p.
Proof.
  intro H. apply runs_inv in H. change hs with ([] ++ hs). eapply sound_history; [|exact H].
  split; [reflexivity|split].
  - apply Lives. reflexivity.
  - cbn. intuition discriminate.
Qed.

(** What the deferred functions leave. *)
Lemma deferred_ok o st : o_mem_file o = Ok tt ->
  run_deferred (defers o) st (start_files o) =
  mkEnd st (mkFiles (if o_prof o then Complete else Absent) (if o_mprof o then Complete else Absent) false).
Proof. intro H. unfold defers, start_files. rewrite H. destruct (o_prof o), (o_mprof o), (o_log o); reflexivity. Qed.
Lemma deferred_mem_fails o st m : o_mprof o = true -> o_mem_file o = Err m ->
  run_deferred (defers o) st (start_files o) = mkEnd 1 (mkFiles (if o_prof o then Unfinished else Absent) Absent false).
Proof. intros Hm H. unfold defers, start_files. rewrite H, Hm. destruct (o_prof o), (o_log o); reflexivity. Qed.

(** The histories of the server are histories of the process. *)
Lemma by_sigterm_step e o ev s s' : alive (s_place s) = true -> step e ev s = Some s' -> forall c,
  process_step e (o_prof o) (defers o) (by_sigterm ev) (mkProc s c (start_files o) None) =
  Some (mkProc s' c (start_files o) (ends (defers o) (match ev with Main _ => true | _ => false end) (s_place s') (start_files o))).
Proof.
  intros Ha Hs c. unfold process_step, by_sigterm, server_event.
  destruct ev; cbn [p_end p_server p_files p_caught]; rewrite Hs; reflexivity.
Qed.

Lemma by_sigterm_history e o : forall evs s s' c, history e evs s = Some s' -> alive (s_place s) = true ->
  exists en, process_history e (o_prof o) (defers o) (map by_sigterm evs) (mkProc s c (start_files o) None) = Some (mkProc s' c (start_files o) en).
Proof.
  induction evs as [|ev t IH]; intros s s' c Hh Ha; cbn [history] in Hh.
  - assert (s' = s) by congruence. subst. exists None. reflexivity.
  - destruct (step e ev s) as [s1|] eqn:E; [|discriminate]. cbn [map process_history].
    rewrite (by_sigterm_step e o ev s s1 Ha E c).
    destruct (alive (s_place s1)) eqn:A1.
    + assert (En : ends (defers o) match ev with Main _ => true | _ => false end (s_place s1) (start_files o) = None)
        by (destruct (s_place s1); [reflexivity..|discriminate|discriminate|discriminate]).
      rewrite En. apply IH; assumption.
    + destruct t as [|ev2 t]; cbn [history] in Hh.
      * assert (s' = s1) by congruence. subst. eexists. reflexivity.
      * unfold step in Hh. rewrite A1 in Hh. discriminate.
Qed.

Lemma runs_alive e o hs p : runs e o hs p -> p_end p = None -> alive (s_place (p_server p)) = true.
Proof. intros H En. apply runs_sound in H. destruct H as (_ & Hc & _). rewrite En in Hc. inversion Hc; auto. Qed.
Lemma runs_files e o hs p : runs e o hs p -> p_end p = None -> p_files p = start_files o.
Proof. intros H En. apply runs_sound in H. destruct H as (_ & Hc & _). rewrite En in Hc. inversion Hc; auto. Qed.

Lemma signal_step e s : alive (s_place s) = true -> exists s', step e Signal s = Some s' /\ s_place s' = s_place s /\
  open_calls s' = open_calls s /\ s_told s' = s_told s.
Proof. intro H. unfold step. rewrite H. destruct s; cbn in *. eexists. repeat split. Qed.

Lemma interrupt_then_profiler e o hs p : runs e o hs p -> p_end p = None -> o_prof o = true ->
  exists p', runs e o (hs ++ [Interrupt; Profiler]) p' /\
    p_end p' = Some (mkEnd 0 (mkFiles Complete Absent (o_log o))) /\
    open_calls (p_server p') = open_calls (p_server p) /\ s_told (p_server p') = s_told (p_server p).
Proof.
  intros H En Hp. pose proof (runs_alive _ _ _ _ H En) as Ha. pose proof (runs_files _ _ _ _ H En) as Hf.
  destruct (signal_step e _ Ha) as (s' & Hs & Hpl & Ho & Ht).
  assert (E1 : process_step e (o_prof o) (defers o) Interrupt p = Some (mkProc s' true (start_files o) None)).
  { unfold process_step, server_event. rewrite En, Hs, Hf, Hp. cbn [orb]. f_equal. f_equal. rewrite Hpl.
    destruct (s_place (p_server p)); [reflexivity..|discriminate|discriminate|discriminate]. }
  assert (E2 : process_step e (o_prof o) (defers o) Profiler (mkProc s' true (start_files o) None) =
               Some (mkProc s' true (mkFiles Complete Absent (o_log o)) (Some (mkEnd 0 (mkFiles Complete Absent (o_log o)))))).
  { unfold process_step, start_files. rewrite Hp. reflexivity. }
  eexists. split.
  - replace (hs ++ [Interrupt; Profiler]) with ((hs ++ [Interrupt]) ++ [Profiler]) by (rewrite <- app_assoc; reflexivity).
    eapply runs_snoc; [eapply runs_snoc; [exact H|exact E1]|exact E2].
  - cbn [p_end p_server]. auto.
Qed.

(** Programs *)
Lemma while_profiling_none acts : (forall a, In a acts -> a <> StartCpu) -> while_profiling false acts = [].
Proof.
  induction acts as [|a t IH]; intro H; [reflexivity|].
  assert (Ha : a <> StartCpu) by (apply H; left; reflexivity).
  assert (Ht : while_profiling false t = []) by (apply IH; intros b Hb; apply H; right; exact Hb).
  destruct a; cbn [while_profiling]; congruence.
Qed.

Lemma not_written acts : ~ In StopCpu acts -> ~ profile_written acts.
Proof. intros H (a & b & c & -> & _). apply H. rewrite in_app_iff. right. right. rewrite in_app_iff. right. left. reflexivity. Qed.
