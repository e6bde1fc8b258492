(** Proofs about the life of a server process. *)
From Coq Require Import String ZArith List Bool Lia Arith.
From Verif Require Import GoBase EncodingModel LifecycleModel LifecycleSpec.
Import ListNotations.
Open Scope Z_scope.
Open Scope go_scope.

Lemma history_app e a b s : history e (a ++ b) s = match history e a s with Some s' => history e b s' | None => None end.
Proof. revert s. induction a as [|ev a IH]; intros s; cbn [app history]; auto. destruct (step e ev s); auto. Qed.

Definition heard (e : surroundings) (m : string) : bool := match sd_notify (e_socket e) (e_send e) m with Ok b => b | _ => false end.

(** what holds in every state *)
Definition invariant (e : surroundings) (s : server_state) : Prop :=
  let '(mkState p sig err en wo li se ht bl qc told) := s in
  (ht = true -> serves_http (e_kind e) = true) /\
  (has_worker (e_kind e) = false -> told = [] /\ en = 0%nat /\ qc = false /\ p <> Telling /\ p <> Leaving) /\
  (li = false -> (p = Starting \/ p = Telling \/ p = Waiting \/ p = Closing) -> err <> None) /\
  (bl <> 0%nat -> serves_http (e_kind e) = true) /\
  match p with
  | Starting => told = [] /\ qc = false /\ ht = false
  | Telling => told = [] /\ qc = false
  | Waiting => qc = false /\ (has_worker (e_kind e) = true -> told = if heard e sd_ready then [sd_ready] else [])
  | Closing => qc = has_worker (e_kind e) /\ (has_worker (e_kind e) = true -> told = if heard e sd_ready then [sd_ready] else [])
  | Draining => qc = has_worker (e_kind e) /\ li = false /\ (has_worker (e_kind e) = true -> told = if heard e sd_ready then [sd_ready] else [])
  | Shutting => en = 0%nat /\ wo = 0%nat /\ li = false /\ has_worker (e_kind e) = false
  | Leaving => en = 0%nat /\ wo = 0%nat /\ li = false /\ told = if heard e sd_ready then [sd_ready] else []
  | Exited => en = 0%nat /\ wo = 0%nat /\ li = false /\ (has_worker (e_kind e) = true ->
      told = (if heard e sd_ready then [sd_ready] else []) ++ (if heard e sd_stopping then [sd_stopping] else []))
  | Dead _ | Crashed _ => told = [] \/ (heard e sd_ready = true /\ told = [sd_ready])
  end.

Lemma invariant_init e : invariant e listening_server.
Proof. cbn. intuition (try discriminate). Qed.

Lemma heard_inv e m b : sd_notify (e_socket e) (e_send e) m = Ok b -> heard e m = b.
Proof. unfold heard. intros ->. reflexivity. Qed.
Lemma heard_err e m r : sd_notify (e_socket e) (e_send e) m = r -> (forall b, r <> Ok b) -> heard e m = false.
Proof. unfold heard. intros ->. destruct r; auto. intros N. destruct (N a eq_refl). Qed.

Ltac crush := repeat match goal with
  | H : Some _ = Some _ |- _ => injection H as <-
  | H : None = Some _ |- _ => discriminate H
  end.

Ltac fin := cbn [invariant app]; intuition (try congruence; try discriminate; try lia).

Lemma invariant_main e b s s' : invariant e s -> main_step e b s = Some s' -> invariant e s'.
Proof.
  destruct s as [p sig err en wo li se ht bl qc told]. intros I E.
  destruct p; cbn [main_step] in E; try discriminate.
  - injection E as <-. destruct I as (IH & IK & IL & IB & -> & -> & ->).
    destruct (e_kind e) as [x|] eqn:EK; cbn [invariant]; rewrite EK in *; cbn [serves_http has_worker] in *.
    + assert ((x && e_http e)%bool = true -> x = true) by (destruct x; auto). fin.
    + fin.
  - destruct I as (IH & IK & IL & IB & -> & ->).
    destruct (sd_notify _ _ sd_ready) as [[]|m|m|m] eqn:EN; injection E as <-;
      [pose proof (heard_inv _ _ _ EN) as HH|pose proof (heard_inv _ _ _ EN) as HH| | |]; try (rewrite HH); cbn [invariant]; try rewrite HH;
      destruct (has_worker (e_kind e)); fin.
  - destruct I as (IH & IK & IL & IB & -> & T).
    assert (D : forall m, invariant e (mkState (Dead m) sig err en wo li se ht bl false told)).
    { intros m. cbn [invariant]. destruct (has_worker (e_kind e)); destruct (heard e sd_ready); fin. }
    assert (C : invariant e (mkState Closing false err en wo li se ht bl (has_worker (e_kind e)) told)).
    { cbn [invariant]. destruct (has_worker (e_kind e)); fin. }
    destruct err as [m|], sig; try discriminate; [destruct b| |]; injection E as <-; auto.
  - injection E as <-. cbn [invariant] in *. fin.
  - destruct ((en =? 0)%nat && (wo =? 0)%nat)%bool eqn:Z; [|discriminate]. apply andb_true_iff in Z as [Z1 Z2]. apply Nat.eqb_eq in Z1, Z2.
    destruct (e_kind e) as [x|] eqn:EK; injection E as <-; cbn [invariant] in *; rewrite EK in *; cbn [has_worker serves_http] in *; fin.
  - destruct (bl =? 0)%nat; [|discriminate]. injection E as <-. cbn [invariant] in *. fin.
  - cbn [invariant] in I. destruct I as (IH & IK & IL & IB & -> & -> & -> & ->).
    destruct (sd_notify _ _ sd_stopping) as [[]|m|m|m] eqn:EN; injection E as <-; cbn [invariant];
      [pose proof (heard_inv _ _ _ EN) as HH|pose proof (heard_inv _ _ _ EN) as HH| | |];
      try (pose proof (heard_err _ _ _ EN ltac:(intros; discriminate)) as HH); try rewrite HH; destruct (heard e sd_ready); cbn [app]; fin.
Qed.

Lemma invariant_step e ev s s' : invariant e s -> step e ev s = Some s' -> invariant e s'.
Proof.
  intros I E. unfold step in E. destruct (alive (s_place s)) eqn:A; [|discriminate].
  destruct s as [p sig err en wo li se ht bl qc told]. cbn [s_place] in A. destruct ev.
  - injection E as <-. exact I.
  - destruct ht; [|discriminate]. destruct sig; injection E as <-; auto. destruct p; cbn [invariant] in *; fin.
  - destruct bl as [|bl]; [discriminate|]. destruct sig; [discriminate|]. injection E as <-. destruct p; cbn [invariant] in *; fin.
  - destruct se; try discriminate. destruct li; injection E as <-; destruct p; cbn [invariant] in *; fin.
  - destruct se; try discriminate. injection E as <-; destruct p; cbn [invariant] in *; fin.
  - destruct (takes_calls p se) eqn:T; [|discriminate]. injection E as <-. destruct se, p; try discriminate T; exact I.
  - destruct (takes_calls p se) eqn:T; [|discriminate]. destruct (has_worker (e_kind e)) eqn:W; injection E as <-; destruct se, p; try discriminate T; cbn [invariant] in *; rewrite W in *; fin.
  - destruct en as [|n]; [discriminate|]. destruct qc.
    + injection E as <-. destruct p; try discriminate A; cbn [invariant] in *; destruct (has_worker (e_kind e)); destruct (heard e sd_ready); fin.
    + injection E as <-. destruct p; try discriminate A; cbn [invariant] in *; destruct (has_worker (e_kind e)); fin.
  - destruct wo as [|n]; [discriminate|]. injection E as <-. destruct p; try discriminate A; cbn [invariant] in *; fin.
  - eapply invariant_main; eauto.
Qed.

Lemma invariant_history e : forall evs s s', invariant e s -> history e evs s = Some s' -> invariant e s'.
Proof.
  induction evs as [|ev evs IH]; intros s s' I E; cbn [history] in E; [injection E as <-; auto|].
  destruct (step e ev s) as [t|] eqn:ES; [|discriminate]. eapply IH; [|exact E]. eapply invariant_step; eauto.
Qed.
Lemma after_invariant e evs s : after e evs s -> invariant e s.
Proof. intros A. eapply invariant_history; [apply invariant_init|exact A]. Qed.

(** the first notification did not fail *)
Definition told_ready (e : surroundings) (s : server_state) : Prop :=
  match s_place s with
  | Waiting | Closing | Draining | Shutting | Leaving | Exited =>
    has_worker (e_kind e) = true -> exists b, sd_notify (e_socket e) (e_send e) sd_ready = Ok b
  | _ => True
  end.
Lemma told_ready_step e ev s s' : told_ready e s -> step e ev s = Some s' -> told_ready e s'.
Proof.
  intros I E. unfold step in E. destruct (alive (s_place s)) eqn:A; [|discriminate].
  destruct s as [p sig err en wo li se ht bl qc told]. unfold told_ready in *. cbn [s_place] in *. destruct ev.
  1-9: repeat match type of E with context [match ?x with _ => _ end] => destruct x; try discriminate end; injection E as <-; cbn [s_place]; auto.
  destruct p; cbn [main_step] in E; try discriminate.
  - injection E as <-. cbn [s_place]. destruct (e_kind e); auto. discriminate.
  - destruct (sd_notify _ _ sd_ready) as [[]|m|m|m]; injection E as <-; cbn [s_place]; eauto.
  - repeat match type of E with context [match ?x with _ => _ end] => destruct x; try discriminate end; injection E as <-; cbn [s_place]; auto.
  - injection E as <-. auto.
  - destruct (_ && _)%bool; [|discriminate]. destruct (e_kind e); injection E as <-; auto.
  - destruct (bl =? 0)%nat; [|discriminate]. injection E as <-. auto.
  - destruct (sd_notify _ _ sd_stopping) as [[]|m|m|m]; injection E as <-; cbn [s_place]; auto.
Qed.
Lemma after_told_ready e evs s : after e evs s -> told_ready e s.
Proof.
  unfold after. assert (X : told_ready e listening_server) by exact I. revert X. generalize listening_server. revert s.
  induction evs as [|ev evs IH]; intros s t X E; cbn [history] in E; [injection E as <-; auto|].
  destruct (step e ev t) as [u|] eqn:ES; [|discriminate]. eapply IH; [|exact E]. eapply told_ready_step; eauto.
Qed.
Lemma after_snoc e evs ev s : after e (evs ++ [ev]) s -> exists t, after e evs t /\ step e ev t = Some s.
Proof.
  unfold after. rewrite history_app. destruct (history e evs listening_server) as [t|]; [|discriminate]. cbn [history].
  destruct (step e ev t) as [u|] eqn:E; [|discriminate]. intros X. injection X as <-. exists t. auto.
Qed.
Lemma after_more e evs more s s' : after e evs s -> history e more s = Some s' -> after e (evs ++ more) s'.
Proof. unfold after. intros A E. rewrite history_app, A. exact E. Qed.

(** nothing stops by itself *)
Definition requested (s : server_state) : Prop :=
  s_sig s = true \/ s_blocked s <> 0%nat \/ stopping (s_place s) \/ s_place s = Exited.
Lemma after_requested e : forall evs s, after e evs s -> requested s -> In Signal evs \/ (In Http evs /\ serves_http (e_kind e) = true).
Proof.
  induction evs as [|ev evs IH] using rev_ind; intros s A R.
  - unfold after in A. cbn in A. injection A as <-. unfold requested, stopping in R. cbn in R. intuition congruence.
  - apply after_snoc in A as (t & A & E). pose proof (after_invariant _ _ _ A) as I.
    assert (C : requested t \/ ev = Signal \/ (ev = Http /\ serves_http (e_kind e) = true)).
    { clear IH A. unfold step in E. destruct (alive (s_place t)) eqn:AL; [|discriminate].
      destruct t as [p sig err en wo li se ht bl qc told]. cbn [s_place] in AL. unfold requested, stopping in *. cbn [s_sig s_blocked s_place] in *.
      destruct ev; auto.
      { destruct ht; [|discriminate]. right. right. split; auto. cbn [invariant] in I. tauto. }
      { destruct bl as [|bl]; [discriminate|]. left. auto. }
      { left. destruct se; try discriminate. destruct li; injection E as <-; exact R. }
      { left. destruct se; try discriminate. injection E as <-; exact R. }
      { left. destruct (takes_calls p se); [|discriminate]. injection E as <-; exact R. }
      { left. destruct (takes_calls p se); [|discriminate]. destruct (has_worker (e_kind e)); injection E as <-; exact R. }
      { left. destruct en; [discriminate|]. destruct qc; injection E as <-; cbn [s_sig s_blocked s_place] in R; intuition congruence. }
      { left. destruct wo; [discriminate|]. injection E as <-; exact R. }
      clear I. destruct p; cbn [main_step] in E; try discriminate.
      - injection E as <-. cbn [s_sig s_blocked s_place] in R. left. revert R. destruct (e_kind e); intuition congruence.
      - destruct (sd_notify _ _ sd_ready) as [[]|m|m|m]; injection E as <-; cbn [s_sig s_blocked s_place] in R; left; clear - R; intuition (try discriminate).
      - left. destruct sig; auto. destruct err; [|discriminate]. injection E as <-. cbn [s_sig s_blocked s_place] in R. clear - R. intuition (try discriminate).
      - left. tauto.
      - left. tauto.
      - left. tauto.
      - left. tauto. }
    rewrite !in_app_iff. cbn [In]. destruct C as [C|[->|[-> S]]]; auto. destruct (IH t A C) as [|[]]; auto.
Qed.

Lemma heard_stopping e b : sd_notify (e_socket e) (e_send e) sd_ready = Ok b -> heard e sd_ready = false -> heard e sd_stopping = false.
Proof.
  intros E F. unfold heard in *. rewrite E in F. subst b. unfold sd_notify in *. destruct (String.eqb (e_socket e) "") eqn:S; auto.
  destruct (e_send e (e_socket e) sd_ready); discriminate.
Qed.
Lemma told_cases e evs s : after e evs s ->
  s_told s = [] \/ (has_worker (e_kind e) = true /\ heard e sd_ready = true /\ s_told s = [sd_ready]) \/
  (has_worker (e_kind e) = true /\ heard e sd_ready = true /\ heard e sd_stopping = true /\ s_place s = Exited /\ s_told s = [sd_ready; sd_stopping]).
Proof.
  intros A. pose proof (after_invariant _ _ _ A) as I. pose proof (after_told_ready _ _ _ A) as T.
  destruct s as [p sig err en wo li se ht bl qc told]. unfold told_ready in T. cbn [s_place s_told] in *.
  cbn [invariant] in I. destruct I as (_ & IK & _ & _ & IP).
  destruct (has_worker (e_kind e)) eqn:W; [|left; tauto].
  destruct p; try (left; tauto); try (destruct (heard e sd_ready); intuition congruence).
  - destruct IP as (_ & _ & _ & X). specialize (X eq_refl). destruct (T eq_refl) as (b & E).
    destruct (heard e sd_ready) eqn:HR; [|rewrite (heard_stopping e b E HR) in X; auto].
    destruct (heard e sd_stopping); cbn [app] in X; auto. right. right. auto.
Qed.
