(** Invariant of the query server over all schedules. *)
From Coq Require Import String ZArith List Bool Lia Permutation.
From Verif Require Import GoBase BaseFacts RPCModel RPCSpec.
Import ListNotations.
Open Scope nat_scope.

Lemma arrivals_app a b : arrivals (a ++ b) = arrivals a ++ arrivals b.
Proof. induction a as [|l a IH]; cbn [app arrivals]; auto. destruct l; cbn [app]; congruence. Qed.
Lemma accepted_app a b : accepted (a ++ b) = accepted a ++ accepted b.
Proof. induction a as [|l a IH]; cbn [app accepted]; auto. destruct l; cbn [app]; congruence. Qed.
Lemma taken_app a b : taken (a ++ b) = taken a ++ taken b.
Proof. induction a as [|l a IH]; cbn [app taken]; auto. destruct l; cbn [app]; congruence. Qed.
Lemma returns_app a b : returns (a ++ b) = returns a ++ returns b.
Proof. induction a as [|l a IH]; cbn [app returns]; auto. destruct l; cbn [app]; congruence. Qed.

Lemma nth_error_upd {A} (l : list A) i j v h :
  nth_error (upd l i v) j = Some h -> (j = i /\ h = v) \/ (j <> i /\ nth_error l j = Some h).
Proof.
  intros E. destruct (Nat.eq_dec j i) as [->|N].
  - left. split; auto. assert (L : i < length l) by (rewrite <- (upd_length l i v); apply nth_error_Some; congruence).
    rewrite nth_error_upd_eq in E by auto. congruence.
  - right. split; auto. rewrite nth_error_upd_neq in E by auto. auto.
Qed.

Lemma NoDup_snoc {A} (l : list A) x : NoDup l -> ~ In x l -> NoDup (l ++ [x]).
Proof. intros H N. apply (Permutation_NoDup (Permutation_cons_append l x)). constructor; auto. Qed.

Lemma split_snoc {A} (f : list A) x b i a : f ++ [x] = b ++ i :: a -> (f = b /\ x = i /\ a = []) \/ (exists a', a = a' ++ [x] /\ f = b ++ i :: a').
Proof.
  intros E. destruct (exists_last (l := i :: a)) as (a' & y & Ea); [discriminate|].
  destruct a' as [|i' a'].
  - cbn [app] in Ea. injection Ea as <- ->. apply app_inj_tail in E as [E1 E2]. auto.
  - cbn [app] in Ea. injection Ea as <- ->. right. exists a'.
    rewrite app_comm_cons, app_assoc in E. apply app_inj_tail in E as [E1 E2]. subst. auto.
Qed.

Section Inv.
Context {St : Type} (srv : St -> list Z -> St * res (list Z)) (st0 : St).

Definition qof (ls : list label) (i : nat) : list Z := nth i (arrivals ls) [].
Definition qs (ls : list label) (l : list nat) : list (list Z) := map (qof ls) l.
Definition result (ls : list label) (b : list nat) (i : nat) : res (list Z) := snd (srv (after srv st0 (qs ls b)) (qof ls i)).

Definition slots (r : res (list Z)) (h : handler) : Prop :=
  match r with
  | Ok a => h_answer h = Some a /\ h_error h = None
  | Err m => h_answer h = None /\ h_error h = Some m
  | _ => False
  end.

(** the calls the worker has finished with *)
Definition work (ls : list label) (s : state St) (fin : list nat) : Prop :=
  match worker s with
  | Ranging | Ended => taken ls = fin /\ object s = after srv st0 (qs ls fin)
  | Computing i => taken ls = fin ++ [i] /\ object s = after srv st0 (qs ls fin)
  | Delivering i r =>
    taken ls = fin ++ [i] /\ object s = after srv st0 (qs ls (fin ++ [i])) /\
    result ls fin i = match r with inl a => Ok a | inr m => Err m end
  end.
Definition fresh_handlers (s : state St) (fin : list nat) : Prop :=
  forall i h, nth_error (handlers s) i = Some h -> ~ In i fin ->
    h_answer h = None /\ h_error h = None /\ (forall o, h_pc h = Returned o -> o = Expired).
Definition finished (ls : list label) (s : state St) (fin : list nat) : Prop :=
  forall b i a h, fin = b ++ i :: a -> nth_error (handlers s) i = Some h ->
    (h_pc h = Waiting -> slots (result ls b i) h) /\ (forall o, h_pc h = Returned o -> reports (result ls b i) o).

Record inv (ls : list label) (s : state St) : Prop := mkInv {
  I_len : length (handlers s) = length (arrivals ls);
  I_query : forall i h, nth_error (handlers s) i = Some h -> h_query h = qof ls i;
  I_acc : accepted ls = taken ls ++ queue s;
  I_nodup : NoDup (accepted ls);
  I_pc : forall i h, nth_error (handlers s) i = Some h -> (In i (accepted ls) <-> h_pc h <> Sending);
  I_lt : forall i, In i (accepted ls) -> i < length (handlers s);
  I_ret : forall i o, In (i, o) (returns ls) <-> exists h, nth_error (handlers s) i = Some h /\ h_pc h = Returned o;
  I_retnd : NoDup (map fst (returns ls));
  I_cap : length (queue s) <= queue_capacity;
  I_end : worker s = Ended -> queue s = [] /\ closed s = true;
  I_work : exists fin, work ls s fin /\ fresh_handlers s fin /\ finished ls s fin
}.

Lemma inv_initial : inv [] (initial st0).
Proof.
  constructor; cbn [initial handlers queue worker main crash object accepted taken returns arrivals app map length]; auto; try (constructor; fail).
  - intros [|i] h E; discriminate.
  - intros [|i] h E; discriminate.
  - intros i [].
  - intros i o. split; [intros []|]. intros (h & E & _). destruct i; discriminate.
  - unfold queue_capacity. lia.
  - discriminate.
  - exists []. split; [|split].
    + unfold work. cbn. auto.
    + intros i h E. destruct i; discriminate.
    + intros b i a h E. destruct b; discriminate.
Qed.

(** labels that add neither an arrival nor a take leave queries and results unchanged *)
Lemma qs_snoc ls l fin : (forall q, l <> LArrive q) -> qs (ls ++ [l]) fin = qs ls fin.
Proof.
  intros N. unfold qs, qof. apply map_ext. intros i. rewrite arrivals_app.
  destruct l; cbn [arrivals]; rewrite ?app_nil_r; auto. exfalso. eapply N; eauto.
Qed.
Lemma qof_snoc ls l i : (forall q, l <> LArrive q) -> qof (ls ++ [l]) i = qof ls i.
Proof. intros N. pose proof (qs_snoc ls l [i] N) as E. cbn [qs map] in E. congruence. Qed.
Lemma result_snoc ls l b i : (forall q, l <> LArrive q) -> result (ls ++ [l]) b i = result ls b i.
Proof. intros N. unfold result. rewrite qs_snoc, qof_snoc by auto. reflexivity. Qed.

Lemma qof_arrive ls q i : i < length (arrivals ls) -> qof (ls ++ [LArrive q]) i = qof ls i.
Proof. intros L. unfold qof. rewrite arrivals_app. cbn [arrivals]. rewrite app_nth1; auto. Qed.
Lemma qs_arrive ls q fin : (forall i, In i fin -> i < length (arrivals ls)) -> qs (ls ++ [LArrive q]) fin = qs ls fin.
Proof. intros L. unfold qs. apply map_ext_in. intros i I. apply qof_arrive. auto. Qed.
Lemma result_arrive ls q b i : (forall j, In j (b ++ [i]) -> j < length (arrivals ls)) -> result (ls ++ [LArrive q]) b i = result ls b i.
Proof.
  intros L. unfold result. rewrite qs_arrive, qof_arrive; auto.
  - apply L. apply in_or_app. right. left. auto.
  - intros j I. apply L. apply in_or_app. auto.
Qed.

Lemma fin_taken ls s fin : work ls s fin -> forall i, In i fin -> In i (taken ls).
Proof.
  unfold work. intros W i I. destruct (worker s); destruct W as [-> _]; try (apply in_or_app; auto); auto.
Qed.

Lemma after_snoc st l q : after srv st (l ++ [q]) = fst (srv (after srv st l) q).
Proof. unfold after. rewrite fold_left_app. reflexivity. Qed.

(** a step that changes one handler and nothing of the worker's *)
Lemma inv_handler ls l s i h h' :
  inv ls s -> (forall q, l <> LArrive q) -> accepted [l] = [] -> taken [l] = [] -> returns [l] = [] ->
  nth_error (handlers s) i = Some h -> h_query h' = h_query h -> h_pc h' = h_pc h -> h_answer h' = h_answer h -> h_error h' = h_error h ->
  inv (ls ++ [l]) (set_handler s i h').
Proof.
  intros V NA A T R E EQ EP EA EE. destruct V as [V1 V2 V3 V4 V5 V6 V7 V8 V9 V10 (fin & W & F & D)].
  assert (LI : i < length (handlers s)) by (apply nth_error_Some; congruence).
  constructor; unfold set_handler; cbn [handlers queue worker main crash object]; rewrite ?accepted_app, ?taken_app, ?returns_app, ?A, ?T, ?R, ?app_nil_r, ?upd_length; auto.
  - rewrite arrivals_app. destruct l; cbn [arrivals]; rewrite ?app_nil_r; auto. exfalso; eapply NA; eauto.
  - intros j x Ej. rewrite qof_snoc by auto. apply nth_error_upd in Ej as [[-> ->]|[N Ej]]; eauto. rewrite EQ. eauto.
  - intros j x Ej. apply nth_error_upd in Ej as [[-> ->]|[N Ej]]; eauto. rewrite EP. eauto.
  - intros j o. rewrite V7. split; intros (x & Ej & Ex).
    + destruct (Nat.eq_dec j i) as [->|N].
      * exists h'. rewrite nth_error_upd_eq by auto. split; auto. rewrite EP. congruence.
      * exists x. rewrite nth_error_upd_neq by auto. auto.
    + apply nth_error_upd in Ej as [[-> ->]|[N Ej]]; eauto. exists h. rewrite <- EP. auto.
  - exists fin. split; [|split].
    + unfold work in *. cbn [worker object]. rewrite taken_app, T, app_nil_r, !qs_snoc by auto.
      destruct (worker s); auto. rewrite !qs_snoc, result_snoc by auto. auto.
    + intros j x Ej NI. apply nth_error_upd in Ej as [[-> ->]|[N Ej]]; eauto. rewrite EA, EE, EP. eauto.
    + intros b j a x Ef Ej. rewrite result_snoc by auto. cbn [handlers] in Ej. apply nth_error_upd in Ej as [[-> ->]|[N Ej]]; eauto.
      destruct (D b i a h Ef E) as [D1 D2]. rewrite EP. split; auto. intros P. specialize (D1 P). unfold slots in *. rewrite EA, EE. auto.
Qed.

(** a step of main, or the end of the worker *)
Lemma inv_quiet ls l s s' :
  inv ls s -> (forall q, l <> LArrive q) -> accepted [l] = [] -> taken [l] = [] -> returns [l] = [] ->
  handlers s' = handlers s -> queue s' = queue s -> object s' = object s ->
  (worker s' = worker s /\ (closed s = true -> closed s' = true) \/
   worker s = Ranging /\ worker s' = Ended /\ queue s = [] /\ closed s' = true) ->
  inv (ls ++ [l]) s'.
Proof.
  intros V NA A T R EH EQ EO EW. destruct V as [V1 V2 V3 V4 V5 V6 V7 V8 V9 V10 (fin & W & F & D)].
  constructor; rewrite ?accepted_app, ?taken_app, ?returns_app, ?A, ?T, ?R, ?app_nil_r, ?EH, ?EQ; auto.
  - rewrite arrivals_app. destruct l; cbn [arrivals]; rewrite ?app_nil_r; auto. exfalso; eapply NA; eauto.
  - intros j x Ej. rewrite qof_snoc by auto. eauto.
  - destruct EW as [[-> C]|(_ & _ & Q & C)]; auto. intros X. destruct (V10 X). auto.
  - exists fin. split; [|split].
    + unfold work in *. rewrite taken_app, T, app_nil_r, EO, !qs_snoc by auto.
      destruct EW as [[-> C]|(W1 & W2 & Q & C)]; [destruct (worker s); auto; rewrite !qs_snoc, result_snoc by auto; auto|].
      rewrite W2. rewrite W1 in W. auto.
    + unfold fresh_handlers in *. rewrite EH. auto.
    + intros b j a x Ef Ej. rewrite result_snoc by auto. rewrite EH in Ej. eauto.
Qed.

Lemma inv_arrive ls q s : inv ls s ->
  inv (ls ++ [LArrive q]) (mkS (handlers s ++ [mkH q Sending false None None]) (queue s) (worker s) (main s) (crash s) (object s)).
Proof.
  intros V. destruct V as [V1 V2 V3 V4 V5 V6 V7 V8 V9 V10 (fin & W & F & D)].
  assert (LT : forall i, In i (taken ls) -> i < length (arrivals ls)).
  { intros i I. rewrite <- V1. apply V6. rewrite V3. apply in_or_app. auto. }
  assert (AP : forall j x, nth_error (handlers s ++ [mkH q Sending false None None]) j = Some x ->
    (j < length (handlers s) /\ nth_error (handlers s) j = Some x) \/ (j = length (handlers s) /\ x = mkH q Sending false None None)).
  { intros j x Ej. destruct (Nat.lt_ge_cases j (length (handlers s))) as [L|L].
    - left. rewrite nth_error_app1 in Ej by auto. auto.
    - right. rewrite nth_error_app2 in Ej by auto. destruct (j - length (handlers s)) as [|k] eqn:Ek.
      + cbn in Ej. split; [lia|congruence].
      + destruct k; discriminate. }
  constructor; cbn [handlers queue worker main crash object]; rewrite ?accepted_app, ?taken_app, ?returns_app; cbn [accepted taken returns];
    rewrite ?app_nil_r; auto.
  - rewrite arrivals_app, !app_length. cbn [arrivals length]. lia.
  - intros j x Ej. apply AP in Ej as [[L Ej]|[-> ->]].
    + rewrite qof_arrive by lia. auto.
    + unfold qof. rewrite arrivals_app, app_nth2 by lia. rewrite V1, Nat.sub_diag. reflexivity.
  - intros j x Ej. apply AP in Ej as [[L Ej]|[-> ->]]; auto. cbn [h_pc]. split; [|congruence]. intros I. apply V6 in I. lia.
  - intros i I. rewrite app_length. apply V6 in I. lia.
  - intros i o. rewrite V7. split; intros (x & Ej & Ex).
    + exists x. split; auto. rewrite nth_error_app1; auto. apply nth_error_Some. congruence.
    + apply AP in Ej as [[L Ej]|[-> ->]]; eauto. discriminate.
  - exists fin. pose proof (fin_taken _ _ _ W) as FT. split; [|split].
    + unfold work in *. cbn [worker object]. rewrite taken_app. cbn [taken]. rewrite app_nil_r.
      rewrite !qs_arrive by auto. destruct (worker s) as [|i|i r|]; auto. destruct W as (W1 & W2 & W3).
      assert (LT' : forall j, In j (fin ++ [i]) -> j < length (arrivals ls)) by (intros j I; apply LT; rewrite W1; auto).
      rewrite !qs_arrive, result_arrive by auto. auto.
    + intros j x Ej NI. apply AP in Ej as [[L Ej]|[-> ->]]; eauto. cbn. repeat split; auto. discriminate.
    + intros b j a x Ef Ej. apply AP in Ej as [[L Ej]|[-> ->]].
      * rewrite result_arrive; eauto. intros k I. apply LT. apply FT. rewrite Ef. apply in_app_or in I as [I|[I|[]]]; apply in_or_app; cbn; auto.
      * cbn [h_pc]. split; discriminate.
Qed.

Lemma inv_send ls s i h : inv ls s -> nth_error (handlers s) i = Some h -> h_pc h = Sending -> length (queue s) < queue_capacity ->
  worker s <> Ended ->
  inv (ls ++ [LSend i]) (mkS (upd (handlers s) i (mkH (h_query h) Waiting (h_done h) (h_answer h) (h_error h)))
                             (queue s ++ [i]) (worker s) (main s) (crash s) (object s)).
Proof.
  intros V E EP LQ NE. destruct V as [V1 V2 V3 V4 V5 V6 V7 V8 V9 V10 (fin & W & F & D)].
  assert (LI : i < length (handlers s)) by (apply nth_error_Some; congruence).
  assert (NI : ~ In i (accepted ls)) by (intros I; apply (V5 _ _ E) in I; congruence).
  assert (NA : forall q, LSend i <> LArrive q) by discriminate.
  constructor; cbn [handlers queue worker main crash object]; rewrite ?accepted_app, ?taken_app, ?returns_app; cbn [accepted taken returns];
    rewrite ?app_nil_r, ?upd_length; auto.
  - rewrite arrivals_app. cbn [arrivals]. rewrite app_nil_r. auto.
  - intros j x Ej. rewrite qof_snoc by auto. apply nth_error_upd in Ej as [[-> ->]|[N Ej]]; eauto. cbn. eauto.
  - rewrite V3, app_assoc. auto.
  - apply NoDup_snoc; auto.
  - intros j x Ej. apply nth_error_upd in Ej as [[-> ->]|[N Ej]].
    + cbn. split; [discriminate|]. intros _. apply in_or_app. right. left. auto.
    + rewrite <- (V5 _ _ Ej). split; intros I; [apply in_app_or in I as [I|[I|[]]]; [auto|congruence]|apply in_or_app; auto].
  - intros j I. apply in_app_or in I as [I|[<-|[]]]; auto.
  - intros j o. rewrite V7. split; intros (x & Ej & Ex).
    + exists x. split; auto. rewrite nth_error_upd_neq; auto. intros ->. congruence.
    + apply nth_error_upd in Ej as [[-> ->]|[N Ej]]; eauto. discriminate.
  - rewrite app_length. cbn [length]. lia.
  - intros X. congruence.
  - exists fin. assert (NF : ~ In i fin). { intros I. apply NI. rewrite V3. apply in_or_app. left. eapply fin_taken; eauto. }
    split; [|split].
    + unfold work in *. cbn [worker object]. rewrite taken_app. cbn [taken]. rewrite app_nil_r, !qs_snoc by auto.
      destruct (worker s); auto. rewrite !qs_snoc, result_snoc by auto. auto.
    + intros j x Ej NJ. apply nth_error_upd in Ej as [[-> ->]|[N Ej]]; eauto. cbn. destruct (F _ _ E NJ) as (? & ? & _). repeat split; auto. discriminate.
    + intros b j a x Ef Ej. rewrite result_snoc by auto. apply nth_error_upd in Ej as [[-> ->]|[N Ej]]; eauto.
      exfalso. apply NF. rewrite Ef. apply in_or_app. right. left. auto.
Qed.

Lemma inv_return ls s i h o ans err : inv ls s -> nth_error (handlers s) i = Some h -> h_pc h = Waiting ->
  match o with
  | Answered a => h_answer h = Some a /\ ans = None /\ err = h_error h
  | Failed m => h_error h = Some m /\ ans = h_answer h /\ err = None
  | Expired => ans = h_answer h /\ err = h_error h
  end ->
  inv (ls ++ [LReturn i o]) (set_handler s i (mkH (h_query h) (Returned o) (h_done h) ans err)).
Proof.
  intros V E EP HO. destruct V as [V1 V2 V3 V4 V5 V6 V7 V8 V9 V10 (fin & W & F & D)].
  assert (LI : i < length (handlers s)) by (apply nth_error_Some; congruence).
  assert (NA : forall q, LReturn i o <> LArrive q) by discriminate.
  constructor; unfold set_handler; cbn [handlers queue worker main crash object]; rewrite ?accepted_app, ?taken_app, ?returns_app; cbn [accepted taken returns];
    rewrite ?app_nil_r, ?upd_length; auto.
  - rewrite arrivals_app. cbn [arrivals]. rewrite app_nil_r. auto.
  - intros j x Ej. rewrite qof_snoc by auto. apply nth_error_upd in Ej as [[-> ->]|[N Ej]]; eauto. cbn. eauto.
  - intros j x Ej. apply nth_error_upd in Ej as [[-> ->]|[N Ej]]; eauto. rewrite (V5 _ _ E). cbn. rewrite EP. split; discriminate.
  - intros j p. rewrite in_app_iff, V7. split.
    + intros [(x & Ej & Ex)|[X|[]]].
      * exists x. split; auto. rewrite nth_error_upd_neq; auto. intros ->. congruence.
      * injection X as -> ->. exists (mkH (h_query h) (Returned p) (h_done h) ans err). rewrite nth_error_upd_eq by auto. auto.
    + intros (x & Ej & Ex). apply nth_error_upd in Ej as [[-> ->]|[N Ej]]; eauto. cbn in Ex. right. left. congruence.
  - rewrite map_app. cbn [map fst]. apply NoDup_snoc; auto. intros I. apply in_map_iff in I as ((j & p) & <- & I).
    apply V7 in I as (x & Ej & Ex). cbn [fst] in *. congruence.
  - exists fin. split; [|split].
    + unfold work in *. cbn [worker object]. rewrite taken_app. cbn [taken]. rewrite app_nil_r, !qs_snoc by auto.
      destruct (worker s); auto. rewrite !qs_snoc, result_snoc by auto. auto.
    + intros j x Ej NJ. apply nth_error_upd in Ej as [[-> ->]|[N Ej]]; eauto. cbn. destruct (F _ _ E NJ) as (F1 & F2 & F3).
      destruct o; destruct HO as (H1 & H2); [exfalso; congruence|exfalso; congruence|].
      split; [congruence|]. split; [congruence|]. intros o' Eo. congruence.
    + intros b j a x Ef Ej. rewrite result_snoc by auto. apply nth_error_upd in Ej as [[-> ->]|[N Ej]]; eauto. cbn [h_pc].
      split; [discriminate|]. intros o' Eo. assert (o' = o) by congruence. subst o'. destruct (D b i a h Ef E) as [D1 D2]. specialize (D1 EP).
      unfold slots, reports in *. destruct (result ls b i), o; auto; destruct D1, HO; try congruence; auto.
Qed.

Lemma inv_take ls s i q' : inv ls s -> worker s = Ranging -> queue s = i :: q' ->
  inv (ls ++ [LTake i]) (mkS (handlers s) q' (Computing i) (main s) (crash s) (object s)).
Proof.
  intros V EW EQ. destruct V as [V1 V2 V3 V4 V5 V6 V7 V8 V9 V10 (fin & W & F & D)].
  assert (NA : forall q, LTake i <> LArrive q) by discriminate.
  constructor; cbn [handlers queue worker main crash object]; rewrite ?accepted_app, ?taken_app, ?returns_app; cbn [accepted taken returns];
    rewrite ?app_nil_r; auto.
  - rewrite arrivals_app. cbn [arrivals]. rewrite app_nil_r. auto.
  - intros j x Ej. rewrite qof_snoc by auto. auto.
  - rewrite V3, EQ, <- app_assoc. auto.
  - rewrite EQ in V9. cbn [length] in V9. lia.
  - discriminate.
  - exists fin. split; [|split]; auto.
    + unfold work in *. cbn [worker object]. rewrite taken_app. cbn [taken]. rewrite !qs_snoc by auto. rewrite EW in W. destruct W as [-> ->]. auto.
    + intros b j a x Ef Ej. rewrite result_snoc by auto. eauto.
Qed.

Lemma inv_compute ls s i h st' r v : inv ls s -> worker s = Computing i -> nth_error (handlers s) i = Some h ->
  srv (object s) (h_query h) = (st', r) -> r = match v with inl a => Ok a | inr m => Err m end ->
  inv (ls ++ [LCompute]) (set_worker (mkS (handlers s) (queue s) (worker s) (main s) (crash s) st') (Delivering i v)).
Proof.
  intros V EW E ES ER. destruct V as [V1 V2 V3 V4 V5 V6 V7 V8 V9 V10 (fin & W & F & D)].
  assert (NA : forall q, LCompute <> LArrive q) by discriminate.
  constructor; unfold set_worker; cbn [handlers queue worker main crash object]; rewrite ?accepted_app, ?taken_app, ?returns_app; cbn [accepted taken returns];
    rewrite ?app_nil_r; auto.
  - rewrite arrivals_app. cbn [arrivals]. rewrite app_nil_r. auto.
  - intros j x Ej. rewrite qof_snoc by auto. auto.
  - discriminate.
  - exists fin. split; [|split]; auto.
    + unfold work in *. cbn [worker object]. rewrite taken_app. cbn [taken]. rewrite app_nil_r, !qs_snoc, result_snoc by auto.
      rewrite EW in W. destruct W as [-> W2]. unfold result. unfold qs. rewrite map_app. cbn [map]. rewrite after_snoc.
      fold (qs ls fin). rewrite <- W2, <- (V2 _ _ E), ES. cbn [fst snd]. auto.
    + intros b j a x Ef Ej. rewrite result_snoc by auto. eauto.
Qed.

Lemma inv_deliver ls s i h r ans err : inv ls s -> worker s = Delivering i r -> nth_error (handlers s) i = Some h ->
  match r with inl a => ans = Some a /\ err = h_error h | inr m => ans = h_answer h /\ err = Some m end ->
  inv (ls ++ [LDeliver]) (set_worker (set_handler s i (mkH (h_query h) (h_pc h) (h_done h) ans err)) Ranging).
Proof.
  intros V EW E HR. destruct V as [V1 V2 V3 V4 V5 V6 V7 V8 V9 V10 (fin & W & F & D)].
  assert (LI : i < length (handlers s)) by (apply nth_error_Some; congruence).
  assert (NA : forall q, LDeliver <> LArrive q) by discriminate.
  unfold work in W. rewrite EW in W. destruct W as (W1 & W2 & W3).
  assert (NF : ~ In i fin).
  { intros I. rewrite V3, W1, <- app_assoc in V4. apply NoDup_remove_2 in V4. apply V4. apply in_or_app. auto. }
  constructor; unfold set_worker, set_handler; cbn [handlers queue worker main crash object]; rewrite ?accepted_app, ?taken_app, ?returns_app; cbn [accepted taken returns];
    rewrite ?app_nil_r, ?upd_length; auto.
  - rewrite arrivals_app. cbn [arrivals]. rewrite app_nil_r. auto.
  - intros j x Ej. rewrite qof_snoc by auto. apply nth_error_upd in Ej as [[-> ->]|[N Ej]]; eauto. cbn. eauto.
  - intros j x Ej. apply nth_error_upd in Ej as [[-> ->]|[N Ej]]; eauto. cbn. eauto.
  - intros j o. rewrite V7. split; intros (x & Ej & Ex).
    + destruct (Nat.eq_dec j i) as [->|N].
      * eexists. rewrite nth_error_upd_eq by auto. split; [reflexivity|]. cbn. congruence.
      * exists x. rewrite nth_error_upd_neq by auto. auto.
    + apply nth_error_upd in Ej as [[-> ->]|[N Ej]]; eauto.
  - discriminate.
  - exists (fin ++ [i]). split; [|split].
    + unfold work. cbn [worker object]. rewrite taken_app. cbn [taken]. rewrite app_nil_r, !qs_snoc by auto. auto.
    + intros j x Ej NJ. apply nth_error_upd in Ej as [[-> ->]|[N Ej]].
      * exfalso. apply NJ. apply in_or_app. right. left. auto.
      * apply (F _ _ Ej). intros I. apply NJ. apply in_or_app. auto.
    + intros b j a x Ef Ej. rewrite result_snoc by auto. apply split_snoc in Ef as [(<- & <- & ->)|(a' & -> & Ef)].
      * apply nth_error_upd in Ej as [[_ ->]|[N Ej]]; [|congruence]. cbn [h_pc]. destruct (F _ _ E NF) as (F1 & F2 & F3).
        rewrite W3. split.
        -- intros _. unfold slots. destruct r; cbn; destruct HR; split; congruence.
        -- intros o Eo. rewrite (F3 _ Eo). destruct r; cbn; auto.
      * apply nth_error_upd in Ej as [[-> ->]|[N Ej]]; eauto. exfalso. apply NF. rewrite Ef. apply in_or_app. right. left. auto.
Qed.

(** preservation *)
Lemma inv_fire ls s l s' : inv ls s -> fire srv l s = Some s' -> crash s' = None -> inv (ls ++ [l]) s'.
Proof.
  intros V Fi NC. unfold fire in Fi. destruct (crash s) eqn:EC; [discriminate|].
  assert (NX : main s <> Exited) by (intros X; rewrite X in Fi; discriminate).
  assert (Fi' : match l with
    | LArrive q => match main s with
      | Serving | Closed => Some (mkS (handlers s ++ [mkH q Sending false None None]) (queue s) (worker s) (main s) (crash s) (object s))
      | _ => None end
    | _ => fire srv l s
    end = Some s').
  { rewrite <- Fi. destruct l; unfold fire; rewrite EC; destruct (main s); try congruence; auto. }
  destruct l.
  - destruct (main s) eqn:EM; try discriminate; injection Fi' as <-; rewrite <- ?EM; apply inv_arrive; auto.
  - assert (Fi2 : match nth_error (handlers s) i with
      | Some h => match h_pc h with
        | Sending => if closed s then Some (die s "send on closed channel")
          else if length (queue s) <? queue_capacity
               then Some (mkS (upd (handlers s) i (mkH (h_query h) Waiting (h_done h) (h_answer h) (h_error h)))
                              (queue s ++ [i]) (worker s) (main s) (crash s) (object s)) else None
        | _ => None end
      | None => None end = Some s').
    { rewrite <- Fi'. unfold fire. rewrite EC. destruct (main s); try congruence; auto. }
    destruct (nth_error (handlers s) i) as [h|] eqn:E; [|discriminate]. destruct (h_pc h) eqn:EP; try discriminate.
    destruct (closed s) eqn:ECl. { injection Fi2 as <-. discriminate. }
    destruct (Nat.ltb_spec (length (queue s)) queue_capacity) as [L|L]; [|discriminate]. injection Fi2 as <-. apply inv_send; auto.
    intros X. destruct V as [_ _ _ _ _ _ _ _ _ V10 _]. destruct (V10 X). congruence.
  - assert (Fi2 : match nth_error (handlers s) i with
      | Some h => Some (set_handler s i (mkH (h_query h) (h_pc h) true (h_answer h) (h_error h)))
      | None => None end = Some s').
    { rewrite <- Fi'. unfold fire. rewrite EC. destruct (main s); try congruence; auto. }
    destruct (nth_error (handlers s) i) as [h|] eqn:E; [|discriminate]. injection Fi2 as <-. eapply inv_handler; eauto; discriminate.
  - assert (Fi2 : match nth_error (handlers s) i with
      | Some h =>
        match h_pc h, o with
        | Waiting, Answered a =>
          match h_answer h with
          | Some b => if list_eq_dec Z.eq_dec a b
                      then Some (set_handler s i (mkH (h_query h) (Returned o) (h_done h) None (h_error h))) else None
          | None => None
          end
        | Waiting, Failed m =>
          match h_error h with
          | Some e => if string_dec m e
                      then Some (set_handler s i (mkH (h_query h) (Returned o) (h_done h) (h_answer h) None)) else None
          | None => None
          end
        | Waiting, Expired =>
          if h_done h then Some (set_handler s i (mkH (h_query h) (Returned o) (h_done h) (h_answer h) (h_error h))) else None
        | _, _ => None
        end
      | None => None end = Some s').
    { rewrite <- Fi'. unfold fire. rewrite EC. destruct (main s); try congruence; auto. }
    destruct (nth_error (handlers s) i) as [h|] eqn:E; [|discriminate]. destruct (h_pc h) eqn:EP; try discriminate. destruct o.
    + destruct (h_answer h) as [b|] eqn:EA; [|discriminate]. destruct (list_eq_dec Z.eq_dec a b) as [->|]; [|discriminate].
      injection Fi2 as <-. apply inv_return; auto.
    + destruct (h_error h) as [b|] eqn:EA; [|discriminate]. destruct (string_dec m b) as [->|]; [|discriminate].
      injection Fi2 as <-. apply inv_return; auto.
    + destruct (h_done h) eqn:ED; [|discriminate]. injection Fi2 as <-. rewrite <- ED. apply inv_return; auto.
  - assert (Fi2 : match worker s, queue s with
      | Ranging, j :: q' => if i =? j then Some (mkS (handlers s) q' (Computing i) (main s) (crash s) (object s)) else None
      | _, _ => None end = Some s').
    { rewrite <- Fi'. unfold fire. rewrite EC. destruct (main s); try congruence; auto. }
    destruct (worker s) eqn:EW; try discriminate. destruct (queue s) as [|j q'] eqn:EQ; [discriminate|].
    destruct (Nat.eqb_spec i j) as [<-|]; [|discriminate]. injection Fi2 as <-. apply inv_take; auto.
  - assert (Fi2 : match worker s, queue s with
      | Ranging, [] => if closed s then Some (set_worker s Ended) else None
      | _, _ => None end = Some s').
    { rewrite <- Fi'. unfold fire. rewrite EC. destruct (main s); try congruence; auto. }
    destruct (worker s) eqn:EW; try discriminate. destruct (queue s) as [|j q'] eqn:EQ; [|discriminate].
    destruct (closed s) eqn:ECl; [|discriminate]. injection Fi2 as <-. eapply inv_quiet; eauto; try discriminate.
  - assert (Fi2 : match worker s with
      | Computing i =>
        match nth_error (handlers s) i with
        | Some h =>
          let '(st', r) := srv (object s) (h_query h) in
          let s' := mkS (handlers s) (queue s) (worker s) (main s) (crash s) st' in
          match r with
          | Ok a => Some (set_worker s' (Delivering i (inl a)))
          | Err m => Some (set_worker s' (Delivering i (inr m)))
          | Panic m => Some (die s' m)
          | Fatal m => Some (die s' m)
          end
        | None => None
        end
      | _ => None end = Some s').
    { rewrite <- Fi'. unfold fire. rewrite EC. destruct (main s); try congruence; auto. }
    destruct (worker s) eqn:EW; try discriminate. destruct (nth_error (handlers s) i) as [h|] eqn:E; [|discriminate].
    destruct (srv (object s) (h_query h)) as [st' r] eqn:ES. cbv zeta in Fi2. rewrite <- EW in Fi2. destruct r; injection Fi2 as <-; try discriminate.
    + eapply inv_compute; eauto.
    + eapply inv_compute; eauto.
  - assert (Fi2 : match worker s with
      | Delivering i r =>
        match nth_error (handlers s) i with
        | Some h =>
          match r, h_answer h, h_error h with
          | inl a, None, _ => Some (set_worker (set_handler s i (mkH (h_query h) (h_pc h) (h_done h) (Some a) (h_error h))) Ranging)
          | inr m, _, None => Some (set_worker (set_handler s i (mkH (h_query h) (h_pc h) (h_done h) (h_answer h) (Some m))) Ranging)
          | _, _, _ => None
          end
        | None => None
        end
      | _ => None end = Some s').
    { rewrite <- Fi'. unfold fire. rewrite EC. destruct (main s); try congruence; auto. }
    destruct (worker s) eqn:EW; try discriminate. destruct (nth_error (handlers s) i) as [h|] eqn:E; [|discriminate].
    destruct r as [a|m].
    + destruct (h_answer h) eqn:EA; [discriminate|]. injection Fi2 as <-. eapply inv_deliver; eauto. cbn. auto.
    + destruct (h_error h) eqn:EE; [destruct (h_answer h); discriminate|].
      assert (X : s' = set_worker (set_handler s i (mkH (h_query h) (h_pc h) (h_done h) (h_answer h) (Some m))) Ranging) by (destruct (h_answer h); congruence).
      subst s'. eapply inv_deliver; eauto. cbn. auto.
  - destruct (main s) eqn:EM; try congruence; try discriminate; unfold fire in Fi'; rewrite EC, EM in Fi'; try discriminate.
    injection Fi' as <-. eapply inv_quiet; eauto; try discriminate.
  - destruct (main s) eqn:EM; try congruence; try discriminate; unfold fire in Fi'; rewrite EC, EM in Fi'; try discriminate.
    injection Fi' as <-. eapply inv_quiet; eauto; try discriminate.
  - destruct (main s) eqn:EM; try congruence; try discriminate; unfold fire in Fi'; rewrite EC, EM in Fi'; try discriminate.
    destruct (forallb returned (handlers s)); [|discriminate].
    injection Fi' as <-. eapply inv_quiet; eauto; try discriminate.
Qed.

Lemma run_snoc ls l s s' : run srv (ls ++ [l]) s = Some s' <-> exists m, run srv ls s = Some m /\ fire srv l m = Some s'.
Proof.
  revert s. induction ls as [|k ls IH]; intros s; cbn [app run].
  - split.
    + intros E. exists s. split; auto. destruct (fire srv l s); auto.
    + intros (m & E & F). injection E as ->. rewrite F. auto.
  - destruct (fire srv k s) as [m|]; [apply IH|]. split; [discriminate|intros (? & ? & _); discriminate].
Qed.

Lemma crash_stops l (s : state St) : crash s <> None -> fire srv l s = None.
Proof. unfold fire. destruct (crash s); congruence. Qed.

Theorem inv_run ls s : run srv ls (initial st0) = Some s -> crash s = None -> inv ls s.
Proof.
  revert s. induction ls as [|l ls IH] using rev_ind; intros s R NC.
  - cbn in R. injection R as <-. apply inv_initial.
  - apply run_snoc in R as (m & R & F). apply inv_fire with (s := m); auto. apply IH; auto.
    destruct (crash m) eqn:EC; auto. rewrite crash_stops in F by congruence. discriminate.
Qed.

(** how a process dies *)
Lemma crash_run ls s : run srv ls (initial st0) = Some s -> crash s <> None ->
  exists ls' l m, ls = ls' ++ [l] /\ run srv ls' (initial st0) = Some m /\ crash m = None /\ fire srv l m = Some s /\
    handlers s = handlers m /\
    ((exists i h, l = LSend i /\ nth_error (handlers m) i = Some h /\ h_pc h = Sending /\ closed m = true /\ crash s = Some "send on closed channel"%string) \/
     (exists i h x, l = LCompute /\ worker m = Computing i /\ nth_error (handlers m) i = Some h /\ crash s = Some x /\
        (snd (srv (object m) (h_query h)) = Panic x \/ snd (srv (object m) (h_query h)) = Fatal x))).
Proof.
  intros R C. destruct ls as [|l0 ls0] eqn:EL. { cbn in R. injection R as <-. cbn in C. congruence. }
  assert (NE : l0 :: ls0 <> []) by discriminate. destruct (exists_last NE) as (ls' & l & E). rewrite E in *. clear EL.
  apply run_snoc in R as (m & R & F). exists ls', l, m. split; auto. split; auto.
  assert (CM : crash m = None). { destruct (crash m) eqn:EC; auto. rewrite crash_stops in F by congruence. discriminate. }
  split; auto. split; auto.
  assert (NX : main m <> Exited) by (intros X; unfold fire in F; rewrite CM, X in F; discriminate).
  destruct l; try (exfalso; apply C; unfold fire in F; rewrite CM in F;
    repeat (first [progress cbv zeta in F | match type of F with context [match ?x with _ => _ end] => destruct x eqn:?; try discriminate end]);
    try congruence; injection F as <-; cbn; congruence).
  - assert (Fi2 : match nth_error (handlers m) i with
      | Some h => match h_pc h with
        | Sending => if closed m then Some (die m "send on closed channel")
          else if length (queue m) <? queue_capacity
               then Some (mkS (upd (handlers m) i (mkH (h_query h) Waiting (h_done h) (h_answer h) (h_error h)))
                              (queue m ++ [i]) (worker m) (main m) (crash m) (object m)) else None
        | _ => None end
      | None => None end = Some s).
    { rewrite <- F. unfold fire. rewrite CM. destruct (main m); try congruence; auto. }
    destruct (nth_error (handlers m) i) as [h|] eqn:Eh; [|discriminate]. destruct (h_pc h) eqn:EP; try discriminate.
    destruct (closed m) eqn:ECl. { injection Fi2 as <-. split; auto. left. exists i, h. cbn. auto. }
    destruct (length (queue m) <? queue_capacity); [|discriminate]. injection Fi2 as <-. cbn in C. congruence.
  - assert (Fi2 : match worker m with
      | Computing i =>
        match nth_error (handlers m) i with
        | Some h =>
          let '(st', r) := srv (object m) (h_query h) in
          let s' := mkS (handlers m) (queue m) (worker m) (main m) (crash m) st' in
          match r with
          | Ok a => Some (set_worker s' (Delivering i (inl a)))
          | Err x => Some (set_worker s' (Delivering i (inr x)))
          | Panic x => Some (die s' x)
          | Fatal x => Some (die s' x)
          end
        | None => None
        end
      | _ => None end = Some s).
    { rewrite <- F. unfold fire. rewrite CM. destruct (main m); try congruence; auto. }
    destruct (worker m) eqn:EW; try discriminate. destruct (nth_error (handlers m) i) as [h|] eqn:Eh; [|discriminate].
    destruct (srv (object m) (h_query h)) as [st' r] eqn:ES. cbv zeta in Fi2. destruct r; injection Fi2 as <-.
    + cbn in C. congruence.
    + cbn in C. congruence.
    + split; auto. right. exists i, h, m0. rewrite ES. cbn [snd die crash]. repeat (split; auto).
    + split; auto. right. exists i, h, m0. rewrite ES. cbn [snd die crash]. repeat (split; auto).
Qed.

End Inv.
