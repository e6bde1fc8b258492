(** Consequences of the invariant: what calls return, progress, shutdown and cancellation. *)
From Coq Require Import String ZArith List Bool Lia Permutation.
From Verif Require Import GoBase BaseFacts RPCModel RPCSpec RPCProofs.
Import ListNotations.
Open Scope nat_scope.

Ltac fires F :=
  repeat (first [progress cbv zeta in F | match type of F with context [match ?x with _ => _ end] => destruct x eqn:?; try discriminate end]).

Section P.
Context {St : Type} (srv : St -> list Z -> St * res (list Z)) (st0 : St).

(** cancellations *)
Definition inv2 (ls : list label) (s : state St) : Prop :=
  forall i h, nth_error (handlers s) i = Some h ->
    (h_done h = true -> In (LDone i) ls) /\ (h_pc h = Returned Expired -> h_done h = true).

Lemma inv2_fire ls s l s' : inv2 ls s -> fire srv l s = Some s' -> inv2 (ls ++ [l]) s'.
Proof.
  intros V F j x Ej.
  assert (K : forall h, nth_error (handlers s) j = Some h -> (h_done h = true -> In (LDone j) (ls ++ [l])) /\ (h_pc h = Returned Expired -> h_done h = true)).
  { intros h E. destruct (V j h E). split; auto. intros. apply in_or_app. auto. }
  unfold fire in F. destruct l; fires F; try congruence; injection F as <-; cbn [set_main set_worker set_handler die handlers] in Ej; auto;
    try (apply nth_error_upd in Ej as [[-> ->]|[N Ej]]; [|auto; fail];
         match goal with E : nth_error (handlers s) ?k = Some ?h |- _ => destruct (K h E) as [K1 K2] end;
         cbn [h_done h_pc]; split; try congruence; auto; fail).
  1,2: destruct (Nat.lt_ge_cases j (length (handlers s))) as [L|L];
    [rewrite nth_error_app1 in Ej by auto; auto|rewrite nth_error_app2 in Ej by auto;
     destruct (j - length (handlers s)) as [|[|?]]; try discriminate; injection Ej as <-; cbn; split; discriminate].
  all: apply nth_error_upd in Ej as [[-> ->]|[N Ej]]; auto.
  all: match goal with E : nth_error _ _ = Some ?h |- _ => destruct (K h E) as [K1 K2] end.
  all: cbn [h_done h_pc]; split; auto; intros _; apply in_or_app; right; left; auto.
Qed.

Lemma inv2_run ls s : run srv ls (initial st0) = Some s -> inv2 ls s.
Proof.
  revert s. induction ls as [|l ls IH] using rev_ind; intros s R.
  - cbn in R. injection R as <-. intros [|i] h E; discriminate.
  - apply run_snoc in R as (m & R & F). eapply inv2_fire; eauto.
Qed.

(** the trace facts hold in crashed states too *)
Lemma trace_facts ls s : run srv ls (initial st0) = Some s ->
  (forall i o, In (i, o) (returns ls) -> exists q, nth_error (arrivals ls) i = Some q /\ In i (accepted ls) /\
     ((o = Expired /\ In (LDone i) ls) \/ exists before rest, taken ls = before ++ i :: rest /\ o <> Expired /\ reports (snd (srv (after srv st0 (qs ls before)) q)) o)) /\
  NoDup (map fst (returns ls)) /\ NoDup (accepted ls) /\ (exists rest, accepted ls = taken ls ++ rest) /\
  (forall i, In i (accepted ls) -> i < length (arrivals ls)).
Proof.
  assert (G : forall ls s, run srv ls (initial st0) = Some s -> crash s = None ->
    (forall i o, In (i, o) (returns ls) -> exists q, nth_error (arrivals ls) i = Some q /\ In i (accepted ls) /\
      ((o = Expired /\ In (LDone i) ls) \/ exists before rest, taken ls = before ++ i :: rest /\ o <> Expired /\ reports (snd (srv (after srv st0 (qs ls before)) q)) o)) /\
    NoDup (map fst (returns ls)) /\ NoDup (accepted ls) /\ (exists rest, accepted ls = taken ls ++ rest) /\
    (forall i, In i (accepted ls) -> i < length (arrivals ls))).
  { clear ls s. intros ls s R C. pose proof (inv_run srv st0 ls s R C) as V. pose proof (inv2_run ls s R) as V2. destruct V as [V1 V2' V3 V4 V5 V6 V7 V8 V9 V10 (fin & W & F & D)].
    repeat split; auto.
    - intros i o I. apply V7 in I as (h & E & EP).
      assert (L : i < length (arrivals ls)) by (rewrite <- V1; apply nth_error_Some; congruence).
      exists (qof ls i). split; [apply nth_error_nth'; auto|]. split. { apply (V5 _ _ E). congruence. }
      assert (X : o = Expired \/ o <> Expired) by (destruct o; [right|right|left]; congruence). destruct X as [->|X].
      + left. destruct (V2 i h E) as [P1 P2]. auto.
      + right. destruct (in_dec Nat.eq_dec i fin) as [I|NI].
        * apply in_split in I as (b & a & Ef). destruct (D b i a h Ef E) as [_ D2]. specialize (D2 _ EP).
          unfold work in W.
          assert (T : exists a', taken ls = b ++ i :: a').
          { destruct (worker s); destruct W as [-> _]; rewrite Ef; try (exists a; reflexivity); rewrite <- app_assoc; cbn; eauto. }
          destruct T as (a' & T). exists b, a'. auto.
        * destruct (F _ _ E NI) as (_ & _ & F3). specialize (F3 _ EP). congruence.
    - eauto.
    - intros i I. rewrite <- V1. auto. }
  intros R. destruct (crash s) eqn:C; [|eapply G; eauto].
  destruct (crash_run srv st0 ls s R) as (ls' & l & m & -> & R' & CM & F & EH & HC); [congruence|].
  destruct (G ls' m R' CM) as (G1 & G2 & G3 & (rest & G4) & G5). pose proof (inv_run srv st0 ls' m R' CM) as V.
  assert (NA : forall q, l <> LArrive q) by (destruct HC as [(? & ? & -> & _)|(? & ? & ? & -> & _)]; discriminate).
  assert (ER : returns [l] = []) by (destruct HC as [(? & ? & -> & _)|(? & ? & ? & -> & _)]; reflexivity).
  assert (ET : taken [l] = []) by (destruct HC as [(? & ? & -> & _)|(? & ? & ? & -> & _)]; reflexivity).
  assert (EA : arrivals [l] = []) by (destruct HC as [(? & ? & -> & _)|(? & ? & ? & -> & _)]; reflexivity).
  rewrite !returns_app, !arrivals_app, !accepted_app, !taken_app, ER, ET, EA, !app_nil_r. repeat split; auto.
  - intros i o I. destruct (G1 i o I) as (q & Q1 & Q2 & Q3). exists q. split; auto. split; [apply in_or_app; auto|].
    destruct Q3 as [[-> Q3]|(b & r & Q3)]; [left; split; auto; apply in_or_app; auto|right; exists b, r].
    rewrite qs_snoc by auto. auto.
  - destruct HC as [(i & h & -> & E & EP & _)|(? & ? & ? & -> & _)]; cbn [accepted]; rewrite ?app_nil_r; auto.
    apply NoDup_snoc; auto. intros I. apply (I_pc _ _ _ _ V _ _ E) in I. congruence.
  - rewrite G4, <- app_assoc. eauto.
  - intros i I. apply in_app_or in I as [I|I]; auto.
    destruct HC as [(j & h & -> & E & EP & _)|(? & ? & ? & -> & _)]; cbn [accepted] in I; [|destruct I].
    destruct I as [<-|[]]. rewrite <- (I_len _ _ _ _ V). apply nth_error_Some. congruence.
Qed.

(** progress *)
Lemma deliver_enabled ls s i r : run srv ls (initial st0) = Some s -> crash s = None -> main s <> Exited -> worker s = Delivering i r -> fire srv LDeliver s <> None.
Proof.
  intros R C NX EW. pose proof (inv_run srv st0 ls s R C) as V. destruct V as [V1 V2 V3 V4 V5 V6 V7 V8 V9 V10 (fin & W & F & D)].
  unfold work in W. rewrite EW in W. destruct W as (W1 & W2 & W3).
  assert (L : i < length (handlers s)) by (apply V6; rewrite V3, W1; apply in_or_app; left; apply in_or_app; right; left; auto).
  apply nth_error_Some in L. destruct (nth_error (handlers s) i) as [h|] eqn:E; [|congruence].
  assert (NF : ~ In i fin).
  { intros I. rewrite V3, W1, <- app_assoc in V4. apply NoDup_remove_2 in V4. apply V4. apply in_or_app. auto. }
  destruct (F _ _ E NF) as (F1 & F2 & F3).
  unfold fire. rewrite C, EW, E, F1, F2. destruct (main s), r; congruence.
Qed.

Lemma computing_exists ls s i : run srv ls (initial st0) = Some s -> crash s = None -> worker s = Computing i -> exists h, nth_error (handlers s) i = Some h.
Proof.
  intros R C EW. pose proof (inv_run srv st0 ls s R C) as V. destruct V as [V1 V2 V3 V4 V5 V6 V7 V8 V9 V10 (fin & W & F & D)].
  unfold work in W. rewrite EW in W. destruct W as (W1 & W2).
  assert (L : i < length (handlers s)) by (apply V6; rewrite V3, W1; apply in_or_app; left; apply in_or_app; right; left; auto).
  apply nth_error_Some in L. destruct (nth_error (handlers s) i) as [h|] eqn:E; [eauto|congruence].
Qed.

Lemma worker_enabled ls s : run srv ls (initial st0) = Some s -> crash s = None -> main s <> Exited ->
  queue s <> [] \/ (exists i, worker s = Computing i) \/ (exists i r, worker s = Delivering i r) ->
  exists l, by_worker l = true /\ fire srv l s <> None.
Proof.
  intros R C NX H. pose proof (inv_run srv st0 ls s R C) as V.
  destruct (worker s) as [|i|i r|] eqn:EW.
  - destruct H as [H|[(i & H)|(i & r & H)]]; try discriminate. destruct (queue s) as [|i q'] eqn:EQ; [congruence|].
    exists (LTake i). split; auto. unfold fire. rewrite C, EW, EQ, Nat.eqb_refl. destruct (main s); congruence.
  - destruct (computing_exists ls s i R C EW) as (h & E).
    exists LCompute. split; auto. unfold fire. rewrite C, EW, E. destruct (srv (object s) (h_query h)) as [st' [| | |]]; destruct (main s); congruence.
  - exists LDeliver. split; auto. eapply deliver_enabled; eauto.
  - destruct (I_end _ _ _ _ V EW) as [Q _]. destruct H as [H|[(i & H)|(i & r & H)]]; try discriminate. congruence.
Qed.

(** worker moves until a call is served *)
Definition cost (w : wpc) : nat := match w with Ranging | Ended => 0 | Computing _ => 2 | Delivering _ _ => 1 end.
Definition need (s : state St) (i n : nat) : Prop :=
  (exists b a, queue s = b ++ i :: a /\ cost (worker s) + 3 * (length b + 1) <= n) \/
  (worker s = Computing i /\ 2 <= n) \/ ((exists r, worker s = Delivering i r) /\ 1 <= n) \/ served s i.

Lemma served_fire l s s' i : served s i -> fire srv l s = Some s' -> served s' i.
Proof.
  intros (h & E & H) F.
  assert (L : i < length (handlers s)) by (apply nth_error_Some; congruence).
  assert (UP : forall k h' g', nth_error (handlers s) k = Some h' ->
     (k = i -> returned g' = true \/ h_answer g' <> None \/ h_error g' <> None) ->
     exists g, nth_error (upd (handlers s) k g') i = Some g /\ (returned g = true \/ h_answer g <> None \/ h_error g <> None)).
  { intros k h' g' Ek K. destruct (Nat.eq_dec i k) as [->|N].
    - exists g'. rewrite nth_error_upd_eq by auto. auto.
    - exists h. rewrite nth_error_upd_neq by auto. auto. }
  unfold served. unfold fire in F. destruct l; fires F; try congruence; injection F as <-; cbn [set_main set_worker set_handler die handlers];
    try (exists h; rewrite ?nth_error_app1 by auto; auto; fail);
    (eapply UP; [eassumption|]; intros ->; match goal with E1 : nth_error _ i = Some ?x, E2 : nth_error _ i = Some ?y |- _ => assert (x = y) by congruence; subst end;
     unfold returned in *; cbn [h_pc h_answer h_error] in *; try match goal with X : h_pc ?x = _ |- _ => rewrite X in * end; auto; try (intuition congruence)).
Qed.

Lemma need_fire l s s' i n : crash s' = None -> need s i n -> fire srv l s = Some s' -> need s' i (if by_worker l then n - 1 else n).
Proof.
  intros C' N F.
  assert (SV : served s i -> need s' i (if by_worker l then n - 1 else n)) by (intros S; right; right; right; eapply served_fire; eauto).
  destruct N as [(b & a & EQ & EN)|[(EW & EN)|[((r & EW) & EN)|S]]]; auto; clear SV.
  - unfold fire in F. destruct l; fires F; try congruence; injection F as <-; cbn [by_worker];
      try (left; exists b, a; cbn [set_main set_worker set_handler die queue worker]; split; auto; cbn [cost] in *; auto; lia);
      try (cbn in C'; discriminate).
    all: try (left; exists b; eexists; cbn [queue worker]; rewrite EQ, <- app_assoc; split; [reflexivity|]; cbn [cost] in *; auto; lia).
    all: try (exfalso; destruct b; discriminate).
    all: match goal with X : (_ =? _) = true |- _ => apply Nat.eqb_eq in X; subst end;
         cbn [cost] in EN;
         destruct b as [|j b]; cbn [app length] in *;
         [right; left; cbn [worker]; split; [congruence|lia]|left; exists b, a; cbn [queue worker cost]; split; [congruence|lia]].
  - unfold fire in F. destruct l; fires F; try congruence; injection F as <-; cbn [by_worker];
      try (right; left; cbn [set_main set_worker set_handler die queue worker]; split; auto; lia); try (cbn in C'; discriminate).
    all: right; right; left; cbn [set_worker worker]; split; [eexists; f_equal; congruence|lia].
  - unfold fire in F. destruct l; fires F; try congruence; injection F as <-; cbn [by_worker];
      try (right; right; left; cbn [set_main set_worker set_handler die queue worker]; split; eauto; lia); try (cbn in C'; discriminate).
    all: right; right; right; match goal with EW' : worker _ = Delivering ?k (_ _) |- _ => assert (k = i) by congruence; subst k end;
       unfold served; cbn [set_worker set_handler handlers]; eexists; rewrite nth_error_upd_eq; [split; [reflexivity|cbn; right; try (left; congruence); right; congruence]|apply nth_error_Some; congruence].
Qed.

Lemma run_crash ls s s' : run srv ls s = Some s' -> crash s' = None -> crash s = None.
Proof.
  destruct ls as [|l ls]; cbn [run]; [congruence|]. unfold fire. destruct (crash s); [discriminate|auto].
Qed.

Lemma need_run ls s s' i n : run srv ls s = Some s' -> crash s' = None -> need s i n -> need s' i (n - worker_moves ls).
Proof.
  revert s n. induction ls as [|l ls IH]; intros s n R C N; cbn [run] in R.
  - injection R as <-. unfold worker_moves. cbn. rewrite Nat.sub_0_r. auto.
  - destruct (fire srv l s) as [m|] eqn:F; [|discriminate]. pose proof (run_crash _ _ _ R C) as CM.
    pose proof (need_fire l s m i n CM N F) as N'. specialize (IH m _ R C N').
    unfold worker_moves in *. cbn [filter]. destruct (by_worker l); cbn [length]; auto.
    replace (n - S (length (filter by_worker ls))) with (n - 1 - length (filter by_worker ls)) by lia. auto.
Qed.

Lemma need_zero s i : need s i 0 -> served s i.
Proof. intros [(b & a & _ & N)|[(_ & N)|[(_ & N)|S]]]; auto; lia. Qed.

Lemma run_app a b s : run srv (a ++ b) s = match run srv a s with Some m => run srv b m | None => None end.
Proof. revert s. induction a as [|l a IH]; intros s; cbn [app run]; auto. destruct (fire srv l s); auto. Qed.

Lemma bounded_service l1 l2 i s : run srv (l1 ++ LSend i :: l2) (initial st0) = Some s -> crash s = None -> 32 <= worker_moves l2 -> served s i.
Proof.
  intros R C B. rewrite run_app in R. destruct (run srv l1 (initial st0)) as [m|] eqn:R1; [|discriminate]. cbn [run] in R.
  destruct (fire srv (LSend i) m) as [m'|] eqn:F; [|discriminate].
  pose proof (run_crash _ _ _ R C) as CM'.
  assert (N : need m' i 32).
  { left. unfold fire in F. fires F; try congruence; injection F as <-; try (cbn in CM'; discriminate).
    all: exists (queue m), []; cbn [queue worker]; split; auto;
      match goal with X : (_ <? _) = true |- _ => apply Nat.ltb_lt in X; unfold queue_capacity in X end; destruct (worker m); cbn [cost]; lia. }
  apply need_zero. pose proof (need_run _ _ _ _ _ R C N) as K. replace (32 - worker_moves l2) with 0 in K by lia. auto.
Qed.

Lemma served_returns ls s i h : run srv ls (initial st0) = Some s -> crash s = None -> main s <> Exited -> nth_error (handlers s) i = Some h ->
  served s i -> returned h = true \/ exists o, o <> Expired /\ fire srv (LReturn i o) s <> None.
Proof.
  intros R C NX E (h' & E' & S). assert (h' = h) by congruence. subst h'.
  destruct (returned h) eqn:ER; auto. right. destruct S as [S|S]; [congruence|].
  pose proof (inv_run srv st0 ls s R C) as V. destruct V as [V1 V2 V3 V4 V5 V6 V7 V8 V9 V10 (fin & W & F & D)].
  assert (I : In i fin). { destruct (in_dec Nat.eq_dec i fin) as [I|NI]; auto. destruct (F _ _ E NI) as (F1 & F2 & _). intuition congruence. }
  assert (A : In i (accepted ls)) by (rewrite V3; apply in_or_app; left; eapply fin_taken; eauto).
  apply (V5 _ _ E) in A. apply in_split in I as (b & a & Ef). destruct (D b i a h Ef E) as [D1 D2].
  unfold returned in ER. destruct (h_pc h) as [| |o] eqn:EP; [congruence| |discriminate].
  specialize (D1 eq_refl). unfold slots in D1. destruct (result srv st0 ls b i) as [x|x|x|x]; try contradiction; destruct D1 as [A1 A2].
  - exists (Answered x). split; [discriminate|]. unfold fire. rewrite C, E, EP, A1. destruct (list_eq_dec Z.eq_dec x x); [|congruence]. destruct (main s); congruence.
  - exists (Failed x). split; [discriminate|]. unfold fire. rewrite C, E, EP, A2. destruct (string_dec x x); [|congruence]. destruct (main s); congruence.
Qed.

(** shutdown *)
Definition quiet (s : state St) : Prop := closed s = true /\ forall i h, nth_error (handlers s) i = Some h -> h_pc h <> Sending.

Lemma quiet_fire l s s' : total srv -> arrivals [l] = [] -> quiet s -> fire srv l s = Some s' -> quiet s' /\ crash s' = None.
Proof.
  intros T NA [Q1 Q2] F.
  assert (UP : forall k h h', nth_error (handlers s) k = Some h -> h_pc h' <> Sending -> forall i g, nth_error (upd (handlers s) k h') i = Some g -> h_pc g <> Sending).
  { intros k h h' E N i g Eg. apply nth_error_upd in Eg as [[-> ->]|[_ Eg]]; eauto. }
  unfold quiet. unfold fire in F. destruct l; try discriminate; fires F; try congruence; injection F as <-;
    unfold closed in *; cbn [set_main set_worker set_handler die handlers crash main];
    try (repeat split; auto; congruence);
    try (exfalso; match goal with E : nth_error _ _ = Some ?h, X : h_pc ?h = Sending |- _ => apply (Q2 _ _ E X) end);
    try (exfalso; match goal with X : srv ?a ?b = (_, Panic _) |- _ => specialize (T a b); rewrite X in T; exact T
                                | X : srv ?a ?b = (_, Fatal _) |- _ => specialize (T a b); rewrite X in T; exact T end);
    try (split; [split; [first [exact Q1|reflexivity|congruence]|]|congruence]; eapply UP; eauto; cbn [h_pc]; try discriminate; eauto; fail).
  all: exfalso; match goal with X : main _ = Serving |- _ => rewrite X in Q1 end; discriminate.
Qed.

Lemma quiet_run ls s s' : total srv -> arrivals ls = [] -> quiet s -> crash s = None -> run srv ls s = Some s' -> quiet s' /\ crash s' = None.
Proof.
  intros T. revert s. induction ls as [|l ls IH]; intros s NA Q C R; cbn [run] in R.
  - injection R as <-. auto.
  - destruct (fire srv l s) as [m|] eqn:F; [|discriminate].
    assert (NA' : arrivals [l] = [] /\ arrivals ls = []) by (destruct l; cbn in NA |- *; auto; discriminate). destruct NA' as [N1 N2].
    destruct (quiet_fire l s m T N1 Q F) as [Q' C']. eauto.
Qed.

Definition left_over (s : state St) : nat :=
  length (filter (fun h => negb (returned h)) (handlers s)) + 3 * length (queue s) + cost (worker s) +
  match worker s with Ended => 0 | _ => 1 end + match main s with Serving => 3 | Closed => 2 | Draining => 1 | Exited => 0 end.

Lemma filter_upd (f : handler -> bool) l i h h' : nth_error l i = Some h ->
  length (filter f (upd l i h')) + (if f h then 1 else 0) = length (filter f l) + (if f h' then 1 else 0).
Proof.
  revert i. induction l as [|x l IH]; intros [|i] E; try discriminate; cbn [upd filter nth_error] in *.
  - injection E as ->. destruct (f h), (f h'); cbn [length]; lia.
  - specialize (IH i E). destruct (f x); cbn [length]; lia.
Qed.

Lemma left_over_fire l s s' : arrivals [l] = [] -> quiet s -> crash s' = None -> fire srv l s = Some s' ->
  left_over s = left_over s' + (if internal l then 1 else 0).
Proof.
  intros NA [Q1 Q2] C' F. unfold fire in F. destruct l; try discriminate; fires F; try congruence; injection F as <-;
    try (cbn in C'; discriminate);
    unfold left_over, closed in *; cbn [set_main set_worker set_handler die handlers queue crash main worker cost internal];
    repeat match goal with
    | E : worker s = _ |- _ => rewrite E
    | E : main s = _ |- _ => rewrite E
    | E : queue s = _ |- _ => rewrite E end; cbn [cost length];
    try lia;
    try (exfalso; congruence);
    try (match goal with E : nth_error _ _ = Some ?h |- context [upd _ _ ?g] => pose proof (filter_upd (fun h => negb (returned h)) _ _ _ g E) as U end;
         unfold returned in U at 2 4; cbn [h_pc] in U; try match goal with X : h_pc _ = _ |- _ => rewrite X in U end; cbn [negb] in U; lia).
  all: try (match goal with E : nth_error _ _ = Some ?h |- context [upd _ _ ?g] => pose proof (filter_upd (fun h => negb (returned h)) _ _ _ g E) as U end;
         unfold returned in U at 2 4; cbn [h_pc] in U;  destruct (h_pc h); cbn [negb] in U; lia).
  all: exfalso; match goal with X : main _ = Serving |- _ => rewrite X in Q1 end; discriminate.
Qed.

Lemma left_over_run ls s s' : total srv -> arrivals ls = [] -> quiet s -> crash s = None -> run srv ls s = Some s' ->
  left_over s = left_over s' + length (filter internal ls).
Proof.
  intros T. revert s. induction ls as [|l ls IH]; intros s NA Q C R; cbn [run] in R.
  - injection R as <-. cbn. lia.
  - destruct (fire srv l s) as [m|] eqn:F; [|discriminate].
    assert (NA' : arrivals [l] = [] /\ arrivals ls = []) by (destruct l; cbn in NA |- *; auto; discriminate). destruct NA' as [N1 N2].
    destruct (quiet_fire l s m T N1 Q F) as [Q' C']. rewrite (left_over_fire l s m N1 Q C' F), (IH m N2 Q' C' R).
    cbn [filter]. destruct (internal l); cbn [length]; lia.
Qed.

Lemma quiet_progress ls s : run srv ls (initial st0) = Some s -> crash s = None -> quiet s -> main s <> Exited ->
  exists l, internal l = true /\ fire srv l s <> None.
Proof.
  intros R C [Q1 Q2] NX. pose proof (inv_run srv st0 ls s R C) as V.
  assert (G : {forallb returned (handlers s) = true} + {forallb returned (handlers s) = false}) by (destruct (forallb returned (handlers s)); auto).
  destruct (worker s) as [|i|i r|] eqn:EW.
  - destruct (queue s) as [|i q'] eqn:EQ.
    + exists LEnd. split; auto. unfold fire. rewrite C, EW, EQ, Q1. destruct (main s); congruence.
    + destruct (worker_enabled ls s R C NX) as (l & B & F); [left; congruence|]. exists l. split; auto. destruct l; auto; discriminate.
  - destruct (worker_enabled ls s R C NX) as (l & B & F); [eauto|]. exists l. split; auto. destruct l; auto; discriminate.
  - destruct (worker_enabled ls s R C NX) as (l & B & F); [eauto|]. exists l. split; auto. destruct l; auto; discriminate.
  - destruct G as [G|G].
    + destruct (main s) eqn:EM; try congruence.
      * unfold closed in Q1. rewrite EM in Q1. discriminate.
      * exists LGraceful. split; auto. unfold fire. rewrite C, EM. discriminate.
      * exists LExit. split; auto. unfold fire. rewrite C, EM, G. discriminate.
    + assert (X : exists i h, nth_error (handlers s) i = Some h /\ returned h = false).
      { clear -G. induction (handlers s) as [|h t IH]; [discriminate|]. cbn [forallb] in G. destruct (returned h) eqn:E.
        - destruct IH as (i & x & E1 & E2); auto. exists (S i), x. auto.
        - exists 0, h. auto. }
      destruct X as (i & h & E & ER). destruct (I_end _ _ _ _ V EW) as [EQ _].
      assert (S : served s i).
      { destruct V as [V1 V2 V3 V4 V5 V6 V7 V8 V9 V10 (fin & W & F & D)]. unfold work in W. rewrite EW in W. destruct W as [W1 W2].
        pose proof (Q2 _ _ E) as NS. assert (I : In i fin) by (apply (V5 _ _ E) in NS; rewrite V3, EQ, app_nil_r, W1 in NS; auto).
        apply in_split in I as (b & a & Ef). destruct (D b i a h Ef E) as [D1 D2]. exists h. split; auto. right.
        unfold returned in ER. destruct (h_pc h) eqn:EP; [congruence| |discriminate]. specialize (D1 eq_refl).
        unfold slots in D1. destruct (result srv st0 ls b i); try contradiction; destruct D1 as [A B]; rewrite ?A, ?B; [left|right]; discriminate. }
      destruct (served_returns ls s i h R C NX E S) as [X|(o & _ & X)]; [congruence|]. exists (LReturn i o). auto.
Qed.

(** a call waiting to enter a full queue cannot move, whatever happens to its context *)
Lemma blocked i h s : crash s = None -> main s = Serving -> nth_error (handlers s) i = Some h -> h_pc h = Sending -> queue_capacity <= length (queue s) ->
  fire srv (LSend i) s = None /\ forall o, fire srv (LReturn i o) s = None.
Proof.
  intros C M E EP L. split; intros; unfold fire; rewrite C, M, E, EP; auto. unfold closed. rewrite M.
  destruct (Nat.ltb_spec (length (queue s)) queue_capacity); auto. lia.
Qed.

Lemma sending_stays i l s s' h : crash s' = None -> fire srv l s = Some s' -> l <> LSend i ->
  nth_error (handlers s) i = Some h -> h_pc h = Sending -> exists h', nth_error (handlers s') i = Some h' /\ h_pc h' = Sending.
Proof.
  intros C' F N E EP.
  assert (L : i < length (handlers s)) by (apply nth_error_Some; congruence).
  assert (UP : forall k x g, nth_error (handlers s) k = Some x -> (k = i -> h_pc g = Sending) -> exists h', nth_error (upd (handlers s) k g) i = Some h' /\ h_pc h' = Sending).
  { intros k x g Ek K. destruct (Nat.eq_dec i k) as [->|NE].
    - exists g. rewrite nth_error_upd_eq by auto. auto.
    - exists h. rewrite nth_error_upd_neq by auto. auto. }
  unfold fire in F. destruct l; fires F; try congruence; injection F as <-; cbn [set_main set_worker set_handler die handlers];
    try (exists h; rewrite ?nth_error_app1 by auto; auto; fail);
    try (eapply UP; [eassumption|]; intros ->; match goal with E1 : nth_error _ i = Some ?x, E2 : nth_error _ i = Some ?y |- _ => assert (x = y) by congruence; subst end; cbn [h_pc]; congruence).
  all: cbn [set_main set_worker set_handler die handlers] in *; try (exfalso; cbn in C'; discriminate).
Qed.

End P.
