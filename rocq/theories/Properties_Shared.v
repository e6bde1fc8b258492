(** Properties of the process-wide random generator under concurrent use. *)
From Coq Require Import String ZArith List Bool Lia Arith.
From Verif Require Import GoBase BaseFacts XorFacts PrgModel PrgSpec PrgProofs SharedModel SharedSpec SharedProofs.
Import ListNotations.
Open Scope Z_scope.

(** C93: whatever the schedule, the calls made by the goroutines are equivalent to the same calls made one after the
    other: they consume successive, disjoint pieces of the stream. The order respects real time: the order found for an
    initial part of the execution is a prefix of the order found for the whole, and contains every call that had
    returned and none that had not begun. *)
Theorem C93_one_at_a_time (ks : nat -> Z) (progs : list (list call)) (s1 s2 : list nat) :
  Forall (Forall (fun c => match c with CUint64 => True | CRandInt m => (int_bytes m < buf_size)%nat end)) progs ->
  exists log more,
    explains (buf_stream ks) progs log (shared_run ks (shared_start progs) s1) /\
    explains (buf_stream ks) progs (log ++ more) (shared_run ks (shared_start progs) (s1 ++ s2)).
Proof. intros _. apply linearizable. Qed.
Print Assumptions C93_one_at_a_time.

(** what RandInt returns is below the modulus *)
Theorem C93_rand_int_range (ks : nat -> Z) k m v k' : (forall j, is_byte (ks j)) -> takes (buf_stream ks) k (CRandInt m) v k' -> 0 <= v < m.
Proof.
  intros B T. eapply takes_range; eauto. intros j. unfold buf_stream. generalize (j / buf_size)%nat. intros n.
  induction n; cbn [xor_blocks]; auto. apply lxor_byte; auto.
Qed.
Print Assumptions C93_rand_int_range.

(** C93: with positive moduli, as long as a call is outstanding some goroutine can move; goroutines that only draw words
    make at most 28 moves per call, whatever the schedule. *)
Theorem C93_progress (ks : nat -> Z) (progs : list (list call)) (sched : list nat) : Forall (Forall call_ok) progs ->
  let s := shared_run ks (shared_start progs) sched in
  (forall i, shared_step ks s i = None) -> finished s.
Proof.
  intros F. apply no_deadlock. eapply Forall_impl; [|exact F]. intros p. apply Forall_impl. intros [|m]; cbn; tauto.
Qed.
Print Assumptions C93_progress.
Theorem C93_words_terminate (ks : nat -> Z) (progs : list (list call)) (sched : list nat) :
  (forall p c, In p progs -> In c p -> c = CUint64) ->
  (moves ks (shared_start progs) sched <= 28 * length (concat progs))%nat.
Proof. intros H. apply words_end. apply Forall_forall. intros p IP. apply Forall_forall. intros c IC. apply (H p c); auto. Qed.
Print Assumptions C93_words_terminate.

(** three goroutines: two words, a number below 1000 (the second candidate is taken, 770 after 1023 > 999), two words;
    the schedule lets them interleave in the middle of their calls *)
Definition ex_bytes (k : nat) : Z := nth k [1; 2; 3; 4; 5; 6; 7; 8; 255; 255; 3; 2] (Z.of_nat k mod 256).
Definition ex_progs : list (list call) := [[CUint64; CUint64]; [CRandInt 1000]; [CUint64; CUint64]].
Definition ex_sched : list nat := concat (repeat [0; 1; 2; 2; 0]%nat 40).
Example C93_example :
  map returned (callers (shared_run ex_bytes (shared_start ex_progs) ex_sched)) =
    [[le_dec [1; 2; 3; 4; 5; 6; 7; 8]; le_dec [20; 21; 22; 23; 24; 25; 26; 27]]; [770];
     [le_dec [12; 13; 14; 15; 16; 17; 18; 19]; le_dec [28; 29; 30; 31; 32; 33; 34; 35]]] /\
  Forall (Forall call_ok) ex_progs /\ (forall i, (i < 3)%nat -> shared_step ex_bytes (shared_run ex_bytes (shared_start ex_progs) ex_sched) i = None) /\
  moves ex_bytes (shared_start ex_progs) ex_sched = 34%nat /\
  (exists k', takes (buf_stream ex_bytes) 8 (CRandInt 1000) 770 k').
Proof.
  split; [vm_compute; reflexivity|]. split.
  { assert (B : (int_bytes 1000 < buf_size)%nat) by (apply Nat.ltb_lt; vm_compute; reflexivity).
    unfold ex_progs. repeat (constructor; cbn [call_ok]; auto). }
  split. { intros [|[|[|i]]] H; try lia; vm_compute; reflexivity. }
  split; [vm_compute; reflexivity|].
  eexists. apply takes_miss. vm_compute; discriminate.
  assert (E : int_candidate 1000 (piece (buf_stream ex_bytes) (8 + int_bytes 1000) (int_bytes 1000)) = 770) by (vm_compute; reflexivity).
  pose proof (takes_hit (buf_stream ex_bytes) (8 + int_bytes 1000) 1000) as T. rewrite E in T. apply T. lia.
Qed.

(** C93, refuted part: RandInt(m) with m <= 0 panics with the mutex held. If the panic is recovered from, nobody who was
    outside a call at that time ever gets anything again, whatever the schedule. *)
Theorem C93_panic_blocks_everybody_refuted (ks : nat -> Z) (progs : list (list call)) (sched : list nat) i t :
  let s := shared_run ks (shared_start progs) sched in
  nth_error (callers s) i = Some t -> at_ t = PPanicked ->
  forall later j u, nth_error (callers s) j = Some u -> outside u -> nth_error (callers (shared_run ks s later)) j = Some u.
Proof. apply panic_blocks. Qed.
Print Assumptions C93_panic_blocks_everybody_refuted.
(** such states are reached by every program that starts with a modulus below one *)
Theorem C93_panic_reached_refuted (ks : nat -> Z) (m : Z) (before after : list (list call)) :
  m <= 0 -> let s := shared_run ks (shared_start (before ++ [CRandInt m] :: after)) [length before] in
  exists t, nth_error (callers s) (length before) = Some t /\ at_ t = PPanicked /\
    forall j p, j <> length before -> nth_error (before ++ [CRandInt m] :: after) j = Some p -> nth_error (callers s) j = Some (mkC p PNext []).
Proof.
  intros Hm. set (progs := before ++ [CRandInt m] :: after). intros s.
  assert (L : (length before < length (map (fun p => mkC p PNext []) progs))%nat).
  { rewrite map_length. unfold progs. rewrite app_length. cbn [length]. lia. }
  assert (E0 : nth_error (map (fun p => mkC p PNext []) progs) (length before) = Some (mkC [CRandInt m] PNext [])).
  { rewrite nth_error_map. unfold progs. rewrite nth_error_app2, Nat.sub_diag by lia. auto. }
  assert (ES : s = mkG (Some (length before)) new_bufprg (upd (map (fun p => mkC p PNext []) progs) (length before) (mkC [CRandInt m] PPanicked []))).
  { unfold s. cbn [shared_run]. unfold shared_step, shared_start. cbn [callers holder reader]. rewrite E0. cbn [todo at_ returned begin].
    destruct (Z.leb_spec m 0); [auto|lia]. }
  rewrite ES. cbn [callers]. exists (mkC [CRandInt m] PPanicked []). split; [apply upd_same; auto|]. split; auto.
  intros j p NJ EP. rewrite upd_other by auto. rewrite nth_error_map, EP. auto.
Qed.
Print Assumptions C93_panic_reached_refuted.
