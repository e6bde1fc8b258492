(** Properties of the benchmark drivers and of the parameters they deploy. *)
From Coq Require Import String ZArith List Bool Lia.
From Verif Require Import GoBase BaseFacts EncodingModel MatrixModel LWEModel LWESpec LWEProofs3 SimulModel AmplifySpec AmplifyProofs AmplifyProofs2 AmplifyProofs3.
Import ListNotations.
Open Scope Z_scope.
Open Scope go_scope.

(** *** C88: integrity of the deployed amplification *)
Lemma benchmark_cases len t rows db abytes cs index : benchmark len t rows db abytes cs index ->
  (len = 2 ^ 13 /\ t = 3%nat /\ Z.of_nat rows = 91 \/ len = 2 ^ 23 /\ t = 4%nat /\ Z.of_nat rows = 2897 \/ len = 2 ^ 33 /\ t = 7%nat /\ Z.of_nat rows = 92682) /\
  lp_b (simul_lwe_params len) = 84 * Z.of_nat rows /\ length cs = (2 * t + 1)%nat /\
  deployment (simul_lwe_params len) db rows rows (Z.to_nat 1100) /\ Forall (fun c => drawn 4 abytes c rows (Z.to_nat 1100)) cs /\ 0 <= index < Z.of_nat rows * Z.of_nat rows.
Proof.
  intros (T & S & HD & BD & LC & F & HI).
  assert (C : len = 2 ^ 13 /\ t = 3%nat /\ Z.of_nat rows = 91 \/ len = 2 ^ 23 /\ t = 4%nat /\ Z.of_nat rows = 2897 \/ len = 2 ^ 33 /\ t = 7%nat /\ Z.of_nat rows = 92682).
  { assert (X1 : simul_lwe_shape (2 ^ 13) = (91, 91)) by (vm_compute; reflexivity).
    assert (X2 : simul_lwe_shape (2 ^ 23) = (2897, 2897)) by (vm_compute; reflexivity).
    assert (X3 : simul_lwe_shape (2 ^ 33) = (92682, 92682)) by (vm_compute; reflexivity).
    unfold t_ecc in T. destruct (Z.eqb_spec len (2 ^ 13)) as [E|_]; [left|right; destruct (Z.eqb_spec len (2 ^ 23)) as [E|_]; [left|right; destruct (Z.eqb_spec len (2 ^ 33)) as [E|_]; [|discriminate T]]].
    all: (split; [exact E|]; split; [congruence|]; rewrite E in S; first [rewrite X1 in S|rewrite X2 in S|rewrite X3 in S]; congruence). }
  split; [exact C|].
  assert (P : simul_lwe_params len = params_32 (Z.of_nat rows) (Z.of_nat rows)).
  { unfold simul_lwe_params. rewrite <- S. reflexivity. }
  rewrite P. conj_split; auto.
  - unfold params_32, compute_B, u32. cbn [lp_b]. rewrite Z.mod_small; [lia|]. unfold w32. destruct C as [(_ & _ & C)|[(_ & _ & C)|(_ & _ & C)]]; lia.
  - rewrite LC. unfold repetitions. lia.
  - unfold deployment, params_32. cbn [lp_l lp_m lp_n]. conj_split; try assumption; try reflexivity; try lia.
  - apply HI.
  - apply HI.
Qed.

(** A stored 0 is read as 1 with probability at most 2^-64 over the scaling secrets, whatever the server adds to its answers. *)
Theorem C88_zero_bits : forall len t rows abytes dmem db cs index deltas, benchmark len t rows db abytes cs index ->
  length deltas = length cs -> Forall (fun d => length d = rows) deltas -> nth (Z.to_nat index) (m_data db) 0 = 0 ->
  2 ^ 64 * count_words (2 ^ 32) (repetitions t) (fun ts =>
    wrong (amplify_session (simul_lwe_params len) abytes dmem db (scaled cs ts) (amplify_deviating db deltas) index) 0)
  <= (2 ^ 32) ^ Z.of_nat (repetitions t).
Proof.
  intros len t rows abytes dmem db cs index deltas BM LD FD B0. destruct (benchmark_cases _ _ _ _ _ _ _ BM) as (C & PB & LC & DE & F & HI).
  pose proof (amplify_count_zero (simul_lwe_params len) abytes dmem db cs rows rows (Z.to_nat 1100) t index deltas DE LC F) as A.
  unfold bit_at in A. rewrite B0, PB in A. replace (repetitions t) with (2 * t + 1)%nat by (unfold repetitions; lia).
  change (2 ^ 32) with w32 in *. specialize (A ltac:(unfold w32; lia) ltac:(unfold w32; lia) ltac:(unfold w32; lia) ltac:(lia) ltac:(unfold w32; lia) HI LD FD eq_refl).
  eapply Z.le_trans; [apply Z.mul_le_mono_nonneg_l; [lia|exact A]|]. clear - C.
  destruct C as [(_ & -> & ->)|[(_ & -> & ->)|(_ & -> & ->)]]; vm_compute; discriminate.
Qed.
Print Assumptions C88_zero_bits.

(** For either stored bit the probability of reading the wrong one is at most 2^-68 (1 KiB), 2^-59 (1 MiB), 2^-53 (1 GiB). *)
Theorem C88_any_bits_partial : forall len t rows abytes dmem db cs index deltas level, benchmark len t rows db abytes cs index ->
  length deltas = length cs -> Forall (fun d => length d = rows) deltas ->
  In (len, level) [(2 ^ 13, 68); (2 ^ 23, 59); (2 ^ 33, 53)] ->
  2 ^ level * count_words (2 ^ 32) (repetitions t) (fun ts =>
    wrong (amplify_session (simul_lwe_params len) abytes dmem db (scaled cs ts) (amplify_deviating db deltas) index) (nth (Z.to_nat index) (m_data db) 0))
  <= (2 ^ 32) ^ Z.of_nat (repetitions t).
Proof.
  intros len t rows abytes dmem db cs index deltas level BM LD FD I. destruct (benchmark_cases _ _ _ _ _ _ _ BM) as (C & PB & LC & DE & F & HI).
  pose proof (amplify_count (simul_lwe_params len) abytes dmem db cs rows rows (Z.to_nat 1100) t index deltas DE LC F) as A.
  unfold bit_at in A. rewrite PB in A. replace (repetitions t) with (2 * t + 1)%nat by (unfold repetitions; lia).
  change (2 ^ 32) with w32 in *. specialize (A ltac:(unfold w32; lia) ltac:(unfold w32; lia) ltac:(unfold w32; lia) ltac:(lia) ltac:(unfold w32; lia) HI LD FD).
  eapply Z.le_trans; [apply Z.mul_le_mono_nonneg_l; [|exact A]|]; clear - C I.
  - cbn [In] in I. intuition (try congruence); match goal with H : _ = (_, level) |- _ => injection H as _ <- end; lia.
  - destruct I as [I|[I|[I|[]]]]; injection I as <- <-; destruct C as [(X & -> & ->)|[(X & -> & ->)|(X & -> & ->)]]; try discriminate X; vm_compute; discriminate.
Qed.
Print Assumptions C88_any_bits_partial.

(** Refuted: for 1 MiB and 1 GiB, a stored 1 is read as 0 with probability above 2^-64 even if the server is honest, for every database,
    every noise within the bound and every choice of the other secrets. *)
Theorem C88_one_bits_refuted : forall len t rows abytes dmem db cs index, benchmark len t rows db abytes cs index ->
  len = 2 ^ 23 \/ len = 2 ^ 33 ->
  Forall (fun c => forall k, (k < rows)%nat -> Z.abs (noise (c_noise c) db rows k) < 84 * Z.of_nat rows) cs ->
  nth (Z.to_nat index) (m_data db) 0 = 1 ->
  (2 ^ 32) ^ Z.of_nat (repetitions t) < 2 ^ 64 * count_words (2 ^ 32) (repetitions t) (fun ts =>
    wrong (amplify_session (simul_lwe_params len) abytes dmem db (scaled cs ts) (amplify_answer_bytes db) index) 1).
Proof.
  intros len t rows abytes dmem db cs index BM BIG FN B1. destruct (benchmark_cases _ _ _ _ _ _ _ BM) as (C & PB & LC & DE & F & HI).
  pose proof (amplify_honest_count (simul_lwe_params len) abytes dmem db cs rows rows (Z.to_nat 1100) t index [] DE LC F) as A.
  unfold bit_at in A. rewrite B1, PB in A. replace (repetitions t) with (2 * t + 1)%nat by (unfold repetitions; lia).
  change (2 ^ 32) with w32 in *. specialize (A ltac:(unfold w32; lia) ltac:(unfold w32; lia) ltac:(unfold w32; lia) ltac:(lia) ltac:(unfold w32; lia) HI eq_refl FN).
  eapply Z.lt_le_trans; [|apply Z.mul_le_mono_nonneg_l; [lia|exact A]]. clear - C BIG.
  destruct C as [(X & -> & ->)|[(X & -> & ->)|(X & -> & ->)]]; [exfalso; destruct BIG as [E|E]; rewrite E in X; discriminate X|vm_compute; reflexivity|vm_compute; reflexivity].
Qed.
Print Assumptions C88_one_bits_refuted.

(** Databases of equal bits and noiseless draws meet the hypotheses for every deployed size; the counting function on small cases. *)
Definition flat_db (v : Z) (rows : nat) : matrix := mkM (Z.of_nat rows) (Z.of_nat rows) (repeat v (rows * rows)).
Definition flat_coins (rows : nat) : lwe_coins :=
  mkC [0; 0; 1; 0] (repeat 77 (4 * Z.to_nat 1100)) (repeat 0 rows) (fun _ => 0) (fun _ => 0) (fun _ => 0).
Lemma flat_benchmark v rows t len : v = 0 \/ v = 1 -> t_ecc len = Some t -> (Z.of_nat rows, Z.of_nat rows) = simul_lwe_shape len -> (0 < rows)%nat ->
  benchmark len t rows (flat_db v rows) (repeat 5 (4 * Z.to_nat 1100 * rows)) (repeat (flat_coins rows) (repetitions t)) 0 /\
  Forall (fun c => forall k, (k < rows)%nat -> Z.abs (noise (c_noise c) (flat_db v rows) rows k) < 84 * Z.of_nat rows) (repeat (flat_coins rows) (repetitions t)) /\
  nth (Z.to_nat 0) (m_data (flat_db v rows)) 0 = v.
Proof.
  intros HV T S R. assert (RB : forall b m, is_byte b -> bytes (repeat b m)).
  { intros b m Hb. apply Forall_forall. intros x I. apply repeat_spec in I. subst x. exact Hb. }
  split; [|split].
  - unfold benchmark, flat_db. split; [exact T|]. split; [exact S|]. split.
    { split; [|apply repeat_length]. unfold shape. cbn [m_rows m_cols m_data]. rewrite repeat_length. lia. }
    split. { apply Forall_forall. intros x I. apply repeat_spec in I. subst x. exact HV. }
    split; [apply repeat_length|]. split; [|lia].
    apply Forall_forall. intros c I. apply repeat_spec in I. subst c. unfold drawn, flat_coins. cbn [c_t c_secret c_noise].
    conj_split; try apply RB; try apply repeat_length; try (unfold is_byte, w8; lia); try reflexivity.
    unfold bytes, is_byte, w8. repeat (apply Forall_cons; [lia|]). apply Forall_nil.
  - apply Forall_forall. intros c I k Hk. apply repeat_spec in I. subst c. unfold flat_coins. cbn [c_noise].
    assert (N0 : noise (repeat 0 rows) (flat_db v rows) rows k = 0); [|rewrite N0; lia].
    unfold noise, sum_to. set (g := fun r => nth r (repeat 0 rows) 0 * elem (flat_db v rows) r k).
    assert (G : forall l : list nat, zsum (map g l) = 0); [|apply G].
    induction l as [|x l IH]; cbn [map zsum]; [reflexivity|]. rewrite IH. unfold g. rewrite nth_repeat. lia.
  - unfold flat_db. cbn [m_data]. destruct rows as [|r]; [lia|]. cbn [Nat.mul Nat.add repeat]. reflexivity.
Qed.
Example C88_example :
  (exists db abytes cs, benchmark (2 ^ 23) 4 (Z.to_nat 2897) db abytes cs 0 /\ nth (Z.to_nat 0) (m_data db) 0 = 1 /\
    Forall (fun c => forall k, (k < Z.to_nat 2897)%nat -> Z.abs (noise (c_noise c) db (Z.to_nat 2897) k) < 84 * Z.of_nat (Z.to_nat 2897)) cs) /\
  (exists db abytes cs, benchmark (2 ^ 33) 7 (Z.to_nat 92682) db abytes cs 0 /\ nth (Z.to_nat 0) (m_data db) 0 = 0) /\
  count_words 4 3 (fun l => zsum l =? 2) = 6 /\ count_words 2 5 (fun _ => true) = 2 ^ 5 /\ choose 8 4 = 70 /\
  wrong (Ok 1) 0 = true /\ wrong (Err "REJECT") 0 = false.
Proof.
  split; [|split].
  - destruct (flat_benchmark 1 (Z.to_nat 2897) 4 (2 ^ 23) ltac:(auto) eq_refl) as (A & B & C); [rewrite Z2Nat.id by lia; vm_compute; reflexivity|lia|].
    eexists _, _, _. split; [exact A|]. split; [exact C|exact B].
  - destruct (flat_benchmark 0 (Z.to_nat 92682) 7 (2 ^ 33) ltac:(auto) eq_refl) as (A & B & C); [rewrite Z2Nat.id by lia; vm_compute; reflexivity|lia|].
    eexists _, _, _. split; [exact A|exact C].
  - repeat split.
Qed.

(** *** C42: how often an honest answer is misread *)
Theorem C42_honest_error_count : forall p abytes dmem db c rows cols n index, deployment p db rows cols n -> drawn 4 abytes c rows n ->
  0 <= index < Z.of_nat rows * Z.of_nat cols -> 2 * lp_b p - 1 <= 2 ^ 32 ->
  (forall k, (k < cols)%nat -> Z.abs (noise (c_noise c) db rows k) < lp_b p) ->
  count_words (2 ^ 32) 1 (fun ts => wrong (lwe_session32 p abytes dmem db (with_t c (le_enc 4 (hd 0 ts))) (lwe_answer_bytes32 db) index)
    (nth (Z.to_nat index) (m_data db) 0)) =
  if nth (Z.to_nat index) (m_data db) 0 =? 0 then 0 else 2 * lp_b p - 1.
Proof. exact lwe32_error_count. Qed.
Print Assumptions C42_honest_error_count.
Example C42_count_example : forall rows, (0 < rows)%nat -> Z.of_nat rows < 2 ^ 24 ->
  2 * lp_b (params_32 (Z.of_nat rows) (Z.of_nat rows)) - 1 <= 2 ^ 32 /\
  deployment (params_32 (Z.of_nat rows) (Z.of_nat rows)) (flat_db 1 rows) rows rows (Z.to_nat 1100) /\
  drawn 4 (repeat 5 (4 * Z.to_nat 1100 * rows)) (flat_coins rows) rows (Z.to_nat 1100) /\
  nth (Z.to_nat 0) (m_data (flat_db 1 rows)) 0 = 1 /\
  (forall k, (k < rows)%nat -> Z.abs (noise (c_noise (flat_coins rows)) (flat_db 1 rows) rows k) < 84 * Z.of_nat rows).
Proof.
  intros rows R R2. assert (RB : forall b m, is_byte b -> bytes (repeat b m)).
  { intros b m Hb. apply Forall_forall. intros x I. apply repeat_spec in I. subst x. exact Hb. }
  split; [|split; [|split; [|split]]].
  - unfold params_32, compute_B, u32. cbn [lp_b]. rewrite Z.mod_small; unfold w32; lia.
  - unfold deployment, params_32, flat_db. cbn [lp_l lp_m lp_n]. split.
    { split; [|apply repeat_length]. unfold shape. cbn [m_rows m_cols m_data]. rewrite repeat_length. lia. }
    split. { apply Forall_forall. intros x I. apply repeat_spec in I. subst x. right. reflexivity. }
    conj_split; try reflexivity; try lia.
  - unfold drawn, flat_coins. cbn [c_t c_secret c_noise].
    conj_split; try apply RB; try apply repeat_length; try (unfold is_byte, w8; lia); try reflexivity.
    unfold bytes, is_byte, w8. repeat (apply Forall_cons; [lia|]). apply Forall_nil.
  - unfold flat_db. cbn [m_data]. destruct rows as [|r]; [lia|]. cbn [Nat.mul Nat.add repeat]. reflexivity.
  - intros k Hk. unfold flat_coins. cbn [c_noise].
    assert (N0 : noise (repeat 0 rows) (flat_db 1 rows) rows k = 0); [|rewrite N0; lia].
    unfold noise, sum_to. set (g := fun r => nth r (repeat 0 rows) 0 * elem (flat_db 1 rows) r k).
    assert (G : forall l : list nat, zsum (map g l) = 0); [|apply G].
    induction l as [|x l IH]; cbn [map zsum]; [reflexivity|]. rewrite IH. unfold g. rewrite nth_repeat. lia.
Qed.
