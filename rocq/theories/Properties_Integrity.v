(** Property C134: the script that chooses the number of repetitions of the amplified lattice scheme. Vocabulary in IntegritySpec.v and
    AmplifySpec.v. *)
From Coq Require Import String ZArith List Bool Lia.
From Verif Require Import GoBase BaseFacts EncodingModel MatrixModel LWEModel LWESpec LWEProofs3 SimulModel AmplifySpec AmplifyProofs AmplifyProofs2 AmplifyProofs3 IntegrityModel IntegritySpec IntegrityProofs Properties_Simul.
Import ListNotations.
Open Scope Z_scope.
Open Scope go_scope.

(** The bound is the least number that is at least 6.4 times the square root of 128 times the size. *)
Theorem C134_bound : forall size, 0 <= size ->
  0 <= script_bound size /\ 32 ^ 2 * (128 * size) <= (5 * script_bound size) ^ 2 /\ forall b, 0 <= b < script_bound size -> (5 * b) ^ 2 < 32 ^ 2 * (128 * size).
Proof.
  intros size N. unfold script_bound. set (y := (1024 * (size * 128) + 24) / 25).
  assert (Y : 25 * (y - 1) < 1024 * (size * 128) <= 25 * y). { unfold y. pose proof (Z.div_mod (1024 * (size * 128) + 24) 25 ltac:(lia)). pose proof (Z.mod_pos_bound (1024 * (size * 128) + 24) 25 ltac:(lia)). lia. }
  clearbody y. pose proof (Z.sqrt_up_nonneg y). split; [lia|]. destruct (Z.eq_dec size 0) as [->|NZ].
  - assert (y = 0 \/ y < 0) as L by lia. assert (Z.sqrt_up y = 0) as -> by (apply Z.sqrt_up_eqn0; lia). split; [lia|]. intros b B. lia.
  - assert (YP : 0 < y) by lia. pose proof (Z.sqrt_up_spec y YP) as (L & U). split; [nia|]. intros b B. assert (b <= Z.pred (Z.sqrt_up y)) by lia. assert (b * b < y) by nia. nia.
Qed.
Print Assumptions C134_bound.

(** The tolerance is the least one, from one on, for which the error (2B-1)/(2^32-4B+1) to the power t+1 is at most 2^-level; nothing is
    printed for a size only if none is in the range that is tried. *)
Theorem C134_least : forall level top size, let error_small t := (2 * script_bound size - 1) ^ (Z.of_nat t + 1) * 2 ^ level <= (2 ^ 32 - 4 * script_bound size + 1) ^ (Z.of_nat t + 1) in
  (forall t, script_tolerance level top size = Some t -> (1 <= t < top)%nat /\ error_small t /\ forall t', (1 <= t' < t)%nat -> ~ error_small t') /\
  (script_tolerance level top size = None -> forall t, (1 <= t < top)%nat -> ~ error_small t).
Proof.
  intros level top size error_small.
  assert (M : forall t, script_meets (script_bound size) level t = true <-> error_small t).
  { intros t. unfold script_meets, error_small. rewrite Z.leb_le, Nat2Z.inj_add. reflexivity. }
  assert (G : forall m s, match find (script_meets (script_bound size) level) (seq s m) with
    | Some t => (s <= t < s + m)%nat /\ error_small t /\ forall t', (s <= t' < t)%nat -> ~ error_small t'
    | None => forall t, (s <= t < s + m)%nat -> ~ error_small t end).
  { induction m as [|m IH]; intros s; cbn [seq find]; [intros; lia|]. destruct (script_meets _ _ s) eqn:E.
    - split; [lia|]. split; [apply M; exact E|]. intros; lia.
    - assert (NS : ~ error_small s) by (intros X; apply M in X; congruence). specialize (IH (S s)). destruct (find _ _) as [t|].
      + destruct IH as (A & B & C). split; [lia|]. split; [exact B|]. intros t' L. destruct (Nat.eq_dec t' s) as [->|]; [exact NS|apply C; lia].
      + intros t L. destruct (Nat.eq_dec t s) as [->|]; [exact NS|apply IH; lia]. }
  specialize (G (top - 1)%nat 1%nat). unfold script_tolerance. split.
  - intros t E. rewrite E in G. destruct G as (A & B & C). split; [lia|]. split; [exact B|exact C].
  - intros E t L. rewrite E in G. apply G. lia.
Qed.
Print Assumptions C134_least.

(** The benchmark uses for every database size exactly the tolerance printed for 2^-64. *)
Theorem C134_used : forall len, In len script_sizes \/ t_ecc len <> None -> t_ecc len = script_tolerance 64 15 len.
Proof.
  assert (X : forall len, len = 2 ^ 13 \/ len = 2 ^ 23 \/ len = 2 ^ 33 -> t_ecc len = script_tolerance 64 15 len) by (intros len [->|[->| ->]]; vm_compute; reflexivity).
  intros len [I|N]; apply X.
  - destruct I as [I|[I|[I|[]]]]; subst; auto.
  - unfold t_ecc in N. destruct (Z.eqb_spec len (2 ^ 13)); [auto|]. destruct (Z.eqb_spec len (2 ^ 23)); [auto|]. destruct (Z.eqb_spec len (2 ^ 33)); [auto|congruence].
Qed.
Print Assumptions C134_used.

(** With the bound of the script, the printed tolerance is enough: a stored 0 is read as 1 with probability at most 2^-level over the scaling
    secrets, whatever the server adds to its answers. Partial: stored zeros, and a client that uses this bound. *)
Theorem C134_own_bound_partial :
  forall level top size t p abytes dmem db cs rows cols index deltas, 0 <= level -> 0 < size < 2 ^ 40 -> script_tolerance level top size = Some t -> Z.of_nat top < 2 ^ 31 ->
  deployment p db rows cols (Z.to_nat 1100) -> Forall (fun c => drawn 4 abytes c rows (Z.to_nat 1100)) cs -> length cs = repetitions t ->
  0 < lp_b p <= script_bound size -> Z.of_nat rows < 2 ^ 29 -> Z.of_nat cols < 2 ^ 29 -> 0 <= index < Z.of_nat rows * Z.of_nat cols ->
  length deltas = length cs -> Forall (fun d => length d = cols) deltas -> nth (Z.to_nat index) (m_data db) 0 = 0 ->
  at_most level (count_words (2 ^ 32) (repetitions t) (fun ts => wrong (amplify_session p abytes dmem db (scaled cs ts) (amplify_deviating db deltas) index) 0)) (2 ^ 32) (repetitions t).
Proof.
  intros level top size t p abytes dmem db cs rows cols index deltas HL SZ TT HT DE F LC HB HR HC HI LD FD B0.
  destruct (proj1 (C134_least level top size) t TT) as (LT & ER & _).
  destruct (C134_bound size ltac:(lia)) as (_ & _ & MIN). set (B := script_bound size) in *.
  assert (BU : B <= 2 ^ 27). { destruct (Z.le_gt_cases B (2 ^ 27)) as [|G]; [assumption|]. specialize (MIN (2 ^ 27) ltac:(lia)). lia. }
  assert (R2 : repetitions t = (2 * t + 1)%nat) by (unfold repetitions; lia).
  pose proof (amplify_count_zero p abytes dmem db cs rows cols (Z.to_nat 1100) t index deltas DE) as A. rewrite R2 in LC. specialize (A LC F).
  unfold bit_at in A. rewrite B0 in A. change (2 ^ 32) with w32 in *. specialize (A ltac:(unfold w32; lia) ltac:(unfold w32; lia) ltac:(unfold w32; lia) ltac:(lia) ltac:(unfold w32; lia) HI LD FD eq_refl).
  unfold at_most. rewrite R2. set (c := count_words _ _ _) in *. clearbody c.
  assert (P1 : (2 * lp_b p - 1) ^ Z.of_nat (t + 1) <= (2 * B - 1) ^ Z.of_nat (t + 1)) by (apply Z.pow_le_mono_l; lia).
  assert (P2 : (w32 - 4 * B + 1) ^ (Z.of_nat t + 1) <= w32 ^ (Z.of_nat t + 1)) by (apply Z.pow_le_mono_l; unfold w32 in *; lia).
  assert (W : 0 < w32 ^ Z.of_nat t) by (apply Z.pow_pos_nonneg; unfold w32; lia).
  replace (Z.of_nat (2 * t + 1)) with ((Z.of_nat t + 1) + Z.of_nat t) by lia. rewrite Z.pow_add_r by lia.
  replace (Z.of_nat (t + 1)) with (Z.of_nat t + 1) in * by lia. pose proof (Z.pow_nonneg 2 level ltac:(lia)).
  apply Z.le_trans with (2 ^ level * ((2 * lp_b p - 1) ^ (Z.of_nat t + 1) * w32 ^ Z.of_nat t)); [apply Z.mul_le_mono_nonneg_l; assumption|].
  apply Z.le_trans with (2 ^ level * ((2 * B - 1) ^ (Z.of_nat t + 1) * w32 ^ Z.of_nat t)); [apply Z.mul_le_mono_nonneg_l; [assumption|]; apply Z.mul_le_mono_nonneg_r; lia|].
  rewrite Z.mul_assoc. apply Z.mul_le_mono_nonneg_r; [lia|]. rewrite (Z.mul_comm (2 ^ level)). etransitivity; [exact ER|exact P2].
Qed.
Print Assumptions C134_own_bound_partial.

(** The bound that the client uses is larger than the one of the script, for every square database. *)
Theorem C134_client_bound_refuted :
  forall rows, 0 < rows < 2 ^ 25 -> script_bound (rows * rows) < lp_b (params_32 rows rows).
Proof.
  intros rows R. assert (E : lp_b (params_32 rows rows) = 84 * rows). { unfold params_32, compute_B, u32. cbn [lp_b]. rewrite Z.mod_small; unfold w32; lia. } rewrite E.
  destruct (C134_bound (rows * rows) ltac:(nia)) as (N & _ & MIN). destruct (Z.lt_ge_cases (script_bound (rows * rows)) (84 * rows)) as [|G]; [assumption|].
  specialize (MIN (84 * rows - 1) ltac:(lia)). nia.
Qed.
Print Assumptions C134_client_bound_refuted.

(** What is known of a run of the client with the tolerance printed for 2^-128 *)
Lemma printed_128 len t rows db abytes cs index : In len script_sizes -> script_tolerance 128 20 len = Some t -> amplified len t rows db abytes cs index ->
  (len = 2 ^ 13 /\ t = 6%nat /\ Z.of_nat rows = 91 \/ len = 2 ^ 23 /\ t = 9%nat /\ Z.of_nat rows = 2897 \/ len = 2 ^ 33 /\ t = 15%nat /\ Z.of_nat rows = 92682) /\
  lp_b (simul_lwe_params len) = 84 * Z.of_nat rows /\ length cs = (2 * t + 1)%nat /\ deployment (simul_lwe_params len) db rows rows (Z.to_nat 1100).
Proof.
  intros I T (S & HD & BD & LC & F & HI).
  assert (C : len = 2 ^ 13 /\ t = 6%nat /\ Z.of_nat rows = 91 \/ len = 2 ^ 23 /\ t = 9%nat /\ Z.of_nat rows = 2897 \/ len = 2 ^ 33 /\ t = 15%nat /\ Z.of_nat rows = 92682).
  { assert (X1 : simul_lwe_shape (2 ^ 13) = (91, 91)) by (vm_compute; reflexivity).
    assert (X2 : simul_lwe_shape (2 ^ 23) = (2897, 2897)) by (vm_compute; reflexivity).
    assert (X3 : simul_lwe_shape (2 ^ 33) = (92682, 92682)) by (vm_compute; reflexivity).
    assert (Y1 : script_tolerance 128 20 (2 ^ 13) = Some 6%nat) by (vm_compute; reflexivity).
    assert (Y2 : script_tolerance 128 20 (2 ^ 23) = Some 9%nat) by (vm_compute; reflexivity).
    assert (Y3 : script_tolerance 128 20 (2 ^ 33) = Some 15%nat) by (vm_compute; reflexivity).
    destruct I as [<-|[<-|[<-|[]]]]; [left|right; left|right; right]; (split; [reflexivity|]; split; congruence). }
  split; [exact C|].
  assert (P : simul_lwe_params len = params_32 (Z.of_nat rows) (Z.of_nat rows)) by (unfold simul_lwe_params; rewrite <- S; reflexivity).
  rewrite P. split; [|split].
  - unfold params_32, compute_B, u32. cbn [lp_b]. rewrite Z.mod_small; [lia|]. unfold w32. destruct C as [(_ & _ & C)|[(_ & _ & C)|(_ & _ & C)]]; lia.
  - rewrite LC. unfold repetitions. lia.
  - unfold deployment, params_32. cbn [lp_l lp_m lp_n]. conj_split; try assumption; try reflexivity; try lia.
Qed.

(** All the same, the client with the tolerance printed for 2^-128 reads a stored 0 as 1 with at most this probability for 1 MiB and 1 GiB, and
    with at most 2^-126 for 1 KiB. Partial: stored zeros. *)
Theorem C134_128_partial :
  forall len t rows abytes dmem db cs index deltas level, In (len, level) [(2 ^ 13, 126); (2 ^ 23, 128); (2 ^ 33, 128)] -> script_tolerance 128 20 len = Some t ->
  amplified len t rows db abytes cs index -> length deltas = length cs -> Forall (fun d => length d = rows) deltas -> nth (Z.to_nat index) (m_data db) 0 = 0 ->
  at_most level (count_words (2 ^ 32) (repetitions t) (fun ts => wrong (amplify_session (simul_lwe_params len) abytes dmem db (scaled cs ts) (amplify_deviating db deltas) index) 0)) (2 ^ 32) (repetitions t).
Proof.
  intros len t rows abytes dmem db cs index deltas level I T AM LD FD B0.
  assert (IS : In len script_sizes) by (destruct I as [I|[I|[I|[]]]]; injection I as <- _; cbn; auto).
  destruct (printed_128 _ _ _ _ _ _ _ IS T AM) as (C & PB & LC & DE). destruct AM as (_ & _ & _ & _ & F & HI).
  pose proof (amplify_count_zero (simul_lwe_params len) abytes dmem db cs rows rows (Z.to_nat 1100) t index deltas DE LC F) as A.
  unfold bit_at in A. rewrite B0, PB in A. replace (repetitions t) with (2 * t + 1)%nat by (unfold repetitions; lia).
  change (2 ^ 32) with w32 in *. specialize (A ltac:(unfold w32; lia) ltac:(unfold w32; lia) ltac:(unfold w32; lia) ltac:(lia) ltac:(unfold w32; lia) HI LD FD eq_refl).
  unfold at_most. eapply Z.le_trans; [apply Z.mul_le_mono_nonneg_l; [|exact A]|]; clear - C I.
  - cbn [In] in I. intuition (try congruence); match goal with H : _ = (_, level) |- _ => injection H as _ <- end; lia.
  - destruct I as [I|[I|[I|[]]]]; injection I as <- <-; destruct C as [(X & -> & ->)|[(X & -> & ->)|(X & -> & ->)]]; try discriminate X; vm_compute; discriminate.
Qed.
Print Assumptions C134_128_partial.

Lemma choose_double : forall t, 2 ^ Z.of_nat t <= choose (2 * t) t.
Proof.
  induction t as [|t IH]; [cbn; lia|]. rewrite Nat2Z.inj_succ, Z.pow_succ_r by lia. replace (2 * S t)%nat with (S (S (2 * t))) by lia. set (m := (2 * t)%nat) in *. clearbody m.
  change (choose (S (S m)) (S t)) with (choose (S m) t + (choose m t + choose m (S t))). pose proof (choose_nonneg m (S t)).
  assert (choose m t <= choose (S m) t); [|lia]. destruct t as [|t]; [destruct m; cbn [choose]; lia|]. change (choose (S m) (S t)) with (choose m t + choose m (S t)). pose proof (choose_nonneg m t). lia.
Qed.
(** Refuted for stored ones, for every size: even with honest answers the wrong bit is read more often than the script says. *)
Theorem C134_128_refuted :
  forall len t rows abytes dmem db cs index, In len script_sizes -> script_tolerance 128 20 len = Some t -> amplified len t rows db abytes cs index ->
  Forall (fun c => forall k, (k < rows)%nat -> Z.abs (noise (c_noise c) db rows k) < 84 * Z.of_nat rows) cs -> nth (Z.to_nat index) (m_data db) 0 = 1 ->
  ~ at_most 128 (count_words (2 ^ 32) (repetitions t) (fun ts => wrong (amplify_session (simul_lwe_params len) abytes dmem db (scaled cs ts) (amplify_answer_bytes db) index) 1)) (2 ^ 32) (repetitions t).
Proof.
  intros len t rows abytes dmem db cs index IS T AM FN B1. destruct (printed_128 _ _ _ _ _ _ _ IS T AM) as (C & PB & LC & DE). destruct AM as (_ & _ & _ & _ & F & HI).
  pose proof (amplify_honest_count (simul_lwe_params len) abytes dmem db cs rows rows (Z.to_nat 1100) t index [] DE LC F) as A.
  unfold bit_at in A. rewrite B1, PB in A. replace (repetitions t) with (2 * t + 1)%nat by (unfold repetitions; lia).
  change (2 ^ 32) with w32 in *. specialize (A ltac:(unfold w32; lia) ltac:(unfold w32; lia) ltac:(unfold w32; lia) ltac:(lia) ltac:(unfold w32; lia) HI eq_refl FN).
  unfold at_most. apply Z.lt_nge. eapply Z.lt_le_trans; [|apply Z.mul_le_mono_nonneg_l; [lia|exact A]]. clear A.
  apply Z.lt_le_trans with (2 ^ 128 * (2 ^ Z.of_nat t * (2 * (84 * Z.of_nat rows) - 1) ^ Z.of_nat (t + 1) * (w32 - (2 * (84 * Z.of_nat rows) - 1)) ^ Z.of_nat t)).
  2: { apply Z.mul_le_mono_nonneg_l; [lia|]. apply Z.mul_le_mono_nonneg_r; [apply Z.pow_nonneg; unfold w32; lia|]. apply Z.mul_le_mono_nonneg_r; [apply Z.pow_nonneg; lia|apply choose_double]. }
  clear - C. destruct C as [(X & -> & ->)|[(X & -> & ->)|(X & -> & ->)]]; vm_compute; reflexivity.
Qed.
Print Assumptions C134_128_refuted.

(** Refuted for stored zeros at 1 KiB too: a server that adds 2^31 to the column asked for in its first t+1 answers makes the client read 1 more
    often than the script says. *)
Theorem C134_1KiB_zero_refuted :
  forall t rows abytes dmem db cs index, script_tolerance 128 20 (2 ^ 13) = Some t -> amplified (2 ^ 13) t rows db abytes cs index ->
  Forall (fun c => forall k, (k < rows)%nat -> Z.abs (noise (c_noise c) db rows k) < 84 * Z.of_nat rows) cs -> nth (Z.to_nat index) (m_data db) 0 = 0 ->
  let deltas := attack rows (Z.to_nat index mod rows) t in
  length deltas = length cs /\ Forall (fun d => length d = rows) deltas /\
  ~ at_most 128 (count_words (2 ^ 32) (repetitions t) (fun ts => wrong (amplify_session (simul_lwe_params (2 ^ 13)) abytes dmem db (scaled cs ts) (amplify_deviating db deltas) index) 0)) (2 ^ 32) (repetitions t).
Proof.
  intros t rows abytes dmem db cs index T AM FN B0 deltas. destruct (printed_128 (2 ^ 13) _ _ _ _ _ _ (or_introl eq_refl) T AM) as (C & PB & LC & DE). destruct AM as (_ & _ & _ & _ & F & HI).
  destruct C as [(_ & -> & C)|[(X & _)|(X & _)]]; [|discriminate X|discriminate X].
  unfold deltas. rewrite attack_length. split; [lia|]. split; [apply attack_cols|].
  pose proof (amplify_attack_count (simul_lwe_params (2 ^ 13)) abytes dmem db cs rows rows (Z.to_nat 1100) 6 index DE LC F) as A.
  unfold bit_at in A. rewrite PB in A. replace (repetitions 6) with (2 * 6 + 1)%nat by (unfold repetitions; lia).
  change (2 ^ 32) with w32 in *. specialize (A ltac:(unfold w32; lia) ltac:(unfold w32; lia) ltac:(unfold w32; lia) ltac:(lia) HI B0 FN).
  unfold at_most. apply Z.lt_nge. eapply Z.lt_le_trans; [|apply Z.mul_le_mono_nonneg_l; [lia|exact A]]. rewrite C. vm_compute. reflexivity.
Qed.
Print Assumptions C134_1KiB_zero_refuted.

(** The output of the script; databases of equal bits and noiseless draws meet the hypotheses; and a client with the bound of the script *)
Lemma flat_amplified v rows t len : v = 0 \/ v = 1 -> (Z.of_nat rows, Z.of_nat rows) = simul_lwe_shape len -> (0 < rows)%nat ->
  amplified len t rows (flat_db v rows) (repeat 5 (4 * Z.to_nat 1100 * rows)) (repeat (flat_coins rows) (repetitions t)) 0.
Proof.
  intros HV S R. assert (RB : forall b m, is_byte b -> bytes (repeat b m)).
  { intros b m Hb. apply Forall_forall. intros x I. apply repeat_spec in I. subst x. exact Hb. }
  unfold amplified, flat_db. split; [exact S|]. split.
  { split; [|apply repeat_length]. unfold shape. cbn [m_rows m_cols m_data]. rewrite repeat_length. lia. }
  split. { apply Forall_forall. intros x I. apply repeat_spec in I. subst x. exact HV. }
  split; [apply repeat_length|]. split; [|lia].
  apply Forall_forall. intros c I. apply repeat_spec in I. subst c. unfold drawn, flat_coins. cbn [c_t c_secret c_noise].
  conj_split; try apply RB; try apply repeat_length; try (unfold is_byte, w8; lia); try reflexivity.
  unfold bytes, is_byte, w8. repeat (apply Forall_cons; [lia|]). apply Forall_nil.
Qed.
Lemma flat_quiet v rows t : v = 0 \/ v = 1 -> (0 < rows)%nat ->
  Forall (fun c => forall k, (k < rows)%nat -> Z.abs (noise (c_noise c) (flat_db v rows) rows k) < 84 * Z.of_nat rows) (repeat (flat_coins rows) (repetitions t)).
Proof.
  intros HV R. apply Forall_forall. intros c I k Hk. apply repeat_spec in I. subst c. unfold flat_coins. cbn [c_noise].
    assert (N0 : noise (repeat 0 rows) (flat_db v rows) rows k = 0); [|rewrite N0; lia].
    unfold noise, sum_to. set (g := fun r => nth r (repeat 0 rows) 0 * elem (flat_db v rows) r k).
    assert (G : forall l : list nat, zsum (map g l) = 0); [|apply G].
    induction l as [|x l IH]; cbn [map zsum]; [reflexivity|]. rewrite IH. unfold g. rewrite nth_repeat. lia.
Qed.
Example C134_attack_example : forall v, v = 0 \/ v = 1 -> exists db abytes cs, amplified (2 ^ 13) 6 (Z.to_nat 91) db abytes cs 0 /\ nth (Z.to_nat 0) (m_data db) 0 = v /\
  Forall (fun c => forall k, (k < Z.to_nat 91)%nat -> Z.abs (noise (c_noise c) db (Z.to_nat 91) k) < 84 * Z.of_nat (Z.to_nat 91)) cs.
Proof.
  intros v HV. eexists _, _, _. split; [apply (flat_amplified v); [exact HV|rewrite Z2Nat.id by lia; vm_compute; reflexivity|lia]|]. split; [|apply flat_quiet; [exact HV|lia]].
  unfold flat_db. cbn [m_data]. change (Z.to_nat 0) with 0%nat. destruct (Z.to_nat 91) as [|r] eqn:E; [lia|]. cbn [Nat.mul Nat.add repeat]. reflexivity.
Qed.
Example C134_example :
  script_output = ([(2 ^ 13, 6554, 6%nat); (2 ^ 23, 209716, 9%nat); (2 ^ 33, 6710887, 15%nat)], [(2 ^ 13, 6554, 3%nat); (2 ^ 23, 209716, 4%nat); (2 ^ 33, 6710887, 7%nat)]) /\
  (exists db abytes cs, amplified (2 ^ 33) 15 (Z.to_nat 92682) db abytes cs 0 /\ nth (Z.to_nat 0) (m_data db) 0 = 0) /\
  (exists db abytes cs, amplified (2 ^ 13) 6 (Z.to_nat 91) db abytes cs 0 /\ nth (Z.to_nat 0) (m_data db) 0 = 1) /\
  (exists p db, lp_b p = script_bound (2 ^ 13) /\ deployment p db (Z.to_nat 91) (Z.to_nat 91) (Z.to_nat 1100)) /\
  script_bound (91 * 91) = 6590 /\ lp_b (params_32 91 91) = 7644.
Proof.
  split; [vm_compute; reflexivity|]. split; [|split; [|split]].
  - eexists _, _, _. split; [apply (flat_amplified 0); [auto|rewrite Z2Nat.id by lia; vm_compute; reflexivity|lia]|]. unfold flat_db. cbn [m_data]. change (Z.to_nat 0) with 0%nat.
    destruct (Z.to_nat 92682) as [|r] eqn:E; [lia|]. cbn [Nat.mul Nat.add repeat]. reflexivity.
  - eexists _, _, _. split; [apply (flat_amplified 1); [auto|rewrite Z2Nat.id by lia; vm_compute; reflexivity|lia]|]. unfold flat_db. cbn [m_data]. change (Z.to_nat 0) with 0%nat.
    destruct (Z.to_nat 91) as [|r] eqn:E; [lia|]. cbn [Nat.mul Nat.add repeat]. reflexivity.
  - exists (mkP 1100 91 91 (script_bound (2 ^ 13))), (flat_db 1 (Z.to_nat 91)). split; [reflexivity|].
    destruct (flat_amplified 1 (Z.to_nat 91) 6 (2 ^ 13) ltac:(auto) ltac:(rewrite Z2Nat.id by lia; vm_compute; reflexivity) ltac:(lia)) as (_ & X & Y & _).
    unfold deployment. cbn [lp_l lp_m lp_n]. rewrite !Z2Nat.id by lia. conj_split; try assumption; lia.
  - split; vm_compute; reflexivity.
Qed.
