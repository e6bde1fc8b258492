(** Proofs about floating-point computations, continued: square roots, logarithms, sizes and the monitor. *)
From Coq Require Import Reals ZArith List Lia Lra Psatz.
From Verif Require Import GoBase PointModel KeyPageModel FloatModel FloatSpec FloatProofs.
Import ListNotations.
Open Scope R_scope.

(** ** Square roots *)

Lemma sqrt_int k : (0 <= k)%Z -> sqrt (IZR (k * k)) = IZR k.
Proof. intros. rewrite mult_IZR. apply sqrt_square. apply (IZR_le 0). exact H. Qed.

Lemma sqrt_gt x y : 0 <= x -> x * x < y -> x < sqrt y.
Proof. intros X H. rewrite <- (sqrt_square x X). apply sqrt_lt_1; nra. Qed.
Lemma sqrt_lt_of x y : 0 <= x -> 0 <= y -> y < x * x -> sqrt y < x.
Proof. intros X Y H. rewrite <- (sqrt_square x X). apply sqrt_lt_1; nra. Qed.

Lemma rnd_sqrt rnd n k : nearest rnd -> (0 <= k < 2 ^ 26)%Z -> (k * k < n < (k + 1) * (k + 1))%Z ->
  IZR k < rnd (sqrt (IZR n)) < IZR k + 1.
Proof.
  intros N K H. set (T := IZR (2 ^ 27)). assert (T0 : T = 134217728) by (unfold T; f_equal; reflexivity).
  assert (K0 : 0 <= IZR k) by (apply (IZR_le 0); lia). assert (K1 : IZR k + 1 <= 67108864). { rewrite <- plus_IZR. apply IZR_le. lia. }
  assert (L : IZR k * IZR k + 1 <= IZR n). { rewrite <- mult_IZR, <- plus_IZR. apply IZR_le. lia. }
  assert (U : IZR n <= (IZR k + 1) * (IZR k + 1) - 1). { rewrite <- plus_IZR, <- mult_IZR, <- minus_IZR. apply IZR_le. lia. }
  set (h := / 268435456). assert (Hh : h * 268435456 = 1) by (unfold h; field). assert (H0 : 0 < h) by (unfold h; lra).
  assert (S1 : IZR k + h < sqrt (IZR n)). { apply sqrt_gt; [lra|]. nra. }
  assert (S2 : sqrt (IZR n) < IZR k + 1 - h). { apply sqrt_lt_of; [lra|nra|]. nra. }
  split.
  - apply (rnd_above rnd N _ (IZR (k * 2 ^ 27 + 1) / T)).
    + apply double_int. lia.
    + lra.
    + apply double_frac; lia.
    + rewrite plus_IZR, mult_IZR. fold T. rewrite T0. lra.
    + rewrite plus_IZR, mult_IZR. fold T. rewrite T0. unfold h in *. lra.
  - replace (IZR k + 1) with (IZR (k + 1)) in * by (rewrite plus_IZR; reflexivity).
    apply (rnd_below rnd N _ (IZR ((k + 1) * 2 ^ 27 - 1) / T)).
    + apply double_int. lia.
    + lra.
    + apply double_frac; lia.
    + rewrite minus_IZR, mult_IZR. fold T. rewrite T0. lra.
    + rewrite minus_IZR, mult_IZR. fold T. rewrite T0. unfold h in *. lra.
Qed.

Lemma rnd_square rnd k : nearest rnd -> (0 <= k <= 2 ^ 26)%Z -> rnd (sqrt (rnd (IZR (k * k)))) = IZR k.
Proof. intros N K. rewrite (rnd_int rnd N (k * k)) by nia. rewrite sqrt_int by lia. apply (rnd_int rnd N). lia. Qed.

Lemma root_cases n : (0 <= n <= 2 ^ 52)%Z ->
  let k := Z.sqrt n in (0 <= k <= 2 ^ 26)%Z /\ ((n = k * k)%Z \/ (k < 2 ^ 26 /\ k * k < n < (k + 1) * (k + 1))%Z).
Proof.
  intros H k. assert (K0 : (0 <= k)%Z) by apply Z.sqrt_nonneg. destruct (Z.sqrt_spec n) as [A B]; [lia|]. fold k in A, B.
  assert (K1 : (k <= 2 ^ 26)%Z). { destruct (Z_le_gt_dec k (2 ^ 26)); [assumption|]. assert ((2 ^ 26 + 1) * (2 ^ 26 + 1) <= k * k)%Z by (apply Z.mul_le_mono_nonneg; lia). lia. }
  split; [lia|]. destruct (Z.eq_dec n (k * k)) as [E|E]; [left; exact E|right]. split; [|lia].
  destruct (Z.eq_dec k (2 ^ 26)) as [E'|]; [|lia]. rewrite E' in *. lia.
Qed.

Lemma float_sqrt_ok rnd n : nearest rnd -> (0 <= n <= 2 ^ 52)%Z -> float_sqrt rnd n = Z.sqrt n.
Proof.
  intros N H. unfold float_sqrt. destruct (root_cases n H) as [K [E|[K1 E]]]; set (k := Z.sqrt n) in *.
  - rewrite E at 1. rewrite rnd_square by assumption. apply whole_int.
  - rewrite (rnd_int rnd N) by lia. apply whole_unique. pose proof (rnd_sqrt rnd n k N ltac:(lia) E). lra.
Qed.

Lemma float_next_square_ok rnd n : nearest rnd -> (0 <= n <= 2 ^ 52)%Z ->
  float_next_square rnd n = (let i := Z.sqrt n in if i * i =? n then n else (i + 1) * (i + 1))%Z.
Proof.
  intros N H. pose proof (float_sqrt_ok rnd n N H) as W. unfold float_sqrt in W. unfold float_next_square. rewrite W.
  destruct (root_cases n H) as [K [E|[K1 E]]]; set (k := Z.sqrt n) in *; cbn zeta.
  - assert (E' : (k * k =? n)%Z = true) by (apply Z.eqb_eq; lia). rewrite E'.
    destruct (Req_EM_T _ _) as [_|F]; [reflexivity|]. exfalso. apply F. apply frac_zero. rewrite W.
    rewrite E. apply rnd_square; assumption.
  - assert (E' : (k * k =? n)%Z = false) by (apply Z.eqb_neq; lia). rewrite E'.
    pose proof (rnd_sqrt rnd n k N ltac:(lia) E) as B. rewrite <- (rnd_int rnd N n) in B by lia.
    destruct (Req_EM_T _ _) as [F|_].
    + exfalso. apply frac_zero in F. rewrite W in F. lra.
    + rewrite <- plus_IZR. rewrite (rnd_int rnd N (k + 1)) by lia. rewrite pow_IZR. change (Z.of_nat 2) with 2%Z.
      replace ((k + 1) ^ 2)%Z with ((k + 1) * (k + 1))%Z by ring. rewrite (rnd_int rnd N) by nia. apply whole_int.
Qed.

(** ** Doubles are sparse *)

Lemma double_grid d k : (0 <= k)%Z -> double d -> IZR (2 ^ k) <= d -> exists j : Z, d = IZR j * powerRZ 2 (k - 52).
Proof.
  intros K (m & e & M & E & ->) H. destruct (Z_le_gt_dec (k - 52) e) as [G|G].
  - exists (m * 2 ^ (e - (k - 52)))%Z. rewrite mult_IZR, <- powerRZ_pos2 by lia. rewrite Rmult_assoc, <- powerRZ_add by lra. f_equal. f_equal. lia.
  - exfalso. assert (L : powerRZ 2 e * IZR (2 ^ (k - 53 - e)) = powerRZ 2 (k - 53)).
    { rewrite <- powerRZ_pos2 by lia. rewrite <- powerRZ_add by lra. f_equal. lia. }
    assert (P : 0 < powerRZ 2 e) by (apply powerRZ_lt; lra).
    assert (Q : IZR (2 ^ k) = IZR (2 ^ 53) * powerRZ 2 (k - 53)). { rewrite <- !powerRZ_pos2 by lia. rewrite <- powerRZ_add by lra. f_equal. lia. }
    assert (L1 : powerRZ 2 e <= powerRZ 2 (k - 53)).
    { rewrite <- L. rewrite <- (Rmult_1_r (powerRZ 2 e)) at 1. apply Rmult_le_compat_l; [lra|]. apply IZR_le. pose proof (pow2_posZ (k - 53 - e)). lia. }
    assert (M1 : IZR m < IZR (2 ^ 53)) by (apply IZR_lt; lia).
    assert (IZR m * powerRZ 2 e < IZR (2 ^ 53) * powerRZ 2 e) by (apply Rmult_lt_compat_r; lra).
    assert (0 < IZR (2 ^ 53)) by (apply pow2_pos; lia).
    assert (IZR (2 ^ 53) * powerRZ 2 e <= IZR (2 ^ 53) * powerRZ 2 (k - 53)) by (apply Rmult_le_compat_l; lra). lra.
Qed.

Lemma rnd_square_big rnd : nearest rnd -> rnd (sqrt (IZR (2 ^ 52 + 1))) = IZR (2 ^ 26).
Proof.
  intros N. set (x := sqrt (IZR (2 ^ 52 + 1))). assert (D : double (IZR (2 ^ 26))) by (apply double_int; lia).
  assert (X1 : IZR (2 ^ 26) <= x). { left. apply sqrt_gt; [apply (IZR_le 0); lia|]. rewrite <- mult_IZR. apply IZR_lt. lia. }
  assert (X2 : x < IZR (2 ^ 26) + / IZR (2 ^ 27)).
  { replace (IZR (2 ^ 26)) with 67108864 by (f_equal; reflexivity). replace (IZR (2 ^ 27)) with 134217728 by (f_equal; reflexivity).
    apply sqrt_lt_of; [lra| |]. - apply (IZR_le 0). lia. - replace (IZR (2 ^ 52 + 1)) with 4503599627370497 by (f_equal; reflexivity). lra. }
  pose proof (rnd_ge rnd N _ _ D X1) as G. destruct (N x) as [Dd B]. specialize (B _ D).
  destruct (double_grid (rnd x) 26 ltac:(lia) Dd G) as [j J]. change (26 - 52)%Z with (- (26))%Z in J. rewrite powerRZ_neg2 in J by lia.
  assert (B' : rnd x < IZR (2 ^ 26) + / IZR (2 ^ 26)).
  { replace (IZR (2 ^ 26)) with 67108864 in * by (f_equal; reflexivity). replace (IZR (2 ^ 27)) with 134217728 in * by (f_equal; reflexivity).
    unfold Rabs in B. repeat destruct Rcase_abs in B; lra. }
  rewrite J in G, B' |- *. replace (IZR (2 ^ 26)) with 67108864 in * by (f_equal; reflexivity).
  assert (J1 : IZR (2 ^ 52) <= IZR j) by (replace (IZR (2 ^ 52)) with 4503599627370496 by (f_equal; reflexivity); lra).
  assert (J2 : IZR j < IZR (2 ^ 52 + 1)) by (replace (IZR (2 ^ 52 + 1)) with 4503599627370497 by (f_equal; reflexivity); lra).
  apply le_IZR in J1. apply lt_IZR in J2. assert (Ej : j = (2 ^ 52)%Z) by lia. rewrite Ej.
  replace (IZR (2 ^ 52)) with 4503599627370496 by (f_equal; reflexivity). lra.
Qed.

Lemma next_square_big rnd : nearest rnd -> float_next_square rnd (2 ^ 52 + 1) = (2 ^ 52 + 1)%Z.
Proof.
  intros N. unfold float_next_square. rewrite (rnd_int rnd N) by lia. rewrite rnd_square_big by exact N.
  destruct (Req_EM_T _ _) as [_|F]; [reflexivity|]. exfalso. apply F. apply frac_zero. rewrite whole_int. reflexivity.
Qed.

Lemma rnd_54 rnd : nearest rnd -> rnd (IZR (2 ^ 54 + 1)) = IZR (2 ^ 54).
Proof.
  intros N. set (x := IZR (2 ^ 54 + 1)). assert (EX : x = 18014398509481985) by (unfold x; f_equal; reflexivity).
  assert (D : double (IZR (2 ^ 54))). { exists 1%Z, 54%Z. split; [lia|]. split; [lia|]. rewrite powerRZ_pos2 by lia. lra. }
  assert (X1 : IZR (2 ^ 54) <= x) by (apply IZR_le; lia).
  pose proof (rnd_ge rnd N _ _ D X1) as G. destruct (N x) as [Dd B]. specialize (B _ D).
  destruct (double_grid (rnd x) 54 ltac:(lia) Dd G) as [j J]. change (54 - 52)%Z with 2%Z in J. rewrite powerRZ_pos2 in J by lia.
  replace (IZR (2 ^ 54)) with 18014398509481984 in * by (f_equal; reflexivity). replace (IZR (2 ^ 2)) with 4 in J by (f_equal; reflexivity).
  assert (B' : rnd x <= 18014398509481986) by (rewrite EX in *; unfold Rabs in B; repeat destruct Rcase_abs in B; lra).
  rewrite J in G, B' |- *.
  assert (J1 : IZR (2 ^ 52) <= IZR j) by (replace (IZR (2 ^ 52)) with 4503599627370496 by (f_equal; reflexivity); lra).
  assert (J2 : IZR j < IZR (2 ^ 52 + 1)) by (replace (IZR (2 ^ 52 + 1)) with 4503599627370497 by (f_equal; reflexivity); lra).
  apply le_IZR in J1. apply lt_IZR in J2. assert (Ej : j = (2 ^ 52)%Z) by lia. rewrite Ej.
  replace (IZR (2 ^ 52)) with 4503599627370496 by (f_equal; reflexivity). lra.
Qed.

Lemma ceil_div_big rnd : nearest rnd -> float_ceil_div rnd (2 ^ 54 + 1) 1 = (2 ^ 54)%Z.
Proof.
  intros N. unfold float_ceil_div. rewrite rnd_54 by exact N. rewrite (rnd_int rnd N 1) by lia.
  replace (IZR (2 ^ 54) / 1) with (IZR (2 ^ 54)) by lra.
  rewrite (rnd_exact rnd N). - apply ceiling_unique. lra.
  - exists 1%Z, 54%Z. split; [lia|]. split; [lia|]. rewrite powerRZ_pos2 by lia. lra.
Qed.

(** ** Logarithms *)

Lemma ln_step n : (1 <= n)%Z -> ln (IZR n) + / IZR (n + 1) <= ln (IZR (n + 1)).
Proof.
  intros H. assert (N0 : 1 <= IZR n) by (apply IZR_le; lia). rewrite plus_IZR. set (x := IZR n) in *.
  assert (L : forall y, 0 < y -> ln y <= y - 1).
  { intros y Y. destruct (Req_dec (ln y) 0) as [E|E].
    - assert (y = 1) by (apply ln_inv; [exact Y|lra|rewrite ln_1; exact E]). lra.
    - pose proof (exp_ineq1 (ln y) E) as X. rewrite exp_ln in X by exact Y. lra. }
  assert (Q : 0 < x / (x + 1)) by (apply Rdiv_lt_0_compat; lra). pose proof (L _ Q) as Lq. unfold Rdiv in Lq at 1.
  rewrite ln_mult in Lq by (try lra; apply Rinv_0_lt_compat; lra). rewrite ln_Rinv in Lq by lra.
  assert (E : x / (x + 1) - 1 = - / (x + 1)) by (field; lra). rewrite E in Lq. lra.
Qed.
Lemma ln2_bounds : 0 < ln 2 <= 1.
Proof.
  split; [rewrite <- ln_1; apply ln_increasing; lra|]. destruct (Rle_lt_dec (ln 2) 1) as [|C]; [assumption|exfalso].
  apply exp_increasing in C. rewrite exp_ln in C by lra. pose proof (exp_ineq1 1 ltac:(lra)). lra.
Qed.
Lemma ln_pow2 k : (0 <= k)%Z -> ln (IZR (2 ^ k)) = IZR k * ln 2.
Proof.
  intros H. rewrite <- (Z2Nat.id k) at 1 by exact H. rewrite <- pow_IZR. rewrite ln_pow by lra. rewrite INR_IZR_INZ, Z2Nat.id by exact H. reflexivity.
Qed.

Lemma float_depth_ok rnd log2 n : nearest rnd -> log2_ok log2 -> (1 <= n <= 2 ^ 38)%Z -> float_depth rnd log2 n = Z.log2_up n.
Proof.
  intros N [E A] H. unfold float_depth. rewrite (rnd_int rnd N) by lia. apply ceiling_unique. set (c := Z.log2_up n).
  assert (C0 : (0 <= c)%Z) by apply Z.log2_up_nonneg.
  assert (C1 : (c <= 38)%Z). { unfold c. replace 38%Z with (Z.log2_up (2 ^ 38)) by reflexivity. apply Z.log2_up_le_mono. lia. }
  destruct (Z.eq_dec n (2 ^ c)) as [En|En]; [rewrite En, E by lia; lra|].
  assert (n <> 1)%Z. { intros ->. apply En. reflexivity. }
  destruct (Z.log2_up_spec n) as [L U]; [lia|]. fold c in L, U. rewrite <- Z.sub_1_r in L.
  assert (C2 : (1 <= c)%Z). { destruct (Z.eq_dec c 0) as [Ec|]; [|lia]. rewrite Ec in U. cbn in U. lia. }
  specialize (A n ltac:(lia)). destruct ln2_bounds as [P Q].
  assert (M : / IZR (2 ^ 39) <= / IZR (n + 1) /\ / IZR (2 ^ 39) <= / IZR n).
  { split; apply Rinv_le_contravar; try (apply (IZR_lt 0); lia); apply IZR_le; lia. }
  assert (M' : / IZR (2 ^ 40) < / IZR (2 ^ 39)) by (apply Rinv_lt_contravar; [rewrite <- mult_IZR; apply (IZR_lt 0); lia|apply IZR_lt; lia]).
  assert (M0 : 0 < / IZR (2 ^ 39)) by (apply Rinv_0_lt_compat, (IZR_lt 0); lia).
  (* one more than the lower power *)
  assert (S1 : IZR (c - 1) * ln 2 + / IZR n <= ln (IZR n)).
  { pose proof (ln_step (n - 1) ltac:(lia)) as G. replace (n - 1 + 1)%Z with n in G by lia.
    assert (ln (IZR (2 ^ (c - 1))) <= ln (IZR (n - 1))).
    { assert (T : (2 ^ (c - 1) <= n - 1)%Z) by lia. apply IZR_le in T. destruct T as [T|T]; [left; apply ln_increasing; [apply pow2_pos; lia|exact T]|rewrite T; lra]. }
    rewrite ln_pow2 in H1 by lia. lra. }
  assert (S2 : ln (IZR n) + / IZR (n + 1) <= IZR c * ln 2).
  { pose proof (ln_step n ltac:(lia)) as G. assert (ln (IZR (n + 1)) <= ln (IZR (2 ^ c))).
    { assert (T : (n + 1 <= 2 ^ c)%Z) by lia. apply IZR_le in T. destruct T as [T|T]; [left; apply ln_increasing; [apply (IZR_lt 0); lia|exact T]|rewrite T; lra]. }
    rewrite ln_pow2 in H1 by lia. lra. }
  set (q := ln (IZR n) / ln 2) in *. assert (Eq : ln (IZR n) = q * ln 2) by (unfold q; field; lra). rewrite Eq in S1, S2.
  rewrite minus_IZR in S1. set (g := / IZR (2 ^ 39)) in *.
  assert (T1 : IZR c - 1 + g <= q). { apply Rmult_le_reg_r with (ln 2); [exact P|]. assert (g * ln 2 <= g) by nra. lra. }
  assert (T2 : q + g <= IZR c). { apply Rmult_le_reg_r with (ln 2); [exact P|]. assert (g * ln 2 <= g) by nra. lra. }
  unfold Rabs in A. destruct Rcase_abs in A; lra.
Qed.

Lemma float_branches_ok rnd log2 exp2 n : nearest rnd -> log2_ok log2 -> exp2_ok exp2 -> (1 <= n <= 2 ^ 38)%Z ->
  float_branches rnd log2 exp2 n = (2 ^ Z.log2_up n)%Z.
Proof.
  intros N L E H. unfold float_branches. rewrite (float_depth_ok rnd log2) by assumption.
  assert (C1 : (Z.log2_up n <= 38)%Z). { replace 38%Z with (Z.log2_up (2 ^ 38)) by reflexivity. apply Z.log2_up_le_mono. lia. }
  rewrite E by (pose proof (Z.log2_up_nonneg n); lia). apply whole_int.
Qed.

(** ** Sizes *)

Lemma rnd_gib rnd : nearest rnd -> Rabs (gib - rnd gib) <= / IZR (2 ^ 80).
Proof.
  intros N. destruct (N gib) as [_ B].
  assert (D : double (IZR 1125872615807104 / IZR (2 ^ 80))) by (apply double_frac; lia). specialize (B _ D). eapply Rle_trans; [exact B|].
  unfold gib. replace (IZR (2 ^ 80)) with 1208925819614629174706176 by (f_equal; reflexivity). unfold Rabs. destruct Rcase_abs; lra.
Qed.

Lemma bytes_size_ok rnd n : nearest rnd -> (0 <= n <= 2 ^ 50)%Z ->
  Rabs (bytes_size_gib rnd n - IZR n / IZR (2 ^ 30)) <= IZR n / IZR (2 ^ 30) / 40000 + / 1000000.
Proof.
  intros N H. unfold bytes_size_gib. rewrite (rnd_int rnd N) by lia. pose proof (rnd_gib rnd N) as G. set (g := rnd gib) in *.
  assert (N0 : 0 <= IZR n) by (apply (IZR_le 0); lia). assert (N1 : IZR n <= 1125899906842624). { apply IZR_le. lia. }
  unfold gib in G. replace (IZR (2 ^ 80)) with 1208925819614629174706176 in G by (f_equal; reflexivity).
  assert (G' : 9313 / 10000000000000 - / 1208925819614629174706176 <= g <= 9313 / 10000000000000 + / 1208925819614629174706176).
  { unfold Rabs in G. destruct Rcase_abs in G; lra. }
  replace (IZR (2 ^ 30)) with 1073741824 by (f_equal; reflexivity).
  assert (X : 0 <= IZR n * g <= IZR (2 ^ 21)). { replace (IZR (2 ^ 21)) with 2097152 by (f_equal; reflexivity). split; nra. }
  pose proof (rnd_error rnd N (IZR n * g) 21 ltac:(lia) X) as Er. set (r := rnd (IZR n * g)) in *.
  change (53 - 21)%Z with 32%Z in Er. replace (IZR (2 ^ 32)) with 4294967296 in Er by (f_equal; reflexivity).
  assert (P1 : IZR n * g <= IZR n * (9313 / 10000000000000 + / 1208925819614629174706176)) by (apply Rmult_le_compat_l; lra).
  assert (P2 : IZR n * (9313 / 10000000000000 - / 1208925819614629174706176) <= IZR n * g) by (apply Rmult_le_compat_l; lra).
  set (p := IZR n * g) in *. clearbody p r. clear - Er P1 P2 N0. unfold Rabs in *. repeat destruct Rcase_abs; lra.
Qed.

(** ** The monitor *)

Section Monitor.
  Variable rnd : R -> R.
  Hypothesis N : nearest rnd.

  Definition exact_ms (sec usec : Z) : R := IZR sec * 1000 + IZR usec / 1000.

  Lemma rnd_usec usec : (0 <= usec < 1000000)%Z -> 0 <= rnd (IZR usec / 1000) <= 1000 /\ Rabs (IZR usec / 1000 - rnd (IZR usec / 1000)) <= / IZR (2 ^ 43).
  Proof using N.
    intros H. assert (A : 0 <= IZR usec) by (apply (IZR_le 0); lia). assert (B : IZR usec <= 1000000) by (apply IZR_le; lia).
    split.
    - split; [apply (rnd_ge rnd N); [apply double_int; lia|lra]|apply (rnd_le rnd N); [apply double_int; lia|lra]].
    - apply (rnd_error rnd N _ 10); [lia|]. replace (IZR (2 ^ 10)) with 1024 by (f_equal; reflexivity). lra.
  Qed.

  Lemma ii_eq sec usec : (0 <= sec <= 2 ^ 31)%Z -> (0 <= usec < 1000000)%Z ->
    ii_to_ms rnd sec usec = rnd (IZR (sec * 1000) + rnd (IZR usec / 1000)).
  Proof using N.
    intros S U. unfold ii_to_ms. rewrite (rnd_int rnd N sec), (rnd_int rnd N usec) by lia. rewrite <- mult_IZR. rewrite (rnd_int rnd N) by lia. reflexivity.
  Qed.

  Lemma ii_ok sec usec : (0 <= sec <= 2 ^ 31)%Z -> (0 <= usec < 1000000)%Z ->
    0 <= ii_to_ms rnd sec usec <= IZR (2 ^ 42) /\ Rabs (ii_to_ms rnd sec usec - exact_ms sec usec) <= / 1000.
  Proof using N.
    intros S U. rewrite ii_eq by assumption. destruct (rnd_usec usec U) as [A B]. set (v := rnd (IZR usec / 1000)) in *.
    assert (S0 : 0 <= IZR (sec * 1000)) by (apply (IZR_le 0); lia). assert (S1 : IZR (sec * 1000) <= 2147483648000) by (apply IZR_le; lia).
    assert (X : 0 <= IZR (sec * 1000) + v <= IZR (2 ^ 42)). { replace (IZR (2 ^ 42)) with 4398046511104 by (f_equal; reflexivity). lra. }
    split; [split; [apply (rnd_ge rnd N); [apply double_int; lia|lra]|apply (rnd_le rnd N); [apply double_int; lia|lra]]|].
    pose proof (rnd_error rnd N _ 42 ltac:(lia) X) as Er. set (w := rnd (IZR (sec * 1000) + v)) in *. unfold exact_ms.
    change (53 - 42)%Z with 11%Z in Er. replace (IZR (2 ^ 11)) with 2048 in Er by (f_equal; reflexivity).
    replace (IZR (2 ^ 43)) with 8796093022208 in B by (f_equal; reflexivity). rewrite mult_IZR in *.
    clearbody v w. clear - Er B. unfold Rabs in *. repeat destruct Rcase_abs; lra.
  Qed.

  Lemma ii_mono sec usec sec' usec' : (0 <= sec <= 2 ^ 31)%Z -> (0 <= usec < 1000000)%Z -> (0 <= sec' <= 2 ^ 31)%Z -> (0 <= usec' < 1000000)%Z ->
    (sec * 1000000 + usec <= sec' * 1000000 + usec')%Z -> ii_to_ms rnd sec usec <= ii_to_ms rnd sec' usec'.
  Proof using N.
    intros S U S' U' H. rewrite !ii_eq by assumption. apply (rnd_mono rnd N).
    destruct (rnd_usec usec U) as [A _]. destruct (rnd_usec usec' U') as [A' _].
    destruct (Z.eq_dec sec sec') as [->|D].
    - apply Rplus_le_compat_l. apply (rnd_mono rnd N). assert (IZR usec <= IZR usec') by (apply IZR_le; lia). lra.
    - assert (IZR (sec * 1000 + 1000) <= IZR (sec' * 1000)) by (apply IZR_le; lia). rewrite plus_IZR in H0. lra.
  Qed.

  Lemma cpu_ok r : usage_ok r -> 0 <= cpu_time rnd r <= IZR (2 ^ 43) /\ Rabs (cpu_time rnd r - IZR (total_us r) / 1000) <= 4 / 1000.
  Proof using N.
    intros (A & B & C & D). unfold cpu_time. destruct (ii_ok _ _ A B) as [P1 Q1]. destruct (ii_ok _ _ C D) as [P2 Q2].
    set (x := ii_to_ms rnd (s_sec r) (s_usec r)) in *. set (y := ii_to_ms rnd (u_sec r) (u_usec r)) in *.
    replace (IZR (2 ^ 42)) with 4398046511104 in * by (f_equal; reflexivity).
    assert (X : 0 <= x + y <= IZR (2 ^ 43)). { replace (IZR (2 ^ 43)) with 8796093022208 by (f_equal; reflexivity). lra. }
    split; [split; [apply (rnd_ge rnd N); [apply double_int; lia|lra]|apply (rnd_le rnd N); [apply double_int; lia|lra]]|].
    pose proof (rnd_error rnd N _ 43 ltac:(lia) X) as Er. change (53 - 43)%Z with 10%Z in Er. replace (IZR (2 ^ 10)) with 1024 in Er by (f_equal; reflexivity).
    set (w := rnd (x + y)) in *. unfold total_us, sys_us, user_us, exact_ms in *. rewrite !plus_IZR, !mult_IZR.
    clearbody x y w. clear - Er Q1 Q2. unfold Rabs in *. repeat destruct Rcase_abs; lra.
  Qed.

  Lemma cpu_mono r r' : usage_ok r -> usage_ok r' -> later r r' -> cpu_time rnd r <= cpu_time rnd r'.
  Proof using N.
    intros (A & B & C & D) (A' & B' & C' & D') [L1 L2]. unfold cpu_time. apply (rnd_mono rnd N).
    apply Rplus_le_compat; apply ii_mono; assumption.
  Qed.

  Lemma record_ok r r' : usage_ok r -> usage_ok r' -> later r r' ->
    0 <= rnd (cpu_time rnd r' - cpu_time rnd r) /\
    Rabs (rnd (cpu_time rnd r' - cpu_time rnd r) - IZR (total_us r' - total_us r) / 1000) <= / 100.
  Proof using N.
    intros U U' L. pose proof (cpu_mono r r' U U' L) as M. destruct (cpu_ok r U) as [P Q]. destruct (cpu_ok r' U') as [P' Q'].
    set (x := cpu_time rnd r) in *. set (y := cpu_time rnd r') in *.
    assert (X : 0 <= y - x <= IZR (2 ^ 43)) by lra.
    split; [apply (rnd_ge rnd N); [apply double_int; lia|lra]|].
    pose proof (rnd_error rnd N _ 43 ltac:(lia) X) as Er. change (53 - 43)%Z with 10%Z in Er. replace (IZR (2 ^ 10)) with 1024 in Er by (f_equal; reflexivity).
    set (w := rnd (y - x)) in *. rewrite minus_IZR. clearbody x y w. clear - Er Q Q'. unfold Rabs in *. repeat destruct Rcase_abs; lra.
  Qed.

  Lemma later_trans a b c : later a b -> later b c -> later a c.
  Proof. unfold later. lia. Qed.

  Lemma mon_run_ok : forall ops base last i o r, usage_ok base -> later base last -> in_order last ops ->
    nth_error ops i = Some (o, r) ->
    exists out, nth_error (mon_run rnd (cpu_time rnd base) ops) i = Some out /\
      match o with
      | MReset => out = None
      | _ => exists v, out = Some v /\ 0 <= v /\ Rabs (v - IZR (total_us r - total_us (since base ops i)) / 1000) <= / 100
      end.
  Proof using N.
    induction ops as [|[o1 r1] t IH]; intros base last i o r U L I E; [destruct i; discriminate|].
    destruct I as (U1 & L1 & I). pose proof (later_trans _ _ _ L L1) as L2.
    destruct i as [|i].
    - cbn in E. injection E as -> ->. destruct o; cbn [mon_run mon_step nth_error since]; eexists; (split; [reflexivity|]); try reflexivity;
        (eexists; split; [reflexivity|]; apply record_ok; assumption).
    - cbn [nth_error] in E. assert (R1 : later r1 r1) by (unfold later; lia). destruct o1; cbn [mon_run mon_step nth_error since].
      + apply (IH r1 r1); assumption.
      + apply (IH base r1); assumption.
      + apply (IH r1 r1); assumption.
  Qed.
End Monitor.
