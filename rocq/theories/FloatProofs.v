(** Proofs about floating-point computations. *)
From Coq Require Import Reals ZArith List Lia Lra Psatz.
From Verif Require Import FloatModel FloatSpec.
Import ListNotations.
Open Scope R_scope.

(** ** Doubles *)

Lemma powerRZ_neg2 s : (0 <= s)%Z -> powerRZ 2 (- s) = / IZR (2 ^ s).
Proof.
  intros H. destruct s as [|p|p]; [cbn; lra| |lia]. cbn [Z.opp powerRZ]. f_equal.
  change 2 with (IZR 2) at 1. rewrite pow_IZR. f_equal. rewrite positive_nat_Z. reflexivity.
Qed.
Lemma powerRZ_pos2 s : (0 <= s)%Z -> powerRZ 2 s = IZR (2 ^ s).
Proof.
  intros H. destruct s as [|p|p]; [cbn; lra| |lia]. cbn [powerRZ].
  change 2 with (IZR 2) at 1. rewrite pow_IZR. f_equal. rewrite positive_nat_Z. reflexivity.
Qed.
Lemma pow2_posZ s : (0 <= s)%Z -> (0 < 2 ^ s)%Z.
Proof. intros. apply Z.pow_pos_nonneg; lia. Qed.
Lemma pow2_pos s : (0 <= s)%Z -> 0 < IZR (2 ^ s).
Proof. intros. apply IZR_lt, pow2_posZ. assumption. Qed.

Lemma double_frac k s : (Z.abs k < 2 ^ 53)%Z -> (0 <= s <= 1074)%Z -> double (IZR k / IZR (2 ^ s)).
Proof. intros K S. exists k, (- s)%Z. split; [exact K|]. split; [lia|]. rewrite powerRZ_neg2 by lia. reflexivity. Qed.
Lemma double_int n : (Z.abs n <= 2 ^ 53)%Z -> double (IZR n).
Proof.
  intros H. destruct (Z.eq_dec (Z.abs n) (2 ^ 53)) as [E|E].
  - exists (Z.sgn n), 53%Z. split; [destruct n; cbn; lia|]. split; [lia|]. rewrite powerRZ_pos2 by lia. rewrite <- mult_IZR. f_equal.
    rewrite <- E. destruct n; cbn [Z.sgn Z.abs]; lia.
  - replace (IZR n) with (IZR n / IZR (2 ^ 0)) by (cbn; lra). apply double_frac; lia.
Qed.

Section Rounding.
  Variable rnd : R -> R.
  Hypothesis N : nearest rnd.

  Lemma rnd_exact x : double x -> rnd x = x.
  Proof using N.
    intros D. destruct (N x) as [_ B]. specialize (B x D). replace (x - x) with 0 in B by lra. rewrite Rabs_R0 in B.
    pose proof (Rabs_pos (x - rnd x)). assert (E : Rabs (x - rnd x) = 0) by lra. unfold Rabs in E. destruct (Rcase_abs (x - rnd x)); lra.
  Qed.
  Lemma rnd_int n : (Z.abs n <= 2 ^ 53)%Z -> rnd (IZR n) = IZR n.
  Proof using N. intros. apply rnd_exact, double_int. assumption. Qed.
  Lemma rnd_mono x y : x <= y -> rnd x <= rnd y.
  Proof using N.
    intros [H| ->]; [|lra]. destruct (N x) as [Dx Bx]. destruct (N y) as [Dy By]. specialize (Bx _ Dy). specialize (By _ Dx).
    destruct (Rle_lt_dec (rnd x) (rnd y)) as [|C]; [assumption|exfalso].
    unfold Rabs in *. repeat destruct Rcase_abs; lra.
  Qed.
  Lemma rnd_ge lo x : double lo -> lo <= x -> lo <= rnd x.
  Proof using N. intros D H. rewrite <- (rnd_exact lo D). apply rnd_mono. exact H. Qed.
  Lemma rnd_le hi x : double hi -> x <= hi -> rnd x <= hi.
  Proof using N. intros D H. rewrite <- (rnd_exact hi D). apply rnd_mono. exact H. Qed.
  (** a double that is strictly closer excludes [lo] *)
  Lemma rnd_above lo y x : double lo -> lo <= x -> double y -> lo < y -> y < 2 * x - lo -> lo < rnd x.
  Proof using N.
    intros D H Dy L U. pose proof (rnd_ge lo x D H) as G. destruct (N x) as [_ B]. specialize (B y Dy).
    destruct G as [G|G]; [exact G|exfalso]. rewrite <- G in B. unfold Rabs in B. repeat destruct Rcase_abs; lra.
  Qed.
  Lemma rnd_below hi y x : double hi -> x <= hi -> double y -> y < hi -> 2 * x - hi < y -> rnd x < hi.
  Proof using N.
    intros D H Dy L U. pose proof (rnd_le hi x D H) as G. destruct (N x) as [_ B]. specialize (B y Dy).
    destruct G as [G|G]; [exact G|exfalso]. rewrite G in B. unfold Rabs in B. repeat destruct Rcase_abs; lra.
  Qed.
  (** rounding moves a number below 2^k by at most one unit of the last place *)
  Lemma rnd_error x k : (0 <= k <= 53)%Z -> 0 <= x <= IZR (2 ^ k) -> Rabs (x - rnd x) <= / IZR (2 ^ (53 - k)).
  Proof using N.
    intros K [X0 X1]. set (S := IZR (2 ^ (53 - k))). assert (S0 : 0 < S) by (apply pow2_pos; lia).
    set (n := Int_part (x * S)). destruct (base_Int_part (x * S)) as [B1 B2]. fold n in B1, B2.
    assert (SK : IZR (2 ^ k) * S = IZR (2 ^ 53)).
    { unfold S. rewrite <- mult_IZR, <- Z.pow_add_r by lia. f_equal. f_equal. lia. }
    assert (XS : 0 <= x * S <= IZR (2 ^ 53)). { split; [apply Rmult_le_pos; lra|]. rewrite <- SK. apply Rmult_le_compat_r; lra. }
    assert (N0 : (0 <= n)%Z). { assert (IZR (-1) < IZR n) by (cbn; lra). apply lt_IZR in H. lia. }
    assert (N1 : (n <= 2 ^ 53)%Z) by (apply le_IZR; lra).
    assert (Dy : double (IZR n / S)).
    { destruct (Z.eq_dec n (2 ^ 53)) as [E|E].
      - rewrite E, <- SK. replace (IZR (2 ^ k) * S / S) with (IZR (2 ^ k)) by (field; lra). apply double_int.
        rewrite Z.abs_eq by (pose proof (pow2_posZ k); lia). apply Z.pow_le_mono_r; lia.
      - apply double_frac; lia. }
    destruct (N x) as [_ B]. specialize (B _ Dy). eapply Rle_trans; [exact B|].
    assert (E : x - IZR n / S = (x * S - IZR n) * / S) by (field; lra). rewrite E. rewrite Rabs_mult, (Rabs_right (/ S)).
    - assert (0 < / S) by (apply Rinv_0_lt_compat; exact S0). rewrite <- (Rmult_1_l (/ S)) at 2. apply Rmult_le_compat_r; [lra|].
      unfold Rabs. destruct Rcase_abs; lra.
    - apply Rle_ge, Rlt_le, Rinv_0_lt_compat. exact S0.
  Qed.
End Rounding.

(** ** Whole parts *)

Lemma whole_unique x k : IZR k <= x < IZR k + 1 -> whole x = k.
Proof.
  intros [A B]. unfold whole. destruct (base_Int_part x) as [C D].
  assert (IZR (Int_part x) < IZR (k + 1)) by (rewrite plus_IZR; lra). assert (IZR k < IZR (Int_part x + 1)) by (rewrite plus_IZR; lra).
  apply lt_IZR in H, H0. lia.
Qed.
Lemma whole_int k : whole (IZR k) = k.
Proof. apply whole_unique. lra. Qed.
Lemma ceiling_unique x k : IZR k - 1 < x <= IZR k -> ceiling x = k.
Proof. intros [A B]. unfold ceiling. change (Int_part (- x)) with (whole (- x)). rewrite (whole_unique _ (- k)); [lia|]. rewrite opp_IZR. lra. Qed.
Lemma frac_zero x : frac_part x = 0 <-> x = IZR (whole x).
Proof. unfold frac_part, whole. lra. Qed.

(** ** Ceilings of quotients *)

Lemma float_ceil_div_ok rnd a b c : nearest rnd -> (0 <= a < 2 ^ 53)%Z -> (0 < b < 2 ^ 53)%Z ->
  ((c - 1) * b < a <= c * b)%Z -> float_ceil_div rnd a b = c.
Proof.
  intros N A B C. unfold float_ceil_div. rewrite !(rnd_int rnd N) by lia. apply ceiling_unique.
  assert (B0 : 0 < IZR b) by (apply (IZR_lt 0); lia).
  assert (C0 : (0 <= c)%Z) by nia. assert (C1 : (c < 2 ^ 53 + 1)%Z) by nia.
  assert (Dc : double (IZR c)) by (apply double_int; lia).
  assert (Q1 : IZR a / IZR b <= IZR c). { apply Rmult_le_reg_r with (IZR b); [exact B0|]. replace (IZR a / IZR b * IZR b) with (IZR a) by (field; lra). rewrite <- mult_IZR. apply IZR_le. lia. }
  split; [|apply (rnd_le rnd N); assumption].
  destruct (Z.eq_dec c 0) as [->|Cn].
  { assert (Ea : a = 0%Z) by lia. subst a. rewrite (rnd_exact rnd N); [lra|]. replace (0 / IZR b) with (IZR 0) by (field; lra). apply double_int. lia. }
  set (m := (c - 1)%Z) in *. replace (IZR c - 1) with (IZR m) by (unfold m; rewrite minus_IZR; lra).
  assert (Q2 : IZR m < IZR a / IZR b). { apply Rmult_lt_reg_r with (IZR b); [exact B0|]. replace (IZR a / IZR b * IZR b) with (IZR a) by (field; lra). rewrite <- mult_IZR. apply IZR_lt. lia. }
  assert (Dm : double (IZR m)) by (apply double_int; unfold m; lia).
  assert (M0 : (0 <= m)%Z) by (unfold m; lia).
  (* the double above m *)
  assert (Y : exists s, (0 <= s <= 53)%Z /\ (m * 2 ^ s + 1 < 2 ^ 53)%Z /\ (b < 2 * 2 ^ s)%Z).
  { destruct (Z.eq_dec m 0) as [E0|E0]; [exists 52%Z; rewrite E0; lia|].
    pose proof (Z.log2_spec m) as LG. assert (0 < m)%Z by lia. specialize (LG H). set (t := Z.log2 m) in *.
    assert (T0 : (0 <= t)%Z) by (apply Z.log2_nonneg). assert (T1 : (t < 53)%Z). { apply (Z.pow_lt_mono_r_iff 2); lia. }
    assert (MB : (m * b + 1 < 2 ^ 53)%Z) by lia.
    assert (E53 : (2 ^ 53 = 2 ^ t * (2 * 2 ^ (52 - t)))%Z). { rewrite <- (Z.pow_succ_r 2 (52 - t)) by lia. rewrite <- Z.pow_add_r by lia. f_equal. lia. }
    assert (ST : (2 ^ Z.succ t = 2 * 2 ^ t)%Z) by (apply Z.pow_succ_r; lia).
    exists (52 - t)%Z. split; [lia|]. assert (P1 : (0 < 2 ^ t)%Z) by (apply pow2_posZ; lia). assert (P2 : (0 < 2 ^ (52 - t))%Z) by (apply pow2_posZ; lia).
    rewrite ST in LG. set (X := (2 ^ t)%Z) in *. set (W := (2 ^ (52 - t))%Z) in *. clearbody X W. clear - LG MB E53 P1 P2 B.
    split.
    - assert ((m + 1) * W <= 2 * X * W)%Z by (apply Z.mul_le_mono_nonneg_r; lia). destruct (Z.eq_dec W 1) as [->|]; [|lia]. assert (m * 1 <= m * b)%Z by (apply Z.mul_le_mono_nonneg_l; lia). lia.
    - assert (X * b <= m * b)%Z by (apply Z.mul_le_mono_nonneg_r; lia). assert (X * b < X * (2 * W))%Z by lia. apply Z.mul_lt_mono_pos_l in H0; lia. }
  destruct Y as (s & S0 & Y1 & Y2). set (S := IZR (2 ^ s)). assert (SP : 0 < S) by (apply pow2_pos; lia).
  apply (rnd_above rnd N _ (IZR (m * 2 ^ s + 1) / S)).
  - exact Dm.
  - lra.
  - apply double_frac; [|lia]. rewrite Z.abs_eq; [exact Y1|]. pose proof (pow2_posZ s). nia.
  - apply Rmult_lt_reg_r with S; [exact SP|]. replace (IZR (m * 2 ^ s + 1) / S * S) with (IZR (m * 2 ^ s + 1)) by (field; lra).
    unfold S. rewrite <- mult_IZR. apply IZR_lt. lia.
  - apply Rmult_lt_reg_r with (S * IZR b); [apply Rmult_lt_0_compat; lra|].
    replace (IZR (m * 2 ^ s + 1) / S * (S * IZR b)) with (IZR ((m * 2 ^ s + 1) * b)) by (rewrite mult_IZR; field; lra).
    replace ((2 * (IZR a / IZR b) - IZR m) * (S * IZR b)) with (IZR (2 * a * 2 ^ s - m * b * 2 ^ s)).
    2:{ unfold S. rewrite minus_IZR, !mult_IZR. field. lra. }
    apply IZR_lt. pose proof (pow2_posZ s). assert (m * b + 1 <= a)%Z by lia. clear - Y2 H0 H S0. specialize (H ltac:(lia)).
    set (W := (2 ^ s)%Z) in *. clearbody W. assert (2 * (m * b + 1) * W <= 2 * a * W)%Z by (apply Z.mul_le_mono_nonneg_r; lia). lia.
Qed.
