(** The constants of the noise sampler against the exponential function. *)
From Coq Require Import String ZArith List Bool Lia Arith Reals Lra.
From Verif Require Import GoBase BaseFacts AmplifySpec NoiseModel NoiseSpec NoiseProofs.
Import ListNotations.
Open Scope Z_scope.

(** fixed-point numbers: [l] stands for l / 2^400 *)
Definition one : Z := 2 ^ 400.
Definition lower (l : Z) (a : R) : Prop := 0 <= l /\ (IZR l <= IZR one * exp (- a))%R.
Definition upper (u : Z) (a : R) : Prop := (IZR one * exp (- a) <= IZR u)%R.
Definition mul_lo (x y : Z) : Z := x * y / one.
Definition mul_hi (x y : Z) : Z := x * y / one + 1.

Lemma one_pos : (0 < IZR one)%R. Proof. apply IZR_lt. reflexivity. Qed.
Lemma one_posZ : 0 < one. Proof. reflexivity. Qed.
Opaque one.

Lemma mul_lower x y a b : lower x a -> lower y b -> lower (mul_lo x y) (a + b).
Proof.
  intros [Hx Ex] [Hy Ey]. pose proof one_pos as O. pose proof one_posZ as OZ. unfold mul_lo. split. apply Z.div_pos; nia.
  assert (D : one * (x * y / one) <= x * y) by (apply Z.mul_div_le; auto). apply IZR_le in D. rewrite !mult_IZR in D.
  rewrite Ropp_plus_distr, exp_plus. apply Rmult_le_reg_l with (IZR one); auto.
  assert (IZR x * IZR y <= (IZR one * exp (- a)) * (IZR one * exp (- b)))%R by (apply Rmult_le_compat; auto; apply IZR_le; auto). lra.
Qed.
Lemma mul_upper x y a b : upper x a -> upper y b -> upper (mul_hi x y) (a + b).
Proof.
  unfold upper. intros Ex Ey. pose proof one_pos as O. pose proof one_posZ as OZ. unfold mul_hi.
  assert (D : x * y <= one * (x * y / one + 1)). { pose proof (Z.mul_succ_div_gt (x * y) one OZ). lia. }
  apply IZR_le in D. rewrite !mult_IZR in D.
  rewrite Ropp_plus_distr, exp_plus. apply Rmult_le_reg_l with (IZR one); auto.
  pose proof (exp_pos (- a)). pose proof (exp_pos (- b)).
  assert ((IZR one * exp (- a)) * (IZR one * exp (- b)) <= IZR x * IZR y)%R by (apply Rmult_le_compat; auto; apply Rmult_le_pos; lra). lra.
Qed.

Fixpoint squares (f : Z -> Z -> Z) (n : nat) (x : Z) : Z := match n with O => x | S n' => squares f n' (f x x) end.
Lemma squares_lower n : forall x a, lower x a -> lower (squares mul_lo n x) (a * 2 ^ n).
Proof.
  induction n; intros x a L; cbn [squares pow]. rewrite Rmult_1_r. auto.
  replace (a * (2 * 2 ^ n))%R with ((a + a) * 2 ^ n)%R by ring. apply IHn, mul_lower; auto.
Qed.
Lemma squares_upper n : forall x a, upper x a -> upper (squares mul_hi n x) (a * 2 ^ n).
Proof.
  induction n; intros x a L; cbn [squares pow]. rewrite Rmult_1_r. auto.
  replace (a * (2 * 2 ^ n))%R with ((a + a) * 2 ^ n)%R by ring. apply IHn, mul_upper; auto.
Qed.

(** exp(-25/2^41), from 1 + y <= exp y *)
Definition tiny : R := (25 / IZR (2 ^ 41))%R.
Lemma tiny_step (c : Z) : 0 < c -> let o := c * 2 ^ 41 in
  (IZR (o - 25 * c) <= IZR o * exp (- tiny))%R /\ (IZR o * exp (- tiny) <= IZR (o * 2 ^ 41 / (2 ^ 41 + 25) + 1))%R.
Proof.
  intros Hc o. assert (T : (0 < tiny)%R) by (unfold tiny; apply Rdiv_lt_0_compat; [lra|apply IZR_lt; reflexivity]).
  assert (O : (0 < IZR o)%R) by (apply IZR_lt; unfold o; lia).
  assert (P41 : (0 < IZR (2 ^ 41))%R) by (apply IZR_lt; reflexivity).
  assert (EO : IZR o = (IZR c * IZR (2 ^ 41))%R) by (unfold o; apply mult_IZR).
  split.
  - assert (E : (1 + - tiny <= exp (- tiny))%R) by apply exp_ineq1_le.
    apply Rmult_le_compat_l with (r := IZR o) in E; [|lra]. eapply Rle_trans; [|exact E].
    rewrite minus_IZR, mult_IZR, EO. unfold tiny. apply Req_le. field. lra.
  - assert (E : (1 + tiny <= exp tiny)%R) by apply exp_ineq1_le.
    rewrite exp_Ropp. apply Rle_trans with (IZR o * / (1 + tiny))%R.
    { apply Rmult_le_compat_l; [lra|]. apply Rinv_le_contravar; lra. }
    assert (D : o * 2 ^ 41 <= (2 ^ 41 + 25) * (o * 2 ^ 41 / (2 ^ 41 + 25) + 1)).
    { pose proof (Z.mul_succ_div_gt (o * 2 ^ 41) (2 ^ 41 + 25) ltac:(reflexivity)). lia. }
    apply IZR_le in D. rewrite mult_IZR, (mult_IZR (2 ^ 41 + 25)) in D. rewrite (plus_IZR (2 ^ 41) 25) in D.
    apply Rmult_le_reg_r with (1 + tiny)%R; [lra|]. rewrite Rmult_assoc, Rinv_l, Rmult_1_r by lra.
    apply Rmult_le_reg_r with (IZR (2 ^ 41)); auto. eapply Rle_trans; [exact D|]. apply Req_le. unfold tiny. field. lra.
Qed.
Lemma one_tiny : one = 2 ^ 359 * 2 ^ 41. Proof. vm_compute. reflexivity. Qed.
Lemma tiny_lower : lower (one - 25 * 2 ^ 359) tiny.
Proof. split. vm_compute. discriminate. rewrite one_tiny. apply (tiny_step (2 ^ 359)). reflexivity. Qed.
Lemma tiny_upper : upper (one * 2 ^ 41 / (2 ^ 41 + 25) + 1) tiny.
Proof. unfold upper. rewrite one_tiny. apply (tiny_step (2 ^ 359)). reflexivity. Qed.

(** exp(-25/2048) *)
Definition step_lo : Z := squares mul_lo 30 (one - 25 * 2 ^ 359).
Definition step_hi : Z := squares mul_hi 30 (one * 2 ^ 41 / (2 ^ 41 + 25) + 1).
Definition a0 : R := (25 / 2048)%R.
Lemma a0_tiny : a0 = (tiny * 2 ^ 30)%R.
Proof. unfold a0, tiny. replace (IZR (2 ^ 41)) with (2048 * 2 ^ 30)%R. field.
  change (2 ^ 41) with (2048 * 2 ^ 30)%Z. rewrite mult_IZR. f_equal. rewrite pow_IZR. auto. Qed.
Lemma step_lower : lower step_lo a0. Proof. rewrite a0_tiny. apply squares_lower, tiny_lower. Qed.
Lemma step_upper : upper step_hi a0. Proof. rewrite a0_tiny. apply squares_upper, tiny_upper. Qed.

(** exp(-25/2048 * x^2) for x = 0, 1, 2, ... : (value at x, factor to the next, factor of the factors) *)
Fixpoint bells (f : Z -> Z -> Z) (w : Z) (n : nat) (v t : Z) : list Z :=
  match n with O => [] | S n' => v :: bells f w n' (f v t) (f t w) end.
Definition bell_lo : list Z := bells mul_lo (mul_lo step_lo step_lo) 129 one step_lo.
Definition bell_hi : list Z := bells mul_hi (mul_hi step_hi step_hi) 129 one step_hi.

Lemma bells_lower w n : lower w (a0 + a0) -> forall x v t, lower v (a0 * INR x ^ 2) -> lower t (a0 * (2 * INR x + 1)) ->
  forall k, (k < n)%nat -> lower (nth k (bells mul_lo w n v t) 0) (a0 * INR (x + k) ^ 2).
Proof.
  intros Hw. induction n; intros x v t Hv Ht k Hk; [lia|]. destruct k as [|k]; cbn [bells nth]. rewrite Nat.add_0_r. auto.
  replace (x + S k)%nat with (S x + k)%nat by lia. apply IHn; try lia.
  - replace (a0 * INR (S x) ^ 2)%R with (a0 * INR x ^ 2 + a0 * (2 * INR x + 1))%R by (rewrite S_INR; ring). apply mul_lower; auto.
  - replace (a0 * (2 * INR (S x) + 1))%R with (a0 * (2 * INR x + 1) + (a0 + a0))%R by (rewrite S_INR; ring). apply mul_lower; auto.
Qed.
Lemma bells_upper w n : upper w (a0 + a0) -> forall x v t, upper v (a0 * INR x ^ 2) -> upper t (a0 * (2 * INR x + 1)) ->
  forall k, (k < n)%nat -> upper (nth k (bells mul_hi w n v t) 0) (a0 * INR (x + k) ^ 2).
Proof.
  intros Hw. induction n; intros x v t Hv Ht k Hk; [lia|]. destruct k as [|k]; cbn [bells nth]. rewrite Nat.add_0_r. auto.
  replace (x + S k)%nat with (S x + k)%nat by lia. apply IHn; try lia.
  - replace (a0 * INR (S x) ^ 2)%R with (a0 * INR x ^ 2 + a0 * (2 * INR x + 1))%R by (rewrite S_INR; ring). apply mul_upper; auto.
  - replace (a0 * (2 * INR (S x) + 1))%R with (a0 * (2 * INR x + 1) + (a0 + a0))%R by (rewrite S_INR; ring). apply mul_upper; auto.
Qed.
Lemma bell_lower k : (k < 129)%nat -> lower (nth k bell_lo 0) (a0 * INR k ^ 2).
Proof.
  intros Hk. apply (bells_lower _ 129 (mul_lower _ _ _ _ step_lower step_lower) 0); auto; cbn [INR].
  - replace (a0 * 0 ^ 2)%R with 0%R by ring. split. vm_compute; discriminate. rewrite Ropp_0, exp_0. lra.
  - replace (a0 * (2 * 0 + 1))%R with a0 by ring. apply step_lower.
Qed.
Lemma bell_upper k : (k < 129)%nat -> upper (nth k bell_hi 0) (a0 * INR k ^ 2).
Proof.
  intros Hk. apply (bells_upper _ 129 (mul_upper _ _ _ _ step_upper step_upper) 0); auto; cbn [INR].
  - replace (a0 * 0 ^ 2)%R with 0%R by ring. unfold upper. rewrite Ropp_0, exp_0. lra.
  - replace (a0 * (2 * 0 + 1))%R with a0 by ring. apply step_upper.
Qed.

(** the table against the bounds: relative error at most 4/10^6 (the entry for 0 is half of what the bell has) *)
Definition entry_ok (x : nat) : bool :=
  let (m, e) := nth x cdf_table (0, 0) in
  let (q, s) := float_literal m e in
  let q' := if (x =? 0)%nat then 2 * q else q in
  (0 <=? s) && (0 <=? q) && (q <? 2 ^ s) && (999996 * nth x bell_hi 0 * 2 ^ s <=? 1000000 * q' * one) && (1000000 * q' * one <=? 1000004 * nth x bell_lo 0 * 2 ^ s).
Lemma entries_ok : forallb entry_ok (seq 0 129) = true.
Proof. vm_compute. reflexivity. Qed.
