(** The law of the noise sampler. *)
From Coq Require Import String ZArith List Bool Lia Arith Reals Lra.
From Verif Require Import GoBase BaseFacts AmplifySpec NoiseModel NoiseSpec NoiseProofs NoiseProofs2.
Import ListNotations.
Open Scope Z_scope.

Opaque num Cnt kept W draws weight.
Lemma bell_abs g : bell g = exp (- (a0 * INR (Z.to_nat (Z.abs g)) ^ 2)).
Proof.
  unfold bell, a0. f_equal. rewrite INR_IZR_INZ, Z2Nat.id by lia. rewrite abs_IZR.
  replace (Rabs (IZR g) ^ 2)%R with (IZR g * IZR g)%R by (rewrite pow2_abs; ring). field.
Qed.

Lemma entry x : (x < 129)%nat -> exists m e q s, nth x cdf_table (0, 0) = (m, e) /\ float_literal m e = (q, s) /\ 0 <= s /\ 0 <= q < 2 ^ s /\
  let q' := if (x =? 0)%nat then 2 * q else q in
  let b := exp (- (a0 * INR x ^ 2)) in
  (999996 / 1000000 * b <= IZR q' / IZR (2 ^ s) <= 1000004 / 1000000 * b)%R.
Proof.
  intros Hx. pose proof entries_ok as E. rewrite forallb_forall in E. specialize (E x ltac:(apply in_seq; lia)). unfold entry_ok in E.
  destruct (nth x cdf_table (0, 0)) as [m e] eqn:E1. destruct (float_literal m e) as [q s] eqn:E2.
  rewrite !andb_true_iff, !Z.leb_le, Z.ltb_lt in E. destruct E as ((((Hs & Hq) & Hq2) & H1) & H2).
  exists m, e, q, s. split; auto. split; auto. split; auto. split; [lia|]. cbn zeta.
  set (q' := if (x =? 0)%nat then 2 * q else q) in *.
  pose proof (bell_lower x Hx) as [_ L]. pose proof (bell_upper x Hx) as U. unfold upper in U.
  set (b := exp (- (a0 * INR x ^ 2))) in *. pose proof one_pos as O.
  assert (S0 : (0 < IZR (2 ^ s))%R) by (apply IZR_lt; apply Z.pow_pos_nonneg; lia).
  apply IZR_le in H1, H2. rewrite !mult_IZR in H1, H2.
  set (one' := IZR one) in *. set (S := IZR (2 ^ s)) in *. set (Q := IZR q') in *. set (hi := IZR (nth x bell_hi 0)) in *. set (lo := IZR (nth x bell_lo 0)) in *.
  assert (H3 : (999996 * b * S <= 1000000 * Q)%R).
  { apply Rmult_le_reg_r with one'; auto. eapply Rle_trans; [|exact H1]. assert (one' * b * S <= hi * S)%R by (apply Rmult_le_compat_r; lra). lra. }
  assert (H4 : (1000000 * Q <= 1000004 * b * S)%R).
  { apply Rmult_le_reg_r with one'; auto. eapply Rle_trans; [exact H2|]. assert (lo * S <= one' * b * S)%R by (apply Rmult_le_compat_r; lra). lra. }
  assert (QS : (Q / S * S = Q)%R) by (field; lra).
  split; apply Rmult_le_reg_r with S; auto; rewrite QS; lra.
Qed.


Lemma two_63 : IZR (2 ^ 63) = 9223372036854775808%R. Proof. reflexivity. Qed.

Theorem gaussian g : -128 <= g <= 128 ->
  (Rabs (IZR (draws 3 g) / IZR scale - bell g) <= 4 / 1000000 * bell g + / IZR (2 ^ 52))%R.
Proof.
  intros Hg. set (x := Z.to_nat (Z.abs g)). assert (Hx : (x < 129)%nat) by lia.
  destruct (entry x Hx) as (m & e & q & s & E1 & E2 & Hs & Hq & B). cbn zeta in B.
  rewrite bell_abs. fold x. set (b := exp (- (a0 * INR x ^ 2))) in *.
  pose proof (acc_near (Z.abs g) m e q s E1 E2 Hs Hq) as N. set (A := Cnt W (acc (Z.abs g))) in *.
  assert (EW : draws 3 g = 2 ^ 34 * kept * (A * (W * if g =? 0 then 2 else 1))) by exact (draws_in g Hg).
  assert (EX : (x =? 0)%nat = (g =? 0)). { unfold x. destruct (Nat.eqb_spec (Z.to_nat (Z.abs g)) 0), (Z.eqb_spec g 0); auto; lia. }
  rewrite EX in B. set (c := if g =? 0 then 2 else 1) in *.
  assert (Hc : 1 <= c <= 2) by (unfold c; destruct (g =? 0); lia).
  assert (EQ : (if g =? 0 then 2 * q else q) = c * q) by (unfold c; destruct (g =? 0); lia). rewrite EQ in B.
  assert (ED : (IZR (draws 3 g) / IZR scale = IZR (A * c) / IZR (2 ^ 63))%R).
  { rewrite EW. assert (EZ : 2 ^ 34 * kept * (A * (W * c)) * 2 ^ 63 = (A * c) * scale).
    { unfold scale. change (2 ^ 31 / 129) with kept. change W with (2 ^ 63). change (2 ^ 160) with (2 ^ 34 * 2 ^ 63 * 2 ^ 63). generalize kept (2 ^ 34) (2 ^ 63). intros; ring. }
    apply (f_equal IZR) in EZ. rewrite !(mult_IZR _ (2 ^ 63)), (mult_IZR _ scale) in EZ.
    assert (IZR scale <> 0)%R by (apply IZR_neq; vm_compute; discriminate). assert (IZR (2 ^ 63) <> 0)%R by (rewrite two_63; lra).
    apply (Rmult_eq_reg_r (IZR scale * IZR (2 ^ 63))%R); [|apply Rmult_integral_contrapositive; auto].
    transitivity (IZR (2 ^ 34 * kept * (A * (W * c))) * IZR (2 ^ 63))%R; [field; auto|]. rewrite EZ. field. auto. }
  rewrite ED. clear ED EW.
  assert (S0 : (0 < IZR (2 ^ s))%R) by (apply IZR_lt; apply Z.pow_pos_nonneg; lia).
  assert (T : (Rabs (IZR (A * c) / IZR (2 ^ 63) - IZR (c * q) / IZR (2 ^ s)) <= / IZR (2 ^ 52))%R).
  { destruct N as [N1 N2]. assert (M1 : c * q * 2 ^ 63 - 1026 * 2 ^ s <= A * c * 2 ^ s) by nia. assert (M2 : A * c * 2 ^ s <= c * q * 2 ^ 63 + 1026 * 2 ^ s) by nia.
    apply IZR_le in M1, M2. rewrite minus_IZR in M1. rewrite plus_IZR in M2.
    rewrite (mult_IZR (c * q)), (mult_IZR 1026), (mult_IZR (A * c)), two_63 in M1. rewrite (mult_IZR (c * q)), (mult_IZR 1026), (mult_IZR (A * c)), two_63 in M2.
    rewrite two_63. change (IZR (2 ^ 52)) with 4503599627370496%R.
    set (u := IZR (A * c)) in *. set (v := IZR (c * q)) in *. set (S := IZR (2 ^ s)) in *. clearbody u v S. clear - M1 M2 S0.
    assert (EV : (v = (v / S) * S)%R) by (field; lra). set (y := (v / S)%R) in *. clearbody y. subst v.
    assert (u >= y * 9223372036854775808 - 1026)%R by nra. assert (u <= y * 9223372036854775808 + 1026)%R by nra.
    apply Rabs_le. split; lra. }
  destruct B as [B1 B2]. set (y := (IZR (c * q) / IZR (2 ^ s))%R) in *.
  assert (T2 : (Rabs (y - b) <= 4 / 1000000 * b)%R) by (apply Rabs_le; split; lra).
  replace (IZR (A * c) / IZR (2 ^ 63) - b)%R with ((IZR (A * c) / IZR (2 ^ 63) - y) + (y - b))%R by ring.
  eapply Rle_trans; [apply Rabs_triang|]. lra.
Qed.

Theorem never_outside g n : 128 < Z.abs g -> draws n g = 0.
Proof.
  intros H. rewrite draws_num. destruct (num_shape n) as (a & b & E). destruct (E g) as [E1 _]. rewrite E1, (weight_out g H). apply Z.mul_0_r.
Qed.
Transparent num Cnt kept W draws weight.
