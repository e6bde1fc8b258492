(** The calendar computation of the model agrees with the leap-year rule. *)
From Coq Require Import String ZArith List Bool Lia.
From Verif Require Import GoBase BaseFacts PredicateModel.
Import ListNotations.
Open Scope Z_scope.

Lemma div_step k y : 0 < k -> y / k - (y - 1) / k = if y mod k =? 0 then 1 else 0.
Proof.
  intros Hk. pose proof (Z.div_mod y k ltac:(lia)) as E. pose proof (Z.mod_pos_bound y k Hk) as B.
  destruct (Z.eqb_spec (y mod k) 0) as [H|H].
  - assert ((y - 1) / k = y / k - 1). { symmetry. apply Z.div_unique with (k - 1); nia. } lia.
  - assert ((y - 1) / k = y / k). { symmetry. apply Z.div_unique with (y mod k - 1); nia. } lia.
Qed.

Lemma days_before_year_1 : days_before_year 1 = 0.
Proof. reflexivity. Qed.

Lemma days_before_year_step y :
  days_before_year (y + 1) = days_before_year y + 365 + (if is_leap y then 1 else 0).
Proof.
  unfold days_before_year, is_leap. replace (y + 1 - 1) with y by lia.
  pose proof (div_step 4 y ltac:(lia)). pose proof (div_step 100 y ltac:(lia)). pose proof (div_step 400 y ltac:(lia)).
  assert (A : y mod 100 = 0 -> y mod 4 = 0).
  { intros Q. apply Z.mod_divide in Q; try lia. apply Z.mod_divide; try lia.
    apply Z.divide_trans with 100; auto. exists 25; reflexivity. }
  assert (B : y mod 400 = 0 -> y mod 100 = 0).
  { intros Q. apply Z.mod_divide in Q; try lia. apply Z.mod_divide; try lia.
    apply Z.divide_trans with 400; auto. exists 4; reflexivity. }
  destruct (Z.eqb_spec (y mod 4) 0), (Z.eqb_spec (y mod 100) 0), (Z.eqb_spec (y mod 400) 0); cbn [andb orb negb]; lia.
Qed.

Lemma days_before_year_lt a b : a < b -> days_before_year a + 365 <= days_before_year b.
Proof.
  intros H. replace b with (a + 1 + Z.of_nat (Z.to_nat (b - a - 1))) by lia.
  induction (Z.to_nat (b - a - 1)) as [|n IH].
  - rewrite Z.add_0_r. rewrite days_before_year_step. destruct (is_leap a); lia.
  - replace (a + 1 + Z.of_nat (S n)) with (a + 1 + Z.of_nat n + 1) by lia.
    rewrite days_before_year_step. destruct (is_leap _); lia.
Qed.

Lemma days_decompose a b c e : 0 <= b <= 3 -> 0 <= c <= 24 -> 0 <= e <= 3 ->
  days_before_year (400 * a + 100 * b + 4 * c + e + 1) = 146097 * a + 36524 * b + 1461 * c + 365 * e.
Proof.
  intros Hb Hc He. unfold days_before_year.
  replace (400 * a + 100 * b + 4 * c + e + 1 - 1) with (400 * a + 100 * b + 4 * c + e) by lia.
  assert (D4 : (400 * a + 100 * b + 4 * c + e) / 4 = 100 * a + 25 * b + c).
  { symmetry. apply Z.div_unique with e; lia. }
  assert (D100 : (400 * a + 100 * b + 4 * c + e) / 100 = 4 * a + b).
  { symmetry. apply Z.div_unique with (4 * c + e); lia. }
  assert (D400 : (400 * a + 100 * b + 4 * c + e) / 400 = a).
  { symmetry. apply Z.div_unique with (100 * b + 4 * c + e); lia. }
  rewrite D4, D100, D400. lia.
Qed.

Lemma quarter n : 0 <= n <= 4 -> n - n / 4 = Z.min n 3.
Proof. intros H. assert (C : n = 0 \/ n = 1 \/ n = 2 \/ n = 3 \/ n = 4) by lia.
  destruct C as [->|[->|[->|[->| ->]]]]; reflexivity. Qed.

Lemma year_of_days_spec d :
  days_before_year (year_of_days d) <= d < days_before_year (year_of_days d + 1).
Proof.
  unfold year_of_days. cbv zeta.
  set (a := d / 146097). set (r1 := d - 146097 * a).
  assert (R1 : 0 <= r1 < 146097).
  { unfold r1, a. pose proof (Z.div_mod d 146097 ltac:(lia)). pose proof (Z.mod_pos_bound d 146097 ltac:(lia)). lia. }
  set (b0 := r1 / 36524).
  assert (B0 : 36524 * b0 <= r1 < 36524 * b0 + 36524).
  { unfold b0. pose proof (Z.div_mod r1 36524 ltac:(lia)). pose proof (Z.mod_pos_bound r1 36524 ltac:(lia)). lia. }
  assert (B1 : 0 <= b0 <= 4) by lia.
  rewrite (quarter b0 B1). set (b := Z.min b0 3).
  assert (Hb : 0 <= b <= 3 /\ (b = b0 \/ b = 3 /\ b0 = 4)) by lia. clearbody b.
  set (r2 := r1 - 36524 * b).
  assert (R2 : 0 <= r2 <= 36524 /\ (r2 = 36524 -> b = 3)) by lia.
  set (c := r2 / 1461).
  assert (C0 : 1461 * c <= r2 < 1461 * c + 1461).
  { unfold c. pose proof (Z.div_mod r2 1461 ltac:(lia)). pose proof (Z.mod_pos_bound r2 1461 ltac:(lia)). lia. }
  assert (C1 : 0 <= c <= 24) by lia.
  set (r3 := r2 - 1461 * c).
  set (e0 := r3 / 365).
  assert (E0 : 365 * e0 <= r3 < 365 * e0 + 365).
  { unfold e0. pose proof (Z.div_mod r3 365 ltac:(lia)). pose proof (Z.mod_pos_bound r3 365 ltac:(lia)). lia. }
  assert (E1 : 0 <= e0 <= 4) by lia.
  rewrite (quarter e0 E1). set (e := Z.min e0 3).
  assert (He : 0 <= e <= 3 /\ (e = e0 \/ e = 3 /\ e0 = 4)) by lia. clearbody e.
  rewrite (days_before_year_step (400 * a + 100 * b + 4 * c + e + 1)).
  rewrite (days_decompose a b c e) by lia.
  set (y := 400 * a + 100 * b + 4 * c + e + 1).
  assert (RR : r3 - 365 * e < 365 \/ (r3 - 365 * e = 365 /\ e = 3)) by lia.
  split. lia.
  destruct RR as [RR|[RR HE]]; [destruct (is_leap y); lia|].
  assert (HL : is_leap y = true).
  { unfold is_leap.
    assert (M4 : y mod 4 = 0). { unfold y. rewrite HE. apply Z.mod_divide; try lia. exists (100 * a + 25 * b + c + 1). lia. }
    rewrite M4. change (0 =? 0) with true. cbn [andb].
    destruct (Z.eqb_spec (y mod 100) 0) as [M|M]; auto. cbn [negb orb].
    apply Z.mod_divide in M; try lia. destruct M as [k Hk].
    assert (c = 24) by lia. assert (r2 = 36524) by lia. assert (b = 3) by lia.
    apply Z.eqb_eq. apply Z.mod_divide; try lia. exists (a + 1). unfold y. lia. }
  rewrite HL. lia.
Qed.

Lemma year_of_days_unique y d : days_before_year y <= d < days_before_year (y + 1) -> year_of_days d = y.
Proof.
  intros H. pose proof (year_of_days_spec d) as S.
  destruct (Z.lt_trichotomy (year_of_days d) y) as [C|[C|C]]; auto.
  - assert (days_before_year (year_of_days d + 1) <= days_before_year y).
    { destruct (Z.eq_dec (year_of_days d + 1) y) as [->|]. lia.
      pose proof (days_before_year_lt (year_of_days d + 1) y ltac:(lia)). lia. }
    lia.
  - assert (days_before_year (y + 1) <= days_before_year (year_of_days d)).
    { destruct (Z.eq_dec (y + 1) (year_of_days d)) as [->|]. lia.
      pose proof (days_before_year_lt (y + 1) (year_of_days d) ltac:(lia)). lia. }
    lia.
Qed.

(** month 0, day 0 of year y is 30 November of the year before *)
Lemma date_00 y : date_utc y 0 0 = mkTime (86400 * (days_before_year y - 32)) 0 None.
Proof.
  unfold date_utc. change (0 - 1) with (-1). change (-1 / 12) with (-1). change (-1 mod 12) with 11.
  change (days_before_month 11) with 334. change (2 <=? 11) with true. rewrite andb_true_r.
  pose proof (days_before_year_step (y - 1)) as E. replace (y - 1 + 1) with y in E by lia.
  replace (y + -1) with (y - 1) by lia.
  f_equal. f_equal. lia.
Qed.

Lemma date_00_is_november_30 y : date_utc y 0 0 = date_utc (y - 1) 11 30.
Proof.
  rewrite date_00. unfold date_utc. change (11 - 1) with 10. change (10 / 12) with 0. change (10 mod 12) with 10.
  change (days_before_month 10) with 304. change (2 <=? 10) with true. rewrite andb_true_r, Z.add_0_r.
  pose proof (days_before_year_step (y - 1)) as E. replace (y - 1 + 1) with y in E by lia.
  f_equal. f_equal. lia.
Qed.

Lemma date_00_year y : time_year (date_utc y 0 0) = y - 1.
Proof.
  rewrite date_00. unfold time_year, zone_seconds. cbn [t_sec t_zone]. rewrite Z.add_0_r, Z.mul_comm, Z.div_mul by lia.
  apply year_of_days_unique. pose proof (days_before_year_step (y - 1)) as E. replace (y - 1 + 1) with y in * by lia.
  destruct (is_leap (y - 1)); lia.
Qed.
