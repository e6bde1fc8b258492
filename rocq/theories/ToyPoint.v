(** A toy distributed point function meeting its contract, used only in examples and refutation witnesses. *)
From Coq Require Import String ZArith List Bool Lia Arith.
From Verif Require Import GoBase BaseFacts PointModel PointSpec PointProofs2.
Import ListNotations.
Open Scope Z_scope.

Definition toy_dpf : dpf_scheme := mkDPF
  (fun alpha logN => Ok (repeat 0 9, 1 :: le_enc 8 alpha))
  (fun k logN => match k with
                 | 0 :: _ => repeat 0 (Z.to_nat (2 ^ logN / 8 + 1))
                 | _ => unit_vector (Z.to_nat (2 ^ logN / 8 + 1)) (Z.to_nat (le_dec (skipn 1 k)))
                 end).

Lemma toy_dpf_ok : dpf_ok toy_dpf.
Proof.
  intros alpha logN HL HA. exists (repeat 0 9), (1 :: le_enc 8 alpha). split; [reflexivity|]. intros j Hj.
  assert (P : 0 < 2 ^ logN) by (apply Z.pow_pos_nonneg; lia).
  assert (P63 : 2 ^ logN <= 2 ^ 63) by (apply Z.pow_le_mono_r; lia).
  change (dpf_eval toy_dpf (repeat 0 9) logN) with (repeat 0 (Z.to_nat (2 ^ logN / 8 + 1))).
  assert (E1 : dpf_eval toy_dpf (1 :: le_enc 8 alpha) logN = unit_vector (Z.to_nat (2 ^ logN / 8 + 1)) (Z.to_nat alpha)).
  { change (dpf_eval toy_dpf (1 :: le_enc 8 alpha) logN) with
      (unit_vector (Z.to_nat (2 ^ logN / 8 + 1)) (Z.to_nat (le_dec (le_enc 8 alpha)))).
    rewrite le_dec_enc; auto. change (256 ^ Z.of_nat 8) with (2 ^ 64). assert (2 ^ 63 < 2 ^ 64) by (apply Z.pow_lt_mono_r; lia). lia. }
  rewrite E1. rewrite unit_vector_length, repeat_length.
  assert (B : forall i, Z.of_nat i < 2 ^ logN -> (i / 8 < Z.to_nat (2 ^ logN / 8 + 1))%nat).
  { intros i Hi. apply Nat2Z.inj_lt. rewrite Z2Nat.id by (pose proof (Z.div_pos (2 ^ logN) 8); lia).
    rewrite Nat2Z.inj_div. assert (Z.of_nat i / 8 <= 2 ^ logN / 8) by (apply Z.div_le_mono; lia). change (Z.of_nat 8) with 8. lia. }
  split; auto. split; auto. rewrite unit_vector_bit by (apply B; lia).
  assert (Q : query_bit (repeat 0 (Z.to_nat (2 ^ logN / 8 + 1))) j = false).
  { unfold query_bit. rewrite nth_repeat. apply Z.bits_0. }
  rewrite Q, xorb_false_l. destruct (Nat.eqb_spec j (Z.to_nat alpha)), (Z.eqb_spec (Z.of_nat j) alpha); auto; lia.
Qed.
