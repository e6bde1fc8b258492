(** Lemmas on byte-wise xor. *)
From Coq Require Import String ZArith List Bool Lia.
From Verif Require Import GoBase BaseFacts FSSModel.
Import ListNotations.
Open Scope Z_scope.

Lemma lxor_bound a b k : 0 <= k -> 0 <= a < 2 ^ k -> 0 <= b < 2 ^ k -> 0 <= Z.lxor a b < 2 ^ k.
Proof.
  intros Hk Ha Hb. assert (H0 : 0 <= Z.lxor a b) by (apply Z.lxor_nonneg; lia).
  split; auto.
  assert (E : Z.lxor a b = Z.lxor a b mod 2 ^ k).
  { apply Z.bits_inj'. intros n Hn. destruct (Z_lt_le_dec n k).
    - rewrite Z.mod_pow2_bits_low; auto.
    - rewrite Z.mod_pow2_bits_high by lia. rewrite Z.lxor_spec.
      rewrite <- (Z.mod_small a (2 ^ k)), <- (Z.mod_small b (2 ^ k)) by auto.
      rewrite !Z.mod_pow2_bits_high by lia. auto. }
  rewrite E. apply Z.mod_pos_bound. lia.
Qed.

Lemma lxor_byte a b : is_byte a -> is_byte b -> is_byte (Z.lxor a b).
Proof. unfold is_byte, w8. change 256 with (2 ^ 8). intros. apply lxor_bound; lia. Qed.

Lemma lxor_mod2 a b : Z.lxor a b mod 2 = Z.lxor (a mod 2) (b mod 2).
Proof.
  change 2 with (2 ^ 1). apply Z.bits_inj'. intros n Hn.
  destruct (Z_lt_le_dec n 1).
  - rewrite Z.mod_pow2_bits_low by lia. rewrite !Z.lxor_spec, !Z.mod_pow2_bits_low by lia. auto.
  - rewrite Z.mod_pow2_bits_high by lia. rewrite !Z.lxor_spec, !Z.mod_pow2_bits_high by lia. auto.
Qed.

Lemma xor_list_length a b : length (xor_list a b) = Nat.min (length a) (length b).
Proof. unfold xor_list. rewrite map_length, combine_length. auto. Qed.

Lemma xor_list_cons x y a b : xor_list (x :: a) (y :: b) = Z.lxor x y :: xor_list a b.
Proof. reflexivity. Qed.

Lemma xor_list_nil_r a : xor_list a [] = [].
Proof. unfold xor_list. destruct a; auto. Qed.

Lemma xor_list_bytes a b : bytes a -> bytes b -> bytes (xor_list a b).
Proof.
  unfold bytes. revert b. induction a; intros [|y b] Ha Hb; try constructor; cbn.
  - inversion Ha; inversion Hb; subst. apply lxor_byte; auto.
  - inversion Ha; inversion Hb; subst. apply IHa; auto.
Qed.

Lemma xor_list_firstn n a b : firstn n (xor_list a b) = xor_list (firstn n a) (firstn n b).
Proof.
  revert a b. induction n; intros [|x a] [|y b]; auto.
  cbn [firstn]. rewrite !xor_list_cons. cbn [firstn]. rewrite IHn. auto.
Qed.

Lemma xor_list_skipn n a b : skipn n (xor_list a b) = xor_list (skipn n a) (skipn n b).
Proof.
  revert a b. induction n; intros a b; [reflexivity|].
  destruct a as [|x a], b as [|y b].
  - reflexivity.
  - reflexivity.
  - cbn [skipn]. rewrite !xor_list_nil_r. reflexivity.
  - rewrite xor_list_cons. cbn [skipn]. apply IHn.
Qed.

Lemma xor_list_nth n a b :
  (n < length a)%nat -> (n < length b)%nat -> nth n (xor_list a b) 0 = Z.lxor (nth n a 0) (nth n b 0).
Proof.
  revert a b. induction n; intros [|x a] [|y b] Ha Hb; cbn [length] in *; try lia; rewrite xor_list_cons; cbn [nth]; auto.
  apply IHn; lia.
Qed.

Lemma xor_list_comm a b : xor_list a b = xor_list b a.
Proof.
  revert b. induction a; intros [|y b]; auto. rewrite !xor_list_cons, Z.lxor_comm, IHa. auto.
Qed.

Lemma xor_list_assoc a b c : xor_list (xor_list a b) c = xor_list a (xor_list b c).
Proof.
  revert b c. induction a; intros [|y b] [|z c]; try reflexivity.
  rewrite !xor_list_cons, Z.lxor_assoc, IHa. auto.
Qed.

Lemma xor_list_zero a n : (length a <= n)%nat -> xor_list a (repeat 0 n) = a.
Proof.
  revert n. induction a; intros [|n] H; cbn [length] in H; auto; try lia. cbn [repeat].
  rewrite xor_list_cons, Z.lxor_0_r, IHa; auto. lia.
Qed.

Lemma xor_list_self a : xor_list a a = repeat 0 (length a).
Proof. induction a; auto. rewrite xor_list_cons, Z.lxor_nilpotent, IHa. auto. Qed.

Lemma xor_list_app a1 a2 b1 b2 :
  length a1 = length b1 -> xor_list (a1 ++ a2) (b1 ++ b2) = xor_list a1 b1 ++ xor_list a2 b2.
Proof.
  revert b1. induction a1; intros [|y b1] H; try discriminate; auto.
  cbn [app]. rewrite !xor_list_cons, IHa1; auto.
Qed.
