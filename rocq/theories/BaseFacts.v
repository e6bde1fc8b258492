(** General lemmas about GoBase (no model content). *)
From Coq Require Import String ZArith List Lia Bool Permutation.
From Coq Require Export ZifyBool ZifyNat.
From Verif Require Import GoBase.
Import ListNotations.
Open Scope Z_scope.

#[global] Arguments Z.mul : simpl never.
#[global] Arguments Z.add : simpl never.
#[global] Arguments Z.sub : simpl never.
#[global] Arguments Z.modulo : simpl never.
#[global] Arguments Z.div : simpl never.
#[global] Arguments Z.pow : simpl never.
#[global] Arguments Z.of_nat : simpl never.
#[global] Arguments Z.to_nat : simpl never.
#[global] Arguments Z.lxor : simpl never.
#[global] Arguments Z.land : simpl never.
#[global] Arguments Nat.div : simpl never.
#[global] Arguments Nat.modulo : simpl never.

Ltac Zify.zify_post_hook ::= Z.div_mod_to_equations.

Lemma le_enc_length k v : length (le_enc k v) = k.
Proof. revert v; induction k; intros; simpl; auto. Qed.

Lemma be_enc_length k v : length (be_enc k v) = k.
Proof. unfold be_enc. rewrite rev_length. apply le_enc_length. Qed.

Lemma le_enc_bytes k v : bytes (le_enc k v).
Proof.
  revert v; induction k; intros; simpl; constructor.
  - unfold is_byte, w8. pose proof (Z.mod_pos_bound v 256). lia.
  - apply IHk.
Qed.

Lemma bytes_rev l : bytes l -> bytes (rev l).
Proof. unfold bytes. intros. apply Forall_rev. auto. Qed.

Lemma bytes_app l1 l2 : bytes l1 -> bytes l2 -> bytes (l1 ++ l2).
Proof. intros; apply Forall_app; auto. Qed.

Lemma be_enc_bytes k v : bytes (be_enc k v).
Proof. apply bytes_rev, le_enc_bytes. Qed.

Lemma le_dec_enc k v : 0 <= v < 256 ^ Z.of_nat k -> le_dec (le_enc k v) = v.
Proof.
  revert v; induction k; intros v H.
  - simpl in *. lia.
  - rewrite Nat2Z.inj_succ, Z.pow_succ_r in H by lia.
    cbn [le_enc le_dec]. rewrite IHk.
    + pose proof (Z.div_mod v 256). lia.
    + split. apply Z.div_pos; lia. apply Z.div_lt_upper_bound; lia.
Qed.

Lemma le_dec_bound l : bytes l -> 0 <= le_dec l < 256 ^ zlen l.
Proof.
  unfold zlen. induction l; intros H.
  - simpl. lia.
  - inversion H; subst. specialize (IHl H3). cbn [length le_dec].
    rewrite Nat2Z.inj_succ, Z.pow_succ_r by lia.
    unfold is_byte, w8 in H2. nia.
Qed.

Lemma le_enc_dec l : bytes l -> le_enc (length l) (le_dec l) = l.
Proof.
  induction l; intros H; simpl; auto.
  inversion H; subst. unfold is_byte, w8 in H2.
  f_equal.
  - replace (a + 256 * le_dec l) with (a + le_dec l * 256) by lia.
    rewrite Z.mod_add by lia. apply Z.mod_small; lia.
  - replace (a + 256 * le_dec l) with (a + le_dec l * 256) by lia.
    rewrite Z.div_add by lia. rewrite (Z.div_small a) by lia. simpl. auto.
Qed.

Lemma be_dec_enc k v : 0 <= v < 256 ^ Z.of_nat k -> be_dec (be_enc k v) = v.
Proof. intros. unfold be_dec, be_enc. rewrite rev_involutive. apply le_dec_enc; auto. Qed.

Lemma be_enc_dec l : bytes l -> be_enc (length l) (be_dec l) = l.
Proof.
  intros. unfold be_dec, be_enc. rewrite <- (rev_length l), le_enc_dec.
  apply rev_involutive. apply bytes_rev; auto.
Qed.

Lemma be_dec_bound l : bytes l -> 0 <= be_dec l < 256 ^ zlen l.
Proof.
  intros. unfold be_dec. replace (zlen l) with (zlen (rev l)).
  apply le_dec_bound, bytes_rev; auto. unfold zlen; rewrite rev_length; auto.
Qed.

Lemma w32_pow : w32 = 256 ^ 4. Proof. reflexivity. Qed.
Lemma w128_pow : w128 = 256 ^ 16. Proof. reflexivity. Qed.

Lemma le_dec_inj l1 l2 :
  bytes l1 -> bytes l2 -> length l1 = length l2 -> le_dec l1 = le_dec l2 -> l1 = l2.
Proof.
  intros H1 H2 HL HE. rewrite <- (le_enc_dec l1), <- (le_enc_dec l2); auto. congruence.
Qed.

(** chunks *)
Lemma chunk_fuel_app {A} (k : nat) (l1 l2 : list A) fuel :
  (0 < k)%nat -> length l1 = k ->
  chunk_fuel (S fuel) k (l1 ++ l2) = l1 :: chunk_fuel fuel k l2.
Proof.
  intros Hk HL. cbn [chunk_fuel].
  rewrite app_length. destruct (Nat.ltb_spec (length l1 + length l2) k); try lia.
  rewrite <- HL. rewrite firstn_app, Nat.sub_diag, firstn_all, firstn_O, app_nil_r.
  rewrite skipn_app, Nat.sub_diag, skipn_all. reflexivity.
Qed.

Lemma chunk_fuel_enough {A} (k : nat) : (0 < k)%nat -> forall (l : list A) f1 f2,
  (length l <= f1)%nat -> (length l <= f2)%nat -> chunk_fuel f1 k l = chunk_fuel f2 k l.
Proof.
  intros Hk l f1. revert l. induction f1; intros l f2 H1 H2.
  - destruct l; simpl in *; try lia. destruct f2; simpl; auto.
    destruct k; try lia. reflexivity.
  - destruct f2.
    + destruct l; simpl in *; try lia. destruct k; try lia; reflexivity.
    + cbn [chunk_fuel]. destruct (Nat.ltb_spec (length l) k); auto.
      f_equal. apply IHf1; rewrite skipn_length; lia.
Qed.

Lemma chunks_app {A} (k : nat) (l1 l2 : list A) :
  (0 < k)%nat -> length l1 = k -> chunks k (l1 ++ l2) = l1 :: chunks k l2.
Proof.
  intros Hk HL. unfold chunks. rewrite app_length.
  destruct (length l1 + length l2)%nat eqn:E; try lia.
  rewrite chunk_fuel_app by auto. f_equal. apply chunk_fuel_enough; lia.
Qed.

Lemma chunks_short {A} (k : nat) (l : list A) : (length l < k)%nat -> chunks k l = [].
Proof.
  intros H. unfold chunks. destruct (length l) eqn:E; auto.
  cbn [chunk_fuel]. rewrite E. destruct (Nat.ltb_spec (S n) k); auto; lia.
Qed.

Lemma chunks_concat {A} (k : nat) (ls : list (list A)) rest :
  (0 < k)%nat -> Forall (fun l => length l = k) ls -> (length rest < k)%nat ->
  chunks k (concat ls ++ rest) = ls.
Proof.
  intros Hk HF HR. induction ls; simpl.
  - apply chunks_short; auto.
  - inversion HF; subst. rewrite <- app_assoc, chunks_app; auto. f_equal; auto.
Qed.

Lemma chunks_unfold {A} (k : nat) (l : list A) :
  (0 < k)%nat -> (k <= length l)%nat -> chunks k l = firstn k l :: chunks k (skipn k l).
Proof.
  intros. rewrite <- (firstn_skipn k l) at 1. apply chunks_app; auto.
  rewrite firstn_length; lia.
Qed.

Lemma chunks_prefix {A} (k : nat) (l : list A) :
  (0 < k)%nat -> concat (chunks k l) = firstn (k * (length l / k)) l.
Proof.
  intros Hk. remember (length l) as n. revert l Heqn.
  induction n as [n IH] using lt_wf_ind; intros l Hn.
  destruct (lt_dec n k).
  - rewrite chunks_short by lia. rewrite Nat.div_small by auto. rewrite Nat.mul_0_r. auto.
  - rewrite chunks_unfold by lia. cbn [concat].
    rewrite (IH (n - k)%nat) by (try rewrite skipn_length; lia).
    replace n with ((n - k) + 1 * k)%nat at 2 by lia.
    rewrite Nat.div_add by lia.
    replace (k * ((n - k) / k + 1))%nat with (k + k * ((n-k)/k))%nat by lia.
    assert (E : forall m (L:list A) , (k <= length L)%nat -> firstn (k + m) L = firstn k L ++ firstn m (skipn k L)).
    { intros m L HL. rewrite <- (firstn_skipn k L) at 1. rewrite firstn_app.
      rewrite firstn_length, Nat.min_l by lia.
      rewrite firstn_firstn, Nat.min_r by lia. f_equal. f_equal. lia. }
    rewrite E by lia. reflexivity.
Qed.

Lemma chunks_length {A} (k : nat) (l : list A) :
  (0 < k)%nat -> length (chunks k l) = (length l / k)%nat.
Proof.
  intros Hk. remember (length l) as n. revert l Heqn.
  induction n as [n IH] using lt_wf_ind; intros l Hn.
  destruct (lt_dec n k).
  - rewrite chunks_short by lia. rewrite Nat.div_small by auto. auto.
  - rewrite chunks_unfold by lia. cbn [length].
    rewrite (IH (n - k)%nat) by (try rewrite skipn_length; lia).
    replace n with ((n - k) + 1 * k)%nat at 2 by lia. rewrite Nat.div_add by lia. lia.
Qed.

Lemma chunks_all_len {A} (k : nat) (l : list A) :
  (0 < k)%nat -> Forall (fun c => length c = k) (chunks k l).
Proof.
  intros Hk. remember (length l) as n. revert l Heqn.
  induction n as [n IH] using lt_wf_ind; intros l Hn.
  destruct (lt_dec n k).
  - rewrite chunks_short by lia. constructor.
  - rewrite chunks_unfold by lia. constructor. rewrite firstn_length; lia.
    apply (IH (n-k)%nat); try rewrite skipn_length; lia.
Qed.

Lemma chunks_forall {A} (P : A -> Prop) k (l : list A) :
  (0 < k)%nat -> Forall P l -> Forall (Forall P) (chunks k l).
Proof.
  intros Hk HP. remember (length l) as n. revert l Heqn HP.
  induction n as [n IH] using lt_wf_ind; intros l Hn HP.
  destruct (lt_dec n k).
  - rewrite chunks_short by lia. constructor.
  - rewrite chunks_unfold by lia.
    rewrite <- (firstn_skipn k l) in HP. apply Forall_app in HP as [H1 H2].
    constructor; auto. apply (IH (n-k)%nat); try rewrite skipn_length; try lia; auto.
Qed.

(** upd *)
Lemma upd_length {A} (l : list A) i v : length (upd l i v) = length l.
Proof. revert i; induction l; destruct i; simpl; auto. Qed.

Lemma nth_error_upd_eq {A} (l : list A) i v :
  (i < length l)%nat -> nth_error (upd l i v) i = Some v.
Proof. revert i; induction l; destruct i; simpl; intros; try lia; auto. apply IHl; lia. Qed.

Lemma nth_error_upd_neq {A} (l : list A) i j v :
  i <> j -> nth_error (upd l i v) j = nth_error l j.
Proof. revert i j; induction l; destruct i, j; simpl; intros; auto; try lia. Qed.

Lemma nth_upd_eq {A} (l : list A) i v d : (i < length l)%nat -> nth i (upd l i v) d = v.
Proof. revert i; induction l; destruct i; simpl; intros; try lia; auto. apply IHl; lia. Qed.

Lemma nth_upd_neq {A} (l : list A) i j v d : i <> j -> nth j (upd l i v) d = nth j l d.
Proof. revert i j; induction l; destruct i, j; simpl; intros; auto; try lia. Qed.

(** indexing *)
Lemma go_index_ok {A} (l : list A) i d :
  0 <= i < zlen l -> go_index l i = Ok (nth (Z.to_nat i) l d).
Proof.
  intros H. unfold go_index, zlen in *. destruct (Z.ltb_spec i 0); try lia.
  rewrite (nth_error_nth' l d) by lia. reflexivity.
Qed.

Lemma go_index_panic {A} (l : list A) i :
  ~ (0 <= i < zlen l) -> go_index l i = Panic "index out of range".
Proof.
  intros H. unfold go_index, zlen in *. destruct (Z.ltb_spec i 0); auto.
  destruct (nth_error l (Z.to_nat i)) eqn:E; auto.
  assert (Z.to_nat i < length l)%nat by (apply nth_error_Some; congruence). lia.
Qed.

Lemma go_slice_ok {A} (l : list A) i j :
  0 <= i <= j -> j <= zlen l -> go_slice l i j = Ok (firstn (Z.to_nat (j - i)) (skipn (Z.to_nat i) l)).
Proof.
  intros. unfold go_slice.
  destruct (Z.leb_spec 0 i), (Z.leb_spec i j), (Z.leb_spec j (zlen l)); simpl; auto; lia.
Qed.

Lemma zlen_app {A} (a b : list A) : zlen (a ++ b) = zlen a + zlen b.
Proof. unfold zlen; rewrite app_length; lia. Qed.

Lemma zlen_nonneg {A} (a : list A) : 0 <= zlen a.
Proof. unfold zlen; lia. Qed.

(** xor_into *)
Lemma xor_into_length d a b : length (xor_into d a b) = length d.
Proof. revert a b; induction d; intros [|] [|]; simpl; auto. Qed.

(** zsum *)
Lemma zsum_app a b : zsum (a ++ b) = zsum a + zsum b.
Proof. induction a; simpl; lia. Qed.

Lemma zsum_perm a b : Permutation a b -> zsum a = zsum b.
Proof. induction 1; simpl; lia. Qed.

Lemma nth_ext_Z (l1 l2 : list Z) :
  length l1 = length l2 -> (forall i, (i < length l1)%nat -> nth i l1 0 = nth i l2 0) -> l1 = l2.
Proof. intros. apply nth_ext with 0 0; auto. Qed.

Lemma map_ext_Forall {A B} (f g : A -> B) l :
  Forall (fun x => f x = g x) l -> map f l = map g l.
Proof. induction 1; simpl; congruence. Qed.

Lemma mapM_ok {A B} (f : A -> res B) (g : A -> B) l :
  (forall x, In x l -> f x = Ok (g x)) -> mapM f l = Ok (map g l).
Proof.
  induction l; intros H; simpl; auto.
  rewrite H by (left; auto). simpl. rewrite IHl; auto. intros; apply H; right; auto.
Qed.

Lemma go_slice_mid {A} (a b c : list A) i j :
  i = zlen a -> j = zlen a + zlen b -> go_slice (a ++ b ++ c) i j = Ok b.
Proof.
  intros -> ->. rewrite go_slice_ok.
  - replace (Z.to_nat (zlen a)) with (length a) by (unfold zlen; lia).
    replace (Z.to_nat (zlen a + zlen b - zlen a)) with (length b) by (unfold zlen; lia).
    rewrite skipn_app, skipn_all, Nat.sub_diag. cbn [app skipn].
    rewrite firstn_app, firstn_all, Nat.sub_diag, firstn_O, app_nil_r. auto.
  - pose proof (zlen_nonneg a); pose proof (zlen_nonneg b); lia.
  - rewrite !zlen_app. pose proof (zlen_nonneg c). lia.
Qed.

Lemma go_slice_prefix {A} (a b : list A) j : j = zlen a -> go_slice (a ++ b) 0 j = Ok a.
Proof. intros ->. change (a ++ b) with ([] ++ a ++ b). apply go_slice_mid; reflexivity. Qed.

Lemma go_slice_suffix {A} (a b : list A) i j :
  i = zlen a -> j = zlen a + zlen b -> go_slice (a ++ b) i j = Ok b.
Proof. intros. rewrite <- (app_nil_r b) at 1. apply go_slice_mid; auto. Qed.

Lemma firstn_app_exact {A} (a b : list A) n : n = length a -> firstn n (a ++ b) = a.
Proof. intros ->. rewrite firstn_app, firstn_all, Nat.sub_diag, firstn_O, app_nil_r. auto. Qed.

Lemma skipn_app_exact {A} (a b : list A) n : n = length a -> skipn n (a ++ b) = b.
Proof. intros ->. rewrite skipn_app, skipn_all, Nat.sub_diag. auto. Qed.

Lemma map_nth_seq {A} (l : list A) d : map (fun i => nth i l d) (seq 0 (length l)) = l.
Proof.
  apply nth_ext with d d.
  - rewrite map_length, seq_length. auto.
  - intros n Hn. rewrite map_length, seq_length in Hn.
    rewrite (nth_indep _ d (nth 0 l d)) by (rewrite map_length, seq_length; auto).
    rewrite (map_nth (fun i => nth i l d) (seq 0 (length l)) 0%nat n).
    rewrite seq_nth by auto. auto.
Qed.

(** tactics for the concrete examples *)
Ltac conj_split := lazymatch goal with |- _ /\ _ => split; [|conj_split] | _ => idtac end.
Ltac bounds :=
  unfold bytes; repeat first [apply Forall_nil | apply Forall_cons];
  unfold is_byte, is_u32, is_u128, w8, w32, w128; lia.
