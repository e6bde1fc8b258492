(** Concrete instances of the external components, used only in the non-vacuity examples and in refutation
    witnesses. *)
From Coq Require Import String ZArith List Bool Lia.
From Verif Require Import GoBase BaseFacts FieldModel FSSModel FieldProofs XorFacts FSSProofs.
Import ListNotations.
Open Scope Z_scope.

(** A mixing "cipher": 16 bytes out for any input. *)
Definition toy_cipher : cipher := fun i x =>
  map (fun j => (5 * nth j x 0 + 3 * nth ((j + 1) mod 16) x 0 + nth ((j + 7) mod 16) x 0 * nth ((j + 3) mod 16) x 0
                 + 17 * Z.of_nat i + 29 * Z.of_nat j + 1) mod 256) (seq 0 16).

Lemma map_mod_bytes (f : nat -> Z) l : bytes (map (fun j => f j mod 256) l).
Proof. apply Forall_map, Forall_forall. intros z _. unfold is_byte, w8. apply Z.mod_pos_bound. lia. Qed.

Lemma toy_cipher_ok : cipher_ok toy_cipher.
Proof. intros i x. unfold toy_cipher. split. rewrite map_length, seq_length. auto. apply map_mod_bytes. Qed.

(** A cipher under which every expansion is the constant byte string below, so every conversion hits 2^31-1. *)
Definition bad_const : list Z := [127;255;255;255;127;255;255;255;127;255;255;255;127;255;255;255].
Definition bad_cipher : cipher := fun i x =>
  map (fun j => Z.lxor (nth j x 0) (nth j bad_const 0) mod 256) (seq 0 16).
Lemma bad_cipher_ok : cipher_ok bad_cipher.
Proof. intros i x. unfold bad_cipher. split. rewrite map_length, seq_length. auto. apply map_mod_bytes. Qed.

Definition toy_rand : gen_rand :=
  mkGR [1;2;3;4;5;6;7;8;9;10;11;12;13;14;15;16;17] [20;21;22;23;24;25;26;27;28;29;30;31;32;33;34;35]
       (fun _ => 0) (fun _ => 0).
Lemma toy_rand_ok : rand_ok toy_rand.
Proof. unfold rand_ok, toy_rand. cbn [r_seed0 r_seed1]. conj_split; try reflexivity; bounds. Qed.

(** A toy reader: state is a list of bytes, exhausted reads return zeros. *)
Definition list_reader : reader (list Z) := fun s n =>
  (map (fun b => b mod 256) (firstn n (s ++ repeat 0 n)), skipn n s).
Lemma list_reader_ok : reader_ok list_reader.
Proof.
  intros s n. unfold list_reader. cbn [fst]. split.
  - rewrite map_length, firstn_length, app_length, repeat_length. lia.
  - apply Forall_map, Forall_forall. intros z _. unfold is_byte, w8. apply Z.mod_pos_bound. lia.
Qed.

(** A toy 32-byte hash. *)
From Verif Require Import MerkleModel MerkleSpec.
Definition toy_hash : hash_fn := fun x =>
  map (fun j => fold_left (fun a b => (a * 31 + b + Z.of_nat j) mod 251) x (7 * Z.of_nat j + 1) mod 256) (seq 0 32).
Lemma toy_hash_ok : hash_ok toy_hash.
Proof. intros x. unfold toy_hash. split. rewrite map_length, seq_length. auto. apply map_mod_bytes. Qed.
