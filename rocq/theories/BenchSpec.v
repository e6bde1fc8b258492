(** Vocabulary for the statements about the single-server benchmark. *)
From Coq Require Import String ZArith List Bool.
From Verif Require Import GoBase MatrixModel LWEModel LWESpec DHModel DHSpec BenchModel.
Import ListNotations.
Open Scope Z_scope.

(** The side of the smallest square with room for [len] entries. *)
Definition side (len s : Z) : Prop := 0 < s /\ (s - 1) * (s - 1) < len <= s * s.

(** The sizes reported for a lattice scheme with words of [word] bytes, [n] the dimension of the secret, [k] repetitions of the query, a
    table of side [s]: digest, queries, answers. *)
Definition lattice_sizes (word n k s : Z) : chunk := mkChunk (word * n * s) (Some (word * s * k, word * s * k)).
(** ... and for the Diffie-Hellman scheme with elements of [size] bytes and a digest of [dig] bytes. *)
Definition group_sizes (size dig s : Z) : chunk := mkChunk (size * s + dig) (Some (size * s, size * s)).

(** Everything the random sources deliver for a table of side [s] has the requested size, and every noise sample is at most 83 (thirteen
    standard deviations). *)
Definition good_coins (word : nat) (n : nat) (abytes : list Z) (s : nat) (c : lwe_coins) : Prop :=
  drawn word abytes c s n /\ Forall (fun g => Z.abs g <= 83) (c_noise c).
(** The scalar drawn for a query is far enough from both ends of its range. *)
Definition ordinary_guess (s : nat) (c : lwe_coins) : Prop := 168 * Z.of_nat s - 1 <= le_dec (c_t c) <= 2 ^ 32 - (168 * Z.of_nat s - 1).
Definition reads_bytes (rnd : nat -> list Z) : Prop := forall n, bytes (rnd n) /\ length (rnd n) = n.

(** No point of a retrieval is encoded in fewer bytes than the code assumes, and the blinding is not trivial. *)
Definition ordinary_points (g : group) (db : elliptic) (r t : Z) (iy : nat) : Prop :=
  (forall i, (i < Z.to_nat (e_rows db))%nat -> full g (row_digest g (e_entries db) (Z.to_nat (e_cols db)) i)) /\
  (forall j, (j < Z.to_nat (e_cols db))%nat -> full g (query_point g r t iy j)) /\
  (forall i, (i < Z.to_nat (e_rows db))%nat -> full g (answer_point g db r t iy i)) /\
  g_mul g t (column_point g iy) <> g_id g.
