(** Specification vocabulary for point queries. *)
From Coq Require Import String ZArith List Bool.
From Verif Require Import GoBase MerkleModel PointModel.
Import ListNotations.
Open Scope Z_scope.

(** Record number k of a table stored back to back: it starts after the k preceding ones. *)
Definition stored (db : bytes_db) (k : nat) : list Z :=
  firstn (Z.to_nat (nth k (i_lens (b_info db)) 0))
    (skipn (Z.to_nat (zsum (firstn k (i_lens (b_info db))))) (b_entries db)).

(** ... followed by zeros up to the maximal block size. *)
Definition padded (db : bytes_db) (k : nat) : list Z :=
  stored db k ++ repeat 0 (Z.to_nat (i_bs (b_info db)) - length (stored db k)).

(** A database in which every record has a length between 0 and the block size and is present. *)
Definition db_ok (db : bytes_db) : Prop :=
  0 < i_rows (b_info db) /\ 0 < i_cols (b_info db) /\ i_cols (b_info db) < 2 ^ 62 /\ 0 <= i_bs (b_info db) /\
  zlen (i_lens (b_info db)) = i_rows (b_info db) * i_cols (b_info db) /\
  Forall (fun l => 0 <= l <= i_bs (b_info db)) (i_lens (b_info db)) /\
  zsum (i_lens (b_info db)) <= zlen (b_entries db).

(** Bit number j of a query vector: bit j mod 8 of byte j / 8. *)
Definition query_bit (q : list Z) (j : nat) : bool :=
  Z.testbit (nth (j / 8) q 0) (Z.of_nat (j mod 8)).

(** Bitwise exclusive or of a list of numbers. *)
Definition xors (l : list Z) : Z := fold_right Z.lxor 0 l.

(** Correctness of the external DPF: the two evaluations differ exactly at the chosen position. *)
Definition dpf_ok (D : dpf_scheme) : Prop :=
  forall alpha logN, 0 <= logN <= 63 -> 0 <= alpha < 2 ^ logN ->
  exists k0 k1, dpf_gen D alpha logN = Ok (k0, k1) /\
    forall j, Z.of_nat j < 2 ^ logN ->
      (j / 8 < length (dpf_eval D k0 logN))%nat /\ (j / 8 < length (dpf_eval D k1 logN))%nat /\
      xorb (query_bit (dpf_eval D k0 logN) j) (query_bit (dpf_eval D k1 logN) j) = (Z.of_nat j =? alpha).

(** The list without its element number m. *)
Definition without {A} (m : nat) (l : list A) : list A := firstn m l ++ skipn (S m) l.

(** Number of bytes of a query vector. *)
Definition query_bytes (inf : info) : nat := Z.to_nat (i_cols inf / 8 + 1).

(** Records whose fingerprints serve to find them: different records have different fingerprints, and leaving out
    repeated records does not make the tree less deep. *)
Definition fingerprints_ok (blocks : list (list Z)) : Prop :=
  (forall a b, In a blocks -> In b blocks -> fnv1a64 a = fnv1a64 b -> a = b) /\
  Nat.log2_up (length (nodup Z.eq_dec (map fnv1a64 blocks))) = Nat.log2_up (length blocks).

(** Record number k of a byte string cut into records of [len] bytes. *)
Definition cut (len : Z) (data : list Z) (k : nat) : list Z :=
  firstn (Z.to_nat len) (skipn (k * Z.to_nat len) data).

(** The first [n] records of that cut. *)
Definition cuts (len : Z) (data : list Z) (n : Z) : list (list Z) := map (cut len data) (seq 0 (Z.to_nat n)).
