(** Specification vocabulary for the Merkle properties, independent of the array layout of the tree. *)
From Coq Require Import String ZArith List Bool Arith.
From Verif Require Import GoBase MerkleModel.
Import ListNotations.
Open Scope Z_scope.

(** The hash is any function returning 32 bytes. *)
Definition hash_ok (H : hash_fn) : Prop := forall x, length (H x) = 32%nat /\ bytes (H x).

(** What is hashed for record number i: the record followed by its position, little endian on 4 bytes. *)
Definition leaf_input (i : nat) (d : list Z) : list Z := d ++ le_enc 4 (Z.of_nat i).

(** Leaves of the padded tree: hashed records, then all-zero digests up to 2^d. *)
Definition spec_leaves (H : hash_fn) (data : list (list Z)) : list (list Z) :=
  map (fun iv => H (leaf_input (fst iv) (snd iv))) (combine (seq 0 (length data)) data)
  ++ repeat (repeat 0 32%nat) (2 ^ Nat.log2_up (length data) - length data)%nat.

(** Textbook root of a complete binary tree of depth d. *)
Fixpoint spec_root (H : hash_fn) (d : nat) (leaves : list (list Z)) : list Z :=
  match d with
  | O => hd [] leaves
  | S d' => H (spec_root H d' (firstn (2 ^ d') leaves) ++ spec_root H d' (skipn (2 ^ d') leaves))
  end.

(** Every string hashed while computing the textbook root. *)
Fixpoint inner_inputs (H : hash_fn) (d : nat) (leaves : list (list Z)) : list (list Z) :=
  match d with
  | O => []
  | S d' =>
    (spec_root H d' (firstn (2 ^ d') leaves) ++ spec_root H d' (skipn (2 ^ d') leaves))
    :: inner_inputs H d' (firstn (2 ^ d') leaves) ++ inner_inputs H d' (skipn (2 ^ d') leaves)
  end.
Definition tree_inputs (H : hash_fn) (data : list (list Z)) : list (list Z) :=
  map (fun iv => leaf_input (fst iv) (snd iv)) (combine (seq 0 (length data)) data)
  ++ inner_inputs H (Nat.log2_up (length data)) (spec_leaves H data).

(** Every string hashed while checking a proof. *)
Fixpoint path_inputs (H : hash_fn) (index : Z) (acc : list Z) (hashes : list (list Z)) : list (list Z) :=
  match hashes with
  | [] => []
  | h :: t =>
    let inp := if Z.even index then acc ++ h else h ++ acc in
    inp :: path_inputs H (index / 2) (H inp) t
  end.
Definition proof_inputs (H : hash_fn) (data : list Z) (p : mproof) : list (list Z) :=
  let inp := data ++ le_enc 4 (p_index p) in
  inp :: path_inputs H (p_index p) (H inp) (p_hashes p).

(** A collision between a string hashed when building the tree over [data] and a string hashed when checking the proof. *)
Definition collision_found (H : hash_fn) (A B : list (list Z)) : Prop :=
  exists x y, In x A /\ In y B /\ x <> y /\ H x = H y.
(** A string hashed when checking the proof maps to the all-zero padding digest. *)
Definition padding_preimage (H : hash_fn) (B : list (list Z)) : Prop :=
  exists y, In y B /\ H y = repeat 0 32%nat.
