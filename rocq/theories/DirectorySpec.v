(** Specification vocabulary for the key directory. *)
From Coq Require Import String ZArith List Bool Permutation Sorted.
From Verif Require Import GoBase MerkleModel PointModel DirectoryModel.
Import ListNotations.
Open Scope Z_scope.

(** The bucket of an identifier in a table of n buckets: the first four bytes of its hash, big endian, modulo n. *)
Definition position (B : hash_fn) (n : Z) (id : list Z) : Z := be_dec (firstn 4 (B id)) mod n.

(** The keys falling into bucket k, and their packets one after the other. *)
Definition in_bucket (B : hash_fn) (n : Z) (keys : list pkey) (k : Z) : list pkey :=
  filter (fun key => position B n (k_id key) =? k) keys.
Definition bucket (B : hash_fn) (n : Z) (keys : list pkey) (k : Z) : list Z :=
  concat (map k_packet (in_bucket B n keys k)).

(** What is stored for bucket k: nothing if no key falls into it, else the packets and the byte 0x80. *)
Definition bucket_block (B : hash_fn) (n : Z) (keys : list pkey) (k : Z) : list Z :=
  match in_bucket B n keys k with
  | [] => []
  | _ => bucket B n keys k ++ [128]
  end.

(** The number of buckets built for n keys: a tenth of the keys, rounded up to a square in the rebalanced layout. *)
Definition smallest_square (n : Z) : Z := let s := Z.sqrt_up n in s * s.

(** sort.Slice with "ID greater" as its order: some rearrangement without an inversion. *)
Definition sorts (sort : list pkey -> list pkey) : Prop :=
  forall keys, Permutation keys (sort keys) /\
    StronglySorted (fun a b => string_lt (k_id a) (k_id b) = false) (sort keys).
(** A range over a map visits every entry once, in any order. *)
Definition visits_all (order : table -> table) : Prop := forall m, Permutation m (order m).
Definition runtime_ok (R : runtime) : Prop := sorts (r_sort R) /\ visits_all (r_order R) /\ visits_all (r_order' R).

(** Answers may arrive in any order. *)
Definition arrival_ok (arrive : list (list Z) -> list (list Z)) : Prop := forall l, Permutation l (arrive l).

(** The keys of a dump that are neither revoked nor without e-mail and belong to an address. *)
Definition candidates (lower : list Z -> list Z) (es : list entity) (email : list Z) : list entity :=
  filter (fun e => Nat.eqb (e_revocations e) 0 && bytes_equal (primary_email lower e) email) es.
(** A key without its subkeys. *)
Definition primary_only (e : entity) : entity :=
  mkEntity (e_revocations e) (e_primary e) (e_emails e) (e_created e) [] (e_rest e).
(** The most recently created element of a list, the first one among several. *)
Definition freshest (l : list entity) (e : entity) : Prop :=
  exists before after, l = before ++ e :: after /\
    Forall (fun x => e_created x < e_created e) before /\ Forall (fun x => e_created x <= e_created e) after.

(** Reading a key ring: a file made of serialized keys one after the other is read as these keys. *)
Definition keyring_ok (serialize : entity -> res (list Z)) (read : list Z -> res (list entity)) : Prop :=
  forall es bufs, mapM serialize es = Ok bufs -> read (concat bufs) = Ok es.

(** The keys of a directory, no two with the same identifier, listed in descending order of the identifiers. *)
Definition listed (keys : list pkey) : Prop :=
  NoDup (map k_id keys) /\ StronglySorted (fun a b => string_lt (k_id a) (k_id b) = false) keys.
(** A server's runtime and files: the files together contain the keys, in any distribution and order. *)
Definition holds (keys : list pkey) (srv : runtime * list (list pkey)) : Prop :=
  runtime_ok (fst srv) /\ Permutation keys (concat (snd srv)).
(** All n blocks of a directory. *)
Definition bucket_blocks (B : hash_fn) (n : Z) (keys : list pkey) : list (list Z) :=
  map (fun k => bucket_block B n keys (Z.of_nat k)) (seq 0 (Z.to_nat n)).
