(** Model of lib/merkle (merkletree.go, proof.go, hash.go). *)
From Coq Require Import String ZArith List Bool Arith.
From Verif Require Import GoBase EncodingModel.
Import ListNotations.
Open Scope Z_scope.
Open Scope go_scope.

(** lib/merkle/hash.go BLAKE3.Hash hashes the concatenation of its arguments with an external 32-byte hash:
    the hash is an argument [H] of the model. *)
Definition hash_fn := list Z -> list Z.
(** lib/merkle/hash.go HashLength *)
Definition hash_length : nat := 32.

(** hash/fnv New64a (standard library), used by lib/merkle/merkletree.go:36-42 hashFNV1a64. *)
Definition fnv_offset : Z := 14695981039346656037.
Definition fnv_prime : Z := 1099511628211.
Definition fnv1a64 (data : list Z) : Z :=
  fold_left (fun h b => u64 (Z.lxor h b * fnv_prime)) data fnv_offset.

(** Go map[uint64]uint32 as an association list without repeated keys. *)
Fixpoint map_set (k v : Z) (m : list (Z * Z)) : list (Z * Z) :=
  match m with
  | [] => [(k, v)]
  | (k', v') :: t => if k =? k' then (k, v) :: t else (k', v') :: map_set k v t
  end.
Fixpoint map_get (k : Z) (m : list (Z * Z)) : option Z :=
  match m with
  | [] => None
  | (k', v') :: t => if k =? k' then Some v' else map_get k t
  end.

(** lib/merkle/merkletree.go:25-34 MerkleTree (the hash field is the argument [H] everywhere). *)
Record mtree := mkTree { t_data : list (Z * Z); t_nodes : list (list Z) }.

(** lib/merkle/proof.go:26-29 Proof *)
Record mproof := mkProof { p_hashes : list (list Z); p_index : Z }.

(** lib/merkle/merkletree.go:134-141 indexToBytes *)
Definition index_to_bytes (i : Z) : res (list Z) :=
  if w32 - 1 <? i then Panic "index too big" else Ok (le_enc 4 (u32 i)).

(** lib/merkle/merkletree.go:101-109, leaves and fingerprint map. *)
Fixpoint leaf_loop (H : hash_fn) (bl : nat) (ds : list (list Z)) (i : nat)
  (nodes : list (list Z)) (md : list (Z * Z)) : res (list (list Z) * list (Z * Z)) :=
  match ds with
  | [] => Ok (nodes, md)
  | d :: ds' =>
    ib <- index_to_bytes (Z.of_nat i) ;;
    nodes' <- go_store nodes (Z.of_nat (i + bl)) (H (d ++ ib)) ;;
    leaf_loop H bl ds' (S i) nodes' (map_set (fnv1a64 d) (u32 (Z.of_nat i)) md)
  end.

(** lib/merkle/merkletree.go:110-112, padding leaves: k stores from index i on. *)
Fixpoint padding_loop (k i : nat) (nodes : list (list Z)) : res (list (list Z)) :=
  match k with
  | O => Ok nodes
  | S k' =>
    nodes' <- go_store nodes (Z.of_nat i) (repeat 0 hash_length) ;;
    padding_loop k' (S i) nodes'
  end.

(** lib/merkle/merkletree.go:114-117, branches, for i = k downto 1. *)
Fixpoint branch_loop (H : hash_fn) (i : nat) (nodes : list (list Z)) : res (list (list Z)) :=
  match i with
  | O => Ok nodes
  | S i' =>
    l <- go_index nodes (Z.of_nat (i * 2)) ;;
    r <- go_index nodes (Z.of_nat (i * 2 + 1)) ;;
    nodes' <- go_store nodes (Z.of_nat i) (H (l ++ r)) ;;
    branch_loop H i' nodes'
  end.

(** math.Ceil(math.Log2(float64(n))) for n > 0, modelled as the exact integer ceiling of the
    binary logarithm (see C113). *)
Definition ceil_log2 (n : nat) : nat := Nat.log2_up n.

(** lib/merkle/merkletree.go:88-126 NewUsing *)
Definition new_using (H : hash_fn) (data : list (list Z)) : res mtree :=
  if (length data =? 0)%nat then Err "tree must have at least 1 piece of data" else
  let bl := (2 ^ ceil_log2 (length data))%nat in
  let nodes := repeat [] (bl + length data + (bl - length data)) in
  nm <- leaf_loop H bl data 0 nodes [] ;;
  let '(nodes, md) := nm in
  nodes <- padding_loop (length nodes - (length data + bl)) (length data + bl) nodes ;;
  nodes <- branch_loop H (bl - 1) nodes ;;
  Ok (mkTree md nodes).

(** lib/merkle/merkletree.go:129-131 Root *)
Definition root (t : mtree) : res (list Z) := go_index (t_nodes t) 1.

(** lib/merkle/merkletree.go:44-49 indexOf *)
Definition index_of (t : mtree) (input : list Z) : res Z :=
  match map_get (fnv1a64 input) (t_data t) with
  | Some i => Ok i
  | None => Err "data not found"
  end.

(** lib/merkle/merkletree.go:64-69: walk from the leaf to the root. minI = 2^1 - 1 = 1. The
    uint32 loop variable is halved, so 33 iterations always suffice. *)
Fixpoint proof_loop (fuel : nat) (nodes : list (list Z)) (i cur : Z) (hashes : list (list Z))
  : res (list (list Z)) :=
  if 1 <? i then
    match fuel with
    | O => Panic "out of fuel"
    | S f =>
      h <- go_index nodes (Z.lxor i 1) ;;
      hashes' <- go_store hashes cur h ;;
      proof_loop f nodes (i / 2) (cur + 1) hashes'
    end
  else Ok hashes.

(** lib/merkle/merkletree.go:54-71 GenerateProof *)
Definition generate_proof (t : mtree) (data : list Z) : res mproof :=
  index <- index_of t data ;;
  let proofLen := ceil_log2 (length (t_data t)) in
  hashes <- proof_loop 33 (t_nodes t) (u32 (index + u32 (zlen (t_nodes t) / 2))) 0
              (repeat [] proofLen) ;;
  Ok (mkProof hashes index).

(** lib/merkle/merkletree.go:76-78 EncodedProofLength *)
Definition encoded_proof_length (t : mtree) : Z :=
  Z.of_nat (ceil_log2 (length (t_data t))) * Z.of_nat hash_length + 4 + 4.

(** lib/merkle/proof.go:69-76, loop of generateProofHash *)
Fixpoint proof_hash_loop (H : hash_fn) (index : Z) (acc : list Z) (hashes : list (list Z)) : list Z :=
  match hashes with
  | [] => acc
  | h :: t =>
    let acc' := if index mod 2 =? 0 then H (acc ++ h) else H (h ++ acc) in
    proof_hash_loop H (index / 2) acc' t
  end.

(** lib/merkle/proof.go:63-78 generateProofHash. 1<<len has type uint32, so it is 0 from 32 on. *)
Definition generate_proof_hash (H : hash_fn) (data : list Z) (p : mproof) : res (list Z) :=
  ib <- index_to_bytes (p_index p) ;;
  let index := u32 (p_index p + u32 (2 ^ zlen (p_hashes p))) in
  Ok (proof_hash_loop H index (H (data ++ ib)) (p_hashes p)).

(** bytes.Equal *)
Fixpoint bytes_equal (a b : list Z) : bool :=
  match a, b with
  | [], [] => true
  | x :: a', y :: b' => (x =? y) && bytes_equal a' b'
  | _, _ => false
  end.

(** lib/merkle/proof.go:55-61 VerifyProofUsing *)
Definition verify_proof (H : hash_fn) (data : list Z) (p : mproof) (rt : list Z) : res bool :=
  ph <- generate_proof_hash H data p ;;
  Ok (bytes_equal rt ph).

(** lib/merkle/proof.go:80-98 DecodeProof; the offsets are uint32 expressions. The allocation of
    the slice of hashes is not modelled (it may exhaust memory for a huge announced count). *)
Definition decode_proof (p : list Z) : res mproof :=
  nb <- go_slice p 0 4 ;;
  numHashes <- le_u32 nb ;;
  hashes <- mapM (fun i => go_slice p (u32 (4 + u32 (32 * Z.of_nat i))) (u32 (4 + u32 (32 * u32 (Z.of_nat i + 1)))))
              (range (Z.to_nat numHashes)) ;;
  ib <- go_slice p (zlen p - 4) (zlen p) ;;
  index <- le_u32 ib ;;
  Ok (mkProof hashes index).

(** copy(out[i:j], b) *)
Definition copy_at (out : list Z) (i j : Z) (b : list Z) : res (list Z) :=
  s <- go_slice out i j ;;
  Ok (firstn (Z.to_nat i) out ++ go_copy s b ++ skipn (Z.to_nat j) out).

(** lib/merkle/proof.go:114-117, loop of EncodeProof: the stride is the length of the current hash. *)
Fixpoint encode_hashes (i : Z) (hs : list (list Z)) (out : list Z) : res (list Z) :=
  match hs with
  | [] => Ok out
  | h :: t =>
    out' <- copy_at out (4 + i * zlen h) (4 + (i + 1) * zlen h) h ;;
    encode_hashes (i + 1) t out'
  end.

(** lib/merkle/proof.go:100-126 EncodeProof *)
Definition encode_proof (p : mproof) : res (list Z) :=
  let outLen := 4 + zlen (p_hashes p) * 32 + 4 in
  out <- go_make 0 outLen ;;
  out <- copy_at out 0 4 (le_enc 4 (u32 (zlen (p_hashes p)))) ;;
  out <- encode_hashes 0 (p_hashes p) out ;;
  copy_at out (zlen out - 4) (zlen out) (le_enc 4 (p_index p)).
