(** Property theorems C06, C28-C32, C66 (Merkle trees). [H] is any hash with 32-byte output; 2147483648 = 2^31 is the number of
    records from which node numbers no longer fit in a uint32. *)
From Coq Require Import String ZArith List Bool Arith Lia.
From Verif Require Import GoBase BaseFacts EncodingModel MerkleModel MerkleSpec MerkleProofs MerkleProofs2 MerkleProofs3
  MerkleProofs4 ToyInstances.
Import ListNotations.
Open Scope Z_scope.

Definition toy_records : list (list Z) := [[1; 2; 3]; [4]; []; [9; 9]; [200; 100]].

(** C06 *)
Theorem C06_proof_codec_roundtrip :
  forall p, Forall (fun h => length h = 32%nat) (p_hashes p) -> is_u32 (p_index p) ->
  4 + 32 * zlen (p_hashes p) < w32 ->
  exists b, encode_proof p = Ok b /\ decode_proof b = Ok p /\ zlen b = 8 + 32 * zlen (p_hashes p).
Proof. exact proof_roundtrip. Qed.
Print Assumptions C06_proof_codec_roundtrip.

Theorem C06_generated_proof_has_advertised_length :
  forall H data t d p, hash_ok H -> zlen data <= 2147483648 ->
  new_using H data = Ok t -> generate_proof t d = Ok p ->
  exists b, encode_proof p = Ok b /\ decode_proof b = Ok p /\ zlen b = encoded_proof_length t.
Proof. exact generated_proof_encoding. Qed.
Print Assumptions C06_generated_proof_has_advertised_length.

Example C06_example :
  match new_using toy_hash toy_records with
  | Ok t => match generate_proof t [9; 9] with
            | Ok p => length (p_hashes p) = 3%nat /\ p_index p = 3 /\
                      match encode_proof p with
                      | Ok b => zlen b = 104 /\ decode_proof b = Ok p /\ encoded_proof_length t = 104
                      | _ => False
                      end
            | _ => False
            end
  | _ => False
  end.
Proof. vm_compute. repeat split. Qed.

(** C28 *)
Theorem C28_merkle_completeness :
  forall H data t i, zlen data <= 2147483648 -> new_using H data = Ok t ->
  NoDup (map fnv1a64 data) -> (i < length data)%nat ->
  exists p rt, generate_proof t (nth i data []) = Ok p /\ root t = Ok rt /\
    p_index p = Z.of_nat i /\ length (p_hashes p) = Nat.log2_up (length data) /\
    verify_proof H (nth i data []) p rt = Ok true.
Proof. exact (fun H data t i HM HT ND Hi => completeness H data t HM HT i ND Hi). Qed.
Print Assumptions C28_merkle_completeness.

(** a tree exists for every non-empty record list, and only for those *)
Theorem C28_tree_construction_total :
  forall H data, zlen data <= 2147483648 ->
  (data <> [] -> exists t, new_using H data = Ok t) /\
  (data = [] -> exists m, new_using H data = Err m).
Proof.
  intros H data HM. split; intros Hd.
  - destruct (new_using_ok H data) as (t & E & _); [destruct data; simpl; [congruence|lia]|unfold w32; lia|eauto].
  - subst. eexists. reflexivity.
Qed.
Print Assumptions C28_tree_construction_total.

Example C28_example :
  NoDup (map fnv1a64 toy_records) /\
  match new_using toy_hash toy_records with
  | Ok t => match generate_proof t [4], root t with
            | Ok p, Ok rt => p_index p = 1 /\ verify_proof toy_hash [4] p rt = Ok true
                             /\ verify_proof toy_hash [5] p rt = Ok false
            | _, _ => False
            end
  | _ => False
  end.
Proof.
  split.
  - vm_compute. repeat (constructor; [cbn; intuition discriminate|]). constructor.
  - vm_compute. repeat split.
Qed.

(** C29: proof generation succeeds for all records exactly when the number of distinct fingerprints
    needs the same depth as the number of records; the proof is then for the last record with that
    fingerprint. *)
Theorem C29_generation_exact :
  forall H data t, zlen data <= 2147483648 -> new_using H data = Ok t ->
  (forall d, In d data -> exists p, generate_proof t d = Ok p) <->
  Nat.log2_up (length (nodup Z.eq_dec (map fnv1a64 data))) = Nat.log2_up (length data).
Proof. exact (fun H data t HM HT => all_proofs_ok_iff H data t HM HT). Qed.
Print Assumptions C29_generation_exact.

Theorem C29_proof_is_for_last_fingerprint :
  forall H data t d p, zlen data <= 2147483648 -> new_using H data = Ok t -> generate_proof t d = Ok p ->
  exists j rt, (j < length data)%nat /\ fnv1a64 (nth j data []) = fnv1a64 d /\
    (forall j', (j < j' < length data)%nat -> fnv1a64 (nth j' data []) <> fnv1a64 d) /\
    p_index p = Z.of_nat j /\ root t = Ok rt /\ verify_proof H (nth j data []) p rt = Ok true.
Proof.
  intros H data t d p HM HT E. destruct (generated_proof_is_for_last H data t HM HT d p E) as (j & (A & B & C) & D & V).
  exists j, (nth 1 (t_nodes t) []). repeat (split; [assumption|]). split; [exact (root_t H data t HM HT)|exact V].
Qed.
Print Assumptions C29_proof_is_for_last_fingerprint.

Theorem C29_duplicates_panic_refuted :
  forall H d n, (1 <= n)%nat -> Z.of_nat (S n) <= 2147483648 ->
  exists t, new_using H (repeat d (S n)) = Ok t /\ generate_proof t d = Panic "index out of range".
Proof. exact duplicates_panic. Qed.
Print Assumptions C29_duplicates_panic_refuted.

(** the honest proof of a stored record does not verify, unless the hash is broken on the spot *)
Theorem C29_fingerprint_collision_refuted :
  exists data d, In d data /\ NoDup data /\ forall H, hash_ok H ->
  exists t p rt, new_using H data = Ok t /\ root t = Ok rt /\ generate_proof t d = Ok p /\
    (verify_proof H d p rt = Ok true ->
       collision_found H (tree_inputs H data) (proof_inputs H d p) \/
       padding_preimage H (proof_inputs H d p)).
Proof.
  exists coll_data, fnv_a. split; [left; reflexivity|]. split.
  - unfold coll_data, fnv_a, fnv_b. repeat (constructor; [cbn; intuition discriminate|]). constructor.
  - exact collision_proof_fails.
Qed.
Print Assumptions C29_fingerprint_collision_refuted.

Example C29_example :
  match new_using toy_hash coll_data with
  | Ok t => match generate_proof t fnv_a, root t with
            | Ok p, Ok rt => verify_proof toy_hash fnv_a p rt = Ok false
            | _, _ => False
            end
  | _ => False
  end.
Proof. vm_compute. reflexivity. Qed.

(** C30 *)
Theorem C30_merkle_binding :
  forall H data t rt d p, hash_ok H -> zlen data <= 2147483648 -> new_using H data = Ok t -> root t = Ok rt ->
  length (p_hashes p) = Nat.log2_up (length data) -> Forall (fun h => length h = 32%nat) (p_hashes p) ->
  is_u32 (p_index p) ->
  verify_proof H d p rt = Ok true ->
  (exists i, (i < length data)%nat /\ p_index p = Z.of_nat i /\ d = nth i data []) \/
  collision_found H (tree_inputs H data) (proof_inputs H d p) \/
  padding_preimage H (proof_inputs H d p).
Proof.
  intros H data t rt d p HH HM HT HR HL HF HI. rewrite (root_t H data t HM HT) in HR. injection HR as <-.
  exact (binding H data t HM HT HH d p HL HF HI).
Qed.
Print Assumptions C30_merkle_binding.

Example C30_example :
  match new_using toy_hash toy_records with
  | Ok t => match generate_proof t [200; 100], root t with
            | Ok p, Ok rt => length (p_hashes p) = Nat.log2_up (length toy_records) /\
                forallb (fun h => length h =? 32)%nat (p_hashes p) = true /\ p_index p = 4 /\
                verify_proof toy_hash [200; 100] p rt = Ok true
            | _, _ => False
            end
  | _ => False
  end.
Proof. vm_compute. repeat split. Qed.

(** C31: for every tree over at least two records and every hash there is a 60-byte string which is
    not a record (if no record happens to have 60 bytes) and verifies with an empty path. *)
Theorem C31_verification_alone_refuted :
  forall H data t rt, hash_ok H -> zlen data <= 2147483648 -> new_using H data = Ok t -> root t = Ok rt ->
  (2 <= length data)%nat ->
  exists d p, length d = 60%nat /\ bytes d /\ p_hashes p = [] /\ is_u32 (p_index p) /\
    verify_proof H d p rt = Ok true /\
    (Forall (fun r => length r <> 60%nat) data -> ~ In d data).
Proof.
  intros H data t rt HH HM HT HR Hn. rewrite (root_t H data t HM HT) in HR. injection HR as <-.
  destruct (forgery H data t HM HT HH Hn) as (A & B & C & D).
  eexists _, _. split; [exact A|]. split; [exact B|]. split; [|split; [exact C|split; [exact D|]]]; [reflexivity|].
  intros F I. rewrite Forall_forall in F. exact (F _ I A).
Qed.
Print Assumptions C31_verification_alone_refuted.

Example C31_example :
  match new_using toy_hash toy_records with
  | Ok t => match root t with
            | Ok rt => let d := nth 2 (t_nodes t) [] ++ firstn 28 (nth 3 (t_nodes t) []) in
                       verify_proof toy_hash d (mkProof [] (le_dec (skipn 28 (nth 3 (t_nodes t) [])))) rt = Ok true
                       /\ ~ In d toy_records
            | _ => False
            end
  | _ => False
  end.
Proof. vm_compute. split. reflexivity. intuition discriminate. Qed.

(** C32 *)
Theorem C32_root_commits_to_records :
  forall H data1 data2 t1 t2 rt, hash_ok H ->
  length data1 = length data2 -> zlen data1 <= 2147483648 ->
  new_using H data1 = Ok t1 -> new_using H data2 = Ok t2 -> root t1 = Ok rt -> root t2 = Ok rt ->
  data1 = data2 \/ collision_found H (tree_inputs H data1) (tree_inputs H data2).
Proof. exact (fun H d1 d2 t1 t2 rt HH => root_commits H HH d1 d2 t1 t2 rt). Qed.
Print Assumptions C32_root_commits_to_records.

(** both disjuncts are inhabited: a weak hash gives equal roots for different lists *)
Example C32_example :
  let weak : hash_fn := fun x => repeat (Z.of_nat (length x)) 32 in
  match new_using weak [[1; 2]; [3]; [4]], new_using weak [[1; 2]; [5]; [4]],
        new_using toy_hash [[1; 2]; [3]; [4]], new_using toy_hash [[1; 2]; [5]; [4]] with
  | Ok t1, Ok t2, Ok t3, Ok t4 => root t1 = root t2 /\ root t3 <> root t4
  | _, _, _, _ => False
  end.
Proof. vm_compute. split. reflexivity. discriminate. Qed.

(** C66 *)
Theorem C66_root_is_textbook_merkle_root :
  forall H data t, zlen data <= 2147483648 -> new_using H data = Ok t ->
  root t = Ok (spec_root H (Nat.log2_up (length data)) (spec_leaves H data)).
Proof.
  intros H data t HM HT. rewrite (root_t H data t HM HT). f_equal.
  exact (root_spec H data t (inv_t H data t HM HT) (new_using_nonempty H data t HT)).
Qed.
Print Assumptions C66_root_is_textbook_merkle_root.

Example C66_example :
  match new_using toy_hash toy_records with
  | Ok t => root t = Ok (spec_root toy_hash 3 (spec_leaves toy_hash toy_records)) /\
            length (spec_leaves toy_hash toy_records) = 8%nat
  | _ => False
  end.
Proof. vm_compute. split; reflexivity. Qed.
