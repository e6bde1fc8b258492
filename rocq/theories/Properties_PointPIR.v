(** Properties C23 (point part), C33-C39 and C72: multi-server point queries. Specification vocabulary in PointSpec.v
    (stored, padded, query_bit, xors, dpf_ok, without, cut, cuts) and MerkleSpec.v. *)
From Coq Require Import String ZArith List Bool Lia Permutation.
From Verif Require Import GoBase BaseFacts FSSModel EncodingModel MerkleModel MerkleSpec PredicateModel PointModel PointSpec
  PointProofs2 PointProofs3 PointProofs4 PointProofs5 XorFacts ToyInstances ToyPoint.
Import ListNotations.
Open Scope Z_scope.
Open Scope go_scope.

(** A 2x3 table with records of 2, 3, 1, 0, 3 and 2 bytes. *)
Definition ragged : bytes_db :=
  mkBytes [1;2; 3;4;5; 6; 7;8;9; 10;11] (mkInfo' 2 3 3 [2;3;1;0;3;2] "classical" [] 0).
Lemma ragged_ok : db_ok ragged.
Proof. unfold db_ok. cbn. conj_split; try lia; try reflexivity. repeat constructor; lia. Qed.

(** C33: with any number n >= 3 of honest servers and whatever randomness, the client gets the queried record followed by
    zeros up to the block size, in whatever order the answers are given. *)
Theorem C33_retrieval_secret_sharing :
  forall D H db rnd index n, db_ok db -> i_type (b_info db) = ""%string \/ i_type (b_info db) = "classical"%string ->
  0 <= index < i_rows (b_info db) * i_cols (b_info db) -> 3 <= n ->
  zlen rnd = (n - 1) * Z.of_nat (query_bytes (b_info db)) ->
  exists ix qs answers,
    pir_query D (b_info db) rnd index n = Ok (ix, qs) /\ zlen qs = n /\
    mapM (pir_answer D false db) qs = Ok answers /\
    forall answers', Permutation answers answers' ->
      reconstruct_pir H (b_info db) ix answers' = Ok (padded db (Z.to_nat index)).
Proof.
  intros D H db rnd index n HD HY Hi Hn HR. pose proof HD as (_ & Hc & _).
  destruct (pir_correct D db rnd index n HD Hi ltac:(lia) ltac:(lia)) as (ix & qs & ans & A & B & C & E).
  { rewrite HR. unfold query_bytes. rewrite Z2Nat.id; [reflexivity|]. pose proof (Z.div_pos (i_cols (b_info db)) 8). lia. }
  exists ix, qs, ans. conj_split; auto. intros answers' PM. rewrite reconstruct_plain by auto. auto.
Qed.
Print Assumptions C33_retrieval_secret_sharing.

Theorem C33_retrieval_two_servers :
  forall D H db rnd index, dpf_ok D -> db_ok db -> i_type (b_info db) = ""%string \/ i_type (b_info db) = "classical"%string ->
  0 <= index < i_rows (b_info db) * i_cols (b_info db) ->
  exists ix k0 k1 a0 a1,
    pir_query D (b_info db) rnd index 2 = Ok (ix, [k0; k1]) /\
    pir_answer D true db k0 = Ok a0 /\ pir_answer D true db k1 = Ok a1 /\
    reconstruct_pir H (b_info db) ix [a0; a1] = Ok (padded db (Z.to_nat index)) /\
    reconstruct_pir H (b_info db) ix [a1; a0] = Ok (padded db (Z.to_nat index)).
Proof.
  intros D H db rnd index HF HD HY Hi.
  destruct (pir_correct_two D db rnd index HF HD Hi) as (ix & k0 & k1 & a0 & a1 & A & B & C & E1 & E2).
  exists ix, k0, k1, a0, a1. rewrite !reconstruct_plain by auto. conj_split; auto.
Qed.
Print Assumptions C33_retrieval_two_servers.

(** ... the index may be given as the 4-byte big-endian string the command line client sends, ... *)
Theorem C33_query_bytes :
  forall D inf rnd index n, 0 <= index < 2 ^ 32 ->
  pir_query_bytes D inf rnd (be_enc 4 index) n = pir_query D inf rnd index n.
Proof. exact query_bytes_index. Qed.
Print Assumptions C33_query_bytes.

(** ... and the random byte database is such a table: its record number k is piece number k of the random bytes. *)
Theorem C33_random_database :
  forall rnd dbLen numRows blockLen, 0 < blockLen -> 0 < numRows ->
  8 * numRows * blockLen <= dbLen -> dbLen < 2 ^ 62 -> zlen rnd = dbLen / 8 ->
  exists db, create_random_bytes rnd dbLen numRows blockLen = Ok db /\ db_ok db /\ i_type (b_info db) = ""%string /\
    i_rows (b_info db) = numRows /\ i_cols (b_info db) = dbLen / (8 * numRows * blockLen) /\ i_bs (b_info db) = blockLen /\
    forall k, Z.of_nat k < i_rows (b_info db) * i_cols (b_info db) -> padded db k = cut blockLen rnd k.
Proof. exact create_random_bytes_ok. Qed.
Print Assumptions C33_random_database.

Example C33_example :
  (exists ix qs answers, pir_query toy_dpf (b_info ragged) [181; 90; 77] 4 4 = Ok (ix, qs) /\
     mapM (pir_answer toy_dpf false ragged) qs = Ok answers /\
     reconstruct_pir toy_hash (b_info ragged) ix answers = Ok [7; 8; 9]) /\
  (exists ix k0 k1 a0 a1, pir_query toy_dpf (b_info ragged) [] 5 2 = Ok (ix, [k0; k1]) /\
     pir_answer toy_dpf true ragged k0 = Ok a0 /\ pir_answer toy_dpf true ragged k1 = Ok a1 /\
     reconstruct_pir toy_hash (b_info ragged) ix [a1; a0] = Ok [10; 11; 0]) /\
  (exists db, create_random_bytes [9;8;7;6;5;4;3;2] 64 2 2 = Ok db /\ padded db 3 = [3; 2]).
Proof.
  split; [|split].
  - eexists _, _, _. split; [vm_compute; reflexivity|]. split; vm_compute; reflexivity.
  - eexists _, _, _, _, _. split; [vm_compute; reflexivity|]. split; [vm_compute; reflexivity|]. split; vm_compute; reflexivity.
  - eexists. split; [vm_compute; reflexivity|]. vm_compute. reflexivity.
Qed.

(** C23, point part: the order in which the answers arrive does not matter (predicate part in Properties_Predicate.v). *)
Theorem C23_point_answer_order :
  forall H inf ix answers answers', 0 <= i_bs inf -> 0 <= ix ->
  Forall (fun a => (ix + 1) * i_bs inf <= zlen a) answers -> Permutation answers answers' ->
  reconstruct_pir H inf ix answers = reconstruct_pir H inf ix answers'.
Proof. exact reconstruct_pir_perm. Qed.
Print Assumptions C23_point_answer_order.

Example C23_point_example :
  reconstruct_pir toy_hash (b_info ragged) 1 [[0;0;0;1;2;3]; [9;9;9;8;8;8]; [5;5;5;7;6;5]] = Ok [14; 12; 14] /\
  reconstruct_pir toy_hash (b_info ragged) 1 [[5;5;5;7;6;5]; [0;0;0;1;2;3]; [9;9;9;8;8;8]] = Ok [14; 12; 14].
Proof. split; vm_compute; reflexivity. Qed.

(** C34: fix the queried index and the server left out. Every list of query vectors the other servers may see is produced
    by exactly one random string of the client; so the view is uniformly distributed, whatever the index. *)
Theorem C34_perfect_privacy :
  forall D inf n index m view, 0 < i_cols inf -> 0 <= index -> 3 <= n -> Z.of_nat m < n ->
  zlen view = n - 1 -> Forall (fun v => length v = query_bytes inf /\ bytes v) view ->
  exists! rnd, (zlen rnd = (n - 1) * (i_cols inf / 8 + 1) /\ bytes rnd) /\
    exists ix qs, pir_query D inf rnd index n = Ok (ix, qs) /\ without m qs = view.
Proof. exact privacy. Qed.
Print Assumptions C34_perfect_privacy.

Example C34_example :
  exists ix ix' q q', pir_query toy_dpf (b_info ragged) [77; 200] 0 3 = Ok (ix, [[77]; [200]; q]) /\
    pir_query toy_dpf (b_info ragged) [77; 200] 2 3 = Ok (ix', [[77]; [200]; q']) /\ q <> q' /\
    pir_query toy_dpf (b_info ragged) [77; 203] 1 3 = Ok (ix, [[77]; [203]; [132]]) /\
    pir_query toy_dpf (b_info ragged) [77; 205] 2 3 = Ok (ix, [[77]; [205]; [132]]).
Proof. eexists _, _, _, _. split; [vm_compute; reflexivity|]. split; [vm_compute; reflexivity|]. split; [vm_compute; discriminate|].
  split; vm_compute; reflexivity. Qed.

(** C35 is refuted. A query to a single server is accepted, and its bits are exactly the position in clear, ... *)
Theorem C35_single_server_refuted :
  forall D inf index, 0 < i_cols inf -> 0 <= index ->
  exists ix q, pir_query D inf [] index 1 = Ok (ix, [q]) /\
    forall c, query_bit q c = (Z.of_nat c =? index mod i_cols inf).
Proof. exact single_server_clear. Qed.
Print Assumptions C35_single_server_refuted.

(** ... and an index outside the database is not refused: either building the query crashes, or it succeeds and then
    reconstruction crashes on all answers of the proper length. *)
Theorem C35_out_of_range_refuted :
  forall D db rnd index n, db_ok db -> 0 < i_bs (b_info db) -> 3 <= n ->
  zlen rnd = (n - 1) * (i_cols (b_info db) / 8 + 1) ->
  index < 0 \/ i_rows (b_info db) * i_cols (b_info db) <= index ->
  is_panic (pir_query D (b_info db) rnd index n) = true \/
  exists ix qs, pir_query D (b_info db) rnd index n = Ok (ix, qs) /\
    forall answers, answers <> [] -> Forall (fun a => zlen a = i_rows (b_info db) * i_bs (b_info db)) answers ->
      is_panic (reconstruct_value (b_info db) ix answers) = true.
Proof. exact out_of_range_crash. Qed.
Print Assumptions C35_out_of_range_refuted.

(** What holds: a negative index together with fewer than two servers is refused. *)
Theorem C35_partial :
  forall D inf rnd index n, index < 0 -> n < 2 -> pir_query D inf rnd index n = Fatal "invalid query inputs".
Proof.
  intros D inf rnd index n Hi Hn. unfold pir_query, invalid_query_inputs_it.
  destruct (Z.ltb_spec index 0); [|lia]. match goal with |- context [n <? ?k] => destruct (Z.ltb_spec n k) end; [reflexivity|lia].
Qed.
Print Assumptions C35_partial.

Example C35_example :
  pir_query toy_dpf (b_info ragged) [] 4 1 = Ok (1, [[2]]) /\
  (exists qs, pir_query toy_dpf (b_info ragged) [1; 2] 6 3 = Ok (2, qs)) /\
  pir_query toy_dpf (b_info ragged) [1; 2] (-1) 0 = Fatal "invalid query inputs".
Proof. split; [vm_compute; reflexivity|split; [eexists; vm_compute; reflexivity|vm_compute; reflexivity]]. Qed.

(** C36: over a random Merkle database whose different records have different fingerprints, honest answers are accepted and the
    client gets exactly the queried record, with n >= 3 servers or with two and a correct DPF. *)
Theorem C36_authenticated_retrieval :
  forall D H rnd dbLen numRows blockLen, hash_ok H -> 0 < blockLen -> 0 < numRows ->
  numRows <= dbLen / (8 * blockLen) <= 2147483648 -> zlen rnd = dbLen / (8 * blockLen) * blockLen ->
  fingerprints_ok (cuts blockLen rnd (dbLen / (8 * blockLen))) ->
  exists db, create_random_merkle H rnd dbLen numRows blockLen = Ok db /\
    i_rows (b_info db) = numRows /\ i_cols (b_info db) = dbLen / (8 * blockLen) / numRows /\
    (forall crnd index n, 0 <= index < i_rows (b_info db) * i_cols (b_info db) -> 3 <= n ->
      zlen crnd = (n - 1) * (i_cols (b_info db) / 8 + 1) ->
      exists ix qs answers, pir_query D (b_info db) crnd index n = Ok (ix, qs) /\ zlen qs = n /\
        mapM (pir_answer D false db) qs = Ok answers /\
        forall answers', Permutation answers answers' ->
          reconstruct_pir H (b_info db) ix answers' = Ok (cut blockLen rnd (Z.to_nat index))) /\
    (dpf_ok D -> forall crnd index, 0 <= index < i_rows (b_info db) * i_cols (b_info db) ->
      exists ix k0 k1 a0 a1, pir_query D (b_info db) crnd index 2 = Ok (ix, [k0; k1]) /\
        pir_answer D true db k0 = Ok a0 /\ pir_answer D true db k1 = Ok a1 /\
        reconstruct_pir H (b_info db) ix [a0; a1] = Ok (cut blockLen rnd (Z.to_nat index)) /\
        reconstruct_pir H (b_info db) ix [a1; a0] = Ok (cut blockLen rnd (Z.to_nat index))).
Proof. exact merkle_random_correct. Qed.
Print Assumptions C36_authenticated_retrieval.

Definition six_records : list Z := [1;2; 3;4; 5;6; 7;8; 9;10; 11;12].
Example C36_example :
  fingerprints_ok (cuts 2 six_records 6) /\
  match create_random_merkle toy_hash six_records 96 2 2 with
  | Ok db =>
    match pir_query toy_dpf (b_info db) [181; 90] 4 3 with
    | Ok (ix, qs) =>
      match mapM (pir_answer toy_dpf false db) qs with
      | Ok answers => reconstruct_pir toy_hash (b_info db) ix answers = Ok [9; 10]
      | _ => False
      end
    | _ => False
    end
  | _ => False
  end.
Proof.
  split; [apply nodup_fingerprints|vm_compute; reflexivity].
  assert (E : nodup Z.eq_dec (map fnv1a64 (cuts 2 six_records 6)) = map fnv1a64 (cuts 2 six_records 6)) by (vm_compute; reflexivity).
  rewrite <- E. apply NoDup_nodup.
Qed.

(** C37 is refuted. Whatever the other servers answer, one server has an answer that makes the client accept any record j
    of the database, whichever index was queried, ... *)
Theorem C37_substitution_refuted :
  forall H rnd dbLen numRows blockLen db, hash_ok H -> 0 < blockLen -> 0 < numRows ->
  numRows <= dbLen / (8 * blockLen) <= 2147483648 -> zlen rnd = dbLen / (8 * blockLen) * blockLen -> bytes rnd ->
  fingerprints_ok (cuts blockLen rnd (dbLen / (8 * blockLen))) ->
  create_random_merkle H rnd dbLen numRows blockLen = Ok db ->
  forall ix rest j, 0 <= ix < i_rows (b_info db) -> Z.of_nat j < i_rows (b_info db) * i_cols (b_info db) ->
  Forall (fun a => zlen a = i_rows (b_info db) * i_bs (b_info db) /\ bytes a) rest ->
  exists a, zlen a = i_rows (b_info db) * i_bs (b_info db) /\ bytes a /\
    reconstruct_pir H (b_info db) ix (a :: rest) = Ok (cut blockLen rnd j).
Proof. exact merkle_random_substitution. Qed.
Print Assumptions C37_substitution_refuted.

(** ... and, when records have more than 60 bytes, one that makes it accept a string that is no record at all. *)
Theorem C37_forgery_refuted :
  forall H rnd dbLen numRows blockLen db, hash_ok H -> 60 <= blockLen -> 0 < numRows ->
  numRows <= dbLen / (8 * blockLen) <= 2147483648 -> 2 <= dbLen / (8 * blockLen) ->
  zlen rnd = dbLen / (8 * blockLen) * blockLen ->
  fingerprints_ok (cuts blockLen rnd (dbLen / (8 * blockLen))) ->
  create_random_merkle H rnd dbLen numRows blockLen = Ok db ->
  forall ix rest, 0 <= ix < i_rows (b_info db) ->
  Forall (fun a => zlen a = i_rows (b_info db) * i_bs (b_info db) /\ bytes a) rest ->
  exists a d, zlen a = i_rows (b_info db) * i_bs (b_info db) /\ bytes a /\ length d = 60%nat /\
    reconstruct_pir H (b_info db) ix (a :: rest) = Ok d.
Proof. exact merkle_random_forgery. Qed.
Print Assumptions C37_forgery_refuted.

(** What holds, for arbitrary answers of all servers: accepted data is one of the records, or is exactly 60 bytes long,
    or comes with a collision between a string hashed for the tree and one hashed by the client, or with a string hashed
    by the client whose digest is the all-zero padding. Missing: that it is the queried record. *)
Theorem C37_integrity_partial :
  forall H rnd dbLen numRows blockLen db, hash_ok H -> 0 < blockLen -> 0 < numRows ->
  numRows <= dbLen / (8 * blockLen) <= 2147483648 -> zlen rnd = dbLen / (8 * blockLen) * blockLen ->
  fingerprints_ok (cuts blockLen rnd (dbLen / (8 * blockLen))) ->
  create_random_merkle H rnd dbLen numRows blockLen = Ok db ->
  forall ix answers data, Forall bytes answers -> reconstruct_pir H (b_info db) ix answers = Ok data ->
  In data (cuts blockLen rnd (dbLen / (8 * blockLen))) \/ length data = 60%nat \/
  exists p, collision_found H (tree_inputs H (cuts blockLen rnd (dbLen / (8 * blockLen)))) (proof_inputs H data p) \/
            padding_preimage H (proof_inputs H data p).
Proof. exact merkle_random_accepted. Qed.
Print Assumptions C37_integrity_partial.

(** The client asks for record 1; the second server adds the difference of records 1 and 5 to its honest answer and the
    client accepts record 5. *)
Example C37_example :
  match create_random_merkle toy_hash six_records 96 2 2 with
  | Ok db =>
    match pir_query toy_dpf (b_info db) [181; 90] 1 3 with
    | Ok (ix, [q0; q1; q2]) =>
      match pir_answer toy_dpf false db q0, pir_answer toy_dpf false db q1, pir_answer toy_dpf false db q2 with
      | Ok a0, Ok a1, Ok a2 =>
        let evil := xor_list (xor_list (padded db 1) (padded db 5)) (firstn (length (padded db 1)) a1)
                    ++ skipn (length (padded db 1)) a1 in
        ix = 0 /\ reconstruct_pir toy_hash (b_info db) ix [a0; a1; a2] = Ok [3; 4] /\
        reconstruct_pir toy_hash (b_info db) ix [a0; evil; a2] = Ok [11; 12] /\
        reconstruct_pir toy_hash (b_info db) ix [a0; 1 :: tl a1; a2] = Err "REJECT!"
      | _, _, _ => False
      end
    | _ => False
    end
  | _ => False
  end.
Proof. vm_compute. conj_split; reflexivity. Qed.

(** C38 is refuted: an answer that is too short crashes the client, ... *)
Theorem C38_short_answer_refuted :
  forall H inf ix a rest, 0 < i_bs inf -> 0 <= ix -> zlen a < (ix + 1) * i_bs inf ->
  i_type inf = ""%string \/ i_type inf = "classical"%string \/ i_type inf = "merkle"%string ->
  is_panic (reconstruct_pir H inf ix (a :: rest)) = true.
Proof. exact short_answer_panics. Qed.
Print Assumptions C38_short_answer_refuted.

(** ... in the Merkle case so does an answer of the proper length chosen by one server, ... *)
Theorem C38_merkle_answer_refuted :
  forall H inf ix rest, 0 <= i_bs inf -> 0 <= ix < i_rows inf -> i_type inf = "merkle"%string ->
  Forall (fun a => zlen a = i_rows inf * i_bs inf /\ bytes a) rest ->
  exists a, zlen a = i_rows inf * i_bs inf /\ bytes a /\ is_panic (reconstruct_pir H inf ix (a :: rest)) = true.
Proof. exact zero_sum_panics. Qed.
Print Assumptions C38_merkle_answer_refuted.

(** ... and an empty answer crashes the predicate client. *)
Theorem C38_predicate_answer_refuted :
  forall e alphas rest, (1 <= e)%nat -> is_panic (reconstruct_bytes e alphas ([] :: rest)) = true.
Proof.
  intros e alphas rest He. unfold reconstruct_bytes. change (map bytes_to_uint32_slice ([] :: rest)) with ([] :: map bytes_to_uint32_slice rest).
  unfold reconstruct. change (go_index ([] :: map bytes_to_uint32_slice rest) 0) with (Ok (@nil Z)). cbn [bind].
  change (zlen (@nil Z)) with 0. destruct (Z.eqb_spec 0 (2 * Z.of_nat e)); [lia|]. reflexivity.
Qed.
Print Assumptions C38_predicate_answer_refuted.

(** What holds: without authentication, sufficiently long answers always yield a block. *)
Theorem C38_partial :
  forall H inf ix answers, 0 <= i_bs inf -> 0 <= ix ->
  i_type inf = ""%string \/ i_type inf = "classical"%string ->
  Forall (fun a => (ix + 1) * i_bs inf <= zlen a) answers ->
  exists r, reconstruct_pir H inf ix answers = Ok r /\ zlen r = i_bs inf.
Proof. exact long_answers_no_panic. Qed.
Print Assumptions C38_partial.

Example C38_example :
  is_panic (reconstruct_pir toy_hash (b_info ragged) 1 [[1;2;3;4;5]; [1;2;3;4;5;6]]) = true /\
  is_panic (reconstruct_pir toy_hash (mkInfo' 1 1 4 [4] "merkle" [] 0) 0 [[1;2;3;4]; [1;2;3;4]]) = true /\
  is_panic (reconstruct_bytes 5 [1;2;3;4] [[]; []]) = true /\
  reconstruct_pir toy_hash (b_info ragged) 1 [[1;2;3;4;5;6]; [1;2;3;4;5;7;8]] = Ok [0; 0; 1].
Proof. vm_compute. conj_split; reflexivity. Qed.

(** C39: the server's answer has, for every row, the exclusive or of the selected zero-padded records of that row, ... *)
Theorem C39_answer_meaning :
  forall D db q, db_ok db -> i_cols (b_info db) <= 8 * zlen q ->
  exists r, pir_answer D false db q = Ok r /\ zlen r = i_rows (b_info db) * i_bs (b_info db) /\
    forall row p, (row < Z.to_nat (i_rows (b_info db)))%nat -> (p < Z.to_nat (i_bs (b_info db)))%nat ->
      nth (row * Z.to_nat (i_bs (b_info db)) + p) r 0 =
      xors (map (fun c => if query_bit q c then nth p (padded db (row * Z.to_nat (i_cols (b_info db)) + c)) 0 else 0)
         (seq 0 (Z.to_nat (i_cols (b_info db))))).
Proof. exact answer_vector_padded. Qed.
Print Assumptions C39_answer_meaning.

(** ... is linear in the query, ... *)
Theorem C39_answer_linear :
  forall D db q1 q2, db_ok db -> length q1 = length q2 -> i_cols (b_info db) <= 8 * zlen q1 ->
  exists a1 a2, pir_answer D false db q1 = Ok a1 /\ pir_answer D false db q2 = Ok a2 /\
    pir_answer D false db (xor_list q1 q2) = Ok (xor_list a1 a2).
Proof. exact answer_linear. Qed.
Print Assumptions C39_answer_linear.

(** ... and a query with too few bits crashes the server. *)
Theorem C39_short_query :
  forall D db q, db_ok db -> 8 * zlen q < i_cols (b_info db) -> pir_answer D false db q = Panic "index out of range".
Proof. exact answer_vector_short. Qed.
Print Assumptions C39_short_query.

Example C39_example :
  pir_answer toy_dpf false ragged [5] = Ok [Z.lxor 1 6; 2; 0; 10; 11; 0] /\
  pir_answer toy_dpf false ragged [6] = Ok [Z.lxor 3 6; 4; 5; Z.lxor 7 10; Z.lxor 8 11; 9] /\
  pir_answer toy_dpf false ragged [Z.lxor 5 6] = Ok (xor_list [Z.lxor 1 6; 2; 0; 10; 11; 0] [Z.lxor 3 6; 4; 5; Z.lxor 7 10; Z.lxor 8 11; 9]) /\
  pir_answer toy_dpf false ragged [] = Panic "index out of range".
Proof. vm_compute. conj_split; reflexivity. Qed.

(** C72 is refuted. With two connections the client sends DPF keys, but the deployed servers (NewPIR) use them as if they
    were bit vectors: what the client reconstructs is the exclusive or of the records selected by the raw bits of the keys. *)
Theorem C72_two_server_deployment_value :
  forall D db rnd index k0 k1 a0 a1 ix, db_ok db -> 0 <= index < i_rows (b_info db) * i_cols (b_info db) ->
  pir_query D (b_info db) rnd index 2 = Ok (ix, [k0; k1]) ->
  i_cols (b_info db) <= 8 * zlen k0 -> i_cols (b_info db) <= 8 * zlen k1 ->
  pir_answer D false db k0 = Ok a0 -> pir_answer D false db k1 = Ok a1 ->
  exists r, reconstruct_value (b_info db) ix [a0; a1] = Ok r /\ zlen r = i_bs (b_info db) /\
    forall p, (p < Z.to_nat (i_bs (b_info db)))%nat ->
    nth p r 0 = xors (map (fun c => if xorb (query_bit k0 c) (query_bit k1 c)
      then nth p (padded db (Z.to_nat (index / i_cols (b_info db)) * Z.to_nat (i_cols (b_info db)) + c)) 0 else 0)
      (seq 0 (Z.to_nat (i_cols (b_info db))))).
Proof. exact mismatch_value. Qed.
Print Assumptions C72_two_server_deployment_value.

Theorem C72_two_server_deployment_refuted :
  exists D db index ix k0 k1 a0 a1 r, dpf_ok D /\ db_ok db /\ 0 <= index < i_rows (b_info db) * i_cols (b_info db) /\
    pir_query D (b_info db) [] index 2 = Ok (ix, [k0; k1]) /\
    pir_answer D false db k0 = Ok a0 /\ pir_answer D false db k1 = Ok a1 /\
    reconstruct_value (b_info db) ix [a0; a1] = Ok r /\ r <> padded db (Z.to_nat index).
Proof.
  exists toy_dpf, ragged, 4, 1, (repeat 0 9), (1 :: le_enc 8 1), [0;0;0;0;0;0], [1;2;0;0;0;0], [0;0;0].
  split; [exact toy_dpf_ok|]. split; [exact ragged_ok|]. split; [cbn; lia|].
  conj_split; try (vm_compute; reflexivity). vm_compute. discriminate.
Qed.
Print Assumptions C72_two_server_deployment_refuted.

(** The hypotheses of C72_two_server_deployment_value are met by that run. *)
Example C72_example :
  pir_query toy_dpf (b_info ragged) [] 4 2 = Ok (1, [repeat 0 9; 1 :: le_enc 8 1]) /\
  i_cols (b_info ragged) <= 8 * zlen (repeat 0 9) /\ i_cols (b_info ragged) <= 8 * zlen (1 :: le_enc 8 1) /\
  pir_answer toy_dpf true ragged (1 :: le_enc 8 1) = Ok [3;4;5;7;8;9].
Proof. conj_split; vm_compute; auto; discriminate. Qed.
