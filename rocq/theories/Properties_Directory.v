(** Property theorems about the key directory: parsing, storing, building, looking up (C53-C57, C73-C78). *)
From Coq Require Import String ZArith List Bool Arith Lia Permutation Sorted.
From Verif Require Import GoBase BaseFacts EncodingModel EncodingProofs MerkleModel MerkleSpec MerkleProofs LWEModel PointModel PointSpec
  PointProofs2 PointProofs4 DirectoryModel DirectorySpec DirectoryProofs DirectoryProofs2 DirectoryProofs3 DirectoryProofs4 DirectoryProofs5
  ToyInstances ToyPoint ToyDirectory.
Import ListNotations.
Open Scope Z_scope.

(** Twenty keys named "a" ... "t". *)
Definition demo_entity (i : nat) : entity := mkEntity 0 [97 + Z.of_nat i] [] (100 + Z.of_nat i) [[1; 2]] [Z.of_nat i; 7].
Definition demo_key (i : nat) : pkey := mkKey [97 + Z.of_nat i] [200 + Z.of_nat i; 3].
Definition demo_keys : list pkey := map demo_key (rev (seq 0 20)).
Lemma demo_listed : listed demo_keys.
Proof.
  split.
  - vm_compute. repeat (constructor; [cbn [In]; intros X; repeat destruct X as [X|X]; try discriminate; try contradiction|]). constructor.
  - vm_compute. repeat constructor.
Qed.
Definition demo_server : runtime * list (list pkey) := (toy_runtime, [firstn 7 demo_keys; skipn 7 demo_keys]).
Definition demo_server' : runtime * list (list pkey) := (toy_runtime', [rev demo_keys]).
Lemma demo_holds : holds demo_keys demo_server /\ holds demo_keys demo_server'.
Proof.
  split; (split; [apply toy_runtime_ok || apply toy_runtime'_ok|]).
  - change (concat (snd demo_server)) with (firstn 7 demo_keys ++ skipn 7 demo_keys ++ []). rewrite app_nil_r, firstn_skipn. apply Permutation_refl.
  - change (concat (snd demo_server')) with (rev demo_keys ++ []). rewrite app_nil_r. apply Permutation_rev.
Qed.
Definition is_ok {A} (r : res A) : bool := match r with Ok _ => true | _ => false end.
Definition get_ok {A} (d : A) (r : res A) : A := match r with Ok a => a | _ => d end.
Definition no_db : bytes_db := mkBytes [] (mkInfo' 0 0 0 [] "" [] 0).
Definition demo_db : bytes_db := get_ok no_db (generate_real_key_bytes toy_hash toy_runtime [Ok demo_keys] false).
Definition demo_merkle : bytes_db := get_ok no_db (generate_real_key_merkle toy_hash toy_hash toy_runtime [Ok demo_keys] false).

(** C53: the table built from any files has, in every bucket, the packets of exactly the keys whose identifier leads there,
    one after the other and followed by the byte 0x80; every identifier leads to a bucket of the table. *)
Theorem C53_buckets :
  forall B R files reb, hash_ok B -> runtime_ok R -> 10 <= zlen (concat files) <= 2 ^ 35 ->
  exists db keys n, generate_real_key_bytes B R (map Ok files) reb = Ok db /\ Permutation (concat files) keys /\
    n = i_rows (b_info db) * i_cols (b_info db) /\
    (forall id, 0 <= position B n id < n /\ hash_to_index B id n = Ok (position B n id)) /\
    forall k, 0 <= k < n -> stored db (Z.to_nat k) =
      match filter (fun key => position B n (k_id key) =? k) keys with
      | [] => []
      | found => concat (map k_packet found) ++ [128]
      end.
Proof.
  intros B R files reb HB HR HK. pose proof (cells_bound (zlen (concat files)) reb ltac:(lia)) as CB.
  destruct (build_bytes B R files reb HB HR CB ltac:(lia)) as (db & G & OK & _ & RC & _ & _ & _ & _ & _ & ST).
  exists db, (r_sort R (concat files)), (cells (zlen (concat files)) reb). conj_split; auto.
  - apply HR.
  - intros id. assert (0 < cells (zlen (concat files)) reb) by (rewrite <- RC; destruct OK as (? & ? & _); nia).
    split; [apply position_range; auto|apply hash_to_index_ok; auto].
  - intros k Hk. rewrite (ST k Hk). unfold bucket_block, bucket, in_bucket. destruct (filter _ _); reflexivity.
Qed.
Print Assumptions C53_buckets.

(** ... and the authenticated table commits to exactly these blocks. *)
Theorem C53_merkle_commits :
  forall H B reb keys srv db, hash_ok H -> hash_ok B -> listed keys -> 10 <= zlen keys <= 2 ^ 34 -> holds keys srv ->
  fingerprints_ok (bucket_blocks B (i_rows (b_info db) * i_cols (b_info db)) keys) ->
  generate_real_key_merkle H B (fst srv) (map Ok (snd srv)) reb = Ok db ->
  exists t, new_using H (bucket_blocks B (i_rows (b_info db) * i_cols (b_info db)) keys) = Ok t /\ root t = Ok (i_root (b_info db)).
Proof.
  intros H B reb keys srv db HH HB HL HK HS FO G.
  assert (RC : i_rows (b_info db) * i_cols (b_info db) = cells (zlen keys) reb).
  { pose proof HS as [HR P]. apply merkle_dims in G; auto. unfold cells.
    replace (zlen keys) with (zlen (concat (snd srv))) by (unfold zlen; rewrite (Permutation_length P); auto). rewrite <- G. reflexivity. }
  rewrite RC in *. destruct (srv_merkle B keys srv reb HB HL ltac:(lia) HS H HH) as (db' & t & G' & MD & _); auto.
  { apply cells_small. lia. }
  rewrite G in G'. injection G' as <-. exists t. destruct MD as (A & C & _). auto.
Qed.
Print Assumptions C53_merkle_commits.

Example C53_example :
  generate_real_key_bytes toy_hash toy_runtime [Ok demo_keys] false = Ok demo_db /\
  stored demo_db 0 = [219; 3; 217; 3; 215; 3; 213; 3; 211; 3; 209; 3; 207; 3; 205; 3; 203; 3; 201; 3; 128] /\
  position toy_hash 2 [98] = 0 /\ In (mkKey [98] [201; 3]) demo_keys /\
  fingerprints_ok (bucket_blocks toy_hash 2 demo_keys) /\
  generate_real_key_merkle toy_hash toy_hash toy_runtime [Ok demo_keys] false = Ok demo_merkle.
Proof.
  split; [vm_compute; reflexivity|]. split; [vm_compute; reflexivity|]. split; [vm_compute; reflexivity|].
  split; [apply (in_map demo_key _ 1%nat); apply in_rev; rewrite rev_involutive; apply in_seq; lia|].
  split; [|vm_compute; reflexivity].
  apply nodup_fingerprints. vm_compute. repeat (constructor; [cbn [In]; intros X; repeat destruct X as [X|X]; try discriminate; try contradiction|]). constructor.
Qed.

(** C54: two servers whose files contain the same keys with different identifiers, distributed and ordered in any way, build
    identical tables, whatever order sorting and map iteration produce. *)
Theorem C54_same_table :
  forall H B read reb R1 R2 files1 files2, hash_ok B -> runtime_ok R1 -> runtime_ok R2 ->
  Permutation (concat files1) (concat files2) -> NoDup (map k_id (concat files1)) -> zlen (concat files1) <= 2 ^ 35 ->
  generate_real_key_bytes B R1 (map Ok files1) reb = generate_real_key_bytes B R2 (map Ok files2) reb /\
  generate_real_key_merkle H B R1 (map Ok files1) reb = generate_real_key_merkle H B R2 (map Ok files2) reb /\
  generate_real_key_db read R1 (map Ok files1) = generate_real_key_db read R2 (map Ok files2).
Proof.
  intros H B read reb R1 R2 f1 f2 HB H1 H2 P ND HZ. pose proof (zlen_nonneg (concat f1)).
  pose proof (cells_bound (zlen (concat f1)) reb ltac:(lia)). conj_split.
  - apply same_bytes; auto.
  - apply same_merkle; auto.
  - apply same_db; auto.
Qed.
Print Assumptions C54_same_table.

(** With two keys for one identifier (for instance after merging directories) the order of the files shows in the table,
    even with the insertion sort the Go library uses for short slices. *)
Theorem C54_duplicates_refuted :
  exists B R files1 files2 db1 db2, hash_ok B /\ runtime_ok R /\ Permutation (concat files1) (concat files2) /\
    generate_real_key_bytes B R (map Ok files1) false = Ok db1 /\
    generate_real_key_bytes B R (map Ok files2) false = Ok db2 /\
    i_lens (b_info db1) = i_lens (b_info db2) /\ b_entries db1 <> b_entries db2.
Proof.
  exists toy_hash, toy_runtime, [map demo_key (seq 0 9); [mkKey [97] [1; 2]]], [[mkKey [97] [1; 2]]; map demo_key (seq 0 9)].
  eexists _, _. split; [apply toy_hash_ok|]. split; [apply toy_runtime_ok|]. split.
  - cbn [concat]. rewrite !app_nil_r. apply Permutation_app_comm.
  - split; [vm_compute; reflexivity|]. split; [vm_compute; reflexivity|]. split; [vm_compute; reflexivity|]. vm_compute. discriminate.
Qed.
Print Assumptions C54_duplicates_refuted.

Example C54_example :
  generate_real_key_bytes toy_hash (fst demo_server) (map Ok (snd demo_server)) true =
  generate_real_key_bytes toy_hash (fst demo_server') (map Ok (snd demo_server')) true /\
  is_ok (generate_real_key_bytes toy_hash (fst demo_server) (map Ok (snd demo_server)) true) = true /\
  concat (snd demo_server) <> concat (snd demo_server').
Proof. conj_split; vm_compute; try reflexivity. discriminate. Qed.

(** C55: one to nine keys cannot be served: building either table crashes, ... *)
Theorem C55_few_keys_refuted :
  forall H B R files reb, hash_ok B -> runtime_ok R -> 1 <= zlen (concat files) < 10 ->
  generate_real_key_bytes B R (map Ok files) reb = Panic "integer divide by zero" /\
  generate_real_key_merkle H B R (map Ok files) reb = Panic "integer divide by zero".
Proof. intros. split; [apply few_keys_bytes|apply few_keys_merkle]; auto. Qed.
Print Assumptions C55_few_keys_refuted.

(** ... and so does the authenticated table when its blocks have too few different fingerprints (empty buckets are equal). *)
Theorem C55_equal_blocks_refuted :
  forall H B (reb : bool) keys srv, hash_ok B -> listed keys -> 10 <= zlen keys < 2 ^ 24 -> holds keys srv ->
  let n := if reb then smallest_square (zlen keys / 10) else zlen keys / 10 in
  (Nat.log2_up (length (nodup Z.eq_dec (map fnv1a64 (bucket_blocks B n keys)))) < Nat.log2_up (Z.to_nat n))%nat ->
  generate_real_key_merkle H B (fst srv) (map Ok (snd srv)) reb = Panic "index out of range".
Proof.
  intros H B reb keys srv HB HL HK HS n HN. pose proof HS as [HR P].
  assert (EZ : zlen (concat (snd srv)) = zlen keys) by (apply srv_zlen; auto).
  assert (EC : n = cells (zlen keys) reb) by (unfold n; rewrite cells_tenth by lia; reflexivity).
  apply build_merkle_panics; auto; rewrite ?EZ; try lia.
  - apply cells_bound; lia.
  - apply cells_small; lia.
  - rewrite (sorted_is (fst srv) keys) by (auto; apply HR). rewrite <- EC. rewrite blocks_of_length. exact HN.
Qed.
Print Assumptions C55_equal_blocks_refuted.

(** What holds: from ten keys on the classical table is built; it has one bucket per ten keys, rounded up to the next square
    in the rebalanced layout; ... *)
Theorem C55_partial :
  forall B R files (reb : bool), hash_ok B -> runtime_ok R -> 10 <= zlen (concat files) < 2 ^ 24 ->
  exists db, generate_real_key_bytes B R (map Ok files) reb = Ok db /\
    i_rows (b_info db) * i_cols (b_info db) = (if reb then smallest_square (zlen (concat files) / 10) else zlen (concat files) / 10) /\
    (reb = true -> i_rows (b_info db) = i_cols (b_info db)) /\ (reb = false -> i_rows (b_info db) = 1).
Proof.
  intros B R files reb HB HR HK. pose proof (cells_bound (zlen (concat files)) reb ltac:(lia)) as CB.
  destruct (build_bytes B R files reb HB HR CB ltac:(lia)) as (db & G & _ & DM & RC & _).
  exists db. rewrite RC, cells_tenth by lia. conj_split; auto.
  - intros ->. unfold calculate_num_rows_and_columns in DM. congruence.
  - intros ->. unfold calculate_num_rows_and_columns in DM. congruence.
Qed.
Print Assumptions C55_partial.

(** ... more generally up to 2^35 keys, and the authenticated table up to 2^34 keys whose blocks have usable fingerprints. *)
Theorem C55_large_partial :
  forall H B reb keys srv, hash_ok H -> hash_ok B -> listed keys -> 10 <= zlen keys <= 2 ^ 34 -> holds keys srv ->
  exists db, generate_real_key_bytes B (fst srv) (map Ok (snd srv)) reb = Ok db /\
    (fingerprints_ok (bucket_blocks B (i_rows (b_info db) * i_cols (b_info db)) keys) ->
     exists db', generate_real_key_merkle H B (fst srv) (map Ok (snd srv)) reb = Ok db').
Proof.
  intros H B reb keys srv HH HB HL HK HS. destruct (srv_bytes B keys srv reb HB HL ltac:(lia) HS) as (db & G & _ & _ & RC & _).
  exists db. split; auto. intros FO. rewrite RC in FO.
  destruct (srv_merkle B keys srv reb HB HL ltac:(lia) HS H HH) as (db' & t & G' & _); eauto. apply cells_small. lia.
Qed.
Print Assumptions C55_large_partial.

Example C55_example :
  generate_real_key_bytes toy_hash toy_runtime [Ok (firstn 9 demo_keys)] true = Panic "integer divide by zero" /\
  is_ok (generate_real_key_bytes toy_hash toy_runtime [Ok (firstn 10 demo_keys)] true) = true /\
  generate_real_key_merkle toy_hash zero_hash toy_runtime [Ok (map demo_key (rev (seq 0 30)))] false = Panic "index out of range" /\
  length (nodup Z.eq_dec (map fnv1a64 (bucket_blocks zero_hash 3 (map demo_key (rev (seq 0 30)))))) = 2%nat.
Proof. conj_split; vm_compute; reflexivity. Qed.

(** C56: a client of at least three honest servers, each built from its own files in its own way, that asks for any identifier
    leading to a non-empty bucket gets the packets of exactly the keys in that bucket, for all randomness and every order in
    which the answers arrive. *)
Theorem C56_lookup :
  forall H B D reb keys srvs dbs inf rnd arrive id, hash_ok B -> listed keys -> 10 <= zlen keys <= 2 ^ 35 ->
  Forall (holds keys) srvs ->
  Forall2 (fun s db => generate_real_key_bytes B (fst s) (map Ok (snd s)) reb = Ok db) srvs dbs ->
  Forall (fun db => i_bs (b_info db) < 2 ^ 32) dbs -> In inf (map (fun db => advertised (b_info db)) dbs) ->
  3 <= zlen dbs -> zlen rnd = (zlen dbs - 1) * Z.of_nat (query_bytes inf) -> arrival_ok arrive ->
  let n := i_rows inf * i_cols inf in
  (exists key, In key keys /\ position B n (k_id key) = position B n id) ->
  fetch_bucket H B D inf rnd (map (pir_answer D false) dbs) arrive id = Ok (bucket B n keys (position B n id)).
Proof.
  intros H B D reb keys srvs dbs inf rnd arrive id HB HL HK HS F BS IN N3 HR HA n (key & IK & EK).
  assert (C0 : 0 <= i_cols inf) by (apply in_map_iff in IN as (db & <- & _); unfold advertised, u32; cbn [i_cols]; apply Z.mod_pos_bound; unfold w32; lia).
  destruct (lookup_plain_block H B D reb keys srvs dbs HB HL HK HS BS inf rnd arrive id F IN HA) as (RC & z & E).
  { left. split; auto. rewrite HR. unfold query_bytes. rewrite Z2Nat.id; [reflexivity|]. pose proof (Z.div_pos (i_cols inf) 8). lia. }
  destruct (Z.eqb_spec (zlen dbs) 2); [lia|]. rewrite E. rewrite <- RC. fold n. apply unpad_bucket. apply (in_bucket_not_nil B n keys key); auto.
Qed.
Print Assumptions C56_lookup.

(** The same with two servers that evaluate DPF keys. *)
Theorem C56_lookup_two :
  forall H B D reb keys srvs dbs inf rnd arrive id, hash_ok B -> dpf_ok D -> listed keys -> 10 <= zlen keys <= 2 ^ 35 ->
  Forall (holds keys) srvs ->
  Forall2 (fun s db => generate_real_key_bytes B (fst s) (map Ok (snd s)) reb = Ok db) srvs dbs ->
  Forall (fun db => i_bs (b_info db) < 2 ^ 32) dbs -> In inf (map (fun db => advertised (b_info db)) dbs) ->
  zlen dbs = 2 -> arrival_ok arrive ->
  let n := i_rows inf * i_cols inf in
  (exists key, In key keys /\ position B n (k_id key) = position B n id) ->
  fetch_bucket H B D inf rnd (map (pir_answer D true) dbs) arrive id = Ok (bucket B n keys (position B n id)).
Proof.
  intros H B D reb keys srvs dbs inf rnd arrive id HB HD HL HK HS F BS IN N2 HA n (key & IK & EK).
  destruct (lookup_plain_block H B D reb keys srvs dbs HB HL HK HS BS inf rnd arrive id F IN HA) as (RC & z & E); [right; auto|].
  rewrite N2 in E. cbn [Z.eqb Pos.eqb] in E. rewrite E. rewrite <- RC. fold n. apply unpad_bucket. apply (in_bucket_not_nil B n keys key); auto.
Qed.
Print Assumptions C56_lookup_two.

(** The same for the authenticated tables (two servers or more). *)
Theorem C56_lookup_merkle :
  forall H B D reb keys srvs dbs inf rnd arrive id, hash_ok H -> hash_ok B -> listed keys -> 10 <= zlen keys <= 2 ^ 34 ->
  Forall (holds keys) srvs ->
  Forall2 (fun s db => generate_real_key_merkle H B (fst s) (map Ok (snd s)) reb = Ok db) srvs dbs ->
  Forall (fun db => i_bs (b_info db) < 2 ^ 32) dbs -> In inf (map (fun db => advertised (b_info db)) dbs) ->
  3 <= zlen dbs /\ zlen rnd = (zlen dbs - 1) * Z.of_nat (query_bytes inf) \/ zlen dbs = 2 /\ dpf_ok D ->
  arrival_ok arrive ->
  let n := i_rows inf * i_cols inf in
  fingerprints_ok (bucket_blocks B n keys) ->
  (exists key, In key keys /\ position B n (k_id key) = position B n id) ->
  fetch_bucket H B D inf rnd (map (pir_answer D (zlen dbs =? 2)) dbs) arrive id = Ok (bucket B n keys (position B n id)).
Proof.
  intros H B D reb keys srvs dbs inf rnd arrive id HH HB HL HK HS F BS IN HR HA n FO (key & IK & EK).
  assert (C0 : 0 <= i_cols inf) by (apply in_map_iff in IN as (db & <- & _); unfold advertised, u32; cbn [i_cols]; apply Z.mod_pos_bound; unfold w32; lia).
  pose proof (merkle_cells H B keys srvs dbs inf reb HS ltac:(lia) F IN) as RC0. fold n in RC0.
  destruct (lookup_merkle_block H B D reb keys srvs dbs HB HL ltac:(lia) HS BS inf rnd arrive id HH) as (RC & z & E); auto.
  { apply cells_small. lia. }
  { rewrite <- RC0. auto. }
  { destruct HR as [[N3 HR]|N2]; [left|right; auto]. split; auto. rewrite HR. unfold query_bytes. rewrite Z2Nat.id; [reflexivity|]. pose proof (Z.div_pos (i_cols inf) 8). lia. }
  rewrite E. rewrite <- RC0. apply unpad_bucket. apply (in_bucket_not_nil B n keys key); auto.
Qed.
Print Assumptions C56_lookup_merkle.

(** An identifier leading to an empty bucket crashes the client instead of reporting that there is no such key. *)
Theorem C56_empty_bucket_refuted :
  forall H B D reb keys srvs dbs inf rnd arrive id, hash_ok B -> listed keys -> 10 <= zlen keys <= 2 ^ 35 ->
  Forall (holds keys) srvs ->
  Forall2 (fun s db => generate_real_key_bytes B (fst s) (map Ok (snd s)) reb = Ok db) srvs dbs ->
  Forall (fun db => i_bs (b_info db) < 2 ^ 32) dbs -> In inf (map (fun db => advertised (b_info db)) dbs) ->
  3 <= zlen dbs -> zlen rnd = (zlen dbs - 1) * Z.of_nat (query_bytes inf) -> arrival_ok arrive ->
  let n := i_rows inf * i_cols inf in
  (forall key, In key keys -> position B n (k_id key) <> position B n id) ->
  is_panic (fetch_bucket H B D inf rnd (map (pir_answer D false) dbs) arrive id) = true.
Proof.
  intros H B D reb keys srvs dbs inf rnd arrive id HB HL HK HS F BS IN N3 HR HA n NO.
  assert (C0 : 0 <= i_cols inf) by (apply in_map_iff in IN as (db & <- & _); unfold advertised, u32; cbn [i_cols]; apply Z.mod_pos_bound; unfold w32; lia).
  destruct (lookup_plain_block H B D reb keys srvs dbs HB HL HK HS BS inf rnd arrive id F IN HA) as (RC & z & E).
  { left. split; auto. rewrite HR. unfold query_bytes. rewrite Z2Nat.id; [reflexivity|]. pose proof (Z.div_pos (i_cols inf) 8). lia. }
  destruct (Z.eqb_spec (zlen dbs) 2); [lia|]. rewrite E. rewrite <- RC. fold n. apply empty_bucket_panics.
  unfold in_bucket. destruct (filter _ keys) as [|k l] eqn:EF; auto. exfalso.
  assert (I : In k (filter (fun key => position B n (k_id key) =? position B n id) keys)) by (rewrite EF; left; auto).
  apply filter_In in I as [I P]. apply Z.eqb_eq in P. exact (NO k I P).
Qed.
Print Assumptions C56_empty_bucket_refuted.

Example C56_example :
  Forall2 (fun s db => generate_real_key_bytes toy_hash (fst s) (map Ok (snd s)) false = Ok db)
    [demo_server; demo_server'; demo_server] [demo_db; demo_db; demo_db] /\
  (let inf := advertised (b_info demo_db) in
   zlen [181; 90] = (3 - 1) * Z.of_nat (query_bytes inf) /\
   fetch_bucket toy_hash toy_hash toy_dpf inf [181; 90] (map (pir_answer toy_dpf false) [demo_db; demo_db; demo_db]) (@rev _) [101] =
     Ok [218; 3; 216; 3; 214; 3; 212; 3; 210; 3; 208; 3; 206; 3; 204; 3; 202; 3; 200; 3]) /\
  fetch_bucket toy_hash toy_hash toy_dpf (advertised (b_info demo_merkle)) [] (map (pir_answer toy_dpf true) [demo_merkle; demo_merkle]) (@rev _) [101] =
     Ok [218; 3; 216; 3; 214; 3; 212; 3; 210; 3; 208; 3; 206; 3; 204; 3; 202; 3; 200; 3] /\
  (let db := get_ok no_db (generate_real_key_bytes zero_hash toy_runtime [Ok demo_keys] true) in
   i_rows (b_info db) * i_cols (b_info db) = 4 /\ position zero_hash 4 [0] = 0 /\ stored db 1 = []).
Proof. conj_split; [repeat constructor; vm_compute; reflexivity|vm_compute..]; auto. Qed.

(** C57: after reading all files, an e-mail address has an entry exactly if some unrevoked key belongs to it, and the entry is
    the most recently created one (the first read among several), reduced to its primary key. *)
Theorem C57_freshest :
  forall lower contents, exists m, analyze_key_dump lower (map Ok contents) = Ok m /\ NoDup (map fst m) /\
  key_get [] m = None /\
  forall email, email <> [] ->
    (key_get email m = None <-> candidates lower (concat contents) email = []) /\
    forall e', key_get email m = Some e' <-> exists e, freshest (candidates lower (concat contents) email) e /\ e' = primary_only e.
Proof. exact analyze_ok. Qed.
Print Assumptions C57_freshest.

(** A file that cannot be read makes the whole run fail. *)
Theorem C57_unreadable :
  forall lower contents m rest, analyze_key_dump lower (map Ok contents ++ Err m :: rest) = Err m.
Proof.
  intros lower contents m rest. unfold analyze_key_dump.
  assert (E : mapM (fun f : res (list entity) => f) (map Ok contents ++ Err m :: rest) = Err m); [|rewrite E; reflexivity].
  induction contents as [|c t IH]; cbn [map mapM bind app]; [reflexivity|]. rewrite IH. reflexivity.
Qed.
Print Assumptions C57_unreadable.

(** Four keys for "bob" (one revoked, two created at the same time) and one without e-mail. *)
Definition bob (rev : nat) (created : Z) (tag : Z) : entity := mkEntity rev [66; 111; 98] [] created [[5]] [tag].
Definition bobs : list (list entity) := [[bob 0 10 1; mkEntity 0 [] [[]] 99 [] [0]]; [bob 0 20 2; bob 1 30 3; bob 0 20 4]].
Example C57_example :
  analyze_key_dump ascii_lower (map Ok bobs) = Ok [([98; 111; 98], mkEntity 0 [66; 111; 98] [] 20 [] [2])] /\
  candidates ascii_lower (concat bobs) [98; 111; 98] = [bob 0 10 1; bob 0 20 2; bob 0 20 4].
Proof. split; vm_compute; reflexivity. Qed.

(** C73: the e-mail a key is filed under does not depend on the order in which its identities are visited; it is the primary
    identity's e-mail if there is one, otherwise the bytewise smallest non-empty one, converted to lower case. *)
Theorem C73_order_independent :
  forall lower e e', e_primary e = e_primary e' -> Permutation (e_emails e) (e_emails e') ->
  primary_email lower e = primary_email lower e'.
Proof. exact primary_email_order. Qed.
Print Assumptions C73_order_independent.

Theorem C73_chosen :
  forall lower e,
  (e_primary e <> [] -> primary_email lower e = lower (e_primary e)) /\
  (e_primary e = [] -> (forall x, In x (e_emails e) -> x = []) -> primary_email lower e = lower []) /\
  (e_primary e = [] -> forall x, In x (e_emails e) -> x <> [] ->
     exists y, primary_email lower e = lower y /\ In y (e_emails e) /\ y <> [] /\
       forall z, In z (e_emails e) -> z <> [] -> string_lt z y = false).
Proof. exact primary_email_spec. Qed.
Print Assumptions C73_chosen.

(** The documented choice, the alphabetically first lower-cased e-mail, is a different one: among "Zed" and "amy" the code
    takes "zed". *)
Theorem C73_documented_refuted :
  exists e y, e_primary e = [] /\ In y (e_emails e) /\ y <> [] /\
    string_lt (ascii_lower y) (primary_email ascii_lower e) = true.
Proof.
  exists (mkEntity 0 [] [[90; 101; 100]; [97; 109; 121]] 0 [] []), [97; 109; 121]. conj_split; try reflexivity; try discriminate.
  right. left. reflexivity.
Qed.
Print Assumptions C73_documented_refuted.

Example C73_example :
  primary_email ascii_lower (mkEntity 0 [] [[99]; []; [98; 98]; [98]] 0 [] []) = [98] /\
  primary_email ascii_lower (mkEntity 0 [] [[98]; [98; 98]; [99]; []] 0 [] []) = [98] /\
  primary_email ascii_lower (mkEntity 0 [77] [[97]] 0 [] []) = [109].
Proof. conj_split; vm_compute; reflexivity. Qed.

(** C74: a lookup with a text that is not the lower-case form of anything never returns a key, whatever the servers answer. *)
Theorem C74_upper_case_refuted :
  forall H B D lower read inf rnd servers arrive id, (forall x, lower x <> id) ->
  forall e, get_key H B D lower read inf rnd servers arrive id <> Ok e.
Proof.
  intros H B D lower read inf rnd servers arrive id NL e E. unfold get_key in E.
  destruct (fetch_bucket _ _ _ _ _ _ _ _) as [blk| | |]; cbn [bind] in E; try discriminate.
  unfold recover_key_from_block in E. destruct (read blk) as [el| | |]; cbn [bind] in E; try discriminate.
  destruct (find _ el) as [x|] eqn:F; [|discriminate]. apply find_some in F as [_ F]. apply bytes_equal_spec in F. apply (NL _ F).
Qed.
Print Assumptions C74_upper_case_refuted.

(** What holds: a key that is returned is filed under exactly the text asked for. *)
Theorem C74_partial :
  forall H B D lower read inf rnd servers arrive id e,
  get_key H B D lower read inf rnd servers arrive id = Ok e -> primary_email lower e = id.
Proof.
  intros H B D lower read inf rnd servers arrive id e E. unfold get_key in E.
  destruct (fetch_bucket _ _ _ _ _ _ _ _) as [blk| | |]; cbn [bind] in E; try discriminate.
  unfold recover_key_from_block in E. destruct (read blk) as [el| | |]; cbn [bind] in E; try discriminate.
  destruct (find _ el) as [x|] eqn:F; [|discriminate]. apply find_some in F as [_ F]. apply bytes_equal_spec in F. congruence.
Qed.
Print Assumptions C74_partial.

Example C74_example :
  (forall x, ascii_lower x <> [66; 111; 98]) /\
  recover_key_from_block ascii_lower toy_read (get_ok [] (toy_serialize (bob 0 10 1))) [66; 111; 98] =
    Err "no key with the given email id is found" /\
  recover_key_from_block ascii_lower toy_read (get_ok [] (toy_serialize (bob 0 10 1))) [98; 111; 98] = Ok (bob 0 10 1).
Proof.
  split; [|split; vm_compute; reflexivity]. intros [|b x] E; cbn [ascii_lower map] in E; [discriminate|]. injection E as E _.
  destruct (Z.leb_spec 65 b), (Z.leb_spec b 90); cbn [andb] in E; lia.
Qed.

(** C75: splitting a dump into chunk files loses, repeats and reorders nothing; every chunk but the last exceeds 100 MiB, and
    no chunk exceeds it before its last key. *)
Theorem C75_chunks :
  forall keys, let chunks := split_full_dump_into_chunks keys in
  concat chunks = keys /\ chunks <> [] /\
  Forall (fun c => 104857600 < zsum (map (fun k => zlen (k_packet k) + zlen (k_id k)) c)) (removelast chunks) /\
  Forall (fun c => zsum (map (fun k => zlen (k_packet k) + zlen (k_id k)) (removelast c)) <= 104857600) chunks.
Proof.
  intros keys chunks. unfold chunks, split_full_dump_into_chunks.
  destruct (split_sizes keys [] 0) as (A & C & N); [reflexivity|cbn [removelast]; unfold chunk_bytes, hundred_mb; cbn; lia|].
  conj_split; auto. apply (split_concat keys [] 0).
Qed.
Print Assumptions C75_chunks.

(** Three keys of 60 MiB: the first two go into the first chunk. *)
Definition big_key (id : Z) : pkey := mkKey [id] (repeat 0 (Z.to_nat 62914560)).
Example C75_example : split_full_dump_into_chunks [big_key 1; big_key 2; big_key 3] = [[big_key 1; big_key 2]; [big_key 3]].
Proof.
  assert (E : forall id, zlen (k_packet (big_key id)) + zlen (k_id (big_key id)) = 62914561).
  { intros id. unfold big_key. cbn [k_packet k_id]. unfold zlen. rewrite repeat_length. cbn [length]. lia. }
  unfold split_full_dump_into_chunks. cbn [split_loop app]. rewrite !E. reflexivity.
Qed.

(** C76: from the dump to the client. The key dump is parsed, written, split into chunks, loaded by at least three servers in any
    order of the chunk files and any sorting and map iteration order; then a client asking for an e-mail address gets the
    freshest key of that address, provided it fits the size limit. *)
Theorem C76_end_to_end :
  forall H B D lower serialize read contents m entries ks reb srvs dbs inf rnd arrive email e buf,
  hash_ok B -> keyring_ok serialize read -> arrival_ok arrive ->
  analyze_key_dump lower (map Ok contents) = Ok m -> Permutation m entries ->
  write_keys_on_disk serialize entries = Ok ks -> 10 <= zlen ks <= 2 ^ 35 ->
  Forall (fun s => runtime_ok (fst s) /\ Permutation (split_full_dump_into_chunks ks) (snd s)) srvs ->
  Forall2 (fun s db => generate_real_key_bytes B (fst s) (map Ok (snd s)) reb = Ok db) srvs dbs ->
  Forall (fun db => i_bs (b_info db) < 2 ^ 32) dbs -> In inf (map (fun db => advertised (b_info db)) dbs) ->
  3 <= zlen dbs -> zlen rnd = (zlen dbs - 1) * Z.of_nat (query_bytes inf) ->
  email <> [] -> freshest (candidates lower (concat contents) email) e ->
  serialize (primary_only e) = Ok buf -> zlen buf <= 8192 ->
  get_key H B D lower read inf rnd (map (pir_answer D false) dbs) arrive email = Ok (primary_only e).
Proof.
  intros H B D lower serialize read contents m entries ks reb srvs dbs inf rnd arrive email e buf
    HB HKR HA HAn HPe HW HK HS F BS IN N3 HR NE Fr SE ZB.
  destruct (written_keys lower serialize contents m entries ks HAn HPe HW) as (ND & FW & WR & _).
  specialize (WR email e buf NE Fr SE ZB).
  destruct (some_listing toy_sort ks toy_sort_ok ND) as [HL HP]. set (keys := toy_sort ks) in *.
  assert (HS' : Forall (holds keys) srvs).
  { eapply Forall_impl; [|exact HS]. intros s [HRs Ps]. split; auto. eapply Permutation_trans; [exact HP|].
    apply concat_perm in Ps. unfold split_full_dump_into_chunks in Ps. rewrite split_concat in Ps. exact Ps. }
  assert (EZ : zlen keys = zlen ks) by (unfold zlen; rewrite (Permutation_length HP); auto).
  assert (IK : In (mkKey email buf) keys) by (eapply Permutation_in; [apply Permutation_sym; exact HP|auto]).
  unfold get_key. rewrite (C56_lookup H B D reb keys srvs dbs inf rnd arrive email); auto; [|rewrite EZ; auto|].
  2:{ exists (mkKey email buf). auto. }
  cbn [bind]. unfold bucket. change email with (k_id (mkKey email buf)) at 2.
  apply (recover_ok lower serialize read); auto.
  - apply Forall_forall. intros k Ik. apply filter_In in Ik as [Ik _]. rewrite Forall_forall in FW. apply FW. eapply Permutation_in; [exact HP|auto].
  - apply bucket_nodup. apply HL.
  - apply filter_In. split; auto. apply Z.eqb_refl.
Qed.
Print Assumptions C76_end_to_end.

(** The same for the authenticated tables (two servers or more). *)
Theorem C76_end_to_end_merkle :
  forall H B D lower serialize read contents m entries ks reb srvs dbs inf rnd arrive email e buf,
  hash_ok H -> hash_ok B -> keyring_ok serialize read -> arrival_ok arrive ->
  analyze_key_dump lower (map Ok contents) = Ok m -> Permutation m entries ->
  write_keys_on_disk serialize entries = Ok ks -> 10 <= zlen ks <= 2 ^ 34 ->
  Forall (fun s => runtime_ok (fst s) /\ Permutation (split_full_dump_into_chunks ks) (snd s)) srvs ->
  Forall2 (fun s db => generate_real_key_merkle H B (fst s) (map Ok (snd s)) reb = Ok db) srvs dbs ->
  Forall (fun db => i_bs (b_info db) < 2 ^ 32) dbs -> In inf (map (fun db => advertised (b_info db)) dbs) ->
  3 <= zlen dbs /\ zlen rnd = (zlen dbs - 1) * Z.of_nat (query_bytes inf) \/ zlen dbs = 2 /\ dpf_ok D ->
  (forall keys, listed keys -> Permutation ks keys -> fingerprints_ok (bucket_blocks B (i_rows inf * i_cols inf) keys)) ->
  email <> [] -> freshest (candidates lower (concat contents) email) e ->
  serialize (primary_only e) = Ok buf -> zlen buf <= 8192 ->
  get_key H B D lower read inf rnd (map (pir_answer D (zlen dbs =? 2)) dbs) arrive email = Ok (primary_only e).
Proof.
  intros H B D lower serialize read contents m entries ks reb srvs dbs inf rnd arrive email e buf
    HH HB HKR HA HAn HPe HW HK HS F BS IN HR FO NE Fr SE ZB.
  destruct (written_keys lower serialize contents m entries ks HAn HPe HW) as (ND & FW & WR & _).
  specialize (WR email e buf NE Fr SE ZB).
  destruct (some_listing toy_sort ks toy_sort_ok ND) as [HL HP]. set (keys := toy_sort ks) in *.
  assert (HS' : Forall (holds keys) srvs).
  { eapply Forall_impl; [|exact HS]. intros s [HRs Ps]. split; auto. eapply Permutation_trans; [exact HP|].
    apply concat_perm in Ps. unfold split_full_dump_into_chunks in Ps. rewrite split_concat in Ps. exact Ps. }
  assert (EZ : zlen keys = zlen ks) by (unfold zlen; rewrite (Permutation_length HP); auto).
  assert (IK : In (mkKey email buf) keys) by (eapply Permutation_in; [apply Permutation_sym; exact HP|auto]).
  unfold get_key. rewrite (C56_lookup_merkle H B D reb keys srvs dbs inf rnd arrive email); auto; [|rewrite EZ; auto| |].
  2:{ apply FO; auto. apply Permutation_sym. auto. }
  2:{ exists (mkKey email buf). auto. }
  cbn [bind]. unfold bucket. change email with (k_id (mkKey email buf)) at 2.
  apply (recover_ok lower serialize read); auto.
  - apply Forall_forall. intros k Ik. apply filter_In in Ik as [Ik _]. rewrite Forall_forall in FW. apply FW. eapply Permutation_in; [exact HP|auto].
  - apply bucket_nodup. apply HL.
  - apply filter_In. split; auto. apply Z.eqb_refl.
Qed.
Print Assumptions C76_end_to_end_merkle.

(** Twenty people with upper-case names, one of them with a newer key in a second file. *)
Definition demo_dump : list (list entity) :=
  [map (fun i => mkEntity 0 [65 + Z.of_nat i] [] 5 [[1]] [Z.of_nat i]) (seq 0 20); [mkEntity 0 [] [[]; [100]] 6 [] [77]]].
Definition demo_map : key_map := get_ok [] (analyze_key_dump ascii_lower (map Ok demo_dump)).
Definition demo_written : list pkey := get_ok [] (write_keys_on_disk toy_serialize (rev demo_map)).
Definition demo_built : bytes_db := get_ok no_db (generate_real_key_bytes toy_hash toy_runtime (map Ok (split_full_dump_into_chunks demo_written)) true).
Example C76_example :
  zlen demo_written = 20 /\ (i_rows (b_info demo_built), i_cols (b_info demo_built)) = (2, 2) /\
  freshest (candidates ascii_lower (concat demo_dump) [100]) (mkEntity 0 [] [[]; [100]] 6 [] [77]) /\
  get_key toy_hash toy_hash toy_dpf ascii_lower toy_read (advertised (b_info demo_built)) [9; 200]
    (map (pir_answer toy_dpf false) [demo_built; demo_built; demo_built]) (@rev _) [100] = Ok (mkEntity 0 [] [[]; [100]] 6 [] [77]) /\
  get_key toy_hash toy_hash toy_dpf ascii_lower toy_read (advertised (b_info demo_built)) [9; 200]
    (map (pir_answer toy_dpf false) [demo_built; demo_built; demo_built]) (@rev _) [101] = Ok (mkEntity 0 [69] [] 5 [] [4]).
Proof.
  conj_split; try (vm_compute; reflexivity).
  exists [mkEntity 0 [68] [] 5 [[1]] [3]], []. split; [vm_compute; reflexivity|]. split; repeat constructor.
Qed.

(** All hypotheses of C76_end_to_end hold for these servers. *)
Example C76_applies :
  get_key toy_hash toy_hash toy_dpf ascii_lower toy_read (advertised (b_info demo_built)) [9; 200]
    (map (pir_answer toy_dpf false) [demo_built; demo_built; demo_built]) (@rev _) [100] = Ok (mkEntity 0 [] [[]; [100]] 6 [] [77]).
Proof.
  pose (srv := (toy_runtime, split_full_dump_into_chunks demo_written)).
  change (mkEntity 0 [] [[]; [100]] 6 [] [77]) with (primary_only (mkEntity 0 [] [[]; [100]] 6 [] [77])).
  apply (C76_end_to_end toy_hash toy_hash toy_dpf ascii_lower toy_serialize toy_read demo_dump demo_map (rev demo_map) demo_written true
    [srv; srv; srv] [demo_built; demo_built; demo_built] (advertised (b_info demo_built)) [9; 200] (@rev _) [100]
    (mkEntity 0 [] [[]; [100]] 6 [] [77]) (get_ok [] (toy_serialize (mkEntity 0 [] [[]; [100]] 6 [] [77])))).
  - apply toy_hash_ok.
  - apply toy_keyring.
  - intros l. apply Permutation_rev.
  - vm_compute. reflexivity.
  - apply Permutation_rev.
  - vm_compute. reflexivity.
  - assert (E : zlen demo_written = 20) by (vm_compute; reflexivity). rewrite E. lia.
  - apply Forall_forall. intros s IS. assert (E : s = srv) by (cbn [In] in IS; intuition auto). subst s.
    split; [apply toy_runtime_ok|apply Permutation_refl].
  - assert (E : generate_real_key_bytes toy_hash (fst srv) (map Ok (snd srv)) true = Ok demo_built) by (vm_compute; reflexivity).
    apply Forall2_cons; [exact E|apply Forall2_cons; [exact E|apply Forall2_cons; [exact E|apply Forall2_nil]]].
  - assert (E : i_bs (b_info demo_built) < 2 ^ 32) by (vm_compute; reflexivity).
    apply Forall_forall. intros d ID. assert (Ed : d = demo_built) by (cbn [In] in ID; intuition auto). subst d. exact E.
  - left. reflexivity.
  - vm_compute. discriminate.
  - vm_compute. reflexivity.
  - discriminate.
  - apply C76_example.
  - reflexivity.
  - vm_compute. discriminate.
Qed.

(** C77: an address whose freshest key is too large is not served at all, even if an older key of it fits. *)
Theorem C77_large_key_refuted :
  forall lower serialize contents m entries ks email e buf,
  analyze_key_dump lower (map Ok contents) = Ok m -> Permutation m entries -> write_keys_on_disk serialize entries = Ok ks ->
  freshest (candidates lower (concat contents) email) e -> serialize (primary_only e) = Ok buf -> 8192 < zlen buf ->
  ~ In email (map k_id ks).
Proof.
  intros lower serialize contents m entries ks email e buf A P W Fr S Z.
  destruct (written_keys lower serialize contents m entries ks A P W) as (_ & _ & _ & NW & _). eapply NW; eauto.
Qed.
Print Assumptions C77_large_key_refuted.

(** What holds: exactly the freshest keys that fit are written, each address once. *)
Theorem C77_partial :
  forall lower serialize contents m entries ks,
  analyze_key_dump lower (map Ok contents) = Ok m -> Permutation m entries -> write_keys_on_disk serialize entries = Ok ks ->
  NoDup (map k_id ks) /\
  forall email buf, email <> [] ->
    (In (mkKey email buf) ks <-> exists e, freshest (candidates lower (concat contents) email) e /\
                                  serialize (primary_only e) = Ok buf /\ zlen buf <= 8192).
Proof.
  intros lower serialize contents m entries ks A P W.
  destruct (written_keys lower serialize contents m entries ks A P W) as (ND & _ & WR & NW & WB). split; auto.
  intros email buf NE. split.
  - intros I. destruct (WB _ I) as (e & Fr & S). cbn [k_id k_packet] in Fr, S. exists e. conj_split; auto.
    destruct (Z_le_gt_dec (zlen buf) key_size_limit) as [L|L]; [exact L|exfalso].
    apply (NW email e buf Fr S ltac:(lia)). apply in_map_iff. exists (mkKey email buf). auto.
  - intros (e & Fr & S & Z). eapply WR; eauto.
Qed.
Print Assumptions C77_partial.

(** Two keys of "bob": the small old one and a newer one of more than 8 KiB. *)
Definition fat_bob : entity := mkEntity 0 [98; 111; 98] [] 50 [] (repeat 1 (Z.to_nat 9000)).
Example C77_example :
  exists m, analyze_key_dump ascii_lower [Ok [bob 0 10 1; fat_bob]] = Ok m /\ length m = 1%nat /\
    write_keys_on_disk toy_serialize m = Ok [] /\
    (exists m' k, analyze_key_dump ascii_lower [Ok [bob 0 10 1]] = Ok m' /\ write_keys_on_disk toy_serialize m' = Ok [k] /\ k_id k = [98; 111; 98]).
Proof.
  eexists. split; [vm_compute; reflexivity|]. split; [vm_compute; reflexivity|]. split; [vm_compute; reflexivity|].
  eexists _, _. split; [vm_compute; reflexivity|]. split; vm_compute; reflexivity.
Qed.

(** C78: the database for predicate queries has one row per written key, in descending order of the addresses, and row number i
    describes the key of address number i. *)
Theorem C78_predicate_rows :
  forall lower serialize read contents m entries ks keys srv, keyring_ok serialize read ->
  analyze_key_dump lower (map Ok contents) = Ok m -> Permutation m entries -> write_keys_on_disk serialize entries = Ok ks ->
  listed keys -> Permutation ks keys -> holds ks srv ->
  exists es, generate_real_key_db read (fst srv) (map Ok (snd srv)) = Ok (zlen ks, es) /\
    map (primary_email lower) es = map k_id keys /\ mapM serialize es = Ok (map k_packet keys).
Proof.
  intros lower serialize read contents m entries ks keys srv K A P W HL HP [HR HS].
  destruct (written_keys lower serialize contents m entries ks A P W) as (_ & FW & _).
  destruct (db_rows lower serialize read keys srv K HL) as (es & G & M & S).
  - split; auto. eapply Permutation_trans; [apply Permutation_sym; exact HP|exact HS].
  - eapply Permutation_Forall; [exact HP|exact FW].
  - exists es. conj_split; auto. rewrite G. unfold zlen. rewrite (Permutation_length HP). reflexivity.
Qed.
Print Assumptions C78_predicate_rows.

(** A key block that does not hold exactly one key never becomes a row: the construction does not succeed. *)
Theorem C78_one_key_per_block :
  forall read R files n es keys k, runtime_ok R -> load_keys_from_disk files = Ok keys ->
  generate_real_key_db read R files = Ok (n, es) -> In k keys -> exists e, read (k_packet k) = Ok [e] /\ In e es.
Proof.
  intros read R files n es keys k HR L G I. unfold generate_real_key_db in G. rewrite L in G. cbn [bind] in G.
  assert (I' : In k (r_sort R keys)) by (eapply Permutation_in; [apply HR|exact I]).
  destruct (mapM _ (r_sort R keys)) as [l| | |] eqn:M; try discriminate G. cbn [bind] in G. assert (l = es) by congruence. subst l. clear G.
  revert es M. induction (r_sort R keys) as [|x t IH]; intros es M; [destruct I'|]. cbn [mapM] in M.
  unfold get_key_info_from_packet at 1 in M.
  destruct (read (k_packet x)) as [[|e [|e' l']]| | |] eqn:RX; try discriminate M. cbn [bind] in M.
  destruct (mapM _ t) as [l| | |] eqn:MT; try discriminate M. cbn [bind] in M. assert (es = e :: l) by congruence. subst es.
  destruct I' as [->|I'].
  - exists e. split; [exact RX|left; reflexivity].
  - destruct (IH I' l eq_refl) as (e0 & A & B). exists e0. split; [exact A|right; exact B].
Qed.
Print Assumptions C78_one_key_per_block.

Example C78_example :
  exists es, generate_real_key_db toy_read toy_runtime (map Ok (split_full_dump_into_chunks demo_written)) = Ok (20, es) /\
    map (primary_email ascii_lower) es = map (fun i => [97 + Z.of_nat i]) (rev (seq 0 20)).
Proof. eexists. split; vm_compute; reflexivity. Qed.
