(** Model of the key directory: lib/pgp/pgp.go (parsing of key dumps, storage and recovery of keys), data/main.go
    (splitting into chunk files), lib/database/pgp.go and lib/database/db.go (hash table of keys, databases), and of the
    lookup done by the clients (cmd/grpc/client/main.go, cmd/grpc/client/manager/mod.go). Strings and packets are lists
    of bytes. *)
From Coq Require Import String ZArith List Bool Arith.
From Verif Require Import GoBase EncodingModel MerkleModel PointModel LWEModel.
Import ListNotations.
Open Scope Z_scope.
Open Scope go_scope.

(** Go's comparison a < b of strings: lexicographic on bytes. *)
Fixpoint string_lt (a b : list Z) : bool :=
  match a, b with
  | _, [] => false
  | [], _ :: _ => true
  | x :: a', y :: b' => (x <? y) || ((x =? y) && string_lt a' b')
  end.

(** openpgp.Entity, the parts the code reads: the number of revocations, the e-mail of the primary identity, the e-mails
    of all identities in the order a range over the map of identities visits them, the creation time of the primary key,
    the subkeys and everything else. *)
Record entity := mkEntity {
  e_revocations : nat; e_primary : list Z; e_emails : list (list Z); e_created : Z;
  e_subkeys : list (list Z); e_rest : list Z
}.

(** lib/pgp/pgp.go:238-242, the search through the identities *)
Definition pick_email (email candidate : list Z) : list Z :=
  if negb (bytes_equal candidate []) && (bytes_equal email [] || string_lt candidate email) then candidate else email.
(** lib/pgp/pgp.go:233-245 PrimaryEmail; [lower] is strings.ToLower. *)
Definition primary_email (lower : list Z -> list Z) (e : entity) : list Z :=
  let email := e_primary e in
  lower (if bytes_equal email [] then fold_left pick_email (e_emails e) email else email).

(** Go map[string]*openpgp.Entity as an association list without repeated keys. *)
Definition key_map := list (list Z * entity).
Fixpoint key_get (k : list Z) (m : key_map) : option entity :=
  match m with
  | [] => None
  | (k', e) :: t => if bytes_equal k k' then Some e else key_get k t
  end.
Fixpoint key_set (k : list Z) (e : entity) (m : key_map) : key_map :=
  match m with
  | [] => [(k, e)]
  | (k', e') :: t => if bytes_equal k k' then (k, e) :: t else (k', e') :: key_set k e t
  end.

(** lib/pgp/pgp.go:64-94 saveKeyIfValid. Clearing the subkeys of an entity that is then not kept is not observable. *)
Definition save_key_if_valid (lower : list Z -> list Z) (m : key_map) (e : entity) : key_map :=
  if (0 <? e_revocations e)%nat then m else
  let email := primary_email lower e in
  if bytes_equal email [] then m else
  let e := mkEntity (e_revocations e) (e_primary e) (e_emails e) (e_created e) [] (e_rest e) in
  match key_get email m with
  | None => key_set email e m
  | Some prev => if e_created prev <? e_created e then key_set email e m else m
  end.

(** lib/pgp/pgp.go:37-61 AnalyzeKeyDump; a file is what openpgp.ReadKeyRing makes of it. *)
Definition analyze_key_dump (lower : list Z -> list Z) (files : list (res (list entity))) : res key_map :=
  els <- mapM (fun f => f) files ;;
  Ok (fold_left (save_key_if_valid lower) (concat els) []).

(** lib/pgp/pgp.go:31-35 Key *)
Record pkey := mkKey { k_id : list Z; k_packet : list Z }.

(** lib/pgp/pgp.go:24-25 keySizeLimit *)
Definition key_size_limit : Z := 8192.

(** lib/pgp/pgp.go:96-129 WriteKeysOnDisk: the keys written, in order. [entries] is the map in the order the range visits
    it, [serialize] is Entity.Serialize. *)
Fixpoint write_keys_on_disk (serialize : entity -> res (list Z)) (entries : key_map) : res (list pkey) :=
  match entries with
  | [] => Ok []
  | (email, e) :: t =>
    buf <- serialize e ;;
    if key_size_limit <? zlen buf then write_keys_on_disk serialize t
    else ks <- write_keys_on_disk serialize t ;; Ok (mkKey email buf :: ks)
  end.

(** data/main.go:17 *)
Definition hundred_mb : Z := 104857600.
(** data/main.go:91-126, the loop of splitFullDumpIntoChunks: [cur] is the chunk being written, [written] counts its
    bytes. *)
Fixpoint split_loop (keys : list pkey) (cur : list pkey) (written : Z) : list (list pkey) :=
  match keys with
  | [] => if hundred_mb <? written then [cur; []] else [cur]
  | k :: t =>
    if hundred_mb <? written then cur :: split_loop t [k] (zlen (k_packet k) + zlen (k_id k))
    else split_loop t (cur ++ [k]) (written + (zlen (k_packet k) + zlen (k_id k)))
  end.
(** data/main.go:78-134 splitFullDumpIntoChunks: the contents of the chunk files in the order of their numbers (the gob
    encoding and the file system are not modelled). *)
Definition split_full_dump_into_chunks (keys : list pkey) : list (list pkey) := split_loop keys [] 0.

(** lib/pgp/pgp.go:169-193 LoadKeysFromDisk; a file is what decoding it gives. *)
Definition load_keys_from_disk (files : list (res (list pkey))) : res (list pkey) :=
  ls <- mapM (fun f => f) files ;;
  Ok (concat ls).

(** lib/database/db.go:162-165 HashToIndex; [B] is blake2b.Sum256. *)
Definition hash_to_index (B : hash_fn) (id : list Z) (length : Z) : res Z :=
  h <- go_slice (B id) 0 4 ;;
  x <- be_u32 h ;;
  if u32 length =? 0 then Panic "integer divide by zero" else Ok (x mod u32 length).

(** Go map[int][]byte as an association list without repeated keys: db[k] = append(db[k], p...). *)
Definition table := list (Z * list Z).
Fixpoint bucket_append (k : Z) (p : list Z) (m : table) : table :=
  match m with
  | [] => [(k, p)]
  | (k', v) :: t => if k =? k' then (k, v ++ p) :: t else (k', v) :: bucket_append k p t
  end.
(** lib/database/pgp.go:149-160 makeHashTable *)
Fixpoint make_hash_table (B : hash_fn) (keys : list pkey) (tableLen : Z) (m : table) : res table :=
  match keys with
  | [] => Ok m
  | key :: t =>
    h <- hash_to_index B (k_id key) tableLen ;;
    make_hash_table B t tableLen (bucket_append h (k_packet key) m)
  end.

(** What the Go runtime leaves open: the order sort.Slice produces (lib/database/pgp.go:183-187 sortById) and the orders
    in which the two range loops over the hash table visit it. *)
Record runtime := mkRuntime {
  r_sort : list pkey -> list pkey;
  r_order : table -> table;
  r_order' : table -> table
}.

(** Rounding of an integer to the 24 significant bits of a float32, ties to even. *)
Definition round24 (m : Z) : Z :=
  let s := Z.log2 m - 23 in
  if s <=? 0 then m else
  let q := m / 2 ^ s in
  let r := m mod 2 ^ s in
  let half := 2 ^ (s - 1) in
  (if (half <? r) || ((half =? r) && Z.odd q) then q + 1 else q) * 2 ^ s.
(** lib/database/pgp.go:15,65,104: int(float32(n) * float32(0.1)); the float32 nearest to 0.1 is 13421773/2^27. *)
Definition pre_square_num_blocks (n : Z) : Z := round24 (round24 n * 13421773) / 2 ^ 27.

(** lib/database/pgp.go:77-81 and 109-113: blocks[k] = PadWithSignalByte(v) for the pairs of the table *)
Fixpoint store_blocks (entries : table) (blocks : list (list Z)) : res (list (list Z)) :=
  match entries with
  | [] => Ok blocks
  | (k, v) :: t => blocks' <- go_store blocks k (pad_with_signal_byte v) ;; store_blocks t blocks'
  end.

(** lib/database/pgp.go:53-90 GenerateRealKeyBytes *)
Definition generate_real_key_bytes (B : hash_fn) (R : runtime) (files : list (res (list pkey))) (rebalanced : bool)
  : res bytes_db :=
  keys <- load_keys_from_disk files ;;
  let keys := r_sort R keys in
  let '(numRows, numColumns) := calculate_num_rows_and_columns (pre_square_num_blocks (zlen keys)) rebalanced in
  ht <- make_hash_table B keys (numRows * numColumns) [] ;;
  let blockLen := max_bytes_length (map snd (r_order R ht)) + 1 in
  _ <- go_make 0 (numRows * numColumns) ;;
  blocks <- go_make [] (numRows * numColumns) ;;
  blocks <- store_blocks (r_order' R ht) blocks ;;
  Ok (mkBytes (concat blocks) (mkInfo' numRows numColumns blockLen (map zlen blocks) "" [] 0)).

(** lib/database/pgp.go:122-130: the maximal block length *)
Definition max_block_len (lens : list Z) : Z := fold_left (fun m l => if m <? l then l else m) lens 0.

(** lib/database/pgp.go:92-147 GenerateRealKeyMerkle *)
Definition generate_real_key_merkle (H B : hash_fn) (R : runtime) (files : list (res (list pkey))) (rebalanced : bool)
  : res bytes_db :=
  keys <- load_keys_from_disk files ;;
  let keys := r_sort R keys in
  let '(numRows, numColumns) := calculate_num_rows_and_columns (pre_square_num_blocks (zlen keys)) rebalanced in
  ht <- make_hash_table B keys (numRows * numColumns) [] ;;
  blocks <- go_make [] (numRows * numColumns) ;;
  blocks <- store_blocks (r_order' R ht) blocks ;;
  tree <- new_using H blocks ;;
  let proofLen := encoded_proof_length tree in
  let lens := map (fun b => zlen b + proofLen + 1) blocks in
  entries <- make_merkle_entries blocks tree numRows numColumns ;;
  rt <- root tree ;;
  Ok (mkBytes entries (mkInfo' numRows numColumns (max_block_len lens) lens "merkle" rt proofLen)).

(** lib/database/pgp.go:201-225 GetKeyInfoFromPacket; [read] is openpgp.ReadKeyRing. The fields copied into a KeyInfo are
    those of the single entity, which is returned as a whole. *)
Definition get_key_info_from_packet (read : list Z -> res (list entity)) (pkt : list Z) : res entity :=
  el <- read pkt ;;
  match el with
  | [e] => Ok e
  | _ => Err "more than one openpgp entity in a key block"
  end.
(** lib/database/pgp.go:17-51 GenerateRealKeyDB: NumColumns and KeysInfo. *)
Definition generate_real_key_db (read : list Z -> res (list entity)) (R : runtime) (files : list (res (list pkey)))
  : res (Z * list entity) :=
  keys <- load_keys_from_disk files ;;
  let keys := r_sort R keys in
  infos <- mapM (fun k => match get_key_info_from_packet read (k_packet k) with
                          | Err m => Fatal m
                          | r => r
                          end) keys ;;
  Ok (zlen keys, infos).

(** lib/pgp/pgp.go:249-264 RecoverKeyFromBlock *)
Definition recover_key_from_block (lower : list Z -> list Z) (read : list Z -> res (list entity))
  (block email : list Z) : res entity :=
  el <- read block ;;
  match find (fun e => bytes_equal (primary_email lower e) email) el with
  | Some e => Ok e
  | None => Err "no key with the given email id is found"
  end.

(** cmd/grpc/server/main.go:239-254 DatabaseInfo, then cmd/grpc/client/manager/mod.go:252-258 getDBInfo (and
    cmd/grpc/client/main.go:383-389 dbInfo): what a client learns about a database. *)
Definition advertised (inf : info) : info :=
  mkInfo' (u32 (i_rows inf)) (u32 (i_cols inf)) (u32 (i_bs inf)) [] (i_type inf) (i_root inf) (u32 (i_prooflen inf)).

(** cmd/grpc/client/manager/mod.go:96-111 and cmd/grpc/client/main.go:394-419: query number j goes to server number j (in
    the order in which the servers are visited); the answers are collected in the order given by [arrive]. A failing
    server terminates the client. *)
Fixpoint ask (servers : list (list Z -> res (list Z))) (queries : list (list Z)) : res (list (list Z)) :=
  match servers, queries with
  | [], _ => Ok []
  | _ :: _, [] => Panic "index out of range"
  | s :: ss, q :: qs =>
    match s q with
    | Ok a => t <- ask ss qs ;; Ok (a :: t)
    | _ => Fatal "could not query"
    end
  end.

(** cmd/grpc/client/manager/mod.go:71-121 and cmd/grpc/client/main.go:278-312: from the identifier to the contents of its
    bucket. *)
Definition fetch_bucket (H B : hash_fn) (D : dpf_scheme) (inf : info) (rnd : list Z)
  (servers : list (list Z -> res (list Z))) (arrive : list (list Z) -> list (list Z)) (id : list Z) : res (list Z) :=
  hashKey <- hash_to_index B id (i_rows inf * i_cols inf) ;;
  q <- pir_query_bytes D inf rnd (be_enc 4 (u32 hashKey)) (zlen servers) ;;
  let '(ix, queries) := q in
  answers <- ask servers queries ;;
  result <- reconstruct_pir H inf ix (arrive answers) ;;
  unpad_block result.

(** cmd/grpc/client/manager/mod.go:71-142 GetKey and cmd/grpc/client/main.go:278-340 retrieveKeyGivenId, up to the armoring
    of the key found. *)
Definition get_key (H B : hash_fn) (D : dpf_scheme) (lower : list Z -> list Z) (read : list Z -> res (list entity))
  (inf : info) (rnd : list Z) (servers : list (list Z -> res (list Z))) (arrive : list (list Z) -> list (list Z))
  (id : list Z) : res entity :=
  result <- fetch_bucket H B D inf rnd servers arrive id ;;
  recover_key_from_block lower read result id.
