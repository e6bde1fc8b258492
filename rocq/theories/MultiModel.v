(** Model of the multi-server benchmark: simulations/multi/server/server.go, simulations/multi/client/client.go; of the
    random key records it uses (lib/database/db.go, lib/utils/utils.go); and of the Merkle preprocessing benchmark
    (simulations/preprocessing.go). Logging, timing and garbage collection are left out; what is logged is in the results. *)
From Coq Require Import String Ascii ZArith List Bool.
From Verif Require Import GoBase EncodingModel MerkleModel PrgModel PointModel LWEModel DirectoryModel FieldModel FSSModel PredicateModel FrontendModel.
Import ListNotations.
Open Scope Z_scope.
Open Scope go_scope.

(** ** Point-query server *)

(** simulations/multi/server/server.go:36-42: the flags *)
Record sflags := mkSF { s_scheme : string; s_elem : Z; s_len : Z; s_rows : Z; s_block : Z; s_servers : Z }.

(** server.go:92-101. Simplification: numbers of blocks are not negative (the square root of a negative number is NaN) and
    at most 2^52, where the float64 computations give the same (C113). *)
Definition multi_rows (f : sflags) : res Z :=
  if (String.length (s_scheme f) <? 3)%nat then Panic "slice bounds out of range" else
  numBlocks <- (if (String.substring 0 3 (s_scheme f) =? "cmp")%string then Ok (s_len f)
                else if s_elem f * s_block f =? 0 then Panic "integer divide by zero"
                else Ok (Z.quot (s_len f) (s_elem f * s_block f))) ;;
  Ok (if negb (s_rows f =? 1) then Z.sqrt (increase_to_next_square numBlocks) else s_rows f).

(** server.go:87-90: the generator with the fixed key, whose key stream is [ks]; the database constructors read from it once,
    into a fresh buffer (lib/utils/rand.go, see PrgModel.v). *)
Definition first_read (ks : nat -> Z) (n : Z) : list Z := fst (prg_read ks 0 (repeat 0 (Z.to_nat n))).

(** lib/database/merkle.go:15-18: number of bytes CreateRandomMerkle asks for *)
Definition merkle_bytes (f : sflags) : Z := Z.quot (s_len f) (8 * s_block f) * s_block f.

(** server.go:103-119 (the point-query schemes) *)
Definition multi_db (H : hash_fn) (ks : nat -> Z) (f : sflags) : res bytes_db :=
  rows <- multi_rows f ;;
  if (s_scheme f =? "pir-classic")%string then
    create_random_bytes (first_read ks (Z.quot (s_len f) 8)) (s_len f) rows (s_block f)
  else if (s_scheme f =? "pir-merkle")%string then
    create_random_merkle H (first_read ks (merkle_bytes f)) (s_len f) rows (s_block f)
  else Fatal "unknow scheme".

(** server.go:124-133 and 218-230 Query: NewPIRTwo for two servers, NewPIR otherwise. A handler that panics or fails gives no answer. *)
Definition multi_serve (D : dpf_scheme) (f : sflags) (db : bytes_db) (q : list Z) : option (list Z) :=
  match pir_answer D (s_servers f =? 2) db q with Ok a => Some a | _ => None end.

(** ** Point-query client *)

(** client.go:252-271 connectToServers: the first numServers addresses, in a map *)
Definition multi_connect (addrs : list (list Z)) (numServers : Z) : res (list (list Z)) :=
  l <- go_slice addrs 0 numServers ;; Ok (connections l).

(** client.go:282-344 retrieveDBInfo, dbInfo, equalDBInfo; the servers' responses in order of arrival, each carrying [advertised]
    of the server's information (server.go:196-216) *)
Definition multi_db_info (rs : list (option info)) : res info :=
  infos <- collect rs ;;
  x <- (match infos with [] => Panic "index out of range" | x :: _ => Ok x end) ;;
  if forallb (fun y => (i_rows x =? i_rows y) && (i_cols x =? i_cols y) && (i_bs x =? i_bs y)) infos then Ok x
  else Fatal "got different database info from servers".

(** client.go:361-364 bitsToBlocks: the ceiling of the float64 quotient. Simplification: exact ceiling; for
    0 <= numBits < 2^53 and a positive divisor the rounded quotient has the same ceiling, because it cannot cross an integer (C113). *)
Definition bits_to_blocks (blockSize elemSize numBits : Z) : Z := - ((- numBits) / (blockSize * elemSize)).

(** client.go:222-244: one block. [order] is the iteration order of the connection map in runQueries (366-391), [arrive] the order in
    which the answers come out of the channel, [rnd] what the client draws. Result: bytes sent, and the block. *)
Definition multi_block {C} (D : dpf_scheme) (H : hash_fn) (inf : info) (serve : C -> list Z -> option (list Z))
           (rnd : list Z) (order : list C) (arrive : list (list Z) -> list (list Z)) (index : Z) : res (Z * list Z) :=
  q <- pir_query_bytes D inf rnd (be_enc 4 (u32 index)) (zlen order) ;;
  let '(ix, queries) := q in
  answers <- send_all serve order queries 0 ;;
  match reconstruct_pir H inf ix (arrive answers) with
  | Ok b => Ok (zsum (map zlen queries), b)
  | Err m => Fatal m
  | Panic m => Panic m
  | Fatal m => Fatal m
  end.

(** What happens during query number i of repetition j. *)
Record happening C := mkHap { h_rnd : list Z; h_order : list C; h_arrive : list (list Z) -> list (list Z) }.
Arguments mkHap {C}. Arguments h_rnd {C}. Arguments h_order {C}. Arguments h_arrive {C}.

(** client.go:221-244: the loop over the blocks of one repetition, from block i on *)
Fixpoint multi_blocks {C} (D : dpf_scheme) (H : hash_fn) (inf : info) (serve : C -> list Z -> option (list Z))
           (hap : nat -> happening C) (start : Z) (i todo : nat) : res (list (Z * list Z)) :=
  match todo with
  | O => Ok []
  | S t =>
    b <- multi_block D H inf serve (h_rnd (hap i)) (h_order (hap i)) (h_arrive (hap i)) (start + Z.of_nat i) ;;
    bs <- multi_blocks D H inf serve hap start (S i) t ;;
    Ok (b :: bs)
  end.

(** client.go:206-250 retrievePointPIR: per repetition, the bandwidth logged (line 248) and the blocks (which the program drops).
    [pick n] is rand.Intn(n), which panics unless n is positive. *)
Definition retrieve_point {C} (D : dpf_scheme) (H : hash_fn) (inf : info) (serve : C -> list Z -> option (list Z))
           (hap : nat -> nat -> happening C) (pick : Z -> Z) (elemBitSize bitsToRetrieve : Z) (repetitions : nat)
  : res (list (Z * list (list Z))) :=
  let numTotalBlocks := i_rows inf * i_cols inf in
  let numRetrieveBlocks := bits_to_blocks (i_bs inf) elemBitSize bitsToRetrieve in
  if numTotalBlocks - numRetrieveBlocks <=? 0 then Panic "invalid argument to Intn" else
  let startIndex := pick (numTotalBlocks - numRetrieveBlocks) in
  mapM (fun j => l <- multi_blocks D H inf serve (hap j) startIndex 0 (Z.to_nat numRetrieveBlocks) ;;
                 Ok (zsum (map fst l), map snd l)) (range repetitions).

(** client.go:137-145 exec and 124-128 of main, for the point-query schemes; [rs] are the responses to the information requests. *)
Definition multi_exec (D : dpf_scheme) (H : hash_fn) (addrs : list (list Z)) (numServers : Z) (rs : list (option info))
           (serve : list Z -> list Z -> option (list Z)) (hap : nat -> nat -> happening (list Z)) (pick : Z -> Z)
           (elemBitSize bitsToRetrieve : Z) (repetitions : nat) : res (list (Z * list (list Z))) :=
  _ <- multi_connect addrs numServers ;;
  inf <- multi_db_info rs ;;
  retrieve_point D H inf serve hap pick elemBitSize bitsToRetrieve repetitions.

(** ** Predicate queries *)

(** lib/utils/utils.go:49-57 Ranstring; [draw] are the results of rand.Intn(36). A negative length panics. *)
Definition letters : list Z := lit "abcdefghijklmnopqrstuvwxyz0123456789".
Definition ranstring (draw : nat -> Z) (n : Z) : res (list Z) :=
  z <- go_make 0 n ;;
  mapM (fun i => go_index letters (draw i)) (range (length z)).

(** lib/database/db.go:123-158 CreateRandomKeysDB and lib/utils/utils.go:40-47 Randate: the fixed seed makes the draws a function
    of the key number: [d_sec] is rand.Int63n(delta), [d_algo] rand.Intn(5), [d_text] the draws of Ranstring(32). [zone] is the
    server's time zone, in minutes, as time.Unix gives local times. packet.NewUserId accepts every such text. *)
Record draws := mkDraws { d_sec : Z; d_algo : Z; d_text : nat -> Z }.
Definition random_key (zone : option Z) (d : draws) : res key_info :=
  let min := t_sec (date_utc 2000 1 0) in
  pka <- go_index [1; 16; 17; 18; 19] (d_algo d) ;;
  text <- ranstring (d_text d) 32 ;;
  Ok (mkKI text (mkTime (d_sec d + min) 0 zone) pka).
Definition create_random_keys_db (zone : option Z) (dr : nat -> draws) (n : Z) : res (list key_info) :=
  z <- go_make tt n ;;
  mapM (fun i => random_key zone (dr i)) (range (length z)).

(** client.go:159-204 retrieveComplexPIR: one repetition *)
Definition multi_complex {C} (enc : cipher) (executions : nat) (alphas : list Z) (r : gen_rand)
           (serve : C -> qinfo * fss_key -> option (list Z)) (order : list C)
           (arrive : list (list Z) -> list (list Z)) (inputSize : Z) (draw : nat -> Z) : res Z :=
  text <- ranstring draw inputSize ;;
  match exchange enc executions alphas r serve order arrive (zlen order)
          (mkInfo target_userid inputSize 0 false false false) (byte_to_bits text) with
  | Err m => Fatal m
  | x => x
  end.

(** ** Merkle preprocessing *)

(** simulations/simul.go:109-125: number of rows the driver passes on; it is derived from the number of bits. Same
    simplification as in [multi_rows]. *)
Definition prep_rows (dbLen nRows : Z) : Z :=
  if negb (nRows =? 1) then Z.sqrt (increase_to_next_square dbLen) else nRows.

(** simulations/preprocessing.go:76-91 generateMerkleProofs. The capacity of the result is not modelled; a negative one panics. *)
Definition prep_proofs (data : list (list Z)) (t : mtree) (blockLen : Z) : res (list Z) :=
  _ <- go_make tt (if blockLen * zlen data <? 0 then -1 else 0) ;;
  es <- mapM (merkle_entry t) data ;;
  Ok (concat es).

(** preprocessing.go:38-72: the repetitions. blockLen is overwritten by each of them. Result: the (dropped) tables. *)
Fixpoint prep_loop (H : hash_fn) (blocks : list (list Z)) (numBlocks numRows blockLen : Z) (todo : nat) : res (list (list Z)) :=
  match todo with
  | O => Ok []
  | S k =>
    match new_using H blocks with
    | Err m => Fatal m
    | Panic m => Panic m
    | Fatal m => Fatal m
    | Ok tree =>
      if numRows =? 0 then Panic "integer divide by zero" else
      let numColumns := Z.quot numBlocks numRows in
      let proofLen := encoded_proof_length tree in
      let blockLen := blockLen + proofLen + 1 in
      _ <- go_make blockLen (numRows * numColumns) ;;
      out <- prep_proofs blocks tree blockLen ;;
      outs <- prep_loop H blocks numBlocks numRows blockLen k ;;
      Ok (out :: outs)
    end
  end.

(** preprocessing.go:14-74 RandomMerkleDB; [rnd] is what the reader returns. *)
Definition random_merkle_db (H : hash_fn) (rnd : list Z) (dbLen numRows blockLen : Z) (nRepeat : nat) : res (list (list Z)) :=
  if 8 * blockLen =? 0 then Panic "integer divide by zero" else
  let numBlocks := Z.quot dbLen (8 * blockLen) in
  buf <- go_make 0 (numBlocks * blockLen) ;;
  let data := go_copy buf rnd in
  _ <- go_make tt numBlocks ;;
  blocks <- mapM (fun i =>
      z <- go_make 0 blockLen ;;
      s <- go_slice data (Z.of_nat i * blockLen) ((Z.of_nat i + 1) * blockLen) ;;
      Ok (go_copy z s)) (range (Z.to_nat numBlocks)) ;;
  prep_loop H blocks numBlocks numRows blockLen nRepeat.
