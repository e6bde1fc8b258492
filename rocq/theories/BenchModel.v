(** Model of the single-server benchmark, simulations/simul.go, and of its results, simulations/types.go. Logging, profiling, garbage
    collection, sleeping and the measured times are left out. Sizes are integers; the code stores them as float64, which is exact below 2^53.
    The preprocessing benchmark it also starts is in MultiModel.v. *)
From Coq Require Import String ZArith List Bool.
From Verif Require Import GoBase MatrixModel LWEModel MerkleModel DHModel MultiModel SimulModel.
Import ListNotations.
Open Scope Z_scope.
Open Scope go_scope.

(** simulations/types.go:9-13 Chunk, with types.go:3-7 Block: the size of the digest and, of the single block, the sizes of the query and
    of the answer. No bandwidth is recorded by the preprocessing benchmark (a nil block). *)
Record chunk := mkChunk { ch_digest : Z; ch_bandwidth : option (Z * Z) }.

(** math/rand.Intn(n) where the generator draws [v] *)
Definition go_intn (n v : Z) : res Z := if n <=? 0 then Panic "invalid argument to Intn" else Ok (v mod n).
(** if err != nil { log.Fatal(err) } *)
Definition or_fatal {A} (r : res A) : res A := match r with Err m => Fatal m | x => x end.

(** lib/matrix/matrix.go:206-208 BytesSize, matrix128.go:185-187 *)
Definition bytes_size32 (m : matrix) : Z := m_rows m * m_cols m * 4.
Definition bytes_size128 (m : matrix) : Z := m_rows m * m_cols m * 16.

(** What is drawn in one repetition: the two coordinates, what the client draws for each query it makes, and the index and the two scalars
    of the Diffie-Hellman client. *)
Record rep_draw := mkRep { rd_i : Z; rd_j : Z; rd_coins : nat -> lwe_coins; rd_index : Z; rd_r : Z; rd_t : Z }.

(** lib/database/lwe.go:27-61 CreateRandomBinaryLWEWithLength; lib/database/lwe128.go:24-60 CreateRandomBinaryLWEWithLength128. [rnd n] is what the random source gives for n bytes,
    [abytes] what the public seed expands to, [dmem] the memory behind that buffer (see [new_random_of_bytes]). Result: matrix, digest. *)
Definition create_lwe32 (rnd : nat -> list Z) (abytes : list Z) (dmem : nat -> Z) (dbLen : Z) : res (matrix * matrix) :=
  let '(rows, cols) := calculate_num_rows_and_columns dbLen true in
  m <- create_random_binary (rnd (Z.to_nat (Z.quot (rows * cols) 8 + 1))) rows cols ;;
  dg <- lwe_digest w32 (new_random_of_bytes 1100 rows abytes dmem) m ;;
  Ok (m, dg).
Definition create_lwe128 (rnd : nat -> list Z) (abytes : list Z) (dbLen : Z) : res (matrix * matrix) :=
  let '(rows, cols) := calculate_num_rows_and_columns dbLen true in
  m <- create_random_binary (rnd (Z.to_nat (Z.quot (rows * cols) 8 + 1))) rows cols ;;
  dg <- lwe_digest w128 (new_random128_of_bytes 4800 rows abytes) m ;;
  Ok (m, dg).

(** simul.go:263-274: one retrieval of pirLWE. Result: queries, answers, the value, which is dropped. *)
Definition lwe_once (p : lwe_params) (abytes : list Z) (db dg : matrix) (tECC : nat) (d : rep_draw) : res (list matrix * list matrix * Z) :=
  ii <- go_intn (m_rows db) (rd_i d) ;;
  jj <- go_intn (m_cols db) (rd_j d) ;;
  sqs <- amplify_query p abytes dg (map (rd_coins d) (range (repetitions tECC))) ii jj ;;
  ans <- amplify_answer db (map snd sqs) ;;
  v <- or_fatal (amplify_reconstruct p (map fst sqs) ans) ;;
  Ok (map snd sqs, ans, v).
(** simul.go:256-283: one repetition of pirLWE *)
Definition lwe_chunk (p : lwe_params) (abytes : list Z) (db dg : matrix) (tECC : nat) (d : rep_draw) : res chunk :=
  r <- lwe_once p abytes db dg tECC d ;;
  let '(qs, ans, _) := r in
  q0 <- go_index qs 0 ;;
  a0 <- go_index ans 0 ;;
  Ok (mkChunk (bytes_size32 dg) (Some (bytes_size32 q0 * zlen qs, zlen ans * bytes_size32 a0))).
(** simul.go:248-286 pirLWE *)
Definition pir_lwe (abytes : list Z) (db dg : matrix) (nRepeat : Z) (tECC : nat) (draws : nat -> rep_draw) : res (list chunk) :=
  z <- go_make tt nRepeat ;;
  mapM (fun j => lwe_chunk (params_32 (m_rows db) (m_cols db)) abytes db dg tECC (draws j)) (range (length z)).

(** simul.go:221-232 and 213-242: the same for pirLWE128 *)
Definition lwe128_once (p : lwe_params) (abytes : list Z) (db dg : matrix) (d : rep_draw) : res (matrix * matrix * Z) :=
  ii <- go_intn (m_rows db) (rd_i d) ;;
  jj <- go_intn (m_cols db) (rd_j d) ;;
  sq <- lwe_query_coins128 p abytes dg (rd_coins d 0%nat) ii jj ;;
  a <- lwe_answer w128 db (snd sq) ;;
  v <- or_fatal (lwe_reconstruct128 p (fst sq) a) ;;
  Ok (snd sq, a, v).
Definition lwe128_chunk (p : lwe_params) (abytes : list Z) (db dg : matrix) (d : rep_draw) : res chunk :=
  r <- lwe128_once p abytes db dg d ;;
  let '(q, a, _) := r in
  Ok (mkChunk (bytes_size128 dg) (Some (bytes_size128 q, bytes_size128 a))).
(** simul.go:205-245 pirLWE128 *)
Definition pir_lwe128 (abytes : list Z) (db dg : matrix) (nRepeat : Z) (draws : nat -> rep_draw) : res (list chunk) :=
  z <- go_make tt nRepeat ;;
  mapM (fun j => lwe128_chunk (params_128 (m_rows db) (m_cols db)) abytes db dg (draws j)) (range (length z)).

(** simul.go:304-330: one retrieval of pirElliptic. Result: query, answer, the value, which is dropped. *)
Definition dh_once (g : group) (db : elliptic) (d : rep_draw) : res (list Z * list Z * Z) :=
  index <- go_intn (e_rows db * e_cols db) (rd_index d) ;;
  sq <- or_fatal (dh_query g db (rd_r d) (rd_t d) index) ;;
  a <- or_fatal (dh_answer g db (snd sq)) ;;
  v <- or_fatal (dh_reconstruct g db (fst sq) a) ;;
  Ok (snd sq, a, v).
(** simul.go:296-338: one repetition of pirElliptic *)
Definition dh_chunk (g : group) (db : elliptic) (d : rep_draw) : res chunk :=
  r <- dh_once g db d ;;
  let '(q, a, _) := r in
  Ok (mkChunk (zlen (e_sub db) + zlen (e_digest db)) (Some (zlen q, zlen a))).
(** simul.go:288-340 pirElliptic *)
Definition pir_elliptic (g : group) (H : hash_fn) (db : elliptic) (nRepeat : Z) (draws : nat -> rep_draw) : res (list chunk) :=
  z <- go_make tt nRepeat ;;
  _ <- dh_new H db ;;
  mapM (fun j => dh_chunk g db (draws j)) (range (length z)).

(** preprocessing.go:14-74 RandomMerkleDB, the chunks it returns *)
Definition pir_merkle (H : hash_fn) (rnd : nat -> list Z) (dbLen nRows blockLen nRepeat : Z) : res (list chunk) :=
  z <- go_make tt nRepeat ;;
  let numBytes := Z.to_nat (Z.quot dbLen (8 * blockLen) * blockLen) in
  ts <- random_merkle_db H (rnd numBytes) dbLen nRows blockLen (length z) ;;
  Ok (map (fun _ => mkChunk 0 None) ts).

(** Where the machine enters: cores, the group and the hashes (external), the expansion of the public seed for a number of bytes, the
    memory behind the digest's matrix. *)
Record bench_env := mkEnv {
  be_group : group;
  be_blake2 : hash_fn;
  be_blake3 : hash_fn;
  be_ncpu : Z;
  be_abytes : nat -> list Z;
  be_dmem : nat -> Z }.
(** What is drawn for one database length: random bytes, schedule of the digest workers, repetitions. *)
Record bench_input := mkIn { bi_rnd : nat -> list Z; bi_sched : list par_event; bi_draws : nat -> rep_draw }.
(** simul.go:28-47: the parameters that are used *)
Record bench_config := mkCfg { bc_lengths : list Z; bc_repetitions : Z; bc_primitive : string; bc_rows : Z; bc_block : Z }.

(** simul.go:382-387 validSimulation *)
Definition valid_simulation (cfg : bench_config) : bool :=
  existsb (String.eqb (bc_primitive cfg)) ["cmp-vpir-dh"; "cmp-vpir-lwe"; "cmp-vpir-lwe-128"; "preprocessing"]%string.

(** simul.go:109-173: one database length. None: the digest workers have not finished; Ok None: the length is skipped. *)
Definition bench_length (env : bench_env) (cfg : bench_config) (inp : bench_input) (dl : Z) : option (res (option (list chunk))) :=
  let reps := bc_repetitions cfg in
  let prim := bc_primitive cfg in
  if (prim =? "cmp-vpir-dh")%string && (dl =? 2 ^ 33) then Some (Ok None) else
  if (prim =? "cmp-vpir-dh")%string then
    match create_random_elliptic (be_group env) (be_blake2 env) (be_ncpu env) (bi_rnd inp) (bi_sched inp) dl true with
    | None => None
    | Some db => Some (db <- db ;; r <- pir_elliptic (be_group env) (be_blake2 env) db reps (bi_draws inp) ;; Ok (Some r))
    end
  else Some (
  if (prim =? "cmp-vpir-lwe")%string then
    let abytes := be_abytes env (Z.to_nat (4 * 1100 * fst (calculate_num_rows_and_columns dl true))) in
    db <- create_lwe32 (bi_rnd inp) abytes (be_dmem env) dl ;;
    match t_ecc dl with
    | None => Panic "tECC not defined for this db length"
    | Some rep => r <- pir_lwe abytes (fst db) (snd db) reps rep (bi_draws inp) ;; Ok (Some r)
    end
  else if (prim =? "cmp-vpir-lwe-128")%string then
    let abytes := be_abytes env (Z.to_nat (16 * 4800 * fst (calculate_num_rows_and_columns dl true))) in
    db <- create_lwe128 (bi_rnd inp) abytes dl ;;
    r <- pir_lwe128 abytes (fst db) (snd db) reps (bi_draws inp) ;; Ok (Some r)
  else if (prim =? "preprocessing")%string then
    r <- pir_merkle (be_blake3 env) (bi_rnd inp) dl (prep_rows dl (bc_rows cfg)) (bc_block cfg) reps ;; Ok (Some r)
  else Fatal "unknown primitive type").

(** experiment.Results[dbLen] = results (simul.go:174): a map from lengths to chunks *)
Definition results_set (m : list (Z * list chunk)) (dl : Z) (r : list chunk) : list (Z * list chunk) :=
  filter (fun e => negb (fst e =? dl)) m ++ [(dl, r)].

(** simul.go:109-178: the loop over the lengths; [k] is the position in the list. *)
Fixpoint bench_loop (env : bench_env) (cfg : bench_config) (inputs : nat -> bench_input) (k : nat) (lens : list Z)
    (m : list (Z * list chunk)) : option (res (list (Z * list chunk))) :=
  match lens with
  | [] => Some (Ok m)
  | dl :: lens' =>
    match bench_length env cfg (inputs k) dl with
    | None => None
    | Some (Ok None) => bench_loop env cfg inputs (S k) lens' m
    | Some (Ok (Some r)) => bench_loop env cfg inputs (S k) lens' (results_set m dl r)
    | Some (Err e) => Some (Err e)
    | Some (Panic e) => Some (Panic e)
    | Some (Fatal e) => Some (Fatal e)
    end
  end.
(** simul.go:49-203 main, from the parsed configuration to the results it writes, in JSON, to results/<Name>.json (simul.go:180-188; file
    system errors are left out). *)
Definition bench (env : bench_env) (cfg : bench_config) (inputs : nat -> bench_input) : option (res (list (Z * list chunk))) :=
  if negb (valid_simulation cfg) then Some (Fatal "invalid simulation") else bench_loop env cfg inputs 0 (bc_lengths cfg) [].
