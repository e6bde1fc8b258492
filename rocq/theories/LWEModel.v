(** Model of the lattice based single-server scheme: lib/client/{lwe.go,lwe128.go,amplify.go},
    lib/server/{lwe.go,lwe128.go,amplify.go}, lib/database/{lwe.go,lwe128.go}, lib/utils/{lwe.go,utils.go},
    lib/ecc/ecc.go. As in MatrixModel.v the 32-bit and 128-bit versions share the definitions that differ only by
    the modulus [w]. *)
From Coq Require Import String ZArith List Bool.
From Verif Require Import GoBase EncodingModel MatrixModel PointModel.
Import ListNotations.
Open Scope Z_scope.
Open Scope go_scope.

(** lib/utils/lwe.go:65-68 computeB; sigma is the constant 6.4, so int(math.Ceil(sigma)) = 7. *)
Definition compute_B (rows : Z) : Z := u32 (rows * 12 * 7).

(** lib/utils/lwe.go:11-22 ParamsLWE, the fields used by the protocol. *)
Record lwe_params := mkP { lp_n : Z; lp_l : Z; lp_m : Z; lp_b : Z }.
(** lib/utils/lwe.go:34-41 ParamsWithDatabaseSize and 24-32 ParamsDefault *)
Definition params_32 (rows columns : Z) : lwe_params := mkP 1100 rows columns (compute_B rows).
(** lib/utils/lwe.go:56-63 ParamsWithDatabaseSize128 and 48-54 ParamsDefault128 *)
Definition params_128 (rows columns : Z) : lwe_params := mkP 4800 rows columns (compute_B rows).

(** lib/client/lwe.go:22-30 StateLWE, lwe128.go:23-31. *)
Record lwe_state := mkS { s_digest : matrix; s_secret : matrix; s_i : Z; s_j : Z; s_t : Z }.

(** lib/client/lwe.go:39-66 Query, lwe128.go:40-67. [A] is the matrix expanded from the seed, [rand] the 1x1 random
    matrix whose element is t, [secret] the 1xN random matrix, [e] the 1xL noise matrix. *)
Definition lwe_query (w : Z) (p : lwe_params) (digest A rand secret e : matrix) (i j : Z) : res (lwe_state * matrix) :=
  t <- m_get rand 0 0 ;;
  let st := mkS digest secret i j t in
  query <- m_mul w secret A ;;
  msg <- m_new 1 (lp_l p) ;;
  msg <- m_set msg 0 i t ;;
  query <- m_add w query e ;;
  query <- m_add w query msg ;;
  Ok (st, query).

(** lib/client/lwe.go:97-99 inRange: unsigned 32-bit negation of B. *)
Definition in_range32 (B val : Z) : bool := (val <? B) || (u32 (- B) <? val).
(** lib/client/lwe128.go:98-102 inRange: B + 1 is computed on 32 bits; uint128.Max.Sub cannot underflow here. *)
Definition in_range128 (B val : Z) : bool := (val <? B) || ((w128 - 1) - u32 (B + 1) <? val).

(** lib/client/lwe.go:79-88 (lwe128.go:80-89) the loop filling outs. [in_range] is the acceptance test. *)
Fixpoint lwe_outs (w : Z) (in_range : Z -> bool) (t : Z) (answers : matrix) (i : nat) (n : nat) : res (list Z) :=
  match n with
  | O => Ok []
  | S n' =>
    v <- m_get answers 0 (Z.of_nat i) ;;
    o <- (if in_range v then Ok 0 else if in_range ((v - t) mod w) then Ok 1 else Err "REJECT") ;;
    r <- lwe_outs w in_range t answers (S i) n' ;;
    Ok (o :: r)
  end.

(** lib/client/lwe.go:74-91 Reconstruct, lwe128.go:75-92 *)
Definition lwe_reconstruct (w : Z) (in_range : Z -> bool) (p : lwe_params) (st : lwe_state) (answers : matrix) : res Z :=
  sd <- m_mul w (s_secret st) (s_digest st) ;;
  answers <- m_sub w answers sd ;;
  _ <- go_make 0 (lp_m p) ;;
  outs <- lwe_outs w in_range (s_t st) answers 0 (Z.to_nat (lp_m p)) ;;
  go_index outs (s_j st).
Definition lwe_reconstruct32 (p : lwe_params) := lwe_reconstruct w32 (in_range32 (lp_b p)) p.
Definition lwe_reconstruct128 (p : lwe_params) := lwe_reconstruct w128 (in_range128 (lp_b p)) p.

(** lib/client/lwe.go:93-95 ReconstructBytes; lwe128.go:94-96 *)
Definition lwe_reconstruct_bytes32 (p : lwe_params) (st : lwe_state) (a : list Z) : res Z :=
  m <- bytes_to_matrix a ;; lwe_reconstruct32 p st m.
Definition lwe_reconstruct_bytes128 (p : lwe_params) (st : lwe_state) (a : list Z) : res Z :=
  m <- bytes_to_matrix128 a ;; lwe_reconstruct128 p st m.

(** lib/server/lwe.go:28-30 Answer, lwe128.go:28-30 *)
Definition lwe_answer (w : Z) (db : matrix) (q : matrix) : res matrix := m_binary_mul w q db.
(** lib/server/lwe.go:21-24 AnswerBytes, lwe128.go:21-24 *)
Definition lwe_answer_bytes32 (db : matrix) (q : list Z) : res (list Z) :=
  m <- bytes_to_matrix q ;; a <- lwe_answer w32 db m ;; Ok (matrix_to_bytes a).
Definition lwe_answer_bytes128 (db : matrix) (q : list Z) : res (list Z) :=
  m <- bytes_to_matrix128 q ;; a <- lwe_answer w128 db m ;; Ok (matrix128_to_bytes a).

(** lib/database/lwe.go:18-25 Digest, lwe128.go:14-21. [A] is the matrix expanded from the seed. *)
Definition lwe_digest (w : Z) (A db : matrix) : res matrix := m_binary_mul w A db.

(** lib/database/lwe.go:41-47, lwe128.go:37-43: loop over the elements; data[i/8] >> (i%8) & 1, always below 2. *)
Fixpoint binary_fill (data : list Z) (i : nat) (n : nat) : res (list Z) :=
  match n with
  | O => Ok []
  | S n' =>
    b <- go_index data (Z.of_nat i / 8) ;;
    let val := Z.land (Z.shiftr b (Z.of_nat i mod 8)) 1 in
    r <- binary_fill data (S i) n' ;;
    Ok (val :: r)
  end.
(** lib/database/lwe.go:32-47 CreateRandomBinaryLWE, the matrix; lwe128.go:28-43. [rnd] is what the reader returns for
    numRows*numColumns/8+1 bytes. *)
Definition create_random_binary (rnd : list Z) (numRows numColumns : Z) : res matrix :=
  m <- m_new numRows numColumns ;;
  buf <- go_make 0 (Z.quot (numRows * numColumns) 8 + 1) ;;
  let data := go_copy buf rnd in
  d <- binary_fill data 0 (length (m_data m)) ;;
  Ok (mkM numRows numColumns d).

(** lib/utils/utils.go:30-36 IncreaseToNextSquare. math.Sqrt and math.Modf on float64 are modelled exactly; the
    rounding of float64 makes no difference up to 2^52 (C113). *)
Definition increase_to_next_square (num : Z) : Z :=
  let i := Z.sqrt num in
  if i * i =? num then num else (i + 1) * (i + 1).
(** lib/database/db.go:167-177 CalculateNumRowsAndColumns *)
Definition calculate_num_rows_and_columns (numBlocks : Z) (matrix : bool) : Z * Z :=
  if matrix then
    let numBlocks := increase_to_next_square numBlocks in
    (Z.sqrt numBlocks, Z.sqrt numBlocks)
  else (1, numBlocks).

(** lib/ecc/ecc.go:14-21 Encode *)
Definition ecc_encode (t : nat) (x : Z) : list Z := repeat x (2 * t + 1).
(** lib/ecc/ecc.go:24-47 Decode. The variable votes (lines 26-33) is never read and is left out. *)
Definition ecc_decode (l : list Z) : res Z :=
  decoded <- go_index l 0 ;;
  let count := Z.of_nat (length (filter (Z.eqb decoded) l)) in
  if Z.quot (zlen l) 2 <? count then Ok decoded else Err "impossible to find a decoded word".

(** lib/client/amplify.go:48-57: every repetition must be accepted. *)
Fixpoint amplify_outputs (p : lwe_params) (sts : list lwe_state) (answers : list matrix) (i : nat) : res (list Z) :=
  match sts with
  | [] => Ok []
  | st :: sts' =>
    a <- go_index answers (Z.of_nat i) ;;
    match lwe_reconstruct32 p st a with
    | Ok o => r <- amplify_outputs p sts' answers (S i) ;; Ok (o :: r)
    | Err _ => Err "REJECT"
    | Panic m => Panic m
    | Fatal m => Fatal m
    end
  end.
(** lib/client/amplify.go:46-61 Reconstruct *)
Definition amplify_reconstruct (p : lwe_params) (sts : list lwe_state) (answers : list matrix) : res Z :=
  outputs <- amplify_outputs p sts answers 0 ;;
  ecc_decode outputs.
(** lib/client/amplify.go:63-65 ReconstructBytes *)
Definition amplify_reconstruct_bytes (p : lwe_params) (sts : list lwe_state) (answers : list Z) : res Z :=
  ms <- bytes_to_matrices answers ;; amplify_reconstruct p sts ms.
(** lib/server/amplify.go:22-29 Answer *)
Definition amplify_answer (db : matrix) (qs : list matrix) : res (list matrix) := mapM (fun q => m_binary_mul w32 q db) qs.
(** lib/server/amplify.go:31-36 AnswerBytes *)
Definition amplify_answer_bytes (db : matrix) (qs : list Z) : res (list Z) :=
  ms <- bytes_to_matrices qs ;; ans <- amplify_answer db ms ;; matrices_to_bytes ans.

(** What the client draws for one query: the bytes for the scaling scalar and for the secret, the Gaussian samples, and
    what happens to follow the three random buffers in memory (see [new_random_of_bytes]; unused with 128 bits). *)
Record lwe_coins := mkC {
  c_t : list Z; c_secret : list Z; c_noise : list Z;
  c_tmem : nat -> Z; c_smem : nat -> Z; c_amem : nat -> Z
}.

(** lib/client/lwe.go:39-57: the matrices drawn by Query. [abytes] are the bytes the PRG yields for the public seed. *)
Definition lwe_query_coins32 (p : lwe_params) (abytes : list Z) (digest : matrix) (c : lwe_coins) (i j : Z) : res (lwe_state * matrix) :=
  lwe_query w32 p digest (new_random_of_bytes (lp_n p) (lp_l p) abytes (c_amem c))
    (new_random_of_bytes 1 1 (c_t c) (c_tmem c)) (new_random_of_bytes 1 (lp_n p) (c_secret c) (c_smem c))
    (new_gauss_of 1 (lp_l p) (c_noise c)) i j.
(** lib/client/lwe128.go:40-58 *)
Definition lwe_query_coins128 (p : lwe_params) (abytes : list Z) (digest : matrix) (c : lwe_coins) (i j : Z) : res (lwe_state * matrix) :=
  lwe_query w128 p digest (new_random128_of_bytes (lp_n p) (lp_l p) abytes)
    (new_random128_of_bytes 1 1 (c_t c)) (new_random128_of_bytes 1 (lp_n p) (c_secret c))
    (new_gauss128_of 1 (lp_l p) (c_noise c)) i j.

(** lib/client/lwe.go:68-72 QueryBytes (lwe128.go:69-73) is the split of the index and the encoding below.
    One retrieval as in lwe_test.go:28-38 and lwe128_test.go:27-37: QueryBytes, the server's answer to the bytes,
    ReconstructBytes. The digest was computed by the database (lib/database/lwe.go:18-25) from its own expansion of the
    public seed, with its own memory [dmem] behind the buffer. [server] is any function of the query bytes. *)
Definition lwe_session32 (p : lwe_params) (abytes : list Z) (dmem : nat -> Z) (db : matrix) (c : lwe_coins)
    (server : list Z -> res (list Z)) (index : Z) : res Z :=
  digest <- lwe_digest w32 (new_random_of_bytes (lp_n p) (lp_l p) abytes dmem) db ;;
  ij <- vector_to_matrix_indices index (lp_m p) ;;
  sq <- lwe_query_coins32 p abytes digest c (fst ij) (snd ij) ;;
  a <- server (matrix_to_bytes (snd sq)) ;;
  lwe_reconstruct_bytes32 p (fst sq) a.
Definition lwe_session128 (p : lwe_params) (abytes : list Z) (db : matrix) (c : lwe_coins)
    (server : list Z -> res (list Z)) (index : Z) : res Z :=
  digest <- lwe_digest w128 (new_random128_of_bytes (lp_n p) (lp_l p) abytes) db ;;
  ij <- vector_to_matrix_indices index (lp_m p) ;;
  sq <- lwe_query_coins128 p abytes digest c (fst ij) (snd ij) ;;
  a <- server (matrix128_to_bytes (snd sq)) ;;
  lwe_reconstruct_bytes128 p (fst sq) a.

(** lib/client/amplify.go:31-37 Query: one independent query per repetition. *)
Definition amplify_query (p : lwe_params) (abytes : list Z) (digest : matrix) (cs : list lwe_coins) (i j : Z) : res (list (lwe_state * matrix)) :=
  mapM (fun c => lwe_query_coins32 p abytes digest c i j) cs.
(** One amplified retrieval, amplify_test.go:31-41 with lib/client/amplify.go:39-45 QueryBytes; [cs] has one element per
    repetition. *)
Definition amplify_session (p : lwe_params) (abytes : list Z) (dmem : nat -> Z) (db : matrix) (cs : list lwe_coins)
    (server : list Z -> res (list Z)) (index : Z) : res Z :=
  digest <- lwe_digest w32 (new_random_of_bytes (lp_n p) (lp_l p) abytes dmem) db ;;
  ij <- vector_to_matrix_indices index (lp_m p) ;;
  sqs <- amplify_query p abytes digest cs (fst ij) (snd ij) ;;
  q <- matrices_to_bytes (map snd sqs) ;;
  a <- server q ;;
  amplify_reconstruct_bytes p (map fst sqs) a.
