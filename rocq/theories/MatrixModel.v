(** Model of lib/matrix/{matrix.go,matrix128.go,matrixBytes.go,matrix.c}. The 32-bit and the
    128-bit versions share definitions parameterised by the modulus [w] and the word size. *)
From Coq Require Import String ZArith List Bool.
From Verif Require Import GoBase EncodingModel.
Import ListNotations.
Open Scope Z_scope.
Open Scope go_scope.

(** lib/matrix/matrix.go:17-21, matrix128.go:17-21, matrixBytes.go:3-7. *)
Record matrix := mkM { m_rows : Z; m_cols : Z; m_data : list Z }.

(** lib/matrix/matrix.go:23-29 New, matrix128.go:23-29 New128, matrixBytes.go:9-15 NewBytes *)
Definition m_new (r c : Z) : res matrix :=
  d <- go_make 0 (r * c) ;; Ok (mkM r c d).

(** lib/matrix/matrix.go:39-48 MatrixToBytes *)
Definition matrix_to_bytes (m : matrix) : list Z :=
  be_enc 4 (u32 (m_rows m)) ++ be_enc 4 (u32 (m_cols m)) ++ uint32_slice_to_bytes (m_data m).

(** lib/matrix/matrix.go:50-62 BytesToMatrix *)
Definition bytes_to_matrix (l : list Z) : res matrix :=
  r <- go_slice l 0 4 ;;
  c <- go_slice l 4 8 ;;
  d <- go_slice l 8 (zlen l) ;;
  Ok (mkM (be_dec r) (be_dec c) (bytes_to_uint32_slice d)).

(** lib/matrix/matrix.go:64-84 MatricesToBytes, the loop of lines 76-81 over the remaining
    matrices: [i] is the loop index, [lb] = len(b). copy at an offset past the end of out
    would panic, which cannot happen since 4+lb*i <= len(out). *)
Fixpoint matrices_to_bytes_loop (m0 : matrix) (lb : nat) (i : nat) (ms : list matrix) (out : list Z)
  : res (list Z) :=
  match ms with
  | [] => Ok out
  | m :: t =>
    if negb (m_rows m0 =? m_rows m) || negb (m_cols m0 =? m_cols m)
    then Panic "dimension mismatch"
    else
      let off := (4 + lb * i)%nat in
      matrices_to_bytes_loop m0 lb (S i) t
        (firstn off out ++ go_copy (skipn off out) (matrix_to_bytes m))
  end.

(** lib/matrix/matrix.go:64-84 MatricesToBytes *)
Definition matrices_to_bytes (ms : list matrix) : res (list Z) :=
  match ms with
  | [] => Panic "index out of range"
  | m0 :: t =>
    let b := matrix_to_bytes m0 in
    let out := repeat 0 (4 + length b * length ms) in
    let out := be_enc 4 (u32 (zlen b)) ++ go_copy (skipn 4 out) b in
    matrices_to_bytes_loop m0 (length b) 1 t out
  end.

(** lib/matrix/matrix.go:86-100 BytesToMatrices. Line 91: Go division truncates towards zero and the
    count is converted to uint32. *)
Definition bytes_to_matrices (l : list Z) : res (list matrix) :=
  h <- go_slice l 0 4 ;;
  let len := be_dec h in
  if len =? 0 then Panic "integer divide by zero" else
  let n := u32 (Z.quot (zlen l - 4) len) in
  mapM (fun i => s <- go_slice l (4 + Z.of_nat i * len) (4 + (Z.of_nat i + 1) * len) ;;
                 bytes_to_matrix s)
       (range (Z.to_nat n)).

(** lib/matrix/matrix128.go:31-44 Matrix128ToBytes (uint128.PutBytes is little endian). *)
Definition matrix128_to_bytes (m : matrix) : list Z :=
  be_enc 4 (u32 (m_rows m)) ++ be_enc 4 (u32 (m_cols m)) ++ flat_map (le_enc 16) (m_data m).

(** lib/matrix/matrix128.go:46-59 BytesToMatrix128 *)
Definition bytes_to_matrix128 (l : list Z) : res matrix :=
  r <- go_slice l 0 4 ;;
  c4 <- go_slice l 4 (zlen l) ;;
  c <- be_u32 c4 ;;
  d <- go_slice l 8 (zlen l) ;;
  Ok (mkM (be_dec r) c (map le_dec (chunks 16 d))).

(** lib/matrix/matrix.go:102-115 NewRandom applied to the 4*r*c bytes [b] read from the reader.
    The unsafe cast keeps the slice header of the byte slice, so the uint32 slice has the length of the byte slice,
    4*r*c; its first r*c elements are the bytes read as native little-endian words, the rest is the memory past the
    buffer: [mem k] is the k-th word there. *)
Definition new_random_of_bytes (r c : Z) (b : list Z) (mem : nat -> Z) : matrix :=
  let inside := map le_dec (chunks 4 b) in
  mkM r c (inside ++ map (fun k => u32 (mem k)) (range (length b - length inside))).

(** lib/matrix/matrix128.go:61-75 NewRandom128 applied to the 16*r*c bytes read. *)
Definition new_random128_of_bytes (r c : Z) (b : list Z) : matrix :=
  mkM r c (map le_dec (chunks 16 b)).

(** lib/matrix/matrix.go:117-124 NewGauss: uint32 conversion of signed samples. *)
Definition new_gauss_of (r c : Z) (samples : list Z) : matrix :=
  mkM r c (map u32 samples).

(** lib/matrix/matrix128.go:77-89 NewGauss128, one element. uint128.Max.Sub64 does not underflow here. *)
Definition gauss128_word (g : Z) : Z :=
  if 0 <=? g then u64 g else (w128 - 1) - u64 (- g).

(** lib/matrix/matrix128.go:77-89 NewGauss128 *)
Definition new_gauss128_of (r c : Z) (samples : list Z) : matrix :=
  mkM r c (map gauss128_word samples).

(** lib/matrix/matrix.go:130-136 Set/Get, matrix128.go:91-97 *)
Definition m_set (m : matrix) (r c v : Z) : res matrix :=
  d <- go_store (m_data m) (m_cols m * r + c) v ;; Ok (mkM (m_rows m) (m_cols m) d).
Definition m_get (m : matrix) (r c : Z) : res Z :=
  go_index (m_data m) (m_cols m * r + c).

(** lib/matrix/matrix.c:8 (and :30) the inner statement out[bCols*i+j] += a[aCols*i+k] * b[bCols*k+j]
    and :19 (:41) out[...] += a[...] & -b[...]; [op] is the binary operation, [w] the modulus. *)
Definition c_step (w : Z) (op : Z -> Z -> Z) (aCols bCols : nat) (a b : list Z)
           (i k : nat) (out : list Z) (j : nat) : list Z :=
  upd out (bCols * i + j)
      ((nth (bCols * i + j) out 0 + op (nth (aCols * i + k) a 0) (nth (bCols * k + j) b 0)) mod w).

(** lib/matrix/matrix.c:3-12, 14-23, 25-34, 36-45: the three nested loops. *)
Definition c_loops (w : Z) (op : Z -> Z -> Z) (aRows aCols bCols : nat) (a b out : list Z) : list Z :=
  fold_left (fun out i =>
    fold_left (fun out k =>
      fold_left (c_step w op aCols bCols a b i k) (range bCols) out)
      (range aCols) out)
    (range aRows) out.

(** The product of the multiply kernels and the masked value of the binary kernels: -b is a
    negative int converted to the unsigned type of a. *)
Definition op_mul (w x y : Z) : Z := (x * y) mod w.
Definition op_and (w x y : Z) : Z := Z.land x ((- y) mod w).

(** lib/matrix/matrix.go:157, 180: &a.data[0] is handed to C; it panics on an empty slice. *)
Definition buf_raw (m : matrix) : res (list Z) :=
  if zlen (m_data m) =? 0 then Panic "index out of range" else Ok (m_data m).
(** lib/matrix/matrix128.go:112-115 (139-147) and the slice aa[:16] of 121 (152): the words are copied to a fresh buffer of
    rows*cols words, counted here in words instead of bytes. PutBytes panics when there are more words than that. *)
Definition buf_copy (m : matrix) : res (list Z) :=
  aa <- go_make 0 (m_rows m * m_cols m) ;;
  if zlen aa <? zlen (m_data m) then Panic "index out of range" else
  if zlen aa =? 0 then Panic "slice bounds out of range" else
  Ok (m_data m ++ skipn (length (m_data m)) aa).
(** What C is given for a matrix of words: the slice itself with 32 bits, a copy with 128 bits. *)
Definition buf_words (w : Z) (m : matrix) : res (list Z) := if w =? w32 then buf_raw m else buf_copy m.

(** lib/matrix/matrix.go:150-171 BinaryMul, 173-184 Mul; matrix128.go:107-132, 134-163. [buf_a] and [buf_b] say what C is
    given for a and b. The order of the panics is simplified. Reading past the end of a buffer in C is undefined behaviour,
    modelled as the distinguished panic "C out-of-bounds"; RobustModel.v says what it gives in practice. The C code computes its
    indices in 32-bit ints, which [c_loops] ignores: RobustModel.v has the loops with that arithmetic. *)
Definition m_mul_gen (w : Z) (op : Z -> Z -> Z) (buf_a buf_b : matrix -> res (list Z)) (a b : matrix) : res matrix :=
  if negb (m_cols a =? m_rows b) then Panic "Dimension mismatch" else
  out <- m_new (m_rows a) (m_cols b) ;;
  da <- buf_a a ;;
  db <- buf_b b ;;
  if zlen (m_data out) =? 0 then Panic "index out of range" else
  if (zlen da <? m_rows a * m_cols a) || (zlen db <? m_rows b * m_cols b)
  then Panic "C out-of-bounds" else
  Ok (mkM (m_rows a) (m_cols b)
          (c_loops w op (Z.to_nat (m_rows a)) (Z.to_nat (m_cols a)) (Z.to_nat (m_cols b))
                   da db (m_data out))).

(** lib/matrix/matrix.go:173-184 Mul; matrix128.go:134-163 Mul128 *)
Definition m_mul (w : Z) (a b : matrix) : res matrix := m_mul_gen w (op_mul w) (buf_words w) (buf_words w) a b.
(** lib/matrix/matrix.go:150-171 BinaryMul; matrix128.go:107-132 BinaryMul128. The right operand is a matrix of bytes, passed
    as it is in both versions (matrix.go:158, matrix128.go:122). *)
Definition m_binary_mul (w : Z) (a b : matrix) : res matrix := m_mul_gen w (op_and w) (buf_words w) buf_raw a b.

(** lib/matrix/matrix.go:191-193 / 201-203 loop: for every index of a, b[i] must exist. *)
Fixpoint zip_words (w : Z) (op : Z -> Z -> Z) (a b : list Z) : res (list Z) :=
  match a, b with
  | [], _ => Ok []
  | _ :: _, [] => Panic "index out of range"
  | x :: a', y :: b' => t <- zip_words w op a' b' ;; Ok ((op x y) mod w :: t)
  end.

Definition m_zip (w : Z) (op : Z -> Z -> Z) (a b : matrix) : res matrix :=
  if negb (m_cols a =? m_cols b) || negb (m_rows a =? m_rows b) then Panic "Dimension mismatch"
  else d <- zip_words w op (m_data a) (m_data b) ;; Ok (mkM (m_rows a) (m_cols a) d).

(** lib/matrix/matrix.go:186-194 Add; matrix128.go:165-173 *)
Definition m_add (w : Z) := m_zip w Z.add.
(** lib/matrix/matrix.go:196-204 Sub; matrix128.go:175-183 *)
Definition m_sub (w : Z) := m_zip w Z.sub.
