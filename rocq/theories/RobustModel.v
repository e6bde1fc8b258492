(** What the messages of the single-server schemes do when they are malformed, and the arithmetic of the C kernels.
    Models lib/matrix/matrix.c with the integers of C, and the reads past the end of a received slice in
    lib/matrix/matrix.go:150-171 and lib/database/elliptic.go:122-134. *)
From Coq Require Import String ZArith List Bool.
From Verif Require Import GoBase EncodingModel MatrixModel LWEModel MerkleModel DHModel.
Import ListNotations.
Open Scope Z_scope.
Open Scope go_scope.

(** C int on the 64-bit targets of the project. The conversion C.int(x) of lib/matrix/matrix.go:156, 179 and
    matrix128.go:120, 151 keeps the low 32 bits. *)
Definition c_int (x : Z) : Z := let r := x mod 2 ^ 32 in if r <? 2 ^ 31 then r else r - 2 ^ 32.
(** The result of an int operation; overflow is undefined, None. *)
Definition c_fit (x : Z) : option Z := if (- 2 ^ 31 <=? x) && (x <? 2 ^ 31) then Some x else None.
(** lib/matrix/matrix.c:8: an index such as aCols*i+k, of type int. *)
Definition c_index (stride i k : Z) : option Z :=
  match c_fit (stride * i) with Some x => c_fit (x + k) | None => None end.
(** buf[x]; outside the buffer it is undefined. *)
Definition c_read (buf : list Z) (x : Z) : option Z := if x <? 0 then None else nth_error buf (Z.to_nat x).

(** lib/matrix/matrix.c:8, 19, 30, 41: the statement in the loops. None: undefined behaviour. *)
Definition c_statement (w : Z) (op : Z -> Z -> Z) (aCols bCols : Z) (a b : list Z) (i k : nat)
    (out : option (list Z)) (j : nat) : option (list Z) :=
  match out with
  | None => None
  | Some out =>
    match c_index bCols (Z.of_nat i) (Z.of_nat j), c_index aCols (Z.of_nat i) (Z.of_nat k), c_index bCols (Z.of_nat k) (Z.of_nat j) with
    | Some o, Some x, Some y =>
      match c_read out o, c_read a x, c_read b y with
      | Some u, Some v, Some z => Some (upd out (Z.to_nat o) ((u + op v z) mod w))
      | _, _, _ => None
      end
    | _, _, _ => None
    end
  end.

(** lib/matrix/matrix.c:3-12, 14-23, 25-34, 36-45, called with the Go ints aRows, aCols, bCols. *)
Definition c_kernel (w : Z) (op : Z -> Z -> Z) (aRows aCols bCols : Z) (a b out : list Z) : option (list Z) :=
  fold_left (fun out i =>
    fold_left (fun out k =>
      fold_left (c_statement w op (c_int aCols) (c_int bCols) a b i k) (range (Z.to_nat (c_int bCols))) out)
      (range (Z.to_nat (c_int aCols))) out)
    (range (Z.to_nat (c_int aRows))) (Some out).

(** lib/matrix/matrix.go:150-171 BinaryMul when the query has fewer words than its header says: C goes on reading the memory that
    follows the slice. [mem] are the words there, up to the end of the mapped memory; reading further is a segmentation fault, which
    ends the process. *)
Definition binary_mul_mem (mem : list Z) (a b : matrix) : res matrix :=
  let missing := Z.to_nat (m_rows a * m_cols a - zlen (m_data a)) in
  if negb (zlen (m_data a) =? 0) && (m_cols a =? m_rows b) && negb (m_rows a * m_cols b =? 0) && (length mem <? missing)%nat
  then Fatal "segmentation fault"
  else m_binary_mul w32 (mkM (m_rows a) (m_cols a) (if zlen (m_data a) =? 0 then [] else m_data a ++ firstn missing mem)) b.
(** lib/server/lwe.go:21-30 AnswerBytes with the memory behind the decoded query. *)
Definition lwe_answer_mem (mem : list Z) (db : matrix) (q : list Z) : res (list Z) :=
  m <- bytes_to_matrix q ;; a <- binary_mul_mem mem m db ;; Ok (matrix_to_bytes a).

(** lib/database/elliptic.go:122-134 UnmarshalGroupElements on a slice of length [n] whose array holds [arr], as long as its capacity:
    q[i:i+elementSize] may reach past the length, up to the capacity. [i] is the position. *)
Fixpoint unmarshal_cap (g : group) (fuel : nat) (arr : list Z) (n i : Z) : res (list (g_elt g)) :=
  match fuel with
  | O => Ok []
  | S f =>
    if i <? n then
      s <- go_slice arr i (i + g_size g) ;;
      match g_dec g s with
      | None => Err "unmarshal"
      | Some e => r <- unmarshal_cap g f arr n (i + g_size g) ;; Ok (e :: r)
      end
    else Ok []
  end.
Definition unmarshal_group_elements_cap (g : group) (q spare : list Z) : res (list (g_elt g)) :=
  if g_size g =? 0 then Panic "integer divide by zero" else
  unmarshal_cap g (S (length q)) (q ++ spare) (zlen q) 0.
(** lib/server/dh.go:19-58 AnswerBytes on a query slice with [spare] bytes between its length and its capacity. *)
Definition dh_answer_cap (g : group) (db : elliptic) (q spare : list Z) : res (list Z) :=
  query <- unmarshal_group_elements_cap g q spare ;;
  let n := if e_rows db <? 1 then e_rows db else 1 in
  chunks <- mapM (fun i => process_rows g db query (worker_rows (e_rows db) n (Z.of_nat i)))
                 (range (Z.to_nat n)) ;;
  Ok (marshal_group_elements g (concat chunks)).
(** lib/client/dh.go:72-108 ReconstructBytes when [spare] bytes lie between the length and the capacity of SubDigests
    (lib/database/elliptic.go:48-55 appends to a slice made with 32 bytes of capacity per row, which append may enlarge):
    the expression SubDigests[i*digSize:(i+1)*digSize] of line 90 is bounded by the capacity. *)
Definition with_spare (info : elliptic) (spare : list Z) : elliptic :=
  mkEl (e_entries info) (e_cols info) (e_rows info) (e_digest info) (e_sub info ++ spare).
(** [dh_session] with that slice. *)
Definition dh_session_spare (g : group) (H : hash_fn) (info : elliptic) (spare : list Z) (server : list Z -> res (list Z))
    (r t index : Z) : res Z :=
  _ <- dh_new H info ;;
  sq <- dh_query g info r t index ;;
  let '(st, q) := sq in
  a <- server q ;;
  dh_reconstruct g (with_spare info spare) st a.
