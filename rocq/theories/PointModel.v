(** Model of the point-query scheme: lib/client/pir_point.go, lib/client/client.go, lib/server/point.go, and of the
    databases it runs on (lib/database/bytes.go, lib/database/merkle.go). *)
From Coq Require Import String ZArith List Bool Arith.
From Verif Require Import GoBase EncodingModel MerkleModel.
Import ListNotations.
Open Scope Z_scope.
Open Scope go_scope.

(** lib/database/db.go:35-46 Info, the fields used by these schemes (Root and ProofLen come from the embedded *Merkle,
    which every constructor in the package sets). *)
Record info := mkInfo' {
  i_rows : Z; i_cols : Z; i_bs : Z; i_lens : list Z;
  i_type : string; i_root : list Z; i_prooflen : Z
}.
(** lib/database/bytes.go:8-11 Bytes *)
Record bytes_db := mkBytes { b_entries : list Z; b_info : info }.

(** The external two-server DPF (github.com/dkales/dpf-go): key generation for a position and a depth (with its own
    randomness), and full-domain evaluation into a bit vector. *)
Record dpf_scheme := mkDPF {
  dpf_gen : Z -> Z -> res (list Z * list Z);
  dpf_eval : list Z -> Z -> list Z
}.

(** math/bits.Len(uint(n)) on a 64-bit machine *)
Definition bits_len (n : Z) : Z := let n := u64 n in if n =? 0 then 0 else Z.log2 n + 1.

(** lib/client/client.go:90-92 invalidQueryInputsIT *)
Definition invalid_query_inputs_it (index numServers : Z) : bool := (index <? 0) && (numServers <? 2).

(** lib/client/pir_point.go:104-107: the loop filling the first servers' vectors and accumulating the last one. *)
Fixpoint share_loop (k todo : nat) (vectorLen : Z) (rand last : list Z) : res (list (list Z)) :=
  match todo with
  | O => Ok [last]
  | S t =>
    s <- go_slice rand (Z.of_nat k * vectorLen) ((Z.of_nat k + 1) * vectorLen) ;;
    let v := go_copy (repeat 0 (Z.to_nat vectorLen)) s in
    vs <- share_loop (S k) t vectorLen rand (xor_into last last v) ;;
    Ok (v :: vs)
  end.

(** lib/client/pir_point.go:80-110 secretShare. [rnd] is what the client's source of randomness returns; it is copied
    into the buffer of (numServers-1)*vectorLen bytes, as rnd.Read does. *)
Definition secret_share (nCols iy numServers : Z) (rnd : list Z) : res (list (list Z)) :=
  let vectorLen := Z.quot nCols 8 + 1 in
  vectors <- go_make tt numServers ;;
  _ <- mapM (fun _ => go_make 0 vectorLen) vectors ;;
  buf <- go_make 0 ((numServers - 1) * vectorLen) ;;
  let rand := go_copy buf rnd in
  let shift := Z.rem iy 8 in
  if shift <? 0 then Panic "negative shift amount" else
  _ <- go_index vectors (numServers - 1) ;;
  zero <- go_make 0 vectorLen ;;
  last <- go_store zero (Z.quot iy 8) (2 ^ shift mod w8) ;;
  share_loop 0 (Z.to_nat (numServers - 1)) vectorLen rand last.

(** lib/client/pir_point.go:46-68 Query: the row kept in the client state, and one query per server. *)
Definition pir_query (D : dpf_scheme) (inf : info) (rnd : list Z) (index numServers : Z) : res (Z * list (list Z)) :=
  if invalid_query_inputs_it index numServers then Fatal "invalid query inputs" else
  ij <- vector_to_matrix_indices index (i_cols inf) ;;
  let '(ix, iy) := ij in
  if numServers =? 2 then
    ks <- dpf_gen D (u64 iy) (bits_len (i_cols inf)) ;;
    Ok (ix, [fst ks; snd ks])
  else
    vs <- secret_share (i_cols inf) iy numServers rnd ;;
    Ok (ix, vs).

(** lib/client/pir_point.go:38-41 QueryBytes *)
Definition pir_query_bytes (D : dpf_scheme) (inf : info) (rnd inp : list Z) (numServers : Z) : res (Z * list (list Z)) :=
  index <- be_u32 inp ;;
  pir_query D inf rnd index numServers.

(** lib/server/point.go:82-90 xorValues, from column j and position pos on. *)
Fixpoint xor_values (entries : list Z) (lens : list Z) (q : list Z) (j pos : Z) (out : list Z) : res (list Z) :=
  match lens with
  | [] => Ok out
  | l :: t =>
    b <- go_index q (j / 8) ;;
    out' <- (if Z.testbit b (j mod 8)
             then s <- go_slice entries pos (pos + l) ;; Ok (xor_into out out s)
             else Ok out) ;;
    xor_values entries t q (j + 1) (pos + l) out'
  end.

(** lib/server/point.go:67-69: nextPos after one row *)
Fixpoint add_lens (lens : list Z) (first : Z) (todo : nat) (acc : Z) : res Z :=
  match todo with
  | O => Ok acc
  | S t => l <- go_index lens first ;; add_lens lens (first + 1) t (acc + l)
  end.

(** lib/server/point.go:66-77: the loop over the rows, from row i on. *)
Fixpoint answer_rows (db : bytes_db) (q : list Z) (i : Z) (todo : nat) (prev : Z) (out : list Z) : res (list Z) :=
  match todo with
  | O => Ok out
  | S t =>
    let nCols := i_cols (b_info db) in
    let bs := i_bs (b_info db) in
    next <- add_lens (i_lens (b_info db)) (i * nCols) (Z.to_nat nCols) prev ;;
    seg <- go_slice (b_entries db) prev next ;;
    lens <- go_slice (i_lens (b_info db)) (i * nCols) ((i + 1) * nCols) ;;
    o <- go_slice out (i * bs) ((i + 1) * bs) ;;
    o' <- xor_values seg lens q 0 0 o ;;
    answer_rows db q (i + 1) t next
      (firstn (Z.to_nat (i * bs)) out ++ o' ++ skipn (Z.to_nat ((i + 1) * bs)) out)
  end.

(** lib/server/point.go:55-79 Answer. [two] is numServers == 2: true for a server made by NewPIRTwo (38-42), false for
    one made by NewPIR (27-36). *)
Definition pir_answer (D : dpf_scheme) (two : bool) (db : bytes_db) (q : list Z) : res (list Z) :=
  let nRows := i_rows (b_info db) in
  let q := if two then dpf_eval D q (bits_len (i_cols (b_info db))) else q in
  out <- go_make 0 (nRows * i_bs (b_info db)) ;;
  answer_rows db q 0 (Z.to_nat nRows) 0 out.

(** lib/client/client.go:82-84: the loop of reconstructValuePIR *)
Fixpoint sum_answers (bs ix : Z) (answers : list (list Z)) (sum : list Z) : res (list Z) :=
  match answers with
  | [] => Ok sum
  | a :: t =>
    s <- go_slice a (ix * bs) (bs * (ix + 1)) ;;
    sum_answers bs ix t (xor_into sum sum s)
  end.

(** lib/client/client.go:78-87 reconstructValuePIR *)
Definition reconstruct_value (inf : info) (ix : Z) (answers : list (list Z)) : res (list Z) :=
  sum <- go_make 0 (i_bs inf) ;;
  sum_answers (i_bs inf) ix answers sum.

(** lib/client/client.go:49-76 reconstructPIR *)
Definition reconstruct_pir (H : hash_fn) (inf : info) (ix : Z) (answers : list (list Z)) : res (list Z) :=
  if (i_type inf =? "classical")%string || (i_type inf =? "")%string then reconstruct_value inf ix answers
  else if (i_type inf =? "merkle")%string then
    block <- reconstruct_value inf ix answers ;;
    block <- unpad_block block ;;
    data <- go_slice block 0 (zlen block - i_prooflen inf) ;;
    encoded <- go_slice block (zlen block - i_prooflen inf) (zlen block) ;;
    proof <- decode_proof encoded ;;
    match verify_proof H data proof (i_root inf) with
    | Ok true => Ok data
    | Ok false => Err "REJECT!"
    | Err m => Fatal m
    | Panic m => Panic m
    | Fatal m => Fatal m
    end
  else Panic "unknown PIRType".

(** lib/database/bytes.go:49-70 CreateRandomBytes; [rnd] is what the reader returns. *)
Definition create_random_bytes (rnd : list Z) (dbLen numRows blockLen : Z) : res bytes_db :=
  buf <- go_make 0 (Z.quot dbLen 8) ;;
  let entries := go_copy buf rnd in
  if 8 * numRows * blockLen =? 0 then Panic "integer divide by zero" else
  let numColumns := Z.quot dbLen (8 * numRows * blockLen) in
  lens <- go_make blockLen (numRows * numColumns) ;;
  Ok (mkBytes entries (mkInfo' numRows numColumns blockLen lens "" [] 0)).

(** lib/database/merkle.go:93-107 generateMerkleProofs (log.Fatalf on error), run synchronously by
    makeMerkleEntries (68-91) with its single worker on blocks[0:nRows*nColumns]. *)
Definition merkle_entry (t : mtree) (d : list Z) : res (list Z) :=
  match generate_proof t d with
  | Err m => Fatal m
  | r => p <- r ;; e <- encode_proof p ;; Ok (d ++ pad_with_signal_byte e)
  end.
Definition make_merkle_entries (blocks : list (list Z)) (t : mtree) (nRows nColumns : Z) : res (list Z) :=
  ds <- go_slice blocks 0 (nRows * nColumns) ;;
  es <- mapM (merkle_entry t) ds ;;
  Ok (concat es).

(** lib/database/merkle.go:14-66 CreateRandomMerkle; [rnd] is what the reader returns. *)
Definition create_random_merkle (H : hash_fn) (rnd : list Z) (dbLen numRows blockLen : Z) : res bytes_db :=
  if 8 * blockLen =? 0 then Panic "integer divide by zero" else
  let numBlocks := Z.quot dbLen (8 * blockLen) in
  buf <- go_make 0 (numBlocks * blockLen) ;;
  let data := go_copy buf rnd in
  _ <- go_make tt numBlocks ;;
  blocks <- mapM (fun i =>
      z <- go_make 0 blockLen ;;
      s <- go_slice data (Z.of_nat i * blockLen) ((Z.of_nat i + 1) * blockLen) ;;
      Ok (go_copy z s)) (range (Z.to_nat numBlocks)) ;;
  match new_using H blocks with
  | Err m => Fatal m
  | Panic m => Panic m
  | Fatal m => Fatal m
  | Ok tree =>
    if numRows =? 0 then Panic "integer divide by zero" else
    let numColumns := Z.quot numBlocks numRows in
    let proofLen := encoded_proof_length tree in
    let blockLen := blockLen + proofLen + 1 in
    lens <- go_make blockLen (numRows * numColumns) ;;
    entries <- make_merkle_entries blocks tree numRows numColumns ;;
    rt <- root tree ;;
    Ok (mkBytes entries (mkInfo' numRows numColumns blockLen lens "merkle" rt proofLen))
  end.
