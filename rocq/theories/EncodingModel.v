(** Model of lib/utils/encoding.go, the index helpers of lib/utils/utils.go and the
    block padding of lib/database/pgp.go. *)
From Coq Require Import String ZArith List Bool.
From Verif Require Import GoBase.
Import ListNotations.
Open Scope Z_scope.
Open Scope go_scope.

(** lib/utils/encoding.go:8-16 Uint32SliceToByteSlice (4 bytes per element, big endian). *)
Definition uint32_slice_to_bytes (l : list Z) : list Z :=
  flat_map (be_enc 4) l.

(** lib/utils/encoding.go:18-25 ByteSliceToUint32Slice (len(in)/4 elements; a remainder is dropped). *)
Definition bytes_to_uint32_slice (l : list Z) : list Z :=
  map be_dec (chunks 4 l).

(** lib/utils/encoding.go:27-41 ByteToBits, inner loop: eight times, "no leading zero"
    means the top bit is set; then shift left as an 8-bit value. *)
Fixpoint byte_to_bits_loop (j : nat) (d : Z) : list bool :=
  match j with
  | O => []
  | S j' => (128 <=? d) :: byte_to_bits_loop j' ((2 * d) mod 256)
  end.

(** lib/utils/encoding.go:27-41 ByteToBits *)
Definition byte_to_bits (l : list Z) : list bool :=
  flat_map (byte_to_bits_loop 8) l.

(** lib/utils/utils.go:11-13 VectorToMatrixIndices. Go's / and % truncate towards zero and
    panic on a zero divisor. *)
Definition vector_to_matrix_indices (i numColumns : Z) : res (Z * Z) :=
  if numColumns =? 0 then Panic "integer divide by zero"
  else Ok (Z.quot i numColumns, Z.rem i numColumns).

(** lib/utils/utils.go:16-25 MaxBytesLength; the map is given as the list of its values in some
    iteration order. *)
Definition max_bytes_length (vals : list (list Z)) : Z :=
  fold_left (fun m v => if m <? zlen v then zlen v else m) vals 0.

(** lib/database/pgp.go:164-168 PadBlock; blockLen = 0 is a modulo by zero panic, a
    negative blockLen makes a negative slice length. *)
Definition pad_block (block : list Z) (blockLen : Z) : res (list Z) :=
  let block := block ++ [128] in
  if blockLen =? 0 then Panic "integer divide by zero" else
  zeros <- go_make 0 (blockLen - Z.rem (zlen block) blockLen) ;;
  Ok (block ++ zeros).

(** lib/database/pgp.go:170-172 PadWithSignalByte *)
Definition pad_with_signal_byte (block : list Z) : list Z := block ++ [128].

(** bytes.TrimRightFunc(block, b == 0): a rune equal to 0 is encoded only by the byte 0, and
    the byte kept last by the library is the last non-zero byte, so this strips the
    maximal suffix of zero bytes. *)
Fixpoint drop_zeros (l : list Z) : list Z :=
  match l with
  | b :: t => if b =? 0 then drop_zeros t else l
  | [] => []
  end.
Definition trim_right_zeros (l : list Z) : list Z := rev (drop_zeros (rev l)).

(** lib/database/pgp.go:174-181 UnPadBlock *)
Definition unpad_block (block : list Z) : res (list Z) :=
  let block := trim_right_zeros block in
  go_slice block 0 (zlen block - 1).
