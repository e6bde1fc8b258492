(** Property theorems C01-C05, C07-C09, C64 (codecs, padding, indices). *)
From Coq Require Import String ZArith List Bool Permutation Lia.
From Verif Require Import GoBase BaseFacts EncodingModel MatrixModel EncodingProofs.
Import ListNotations.
Open Scope Z_scope.

(** C01 *)
Theorem C01_uint32_slice_roundtrip :
  forall l, Forall is_u32 l -> bytes_to_uint32_slice (uint32_slice_to_bytes l) = l.
Proof. exact uint32_slice_roundtrip. Qed.
Print Assumptions C01_uint32_slice_roundtrip.

Theorem C01_decoding_drops_only_the_remainder :
  forall b, bytes b ->
  uint32_slice_to_bytes (bytes_to_uint32_slice b) = firstn (4 * (length b / 4)) b.
Proof. exact bytes_to_uint32_slice_prefix. Qed.
Print Assumptions C01_decoding_drops_only_the_remainder.

Example C01_example :
  Forall is_u32 [0; 1; 4294967295; 16909060] /\
  uint32_slice_to_bytes [0; 1; 4294967295; 16909060] = [0;0;0;0; 0;0;0;1; 255;255;255;255; 1;2;3;4] /\
  bytes_to_uint32_slice [0;0;0;0; 0;0;0;1; 255;255;255;255; 1;2;3;4; 9;9] = [0; 1; 4294967295; 16909060].
Proof. conj_split; [bounds|vm_compute; reflexivity|vm_compute; reflexivity]. Qed.

(** C02 *)
Theorem C02_matrix_roundtrip :
  forall m, is_u32 (m_rows m) -> is_u32 (m_cols m) -> Forall is_u32 (m_data m) ->
  bytes_to_matrix (matrix_to_bytes m) = Ok m.
Proof. exact matrix_roundtrip. Qed.
Print Assumptions C02_matrix_roundtrip.

Example C02_example :
  let m := mkM 2 3 [1; 2; 3; 4294967295; 5; 6] in
  is_u32 (m_rows m) /\ is_u32 (m_cols m) /\ Forall is_u32 (m_data m) /\
  bytes_to_matrix (matrix_to_bytes m) = Ok m.
Proof. cbv zeta. conj_split; [cbn; bounds|cbn; bounds|cbn; bounds|vm_compute; reflexivity]. Qed.

(** C03: [m0 :: ms] is an arbitrary non-empty list of equally shaped matrices; the two bounds say that
    one encoded matrix and the number of matrices fit in uint32. *)
Theorem C03_matrices_roundtrip :
  forall m0 ms,
  is_u32 (m_rows m0) -> is_u32 (m_cols m0) ->
  Forall (fun m => m_rows m = m_rows m0 /\ m_cols m = m_cols m0 /\
                   length (m_data m) = length (m_data m0)) ms ->
  Forall (fun m => Forall is_u32 (m_data m)) (m0 :: ms) ->
  is_u32 (8 + 4 * zlen (m_data m0)) -> is_u32 (zlen (m0 :: ms)) ->
  exists b, matrices_to_bytes (m0 :: ms) = Ok b /\ bytes_to_matrices b = Ok (m0 :: ms).
Proof. exact matrices_roundtrip. Qed.
Print Assumptions C03_matrices_roundtrip.

Example C03_example :
  let ms := [mkM 1 2 [7; 8]; mkM 1 2 [9; 4294967295]; mkM 1 2 [0; 1]] in
  exists b, matrices_to_bytes ms = Ok b /\ length b = 52%nat /\ bytes_to_matrices b = Ok ms.
Proof. eexists. split; [vm_compute; reflexivity|split; vm_compute; reflexivity]. Qed.

(** C04 *)
Theorem C04_matrix128_roundtrip :
  forall m, is_u32 (m_rows m) -> is_u32 (m_cols m) -> Forall is_u128 (m_data m) ->
  bytes_to_matrix128 (matrix128_to_bytes m) = Ok m.
Proof. exact matrix128_roundtrip. Qed.
Print Assumptions C04_matrix128_roundtrip.

Example C04_example :
  let m := mkM 1 2 [w128 - 1; 2 ^ 64 + 5] in
  is_u32 (m_rows m) /\ is_u32 (m_cols m) /\ Forall is_u128 (m_data m) /\
  bytes_to_matrix128 (matrix128_to_bytes m) = Ok m.
Proof. cbv zeta. conj_split; [cbn; bounds|cbn; bounds|cbn; bounds|vm_compute; reflexivity]. Qed.

(** C05: bit 8i+j of the expansion is bit 7-j of byte i; the expansion is injective. *)
Theorem C05_byte_to_bits_msb_first :
  forall l, bytes l ->
  length (byte_to_bits l) = (8 * length l)%nat /\
  forall i j, (i < length l)%nat -> (j < 8)%nat ->
    nth (8 * i + j) (byte_to_bits l) false = Z.testbit (nth i l 0) (7 - Z.of_nat j).
Proof. exact (fun l H => conj (byte_to_bits_length l) (fun i j => byte_to_bits_nth l i j H)). Qed.
Print Assumptions C05_byte_to_bits_msb_first.

Theorem C05_byte_to_bits_injective :
  forall l1 l2, bytes l1 -> bytes l2 -> byte_to_bits l1 = byte_to_bits l2 -> l1 = l2.
Proof. exact byte_to_bits_inj. Qed.
Print Assumptions C05_byte_to_bits_injective.

Example C05_example :
  bytes [161; 3] /\
  byte_to_bits [161; 3] = [true;false;true;false;false;false;false;true;
                           false;false;false;false;false;false;true;true].
Proof. split; [bounds|vm_compute; reflexivity]. Qed.

(** C07 *)
Theorem C07_pad_block_unpad :
  forall block blockLen, 0 < blockLen ->
  exists p, pad_block block blockLen = Ok p /\ unpad_block p = Ok block /\
            zlen p mod blockLen = 0 /\ zlen block < zlen p <= zlen block + blockLen + 1.
Proof.
  exact (fun block blockLen H =>
    match pad_block_ok block blockLen H with
    | ex_intro _ p (conj E (conj M (conj B _))) =>
      ex_intro _ p (conj E (conj (pad_block_unpad block blockLen p E) (conj M B)))
    end).
Qed.
Print Assumptions C07_pad_block_unpad.

Theorem C07_signal_byte_unpad :
  forall block n, unpad_block (pad_with_signal_byte block ++ repeat 0 n) = Ok block.
Proof. exact (fun block n => eq_trans (f_equal unpad_block (eq_sym (app_assoc block [128] (repeat 0 n)))) (unpad_signal block n)). Qed.
Print Assumptions C07_signal_byte_unpad.

Example C07_example :
  pad_block [5; 128; 0; 0] 4 = Ok [5; 128; 0; 0; 128; 0; 0; 0] /\
  unpad_block [5; 128; 0; 0; 128; 0; 0; 0] = Ok [5; 128; 0; 0].
Proof. split; vm_compute; reflexivity. Qed.

(** C08: the property "UnPadBlock never panics" is false; this is the exact set of panicking inputs. *)
Theorem C08_unpad_panics_exactly_on_zeros :
  forall l, is_panic (unpad_block l) = true <-> Forall (fun b => b = 0) l.
Proof. exact unpad_block_panic_iff. Qed.
Print Assumptions C08_unpad_panics_exactly_on_zeros.

Theorem C08_unpad_never_panics_refuted :
  exists l, bytes l /\ is_panic (unpad_block l) = true.
Proof. exact (ex_intro _ [] (conj (Forall_nil _) eq_refl)). Qed.
Print Assumptions C08_unpad_never_panics_refuted.

Example C08_example : is_panic (unpad_block [0; 0; 0]) = true /\ unpad_block [0; 1; 0] = Ok [0].
Proof. split; vm_compute; reflexivity. Qed.

(** C09 *)
Theorem C09_index_bijection :
  forall rows cols, 0 <= rows -> 0 < cols ->
  (forall i, 0 <= i < rows * cols -> exists r c, vector_to_matrix_indices i cols = Ok (r, c) /\
      0 <= r < rows /\ 0 <= c < cols /\ r * cols + c = i) /\
  (forall r c, 0 <= r < rows -> 0 <= c < cols ->
      0 <= r * cols + c < rows * cols /\ vector_to_matrix_indices (r * cols + c) cols = Ok (r, c)) /\
  (forall i j, 0 <= i -> 0 <= j ->
      vector_to_matrix_indices i cols = vector_to_matrix_indices j cols -> i = j).
Proof. exact vector_to_matrix_indices_bij. Qed.
Print Assumptions C09_index_bijection.

Example C09_example : vector_to_matrix_indices 17 5 = Ok (3, 2).
Proof. vm_compute; reflexivity. Qed.

(** C64 *)
Theorem C64_max_bytes_length :
  forall vals,
  (forall v, In v vals -> zlen v <= max_bytes_length vals) /\
  (vals <> [] -> exists v, In v vals /\ zlen v = max_bytes_length vals) /\
  (vals = [] -> max_bytes_length vals = 0).
Proof. exact max_bytes_length_spec. Qed.
Print Assumptions C64_max_bytes_length.

Theorem C64_order_independent :
  forall v1 v2, Permutation v1 v2 -> max_bytes_length v1 = max_bytes_length v2.
Proof. exact max_bytes_length_perm. Qed.
Print Assumptions C64_order_independent.

Example C64_example : max_bytes_length [[1;2]; []; [3;4;5]; [6]] = 3.
Proof. vm_compute; reflexivity. Qed.
