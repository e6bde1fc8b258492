(** Model of lib/utils/rand.go (the pseudo-random readers) and lib/utils/gauss.go. The AES-CTR keystream of a key is a
    function [ks] from positions to bytes. *)
From Coq Require Import String ZArith List Bool.
From Verif Require Import GoBase.
Import ListNotations.
Open Scope Z_scope.
Open Scope go_scope.

(** [n] keystream bytes from position [pos] *)
Definition ks_bytes (ks : nat -> Z) (pos n : nat) : list Z := map ks (seq pos n).

(** lib/utils/rand.go:101-110 PRGReader.Read into the buffer [p]; [pos] is the position in the keystream.
    XORKeyStream(p, p) XORs the keystream into what the buffer holds. *)
Definition prg_read (ks : nat -> Z) (pos : nat) (p : list Z) : list Z * nat :=
  if zlen p <? 16 then (go_copy p (ks_bytes ks pos 16), (pos + 16)%nat)
  else (xor_into p p (ks_bytes ks pos (length p)), (pos + length p)%nat).

(** A sequence of reads into the given buffers. *)
Fixpoint prg_reads (ks : nat -> Z) (pos : nat) (bufs : list (list Z)) : list (list Z) :=
  match bufs with
  | [] => []
  | p :: t => let (o, pos') := prg_read ks pos p in o :: prg_reads ks pos' t
  end.

(** bufio.Reader (Go standard library) over a PRGReader: buffer, read and write offsets, keystream position. *)
Record bufprg := mkB { bp_buf : list Z; bp_r : nat; bp_w : nat; bp_pos : nat }.
(** lib/utils/rand.go:32 bufSize and 112-117 NewBufPRG *)
Definition buf_size : nat := Z.to_nat 8192.
Definition new_bufprg : bufprg := mkB (repeat 0 buf_size) 0 0 0.

(** bufio.Reader.Read for a destination of [n] bytes, 0 < n < 8192: an empty buffer is refilled by one Read of the
    underlying reader into the whole buffer, then what is available is copied. *)
Definition bufio_read (ks : nat -> Z) (s : bufprg) (n : nat) : list Z * bufprg :=
  let s := if (bp_r s =? bp_w s)%nat then
             let (b, pos') := prg_read ks (bp_pos s) (bp_buf s) in mkB b 0 (length b) pos'
           else s in
  let k := Nat.min n (bp_w s - bp_r s) in
  (firstn k (skipn (bp_r s) (bp_buf s)), mkB (bp_buf s) (bp_r s + k) (bp_w s) (bp_pos s)).

(** lib/utils/rand.go:133-143, the loop of Uint64 (and io.ReadFull in RandInt): read until [n] bytes were obtained.
    [fuel] bounds the number of reads; n is enough since every read yields a byte. *)
Fixpoint read_full (ks : nat -> Z) (fuel : nat) (s : bufprg) (n : nat) : list Z * bufprg :=
  match fuel, n with
  | _, O => ([], s)
  | O, _ => ([], s)
  | S f, S _ => let (o, s') := bufio_read ks s n in
                let (r, s'') := read_full ks f s' (n - length o) in (o ++ r, s'')
  end.
(** lib/utils/rand.go:133-148 Uint64 *)
Definition buf_uint64 (ks : nat -> Z) (s : bufprg) : Z * bufprg :=
  let (b, s') := read_full ks 8 s 8 in (le_dec b, s').
(** lib/utils/rand.go:127-131 Int63 *)
Definition buf_int63 (ks : nat -> Z) (s : bufprg) : Z * bufprg :=
  let (u, s') := buf_uint64 ks s in (u mod 2 ^ 63, s').
(** successive calls of Uint64 *)
Fixpoint buf_uint64s (ks : nat -> Z) (s : bufprg) (n : nat) : list Z :=
  match n with O => [] | S n' => let (u, s') := buf_uint64 ks s in u :: buf_uint64s ks s' n' end.
(** successive calls of Int63 (lib/utils/rand.go:127-131) *)
Fixpoint buf_int63s (ks : nat -> Z) (s : bufprg) (n : nat) : list Z :=
  match n with O => [] | S n' => let (u, s') := buf_int63 ks s in u :: buf_int63s ks s' n' end.

(** lib/utils/gauss.go:30-49 GaussSample. [draws] are the successive (Intn, Float64) pairs, [below x y] is the test
    y < cdf_table[x]; the index is out of range for x outside 0..128. [None]: no draw accepted so far. [u] is the
    Uint64 used for the sign. *)
Fixpoint gauss_loop {Y} (below : Z -> Y -> bool) (draws : list (Z * Y)) : option (res Z) :=
  match draws with
  | [] => None
  | (x, y) :: t => if (x <? 0) || (129 <=? x) then Some (Panic "index out of range")
                   else if below x y then Some (Ok x) else gauss_loop below t
  end.
Definition gauss_sample {Y} (below : Z -> Y -> bool) (draws : list (Z * Y)) (u : Z) : option (res Z) :=
  match gauss_loop below draws with
  | Some (Ok x) => Some (Ok (if u mod 2 =? 0 then - x else x))
  | r => r
  end.
