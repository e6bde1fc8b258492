(** Run-time conventions of Go used by every model file: outcomes, checked
    indexing and slicing, unsigned words, endianness, byte-wise xor.
    This file models language and standard-library behaviour, not a file of /repo. *)
From Coq Require Import String ZArith List Bool.
Import ListNotations.
Open Scope Z_scope.

(** Outcome of a Go call: a value, a returned error, a run-time panic, or a
    process exit through log.Fatal. *)
Inductive res (A : Type) : Type :=
| Ok (a : A)
| Err (m : string)
| Panic (m : string)
| Fatal (m : string).
Arguments Ok {A} a.
Arguments Err {A} m%string.
Arguments Panic {A} m%string.
Arguments Fatal {A} m%string.

Definition bind {A B} (x : res A) (f : A -> res B) : res B :=
  match x with
  | Ok a => f a
  | Err m => Err m
  | Panic m => Panic m
  | Fatal m => Fatal m
  end.

Declare Scope go_scope.
Delimit Scope go_scope with go.
Notation "x <- e ;; k" := (bind e (fun x => k))
  (at level 100, e at next level, right associativity) : go_scope.
Open Scope go_scope.

Definition is_panic {A} (r : res A) : bool :=
  match r with Panic _ => true | _ => false end.

(** Go's map over a list with early exit on the first non-value. *)
Fixpoint mapM {A B} (f : A -> res B) (l : list A) : res (list B) :=
  match l with
  | [] => Ok []
  | a :: t => b <- f a ;; bs <- mapM f t ;; Ok (b :: bs)
  end.

(** Length as a Go int. *)
Definition zlen {A} (l : list A) : Z := Z.of_nat (length l).

(** l[i] *)
Definition go_index {A} (l : list A) (i : Z) : res A :=
  if (i <? 0) then Panic "index out of range"
  else match nth_error l (Z.to_nat i) with
       | Some a => Ok a
       | None => Panic "index out of range"
       end.

(** l[i:j] (capacity taken equal to length) *)
Definition go_slice {A} (l : list A) (i j : Z) : res (list A) :=
  if (0 <=? i) && (i <=? j) && (j <=? zlen l)
  then Ok (firstn (Z.to_nat (j - i)) (skipn (Z.to_nat i) l))
  else Panic "slice bounds out of range".

(** make([]T, n): panics for negative n *)
Definition go_make {A} (zero : A) (n : Z) : res (list A) :=
  if n <? 0 then Panic "makeslice: len out of range"
  else Ok (repeat zero (Z.to_nat n)).

(** l[i] = v *)
Fixpoint upd {A} (l : list A) (i : nat) (v : A) : list A :=
  match l, i with
  | [], _ => []
  | _ :: t, O => v :: t
  | a :: t, S k => a :: upd t k v
  end.

Definition go_store {A} (l : list A) (i : Z) (v : A) : res (list A) :=
  if (0 <=? i) && (i <? zlen l) then Ok (upd l (Z.to_nat i) v)
  else Panic "index out of range".

(** copy(dst, src) *)
Definition go_copy {A} (dst src : list A) : list A :=
  firstn (length dst) src ++ skipn (length src) dst.

(** Unsigned words. *)
Definition w8 : Z := 256.
Definition w32 : Z := 4294967296.
Definition w64 : Z := 18446744073709551616.
Definition w128 : Z := 340282366920938463463374607431768211456.
Definition u32 (x : Z) : Z := x mod w32.
Definition u64 (x : Z) : Z := x mod w64.
Definition u128 (x : Z) : Z := x mod w128.

Definition is_byte (b : Z) : Prop := 0 <= b < w8.
Definition is_u32 (b : Z) : Prop := 0 <= b < w32.
Definition is_u128 (b : Z) : Prop := 0 <= b < w128.
Definition bytes (l : list Z) : Prop := Forall is_byte l.

Definition is_byteb (b : Z) : bool := (0 <=? b) && (b <? w8).

(** encoding/binary: k-byte little/big endian. *)
Fixpoint le_enc (k : nat) (v : Z) : list Z :=
  match k with
  | O => []
  | S k' => v mod 256 :: le_enc k' (v / 256)
  end.
Fixpoint le_dec (l : list Z) : Z :=
  match l with
  | [] => 0
  | b :: t => b + 256 * le_dec t
  end.
Definition be_enc (k : nat) (v : Z) : list Z := rev (le_enc k v).
Definition be_dec (l : list Z) : Z := le_dec (rev l).

(** binary.BigEndian.Uint32 / LittleEndian.Uint32 read the first four bytes and
    panic on shorter input. *)
Definition be_u32 (l : list Z) : res Z :=
  if (length l <? 4)%nat then Panic "index out of range" else Ok (be_dec (firstn 4 l)).
Definition le_u32 (l : list Z) : res Z :=
  if (length l <? 4)%nat then Panic "index out of range" else Ok (le_dec (firstn 4 l)).

(** for i := 0; i+k <= len(in); i += k { ... in[i:i+k] ... } *)
Fixpoint chunk_fuel (fuel : nat) {A} (k : nat) (l : list A) : list (list A) :=
  match fuel with
  | O => []
  | S f => if (length l <? k)%nat then []
           else firstn k l :: chunk_fuel f k (skipn k l)
  end.
Definition chunks {A} (k : nat) (l : list A) : list (list A) :=
  chunk_fuel (length l) k l.

(** fastxor.Bytes(dst, a, b) (external): dst[i] = a[i]^b[i] for i below the minimum of the three
    lengths. *)
Fixpoint xor_into (dst a b : list Z) : list Z :=
  match dst, a, b with
  | d :: ds, x :: xs, y :: ys => Z.lxor x y :: xor_into ds xs ys
  | ds, _, _ => ds
  end.

Fixpoint zsum (l : list Z) : Z :=
  match l with [] => 0 | a :: t => a + zsum t end.

(** nat-indexed iteration helper: [0; 1; ...; n-1] *)
Definition range (n : nat) : list nat := seq 0 n.
