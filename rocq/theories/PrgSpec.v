(** Specification vocabulary for the pseudo-random readers. *)
From Coq Require Import String ZArith List Bool.
From Verif Require Import GoBase PrgModel.
Import ListNotations.
Open Scope Z_scope.

(** bytes consumed by one read of n bytes *)
Definition consumed (n : nat) : nat := if (n <? 16)%nat then 16%nat else n.
(** keystream position before each read *)
Fixpoint offsets (pos : nat) (lens : list nat) : list nat :=
  match lens with [] => [] | n :: t => pos :: offsets (pos + consumed n) t end.

(** byte k of the buffered stream: the XOR of the keystream bytes at the same place of all blocks so far *)
Fixpoint xor_blocks (ks : nat -> Z) (m off : nat) : Z :=
  match m with O => ks off | S m' => Z.lxor (xor_blocks ks m' off) (ks (buf_size * m + off)%nat) end.
Definition buf_stream (ks : nat -> Z) (k : nat) : Z := xor_blocks ks (k / buf_size) (k mod buf_size).

