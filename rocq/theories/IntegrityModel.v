(** Model of scripts/integrity_amplification.py: the number of repetitions of the amplified lattice scheme for a target error.
    Simplification: exact arithmetic instead of floating-point numbers; sigma is exactly 32/5. *)
From Coq Require Import ZArith List Bool.
Import ListNotations.
Open Scope Z_scope.

(** integrity_amplification.py:6 *)
Definition script_sizes : list Z := [2 ^ 13; 2 ^ 23; 2 ^ 33].
(** integrity_amplification.py:3-4 and 10-11: the square root of size * 128 times 32/5, rounded up *)
Definition script_bound (size : Z) : Z := Z.sqrt_up ((1024 * (size * 128) + 24) / 25).
(** integrity_amplification.py:13-15 and 20: epsilon = (2B - 1) / (q - 4B + 1), and epsilon^(t+1) <= 2^-level. Simplification: for a positive
    denominator *)
Definition script_meets (bound level : Z) (t : nat) : bool :=
  (2 * bound - 1) ^ Z.of_nat (t + 1) * 2 ^ level <=? (2 ^ 32 - 4 * bound + 1) ^ Z.of_nat (t + 1).
(** integrity_amplification.py:19-22 and 26-29: the first t of range(1, top), if any *)
Definition script_tolerance (level : Z) (top : nat) (size : Z) : option nat := find (script_meets (script_bound size) level) (seq 1 (top - 1)).
(** integrity_amplification.py:17-29: what is printed *)
Definition script_lines (level : Z) (top : nat) : list (Z * Z * nat) :=
  concat (map (fun size => match script_tolerance level top size with Some t => [(size, script_bound size, t)] | None => [] end) script_sizes).
Definition script_output : list (Z * Z * nat) * list (Z * Z * nat) := (script_lines 128 20, script_lines 64 15).
