(** Vocabulary for the number of repetitions that reaches an integrity error. *)
From Coq Require Import ZArith List Bool.
From Verif Require Import GoBase MatrixModel LWEModel LWESpec SimulModel AmplifySpec.
Import ListNotations.
Open Scope Z_scope.

(** A run of the amplified client with tolerance [t] on a database of [len] bits, in the square form in which the benchmark builds it *)
Definition amplified (len : Z) (t rows : nat) (db : matrix) (abytes : list Z) (cs : list lwe_coins) (index : Z) : Prop :=
  (Z.of_nat rows, Z.of_nat rows) = simul_lwe_shape len /\ exact_shape db rows rows /\ binary db /\
  length cs = repetitions t /\ Forall (fun c => drawn 4 abytes c rows (Z.to_nat 1100)) cs /\
  0 <= index < Z.of_nat rows * Z.of_nat rows.
(** [n] of the [q]^[k] words are at most a fraction of 2^-level *)
Definition at_most (level n q : Z) (k : nat) : Prop := 2 ^ level * n <= q ^ Z.of_nat k.
(** What a dishonest server adds: 2^31 to one column of its first [t]+1 answers, nothing to the other [t] *)
Definition push (cols column : nat) : list Z := map (fun l => if (l =? column)%nat then 2 ^ 31 else 0) (seq 0 cols).
Definition attack (cols column t : nat) : list (list Z) := repeat (push cols column) (t + 1) ++ repeat (repeat 0 cols) t.
