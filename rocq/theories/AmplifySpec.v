(** Vocabulary for counting over the secrets of the amplified lattice scheme. *)
From Coq Require Import String ZArith List Bool.
From Verif Require Import GoBase MatrixModel LWEModel LWESpec SimulModel.
Import ListNotations.
Open Scope Z_scope.

(** 0, 1, ..., q-1 *)
Definition below (q : Z) : list Z := map Z.of_nat (seq 0 (Z.to_nat q)).
(** Number of words of [n] symbols 0..q-1 that satisfy [P]; divided by q^n it is the probability of [P] for a uniform word. *)
Fixpoint count_words (q : Z) (n : nat) (P : list Z -> bool) : Z :=
  match n with
  | O => if P [] then 1 else 0
  | S n' => zsum (map (fun x => count_words q n' (fun l => P (x :: l))) (below q))
  end.

(** Binomial coefficient. *)
Fixpoint choose (n k : nat) : Z :=
  match n, k with
  | _, O => 1
  | O, S _ => 0
  | S n', S k' => choose n' k' + choose n' k
  end.

(** The draws of the repetitions with the scaling secrets [ts]. *)
Definition scaled (cs : list lwe_coins) (ts : list Z) : list lwe_coins :=
  map (fun ct => with_t (fst ct) (le_enc 4 (snd ct))) (combine cs ts).

(** The client accepted and read something else than [expected]. *)
Definition wrong (r : res Z) (expected : Z) : bool := match r with Ok b => negb (b =? expected) | _ => false end.

(** A benchmark run of the amplified scheme with a database of [len] bits: [t] from the table of the driver, the square database it builds,
    and what the client draws for its 2t+1 repetitions. *)
Definition benchmark (len : Z) (t rows : nat) (db : matrix) (abytes : list Z) (cs : list lwe_coins) (index : Z) : Prop :=
  t_ecc len = Some t /\ (Z.of_nat rows, Z.of_nat rows) = simul_lwe_shape len /\ exact_shape db rows rows /\ binary db /\
  length cs = repetitions t /\ Forall (fun c => drawn 4 abytes c rows (Z.to_nat 1100)) cs /\
  0 <= index < Z.of_nat rows * Z.of_nat rows.
