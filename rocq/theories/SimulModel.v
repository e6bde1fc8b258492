(** Model of the benchmark drivers: simulations/simul.go, simulations/preprocessing.go, simulations/multi/client/client.go,
    simulations/multi/server/server.go. *)
From Coq Require Import String ZArith List Bool.
From Verif Require Import GoBase LWEModel.
Import ListNotations.
Open Scope Z_scope.
Open Scope go_scope.

(** simulations/simul.go:97-101 tECC: database length in bits -> correction radius of the repetition code. *)
Definition t_ecc (dbLen : Z) : option nat :=
  if dbLen =? 2 ^ 13 then Some 3%nat
  else if dbLen =? 2 ^ 23 then Some 4%nat
  else if dbLen =? 2 ^ 33 then Some 7%nat
  else None.
(** lib/client/amplify.go:18 NewAmplify *)
Definition repetitions (tECC : nat) : nat := (tECC * 2 + 1)%nat.
(** lib/database/lwe.go:27-30 CreateRandomBinaryLWEWithLength, the dimensions, and simulations/simul.go:253
    (ParamsWithDatabaseSize of the database). *)
Definition simul_lwe_shape (dbLen : Z) : Z * Z := calculate_num_rows_and_columns dbLen true.
Definition simul_lwe_params (dbLen : Z) : lwe_params := params_32 (fst (simul_lwe_shape dbLen)) (snd (simul_lwe_shape dbLen)).
