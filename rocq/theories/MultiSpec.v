(** Vocabulary for the multi-server benchmark. *)
From Coq Require Import String ZArith List Bool Permutation.
From Verif Require Import GoBase PointModel DirectoryModel PredicateModel MultiModel.
Import ListNotations.
Open Scope Z_scope.

(** [n] blocks are arranged in [R] rows: one row if asked for, else the side of the smallest square with room for them. *)
Definition arranged (nRows n R : Z) : Prop := nRows = 1 /\ R = 1 \/ nRows <> 1 /\ 0 < R /\ (R - 1) * (R - 1) < n <= R * R.

(** [k] units of size [u] are the fewest that make up [b]. *)
Definition needed (b u k : Z) : Prop := (k - 1) * u < b <= k * u.

(** During one query the client visits its connections in some order, the answers arrive in some order, and the client draws the
    (n-1)*v random bytes it needs. *)
Definition fair {C} (conns : list C) (v : Z) (h : happening C) : Prop :=
  Permutation conns (h_order h) /\ (forall l, Permutation l (h_arrive h l)) /\ zlen (h_rnd h) = (zlen conns - 1) * v.

(** Blocks number s, s+1, ..., s+k-1 of the data. *)
Definition run_of (block : nat -> list Z) (s k : Z) : list (list Z) := map (fun i => block (Z.to_nat s + i)%nat) (seq 0 (Z.to_nat k)).

(** Letters and digits, the characters of random e-mail addresses. *)
Definition alphanumeric (b : Z) : Prop := 97 <= b <= 122 \/ 48 <= b <= 57.

(** What math/rand returns for one random key: a number of seconds between 31 December 1999 and 30 November 2021, one of five
    algorithms, and 32 characters out of 36. *)
Definition drawn (d : draws) : Prop :=
  0 <= d_sec d < 86400 * 8005 /\ 0 <= d_algo d < 5 /\ (forall i, 0 <= d_text d i < 36).

(** The zone of the server's clock is a whole number of minutes that fits the encoding of times. *)
Definition zone_ok (zone : option Z) : Prop := forall m, zone = Some m -> -32768 <= m <= 32767 /\ m <> -1.

(** What a record of the random key database looks like. *)
Definition random_record (ki : key_info) : Prop :=
  zlen (ki_email ki) = 32 /\ Forall alphanumeric (ki_email ki) /\
  (ki_algo ki = 1 \/ 16 <= ki_algo ki <= 19) /\ 1999 <= time_year (ki_time ki) <= 2021.

(** Block number k of the generator's output: b bytes from position k*b on. *)
Definition stream_block (ks : nat -> Z) (b : Z) (k : nat) : list Z := map ks (seq (k * Z.to_nat b) (Z.to_nat b)).
