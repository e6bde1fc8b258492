(** Specification vocabulary for matrices and the lattice scheme. *)
From Coq Require Import String ZArith List Bool.
From Verif Require Import GoBase MatrixModel LWEModel.
Import ListNotations.
Open Scope Z_scope.

(** Row-major element (i, j). *)
Definition elem (m : matrix) (i j : nat) : Z := nth (Z.to_nat (m_cols m) * i + j) (m_data m) 0.

(** Sum of f 0 ... f (n-1). *)
Definition sum_to (n : nat) (f : nat -> Z) : Z := zsum (map f (seq 0 n)).

(** A non-empty r x c matrix whose storage holds at least r*c elements (NewRandom makes it longer). *)
Definition shape (m : matrix) (r c : nat) : Prop :=
  m_rows m = Z.of_nat r /\ m_cols m = Z.of_nat c /\ (r * c <= length (m_data m))%nat /\ (0 < r)%nat /\ (0 < c)%nat.
(** ... exactly r*c elements. *)
Definition exact_shape (m : matrix) (r c : nat) : Prop := shape m r c /\ length (m_data m) = (r * c)%nat.

(** Storage that the product functions accept: with 128 bits the words must be exactly r*c. *)
Definition stored (w : Z) (m : matrix) (r c : nat) : Prop := shape m r c /\ (w = 2 ^ 32 \/ length (m_data m) = (r * c)%nat).
Definition words (w : Z) (m : matrix) : Prop := Forall (fun x => 0 <= x < w) (m_data m).
Definition binary (m : matrix) : Prop := Forall (fun x => x = 0 \/ x = 1) (m_data m).

(** Textbook matrix product modulo w. *)
Definition product_mod (w : Z) (n : nat) (a b : matrix) (i j : nat) : Z :=
  sum_to n (fun k => elem a i k * elem b k j) mod w.

(** Noise accumulated in column k of the answer. *)
Definition noise (samples : list Z) (db : matrix) (rows : nat) (k : nat) : Z :=
  sum_to rows (fun r => nth r samples 0 * elem db r k).

(** The words of the answer, each shifted by the server. *)
Definition deviated (w : Z) (a : matrix) (delta : list Z) : matrix :=
  mkM (m_rows a) (m_cols a) (map (fun xd => (fst xd + snd xd) mod w) (combine (m_data a) delta)).
(** A server that adds a chosen vector to the honest answer (every server is of this kind if the vector may depend on
    the query). *)
Definition deviating32 (db : matrix) (delta : list Z) (q : list Z) : res (list Z) :=
  bind (bytes_to_matrix q) (fun m => bind (lwe_answer w32 db m) (fun a => Ok (matrix_to_bytes (deviated w32 a delta)))).
Definition deviating128 (db : matrix) (delta : list Z) (q : list Z) : res (list Z) :=
  bind (bytes_to_matrix128 q) (fun m => bind (lwe_answer w128 db m) (fun a => Ok (matrix128_to_bytes (deviated w128 a delta)))).

(** Sizes of a deployment: the database is a binary rows x cols matrix and the parameters were made for it. *)
Definition deployment (p : lwe_params) (db : matrix) (rows cols n : nat) : Prop :=
  exact_shape db rows cols /\ binary db /\ lp_l p = Z.of_nat rows /\ lp_m p = Z.of_nat cols /\
  lp_n p = Z.of_nat n /\ (0 < n)%nat /\ Z.of_nat rows < 2 ^ 32 /\ Z.of_nat cols < 2 ^ 32.
(** Sizes of what is drawn, [bytesMod] being the bytes of one word. *)
Definition drawn (bytesMod : nat) (abytes : list Z) (c : lwe_coins) (rows n : nat) : Prop :=
  bytes abytes /\ length abytes = (bytesMod * n * rows)%nat /\ bytes (c_t c) /\ length (c_t c) = bytesMod /\
  bytes (c_secret c) /\ length (c_secret c) = (bytesMod * n)%nat /\ length (c_noise c) = rows.

(** A server of the amplified scheme that adds a chosen vector to each honest answer. *)
Definition amplify_deviating (db : matrix) (deltas : list (list Z)) (q : list Z) : res (list Z) :=
  bind (bytes_to_matrices q) (fun ms => bind (amplify_answer db ms) (fun ans =>
    matrices_to_bytes (map (fun ad => deviated w32 (fst ad) (snd ad)) (combine ans deltas)))).

(** Number of positions at which [v] occurs. *)
Definition occurrences (v : Z) (l : list Z) : nat := count_occ Z.eq_dec l v.
(** Number of positions of a received word that differ from [x]. *)
Definition errors (x : Z) (l : list Z) : nat := length (filter (fun y => negb (Z.eqb y x)) l).

(** How a noise sample ends up in a 128-bit word: negative ones are off by one (see C45). *)
Definition stored_sample (g : Z) : Z := if g <? 0 then g - 1 else g.

(** The same draws with another scaling secret. *)
Definition with_t (c : lwe_coins) (t : list Z) : lwe_coins :=
  mkC t (c_secret c) (c_noise c) (c_tmem c) (c_smem c) (c_amem c).

(** Number of repetitions whose scaling secret lies in the corresponding list. *)
Definition hits (ts : list (list Z)) (bads : list (list Z)) : nat :=
  length (filter (fun tb => existsb (Z.eqb (le_dec (fst tb))) (snd tb)) (combine ts bads)).
