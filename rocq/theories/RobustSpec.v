(** Vocabulary for the statements about malformed messages and about the C kernels. *)
From Coq Require Import String ZArith List Bool.
From Verif Require Import GoBase MatrixModel LWEModel LWESpec DHModel DHSpec.
Import ListNotations.
Open Scope Z_scope.

(** The sizes of a product that 32-bit signed integers can index. *)
Definition indexable (r n c : nat) : Prop :=
  Z.of_nat r * Z.of_nat n <= 2 ^ 31 /\ Z.of_nat n * Z.of_nat c <= 2 ^ 31 /\ Z.of_nat r * Z.of_nat c <= 2 ^ 31.
(** The dimensions themselves are such integers. *)
Definition int_dimensions (r n c : nat) : Prop :=
  (0 < r)%nat /\ (0 < n)%nat /\ (0 < c)%nat /\ Z.of_nat r < 2 ^ 31 /\ Z.of_nat n < 2 ^ 31 /\ Z.of_nat c < 2 ^ 31.

(** A message announcing a matrix of the given dimensions, followed by [body]. *)
Definition announcing (rows cols : Z) (body : list Z) : list Z := be_enc 4 rows ++ be_enc 4 cols ++ body.

(** Word p of the body of a message, as the two encodings store it. A word that is not there counts as 0 with 128 bits. *)
Definition word32 (body : list Z) (p : nat) : Z := be_dec (firstn 4 (skipn (4 * p) body)).
Definition word128 (body : list Z) (p : nat) : Z :=
  if (p <? length body / 16)%nat then le_dec (firstn 16 (skipn (16 * p) body)) else 0.
(** The words of the matrix that multiplying the body by the database gives. *)
Definition answer_word (w : Z) (word : nat -> Z) (db : matrix) (L i j : nat) : Z :=
  sum_to L (fun k => word (L * i + k)%nat * elem db k j) mod w.
(** Word p of a 32-bit body that is followed in memory by the words [mem]. *)
Definition memory_word (body mem : list Z) (p : nat) : Z :=
  if (p <? length body / 4)%nat then word32 body p else nth (p - length body / 4) mem 0.

(** A message made of a length, that many bytes per piece, and a rest shorter than a piece. *)
Definition in_pieces (q : list Z) (pieces : list (list Z)) : Prop :=
  exists len rest, 0 < Z.of_nat len < 2 ^ 32 /\ Forall (fun x => length x = len) pieces /\ (length rest < len)%nat /\
    q = be_enc 4 (Z.of_nat len) ++ concat pieces ++ rest.

(** What a client of the lattice schemes holds between its query and the answer: a digest of n x cols words, a secret of n words, a column. *)
Definition client_state (w : Z) (p : lwe_params) (st : lwe_state) (n cols : nat) : Prop :=
  stored w (s_secret st) 1 n /\ stored w (s_digest st) n cols /\ lp_m p = Z.of_nat cols /\ 0 <= s_j st < Z.of_nat cols.

(** A message that is one encoding after the other, each of the announced size. *)
Definition decodes (g : group) (q : list Z) (es : list (g_elt g)) : Prop :=
  exists pieces, q = concat pieces /\ Forall2 (fun s e => zlen s = g_size g /\ g_dec g s = Some e) pieces es.
(** Encodings, then bytes of the size of an encoding that encode nothing. *)
Definition undecodable (g : group) (q : list Z) : Prop :=
  exists good es bad rest, q = good ++ bad ++ rest /\ decodes g good es /\ zlen bad = g_size g /\ g_dec g bad = None.
(** A table of bits. *)
Definition bit_table (db : elliptic) (rows cols : nat) : Prop :=
  (0 < rows)%nat /\ (0 < cols)%nat /\ e_rows db = Z.of_nat rows /\ e_cols db = Z.of_nat cols /\ length (e_entries db) = (rows * cols)%nat.
(** Every column that holds a 1 in some row is one of the first n. *)
Definition ones_below (db : elliptic) (rows cols n : nat) : Prop :=
  forall i j, (i < rows)%nat -> (j < cols)%nat -> DHSpec.bit_at (e_entries db) cols i j = 1 -> (j < n)%nat.
(** The number of bytes that complete the last encoding of a message. *)
Definition missing_bytes (g : group) (q : list Z) : Z := (- zlen q) mod g_size g.
