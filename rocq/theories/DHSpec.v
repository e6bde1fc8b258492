(** Vocabulary for the statements about the single-server Diffie-Hellman scheme. *)
From Coq Require Import ZArith Znumtheory List Bool.
From Verif Require Import GoBase MerkleModel DHModel.
Import ListNotations.
Open Scope Z_scope.

(** A commutative group of prime order with a faithful encoding in which every element other than the
    identity takes the same number of bytes. (The identity of the NIST curves of circl takes one.) *)
Record group_ok (g : group) : Prop := {
  add_comm : forall x y, g_add g x y = g_add g y x;
  add_assoc : forall x y z, g_add g x (g_add g y z) = g_add g (g_add g x y) z;
  add_id : forall x, g_add g (g_id g) x = x;
  mul_one : forall x, g_mul g 1 x = x;
  mul_zero : forall x, g_mul g 0 x = g_id g;
  mul_plus : forall a b x, g_mul g (a + b) x = g_add g (g_mul g a x) (g_mul g b x);
  mul_add : forall a x y, g_mul g a (g_add g x y) = g_add g (g_mul g a x) (g_mul g a y);
  mul_mul : forall a b x, g_mul g a (g_mul g b x) = g_mul g (a * b) x;
  mul_order : forall x, g_mul g (g_order g) x = g_id g;
  order_prime : prime (g_order g);
  eqb_spec : forall x y, g_eqb g x y = true <-> x = y;
  dec_enc : forall x, g_dec g (g_enc g x) = Some x;
  enc_size : forall x, x <> g_id g -> zlen (g_enc g x) = g_size g;
  size_pos : 0 < g_size g }.

(** The element takes the number of bytes the code assumes for every element. *)
Definition full (g : group) (x : g_elt g) : Prop := zlen (g_enc g x) = g_size g.
(** Every element does, the identity included (true of ristretto255, false of P-256). *)
Definition fixed_length (g : group) : Prop := forall x, full g x.
(** The identity is encoded in fewer bytes. *)
Definition short_identity (g : group) : Prop := zlen (g_enc g (g_id g)) < g_size g.

(** The public element of column j. *)
Definition column_point (g : group) (j : nat) : g_elt g := g_hash g (le_enc 8 (u64 (Z.of_nat j))).
Definition group_sum (g : group) (l : list (g_elt g)) : g_elt g := fold_right (g_add g) (g_id g) l.

(** The bit in row i and column j of a table with the given number of columns. *)
Definition bit_at (data : list Z) (cols i j : nat) : Z := nth (i * cols + j) data 0.
(** Sum of [pts j] over the columns j of row i that hold 1. *)
Definition row_sum (g : group) (data : list Z) (cols : nat) (pts : nat -> g_elt g) (i : nat) : g_elt g :=
  group_sum g (map pts (filter (fun j => bit_at data cols i j =? 1) (seq 0 cols))).
(** The digest of row i. *)
Definition row_digest (g : group) (data : list Z) (cols : nat) (i : nat) : g_elt g :=
  row_sum g data cols (column_point g) i.

(** A table of bits with its digests, one per row in row order, and the digest of those. *)
Record table_ok (g : group) (H : hash_fn) (db : elliptic) : Prop := {
  cols_pos : 0 < e_cols db;
  rows_nonneg : 0 <= e_rows db;
  entries_len : zlen (e_entries db) = e_rows db * e_cols db;
  entries_bits : Forall (fun b => b = 0 \/ b = 1) (e_entries db);
  sub_digests : e_sub db =
    concat (map (fun i => g_enc g (row_digest g (e_entries db) (Z.to_nat (e_cols db)) i))
                (seq 0 (Z.to_nat (e_rows db))));
  digest_hash : e_digest db = H (e_sub db) }.

(** With [k] rows per worker, [k] being the number of rows divided by the number of workers, rounded
    up, some worker starts beyond the last row. *)
Definition overshoots (numRows n : Z) : Prop :=
  exists k i, (k - 1) * n < numRows <= k * n /\ 0 <= i < n /\ numRows < i * k.

(** What the client sends for column j when it wants column iy: r times the column's point, and
    t times more for the wanted column. *)
Definition query_point (g : group) (r t : Z) (iy j : nat) : g_elt g :=
  if (j =? iy)%nat then g_mul g (r + t) (column_point g j) else g_mul g r (column_point g j).
(** What an honest server sends back for row i. *)
Definition answer_point (g : group) (db : elliptic) (r t : Z) (iy i : nat) : g_elt g :=
  row_sum g (e_entries db) (Z.to_nat (e_cols db)) (query_point g r t iy) i.

Definition g_sub (g : group) (x y : g_elt g) : g_elt g := g_add g x (g_mul g (-1) y).

(** What a server can compute by itself from the points [sent] to it, its database and the points
    [reply] it sends back: the wanted column's point less the difference between its reply for row ix
    and the honest one, taken in the direction of the cheat. *)
Definition unblind (g : group) (db : elliptic) (sent : nat -> g_elt g) (reply : list (g_elt g))
    (ix iy : nat) : g_elt g :=
  let cols := Z.to_nat (e_cols db) in
  let honest := row_sum g (e_entries db) cols sent ix in
  let given := nth ix reply (g_id g) in
  if bit_at (e_entries db) cols ix iy =? 1
  then g_sub g (sent iy) (g_sub g honest given)
  else g_sub g (sent iy) (g_sub g given honest).
