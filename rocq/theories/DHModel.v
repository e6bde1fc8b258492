(** Model of the single-server Diffie-Hellman scheme:
    lib/client/dh.go, lib/server/dh.go, lib/database/elliptic.go. *)
From Coq Require Import String ZArith List Bool.
From Verif Require Import GoBase EncodingModel MerkleModel LWEModel.
Import ListNotations.
Open Scope Z_scope.
Open Scope go_scope.

(** The prime-order group of github.com/cloudflare/circl/group (external): elements, identity,
    addition, scalar multiplication (scalars are integers), order, equality test, hash to the
    group (empty domain separation tag), compressed encoding, decoding, and the length of the
    encoding of a random element (lib/database/elliptic.go:136-141 getGroupElementSize). *)
Record group := mkGroup {
  g_elt : Type;
  g_id : g_elt;
  g_add : g_elt -> g_elt -> g_elt;
  g_mul : Z -> g_elt -> g_elt;
  g_order : Z;
  g_eqb : g_elt -> g_elt -> bool;
  g_hash : list Z -> g_elt;
  g_enc : g_elt -> list Z;
  g_dec : list Z -> option g_elt;
  g_size : Z }.

(** lib/database/elliptic.go:94-99 HashIndexToGroup, with the conversion uint64(j) of its callers *)
Definition hash_index_to_group (g : group) (j : Z) : g_elt g :=
  g_hash g (le_enc 8 (u64 j)).

(** lib/database/elliptic.go:102-106 CommitScalarToIndex *)
Definition commit_scalar_to_index (g : group) (x : Z) (j : Z) : g_elt g :=
  g_mul g x (hash_index_to_group g j).

(** lib/database/elliptic.go:109-119 MarshalGroupElements. Encoding a valid element does not fail. *)
Definition marshal_group_elements (g : group) (q : list (g_elt g)) : list Z :=
  concat (map (g_enc g) q).

(** lib/database/elliptic.go:122-134 UnmarshalGroupElements: the loop at position i of the input is
    applied to the input from i on; one unit of fuel per byte is enough. *)
Fixpoint unmarshal_loop (g : group) (fuel : nat) (q : list Z) : res (list (g_elt g)) :=
  match fuel, q with
  | _, [] => Ok []
  | O, _ => Ok []
  | S f, _ =>
    s <- go_slice q 0 (g_size g) ;;
    match g_dec g s with
    | None => Err "unmarshal"
    | Some e =>
      r <- unmarshal_loop g f (skipn (Z.to_nat (g_size g)) q) ;;
      Ok (e :: r)
    end
  end.
Definition unmarshal_group_elements (g : group) (q : list Z) : res (list (g_elt g)) :=
  if g_size g =? 0 then Panic "integer divide by zero" else
  unmarshal_loop g (length q) q.

(** int(math.Ceil(float64(a) / float64(b))) for non-negative a and positive b; exact division is used
    in place of floating point, which gives the same below 2^53 (C113). *)
Definition ceil_div (a b : Z) : Z := (a + b - 1) / b.

(** lib/database/elliptic.go:38-44 and lib/server/dh.go:34-39: the rows of worker i of n. *)
Definition worker_rows (numRows n i : Z) : Z * Z :=
  let rowsPerRoutine := ceil_div numRows n in
  (i * rowsPerRoutine, Z.min ((i + 1) * rowsPerRoutine) numRows).

(** begin, begin+1, ..., end-1 *)
Definition between (b e : Z) : list Z :=
  map (fun k => b + Z.of_nat k) (range (Z.to_nat (e - b))).

(** lib/database/elliptic.go:78-83 and lib/server/dh.go:64-72: the sum over the columns of a row that
    hold 1; [elt j] is the element of column j. *)
Fixpoint row_product (g : group) (data : list Z) (pos : Z) (elt : Z -> res (g_elt g)) (j : Z) (n : nat)
    (d : g_elt g) : res (g_elt g) :=
  match n with
  | O => Ok d
  | S n' =>
    b <- go_index data (pos + j) ;;
    d' <- (if b =? 1 then e <- elt j ;; Ok (g_add g d e) else Ok d) ;;
    row_product g data pos elt (j + 1) n' d'
  end.

(** crypto.BLAKE2b_256.Size() *)
Definition blake_size : Z := 32.

(** lib/database/elliptic.go:75-91 computeDigests *)
Definition compute_digests (g : group) (data : list Z) (rowLen : Z) (rows : Z * Z) : res (list Z) :=
  let '(b, e) := rows in
  if (e - b) * blake_size <? 0 then Panic "makeslice: cap out of range" else
  ds <- mapM (fun i =>
      d <- row_product g data (i * rowLen) (fun j => Ok (hash_index_to_group g j)) 0
             (Z.to_nat rowLen) (g_id g) ;;
      Ok (g_enc g d)) (between b e) ;;
  Ok (concat ds).

(** Workers that each put one chunk in a channel of capacity one, and a main routine that receives
    from the channels in worker order and appends (lib/database/elliptic.go:36-55). A schedule is a
    list of events; an event that is not possible changes nothing. A panic (or log.Fatal) in a worker
    ends the process. *)
Inductive par_event := Work (i : nat) | Collect.
Record par_state := mkPar {
  ps_slots : list (option (list Z));   (* chunks sent and not yet received *)
  ps_done : list bool;                 (* workers that have sent *)
  ps_next : nat;                       (* channel the main routine receives from next *)
  ps_acc : list Z;                     (* what it has appended *)
  ps_dead : option (res (list Z)) }.   (* how the process died *)
Definition par_init (n : nat) : par_state := mkPar (repeat None n) (repeat false n) 0 [] None.
Definition par_step (work : list (res (list Z))) (s : par_state) (ev : par_event) : par_state :=
  match ps_dead s with
  | Some _ => s
  | None =>
    match ev with
    | Work i =>
      match nth_error (ps_done s) i, nth_error work i with
      | Some false, Some (Ok c) =>
        mkPar (upd (ps_slots s) i (Some c)) (upd (ps_done s) i true) (ps_next s) (ps_acc s) None
      | Some false, Some r => mkPar (ps_slots s) (ps_done s) (ps_next s) (ps_acc s) (Some r)
      | _, _ => s
      end
    | Collect =>
      match nth_error (ps_slots s) (ps_next s) with
      | Some (Some c) =>
        mkPar (upd (ps_slots s) (ps_next s) None) (ps_done s) (S (ps_next s)) (ps_acc s ++ c) None
      | _ => s
      end
    end
  end.
Definition par_run (work : list (res (list Z))) (sched : list par_event) : par_state :=
  fold_left (par_step work) sched (par_init (length work)).
(** The outcome, if the run is over. *)
Definition par_result (work : list (res (list Z))) (sched : list par_event) : option (res (list Z)) :=
  let s := par_run work sched in
  match ps_dead s with
  | Some r => Some r
  | None => if (ps_next s =? length work)%nat then Some (Ok (ps_acc s)) else None
  end.

(** lib/database/elliptic.go:14-17 Elliptic with the fields of Info and Auth it sets. *)
Record elliptic := mkEl {
  e_entries : list Z;
  e_cols : Z;
  e_rows : Z;
  e_digest : list Z;
  e_sub : list Z }.

(** lib/database/elliptic.go:30-33 *)
Definition elliptic_routines (ncpu dbLen : Z) : Z :=
  if dbLen <=? 1024 * 1024 then 8 else ncpu.

(** lib/database/elliptic.go:34-47: the jobs of the digest workers. *)
Definition digest_work (g : group) (data : list Z) (numRows numColumns n : Z) : list (res (list Z)) :=
  map (fun i => compute_digests g data numColumns (worker_rows numRows n (Z.of_nat i)))
      (range (Z.to_nat n)).

(** lib/database/elliptic.go:20-73 CreateRandomEllipticWithDigest. [rnd n] is what the random source
    gives for n bytes, [ncpu] is runtime.NumCPU(), [sched] the schedule of the workers, [H] BLAKE2b.
    None: the schedule ends before the call does. *)
Definition create_random_elliptic (g : group) (H : hash_fn) (ncpu : Z) (rnd : nat -> list Z)
    (sched : list par_event) (dbLen : Z) (rebalanced : bool) : option (res elliptic) :=
  let '(numRows, numColumns) := calculate_num_rows_and_columns dbLen rebalanced in
  if numRows * numColumns <? 0 then Some (Panic "makeslice: len out of range") else
  let data := map (fun b => Z.land b 1) (rnd (Z.to_nat (numRows * numColumns))) in
  match par_result (digest_work g data numRows numColumns (elliptic_routines ncpu dbLen)) sched with
  | None => None
  | Some r =>
    Some (digests <- r ;;
          Ok (mkEl data numColumns numRows (H digests) digests))
  end.

(** lib/server/dh.go:60-74 processRows *)
Definition process_rows (g : group) (db : elliptic) (input : list (g_elt g)) (rows : Z * Z) :
    res (list (g_elt g)) :=
  let '(b, e) := rows in
  _ <- go_make tt (e - b) ;;
  mapM (fun i =>
      row_product g (e_entries db) (i * e_cols db) (fun j => go_index input j) 0
        (Z.to_nat (e_cols db)) (g_id g)) (between b e).

(** lib/server/dh.go:19-58 AnswerBytes. At most one worker is started (lines 25-29), and the main
    routine waits for it, so it is modelled as a call. *)
Definition dh_answer (g : group) (db : elliptic) (q : list Z) : res (list Z) :=
  query <- unmarshal_group_elements g q ;;
  let n := if e_rows db <? 1 then e_rows db else 1 in
  chunks <- mapM (fun i => process_rows g db query (worker_rows (e_rows db) n (Z.of_nat i)))
                 (range (Z.to_nat n)) ;;
  Ok (marshal_group_elements g (concat chunks)).

(** lib/client/client.go state: the fields the DH client uses. *)
Record dh_state (g : group) := mkDH {
  dh_ix : Z;
  dh_iy : Z;
  dh_r : Z;
  dh_ht : g_elt g }.
Arguments mkDH {g}. Arguments dh_ix {g}. Arguments dh_iy {g}. Arguments dh_r {g}. Arguments dh_ht {g}.

(** lib/client/dh.go:23-35 NewDH: panics if the sub-digests do not hash to the digest. *)
Definition dh_new (H : hash_fn) (info : elliptic) : res unit :=
  if bytes_equal (H (e_sub info)) (e_digest info) then Ok tt
  else Panic "row digests and the global digest in the info do not match".

(** lib/client/dh.go:39-70 QueryBytes; [r] and [t] are the two random scalars. *)
Definition dh_query (g : group) (info : elliptic) (r t index : Z) : res (dh_state g * list Z) :=
  ij <- vector_to_matrix_indices index (e_cols info) ;;
  let '(ix, iy) := ij in
  let query := map (fun j => commit_scalar_to_index g r (Z.of_nat j))
                   (range (Z.to_nat (e_cols info))) in
  let ht := commit_scalar_to_index g t iy in
  old <- go_index query iy ;;
  query' <- go_store query iy (g_add g old ht) ;;
  Ok (mkDH ix iy r ht, marshal_group_elements g query').

(** lib/client/dh.go:81-104: the loop over the rows from row i on; n rows remain. *)
Fixpoint dh_rows (g : group) (info : elliptic) (st : dh_state g) (rneg : Z) (answer : list (g_elt g))
    (i : Z) (n : nat) (out : Z) : res Z :=
  match n with
  | O => Ok out
  | S n' =>
    s <- go_slice (e_sub info) (i * g_size g) ((i + 1) * g_size g) ;;
    match g_dec g s with
    | None => Err "unmarshal"
    | Some d =>
      a <- go_index answer i ;;
      let m := g_add g (g_mul g rneg d) a in
      if negb (g_eqb g m (g_id g)) && negb (g_eqb g m (dh_ht st)) then Err "reject" else
      let out' :=
        if i =? dh_ix st then
          if g_eqb g m (g_id g) then 0 else if g_eqb g m (dh_ht st) then 1 else out
        else out in
      dh_rows g info st rneg answer (i + 1) n' out'
    end
  end.

(** lib/client/dh.go:72-108 ReconstructBytes *)
Definition dh_reconstruct (g : group) (info : elliptic) (st : dh_state g) (a : list Z) : res Z :=
  let rneg := (- dh_r st) mod g_order g in
  answer <- unmarshal_group_elements g a ;;
  dh_rows g info st rneg answer 0 (Z.to_nat (e_rows info)) 0.

(** One retrieval: the client checks the advertised digests and asks for [index] with scalars [r] and
    [t]; [server] is any function from the query to the answer (dh_test.go:31-50). *)
Definition dh_session (g : group) (H : hash_fn) (info : elliptic) (server : list Z -> res (list Z))
    (r t index : Z) : res Z :=
  _ <- dh_new H info ;;
  sq <- dh_query g info r t index ;;
  let '(st, q) := sq in
  a <- server q ;;
  dh_reconstruct g info st a.
