(** Model of the floating-point computations: sizes (lib/utils/utils.go, lib/database/db.go, lib/server/dh.go, lib/merkle/merkletree.go,
    simulations), database sizes in the log of a server, and the CPU time monitor (lib/monitor/mod.go). The other models use the
    exact integer functions. Numbers are reals; an operation of IEEE 754 double precision is the exact operation followed by
    [rnd]. Overflow, infinities and NaN are left out: the values are far below 2^1023. *)
From Coq Require Import Reals ZArith List.
From Verif Require Import GoBase PointModel KeyPageModel.
Import ListNotations.
Open Scope R_scope.

(** int(x) and the whole part of math.Modf, for x >= 0 *)
Definition whole (x : R) : Z := Int_part x.
(** math.Ceil, as an integer *)
Definition ceiling (x : R) : Z := (- Int_part (- x))%Z.

(** lib/server/dh.go:30, lib/database/elliptic.go:36, simulations/simul.go:344 and simulations/multi/client/client.go:363:
    int(math.Ceil(float64(a) / float64(b))) *)
Definition float_ceil_div (rnd : R -> R) (a b : Z) : Z := ceiling (rnd (rnd (IZR a) / rnd (IZR b))).

(** int(math.Sqrt(float64(n))): lib/database/db.go:170, simulations/simul.go:124, simulations/multi/server/server.go:100 *)
Definition float_sqrt (rnd : R -> R) (n : Z) : Z := whole (rnd (sqrt (rnd (IZR n)))).

(** lib/utils/utils.go:30-36 IncreaseToNextSquare. math.Pow(i+1, 2) is taken to be the rounded square. *)
Definition float_next_square (rnd : R -> R) (num : Z) : Z :=
  let s := rnd (sqrt (rnd (IZR num))) in
  let i := whole s in
  if Req_EM_T (frac_part s) 0 then num else whole (rnd (rnd (IZR i + 1) ^ 2)).

(** lib/database/db.go:167-177 CalculateNumRowsAndColumns *)
Definition float_rows_and_columns (rnd : R -> R) (numBlocks : Z) (matrix : bool) : Z * Z :=
  if matrix then
    let numBlocks := float_next_square rnd numBlocks in
    let numColumns := float_sqrt rnd numBlocks in
    (numColumns, numColumns)
  else (1, numBlocks)%Z.

(** lib/merkle/merkletree.go:61 and 77: int(math.Ceil(math.Log2(float64(n)))); [log2] is the library function *)
Definition float_depth (rnd log2 : R -> R) (n : Z) : Z := ceiling (log2 (rnd (IZR n))).
(** lib/merkle/merkletree.go:93: int(math.Exp2(math.Ceil(math.Log2(float64(len(data)))))) *)
Definition float_branches (rnd log2 exp2 : R -> R) (n : Z) : Z := whole (exp2 (IZR (float_depth rnd log2 n))).

(** ** lib/database/bytes.go:72-74 and lib/database/db.go:179-181, logged by cmd/grpc/server/main.go:103, 109, 115 *)
Definition gib : R := 9313 / 10000000000000.
Definition bytes_size_gib (rnd : R -> R) (entries : Z) : R := rnd (rnd (IZR entries) * rnd gib).
(** [entries] is the length of the field Entries *)
Definition db_size_gib (rnd : R -> R) (entries : Z) : R := rnd (rnd (IZR (entries * 16)) * rnd gib).
(** cmd/grpc/server/main.go:103, 109, 115: the size a starting server logs. The field Entries of a database of key records is
    not set (lib/database/pgp.go:29-32, db.go:153-156), so its length is 0. *)
Definition logged_size (rnd : R -> R) (s : service) : R :=
  match s with
  | PointService db => bytes_size_gib rnd (zlen (b_entries db))
  | PredicateService _ _ _ _ => db_size_gib rnd 0
  end.

(** ** lib/monitor/mod.go *)

(** A reading of getrusage: seconds and microseconds of system time and of user time *)
Record rusage := mkUsage { s_sec : Z; s_usec : Z; u_sec : Z; u_usec : Z }.

(** mod.go:50-52 iiToMS. The first product is exact, so fusing it with the sum, as Go may, changes nothing. *)
Definition ii_to_ms (rnd : R -> R) (sec usec : Z) : R := rnd (rnd (rnd (IZR sec) * 1000) + rnd (rnd (IZR usec) / 1000)).
(** mod.go:38-46 getCPUTime; getrusage does not fail *)
Definition cpu_time (rnd : R -> R) (r : rusage) : R := rnd (ii_to_ms rnd (s_sec r) (s_usec r) + ii_to_ms rnd (u_sec r) (u_usec r)).

(** mod.go:19-35: the operations with what getrusage reads during each. A monitor is its field cpuTime. *)
Inductive mon_op := MReset | MRecord | MRecordAndReset.
Definition mon_step (rnd : R -> R) (m : R) (o : mon_op) (r : rusage) : R * option R :=
  match o with
  | MReset => (cpu_time rnd r, None)
  | MRecord => (m, Some (rnd (cpu_time rnd r - m)))
  | MRecordAndReset => (cpu_time rnd r, Some (rnd (cpu_time rnd r - m)))
  end.
(** what the operations return, None for Reset *)
Fixpoint mon_run (rnd : R -> R) (m : R) (ops : list (mon_op * rusage)) : list (option R) :=
  match ops with
  | [] => []
  | (o, r) :: t => let '(m', out) := mon_step rnd m o r in out :: mon_run rnd m' t
  end.
(** mod.go:13-17 NewMonitor, followed by the operations *)
Definition mon_session (rnd : R -> R) (r0 : rusage) (ops : list (mon_op * rusage)) : list (option R) := mon_run rnd (cpu_time rnd r0) ops.
