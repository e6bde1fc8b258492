(** Model of the measurements of the deployment: the output of the command-line client (cmd/grpc/client/main.go) and of the key server
    (cmd/grpc/server/main.go) with the flag experiment, collected by simulations/real/*.sh, and how simulations/utils.py and
    simulations/plot.py read it. *)
From Coq Require Import String ZArith QArith Qround List Bool.
From Verif Require Import GoBase EncodingModel FrontendModel LogModel ResultsModel.
Import ListNotations.
Open Scope Z_scope.
Open Scope go_scope.

(** ** Writing *)

(** Both programs log to their standard output (client/main.go:85, server/main.go:72), where fmt also prints. *)
Inductive output := Logged (msg : list Z) | Printed (text : list Z).
Fixpoint output_file (prefix : list Z) (clock : nat -> stamp) (o : list output) : list Z :=
  match o with
  | [] => []
  | Logged m :: t => log_line prefix (clock O) m ++ output_file prefix (fun i => clock (S i)) t
  | Printed p :: t => p ++ output_file prefix (fun i => clock (S i)) t
  end.

(** What the goroutines of runQueries log, client/main.go:429-430: the address, then the size of the query. Those of different servers
    are interleaved in any way. *)
Inductive sending := SentTo (addr : list Z) | SentSize (n : Z).
Definition sending_message (s : sending) : list Z :=
  match s with
  | SentTo a => lit "sent query to " ++ a
  | SentSize n => lit "query size in bytes " ++ itoa n
  end.

(** What a client does after it has reconstructed: client/main.go:260-276 for a count, 302-340 for a key *)
Inductive outcome :=
| Counted (result : Z)
| KeyShown (id : list Z) (hashKey : Z) (armored : list Z).

(** One run of the client. [tr_asked]: the servers in the order in which the requests for descriptions were logged; [tr_info] and
    [tr_elapsed]: the description and the time as text; [tr_us]: the time in microseconds, as %f rounds it. *)
Record trial := mkTrial {
  tr_cores : Z; tr_asked : list (list Z); tr_info : list Z; tr_sendings : list sending; tr_queries : list (list Z);
  tr_outcome : outcome; tr_us : Z; tr_elapsed : list Z }.
(** client/main.go:263-268 and 328-333: the bytes of all queries *)
Definition query_bytes (queries : list (list Z)) : Z := fold_left (fun bw q => bw + zlen q) queries 0.
(** client/main.go:270 and 335 *)
Definition trial_stats (t : trial) : list Z :=
  lit "stats," ++ itoa (tr_cores t) ++ lit "," ++ itoa (query_bytes (tr_queries t)) ++ lit "," ++ seconds (tr_us t).
(** client/main.go:342-392 retrieveDBInfo and dbInfo, then retrieveComplexQuery or retrieveKeyGivenId, with the flag experiment. The
    identifier is given as a flag, as the scripts do (163 asks for it otherwise). *)
Definition trial_output (t : trial) : list output :=
  map (fun a => Logged (lit "sent databaseInfo request to " ++ a)) (tr_asked t) ++ [Logged (lit "databaseInfo: " ++ tr_info t)] ++
  match tr_outcome t with
  | Counted r =>
    [Logged (lit "done with queries computation")] ++ map (fun s => Logged (sending_message s)) (tr_sendings t) ++
    [Logged (lit "done with block reconstruction"); Printed (itoa r ++ [10]); Logged (trial_stats t);
     Printed (lit "Wall-clock time to retrieve complex output: " ++ tr_elapsed t ++ [10])]
  | KeyShown id k armored =>
    [Logged (lit "id: " ++ id ++ lit ", hashKey: " ++ itoa k); Logged (lit "done with queries computation")] ++
    map (fun s => Logged (sending_message s)) (tr_sendings t) ++
    [Logged (lit "done with block reconstruction"); Logged (lit "PGP key retrieved from block"); Printed (armored ++ [10]); Logged (trial_stats t);
     Printed (lit "Wall-clock time to retrieve the key: " ++ tr_elapsed t ++ [10])]
  end.
(** A run of the client: to the end, or until log.Fatal (client/main.go:106-114). [said] is what it logged before and [why] is the error. *)
Inductive client_run := Finished (t : trial) | Died (said : list (list Z)) (why : list Z).
Definition run_output (r : client_run) : list output :=
  match r with
  | Finished t => trial_output t
  | Died said why => map Logged said ++ [Logged why]
  end.
(** simulations/real/real_client_pir.sh:26-32, real_client_fss.sh:38-77: the runs append to one file *)
Fixpoint client_file (clock : nat -> nat -> stamp) (runs : list client_run) : list Z :=
  match runs with
  | [] => []
  | r :: t => output_file client_prefix (clock O) (run_output r) ++ client_file (fun i => clock (S i)) t
  end.

(** What a server logs while it serves, cmd/grpc/server/main.go:239-293, with the flag experiment: the lines in the order in which they were
    logged. The handlers of several requests and the worker, which logs a size and then a line of numbers for every answer, are interleaved
    in any way. [why] is the text of an error. *)
Inductive request := AskInfo | AskQuery | AnswerSize (answer : list Z) | AskAnswer (answer : list Z) | AskFailed (why : list Z) | AskLate.
Definition request_messages (cores : Z) (r : request) : list Z :=
  match r with
  | AskInfo => lit "got databaseInfo request"
  | AskQuery => lit "got query request"
  | AnswerSize a => lit "answer size in bytes: " ++ itoa (zlen a)
  | AskAnswer a => lit "stats," ++ itoa cores ++ lit "," ++ itoa (zlen a)
  | AskFailed why => lit "ERROR while processing query: " ++ why
  | AskLate => lit "Context deadline exceeded - canceled?"
  end.
(** A process of the server, server/main.go:95-219: [pr_loading] is what is logged about the names of the files (295-341,
    lib/database/pgp.go:18, 54, 93), [pr_size] the size (103, 109, 115), [pr_addr] the address. *)
Record process := mkProcess { pr_sid : Z; pr_cores : Z; pr_loading : list (list Z); pr_size : list Z; pr_addr : list Z; pr_requests : list request }.
Definition process_output (p : process) : list output :=
  map Logged (lit "Starting to read in the DB data" :: pr_loading p ++
    (lit "db size in GiB: " ++ pr_size p) :: (lit "gRPC server started at " ++ pr_addr p) ::
    map (request_messages (pr_cores p)) (pr_requests p) ++ [lit "clean shutdown of server done"]).
(** simulations/real/real_server_pir.sh:22-27, real_server_fss.sh:22-29: the processes append to one file *)
Fixpoint process_file (clock : nat -> nat -> stamp) (ps : list process) : list Z :=
  match ps with
  | [] => []
  | p :: t => output_file (server_prefix (pr_sid p)) (clock O) (process_output p) ++ process_file (fun i => clock (S i)) t
  end.

(** ** Reading *)

(** The dictionary kept for a number of cores; a missing key is None. *)
Record by_core := mkByCore { bc_queries : option (list Z); bc_latency : option (list Z); bc_answer : option (list Z) }.
Definition no_core : by_core := mkByCore None None None.
Definition append_to (o : option (list Z)) (x : Z) : option (list Z) := Some (match o with Some l => l ++ [x] | None => [x] end).
(** utils.py:38-52: one entry. The latencies are held in millionths of a second. *)
Definition parse_entry (d : list (Z * by_core)) (s : list (list Z)) : res (list (Z * by_core)) :=
  c0 <- py_index s 0 ;;
  c <- py_int c0 ;;
  b <- dict_get Z.eqb d c ;;
  if (length s =? 3)%nat then
    q0 <- py_index s 1 ;; q <- py_int q0 ;;
    l0 <- py_index s 2 ;; l <- py_float l0 ;;
    match bc_queries b with
    | None => Ok (dict_set Z.eqb d c (mkByCore (Some [q]) (Some [l]) (bc_answer b)))
    | Some _ =>
      match bc_latency b with
      | None => Err "KeyError"
      | Some _ => Ok (dict_set Z.eqb d c (mkByCore (append_to (bc_queries b) q) (append_to (bc_latency b) l) (bc_answer b)))
      end
    end
  else
    a0 <- py_index s 1 ;; a <- py_int a0 ;;
    Ok (dict_set Z.eqb d c (mkByCore (bc_queries b) (bc_latency b) (append_to (bc_answer b) a))).
(** utils.py:23-53 parseLog. Simplification: the numbers of cores stay in the order of the file, a Python set has no order. *)
Definition parse_log (file : list Z) : res (list (Z * by_core)) :=
  let stats := map stats_of (stats_lines file) in
  cores <- mapM (fun s => c <- py_index s 0 ;; py_int c) stats ;;
  foldM parse_entry (fold_left (fun d c => dict_set Z.eqb d c no_core) cores []) stats.

Definition key {A} (o : option A) : res A := match o with Some x => Ok x | None => Err "KeyError" end.
(** plot.py:245 and 299: the bytes of the answers of both servers *)
Definition both_answers (s0 s1 : list (Z * by_core)) (c : Z) : res (list Z) :=
  b0 <- dict_get Z.eqb s0 c ;; a0 <- key (bc_answer b0) ;;
  b1 <- dict_get Z.eqb s1 c ;; a1 <- key (bc_answer b1) ;;
  Ok (zip_add a0 a1).
(** in seconds *)
Definition in_seconds (us : Z) : Q := inject_Z us / 1000000.
(** plot.py:312 *)
Definition ping : Q := 375815 / 1000000.
(** plot.py:280-317 plotReal: the time that is printed for a scheme, in seconds, before it is rounded to two digits *)
Definition plot_real (server0 server1 client : list Z) : res Q :=
  s0 <- parse_log server0 ;;
  s1 <- parse_log server1 ;;
  _ <- mapM (fun e => both_answers s0 s1 (fst e)) s0 ;;
  cl <- parse_log client ;;
  latencies <- mapM (fun e => _ <- key (bc_queries (snd e)) ;; l <- key (bc_latency (snd e)) ;; Ok (fst e, l)) cl ;;
  l <- dict_get Z.eqb latencies (-1) ;;
  match median (map in_seconds l) with Some m => Ok (m + ping)%Q | None => Err "nan" end.

(** plot.py:228-262 plotRealComplex: the time and the kilobytes of a scheme before they are rounded *)
Definition plot_complex (server0 server1 client : list Z) : res (Q * Q) :=
  s0 <- parse_log server0 ;;
  s1 <- parse_log server1 ;;
  answers <- both_answers s0 s1 (-1) ;;
  cl <- parse_log client ;;
  b <- dict_get Z.eqb cl (-1) ;;
  queries <- key (bc_queries b) ;;
  latency <- key (bc_latency b) ;;
  match median (map in_seconds latency), median (map inject_Z (zip_add answers queries)) with
  | Some t, Some bw => Ok (t, (bw / 1000)%Q)
  | _, _ => Err "nan"
  end.

(** round(x): to the nearest whole number, halves to the even one *)
Definition py_round (x : Q) : Z :=
  let f := Qfloor x in
  let r := (x - inject_Z f)%Q in
  if negb (Qle_bool (1 # 2) r) then f
  else if negb (Qle_bool r (1 # 2)) then f + 1
  else if Z.even f then f else f + 1.
(** the format ,.0f of a whole number that is not negative: its digits in groups of three *)
Fixpoint grouped (fuel : nat) (n : Z) : list Z :=
  match fuel with
  | O => itoa n
  | S f => if n <? 1000 then itoa n else grouped f (n / 1000) ++ lit "," ++ pad 3 (itoa (n mod 1000))
  end.
(** plot.py:422-426 rounder2, for numbers of kilobytes below 10^21 *)
Definition rounder2 (x : Q) : list Z :=
  if negb (Qle_bool x 5) then grouped 7 (py_round x)
  else let n := py_round (x * 10) in itoa (n / 10) ++ lit "." ++ itoa (n mod 10).
(** plot.py:279: the ratio of the last column, from the texts of the kilobytes with and without authentication, before it is rounded *)
Definition bw_ratio (auth plain : list Z) : res Q :=
  a <- py_float auth ;;
  p <- py_float plain ;;
  if p =? 0 then Err "float division by zero" else Ok (inject_Z a / inject_Z p)%Q.
