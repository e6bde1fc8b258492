(** Model of the log files of the multi-server benchmark (simulations/multi/client/client.go and simulations/multi/server/server.go) and of how
    the script that draws the figures reads them (simulations/multi/plot.py). *)
From Coq Require Import String ZArith List Bool.
From Verif Require Import GoBase EncodingModel FrontendModel PointModel MultiModel.
Import ListNotations.
Open Scope Z_scope.
Open Scope go_scope.

(** ** Writing *)

(** Package log with its default flags: date and time before the message, and a newline after it unless there is one. The number of
    digits is at least the width. *)
Record stamp := mkStamp { st_year : Z; st_month : Z; st_day : Z; st_hour : Z; st_min : Z; st_sec : Z }.
Definition pad (width : nat) (s : list Z) : list Z := repeat 48 (width - length s) ++ s.
Definition stamp_text (t : stamp) : list Z :=
  pad 4 (itoa (st_year t)) ++ 47 :: pad 2 (itoa (st_month t)) ++ 47 :: pad 2 (itoa (st_day t)) ++ 32 ::
  pad 2 (itoa (st_hour t)) ++ 58 :: pad 2 (itoa (st_min t)) ++ 58 :: pad 2 (itoa (st_sec t)) ++ [32].
Definition ended (msg : list Z) : list Z := if last msg 0 =? 10 then msg else msg ++ [10].
Definition log_line (prefix : list Z) (t : stamp) (msg : list Z) : list Z := prefix ++ stamp_text t ++ ended msg.
(** A log file: the messages in the order of the calls; [clock] gives the time of every line. *)
Fixpoint log_file (prefix : list Z) (clock : nat -> stamp) (msgs : list (list Z)) : list Z :=
  match msgs with
  | [] => []
  | m :: t => log_line prefix (clock O) m ++ log_file prefix (fun i => clock (S i)) t
  end.

(** fmt %f of a number of seconds. [us] is that number in microseconds, already rounded: how time.Duration.Seconds and %f round is left
    out. *)
Definition seconds (us : Z) : list Z := itoa (us / 1000000) ++ 46 :: pad 6 (itoa (us mod 1000000)).

(** A repetition of the client: for every block the servers in the order in which the requests were logged, the number of bytes sent, and
    the time. *)
Record measured := mkMeasured { me_blocks : list (list (list Z)); me_bytes : Z; me_us : Z }.

(** client.go:114 *)
Definition client_prefix : list Z := lit "[Client] ".
(** client.go:182-197 and 228-243, and 401 in runQueries *)
Definition block_messages (sent : list (list Z)) : list (list Z) :=
  lit "done with queries computation" :: map (fun a => lit "sent query to " ++ a) sent ++ [lit "done with block reconstruction"].
(** client.go:168-201 and 215-248: repetition [j] *)
Definition repetition_messages (repetitions : Z) (j : Z) (r : measured) : list (list Z) :=
  (lit "start repetition " ++ itoa (j + 1) ++ lit " out of " ++ itoa repetitions) ::
  concat (map block_messages (me_blocks r)) ++
  [lit "stats," ++ itoa j ++ lit "," ++ itoa (me_bytes r) ++ lit "," ++ seconds (me_us r)].
Fixpoint repetitions_messages (repetitions : Z) (j : Z) (rs : list measured) : list (list Z) :=
  match rs with
  | [] => []
  | r :: t => repetition_messages repetitions j r ++ repetitions_messages repetitions (j + 1) t
  end.
(** client.go:111-135: what a client that ends without an error logs. [conns] are the addresses in the order in which it connects (356),
    [asked] in the order in which the requests for descriptions were logged (321), [shown] is the description as text (308). *)
Definition client_messages (conns asked : list (list Z)) (shown : list Z) (repetitions : Z) (rs : list measured) : list (list Z) :=
  map (fun a => lit "connected to server " ++ a) conns ++ map (fun a => lit "sent databaseInfo request to " ++ a) asked ++
  (lit "databaseInfo: " ++ shown) :: repetitions_messages repetitions 0 rs.

(** server.go:48 *)
Definition server_prefix (sid : Z) : list Z := lit "[Server " ++ itoa sid ++ lit "] ".
(** What a server was asked, and the answer to a query *)
Inductive served := ServedInfo | ServedQuery (answer : res (list Z)).
(** server.go:196-230. Simplification: one request at a time, as the client of the benchmark sends them. *)
Definition served_messages (r : served) : list (list Z) :=
  match r with
  | ServedInfo => [lit "got databaseInfo request"]
  | ServedQuery (Ok a) => [lit "got query request"; lit "stats," ++ itoa (zlen a)]
  | ServedQuery _ => [lit "got query request"]
  end.
(** server.go:58 *)
Definition flags_message (sid : Z) (logFile : list Z) (f : sflags) : list Z :=
  lit "flags: " ++ itoa sid ++ lit " " ++ logFile ++ lit " " ++ lit (s_scheme f) ++ lit " " ++ itoa (s_len f) ++ lit " " ++ itoa (s_elem f) ++
  lit " " ++ itoa (s_rows f) ++ lit " " ++ itoa (s_block f).
(** server.go:34-184: a server that was told to stop. [pointer] is what is shown of the pointer to the flag (130), for two servers of a
    point-query scheme. *)
Definition server_messages (sid : Z) (logFile : list Z) (f : sflags) (pointer : list Z) (addr : list Z) (requests : list served) : list (list Z) :=
  flags_message sid logFile f ::
  (if ((s_scheme f =? "pir-classic") || (s_scheme f =? "pir-merkle"))%string && (s_servers f =? 2)
   then [lit "using DPF with numServers: " ++ pointer] else []) ++
  (lit "is listening at " ++ addr) :: lit "starting grpc server" :: concat (map served_messages requests) ++ [lit "clean shutdown of server done"].

(** ** Reading *)

(** Python's universal newlines *)
Fixpoint universal (s : list Z) : list Z :=
  match s with
  | [] => []
  | c :: t => if c =? 13 then 10 :: universal (match t with d :: t' => if d =? 10 then t' else t | [] => t end) else c :: universal t
  end.
(** for line in f *)
Fixpoint py_lines (s : list Z) : list (list Z) :=
  match s with
  | [] => []
  | c :: t => if c =? 10 then [10] :: py_lines t
              else match py_lines t with [] => [[c]] | l :: ls => (c :: l) :: ls end
  end.
Fixpoint starts (p s : list Z) : option (list Z) :=
  match p, s with
  | [], _ => Some s
  | x :: p, y :: s => if x =? y then starts p s else None
  | _ :: _, [] => None
  end.
(** What follows the first occurrence *)
Fixpoint find_sub (p s : list Z) : option (list Z) :=
  match starts p s with
  | Some r => Some r
  | None => match s with [] => None | _ :: t => find_sub p t end
  end.
(** p in s *)
Definition contains (p s : list Z) : bool := match find_sub p s with Some _ => true | None => false end.
(** s.partition(p)[2] *)
Definition partition2 (p s : list Z) : list Z := match find_sub p s with Some r => r | None => [] end.
(** s.split(c) *)
Fixpoint split_on (c : Z) (s : list Z) : list (list Z) :=
  match s with
  | [] => [[]]
  | x :: t => if x =? c then [] :: split_on c t
              else match split_on c t with [] => [[x]] | p :: ps => (x :: p) :: ps end
  end.
(** float(s), in millionths. Simplifications: numbers are digits with at most six decimals, everything else is refused; rounding to
    floating-point numbers is left out, which is exact for whole numbers below 2^53. *)
Definition py_float (s : list Z) : res Z :=
  match split_on 46 s with
  | [[]] => Err "could not convert string to float"
  | [a] => match digits 0 a with Some v => Ok (1000000 * v) | None => Err "could not convert string to float" end
  | [a; b] => match a, digits 0 a, digits 0 b with
              | _ :: _, Some v, Some w => if zlen b <=? 6 then Ok (1000000 * v + w * 10 ^ (6 - zlen b)) else Err "could not convert string to float"
              | _, _, _ => Err "could not convert string to float"
              end
  | _ => Err "could not convert string to float"
  end.
(** l[i] *)
Definition py_index (l : list (list Z)) (i : nat) : res (list Z) := match nth_error l i with Some x => Ok x | None => Err "list index out of range" end.
(** plot.py:35 and 47 *)
Definition stats_of (line : list Z) : list (list Z) := split_on 44 (partition2 (lit "stats,") (filter (fun c => negb (c =? 10)) line)).
Definition stats_lines (file : list Z) : list (list Z) := filter (contains (lit "stats")) (py_lines (universal file)).
(** plot.py:29-39 parseClientLog: numbers of bytes, and times *)
Definition parse_client_log (file : list Z) : res (list Z * list Z) :=
  l <- mapM (fun line => b <- py_index (stats_of line) 1 ;; bw <- py_float b ;; t <- py_index (stats_of line) 2 ;; tm <- py_float t ;; Ok (bw, tm)) (stats_lines file) ;;
  Ok (map fst l, map snd l).
(** plot.py:41-50 parseServerLog *)
Definition parse_server_log (file : list Z) : res (list Z) :=
  mapM (fun line => b <- py_index (stats_of line) 0 ;; py_float b) (stats_lines file).
(** plot.py:76, 226 and 289: [a + b for a,b in zip(bw, ...)] *)
Definition zip_add (a b : list Z) : list Z := map (fun p => fst p + snd p) (combine a b).
Fixpoint add_servers (bw : list Z) (servers : list (list Z)) : res (list Z) :=
  match servers with
  | [] => Ok bw
  | s :: t => l <- parse_server_log s ;; add_servers (zip_add bw l) t
  end.
(** plot.py:73-79, 219-229 and 284-292: the numbers of bytes and the times of a figure, before their median, from the log file of the client
    and those of the servers *)
Definition plotted (client : list Z) (servers : list (list Z)) : res (list Z * list Z) :=
  r <- parse_client_log client ;;
  bw <- add_servers (fst r) servers ;;
  Ok (bw, snd r).
