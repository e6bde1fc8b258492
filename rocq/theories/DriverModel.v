(** Model of the script that runs the multi-server benchmarks, simulations/multi/simul.py: the commands it gives to the machines, the flags
    that the programs read from them, the log files it collects, and the files that simulations/multi/plot.py opens.
    Left out: the connections to the machines, directories, waiting times, and how the servers are stopped. *)
From Coq Require Import String ZArith List Bool.
From Verif Require Import GoBase MerkleModel FrontendModel MultiModel LogModel ResultsModel.
Import ListNotations.
Open Scope Z_scope.
Open Scope go_scope.

(** ** Commands *)

(** simul.py:20 and 101-102 *)
Definition server_pir_command (logFile scheme : list Z) (dbLen elem nRows blockLen servers : Z) : list Z :=
  lit "screen -dm ./server -logFile=" ++ logFile ++ lit " -scheme=" ++ scheme ++ lit " -dbLen=" ++ itoa dbLen ++ lit " -elemBitSize=" ++ itoa elem ++
  lit " -nRows=" ++ itoa nRows ++ lit " -blockLen=" ++ itoa blockLen ++ lit " -servers=" ++ itoa servers ++ lit " && sleep 15".
(** simul.py:21 and 110-111 *)
Definition server_fss_command (logFile scheme : list Z) : list Z :=
  lit "screen -dm ./server -logFile=" ++ logFile ++ lit " -scheme=" ++ scheme ++ lit " && sleep 15".
(** simul.py:22 and 104-105 *)
Definition client_pir_command (logFile scheme : list Z) (repetitions elem bits : Z) : list Z :=
  lit "./client -logFile=" ++ logFile ++ lit " -scheme=" ++ scheme ++ lit " -repetitions=" ++ itoa repetitions ++ lit " -elemBitSize=" ++ itoa elem ++
  lit " -bitsToRetrieve=" ++ itoa bits.
(** simul.py:23 and 107-108 *)
Definition client_pir_multi_command (logFile scheme : list Z) (repetitions elem bits numServers : Z) : list Z :=
  lit "./client -logFile=" ++ logFile ++ lit " -scheme=" ++ scheme ++ lit " -repetitions=" ++ itoa repetitions ++ lit " -elemBitSize=" ++ itoa elem ++
  lit " -bitsToRetrieve=" ++ itoa bits ++ lit " -numServers=" ++ itoa numServers.
(** simul.py:24 and 113-114 *)
Definition client_fss_command (logFile scheme : list Z) (repetitions inputSize : Z) : list Z :=
  lit "./client -logFile=" ++ logFile ++ lit " -scheme=" ++ scheme ++ lit " -repetitions=" ++ itoa repetitions ++ lit " -inputSize=" ++ itoa inputSize.

(** The shell splits a command at blanks. Simplification: no quotes and no other special characters. *)
Definition words (s : list Z) : list (list Z) := filter (fun w => match w with [] => false | _ => true end) (split_on 32 s).
(** The arguments of a program: the words after its name, up to the next command *)
Fixpoint until_next (ws : list (list Z)) : list (list Z) :=
  match ws with [] => [] | w :: t => if bytes_equal w (lit "&&") then [] else w :: until_next t end.
Fixpoint args_of (program : list Z) (ws : list (list Z)) : res (list (list Z)) :=
  match ws with [] => Err "command not found" | w :: t => if bytes_equal w program then Ok (until_next t) else args_of program t end.

(** ** Flags *)

(** Go's package flag. Simplification: arguments -name=value with one dash, which is how the script writes them; everything else is refused. *)
Fixpoint split_once (c : Z) (s : list Z) : res (list Z * list Z) :=
  match s with
  | [] => Err "flag needs an argument"
  | x :: t => if x =? c then Ok ([], t) else p <- split_once c t ;; Ok (x :: fst p, snd p)
  end.
Definition flag_parts (arg : list Z) : res (list Z * list Z) := match arg with 45 :: t => split_once 61 t | _ => Err "not a flag" end.
Definition flag_int (v : list Z) : res Z := match atoi v with Some n => Ok n | None => Err "invalid value" end.
(** server.go:36-44: the name of the log file and the other flags *)
Definition set_server (st : list Z * sflags) (arg : list Z) : res (list Z * sflags) :=
  p <- flag_parts arg ;;
  let '(n, v) := p in
  let '(log, f) := st in
  if bytes_equal n (lit "logFile") then Ok (v, f)
  else if bytes_equal n (lit "scheme") then Ok (log, mkSF (text_of v) (s_elem f) (s_len f) (s_rows f) (s_block f) (s_servers f))
  else if bytes_equal n (lit "elemBitSize") then i <- flag_int v ;; Ok (log, mkSF (s_scheme f) i (s_len f) (s_rows f) (s_block f) (s_servers f))
  else if bytes_equal n (lit "dbLen") then i <- flag_int v ;; Ok (log, mkSF (s_scheme f) (s_elem f) i (s_rows f) (s_block f) (s_servers f))
  else if bytes_equal n (lit "nRows") then i <- flag_int v ;; Ok (log, mkSF (s_scheme f) (s_elem f) (s_len f) i (s_block f) (s_servers f))
  else if bytes_equal n (lit "blockLen") then i <- flag_int v ;; Ok (log, mkSF (s_scheme f) (s_elem f) (s_len f) (s_rows f) i (s_servers f))
  else if bytes_equal n (lit "servers") then i <- flag_int v ;; Ok (log, mkSF (s_scheme f) (s_elem f) (s_len f) (s_rows f) (s_block f) i)
  else Err "flag provided but not defined".
Definition server_flags (command : list Z) : res (list Z * sflags) :=
  args <- args_of (lit "./server") (words command) ;;
  foldM set_server ([], mkSF "" (-1) (-1) (-1) (-1) 2) args.
(** client.go:44-57 and 59-79: the flags of the client *)
Record mclient := mkMC { mc_log : list Z; mc_scheme : string; mc_reps : Z; mc_servers : Z; mc_elem : Z; mc_bits : Z; mc_input : Z }.
Definition set_client (f : mclient) (arg : list Z) : res mclient :=
  p <- flag_parts arg ;;
  let '(n, v) := p in
  if bytes_equal n (lit "logFile") then Ok (mkMC v (mc_scheme f) (mc_reps f) (mc_servers f) (mc_elem f) (mc_bits f) (mc_input f))
  else if bytes_equal n (lit "scheme") then Ok (mkMC (mc_log f) (text_of v) (mc_reps f) (mc_servers f) (mc_elem f) (mc_bits f) (mc_input f))
  else if bytes_equal n (lit "repetitions") then i <- flag_int v ;; Ok (mkMC (mc_log f) (mc_scheme f) i (mc_servers f) (mc_elem f) (mc_bits f) (mc_input f))
  else if bytes_equal n (lit "numServers") then i <- flag_int v ;; Ok (mkMC (mc_log f) (mc_scheme f) (mc_reps f) i (mc_elem f) (mc_bits f) (mc_input f))
  else if bytes_equal n (lit "elemBitSize") then i <- flag_int v ;; Ok (mkMC (mc_log f) (mc_scheme f) (mc_reps f) (mc_servers f) i (mc_bits f) (mc_input f))
  else if bytes_equal n (lit "bitsToRetrieve") then i <- flag_int v ;; Ok (mkMC (mc_log f) (mc_scheme f) (mc_reps f) (mc_servers f) (mc_elem f) i (mc_input f))
  else if bytes_equal n (lit "inputSize") then i <- flag_int v ;; Ok (mkMC (mc_log f) (mc_scheme f) (mc_reps f) (mc_servers f) (mc_elem f) (mc_bits f) i)
  else Err "flag provided but not defined".
Definition client_flags (command : list Z) : res mclient :=
  args <- args_of (lit "./client") (words command) ;;
  foldM set_client (mkMC [] "" (-1) 2 (-1) (-1) (-1)) args.

(** ** Experiments *)

(** simul.py:116, 155 and 212: the three kinds of experiments; [auth] chooses between the two types of each (200-210, 242-246) *)
Inductive kind := Point | PointMulti | Predicate.
Definition type_name (k : kind) (auth : bool) : list Z :=
  match k with Predicate => if auth then lit "auth" else lit "classic" | _ => if auth then lit "merkle" else lit "classic" end.
Definition scheme_name (k : kind) (auth : bool) : list Z := match k with Predicate => lit "fss-" ++ type_name k auth | _ => lit "pir-" ++ type_name k auth end.
(** simul.py:132, 171 and 223: the name of the log file of a run, on the servers and on the client. [key]: the length of the database, the
    number of servers or the length of the text *)
Definition log_name (k : kind) (auth : bool) (key : Z) : list Z :=
  match k with
  | Point => lit "pir_" ++ type_name k auth ++ lit "_" ++ itoa key ++ lit ".log"
  | PointMulti => lit "pir_" ++ type_name k auth ++ lit "_multi_" ++ itoa key ++ lit ".log"
  | Predicate => lit "fss_" ++ type_name k auth ++ lit "_" ++ itoa key ++ lit ".log"
  end.
(** The settings of simul.toml and of the file of an experiment *)
Record settings := mkSettings { se_reps : Z; se_bits : Z; se_elem : Z; se_rows : Z; se_block : Z }.
(** simul.py:160 *)
Definition multi_length : Z := 8589935000.
(** simul.py:135, 174 and 225: what all servers are told to run *)
Definition server_command (k : kind) (auth : bool) (s : settings) (key : Z) : list Z :=
  match k with
  | Point => server_pir_command (log_name k auth key) (scheme_name k auth) key (se_elem s) (se_rows s) (se_block s) 2
  | PointMulti => server_pir_command (log_name k auth key) (scheme_name k auth) multi_length (se_elem s) (se_rows s) (se_block s) key
  | Predicate => server_fss_command (log_name k auth key) (scheme_name k auth)
  end.
(** simul.py:141, 177 and 228 *)
Definition client_command (k : kind) (auth : bool) (s : settings) (key : Z) : list Z :=
  match k with
  | Point => client_pir_command (log_name k auth key) (scheme_name k auth) (se_reps s) (se_elem s) (se_bits s)
  | PointMulti => client_pir_multi_command (log_name k auth key) (scheme_name k auth) (se_reps s) (se_elem s) (se_bits s) key
  | Predicate => client_fss_command (log_name k auth key) (scheme_name k auth) (se_reps s) key
  end.

(** ** Log files *)

Inductive machine := AtServer (i : nat) | AtClient.
(** simul.py:150 and 153, the same in 187, 190, 237 and 240 *)
Definition saved_server (i : nat) (log : list Z) : list Z := lit "server_" ++ itoa (Z.of_nat i) ++ lit "_" ++ log.
Definition saved_client (log : list Z) : list Z := lit "client_" ++ log.
(** simul.py:192-198: in the experiment with several servers, files without measurements are removed *)
Definition clean (dir : list (list Z * list Z)) : list (list Z * list Z) :=
  filter (fun f => negb (contains (lit "multi") (fst f) && negb (contains (lit "stats") (snd f)))) dir.
(** simul.py:145-153, 182-198 and 232-240: the files of the run with [key], with [n] servers. [dir] is the directory of results, and
    [text m log] what the file [log] holds on the machine [m]. *)
Definition collect_key (text : machine -> list Z -> list Z) (n : nat) (k : kind) (auth : bool) (dir : list (list Z * list Z)) (key : Z) : list (list Z * list Z) :=
  let log := log_name k auth key in
  let dir := fold_left (fun d i => dict_set text_eq d (saved_server i log) (text (AtServer i) log)) (seq 0 n) dir in
  let dir := dict_set text_eq dir (saved_client log) (text AtClient log) in
  match k with PointMulti => clean dir | _ => dir end.
Definition collect_all (text : machine -> list Z -> list Z) (n : nat) (k : kind) (auth : bool) (keys : list Z) (dir : list (list Z * list Z)) : list (list Z * list Z) :=
  fold_left (collect_key text n k auth) keys dir.
(** simul.py:268-298: the experiment without and the one with authentication, with the keys of their own files *)
Definition driver (text : machine -> list Z -> list Z) (n : nat) (k : kind) (plain auth : list Z) (dir : list (list Z * list Z)) : list (list Z * list Z) :=
  collect_all text n k true auth (collect_all text n k false plain dir).

(** ** The files that are plotted *)

(** multi/plot.py:120, 207 and 274 *)
Definition plot_scheme (k : kind) (auth : bool) : list Z :=
  match k with
  | Point => if auth then lit "pir_merkle" else lit "pir_classic"
  | PointMulti => if auth then lit "pir_merkle_multi" else lit "pir_classic_multi"
  | Predicate => if auth then lit "fss_auth" else lit "fss_classic"
  end.
(** multi/plot.py:52-55 getClientStats *)
Definition plot_client (scheme : list Z) (key : Z) : list Z := lit "client_" ++ scheme ++ lit "_" ++ itoa key ++ lit ".log".
(** multi/plot.py:57-59 getServerStats *)
Definition plot_server (i : nat) (scheme : list Z) (key : Z) : list Z := lit "server_" ++ itoa (Z.of_nat i) ++ lit "_" ++ scheme ++ lit "_" ++ itoa key ++ lit ".log".

(** ** Numbers of the servers *)

(** simul.py:45-51, 61-66, 80 and 250-254: the machine of table number i of the file, in the order of the file, gets the number i *)
Definition machine_of (tables : list entry) (sid : nat) : option (list Z) := option_map e_ip (nth_error tables sid).
(** multi/plot.py:137-140, 220-225 and 286-290: the numbers of a run, from the client's file and from those of the first servers: two, or as
    many as the run has. Simplification: a missing file is an error. *)
Definition plot_run (dir : list (list Z * list Z)) (k : kind) (auth : bool) (key : Z) : res (list Z * list Z) :=
  client <- dict_get text_eq dir (plot_client (plot_scheme k auth) key) ;;
  servers <- mapM (fun i => dict_get text_eq dir (plot_server i (plot_scheme k auth) key)) (seq 0 (match k with PointMulti => Z.to_nat key | _ => 2%nat end)) ;;
  plotted client servers.
