(** Model of a run of the multi-server benchmark for predicate queries, from the start of the servers to what the client logs:
    simulations/multi/server/server.go and simulations/multi/client/client.go, with queries and answers as bytes (GobModel.v). *)
From Coq Require Import String ZArith List Bool.
From Verif Require Import GoBase EncodingModel MerkleModel PrgModel PointModel LWEModel DirectoryModel FieldModel FSSModel PredicateModel FrontendModel
  KeyPageModel MultiModel BenchModel ChannelModel GobModel.
Import ListNotations.
Open Scope Z_scope.
Open Scope go_scope.

(** ** Servers *)

(** simulations/multi/server/server.go:122-139: what the server runs. [sn] is byte(sid). *)
Inductive multi_service :=
| MultiPoint (two : bool) (db : bytes_db)
| MultiPredicate (values : nat) (sn : Z) (db : list key_info).

(** server.go:110 *)
Definition num_identifiers : Z := 100000.
(** server.go:109 and 134-137 with lib/server/predicate_apir.go:29 and predicate_pir.go:28; client.go:146-151 with
    lib/client/predicate_apir.go:21 and predicate_pir.go:19: number of values of a predicate scheme *)
Definition predicate_values (scheme : string) : option nat :=
  if (scheme =? "fss-classic")%string then Some 1%nat else if (scheme =? "fss-auth")%string then Some 5%nat else None.

(** server.go:92-139 the database, of [n] random keys for the predicate schemes, and the server over it *)
Definition multi_service_of (n : Z) (H : hash_fn) (ks : nat -> Z) (zone : option Z) (dr : nat -> draws) (f : sflags) (sid : Z) : res multi_service :=
  _ <- multi_rows f ;;
  match predicate_values (s_scheme f) with
  | Some values => db <- or_fatal (create_random_keys_db zone dr n) ;; Ok (MultiPredicate values (sid mod 256) db)
  | None => db <- multi_db H ks f ;; Ok (MultiPoint (s_servers f =? 2) db)
  end.

(** server.go:34-139 and 232-246 readServerID: [sid_file] is the number read from the file sid, [config] the configuration file and
    [listen] what net.Listen returns. Result: the address the server listens at, and what it runs. Log files are left out. *)
Definition multi_server_start (n : Z) (H : hash_fn) (ks : nat -> Z) (zone : option Z) (dr : nat -> draws) (sid_file : res Z) (config : res (list entry))
           (listen : list Z -> res unit) (f : sflags) : res (list Z * multi_service) :=
  sid <- or_fatal sid_file ;;
  es <- or_fatal config ;;
  addrs <- or_fatal (load_config es) ;;
  addr <- go_index addrs sid ;;
  _ <- server_peer sid ;;
  _ <- or_fatal (listen addr) ;;
  s <- multi_service_of n H ks zone dr f sid ;;
  Ok (addr, s).

(** server.go:196-216 DatabaseInfo *)
Definition multi_info (s : multi_service) : db_info :=
  match s with
  | MultiPoint _ db => database_info (PointService db)
  | MultiPredicate _ _ db => mkDI 0 (u32 (zlen db)) 0 [] [] 0
  end.
(** server.go:218-230 Query; the logged number is the length of the answer *)
Definition multi_answer (g : gobs) (D : dpf_scheme) (enc : cipher) (H : hash_fn) (now : nat -> Z) (fresh : freshes) (s : multi_service) (b : list Z)
  : res (list Z) :=
  match s with
  | MultiPoint two db => pir_answer D two db b
  | MultiPredicate values sn db => answer_query_bytes g enc H values sn db (length db) now fresh b
  end.

(** ** Client *)

(** What happens during a repetition: what the client draws, the order in which it visits its connections and the order in which
    answers arrive. *)
Record round C := mkRound { ro_alphas : list Z; ro_rand : gen_rand; ro_order : list C; ro_arrive : list (list Z) -> list (list Z) }.
Arguments mkRound {C}. Arguments ro_alphas {C}. Arguments ro_rand {C}. Arguments ro_order {C}. Arguments ro_arrive {C}.

(** client.go:168-201 one repetition of retrieveComplexPIR: the logged number of bytes and the result, which the program drops.
    log.Fatal on every error. *)
Definition complex_round {C} (g : gobs) (enc : cipher) (values : nat) (serve : C -> list Z -> res (list Z)) (inputSize : Z) (text : list Z) (h : round C)
  : res (Z * Z) :=
  b <- or_fatal (encode_client g (Some (mkInfo target_userid inputSize 0 false false false, []), byte_to_bits text)) ;;
  queries <- or_fatal (predicate_query_bytes g enc values (ro_alphas h) (ro_rand h) b (zlen (ro_order h))) ;;
  answers <- send_all (fun c b => match serve c b with Ok a => Some a | _ => None end) (ro_order h) queries 0 ;;
  out <- or_fatal (reconstruct_bytes values (ro_alphas h) (ro_arrive h answers)) ;;
  Ok (zsum (map zlen queries), out).

(** client.go:282-344 retrieveDBInfo with equalDBInfo: [rs] are the descriptions in order of arrival *)
Definition multi_agree (rs : list (option db_info)) : res db_info :=
  infos <- collect rs ;;
  if forallb (fun y => match infos with x :: _ => same_shape x y | [] => true end) infos then go_index infos 0
  else Fatal "got different database info from servers".

(** client.go:111-157 main and exec and 159-168 retrieveComplexPIR, for the predicate schemes: the text to search for is drawn once *)
Definition multi_predicate_run (g : gobs) (enc : cipher) (scheme : string) (addrs : list (list Z)) (numServers : Z) (rs : list (option db_info))
           (serve : list Z -> list Z -> res (list Z)) (inputSize : Z) (draw : nat -> Z) (rounds : nat -> round (list Z)) (repetitions : Z)
  : res (list (Z * Z)) :=
  _ <- multi_connect addrs numServers ;;
  _ <- multi_agree rs ;;
  match predicate_values scheme with
  | None => Fatal "wrong scheme"
  | Some values =>
    text <- ranstring draw inputSize ;;
    mapM (fun j => complex_round g enc values serve inputSize text (rounds j)) (range (Z.to_nat repetitions))
  end.

(** client.go:111-145 main and exec, for the point-query schemes: [rs] are the descriptions in order of arrival *)
Definition multi_point_run (D : dpf_scheme) (H : hash_fn) (addrs : list (list Z)) (numServers : Z) (rs : list (option db_info))
           (serve : list Z -> list Z -> res (list Z)) (hap : nat -> nat -> happening (list Z)) (pick : Z -> Z)
           (elemBitSize bitsToRetrieve : Z) (repetitions : nat) : res (list (Z * list (list Z))) :=
  multi_exec D H addrs numServers (map (option_map info_of) rs) (fun c b => match serve c b with Ok a => Some a | _ => None end)
    hap pick elemBitSize bitsToRetrieve repetitions.
