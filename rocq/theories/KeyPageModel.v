(** Model of the way from a typed e-mail address to the key shown (cmd/grpc/client/manager/mod.go GetKey,
    cmd/grpc/client/web/mod.go, cmd/grpc/client/interactive/mod.go, cmd/grpc/client/main.go, lib/pgp/pgp.go ArmorKey) and of
    the start of a server (cmd/grpc/server/main.go). Strings are lists of bytes. *)
From Coq Require Import String ZArith List Bool.
From Verif Require Import GoBase FieldModel FSSModel EncodingModel MerkleModel PredicateModel PointModel DirectoryModel FrontendModel
  FilesModel.
Import ListNotations.
Open Scope Z_scope.
Open Scope go_scope.

(** xerrors.Errorf("...: %v", err) around a call that may fail *)
Definition wrap {A} (prefix : string) (r : res A) : res A :=
  match r with Err m => Err (prefix ++ m)%string | _ => r end.

(** The external OpenPGP library: lower-casing, reading a key ring, writing a key and armoring bytes (with the fixed header). *)
Record openpgp := mkPgp {
  g_lower : list Z -> list Z; g_read : list Z -> res (list entity);
  g_serialize : entity -> res (list Z); g_armor : list Z -> list Z
}.

(** lib/pgp/pgp.go:266-281 ArmorKey; writing into a bytes.Buffer does not fail *)
Definition armor_key (G : openpgp) (e : entity) : res (list Z) :=
  buf <- g_serialize G e ;; Ok (g_armor G buf).

(** cmd/grpc/client/manager/mod.go:71-142 GetKey and cmd/grpc/client/main.go:278-340 retrieveKeyGivenId: the armored key.
    The log lines and the time that are printed besides are left out. *)
Definition actor_get_key (G : openpgp) (H B : hash_fn) (D : dpf_scheme) (inf : info) (rnd : list Z)
  (servers : list (list Z -> res (list Z))) (arrive : list (list Z) -> list (list Z)) (id : list Z) : res (list Z) :=
  hashKey <- hash_to_index B id (i_rows inf * i_cols inf) ;;
  q <- wrap "error when executing query: " (pir_query_bytes D inf rnd (be_enc 4 (u32 hashKey)) (zlen servers)) ;;
  let '(ix, queries) := q in
  answers <- ask servers queries ;;
  result <- wrap "error during reconstruction: " (reconstruct_pir H inf ix (arrive answers)) ;;
  result <- unpad_block result ;;
  e <- wrap "error retrieving key from the block: " (recover_key_from_block (g_lower G) (g_read G) result id) ;;
  wrap "error armor-encoding the key: " (armor_key G e).

(** manager/mod.go:252-258 and client/main.go:383-389: database.Info made of a DatabaseInfo response *)
Definition info_of (d : db_info) : info :=
  mkInfo' (di_rows d) (di_cols d) (di_bs d) [] (text_of (di_type d)) (di_root d) (di_plen d).

(** web/mod.go:41 and interactive/mod.go:21 keyNotFoundErr *)
Definition key_not_found_err : string := "no key with the given email id is found".
(** strings.Contains(m, keyNotFoundErr), web/mod.go:237 and interactive/mod.go:193 *)
Definition is_not_found (m : string) : bool :=
  match String.index 0 key_not_found_err m with Some _ => true | None => false end.

(** url.Values.Get: the first value of that name, or the empty string *)
Fixpoint form_get (name : list Z) (form : list (list Z * list Z)) : list Z :=
  match form with
  | [] => []
  | (n, v) :: t => if bytes_equal n name then v else form_get name t
  end.

(** web/mod.go:211-248 gethandleRetreive. [form] is what ParseForm finds in the body, [infos] the DatabaseInfo responses in
    the order in which they arrive. *)
Definition web_retrieve (G : openpgp) (H B : hash_fn) (D : dpf_scheme) (infos : list (option db_info)) (rnd : list Z)
  (servers : list (list Z -> res (list Z))) (arrive : list (list Z) -> list (list Z))
  (form : res (list (list Z * list Z))) : res page :=
  match form with
  | Err m => Ok (http_error no_page (lit "failed to parse form: " ++ lit m) 500)
  | Panic m => Panic m
  | Fatal m => Fatal m
  | Ok f =>
    let email := form_get (lit "email") f in
    if bytes_equal email [] then Ok (http_error no_page (lit "email argument not found") 400) else
    match get_db_infos infos with
    | Err m => Ok (http_error no_page (lit "failed to get db info: " ++ lit m) 500)
    | Panic m => Panic m
    | Fatal m => Fatal m
    | Ok is =>
      d <- go_index is 0 ;;
      match actor_get_key G H B D (info_of d) rnd servers arrive email with
      | Ok result => Ok (write no_page result)
      | Err m =>
        if is_not_found m then Ok (write no_page (lit "key not found in block"))
        else Ok (http_error no_page (lit "failed to get result: " ++ lit m) 500)
      | Panic m => Panic m
      | Fatal m => Fatal m
      end
    end
  end.

(** interactive/mod.go:172-205 downloadKey: the lines it prints and how it ends. [typed] is None if the prompt fails. *)
Definition download_key (G : openpgp) (H B : hash_fn) (D : dpf_scheme) (infos : list (option db_info)) (rnd : list Z)
  (servers : list (list Z -> res (list Z))) (arrive : list (list Z) -> list (list Z)) (typed : option (list Z))
  : list (list Z) * res unit :=
  match typed with
  | None => ([], Err "failed to ask")
  | Some email =>
    let first := lit "email is " ++ email in
    match get_db_infos infos with
    | Err m => ([first], Err ("failed to get db info: " ++ m)%string)
    | Panic m => ([first], Panic m)
    | Fatal m => ([first], Fatal m)
    | Ok is =>
      match (d <- go_index is 0 ;; actor_get_key G H B D (info_of d) rnd servers arrive email) with
      | Ok result => ([first; lit "Result: " ++ result; lit "done."], Ok tt)
      | Err m =>
        if is_not_found m then ([first; lit "No key is found for the given email"; lit "done."], Ok tt)
        else ([first], Err ("failed to get result: " ++ m)%string)
      | Panic m => ([first], Panic m)
      | Fatal m => ([first], Fatal m)
      end
    end
  end.

(** fmt.Scanln(&id) into a string: the first run of bytes other than the space, after spaces; the error is dropped
    (client/main.go:166). Other white space is left out. *)
Fixpoint word (line : list Z) : list Z :=
  match line with
  | [] => []
  | b :: t => if (b =? 32) || (b =? 10) then [] else b :: word t
  end.
Fixpoint scanln (line : list Z) : list Z :=
  match line with
  | [] => []
  | b :: t => if b =? 32 then scanln t else word line
  end.

(** What a client knows of a server: how it answers point queries and predicate queries. *)
Record remote := mkRemote { r_point : list Z -> res (list Z); r_pred : qinfo * fss_key -> option (list Z) }.

(** client/main.go:150-192 exec, and 112-115: an error ends the process. The connections are visited in the order [order]. *)
Definition cli_exec (G : openpgp) (H B : hash_fn) (D : dpf_scheme) (enc : cipher) (alphas : list Z) (gr : gen_rand)
  (infos : list (option db_info)) (rnd : list Z) (order : list remote) (arrive : list (list Z) -> list (list Z))
  (scheme : list Z) (f : cli_flags) (line : list Z) : res (list Z) :=
  d <- retrieve_db_info infos ;;
  let or_die (r : res (list Z)) := match r with Err m => Fatal m | _ => r end in
  if bytes_equal scheme (lit "pointPIR") || bytes_equal scheme (lit "pointVPIR") then
    id <- (if bytes_equal (f_id f) [] then
             if bytes_equal (scanln line) [] then Fatal "id not provided" else Ok (scanln line)
           else Ok (f_id f)) ;;
    or_die (actor_get_key G H B D (info_of d) rnd (map r_point order) arrive id)
  else if bytes_equal scheme (lit "complexPIR") then
    or_die (out <- cli_complex enc H 1 alphas gr r_pred order arrive f ;; Ok (itoa out))
  else if bytes_equal scheme (lit "complexVPIR") then
    or_die (out <- cli_complex enc H 5 alphas gr r_pred order arrive f ;; Ok (itoa out))
  else Fatal ("wrong scheme: " ++ text_of scheme)%string.

(** ** Starting a server *)

(** lib/utils/tls.go:161-174: ServerCertificates has numServers = 5 elements *)
Definition certificates : list Z := [0; 1; 2; 3; 4].

(** The server chosen at cmd/grpc/server/main.go:140-161: a point server made by NewPIR, or a predicate server with its number
    of values and its server number; and the address it listens on. *)
Inductive service :=
| PointService (db : bytes_db)
| PredicateService (values : nat) (serverNum : Z) (columns : Z) (rows : list entity).

(** cmd/grpc/server/main.go:95-118: the database for a scheme; a failure ends the process *)
Definition load_service (G : openpgp) (H B : hash_fn) (R : runtime) (scheme : list Z) (sid : Z)
  (files : list (res (list pkey))) : res service :=
  let or_die {A} (r : res A) : res A := match r with Err m => Fatal m | _ => r end in
  if bytes_equal scheme (lit "pointPIR") then
    db <- or_die (generate_real_key_bytes B R files true) ;; Ok (PointService db)
  else if bytes_equal scheme (lit "pointVPIR") then
    db <- or_die (generate_real_key_merkle H B R files true) ;; Ok (PointService db)
  else if bytes_equal scheme (lit "complexPIR") then
    db <- or_die (generate_real_key_db (g_read G) R files) ;; Ok (PredicateService 1 (sid mod 256) (fst db) (snd db))
  else if bytes_equal scheme (lit "complexVPIR") then
    db <- or_die (generate_real_key_db (g_read G) R files) ;; Ok (PredicateService 5 (sid mod 256) (fst db) (snd db))
  else Fatal ("unknown scheme: " ++ text_of scheme)%string.

(** cmd/grpc/server/main.go:82-161 main from the configuration to the choice of the server. [es] are the tables of the
    configuration file in the order in which the map is visited, [d] is the key directory and [cap] as in get_sks_files,
    [can_listen] says whether net.Listen succeeds on an address. Log file, profiling and the number of cores (which changes the time
    taken only) are left out. *)
Definition start_server (G : openpgp) (H B : hash_fn) (R : runtime) (es : list entry) (cap : nat) (d : dir)
  (can_listen : list Z -> bool) (sid : Z) (scheme : list Z) (filesNumber : Z) : res (list Z * service) :=
  addrs <- (match load_config es with Err m => Fatal m | r => r end) ;;
  addr <- server_address addrs sid ;;
  svc <- (if bytes_equal scheme (lit "pointPIR") || bytes_equal scheme (lit "pointVPIR")
             || bytes_equal scheme (lit "complexPIR") || bytes_equal scheme (lit "complexVPIR")
          then names <- get_sks_files cap filesNumber d ;;
               load_service G H B R scheme sid (map (open_keys d) names)
          else Fatal ("unknown scheme: " ++ text_of scheme)%string) ;;
  _ <- go_index certificates sid ;;
  if can_listen addr then Ok (addr, svc) else Fatal "failed to listen".

(** cmd/grpc/server/main.go:239-254 DatabaseInfo. The database of a predicate server has NumColumns and the root [0] only
    (lib/database/pgp.go:29-32). *)
Definition database_info (s : service) : db_info :=
  match s with
  | PointService db =>
    let i := b_info db in
    mkDI (u32 (i_rows i)) (u32 (i_cols i)) (u32 (i_bs i)) (lit (i_type i)) (i_root i) (u32 (i_prooflen i))
  | PredicateService _ _ n _ => mkDI 0 (u32 n) 0 [] [0] 0
  end.

(** How a started server answers point queries: lib/server/point.go:49-52 on a server made by NewPIR. What a predicate server
    (lib/server/predicate_apir.go:39-55, predicate_pir.go) makes of the bytes of a point query is the argument [other]. *)
Definition answer_point (D : dpf_scheme) (other : list Z -> res (list Z)) (s : service) (q : list Z) : res (list Z) :=
  match s with
  | PointService db => pir_answer D false db q
  | PredicateService _ _ _ _ => other q
  end.
