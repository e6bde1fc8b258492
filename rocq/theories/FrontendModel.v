(** Model of the deployment's glue code: configuration (lib/utils/config.go), the command line client (cmd/grpc/client/main.go),
    the connection manager (cmd/grpc/client/manager/mod.go), the web and the interactive front ends
    (cmd/grpc/client/web/mod.go, cmd/grpc/client/interactive/mod.go). Strings are lists of bytes. *)
From Coq Require Import String Ascii ZArith List Bool.
From Verif Require Import GoBase FieldModel FSSModel EncodingModel MerkleModel PredicateModel.
Import ListNotations.
Open Scope Z_scope.
Open Scope go_scope.

(** a Go string literal as bytes, and back *)
Definition lit (s : string) : list Z := map (fun c => Z.of_nat (nat_of_ascii c)) (list_ascii_of_string s).
Definition text_of (l : list Z) : string := string_of_list_ascii (map (fun b => ascii_of_nat (Z.to_nat b)) l).

(** ** strconv *)

Definition digit (b : Z) : option Z := if (48 <=? b) && (b <=? 57) then Some (b - 48) else None.
Fixpoint digits (acc : Z) (s : list Z) : option Z :=
  match s with
  | [] => Some acc
  | b :: t => match digit b with None => None | Some d => digits (10 * acc + d) t end
  end.
(** strconv.Atoi: an optional sign, decimal digits, and the range of int *)
Definition atoi (s : list Z) : option Z :=
  let '(neg, ds) := match s with 43 :: t => (false, t) | 45 :: t => (true, t) | _ => (false, s) end in
  match ds with
  | [] => None
  | _ => match digits 0 ds with
         | None => None
         | Some v => let v' := if neg then - v else v in
                     if (- 2 ^ 63 <=? v') && (v' <? 2 ^ 63) then Some v' else None
         end
  end.
Fixpoint decimal (fuel : nat) (v : Z) : list Z :=
  match fuel with
  | O => []
  | S f => (if v <? 10 then [] else decimal f (v / 10)) ++ [48 + v mod 10]
  end.
(** fmt.Sprintf("%d", v) for an int or a uint32 *)
Definition itoa (v : Z) : list Z := if v <? 0 then 45 :: decimal 20 (- v) else decimal 20 v.

(** ** Configuration *)

(** One table [Servers.key] of the file (config.go:11-21); Index is never read. *)
Record entry := mkEntry { e_key : list Z; e_ip : list Z; e_port : Z }.
(** config.go:38: fmt.Sprintf("%s:%d", server.IP, server.Port) *)
Definition address (e : entry) : list Z := e_ip e ++ 58 :: itoa (e_port e).
(** config.go:33-39, the loop over the map c.Servers, whose iteration order is the order of the argument *)
Fixpoint fill (es : list entry) (addrs : list (list Z)) : res (list (list Z)) :=
  match es with
  | [] => Ok addrs
  | e :: t =>
    match atoi (e_key e) with
    | None => Err "could not convert server index to integer"
    | Some i => a <- go_store addrs i (address e) ;; fill t a
    end
  end.
(** config.go:23-43 LoadConfig after decoding the file (TOML is external; its keys are distinct) *)
Definition load_config (es : list entry) : res (list (list Z)) := fill es (repeat [] (length es)).

(** cmd/grpc/server/main.go:92: addr := config.Addresses[*sid]; the flag's default is -1 (main.go:40) *)
Definition server_address (addrs : list (list Z)) (sid : Z) : res (list Z) := go_index addrs sid.
(** cmd/grpc/server/main.go:343-356 getSksFiles: files[:filesNumber] *)
Definition sks_files (files : list (list Z)) (n : Z) : res (list (list Z)) := go_slice files 0 n.

(** ** Database information *)

(** The fields of database.Info a DatabaseInfo response carries (server/main.go:243-250, client/main.go:384-390). *)
Record db_info := mkDI { di_rows : Z; di_cols : Z; di_bs : Z; di_type : list Z; di_root : list Z; di_plen : Z }.
Definition same_shape (a b : db_info) : bool :=
  (di_rows a =? di_rows b) && (di_cols a =? di_cols b) && (di_bs a =? di_bs b).
(** client/main.go:448-461 equalDBInfo *)
Definition equal_db_info (infos : list db_info) : bool :=
  match infos with [] => true | x :: _ => forallb (same_shape x) infos end.
(** responses in order of arrival; a failed call ends the process (client/main.go:376-379, manager/mod.go:247-250) *)
Fixpoint collect {A} (rs : list (option A)) : res (list A) :=
  match rs with
  | [] => Ok []
  | Some a :: t => l <- collect t ;; Ok (a :: l)
  | None :: _ => Fatal "could not send request"
  end.
(** client/main.go:342-371 retrieveDBInfo *)
Definition retrieve_db_info (rs : list (option db_info)) : res db_info :=
  infos <- collect rs ;;
  if equal_db_info infos then go_index infos 0 else Fatal "got different database info from servers".
(** manager/mod.go:142-181 GetDBInfos; the log line at 178 reads the first element *)
Definition get_db_infos (rs : list (option db_info)) : res (list db_info) :=
  infos <- collect rs ;;
  if equal_db_info infos then _ <- go_index infos 0 ;; Ok infos else Err "db not equal".

(** ** Sending queries *)

(** client/main.go:397-407 and manager/mod.go:192-198: the j-th connection gets queries[j]; a failed call ends the process
    (client/main.go:424-427, manager/mod.go:226-229). *)
Fixpoint send_all {C Q A} (serve : C -> Q -> option A) (conns : list C) (queries : list Q) (j : Z) : res (list A) :=
  match conns with
  | [] => Ok []
  | c :: t =>
    q <- go_index queries j ;;
    match serve c q with
    | None => Fatal "could not query"
    | Some a => l <- send_all serve t queries (j + 1) ;; Ok (a :: l)
    end
  end.

(** client/main.go:126-135: one connection per address in a map; the map is later iterated in any order of its keys *)
Definition addr_eq_dec : forall a b : list Z, {a = b} + {a <> b} := list_eq_dec Z.eq_dec.
Definition connections (addrs : list (list Z)) : list (list Z) := nodup addr_eq_dec addrs.

(** One predicate query through the connections [conns] (in iteration order), up to the decoded result:
    client/main.go:238-256 and, after the database information is known, web/mod.go:388-401 = interactive/mod.go:451-464.
    [arrive] is the order in which the answers come out of the channel. [executions] is 5 for NewPredicateAPIR and 1 for
    NewPredicatePIR. *)
Definition exchange {C} (enc : cipher) (executions : nat) (alphas : list Z) (r : gen_rand)
           (serve : C -> qinfo * fss_key -> option (list Z)) (conns : list C)
           (arrive : list (list Z) -> list (list Z)) (numServers : Z) (q : qinfo) (inp : list bool) : res Z :=
  ks <- client_query enc executions alphas r inp numServers ;;
  let '(k0, k1, _) := ks in
  answers <- send_all serve conns [(q, k0); (q, k1)] 0 ;;
  reconstruct_bytes executions alphas (arrive answers).

(** client/main.go:194-236 retrieveComplexQuery: the query built from the flags; None is an unknown target *)
Record cli_flags := mkF { f_and : bool; f_avg : bool; f_target : list Z; f_from_start : Z; f_from_end : Z; f_id : list Z }.
Definition cli_query (H : hash_fn) (f : cli_flags) : res (qinfo * list bool) :=
  if negb (f_and f) && negb (f_avg f) then
    if bytes_equal (f_target f) (lit "email") then
      let i := mkInfo target_userid (f_from_start f) (f_from_end f) (f_and f) false false in
      b <- to_email_client H i (f_id f) ;; Ok (i, b)
    else if bytes_equal (f_target f) (lit "algo") then
      Ok (mkInfo target_algo 0 0 false false false, to_pka_client (text_of (f_id f)))
    else if bytes_equal (f_target f) (lit "creation") then
      b <- to_creation_client (atoi (f_id f)) ;; Ok (mkInfo target_creation 0 0 false false false, b)
    else Err "unknown target"
  else if f_and f && negb (f_avg f) then
    let i := mkInfo target_userid 0 (zlen (f_id f)) (f_and f) false false in
    b <- to_and_client H i (f_id f) ;; Ok (i, b)
  else if f_and f && f_avg f then
    let i := mkInfo target_userid (f_from_start f) (f_from_end f) (f_and f) (f_avg f) false in
    b <- to_email_client H i (f_id f) ;; Ok (i, b)
  else Panic "query not implemented".

(** client/main.go:194-276 with [order] = the iteration order of the connection map *)
Definition cli_complex {C} (enc : cipher) (H : hash_fn) (executions : nat) (alphas : list Z) (r : gen_rand)
           (serve : C -> qinfo * fss_key -> option (list Z)) (order : list C)
           (arrive : list (list Z) -> list (list Z)) (f : cli_flags) : res Z :=
  qi <- cli_query H f ;;
  exchange enc executions alphas r serve order arrive (zlen order) (fst qi) (snd qi).

(** web/mod.go:376-407 = interactive/mod.go:439-470 executeStatsQuery *)
Definition execute_stats {C} (enc : cipher) (alphas : list Z) (r : gen_rand) (infos : list (option db_info))
           (serve : C -> qinfo * fss_key -> option (list Z)) (servers : list C)
           (arrive : list (list Z) -> list (list Z)) (q : qinfo) (inp : list bool) : res Z :=
  is <- get_db_infos infos ;;
  exchange enc 5 alphas r serve servers arrive (zlen is) q inp.

(** ** The web front end *)

(** http.ResponseWriter: the status (200 unless set before the first write) and the body. *)
Record page := mkPage { p_status : option Z; p_body : list Z }.
Definition no_page : page := mkPage None [].
Definition status_or (p : page) (d : Z) : option Z := match p_status p with Some s => Some s | None => Some d end.
(** w.Write *)
Definition write (p : page) (b : list Z) : page := mkPage (status_or p 200) (p_body p ++ b).
(** http.Error: sets the status if none is set yet, and writes the message and a newline *)
Definition http_error (p : page) (m : list Z) (code : Z) : page := mkPage (status_or p code) (p_body p ++ m ++ [10]).

(** A handler's outcome: [Ok] a page; [Panic]: net/http recovers and drops the connection; [Fatal]: the process exits. *)

(** web/mod.go:251-304 getHandleCountEmail on a form that parses; absent fields read as "". [exec] is executeStatsQuery. *)
Definition web_email (H : hash_fn) (exec : qinfo -> list bool -> res Z) (position text : list Z) : res page :=
  if bytes_equal position [] then Ok (http_error no_page (lit "position argument not found") 400)
  else if bytes_equal text [] then Ok (http_error no_page (lit "text argument not found") 400)
  else
    let count fs fe :=
      let i := mkInfo target_userid fs fe false false false in
      inp <- to_email_client H i text ;;
      match exec i inp with
      | Ok c => Ok (write no_page (lit "count: " ++ itoa c))
      | Err m => Ok (http_error no_page (lit "failed to execute count query: " ++ lit m) 500)
      | Panic m => Panic m
      | Fatal m => Fatal m
      end in
    if bytes_equal position (lit "begin") then count (zlen text) 0
    else if bytes_equal position (lit "end") then count 0 (zlen text)
    else Ok (http_error no_page (lit "unknown position: " ++ position) 500).

(** web/mod.go:334-340 and 365-371: after an error the handler goes on with count = 0 *)
Definition then_count (r : res Z) : res page :=
  match r with
  | Ok c => Ok (write no_page (lit "count: " ++ itoa c))
  | Err m => Ok (write (http_error no_page (lit "failed to execute count query: " ++ lit m) 500) (lit "count: " ++ itoa 0))
  | Panic m => Panic m
  | Fatal m => Fatal m
  end.
(** web/mod.go:307-342 getHandleCountAlgo *)
Definition web_algo (exec : qinfo -> list bool -> res Z) (algo : list Z) : res page :=
  if bytes_equal algo [] then Ok (http_error no_page (lit "algo argument not found") 400)
  else then_count (exec (mkInfo target_algo 0 0 false false false) (to_pka_client (text_of algo))).
(** web/mod.go:345-373 getHandleCountTimestamp *)
Definition web_year (exec : qinfo -> list bool -> res Z) (year : list Z) : res page :=
  if bytes_equal year [] then Ok (http_error no_page (lit "year argument not found") 400)
  else inp <- to_creation_client (atoi year) ;; then_count (exec (mkInfo target_creation 0 0 false false false) inp).

(** ** The interactive front end *)

(** interactive/mod.go:282-323 getCountByEmailQuery: [ending] is the choice "end with" *)
Definition interactive_email (H : hash_fn) (ending : bool) (q : list Z) : res (qinfo * list bool) :=
  let i := if ending then mkInfo target_userid 0 (zlen q) false false false else mkInfo target_userid (zlen q) 0 false false false in
  b <- to_email_client H i q ;; Ok (i, b).
(** interactive/mod.go:383-436 getAvg *)
Definition interactive_avg (H : hash_fn) (ending : bool) (q : list Z) : res (qinfo * list bool) :=
  let i := if ending then mkInfo target_userid 0 (zlen q) true true false else mkInfo target_userid (zlen q) 0 true true false in
  b <- to_email_client H i q ;; Ok (i, b).
(** interactive/mod.go:350-381 getCountByCreationQuery; the validator admits non-negative integers only *)
Definition interactive_year (y : list Z) : res (qinfo * list bool) :=
  match atoi y with
  | Some v => if v <? 0 then Err "please enter a positive integer"
              else b <- to_creation_client (Some v) ;; Ok (mkInfo target_creation 0 0 false false false, b)
  | None => Err "please enter a positive integer"
  end.
