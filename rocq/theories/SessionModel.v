(** Model of the running front ends: their start (cmd/grpc/client/interactive/mod.go:64-169, cmd/grpc/client/web/mod.go:81-188,
    cmd/grpc/client/manager/mod.go:21-62), the menu of the interactive client and the routing of the web server, as sessions
    of any number of questions or requests. Strings are lists of bytes. *)
From Coq Require Import String ZArith List Bool.
From Verif Require Import GoBase FieldModel FSSModel EncodingModel MerkleModel PredicateModel PointModel DirectoryModel FrontendModel
  FilesModel KeyPageModel.
Import ListNotations.
Open Scope Z_scope.
Open Scope go_scope.

(** ** Start *)

(** interactive/mod.go:23 and web/mod.go:39 *)
Definition static_config : bool := true.
(** interactive/mod.go:36-38 = web/mod.go:54-56, and interactive/mod.go:52-54 = web/mod.go:70-72 *)
Definition builtin_point : list (list Z) := [lit "128.179.33.63:50050"; lit "128.179.33.75:50051"].
Definition builtin_complex : list (list Z) := [lit "128.179.33.63:50040"; lit "128.179.33.75:50041"].

(** interactive/mod.go:123-169 = web/mod.go:142-188 loadPointManager, loadComplexManager, and manager/mod.go:21-26 NewManager, of
    which only the addresses are used. [variable] is the name of the environment variable, [path] its value and [file] gives
    the tables of the TOML file at a path, in the order in which the map is visited. *)
Definition load_manager (static : bool) (variable : string) (builtin : list (list Z)) (path : list Z)
  (file : list Z -> res (list entry)) : res (list (list Z)) :=
  if bytes_equal path [] && negb static then Err ("Please provide " ++ variable ++ " as env variable")%string
  else if static then Ok builtin
  else wrap "failed to load config: " (es <- file path ;; load_config es).

(** manager/mod.go:45-56: one connection per address, in order; [dial] says how dialing an address ends *)
Fixpoint dial_all (dial : list Z -> res unit) (addrs : list (list Z)) : res (list (list Z)) :=
  match addrs with
  | [] => Ok []
  | a :: t => _ <- wrap ("failed to connect to " ++ text_of a ++ ": ")%string (dial a) ;; l <- dial_all dial t ;; Ok (a :: l)
  end.
(** manager/mod.go:36-62 Connect: an actor is the list of the addresses it is connected to *)
Definition connect (certs : res unit) (dial : list Z -> res unit) (addrs : list (list Z)) : res (list (list Z)) :=
  _ <- wrap "failed to load servers certificates: " certs ;; dial_all dial addrs.

(** What a front end finds when it starts: the two environment variables, the files, the certificates, the network. *)
Record startup := mkStartup {
  st_point : list Z; st_complex : list Z; st_file : list Z -> res (list entry); st_certs : res unit; st_dial : list Z -> res unit }.

(** log.Fatalf after an error *)
Definition or_die {A} (prefix : string) (r : res A) : res A :=
  match r with Err m => Fatal (prefix ++ m)%string | _ => r end.

(** interactive/mod.go:67-85 = web/mod.go:92-110: the addresses of the point actor and of the complex actor *)
Definition front_start (static : bool) (s : startup) : res (list (list Z) * list (list Z)) :=
  p <- or_die "failed to load point manager: " (load_manager static "VPIR_CONFIG_POINT" builtin_point (st_point s) (st_file s)) ;;
  c <- or_die "failed to load complex manager: " (load_manager static "VPIR_CONFIG_COMPLEX" builtin_complex (st_complex s) (st_file s)) ;;
  ps <- or_die "failed to connect point manager: " (connect (st_certs s) (st_dial s) p) ;;
  cs <- or_die "failed to connect complex manager: " (connect (st_certs s) (st_dial s) c) ;;
  Ok (ps, cs).

(** ** The world during one question or request *)

(** How the servers at each address describe themselves and answer, in which order descriptions and answers arrive, the
    randomness the clients draw, and the clock in nanoseconds. *)
Record world := mkWorld {
  w_pinfo : list Z -> option db_info; w_cinfo : list Z -> option db_info;
  w_point : list Z -> list Z -> res (list Z); w_pred : list Z -> qinfo * fss_key -> option (list Z);
  w_described : list (option db_info) -> list (option db_info); w_arrive : list (list Z) -> list (list Z);
  w_rnd : list Z; w_alphas : list Z; w_gr : gen_rand; w_now : Z }.

(** The code and libraries all questions share. *)
Record libraries := mkLib { l_pgp : openpgp; l_hash : hash_fn; l_bucket : hash_fn; l_dpf : dpf_scheme; l_cipher : cipher }.

(** interactive/mod.go:439-470 = web/mod.go:376-407 executeStatsQuery of the actor connected to [cs] *)
Definition stats_query (L : libraries) (cs : list (list Z)) (w : world) (q : qinfo) (inp : list bool) : res Z :=
  execute_stats (l_cipher L) (w_alphas w) (w_gr w) (w_described w (map (w_cinfo w) cs)) (w_pred w) cs (w_arrive w) q inp.

(** ** The interactive client *)

(** survey.Select: the position of the picked option; None if the prompt fails *)
Definition select {A} (options : list A) (pick : option nat) : res A :=
  match pick with
  | None => Err "failed to ask"
  | Some i => match nth_error options i with Some o => Ok o | None => Err "failed to ask" end
  end.
(** survey.Input: the text typed; None if the prompt fails *)
Definition input (typed : option (list Z)) : res (list Z) :=
  match typed with Some t => Ok t | None => Err "failed to ask" end.

(** interactive/mod.go:287 and 388 *)
Definition positions : list string := ["begin with"; "end with"]%string.
(** interactive/mod.go:330 *)
Definition algos : list string := ["RSA"; "ElGamal"; "DSA"; "ECDH"; "ECDSA"]%string.

(** interactive/mod.go:357-366: the validator of the year. The prompt is repeated until a text is admitted; [typed] are the
    attempts, and the prompt fails after the last. *)
Fixpoint admitted_year (typed : list (list Z)) : res (list Z) :=
  match typed with
  | [] => Err "failed to ask"
  | t :: rest => match atoi t with
                 | Some y => if y <? 0 then admitted_year rest else Ok t
                 | None => admitted_year rest
                 end
  end.

(** What a user answers to the prompts of a counting question, and of a question about statistics. *)
Inductive counting :=
| CountEmail (position : option nat) (text : option (list Z))
| CountAlgo (algo : option nat)
| CountYear (typed : list (list Z)).
Inductive stats :=
| Count (c : option counting)
| Average (position : option nat) (text : option (list Z)).

(** interactive/mod.go:254-265 with 282-381: the query and its description *)
Definition count_query (H : hash_fn) (c : counting) : res (qinfo * list bool * list Z) :=
  match c with
  | CountEmail position text =>
    p <- select positions position ;; q <- input text ;;
    b <- interactive_email H (String.eqb p "end with") q ;;
    Ok (b, lit "all emails that " ++ lit p ++ lit " '" ++ q ++ lit "'")
  | CountAlgo pick =>
    a <- select algos pick ;;
    Ok (mkInfo target_algo 0 0 false false false, to_pka_client a, lit "all emails that uses the '" ++ lit a ++ lit "' algorithm")
  | CountYear typed =>
    y <- admitted_year typed ;;
    b <- interactive_year y ;; Ok (b, lit "all emails created before year '" ++ y ++ lit "'")
  end.

(** interactive/mod.go:274 and 430: the text of the last prompt; what is typed there is dropped *)
Definition result_line (description : list Z) (n : Z) : list Z :=
  lit "Result of " ++ description ++ lit ": " ++ itoa n ++ lit "." ++ [10] ++ lit " Type enter to continue.".

(** interactive/mod.go:208-280, 383-436 getStats, countStats, getAvg: the result shown *)
Definition get_stats (L : libraries) (cs : list (list Z)) (w : world) (s : option stats) : res (list Z) :=
  match s with
  | None => Err "failed to ask"
  | Some (Count c) =>
    wrap "failed to perform count stats: "
      (c <- (match c with Some c => Ok c | None => Err "failed to ask" end) ;;
       q <- wrap "failed to get stats: " (count_query (l_hash L) c) ;;
       let '(i, inp, description) := q in
       n <- wrap "failed to execute count query: " (stats_query L cs w i inp) ;;
       Ok (result_line description n))
  | Some (Average position text) =>
    wrap "failed to get avg: "
      (p <- select positions position ;; q <- input text ;;
       b <- interactive_avg (l_hash L) (String.eqb p "end with") q ;;
       n <- wrap "failed to execute count query: " (stats_query L cs w (fst b) (snd b)) ;;
       Ok (result_line (lit "average lifetime of all emails that " ++ lit p ++ lit " '" ++ q ++ lit "'") n))
  end.

(** One round of the loop at interactive/mod.go:95-120: what the user chooses. [Interrupted] is a failing prompt with its error. *)
Inductive turn :=
| Interrupted (m : list Z)
| Download (typed : option (list Z))
| Stats (s : option stats)
| Leave.

(** How a session ends: it still waits for the next choice; the program returned or exited with status 0; log.Fatalf ended it
    with status 1, whose message is discarded (interactive/mod.go:65); it crashed with a panic. *)
Inductive ending := Waiting | Exited | Died (m : string) | Crashed (m : string).

(** interactive/mod.go:103-119: one choice, the lines shown and what follows *)
Definition answer_turn (L : libraries) (ps cs : list (list Z)) (w : world) (t : turn) : list (list Z) * ending :=
  let continue_or (prefix : string) (shown : list (list Z)) (r : res unit) :=
    match r with
    | Ok _ => (shown, Waiting)
    | Err m => (shown, Died (prefix ++ m))
    | Fatal m => (shown, Died m)
    | Panic m => (shown, Crashed m)
    end in
  match t with
  | Interrupted m => ([m], Exited)
  | Download typed =>
    let '(shown, r) := download_key (l_pgp L) (l_hash L) (l_bucket L) (l_dpf L) (w_described w (map (w_pinfo w) ps)) (w_rnd w)
                         (map (w_point w) ps) (w_arrive w) typed in
    continue_or "failed to download key: "%string shown r
  | Stats s =>
    match get_stats L cs w s with
    | Ok line => ([line], Waiting)
    | Err m => ([], Died ("failed to get stats: " ++ m))
    | Fatal m => ([], Died m)
    | Panic m => ([], Crashed m)
    end
  | Leave => ([lit "bye 👋"], Exited)
  end.

(** the loop at interactive/mod.go:95-120 *)
Fixpoint session (L : libraries) (ps cs : list (list Z)) (turns : list (world * turn)) : list (list Z) * ending :=
  match turns with
  | [] => ([], Waiting)
  | (w, t) :: rest =>
    let '(shown, e) := answer_turn L ps cs w t in
    match e with
    | Waiting => let '(more, e') := session L ps cs rest in (shown ++ more, e')
    | _ => (shown, e)
    end
  end.

(** interactive/mod.go:64-121 main *)
Definition interactive_main (L : libraries) (s : startup) (turns : list (world * turn)) : list (list Z) * ending :=
  match front_start static_config s with
  | Ok (ps, cs) => session L ps cs turns
  | Err m | Fatal m => ([], Died m)
  | Panic m => ([], Crashed m)
  end.

(** ** The web server *)

(** A request: its path, the header X-Request-Id ("" if there is none) and what ParseForm finds in the body. *)
Record http_request := mkReq { rq_path : list Z; rq_id : list Z; rq_form : res (list (list Z * list Z)) }.

(** What the standard library contributes: the embedded index.html, the file server under /static/ (web/mod.go:125), the
    canonical form of a path (path.Clean, keeping a trailing slash) and the redirection page. *)
Record http_library := mkHttp {
  h_index : list Z; h_static : list Z -> page; h_clean : list Z -> list Z; h_redirect : list Z -> page }.

Fixpoint starts_with (p s : list Z) : bool :=
  match p, s with
  | [], _ => true
  | x :: p', y :: s' => (x =? y) && starts_with p' s'
  | _ :: _, [] => false
  end.

(** web/mod.go:253-257, 309-314, 347-351: ParseForm *)
Definition with_form (form : res (list (list Z * list Z))) (k : list (list Z * list Z) -> res page) : res page :=
  match form with
  | Err m => Ok (http_error no_page (lit "failed to parse form: " ++ lit m) 500)
  | Panic m => Panic m
  | Fatal m => Fatal m
  | Ok f => k f
  end.

(** web/mod.go:190-208 handleIndex; parsing and executing the embedded template does not fail *)
Definition handle_index (X : http_library) (path : list Z) : res page :=
  if bytes_equal path (lit "/") then Ok (write no_page (h_index X)) else Ok (http_error no_page (lit "404 not found") 404).

(** web/mod.go:114-126: http.ServeMux with its handlers. A path that is not canonical, and /static, are redirected. *)
Definition route (X : http_library) (L : libraries) (ps cs : list (list Z)) (w : world) (rq : http_request) : res page :=
  let path := rq_path rq in
  if negb (bytes_equal (h_clean X path) path) then Ok (h_redirect X (h_clean X path))
  else if bytes_equal path (lit "/retrieve") then
    web_retrieve (l_pgp L) (l_hash L) (l_bucket L) (l_dpf L) (w_described w (map (w_pinfo w) ps)) (w_rnd w)
      (map (w_point w) ps) (w_arrive w) (rq_form rq)
  else if bytes_equal path (lit "/count/email") then
    with_form (rq_form rq) (fun f => web_email (l_hash L) (stats_query L cs w) (form_get (lit "position") f) (form_get (lit "text") f))
  else if bytes_equal path (lit "/count/algo") then
    with_form (rq_form rq) (fun f => web_algo (stats_query L cs w) (form_get (lit "algo") f))
  else if bytes_equal path (lit "/count/timestamp") then
    with_form (rq_form rq) (fun f => web_year (stats_query L cs w) (form_get (lit "year") f))
  else if bytes_equal path (lit "/static") then Ok (h_redirect X (lit "/static/"))
  else if starts_with (lit "/static/") path then Ok (h_static X path)
  else handle_index X path.

(** web/mod.go:409-411 nextRequestID and 428-440 tracing *)
Definition request_id (w : world) (rq : http_request) : list Z :=
  if bytes_equal (rq_id rq) [] then itoa (w_now w) else rq_id rq.

(** The web server on requests in the order in which it completes them (web/mod.go:116, 136). Handlers share nothing but the
    connections. A response is the header X-Request-Id and the page; None: the handler panicked, net/http drops the connection.
    The second component is the message of the log.Fatal that ended the process, if any. *)
Fixpoint serve_web (X : http_library) (L : libraries) (ps cs : list (list Z)) (reqs : list (world * http_request))
  : list (option (list Z * page)) * option string :=
  match reqs with
  | [] => ([], None)
  | (w, rq) :: rest =>
    match route X L ps cs w rq with
    | Ok p => let '(l, e) := serve_web X L ps cs rest in (Some (request_id w rq, p) :: l, e)
    | Err _ | Panic _ => let '(l, e) := serve_web X L ps cs rest in (None :: l, e)
    | Fatal m => ([], Some m)
    end
  end.

(** web/mod.go:88-90: the address to listen on *)
Definition listen_address (flag : list Z) : list Z := if bytes_equal flag [] then lit ":9990" else flag.

(** web/mod.go:81-140 main; [can_listen] says whether net.Listen succeeds *)
Definition web_main (X : http_library) (L : libraries) (s : startup) (can_listen : list Z -> bool) (flag : list Z)
  (reqs : list (world * http_request)) : res (list (option (list Z * page)) * option string) :=
  a <- front_start static_config s ;;
  if can_listen (listen_address flag) then Ok (serve_web X L (fst a) (snd a) reqs) else Fatal "failed to create conn".

(** ** Predicate servers *)

(** lib/database/pgp.go:219-224: the KeyInfo of an entity: the e-mail of its primary identity, the creation time of its primary
    key (seconds since 1970) in the zone the OpenPGP library gives it, and the algorithm of the key. BitLength is not used. *)
Definition row_info (zone : option Z) (algo : entity -> Z) (e : entity) : key_info :=
  mkKI (e_primary e) (mkTime (62135596800 + e_created e) 0 zone) (algo e).

(** lib/server/predicate_apir.go:39-44, predicate_pir.go:38-43 and cmd/grpc/server/main.go:256-293: how a started predicate
    server answers a predicate query, once decoded; a failing call gives no answer. What a point server makes of such a query
    is the argument [other]. *)
Definition answer_predicate (enc : cipher) (H : hash_fn) (row : entity -> key_info) (now : nat -> Z) (fresh : freshes)
  (other : qinfo * fss_key -> option (list Z)) (s : service) (qk : qinfo * fss_key) : option (list Z) :=
  match s with
  | PointService _ => other qk
  | PredicateService values serverNum columns rows =>
    match answer_bytes enc H values serverNum (map row rows) (Z.to_nat columns) now fresh (Some (fst qk)) (snd qk) with
    | Ok b => Some b
    | _ => None
    end
  end.
