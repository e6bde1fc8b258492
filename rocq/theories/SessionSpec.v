(** Vocabulary for sessions with the front ends. *)
From Coq Require Import String ZArith List Bool Permutation.
From Verif Require Import GoBase FieldModel FSSModel EncodingModel MerkleModel PredicateModel PredicateSpec PointModel DirectoryModel DirectorySpec
  FrontendModel FrontendSpec FSSProofs PredicateProofs2 FilesModel KeyPageModel KeyPageSpec SessionModel.
Import ListNotations.
Open Scope Z_scope.

(** During a lookup the servers at [ps] describe and serve their tables, and the client has its randomness. *)
Definition lookup_world (L : libraries) (ps : list (list Z)) (dbs : list bytes_db) (w : world) : Prop :=
  Forall2 (fun a b => w_pinfo w a = Some (database_info (PointService b)) /\ w_point w a = pir_answer (l_dpf L) false b) ps dbs /\
  (forall l, Permutation l (w_described w l)) /\ arrival_ok (w_arrive w) /\ randomness_for dbs (w_rnd w).

(** During a statistics query two servers with agreeing descriptions answer honestly from [db], their clocks showing the years
    [now0] and [now1], and no conversion is resampled (C11). *)
Definition stats_world (L : libraries) (cs : list (list Z)) (db : list key_info) (now0 now1 : nat -> Z) (q : qinfo) (inp : list bool) (w : world) : Prop :=
  exists c0 c1 i0 i1 fresh0 fresh1, cs = [c0; c1] /\ agree i0 i1 /\ w_cinfo w c0 = Some i0 /\ w_cinfo w c1 = Some i1 /\
  (forall l, Permutation l (w_described w l)) /\ some_order (w_arrive w) /\
  rand_ok (w_gr w) /\ length (w_alphas w) = 4%nat /\ Forall (fun v => 0 <= v < ModP) (w_alphas w) /\
  honest (l_cipher L) (l_hash L) 5 db (w_pred w) c0 0 now0 fresh0 /\ honest (l_cipher L) (l_hash L) 5 db (w_pred w) c1 1 now1 fresh1 /\
  unresampled (l_cipher L) (l_hash L) 5 (w_alphas w) (w_gr w) 0 1 now0 now1 fresh0 fresh1 db q inp.

(** The libraries, the key directory and the records a deployment serves. *)
Definition deployment (L : libraries) (auth : bool) (keys : list pkey) (srvs : list (runtime * list (list pkey))) (dbs : list bytes_db)
  (db : list key_info) : Prop :=
  directory (l_pgp L) (l_hash L) (l_bucket L) auth keys srvs dbs /\ 3 <= zlen dbs /\
  cipher_ok (l_cipher L) /\ Forall record_ok db /\ zlen db < ModP.

(** The addresses of [db] that begin or end with a text. *)
Definition addresses_with (at_end : bool) (text : list Z) (ki : key_info) : bool :=
  (if at_end then is_suffix else is_prefix) text (ki_email ki).
Definition place (at_end : bool) : string := if at_end then "end with"%string else "begin with"%string.
(** A text of at most 32 bytes, or all addresses ASCII (C23). *)
Definition legible (text : list Z) (db : list key_info) : Prop := zlen text <= 32 \/ Forall (fun ki => ascii (ki_email ki)) db.
Definition email_query (at_end average : bool) (text : list Z) : qinfo :=
  if at_end then mkInfo target_userid 0 (zlen text) average average false else mkInfo target_userid (zlen text) 0 average average false.

(** The line that shows the number [n]. *)
Definition shows (description : list Z) (n : Z) (line : list Z) : Prop :=
  exists d, decimal_of d n /\ line = lit "Result of " ++ description ++ lit ": " ++ d ++ lit "." ++ [10] ++ lit " Type enter to continue.".

(** A question of the interactive client and the lines that answer it rightly. The creation dates counted are those of C86:
    midnight, 30 November of the year before. *)
Inductive rightly_answered (L : libraries) (ps cs : list (list Z)) (keys : list pkey) (dbs : list bytes_db) (db : list key_info)
  : world * turn -> list (list Z) -> Prop :=
| key_shown key w : lookup_world L ps dbs w -> In key keys ->
    rightly_answered L ps cs keys dbs db (w, Download (Some (k_id key))) (found_lines (k_id key) (g_armor (l_pgp L) (k_packet key)))
| no_key_shown email w : lookup_world L ps dbs w -> (forall key, In key keys -> k_id key <> email) ->
    Forall (fun b => bucket_used (l_bucket L) keys b email) dbs ->
    rightly_answered L ps cs keys dbs db (w, Download (Some email)) (not_found_lines email)
| addresses_counted at_end text line w now0 now1 : text <> [] -> bytes text -> legible text db ->
    (forall inp, to_email_client (l_hash L) (email_query at_end false text) text = Ok inp ->
       stats_world L cs db now0 now1 (email_query at_end false text) inp w) ->
    shows (lit "all emails that " ++ lit (place at_end) ++ lit " '" ++ text ++ lit "'") (count_matching (addresses_with at_end text) db) line ->
    rightly_answered L ps cs keys dbs db
      (w, Stats (Some (Count (Some (CountEmail (Some (if at_end then 1%nat else 0%nat)) (Some text)))))) [line]
| algorithms_counted i name number line w now0 now1 : nth_error ["RSA"; "ElGamal"; "DSA"; "ECDH"; "ECDSA"]%string i = Some name ->
    algo_number name = Some number ->
    stats_world L cs db now0 now1 (mkInfo target_algo 0 0 false false false) (to_pka_client name) w ->
    shows (lit "all emails that uses the '" ++ lit name ++ lit "' algorithm") (count_matching (fun ki => ki_algo ki =? number) db) line ->
    rightly_answered L ps cs keys dbs db (w, Stats (Some (Count (Some (CountAlgo (Some i)))))) [line]
| dates_counted refused d v later line w now0 now1 : Forall (fun t => forall n, 0 <= n -> atoi t <> Some n) refused ->
    decimal_of d v -> 0 <= v < 2 ^ 63 -> request_ok (ByCreation v) ->
    (forall inp, to_creation_client (Some v) = Ok inp -> stats_world L cs db now0 now1 (mkInfo target_creation 0 0 false false false) inp w) ->
    shows (lit "all emails created before year '" ++ d ++ lit "'") (count_matching (selects (l_hash L) (ByCreation v)) db) line ->
    rightly_answered L ps cs keys dbs db (w, Stats (Some (Count (Some (CountYear (refused ++ d :: later)))))) [line]
| ages_averaged at_end text line w year : text <> [] -> bytes text -> legible text db -> year < 2 ^ 33 ->
    (forall inp, to_email_client (l_hash L) (email_query at_end true text) text = Ok inp ->
       stats_world L cs db (fun _ => year) (fun _ => year) (email_query at_end true text) inp w) ->
    let chosen := filter (fun ki => addresses_with at_end text ki && (time_year (ki_time ki) <=? year)) db in
    0 < zlen chosen -> zsum (ages year chosen) < ModP ->
    shows (lit "average lifetime of all emails that " ++ lit (place at_end) ++ lit " '" ++ text ++ lit "'")
      (zsum (ages year chosen) / zlen chosen) line ->
    rightly_answered L ps cs keys dbs db (w, Stats (Some (Average (Some (if at_end then 1%nat else 0%nat)) (Some text)))) [line].

(** A posted form whose first field called [name] has the value [value]. *)
Definition field (name : string) (form : list (list Z * list Z)) (value : list Z) : Prop :=
  exists before after, form = before ++ (lit name, value) :: after /\ Forall (fun f => fst f <> lit name) before.

(** A page that shows the number [n]. *)
Definition number_page (n : Z) (p : page) : Prop := exists d, decimal_of d n /\ p = mkPage (Some 200) (lit "count: " ++ d).

(** A request to the web server and the page that answers it rightly. *)
Inductive rightly_served (L : libraries) (ps cs : list (list Z)) (keys : list pkey) (dbs : list bytes_db) (db : list key_info)
  : world * http_request -> page -> Prop :=
| key_page key w form h : lookup_world L ps dbs w -> In key keys -> k_id key <> [] -> field "email" form (k_id key) ->
    rightly_served L ps cs keys dbs db (w, mkReq (lit "/retrieve") h (Ok form)) (mkPage (Some 200) (g_armor (l_pgp L) (k_packet key)))
| no_key_page email w form h : lookup_world L ps dbs w -> (forall key, In key keys -> k_id key <> email) ->
    Forall (fun b => bucket_used (l_bucket L) keys b email) dbs -> email <> [] -> field "email" form email ->
    rightly_served L ps cs keys dbs db (w, mkReq (lit "/retrieve") h (Ok form)) (mkPage (Some 200) (lit "key not found in block"))
| addresses_page (at_end : bool) text p w now0 now1 form h : text <> [] -> bytes text -> legible text db ->
    field "position" form (lit (if at_end then "end" else "begin")) -> field "text" form text ->
    (forall inp, to_email_client (l_hash L) (email_query at_end false text) text = Ok inp ->
       stats_world L cs db now0 now1 (email_query at_end false text) inp w) ->
    number_page (count_matching (addresses_with at_end text) db) p ->
    rightly_served L ps cs keys dbs db (w, mkReq (lit "/count/email") h (Ok form)) p
| algorithms_page name number p w now0 now1 form h : field "algo" form (lit name) -> algo_number name = Some number ->
    stats_world L cs db now0 now1 (mkInfo target_algo 0 0 false false false) (to_pka_client name) w ->
    number_page (count_matching (fun ki => ki_algo ki =? number) db) p ->
    rightly_served L ps cs keys dbs db (w, mkReq (lit "/count/algo") h (Ok form)) p
| dates_page d v p w now0 now1 form h : field "year" form d -> decimal_of d v -> 0 <= v < 2 ^ 63 -> request_ok (ByCreation v) ->
    (forall inp, to_creation_client (Some v) = Ok inp -> stats_world L cs db now0 now1 (mkInfo target_creation 0 0 false false false) inp w) ->
    number_page (count_matching (selects (l_hash L) (ByCreation v)) db) p ->
    rightly_served L ps cs keys dbs db (w, mkReq (lit "/count/timestamp") h (Ok form)) p.

(** The library leaves the paths of the pages as they are. *)
Definition clean_ok (X : http_library) : Prop :=
  Forall (fun p => h_clean X (lit p) = lit p) ["/"; "/retrieve"; "/count/email"; "/count/algo"; "/count/timestamp"; "/static"]%string.

(** The header of a response: the client's request number, or the clock in decimal. *)
Definition header_ok (w : world) (rq : http_request) (id : list Z) : Prop :=
  (rq_id rq <> [] -> id = rq_id rq) /\ (rq_id rq = [] -> decimal_of id (w_now w)).

(** What every front end started from a configuration file would be connected to: each of the addresses in the order of their numbers. *)
Definition reachable (s : startup) (addrs : list (list Z)) : Prop := Forall (fun a => st_dial s a = Ok tt) addrs.

(** ** Predicate servers *)

(** The scheme of predicate queries without or with authentication, and the number of values per answer. *)
Definition predicate_scheme_name (authenticated : bool) : list Z := if authenticated then lit "complexVPIR" else lit "complexPIR".
Definition answer_values (authenticated : bool) : nat := if authenticated then 5%nat else 1%nat.

(** The keys of a directory as the OpenPGP library reads them, in the order of the directory. *)
Definition keys_read (G : openpgp) (keys : list pkey) (rows : list entity) : Prop :=
  map (primary_email (g_lower G)) rows = map k_id keys /\ mapM (g_serialize G) rows = Ok (map k_packet keys).

(** Two started servers answer predicate queries over the network at their addresses; the client has its randomness. *)
Definition network (enc : cipher) (H : hash_fn) (row : entity -> key_info) (now0 now1 : nat -> Z) (fresh0 fresh1 : freshes)
  (s0 s1 : list Z * service) (w : world) : Prop :=
  (exists other, w_pred w (fst s0) = answer_predicate enc H row now0 fresh0 other (snd s0)) /\
  (exists other, w_pred w (fst s1) = answer_predicate enc H row now1 fresh1 other (snd s1)) /\
  w_cinfo w (fst s0) = Some (database_info (snd s0)) /\ w_cinfo w (fst s1) = Some (database_info (snd s1)) /\
  (forall l, Permutation l (w_described w l)) /\ some_order (w_arrive w) /\
  rand_ok (w_gr w) /\ length (w_alphas w) = 4%nat /\ Forall (fun v => 0 <= v < ModP) (w_alphas w).
