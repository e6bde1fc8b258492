(** Model of lib/query/query.go, lib/client/fss.go, lib/client/predicate_{pir,apir}.go, lib/server/fss.go and
    lib/server/predicate_{pir,apir}.go. BLAKE2b-256 is the parameter [H]; the gob transport of queries is taken as the
    identity; AES is the parameter [enc]. *)
From Coq Require Import String ZArith List Bool.
From Verif Require Import GoBase FieldModel FSSModel EncodingModel MerkleModel.
Import ListNotations.
Open Scope Z_scope.
Open Scope go_scope.

(** ** Go's time package, as far as used *)

(** days from 1 January of year 1 to 1 January of year [y] (proleptic Gregorian calendar; Go: daysSinceEpoch) *)
Definition days_before_year (y : Z) : Z :=
  let p := y - 1 in 365 * p + p / 4 - p / 100 + p / 400.

Definition is_leap (y : Z) : bool :=
  (y mod 4 =? 0) && (negb (y mod 100 =? 0) || (y mod 400 =? 0)).

(** Go: daysBefore, cumulated days before month m = 0..11 of a non-leap year *)
Definition days_before_month (m : Z) : Z :=
  nth (Z.to_nat m) [0; 31; 59; 90; 120; 151; 181; 212; 243; 273; 304; 334] 0.

(** Go: the year computation of Time.absDate, by cycles of 400, 100, 4 and 1 years *)
Definition year_of_days (d : Z) : Z :=
  let n := d / 146097 in
  let y := 400 * n in
  let d := d - 146097 * n in
  let n := d / 36524 in
  let n := n - n / 4 in
  let y := y + 100 * n in
  let d := d - 36524 * n in
  let n := d / 1461 in
  let y := y + 4 * n in
  let d := d - 1461 * n in
  let n := d / 365 in
  let n := n - n / 4 in
  y + n + 1.

(** time.Time: seconds since 1 January of year 1 UTC, nanoseconds, and the zone as an offset in minutes
    ([None] is the location UTC, encoded as -1). Simplification: zones with a fractional minute are left out. *)
Record gtime := mkTime { t_sec : Z; t_nsec : Z; t_zone : option Z }.

Definition zone_seconds (t : gtime) : Z :=
  match t_zone t with None => 0 | Some m => 60 * m end.

(** Time.Year *)
Definition time_year (t : gtime) : Z := year_of_days ((t_sec t + zone_seconds t) / 86400).

(** time.Date(year, month, day, 0, 0, 0, 0, time.UTC), with Go's normalisation of month and day *)
Definition date_utc (year month day : Z) : gtime :=
  let m := month - 1 in
  let y := year + m / 12 in
  let m := m mod 12 in
  let d := days_before_year y + days_before_month m
           + (if is_leap y && (2 <=? m) then 1 else 0) + (day - 1) in
  mkTime (86400 * d) 0 None.

(** Time.MarshalBinary: version 1, 8 bytes of seconds, 4 bytes of nanoseconds, 2 bytes of zone offset in minutes *)
Definition marshal_time (t : gtime) : res (list Z) :=
  match t_zone t with
  | None => Ok ([1] ++ be_enc 8 (u64 (t_sec t)) ++ be_enc 4 (u32 (t_nsec t)) ++ [255; 255])
  | Some m =>
    if (m <? -32768) || (m =? -1) || (32767 <? m) then Err "unexpected zone offset"
    else Ok ([1] ++ be_enc 8 (u64 (t_sec t)) ++ be_enc 4 (u32 (t_nsec t)) ++ be_enc 2 (m mod 65536))
  end.

(** ** Records and queries *)

(** lib/database/db.go:28-33 KeyInfo. Simplification: UserId is never nil; BitLength is unused by queries. *)
Record key_info := mkKI { ki_email : list Z; ki_time : gtime; ki_algo : Z }.

(** lib/query/query.go:17-27 Target *)
Definition target_userid : Z := 0.
Definition target_creation : Z := 1.
Definition target_algo : Z := 2.

(** lib/query/query.go:42-60 Info. Targets is never read and left out. *)
Record qinfo := mkInfo { q_target : Z; q_from_start : Z; q_from_end : Z;
                         q_and : bool; q_avg : bool; q_sum : bool }.

(** lib/query/query.go:169-187 IdForEmail; [None] is the result (nil, false). *)
Definition id_for_email (H : hash_fn) (i : qinfo) (email : list Z) : res (option (list bool)) :=
  if negb (q_from_start i =? 0) then
    if zlen email <? q_from_start i then Ok None
    else s <- go_slice email 0 (q_from_start i) ;; Ok (Some (byte_to_bits s))
  else if negb (q_from_end i =? 0) then
    if zlen email <? q_from_end i then Ok None
    else s <- go_slice email (zlen email - q_from_end i) (zlen email) ;; Ok (Some (byte_to_bits s))
  else
    h <- go_slice (H email) 0 16 ;; Ok (Some (byte_to_bits h)).

(** lib/query/query.go:189-191 IdForPubKeyAlgo *)
Definition id_for_algo (pka : Z) : list bool := byte_to_bits [pka mod 256].

(** lib/query/query.go:193-199 IdForCreationTime *)
Definition id_for_creation_time (t : gtime) : res (list bool) :=
  b <- marshal_time t ;; Ok (byte_to_bits b).

(** lib/query/query.go:201-206 IdForYearCreationTime *)
Definition id_for_year (t : gtime) : list bool := byte_to_bits (be_enc 4 (u32 (time_year t))).

(** an input slice that is nil when the id is invalid *)
Definition opt_bits (o : option (list bool)) : list bool :=
  match o with Some b => b | None => [] end.

(** lib/query/query.go:82-88 ToEmailClientFSS and 144-151 ToAvgClientFSS (the same text): the validity
    flag is ignored. Result: the field Input. *)
Definition to_email_client (H : hash_fn) (i : qinfo) (inp : list Z) : res (list bool) :=
  o <- id_for_email H i inp ;; Ok (opt_bits o).

(** lib/query/query.go:90-109 ToPKAClientFSS: the algorithm numbers of RFC 4880/6637 used by the packet library *)
Definition pka_of_name (name : string) : Z :=
  if String.eqb name "RSA" then 1
  else if String.eqb name "ElGamal" then 16
  else if String.eqb name "DSA" then 17
  else if String.eqb name "ECDH" then 18
  else if String.eqb name "ECDSA" then 19
  else 0.
Definition to_pka_client (name : string) : list bool := id_for_algo (pka_of_name name).

(** lib/query/query.go:111-125 ToCreationTimeClientFSS; [year] is the result of strconv.Atoi, [None] its error. *)
Definition to_creation_client (year : option Z) : res (list bool) :=
  match year with
  | None => Fatal "strconv.Atoi"
  | Some y =>
    match id_for_creation_time (date_utc y 0 0) with
    | Err m => Panic m
    | r => r
    end
  end.

(** lib/query/query.go:128-141 ToAndClientFSS *)
Definition to_and_client (H : hash_fn) (i : qinfo) (inp : list Z) : res (list bool) :=
  let y := id_for_year (date_utc 2019 0 0) in
  o <- id_for_email H i inp ;; Ok (y ++ opt_bits o).

(** ** Client *)

(** lib/client/fss.go:47-72 query. [executions] is 5 (predicate_apir.go:22) or 1 (predicate_pir.go:18);
    [alphas] are the executions-1 MAC keys drawn at line 60, [r] the randomness of GenerateTreePF. Result: the two keys
    in the order of the returned queries, and the ghost resampling flag. *)
Definition client_query (enc : cipher) (executions : nat) (alphas : list Z) (r : gen_rand)
           (inp : list bool) (numServers : Z) : res (fss_key * fss_key * bool) :=
  if negb (numServers =? 2) then Fatal "invalid query inputs"
  else generate_tree_pf enc executions inp (1 :: alphas) r.

(** lib/client/fss.go:101-116 the tag loop of the AVG branch, iterations i, ..., i+n-1 *)
Fixpoint avg_checks (alphas cf cs sf ss : list Z) (count sum : Z) (i : Z) (n : nat) : res unit :=
  match n with
  | O => Ok tt
  | S n' =>
    al <- go_index alphas i ;;
    c0 <- go_index cf (i + 1) ;;
    c1 <- go_index cs (i + 1) ;;
    if negb (u32 (u64 (count * al) mod ModP) =? u32 (c0 + c1) mod ModP) then Err "REJECT count" else
    s0 <- go_index sf (i + 1) ;;
    s1 <- go_index ss (i + 1) ;;
    if negb (u32 (u64 (sum * al) mod ModP) =? u32 (s0 + s1) mod ModP) then Err "REJECT sum" else
    avg_checks alphas cf cs sf ss count sum (i + 1) n'
  end.

(** lib/client/fss.go:127-134 the tag loop of the COUNT branch *)
Fixpoint count_checks (alphas a0 a1 : list Z) (data : Z) (i : Z) (n : nat) : res unit :=
  match n with
  | O => Ok tt
  | S n' =>
    al <- go_index alphas i ;;
    x0 <- go_index a0 (i + 1) ;;
    x1 <- go_index a1 (i + 1) ;;
    if negb (u32 (u64 (data * al) mod ModP) =? u32 (x0 + x1) mod ModP) then Err "REJECT" else
    count_checks alphas a0 a1 data (i + 1) n'
  end.

(** lib/client/fss.go:83-138 reconstruct. [alphas] is state.alphas without its unused last element. *)
Definition reconstruct (executions : nat) (alphas : list Z) (answers : list (list Z)) : res Z :=
  a0 <- go_index answers 0 ;;
  let e := Z.of_nat executions in
  if zlen a0 =? 2 * e then
    cf <- go_slice a0 0 e ;;
    a1 <- go_index answers 1 ;;
    cs <- go_slice a1 0 e ;;
    sf <- go_slice a0 e (zlen a0) ;;
    ss <- go_slice a1 e (zlen a1) ;;
    c0 <- go_index cf 0 ;;
    c1 <- go_index cs 0 ;;
    let count := u32 (c0 + c1) mod ModP in
    s0 <- go_index sf 0 ;;
    s1 <- go_index ss 0 ;;
    let sum := u32 (s0 + s1) mod ModP in
    _ <- avg_checks alphas cf cs sf ss count sum 0 (executions - 1) ;;
    if count =? 0 then Panic "integer divide by zero" else Ok (sum / count)
  else
    x0 <- go_index a0 0 ;;
    a1 <- go_index answers 1 ;;
    x1 <- go_index a1 0 ;;
    let data := u32 (x0 + x1) mod ModP in
    _ <- count_checks alphas a0 a1 data 0 (executions - 1) ;;
    Ok data.

(** lib/client/client.go:37-45 decodeAnswer and lib/client/fss.go:74-81 reconstructBytes *)
Definition reconstruct_bytes (executions : nat) (alphas : list Z) (answers : list (list Z)) : res Z :=
  reconstruct executions alphas (map bytes_to_uint32_slice answers).

(** ** Server *)

(** out[j] = (out[j] + tmp[j]) % ModP; all callers pass slices of equal length *)
Definition add_into (out tmp : list Z) : list Z :=
  map (fun p => u32 (fst p + snd p) mod ModP) (combine out tmp).

(** sum[j] update of lib/server/fss.go:130-131 *)
Definition sum_into (sum tmp : list Z) (diff : Z) : list Z :=
  map (fun p => u32 (fst p + u32 (u64 (snd p * diff) mod ModP)) mod ModP) (combine sum tmp).

(** for i := 0; i < numIdentifiers; i++ { body } with the record s.db.KeysInfo[i] *)
Fixpoint records_loop {S} (db : list key_info) (body : nat -> key_info -> S -> res S) (i n : nat) (st : S)
  : res S :=
  match n with
  | O => Ok st
  | Datatypes.S n' =>
    ki <- go_index db (Z.of_nat i) ;;
    st' <- body i ki st ;;
    records_loop db body (Datatypes.S i) n' st'
  end.

(** The randomness of the conversions of one answer: replacement values per record. *)
Definition freshes := nat -> nat -> Z.

(** lib/server/fss.go:49-57, 62-66, 71-78 and 87-101, one record of a counting loop: [id] computes the identifier,
    [None] means the record is skipped. State: out and the ghost resampling flag. *)
Definition count_body (enc : cipher) (sn : Z) (k : fss_key) (fresh : freshes) (n : nat)
           (id : key_info -> res (option (list bool))) (i : nat) (ki : key_info) (st : list Z * bool)
  : res (list Z * bool) :=
  o <- id ki ;;
  match o with
  | None => Ok st
  | Some x =>
    e <- evaluate_pf enc n (fresh i) sn k x n ;;
    Ok (add_into (fst st) (fst e), snd st || snd e)
  end.

(** lib/server/fss.go:110-132 one record of the AVG loop; [now i] is the year of the clock (time.Now().Year()) read
    for record i. State: out, sum and the ghost flag. *)
Definition avg_body (enc : cipher) (H : hash_fn) (q : qinfo) (now : nat -> Z)
           (sn : Z) (k : fss_key) (fresh : freshes) (n : nat)
           (i : nat) (ki : key_info) (st : list Z * list Z * bool) : res (list Z * list Z * bool) :=
  o <- id_for_email H q (ki_email ki) ;;
  match o with
  | None => Ok st
  | Some x =>
    e <- evaluate_pf enc n (fresh i) sn k x n ;;
    let '(out, sum, fl) := st in
    let diff := now i - time_year (ki_time ki) in
    if diff <? 0 then Ok (out, sum, fl || snd e)
    else Ok (add_into out (fst e), sum_into sum (fst e) diff, fl || snd e)
  end.

(** the three plain targets and the conjunction: the identifier of a record *)
Definition id_creation (ki : key_info) : res (option (list bool)) :=
  match id_for_creation_time (ki_time ki) with
  | Ok b => Ok (Some b)
  | _ => Panic "impossible to marshal creation date"
  end.
Definition id_conj (H : hash_fn) (q : qinfo) (ki : key_info) : res (option (list bool)) :=
  o <- id_for_email H q (ki_email ki) ;;
  match o with
  | None => Ok None
  | Some x => Ok (Some (id_for_year (ki_time ki) ++ x))
  end.

(** lib/server/fss.go:42-138 answer; [n] = len(out) = len(tmp) is 5 (predicate_apir.go:42-55) or 1
    (predicate_pir.go:38-50), [numColumns] = s.db.NumColumns (a negative value would act as 0), [sn] = s.serverNum. The query's Info pointer is nil
    when the message did not carry one. Result: the answer and the ghost resampling flag. *)
Definition answer (enc : cipher) (H : hash_fn) (n : nat) (sn : Z) (db : list key_info) (numColumns : nat)
           (now : nat -> Z) (fresh : freshes) (q : option qinfo) (k : fss_key) : res (list Z * bool) :=
  let counting id := records_loop db (count_body enc sn k fresh n id) 0 numColumns (repeat 0 n, false) in
  match q with
  | None => Panic "nil pointer dereference"
  | Some q =>
    if negb (q_and q) && negb (q_avg q) && negb (q_sum q) then
      if q_target q =? target_userid then
        counting (fun ki => id_for_email H q (ki_email ki))
      else if q_target q =? target_algo then
        counting (fun ki => Ok (Some (id_for_algo (ki_algo ki))))
      else if q_target q =? target_creation then
        counting id_creation
      else Panic "not yet implemented"
    else if q_and q && negb (q_avg q) && negb (q_sum q) then
      counting (id_conj H q)
    else if q_and q && q_sum q && negb (q_avg q) then Panic "sum not implemented"
    else if q_and q && q_avg q && negb (q_sum q) then
      r <- records_loop db (avg_body enc H q now sn k fresh n) 0 numColumns (repeat 0 n, repeat 0 n, false) ;;
      let '(out, sum, fl) := r in Ok (out ++ sum, fl)
    else Panic "query not recognized"
  end.

(** lib/server/fss.go:27-40 answerBytes, after decoding *)
Definition answer_bytes (enc : cipher) (H : hash_fn) (n : nat) (sn : Z) (db : list key_info) (numColumns : nat)
           (now : nat -> Z) (fresh : freshes) (q : option qinfo) (k : fss_key) : res (list Z) :=
  a <- answer enc H n sn db numColumns now fresh q k ;; Ok (uint32_slice_to_bytes (fst a)).
