(** Model of the bytes of predicate queries: lib/query/query.go Encode and DecodeClientFSS, and the encoded queries between the
    clients (lib/client/fss.go) and the servers (lib/server/fss.go), as encoding/gob writes and reads them. *)
From Coq Require Import String ZArith List Bool.
From Verif Require Import GoBase EncodingModel MerkleModel FSSModel PredicateModel PointModel DirectoryModel FrontendModel FilesModel KeyPageModel SessionModel.
Import ListNotations.
Open Scope Z_scope.
Open Scope go_scope.

(** ** encoding/gob: numbers *)

(** The errors of the library are not told apart. *)
Definition bad_gob {A} : res A := Err "gob: bad data".

(** The bytes of a number, most significant first, without leading zeros; [k] bounds their number *)
Fixpoint digits (k : nat) (v : Z) : list Z :=
  match k with
  | O => []
  | S k => if v =? 0 then [] else digits k (v / 256) ++ [v mod 256]
  end.
(** encodeUint of a uint64: one byte up to 127, else the negated number of bytes and the bytes *)
Definition put_uint (v : Z) : list Z :=
  if v <=? 127 then [v] else let d := digits 8 v in (256 - zlen d) :: d.
(** decodeUint and decodeUintReader *)
Definition get_uint (b : list Z) : res (Z * list Z) :=
  match b with
  | [] => Err "EOF"
  | x :: t =>
    if x <=? 127 then Ok (x, t) else
    let n := 256 - x in
    if (8 <? n) || (zlen t <? n) then bad_gob
    else Ok (be_dec (firstn (Z.to_nat n) t), skipn (Z.to_nat n) t)
  end.
(** encodeInt and decodeInt of an int64: the lowest bit is the sign *)
Definition put_int (v : Z) : list Z := put_uint (if v <? 0 then 2 * (- v - 1) + 1 else 2 * v).
Definition get_int (b : list Z) : res (Z * list Z) :=
  r <- get_uint b ;; Ok (if fst r mod 2 =? 1 then - (fst r / 2) - 1 else fst r / 2, snd r).

(** (1 << 30) << 3 *)
Definition too_big : Z := 8589934592.

(** ** encoding/gob: values *)

(** encUint8Array and decUint8Slice: a slice of bytes, or of a type with underlying type uint8 *)
Definition put_string (b : list Z) : list Z := put_uint (zlen b) ++ b.
Definition get_string (b : list Z) : res (list Z * list Z) :=
  r <- get_uint b ;;
  if (zlen (snd r) <? fst r) || (too_big <=? fst r) then bad_gob
  else Ok (firstn (Z.to_nat (fst r)) (snd r), skipn (Z.to_nat (fst r)) (snd r)).
(** encBool and decBool *)
Definition put_bool (x : bool) : list Z := put_uint (if x then 1 else 0).
Definition get_bool (b : list Z) : res (bool * list Z) := r <- get_uint b ;; Ok (negb (fst r =? 0), snd r).
(** decUint8 and decUint32: larger values are an error *)
Definition get_limited (max : Z) (b : list Z) : res (Z * list Z) :=
  r <- get_uint b ;; if max <? fst r then bad_gob else Ok r.

(** encodeArray: the number of elements and all elements, zero or not *)
Definition put_slice {A} (put : A -> list Z) (l : list A) : list Z := put_uint (zlen l) ++ concat (map put l).
(** decodeSlice and decodeArrayHelper; [size] is the size of an element in memory. Every element takes at least one byte: the
    number of elements is compared with what is left before they are read. *)
Fixpoint get_many {A} (get : list Z -> res (A * list Z)) (n : nat) (b : list Z) : res (list A * list Z) :=
  match n with
  | O => Ok ([], b)
  | S n => r <- get b ;; t <- get_many get n (snd r) ;; Ok (fst r :: fst t, snd t)
  end.
Definition get_slice {A} (size : Z) (get : list Z -> res (A * list Z)) (b : list Z) : res (list A * list Z) :=
  r <- get_uint b ;;
  if (too_big <? fst r * size) || (zlen (snd r) <? fst r) then bad_gob
  else get_many get (Z.to_nat (fst r)) (snd r).

(** encodeStruct: every field that is written is preceded by the distance to the last one, a zero ends the struct. [fs] is
    what the fields write: nothing if they are zero, empty or nil. [gap] is the distance from the last field written. *)
Fixpoint put_struct_fields (gap : Z) (fs : list (option (list Z))) : list Z :=
  match fs with
  | [] => put_uint 0
  | None :: fs => put_struct_fields (gap + 1) fs
  | Some b :: fs => put_uint gap ++ b ++ put_struct_fields 1 fs
  end.
Definition put_struct (fs : list (option (list Z))) : list Z := put_struct_fields 1 fs.
(** The fields are written unless zero (encBool, encInt, encUint) or empty (encUint8Array and the slices of encOpFor). *)
Definition nonzero (v : Z) (b : list Z) : option (list Z) := if v =? 0 then None else Some b.
Definition nonempty {A} (l : list A) (b : list Z) : option (list Z) := match l with [] => None | _ => Some b end.
Definition if_true (x : bool) : option (list Z) := if x then Some (put_bool true) else None.

(** decodeStruct: [fs] are the fields after the last one read, each reads its value into the struct [s]; [gap] is the distance
    just read. The struct also ends where the data does. *)
Fixpoint get_struct_fields {S} (fs : list (S -> list Z -> res (S * list Z))) (gap : Z) (s : S) (b : list Z) : res (S * list Z) :=
  match fs with
  | [] => bad_gob
  | f :: fs =>
    if gap =? 1 then
      r <- f s b ;;
      match snd r with
      | [] => Ok r
      | _ => d <- get_uint (snd r) ;; if fst d =? 0 then Ok (fst r, snd d) else get_struct_fields fs (fst d) (fst r) (snd d)
      end
    else get_struct_fields fs (gap - 1) s b
  end.
Definition get_struct {S} (fs : list (S -> list Z -> res (S * list Z))) (s : S) (b : list Z) : res (S * list Z) :=
  match b with
  | [] => Ok (s, [])
  | _ => d <- get_uint b ;; if fst d =? 0 then Ok (s, snd d) else get_struct_fields fs (fst d) s (snd d)
  end.
(** A field that reads a value and stores it *)
Definition field_of {S A} (get : list Z -> res (A * list Z)) (set : S -> A -> S) (s : S) (b : list Z) : res (S * list Z) :=
  r <- get b ;; Ok (set s (fst r), snd r).

(** ** The structs *)

(** lib/query/query.go:42-60 Info with its field Targets, which the programs leave empty *)
Definition full_info : Type := qinfo * list Z.
Definition no_info : full_info := (mkInfo 0 0 0 false false false, []).
(** lib/query/query.go:30-34 ClientFSS: the embedded pointer may be nil *)
Definition client_fss : Type := option full_info * list bool.
(** lib/query/query.go:36-40 FSS *)
Definition server_fss : Type := option full_info * fss_key.

(** Info: Target, FromStart, FromEnd, And, Targets, Avg, Sum *)
Definition put_info (i : full_info) : list Z :=
  let q := fst i in
  put_struct [ nonzero (q_target q) (put_uint (q_target q)); nonzero (q_from_start q) (put_int (q_from_start q));
               nonzero (q_from_end q) (put_int (q_from_end q)); if_true (q_and q); nonempty (snd i) (put_string (snd i));
               if_true (q_avg q); if_true (q_sum q) ].
Definition get_info (i : full_info) : list Z -> res (full_info * list Z) :=
  get_struct
    [ field_of (get_limited 255) (fun i v => let q := fst i in (mkInfo v (q_from_start q) (q_from_end q) (q_and q) (q_avg q) (q_sum q), snd i));
      field_of get_int (fun i v => let q := fst i in (mkInfo (q_target q) v (q_from_end q) (q_and q) (q_avg q) (q_sum q), snd i));
      field_of get_int (fun i v => let q := fst i in (mkInfo (q_target q) (q_from_start q) v (q_and q) (q_avg q) (q_sum q), snd i));
      field_of get_bool (fun i v => let q := fst i in (mkInfo (q_target q) (q_from_start q) (q_from_end q) v (q_avg q) (q_sum q), snd i));
      field_of get_string (fun i v => (fst i, v));
      field_of get_bool (fun i v => let q := fst i in (mkInfo (q_target q) (q_from_start q) (q_from_end q) (q_and q) v (q_sum q), snd i));
      field_of get_bool (fun i v => let q := fst i in (mkInfo (q_target q) (q_from_start q) (q_from_end q) (q_and q) (q_avg q) v, snd i)) ] i.
(** A field of type *Info is left out when nil (encIndirect) and allocated when read (decAlloc): every field is read at most
    once, so that it is still nil. *)
Definition put_pointer (i : option full_info) : option (list Z) := match i with Some i => Some (put_info i) | None => None end.
Definition get_pointer (b : list Z) : res (option full_info * list Z) := r <- get_info no_info b ;; Ok (Some (fst r), snd r).

(** lib/fss/common.go:27-32 FssKeyEq2P: SInit, TInit, CW, FinalCW *)
Definition put_key (k : fss_key) : list Z :=
  put_struct [ nonempty (k_sinit k) (put_string (k_sinit k)); nonzero (k_tinit k) (put_uint (k_tinit k));
               nonempty (k_cw k) (put_slice put_string (k_cw k)); nonempty (k_finalcw k) (put_slice put_uint (k_finalcw k)) ].
Definition get_key (k : fss_key) : list Z -> res (fss_key * list Z) :=
  get_struct
    [ field_of get_string (fun k v => FSSModel.mkKey v (k_tinit k) (k_cw k) (k_finalcw k));
      field_of (get_limited 255) (fun k v => FSSModel.mkKey (k_sinit k) v (k_cw k) (k_finalcw k));
      field_of (get_slice 24 get_string) (fun k v => FSSModel.mkKey (k_sinit k) (k_tinit k) v (k_finalcw k));
      field_of (get_slice 4 (get_limited 4294967295)) (fun k v => FSSModel.mkKey (k_sinit k) (k_tinit k) (k_cw k) v) ] k.

Definition put_client (q : client_fss) : list Z :=
  put_struct [ put_pointer (fst q); nonempty (snd q) (put_slice put_bool (snd q)) ].
Definition get_client : list Z -> res (client_fss * list Z) :=
  get_struct
    [ field_of get_pointer (fun q v => (v, snd q));
      field_of (get_slice 1 get_bool) (fun q v => (fst q, v)) ] (None, []).
(** A field of struct type is always written. *)
Definition put_server (q : server_fss) : list Z := put_struct [ put_pointer (fst q); Some (put_key (snd q)) ].
Definition get_server : list Z -> res (server_fss * list Z) :=
  get_struct
    [ field_of get_pointer (fun q v => (v, snd q));
      field_of (get_key (FSSModel.mkKey [] 0 [] [])) (fun q v => (fst q, v)) ] (None, FSSModel.mkKey [] 0 [] []).

(** ** encoding/gob: streams *)

(** A stream starts with definitions of the types in use, numbered by the sending process: [ty_defs] gives the numbers and the
    definitions, which are left open here, and [ty_id] the number of the type of the value. *)
Record gob_type := mkType { ty_defs : list (Z * list Z); ty_id : Z }.
(** Whether received definitions describe the receiver's type, in which case values are read field by field. Streams that
    describe another type are refused by this model; the library reads some of them, field by field according to the names. *)
Definition describes : Type := list (Z * list Z) -> Z -> bool.

(** Encoder.writeMessage *)
Definition put_message (m : list Z) : res (list Z) :=
  if too_big <=? zlen m then Err "gob: encoder: message too big" else Ok (put_uint (zlen m) ++ m).
(** Encoder.Encode: the definitions under their negated numbers, then the value under the number of its type *)
Definition put_stream (T : gob_type) (value : list Z) : res (list Z) :=
  ds <- mapM (fun d => put_message (put_int (- fst d) ++ snd d)) (ty_defs T) ;;
  m <- put_message (put_int (ty_id T) ++ value) ;;
  Ok (concat ds ++ m).

(** Decoder.recvMessage and readMessage *)
Definition get_message (b : list Z) : res (list Z * list Z) :=
  r <- get_uint b ;;
  if (too_big <=? fst r) || (zlen (snd r) <? fst r) then bad_gob
  else Ok (firstn (Z.to_nat (fst r)) (snd r), skipn (Z.to_nat (fst r)) (snd r)).
(** Decoder.Decode (decodeTypeSequence, decodeValue): definitions until the first value, which is read; [seen] are the
    definitions so far. What follows the value is not looked at. *)
Fixpoint get_stream {A} (fuel : nat) (D : describes) (get : list Z -> res (A * list Z)) (seen : list (Z * list Z)) (b : list Z) : res A :=
  match fuel with
  | O => bad_gob
  | S k =>
    m <- get_message b ;;
    i <- get_int (fst m) ;;
    if fst i <? 0 then get_stream k D get (seen ++ [(- fst i, snd i)]) (snd m)
    else if D seen (fst i) then v <- get (snd i) ;; Ok (fst v)
    else bad_gob
  end.
Definition gob_decode {A} (D : describes) (get : list Z -> res (A * list Z)) (b : list Z) : res A := get_stream (S (length b)) D get [] b.

(** ** The programs *)

(** The numbering of the types ClientFSS and FSS in one process, and what it accepts from others *)
Record gobs := mkGobs { client_type : gob_type; server_type : gob_type; is_client : describes; is_server : describes }.

(** lib/query/query.go:62-69 Encode and 71-80 DecodeClientFSS *)
Definition encode_client (g : gobs) (q : client_fss) : res (list Z) := put_stream (client_type g) (put_client q).
Definition decode_client (g : gobs) (b : list Z) : res client_fss := gob_decode (is_client g) get_client b.
(** lib/client/fss.go:35-43 one iteration, and lib/server/fss.go:28-34 *)
Definition encode_server (g : gobs) (q : server_fss) : res (list Z) := put_stream (server_type g) (put_server q).
Definition decode_server (g : gobs) (b : list Z) : res server_fss := gob_decode (is_server g) get_server b.

(** lib/client/fss.go:25-46 queryBytes *)
Definition predicate_query_bytes (g : gobs) (enc : cipher) (executions : nat) (alphas : list Z) (r : gen_rand) (inp : list Z) (numServers : Z)
  : res (list (list Z)) :=
  q <- decode_client g inp ;;
  ks <- client_query enc executions alphas r (snd q) numServers ;;
  let '(k0, k1, _) := ks in
  mapM (fun k => encode_server g (fst q, k)) [k0; k1].

(** lib/server/fss.go:27-40 answerBytes *)
Definition answer_query_bytes (g : gobs) (enc : cipher) (H : hash_fn) (n : nat) (sn : Z) (db : list key_info) (numColumns : nat)
           (now : nat -> Z) (fresh : freshes) (b : list Z) : res (list Z) :=
  q <- decode_server g b ;;
  answer_bytes enc H n sn db numColumns now fresh (option_map fst (fst q)) (snd q).

(** cmd/grpc/client/main.go:242-256 and cmd/grpc/client/web/mod.go:390-398 = interactive/mod.go:453-461: from the encoded question [b]
    to the result. [serve c] is the call of server [c]. *)
Definition ask_bytes {C} (g : gobs) (enc : cipher) (executions : nat) (alphas : list Z) (r : gen_rand)
           (serve : C -> list Z -> res (list Z)) (conns : list C)
           (arrive : list (list Z) -> list (list Z)) (numServers : Z) (b : list Z) : res Z :=
  queries <- predicate_query_bytes g enc executions alphas r b numServers ;;
  answers <- send_all (fun c b => match serve c b with Ok a => Some a | _ => None end) conns queries 0 ;;
  reconstruct_bytes executions alphas (arrive answers).
(** cmd/grpc/client/main.go:194-276 retrieveComplexQuery; the programs leave Targets empty *)
Definition cli_complex_bytes {C} (g : gobs) (enc : cipher) (H : hash_fn) (executions : nat) (alphas : list Z) (r : gen_rand)
           (serve : C -> list Z -> res (list Z)) (order : list C)
           (arrive : list (list Z) -> list (list Z)) (f : cli_flags) : res Z :=
  qi <- cli_query H f ;;
  b <- encode_client g (Some (fst qi, []), snd qi) ;;
  ask_bytes g enc executions alphas r serve order arrive (zlen order) b.
(** cmd/grpc/client/web/mod.go:376-407 = interactive/mod.go:439-470 executeStatsQuery *)
Definition execute_stats_bytes {C} (g : gobs) (enc : cipher) (alphas : list Z) (r : gen_rand) (infos : list (option db_info))
           (serve : C -> list Z -> res (list Z)) (servers : list C)
           (arrive : list (list Z) -> list (list Z)) (q : qinfo) (inp : list bool) : res Z :=
  b <- encode_client g (Some (q, []), inp) ;;
  is <- get_db_infos infos ;;
  ask_bytes g enc 5 alphas r serve servers arrive (zlen is) b.

(** cmd/grpc/server/main.go:256-293 with lib/server/predicate_apir.go:39-44, predicate_pir.go:38-43 and lib/server/pir.go: how a
    started server answers the bytes of a query *)
Definition service_bytes (g : gobs) (D : dpf_scheme) (enc : cipher) (H : hash_fn) (row : entity -> key_info) (now : nat -> Z)
           (fresh : freshes) (s : service) (b : list Z) : res (list Z) :=
  match s with
  | PointService db => pir_answer D false db b
  | PredicateService values serverNum columns rows =>
    answer_query_bytes g enc H values serverNum (map row rows) (Z.to_nat columns) now fresh b
  end.
