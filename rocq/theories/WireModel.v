(** Model of what travels between clients and servers: the protobuf messages of lib/proto/vpir.pb.go (google.golang.org/protobuf
    encodes and decodes them as described by lib/proto/vpir.proto:12-29) in the frames of gRPC (google.golang.org/grpc), compressed
    with gzip, with the size limits set by clients and servers. *)
From Coq Require Import String ZArith List Bool.
From Verif Require Import GoBase EncodingModel FrontendModel.
Import ListNotations.
Open Scope Z_scope.
Open Scope go_scope.

(** ** protobuf: encoding/protowire *)

(** The errors of the library are not told apart. *)
Definition bad_wire {A} : res A := Err "proto: cannot parse invalid wire-format data".

(** protowire.AppendVarint of a uint64, whose encoding takes at most ten bytes: [k] is the number of bytes still allowed *)
Fixpoint varint (k : nat) (v : Z) : list Z :=
  match k with
  | O => []
  | S k => if v <? 128 then [v] else (v mod 128 + 128) :: varint k (v / 128)
  end.
Definition put_varint (v : Z) : list Z := varint 10 v.
(** protowire.ConsumeVarint: the tenth byte may be 0 or 1 only *)
Fixpoint get_varint' (k : nat) (b : list Z) : res (Z * list Z) :=
  match k, b with
  | O, _ | _, [] => bad_wire
  | S O, x :: t => if x <? 2 then Ok (x, t) else bad_wire
  | S k, x :: t => if x <? 128 then Ok (x, t) else r <- get_varint' k t ;; Ok (x - 128 + 128 * fst r, snd r)
  end.
Definition get_varint (b : list Z) : res (Z * list Z) := get_varint' 10 b.

(** The content of a field: a varint, eight bytes, a string of bytes, a group, four bytes. *)
Inductive wire := WVarint (v : Z) | WFixed64 | WBytes (b : list Z) | WGroup | WFixed32.

(** protowire.ConsumeFieldValue of a field with number [num] and wire type [wt]; for a group, what remains of it up to its end
    marker. [fuel] bounds the recursion; the library's limit of 10000 nested groups is left out. *)
Fixpoint get_value (fuel : nat) (num wt : Z) (b : list Z) : res (wire * list Z) :=
  match fuel with
  | O => bad_wire
  | S k =>
    if wt =? 0 then r <- get_varint b ;; Ok (WVarint (fst r), snd r)
    else if wt =? 1 then if (length b <? 8)%nat then bad_wire else Ok (WFixed64, skipn 8 b)
    else if wt =? 2 then
      r <- get_varint b ;;
      if zlen (snd r) <? fst r then bad_wire
      else Ok (WBytes (firstn (Z.to_nat (fst r)) (snd r)), skipn (Z.to_nat (fst r)) (snd r))
    else if wt =? 3 then
      t <- get_varint b ;;
      if fst t / 8 <? 1 then bad_wire
      else if fst t mod 8 =? 4 then if fst t / 8 =? num then Ok (WGroup, snd t) else bad_wire
      else v <- get_value k (fst t / 8) (fst t mod 8) (snd t) ;; get_value k num 3 (snd v)
    else if wt =? 5 then if (length b <? 4)%nat then bad_wire else Ok (WFixed32, skipn 4 b)
    else bad_wire
  end.

(** The loop over the fields of a message (internal/impl unmarshalPointer): their numbers and contents *)
Fixpoint get_fields (fuel : nat) (b : list Z) : res (list (Z * wire)) :=
  match b with
  | [] => Ok []
  | _ =>
    match fuel with
    | O => bad_wire
    | S k =>
      t <- get_varint b ;;
      let num := fst t / 8 in
      if (num <? 1) || (536870911 <? num) || (fst t mod 8 =? 4) then bad_wire else
      v <- get_value (S (length (snd t))) num (fst t mod 8) (snd t) ;;
      fs <- get_fields k (snd v) ;;
      Ok ((num, fst v) :: fs)
    end
  end.
Definition fields (b : list Z) : res (list (Z * wire)) := get_fields (length b) b.

(** A field of type bytes or string, or uint32: the last occurrence counts, one of another wire type is treated as an unknown
    field and skipped, and a missing field is empty or zero. *)
Definition bytes_field (n : Z) (fs : list (Z * wire)) : list Z :=
  fold_left (fun acc f => match snd f with WBytes b => if fst f =? n then b else acc | _ => acc end) fs [].
Definition uint32_field (n : Z) (fs : list (Z * wire)) : Z :=
  fold_left (fun acc f => match snd f with WVarint v => if fst f =? n then u32 v else acc | _ => acc end) fs 0.

(** Empty and zero fields are not written. *)
Definition put_bytes (n : Z) (b : list Z) : list Z :=
  match b with [] => [] | _ => put_varint (n * 8 + 2) ++ put_varint (zlen b) ++ b end.
Definition put_uint32 (n v : Z) : list Z := if v =? 0 then [] else put_varint (n * 8) ++ put_varint v.

(** ** The messages *)

(** The parts of the Go libraries this model leaves open: utf8.Valid, and gzip. *)
Record codec := mkCodec { utf8 : list Z -> bool; gzip : list Z -> list Z; gunzip : list Z -> res (list Z) }.

(** lib/proto/vpir.proto:12-14 QueryRequest (vpir.pb.go:28-73) and 16-18 QueryResponse (vpir.pb.go:75-120): field 1 *)
Definition encode_query (q : list Z) : list Z := put_bytes 1 q.
Definition decode_query (b : list Z) : res (list Z) := fs <- fields b ;; Ok (bytes_field 1 fs).

(** lib/proto/vpir.proto:22-29 DatabaseInfoResponse (vpir.pb.go:160-245); strings must be valid UTF-8 *)
Definition encode_info (E : codec) (d : db_info) : res (list Z) :=
  if utf8 E (di_type d) then
    Ok (put_uint32 1 (di_rows d) ++ put_uint32 2 (di_cols d) ++ put_uint32 3 (di_bs d) ++ put_bytes 4 (di_type d)
        ++ put_bytes 5 (di_root d) ++ put_uint32 6 (di_plen d))
  else Err "proto: field contains invalid UTF-8".
Definition info_of_fields (fs : list (Z * wire)) : db_info :=
  mkDI (uint32_field 1 fs) (uint32_field 2 fs) (uint32_field 3 fs) (bytes_field 4 fs) (bytes_field 5 fs) (uint32_field 6 fs).
Definition decode_info (E : codec) (b : list Z) : res db_info :=
  fs <- fields b ;;
  if forallb (fun f => match snd f with WBytes s => negb (fst f =? 4) || utf8 E s | _ => true end) fs
  then Ok (info_of_fields fs) else Err "proto: field contains invalid UTF-8".

(** ** Frames *)

(** 1024*1024*1024: MaxRecvMsgSize and MaxSendMsgSize of the servers (cmd/grpc/server/main.go:133-134,
    simulations/multi/server/server.go:82-83), MaxCallRecvMsgSize and MaxCallSendMsgSize of the clients (cmd/grpc/client/main.go:70-71,
    web/mod.go:77-78, interactive/mod.go:59-60, simulations/multi/client/client.go:87-88) *)
Definition max_size : Z := 1073741824.

(** grpc prepareMsg with UseCompressor(gzip.Name) (client/main.go:69 and the like; a server answers with the compressor of the
    request), then the check of the size that is sent: flag, length, compressed message *)
Definition send_frame (E : codec) (m : list Z) : res (list Z) :=
  if 4294967295 <? zlen m then Err "rpc error: code = ResourceExhausted desc = grpc: message too large"
  else let c := gzip E m in
  if max_size <? zlen c then Err "rpc error: code = ResourceExhausted desc = trying to send message larger than max"
  else Ok (1 :: be_enc 4 (zlen c) ++ c).

(** grpc recvAndDecompress on the bytes of a stream *)
Definition recv_frame (E : codec) (f : list Z) : res (list Z) :=
  match f with
  | [] => Err "EOF"
  | flag :: t =>
    if (length t <? 4)%nat then Err "unexpected EOF" else
    let n := be_dec (firstn 4 t) in
    let rest := skipn 4 t in
    if max_size <? n then Err "rpc error: code = ResourceExhausted desc = grpc: received message larger than max"
    else if zlen rest <? n then Err "unexpected EOF"
    else
      let payload := firstn (Z.to_nat n) rest in
      if flag =? 0 then Ok payload
      else if flag =? 1 then
        m <- gunzip E payload ;;
        if max_size <? zlen m then Err "rpc error: code = ResourceExhausted desc = grpc: message after decompression larger than max" else Ok m
      else Err "rpc error: code = Internal desc = grpc: received unexpected payload format"
  end.

(** ** Calls *)

(** A server's side of Query (vpir_grpc.pb.go:100-116 _VPIR_Query_Handler): the frame of the answer *)
Definition serve_query (E : codec) (handler : list Z -> res (list Z)) (f : list Z) : res (list Z) :=
  m <- recv_frame E f ;;
  q <- decode_query m ;;
  a <- handler q ;;
  send_frame E (encode_query a).
(** A server's side of DatabaseInfo (vpir_grpc.pb.go:82-98): the request has no fields *)
Definition serve_info (E : codec) (d : db_info) (f : list Z) : res (list Z) :=
  m <- recv_frame E f ;;
  _ <- fields m ;;
  r <- encode_info E d ;;
  send_frame E r.

(** A client's side (vpir_grpc.pb.go:32-48): whatever goes wrong at the server, including its end, is an error here. *)
Definition call (E : codec) (server : list Z -> res (list Z)) (request : list Z) : res (list Z) :=
  f <- send_frame E request ;;
  match server f with
  | Ok r => recv_frame E r
  | Err m => Err ("rpc error: code = Unknown desc = " ++ m)
  | Panic _ | Fatal _ => Err "rpc error: code = Unavailable"
  end.
(** cmd/grpc/client/manager/mod.go:222-237, cmd/grpc/client/main.go:421-433 and simulations/multi/client/client.go:393-404: Query *)
Definition remote_query (E : codec) (server : list Z -> res (list Z)) (q : list Z) : res (list Z) :=
  r <- call E server (encode_query q) ;; decode_query r.
(** cmd/grpc/client/manager/mod.go:239-261, cmd/grpc/client/main.go:373-392: DatabaseInfo *)
Definition remote_info (E : codec) (server : list Z -> res (list Z)) : res db_info :=
  r <- call E server [] ;; decode_info E r.

(** The same server reached through the network. *)
Definition over_network (E : codec) (handler : list Z -> res (list Z)) : list Z -> res (list Z) := remote_query E (serve_query E handler).
Definition remote_description (E : codec) (d : db_info) : option db_info :=
  match remote_info E (serve_info E d) with Ok d' => Some d' | _ => None end.
