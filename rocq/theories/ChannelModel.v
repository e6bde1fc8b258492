(** Model of the connections between clients and servers: the certificates and keys of lib/utils/tls.go, the server the TLS
    handshake presents, and what a client accepts at the other end of a connection. Strings are lists of bytes. *)
From Coq Require Import String ZArith List Bool.
From Verif Require Import GoBase EncodingModel MerkleModel PointModel DirectoryModel FrontendModel KeyPageModel SessionModel.
Import ListNotations.
Open Scope Z_scope.
Open Scope go_scope.

(** ** Certificates *)

(** An X.509 certificate: the key pair whose public half it carries, the first and last second of its validity (Unix time) and
    the names it is issued for. Serial numbers, issuers and signatures are left out: none of the clients' roots is a certificate
    authority, so that a certificate is trusted only when it is itself a root. Key pairs are numbered. *)
Record certificate := mkCert { c_key : Z; c_from : Z; c_until : Z; c_names : list (list Z) }.

(** The names in each of the five certificates *)
Definition local_names : list (list Z) := [lit "localhost"; lit "127.0.0.1"; lit "::1"].
(** lib/utils/tls.go:14-124 ServerPublicKeys, decoded: Oct 12 2024, 10:31 to Jan 12 2027, 11:31 (UTC) *)
Definition server_public_keys : list certificate :=
  [ mkCert 0 1728729074 1799753474 local_names; mkCert 1 1728729082 1799753482 local_names;
    mkCert 2 1728729090 1799753490 local_names; mkCert 3 1728729097 1799753497 local_names;
    mkCert 4 1728729105 1799753505 local_names ].
(** lib/utils/tls.go:126-156 serverSecretKeys, decoded: the private halves of the same five key pairs, in the same order *)
Definition server_secret_keys : list Z := [0; 1; 2; 3; 4].

(** crypto/tls X509KeyPair: a certificate and a private key that belong together *)
Definition x509_key_pair (c : certificate) (k : Z) : res (certificate * Z) :=
  if c_key c =? k then Ok (c, k) else Err "tls: private key does not match public key".
(** lib/utils/tls.go:161-175 init: ServerCertificates; a failure ends the process *)
Definition server_certificates : res (list (certificate * Z)) :=
  mapM (fun i => c <- go_index server_public_keys i ;; k <- go_index server_secret_keys i ;;
                 match x509_key_pair c k with Err m => Fatal ("could not load certficate " ++ m)%string | r => r end) [0; 1; 2; 3; 4].
(** lib/utils/tls.go:177-187 LoadServersCertificates: the roots of a client and the name it expects of every server *)
Definition load_servers_certificates : res (list certificate * list Z) := Ok (server_public_keys, lit "127.0.0.1").

(** ** Handshakes *)

(** Who is at the other end of a connection: the certificate presented and the private keys held. *)
Record peer := mkPeer { p_cert : certificate; p_holds : Z -> bool }.

(** cmd/grpc/server/main.go:124-127 and simulations/multi/server/server.go:73-76: server number [sid] presents its certificate *)
Definition server_peer (sid : Z) : res peer :=
  cs <- server_certificates ;; ck <- go_index cs sid ;; Ok (mkPeer (fst ck) (Z.eqb (snd ck))).

Fixpoint same_names (a b : list (list Z)) : bool :=
  match a, b with
  | [], [] => true
  | x :: a, y :: b => bytes_equal x y && same_names a b
  | _, _ => false
  end.
Definition same_certificate (a b : certificate) : bool :=
  (c_key a =? c_key b) && (c_from a =? c_from b) && (c_until a =? c_until b) && same_names (c_names a) (c_names b).

(** The client's side of a handshake at time [now] (crypto/tls verifyServerCertificate and crypto/x509 Certificate.Verify): the
    certificate is valid now, is one of the roots and carries the expected name, and the peer signs with its key. *)
Definition accepts (creds : list certificate * list Z) (now : Z) (p : peer) : bool :=
  let c := p_cert p in
  (c_from c <=? now) && (now <=? c_until c) && existsb (same_certificate c) (fst creds) && existsb (bytes_equal (snd creds)) (c_names c)
  && p_holds p (c_key c).

(** A network: the attempts gRPC makes to connect to an address within ten seconds, each with its time and with the peer that
    answers, if any. *)
Definition network := list Z -> list (Z * option peer).

(** grpc.DialContext with WithBlock and a deadline (manager/mod.go:46-50, client/main.go:435-446, simulations/multi/client/client.go:346-359): attempts are
    repeated until one succeeds *)
Definition dial (creds : list certificate * list Z) (net : network) (addr : list Z) : res unit :=
  if existsb (fun a => match snd a with Some p => accepts creds (fst a) p | None => false end) (net addr)
  then Ok tt else Err "context deadline exceeded".

(** ** Clients *)

(** What the front ends find on such a network when they start (manager/mod.go:36-62) *)
Definition startup_on (net : network) (point complex : list Z) (file : list Z -> res (list entry)) : startup :=
  mkStartup point complex file (_ <- load_servers_certificates ;; Ok tt)
    (fun a => creds <- load_servers_certificates ;; dial creds net a).

(** lc.connections is a map from addresses to connections: client/main.go:131 *)
Definition connection_set (conns : list (list Z)) (a : list Z) : list (list Z) :=
  if existsb (bytes_equal a) conns then conns else conns ++ [a].
Fixpoint connect_each (dial : list Z -> res unit) (addrs conns : list (list Z)) : res (list (list Z)) :=
  match addrs with
  | [] => Ok conns
  | a :: t =>
    _ <- wrap ("failed to connect: did not connect to " ++ text_of a ++ ": ")%string (dial a) ;;
    connect_each dial t (connection_set conns a)
  end.
(** cmd/grpc/client/main.go:120-140 connectToServers and 435-446 connectToServer: the addresses of the connections *)
Definition cli_connect (net : network) (addrs : list (list Z)) : res (list (list Z)) :=
  creds <- wrap "could not load servers certificates: " load_servers_certificates ;;
  connect_each (dial creds net) addrs [].
(** simulations/multi/client/client.go:252-271 connectToServers: the first servers of the configuration only *)
Definition sim_connect (net : network) (addrs : list (list Z)) (numServers : Z) : res (list (list Z)) :=
  creds <- wrap "could not load servers certificates: " load_servers_certificates ;;
  some <- go_slice addrs 0 numServers ;;
  connect_each (dial creds net) some [].

(** ** What travels *)

(** manager/mod.go:71-96 GetKey after GetDBInfos (142-181): the queries a lookup of [id] sends, one for each of [n] connections *)
Definition lookup_sends (B : hash_fn) (D : dpf_scheme) (infos : list (option db_info)) (rnd : list Z) (n : Z) (id : list Z)
  : res (list (list Z)) :=
  is <- get_db_infos infos ;;
  d <- go_index is 0 ;;
  let inf := info_of d in
  hashKey <- hash_to_index B id (i_rows inf * i_cols inf) ;;
  q <- wrap "error when executing query: " (pir_query_bytes D inf rnd (be_enc 4 (u32 hashKey)) n) ;;
  Ok (snd q).
