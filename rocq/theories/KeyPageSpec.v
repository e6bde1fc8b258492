(** Vocabulary for key lookups through the front ends. *)
From Coq Require Import String ZArith List Bool Permutation.
From Verif Require Import GoBase FieldModel FSSModel MerkleModel MerkleSpec PointModel PointSpec DirectoryModel DirectorySpec FrontendModel FilesModel KeyPageModel.
Import ListNotations.
Open Scope Z_scope.

(** A posted form whose first field called "email" has the value [email]. *)
Definition posted (form : list (list Z * list Z)) (email : list Z) : Prop :=
  exists before after, form = before ++ (lit "email", email) :: after /\ Forall (fun f => fst f <> lit "email") before.

(** A stored packet is a key with the identifier as its e-mail address. *)
Definition filed (G : openpgp) (k : pkey) : Prop :=
  exists e, g_serialize G e = Ok (k_packet k) /\ primary_email (g_lower G) e = k_id k.

(** The table a point server builds from its files: plain (pointPIR) or authenticated (pointVPIR). *)
Definition built (H B : hash_fn) (authenticated : bool) (srv : runtime * list (list pkey)) (db : bytes_db) : Prop :=
  (if authenticated then generate_real_key_merkle H B (fst srv) (map Ok (snd srv)) true
   else generate_real_key_bytes B (fst srv) (map Ok (snd srv)) true) = Ok db.

(** The number of buckets of a table. *)
Definition buckets (db : bytes_db) : Z := i_rows (b_info db) * i_cols (b_info db).

(** Servers that hold the same directory of keys, each in its own files. *)
Definition directory (G : openpgp) (H B : hash_fn) (authenticated : bool) (keys : list pkey)
  (srvs : list (runtime * list (list pkey))) (dbs : list bytes_db) : Prop :=
  hash_ok H /\ hash_ok B /\ keyring_ok (g_serialize G) (g_read G) /\ listed keys /\ Forall (filed G) keys /\
  10 <= zlen keys <= 2 ^ 34 /\ Forall (holds keys) srvs /\ Forall2 (built H B authenticated) srvs dbs /\
  Forall (fun db => i_bs (b_info db) < 2 ^ 32) dbs /\
  (authenticated = true -> Forall (fun db => fingerprints_ok (bucket_blocks B (buckets db) keys)) dbs).

(** All servers describe their tables truthfully; the descriptions arrive in any order. *)
Definition described (dbs : list bytes_db) (infos : list (option db_info)) : Prop :=
  Permutation (map (fun db => Some (database_info (PointService db))) dbs) infos.

(** The randomness a client reads for one query to all servers. *)
Definition randomness_for (dbs : list bytes_db) (rnd : list Z) : Prop :=
  Forall (fun db => zlen rnd = (zlen dbs - 1) * Z.of_nat (query_bytes (b_info db))) dbs.

(** Some key of the directory falls into the bucket of [id]. *)
Definition bucket_used (B : hash_fn) (keys : list pkey) (db : bytes_db) (id : list Z) : Prop :=
  exists key, In key keys /\ position B (buckets db) (k_id key) = position B (buckets db) id.

(** The text shown is a key of [email]: an armored key found in a readable key ring. *)
Definition key_of (G : openpgp) (email text : list Z) : Prop :=
  exists ring es e buf, g_read G ring = Ok es /\ In e es /\ primary_email (g_lower G) e = email /\
    g_serialize G e = Ok buf /\ text = g_armor G buf.

(** The lines the interactive client prints for a lookup. *)
Definition found_lines (email text : list Z) : list (list Z) :=
  [lit "email is " ++ email; lit "Result: " ++ text; lit "done."].
Definition not_found_lines (email : list Z) : list (list Z) :=
  [lit "email is " ++ email; lit "No key is found for the given email"; lit "done."].

(** A point scheme's name. *)
Definition point_scheme (scheme : list Z) : Prop := scheme = lit "pointPIR" \/ scheme = lit "pointVPIR".

(** ** Dishonest servers *)

(** A server that adds the same [delta] to every block of its honest answers. It does not look at the query. *)
Definition tampering (D : dpf_scheme) (db : bytes_db) (delta q : list Z) : res (list Z) :=
  match pir_answer D false db q with
  | Ok a => Ok (xor_list a (concat (repeat delta (Z.to_nat (i_rows (b_info db))))))
  | r => r
  end.

(** The servers of [dbs], all honest but number [m]. *)
Definition one_tampering (D : dpf_scheme) (dbs : list bytes_db) (m : nat) (db : bytes_db) (delta : list Z)
  : list (list Z -> res (list Z)) :=
  map (pir_answer D false) (firstn m dbs) ++ tampering D db delta :: map (pir_answer D false) (skipn (S m) dbs).

(** All servers but number [m]. *)
Definition without (m : nat) (dbs : list bytes_db) : list bytes_db := firstn m dbs ++ skipn (S m) dbs.

(** A description of the same table, except that it does not say that the table is authenticated. *)
Definition undescribed (db : bytes_db) : db_info :=
  let d := database_info (PointService db) in
  mkDI (di_rows d) (di_cols d) (di_bs d) (lit "") (di_root d) (di_plen d).

(** Servers whose answers are strings of bytes. *)
Definition answers_bytes (servers : list (list Z -> res (list Z))) : Prop :=
  forall s q a, In s servers -> s q = Ok a -> bytes a.

(** Texts that show a key found in a key ring of less than 60 bytes. *)
Definition tiny_ring (G : openpgp) (email text : list Z) : Prop :=
  exists ring es e buf, (length ring < 60)%nat /\ g_read G ring = Ok es /\ In e es /\ primary_email (g_lower G) e = email /\
    g_serialize G e = Ok buf /\ text = g_armor G buf.

(** Two inputs hashed for the tree of the blocks and by the client collide, or the client hashed a preimage of the padding. *)
Definition hash_broken (H : hash_fn) (blocks : list (list Z)) : Prop :=
  exists data p, collision_found H (tree_inputs H blocks) (proof_inputs H data p) \/ padding_preimage H (proof_inputs H data p).

(** ** Deployments *)

(** A machine: the behaviour of its runtime, its key directory (and the capacity of the slice of its file names), and the
    value of the flag files. *)
Record machine := mkMachine { mc_runtime : runtime; mc_cap : nat; mc_dir : dir; mc_files : Z; mc_listen : list Z -> bool }.

(** A machine that stores exactly the keys of the directory in the files it is told to use. *)
Definition stores (keys : list pkey) (m : machine) : Prop :=
  runtime_ok (mc_runtime m) /\
  exists ks, server_keys (mc_cap m) (mc_files m) (mc_dir m) = Ok ks /\ Permutation keys ks.

(** What server number [sid] of a deployment does when it is started. *)
Definition started_as (G : openpgp) (H B : hash_fn) (es : list entry) (scheme : list Z) (sid : nat) (m : machine) : res (list Z * service) :=
  start_server G H B (mc_runtime m) es (mc_cap m) (mc_dir m) (mc_listen m) (Z.of_nat sid) scheme (mc_files m).

(** A point server whose table has blocks of less than 2^32 bytes and, if authenticated, records told apart by their fingerprints. *)
Definition regular (B : hash_fn) (authenticated : bool) (keys : list pkey) (s : service) : Prop :=
  match s with
  | PointService db => i_bs (b_info db) < 2 ^ 32 /\ (authenticated = true -> fingerprints_ok (bucket_blocks B (buckets db) keys))
  | PredicateService _ _ _ _ => False
  end.

Definition point_scheme_name (authenticated : bool) : list Z := if authenticated then lit "pointVPIR" else lit "pointPIR".
