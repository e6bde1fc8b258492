(** Specification vocabulary for the whole path of a key: from the published dumps, through the data tool, the servers' disks, the
    started servers and the network, to what a client shows. *)
From Coq Require Import String ZArith List Bool Permutation.
From Verif Require Import GoBase MerkleModel PointModel PointSpec DirectoryModel DirectorySpec FrontendModel KeyPageModel KeyPageSpec FilesModel FilesSpec WireModel.
Import ListNotations.
Open Scope Z_scope.

(** The keys in the dump files of a directory, file after file: the files are the ones named like dumps, and each is a key ring. *)
Inductive published : dir -> list entity -> Prop :=
| PublishedEnd : published [] []
| PublishedRing n ring d es : dump_name n -> published d es -> published ((n, RingFile ring) :: d) (ring ++ es)
| PublishedOther n f d es : ~ dump_name n -> published d es -> published ((n, f) :: d) es.

(** The directory of a dump: for every address, the packet without subkeys of its freshest valid key, if it is at most 8192 bytes. *)
Definition directory_of_dump (G : openpgp) (es : list entity) (keys : list pkey) : Prop :=
  listed keys /\
  forall email packet, In (mkKey email packet) keys <->
    email <> [] /\ exists e, freshest (candidates (g_lower G) es email) e /\ g_serialize G (primary_only e) = Ok packet /\ zlen packet <= 8192.

(** A machine on which the data tool was run on the dumps, and then on the file it had written, both times without a failure; the
    server is told the number of chunks the second run made, which is the number of files there beside the one of the first run. *)
Definition prepared (G : openpgp) (d : dir) (m : machine) : Prop :=
  exists order p o p' o' out1 full, (forall m, Permutation m (order m)) /\ p <> [] /\ o <> [] /\ p' <> [] /\ o' <> [] /\
    data_main (g_lower G) (g_serialize G) order parse_dump_cmd p o (SDir d) [] = (out1, Ok tt) /\
    lookup full_name out1 = Some full /\
    data_main (g_lower G) (g_serialize G) order gen_chunks_cmd p' o' (SFile full) out1 = (mc_dir m, Ok tt) /\
    mc_files m = zlen (mc_dir m) - 1 /\ (length (mc_dir m) <= mc_cap m)%nat /\ runtime_ok (mc_runtime m).

(** A deployment: machines prepared from the same dumps, server number i started on machine i with the clients' configuration; the
    clients know the servers as the processes that answer at the configured addresses. *)
Definition deployed (G : openpgp) (H B : hash_fn) (auth : bool) (d : dir) (keys : list pkey) (config : list entry) (addrs : list (list Z))
    (at_address : list Z -> service) : Prop :=
  exists machines, Forall (prepared G d) machines /\ load_config config = Ok addrs /\ length addrs = length machines /\
    (forall i m a, nth_error machines i = Some m -> nth_error addrs i = Some a ->
       started_as G H B config (point_scheme_name auth) i m = Ok (a, at_address a)) /\
    Forall (fun a => regular B auth keys (at_address a)) addrs.

(** What a client makes the calls with: the descriptions in the order in which they arrive, and one server per address. *)
Definition remote_infos (E : codec) (at_address : list Z -> service) (addrs : list (list Z)) : list (option db_info) :=
  map (fun a => remote_description E (database_info (at_address a))) addrs.
Definition remote_servers (E : codec) (D : dpf_scheme) (at_address : list Z -> service) (addrs : list (list Z)) : list (list Z -> res (list Z)) :=
  map (fun a => over_network E (answer_point D (fun _ => Panic "no such request") (at_address a))) addrs.
(** Random bytes for the shares of all servers but one; answers below a gigabyte. *)
Definition enough_randomness (at_address : list Z -> service) (addrs : list (list Z)) (rnd : list Z) : Prop :=
  Forall (fun a => forall db, at_address a = PointService db -> zlen rnd = (zlen addrs - 1) * Z.of_nat (query_bytes (b_info db))) addrs.
Definition moderate_answers (at_address : list Z -> service) (addrs : list (list Z)) : Prop :=
  Forall (fun a => forall db, at_address a = PointService db -> i_rows (b_info db) * i_bs (b_info db) <= 1000000000) addrs.
