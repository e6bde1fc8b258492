(** Specification vocabulary for the files between a key dump and a server. *)
From Coq Require Import String ZArith List Bool Sorted.
From Verif Require Import GoBase DirectoryModel FilesModel.
Import ListNotations.
Open Scope Z_scope.

(** Byte order on names: a is a proper prefix of b, or at the first difference a has the smaller byte. *)
Definition name_before (a b : list Z) : Prop :=
  exists p, (exists x t, a = p /\ b = p ++ x :: t) \/ (exists x y s t, a = p ++ x :: s /\ b = p ++ y :: t /\ x < y).

(** A directory listing: names in increasing order and none empty. *)
Definition is_directory (d : dir) : Prop :=
  StronglySorted name_before (map fst d) /\ ~ In [] (map fst d).

(** The name of chunk number i below 1000: sks-, three digits, .pgp *)
Definition chunk_file (i : nat) : list Z :=
  [115; 107; 115; 45; 48 + Z.of_nat i / 100; 48 + Z.of_nat i / 10 mod 10; 48 + Z.of_nat i mod 10; 46; 112; 103; 112].
(** A directory whose files are numbered from zero. *)
Definition numbered (fs : list file) : dir := combine (map chunk_file (seq 0 (length fs))) fs.

(** Bytes of the keys of a list, as the splitting counts them. *)
Definition key_bytes (ks : list pkey) : Z := zsum (map (fun k => zlen (k_packet k) + zlen (k_id k)) ks).
(** A cut of the keys of a dump into chunks: nothing lost or moved, every chunk but the last above 100 MiB, none above it
    before its last key. *)
Definition chunking (keys : list pkey) (chunks : list (list pkey)) : Prop :=
  concat chunks = keys /\ chunks <> [] /\
  Forall (fun c => 104857600 < key_bytes c) (removelast chunks) /\
  Forall (fun c => key_bytes (removelast c) <= 104857600) chunks.
(** Fewer bytes than the 1001 chunks that would need a fourth digit. *)
Definition small_dump (keys : list pkey) : Prop := key_bytes keys < 1000 * 104857601.

Definition whole (c : list pkey) : file := KeyFile c false.

(** A name that contains sks-dump-, four digits and .pgp *)
Definition dump_name (s : list Z) : Prop :=
  exists before ds after, s = before ++ [115; 107; 115; 45; 100; 117; 109; 112; 45] ++ ds ++ [46; 112; 103; 112] ++ after /\
    length ds = 4%nat /\ Forall (fun x => 48 <= x <= 57) ds.

(** What the tool leaves when it is killed after p of its writes to the output directory, and when it is killed in the middle
    of the write that follows. *)
Definition killed_after (keys : list pkey) (p : nat) (out : dir) : dir :=
  fst (run_effects out (firstn p (split_effects keys None 0 0))).
Definition killed_within (keys : list pkey) (p : nat) (out : dir) (d : dir) : Prop :=
  exists n k, nth_error (split_effects keys None 0 0) p = Some (Append n k) /\
    d = fst (run_effects out (firstn p (split_effects keys None 0 0) ++ [Tear n])).
