(** Model of the files on disk that lead from a key dump to a server: data/main.go (the tool that parses the dump and splits
    it), the functions of lib/pgp/pgp.go that list, write and read files, and the choice of files made by
    cmd/grpc/server/main.go. A directory is the list of its entries; a crash of the tool is a prefix of its writes. *)
From Coq Require Import String ZArith List Bool Arith.
From Verif Require Import GoBase EncodingModel MerkleModel DirectoryModel FrontendModel.
Import ListNotations.
Open Scope Z_scope.
Open Scope go_scope.

(** The content of a directory entry, as far as the code can tell: a stream of gob-encoded keys, followed or not by an
    incomplete record; a key ring of the SKS dump; anything else; a subdirectory. *)
Inductive file :=
| KeyFile (records : list pkey) (torn : bool)
| RingFile (entities : list entity)
| OtherFile
| Folder.

(** A directory as ioutil.ReadDir lists it: sorted by name, each name once. *)
Definition dir := list (list Z * file).

Fixpoint lookup (n : list Z) (d : dir) : option file :=
  match d with
  | [] => None
  | (n', f) :: t => if bytes_equal n n' then Some f else lookup n t
  end.
Fixpoint put (n : list Z) (f : file) (d : dir) : dir :=
  match d with
  | [] => [(n, f)]
  | (n', f') :: t =>
    if bytes_equal n n' then (n, f) :: t
    else if string_lt n n' then (n, f) :: (n', f') :: t else (n', f') :: put n f t
  end.

(** What a process does to its output directory: os.OpenFile with O_CREATE|O_WRONLY|O_TRUNC, a key encoded into an open
    file, and, when the process is killed, a record written in part. *)
Inductive effect :=
| Create (name : list Z)
| Append (name : list Z) (k : pkey)
| Tear (name : list Z).

(** One effect. Opening a subdirectory for writing fails; O_TRUNC empties whatever file was there. *)
Definition run_effect (d : dir) (e : effect) : res dir :=
  match e with
  | Create n => match lookup n d with
                | Some Folder => Err "is a directory"
                | _ => Ok (put n (KeyFile [] false) d)
                end
  | Append n k => match lookup n d with
                  | Some (KeyFile ks false) => Ok (put n (KeyFile (ks ++ [k]) false) d)
                  | _ => Err "write error"
                  end
  | Tear n => match lookup n d with
              | Some (KeyFile ks false) => Ok (put n (KeyFile ks true) d)
              | _ => Err "write error"
              end
  end.
(** The effects in order, up to the first that fails. *)
Fixpoint run_effects (d : dir) (es : list effect) : dir * res unit :=
  match es with
  | [] => (d, Ok tt)
  | e :: t => match run_effect d e with
              | Ok d' => run_effects d' t
              | Err m => (d, Err m)
              | Panic m => (d, Panic m)
              | Fatal m => (d, Fatal m)
              end
  end.

(** ** data/main.go *)

(** fmt.Sprintf("%03d", v) for v >= 0 *)
Definition pad3 (ds : list Z) : list Z := repeat 48 (3 - length ds) ++ ds.
(** data/main.go:94 fmt.Sprintf("sks-%03d.pgp", outputNum) *)
Definition chunk_name (num : Z) : list Z := [115; 107; 115; 45] ++ pad3 (itoa num) ++ [46; 112; 103; 112].

(** data/main.go:91-126, the loop of splitFullDumpIntoChunks, as its effects on the output directory. [cur] is the file the
    encoder writes to (None is the nil encoder), [written] is numWrittenBytes, [num] is outputNum. *)
Fixpoint split_effects (keys : list pkey) (cur : option (list Z)) (written num : Z) : list effect :=
  let fresh := match cur with None => true | Some _ => hundred_mb <? written end in
  let name := if fresh then chunk_name num else match cur with Some n => n | None => [] end in
  let opened := if fresh then [Create name] else [] in
  let written := if fresh then 0 else written in
  let num := if fresh then num + 1 else num in
  match keys with
  | [] => opened
  | k :: t => opened ++ Append name k :: split_effects t (Some name) (written + (zlen (k_packet k) + zlen (k_id k))) num
  end.

(** The records gob decodes from a file before the end of the file or an error, and what it says at the end. *)
Definition decodable (f : file) : list pkey := match f with KeyFile ks _ => ks | _ => [] end.
Definition decode_end (f : file) : res unit := match f with KeyFile _ false => Ok tt | _ => Err "decode error" end.

(** What stands at a path given to the tool. *)
Inductive source :=
| SMissing
| SFile (f : file)
| SDir (d : dir).

(** data/main.go:78-134 splitFullDumpIntoChunks; a directory opens, but cannot be decoded. *)
Definition split_into_chunks (path : source) (out : dir) : dir * res unit :=
  match path with
  | SMissing => (out, Err "failed to open path")
  | _ =>
    let f := match path with SFile f => f | _ => Folder end in
    match run_effects out (split_effects (decodable f) None 0 0) with
    | (out', Ok _) => (out', decode_end f)
    | r => r
    end
  end.

(** lib/pgp/pgp.go:133-137, the expression sks-dump-[0-9]{4}\.pgp at the start of a string *)
Definition dump_prefix (s : list Z) : bool :=
  match s with
  | 115 :: 107 :: 115 :: 45 :: 100 :: 117 :: 109 :: 112 :: 45 :: a :: b :: c :: d :: 46 :: 112 :: 103 :: 112 :: _ =>
    forallb (fun x => (48 <=? x) && (x <=? 57)) [a; b; c; d]
  | _ => false
  end.
(** Regexp.MatchString: the expression has no anchors. *)
Fixpoint dump_match (s : list Z) : bool :=
  dump_prefix s || match s with [] => false | _ :: t => dump_match t end.

(** lib/pgp/pgp.go:140-150 GetAllFiles: the paths, without the name of the directory they all begin with *)
Definition get_all_files (d : dir) : list (list Z) := map fst d.
(** lib/pgp/pgp.go:133-137, 154-167 GetSksOriginalDumpFiles, GetFilesThatMatch *)
Definition get_sks_original_dump_files (d : dir) : list (list Z) := filter dump_match (map fst d).

(** os.Open and openpgp.ReadKeyRing (pgp.go:43-50) on a path *)
Definition open_ring (d : dir) (n : list Z) : res (list entity) :=
  match lookup n d with
  | None => Err "no such file"
  | Some (RingFile es) => Ok es
  | Some _ => Err "not a key ring"
  end.
(** os.Open and the loop of Decode (pgp.go:171-187) on a path *)
Definition open_keys (d : dir) (n : list Z) : res (list pkey) :=
  match lookup n d with
  | None => Err "no such file"
  | Some f => _ <- decode_end f ;; Ok (decodable f)
  end.
(** lib/pgp/pgp.go:169-193 LoadKeysFromDisk on paths *)
Definition load_files (d : dir) (names : list (list Z)) : res (list pkey) :=
  load_keys_from_disk (map (open_keys d) names).

(** lib/pgp/pgp.go:27 SksParsedFullFileName, "sks-full.pgp" *)
Definition full_name : list Z := [115; 107; 115; 45; 102; 117; 108; 108; 46; 112; 103; 112].
(** lib/pgp/pgp.go:108-124, the loop of WriteKeysOnDisk as its effects, and its outcome; [entries] is the map in the order
    the range visits it. *)
Fixpoint write_effects (serialize : entity -> res (list Z)) (entries : key_map) : list effect * res unit :=
  match entries with
  | [] => ([], Ok tt)
  | (email, e) :: t =>
    match serialize e with
    | Ok buf =>
      let '(es, r) := write_effects serialize t in
      if key_size_limit <? zlen buf then (es, r) else (Append full_name (mkKey email buf) :: es, r)
    | Err m => ([], Err m)
    | Panic m => ([], Panic m)
    | Fatal m => ([], Fatal m)
    end
  end.
(** lib/pgp/pgp.go:96-129 WriteKeysOnDisk *)
Definition write_keys (serialize : entity -> res (list Z)) (entries : key_map) (out : dir) : dir * res unit :=
  let '(es, r) := write_effects serialize entries in
  match run_effects out (Create full_name :: es) with
  | (out', Ok _) => (out', r)
  | x => x
  end.

(** data/main.go:60-76 parseSksDump; [order] is the order in which the range visits the map. *)
Definition parse_sks_dump (lower : list Z -> list Z) (serialize : entity -> res (list Z)) (order : key_map -> key_map)
    (path : source) (out : dir) : dir * res unit :=
  match path with
  | SDir d =>
    match analyze_key_dump lower (map (open_ring d) (get_sks_original_dump_files d)) with
    | Ok m => write_keys serialize (order m) out
    | Err m => (out, Err m)
    | Panic m => (out, Panic m)
    | Fatal m => (out, Fatal m)
    end
  | _ => (out, Err "cannot list directory")
  end.

(** data/main.go:136-163 generateDB: the whole body is commented out. *)
Definition generate_db (path : source) (out : dir) : dir * res unit := (out, Ok tt).

(** The three commands, as bytes: genChunks, genDB, parseDump *)
Definition gen_chunks_cmd : list Z := [103; 101; 110; 67; 104; 117; 110; 107; 115].
Definition gen_db_cmd : list Z := [103; 101; 110; 68; 66].
Definition parse_dump_cmd : list Z := [112; 97; 114; 115; 101; 68; 117; 109; 112].
(** log.Fatalf on an error, data/main.go:40-55 *)
Definition or_fatal (r : dir * res unit) : dir * res unit :=
  match r with
  | (d, Err m) => (d, Fatal m)
  | _ => r
  end.
(** data/main.go:21-58 main; [at_path] is what stands at the path, [out] the directory named by the flag out. *)
Definition data_main (lower : list Z -> list Z) (serialize : entity -> res (list Z)) (order : key_map -> key_map)
    (cmd path_flag out_flag : list Z) (at_path : source) (out : dir) : dir * res unit :=
  if bytes_equal cmd [] || bytes_equal path_flag [] || bytes_equal out_flag [] then (out, Fatal "usage")
  else if bytes_equal cmd gen_chunks_cmd then or_fatal (split_into_chunks at_path out)
  else if bytes_equal cmd gen_db_cmd then or_fatal (generate_db at_path out)
  else if bytes_equal cmd parse_dump_cmd then or_fatal (parse_sks_dump lower serialize order at_path out)
  else (out, Fatal "unknown command").

(** ** cmd/grpc/server/main.go *)

(** cmd/grpc/server/main.go:343-355 getSksFiles, for the directory it lists. [cap] is the capacity that append gave the
    slice of names; the names between the length and the capacity are empty strings. *)
Definition get_sks_files (cap : nat) (filesNumber : Z) (d : dir) : res (list (list Z)) :=
  let names := get_all_files d in
  if (filesNumber <? 0) || (Z.of_nat cap <? filesNumber) then Panic "slice bounds out of range"
  else Ok (firstn (Z.to_nat filesNumber) (names ++ repeat [] (cap - length names))).
(** cmd/grpc/server/main.go:42, the default of the flag files *)
Definition default_files : Z := 1.
(** The keys a server builds its database from: getSksFiles (343-355) and LoadKeysFromDisk (lib/pgp/pgp.go:169-193). No
    entry of a directory has an empty name. *)
Definition server_keys (cap : nat) (filesNumber : Z) (d : dir) : res (list pkey) :=
  names <- get_sks_files cap filesNumber d ;;
  load_files d names.
