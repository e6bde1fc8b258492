(** Property theorems about the files between a key dump and the servers (C95-C100). *)
From Coq Require Import String ZArith List Bool Arith Lia Permutation Sorted.
From Verif Require Import GoBase BaseFacts EncodingModel MerkleModel MerkleProofs DirectoryModel DirectorySpec DirectoryProofs DirectoryProofs4
  FrontendModel FilesModel FilesSpec FilesProofs FilesProofs2 FilesProofs3 ToyDirectory.
Import ListNotations.
Open Scope Z_scope.

(** Keys of 60 MiB, so that two fill a chunk. *)
Definition heavy (id : Z) : pkey := mkKey [id] (repeat 0 (Z.to_nat 62914560)).
Lemma heavy_bytes id : zlen (k_packet (heavy id)) + zlen (k_id (heavy id)) = 62914561.
Proof. unfold heavy. cbn [k_packet k_id]. unfold zlen. rewrite repeat_length. cbn [length]. lia. Qed.
Lemma heavy_split a b c : split_full_dump_into_chunks [heavy a; heavy b; heavy c] = [[heavy a; heavy b]; [heavy c]].
Proof. unfold split_full_dump_into_chunks. cbn [split_loop app]. rewrite !heavy_bytes. reflexivity. Qed.
Lemma heavy_small a b c : small_dump [heavy a; heavy b; heavy c].
Proof. unfold small_dump, key_bytes. cbn [map zsum]. rewrite !heavy_bytes. lia. Qed.
Definition tiny : pkey := mkKey [9] [9].
Lemma tiny_small : small_dump [tiny]. Proof. vm_compute. reflexivity. Qed.
Lemma tiny_split : split_full_dump_into_chunks [tiny] = [[tiny]]. Proof. vm_compute. reflexivity. Qed.
Global Opaque heavy.

(** C95: chunk files made from a dump (below 97 GiB, hence at most 1000 chunks) in an empty directory are named sks-000.pgp,
    sks-001.pgp, ...; listing the directory and loading all its files gives back exactly the keys of the dump, in order. *)
Theorem C95_chunk_files :
  forall keys, small_dump keys ->
  exists chunks, chunking keys chunks /\ (length chunks <= 1000)%nat /\
    let d := numbered (map whole chunks) in
    split_into_chunks (SFile (whole keys)) [] = (d, Ok tt) /\ is_directory d /\
    load_files d (get_all_files d) = Ok keys.
Proof.
  intros keys SD. pose proof (split_chunking keys) as C. pose proof (chunking_count _ _ C SD) as L.
  exists (split_full_dump_into_chunks keys). split; auto. split; auto. cbv zeta. conj_split.
  - rewrite <- numbered_nil at 1. rewrite split_numbered; auto; [|apply rest_ok_nil|cbn; lia].
    rewrite skipn_nil, !app_nil_r. reflexivity.
  - apply numbered_directory. rewrite map_length. auto.
  - rewrite load_numbered by auto. f_equal. apply C.
Qed.
Print Assumptions C95_chunk_files.

(** Without the limit on the size the order may change, but nothing is lost or repeated. *)
Theorem C95_any_size :
  forall keys, Z.of_nat (length keys) < 2 ^ 62 ->
  exists chunks d css, chunking keys chunks /\ split_into_chunks (SFile (whole keys)) [] = (d, Ok tt) /\ is_directory d /\
    Permutation css chunks /\ load_files d (get_all_files d) = Ok (concat css).
Proof.
  intros keys B. pose proof (split_chunking keys) as C.
  assert (L : Z.of_nat (length (split_full_dump_into_chunks keys)) <= 2 ^ 63).
  { assert (A : forall ks cur w, (length (split_loop ks cur w) <= length ks + 2)%nat).
    { induction ks as [|k ks IH]; intros cur w; cbn [split_loop length].
      - destruct (_ <? _); cbn; lia.
      - destruct (_ <? _); cbn [length]; [specialize (IH [k] (zlen (k_packet k) + zlen (k_id k)))|specialize (IH (cur ++ [k]) (w + (zlen (k_packet k) + zlen (k_id k))))]; lia. }
    specialize (A keys [] 0). unfold split_full_dump_into_chunks. change (2 ^ 62) with 4611686018427387904 in B. change (2 ^ 63) with 9223372036854775808. lia. }
  pose proof (put_chunks_perm _ L) as P. set (d := put_chunks 0 (split_full_dump_into_chunks keys) []) in *.
  assert (S : sorted d) by (apply put_chunks_sorted; constructor).
  assert (Q : Permutation (map snd d) (map whole (split_full_dump_into_chunks keys))).
  { rewrite <- (named_files 0 (map whole (split_full_dump_into_chunks keys))). apply Permutation_map. exact P. }
  destruct (Permutation_map_inv _ _ Q) as (css & E & PC).
  exists (split_full_dump_into_chunks keys), d, css. split; auto. split; [|split; [|split; auto]].
  - unfold split_into_chunks. cbn [decodable whole decode_end]. rewrite split_effects_chunks. rewrite <- (app_nil_r (effects_of _ 0)).
    rewrite run_chunks; [reflexivity|lia|constructor|]. intros v V. discriminate.
  - split; [apply sorted_spec; auto|]. intros I. apply in_map_iff in I. destruct I as ((n & f) & N & I). cbn [fst] in N. subst n.
    eapply Permutation_in in I; [|exact P]. apply named_in in I. destruct I as (i & _ & A). discriminate.
  - apply Permutation_sym. exact PC.
  - unfold get_all_files. apply load_whole; auto. apply incl_refl.
Qed.
Print Assumptions C95_any_size.

(** Splitting a second dump into the same directory leaves the surplus chunks of the first. *)
Theorem C95_rerun :
  forall keys0 keys1, small_dump keys0 -> small_dump keys1 ->
  exists chunks0 chunks1 d0 d1, chunking keys0 chunks0 /\ chunking keys1 chunks1 /\
    split_into_chunks (SFile (whole keys0)) [] = (d0, Ok tt) /\ split_into_chunks (SFile (whole keys1)) d0 = (d1, Ok tt) /\
    load_files d1 (get_all_files d1) = Ok (keys1 ++ concat (skipn (length chunks1) chunks0)).
Proof.
  intros keys0 keys1 S0 S1. pose proof (split_chunking keys0) as C0. pose proof (chunking_count _ _ C0 S0) as L0.
  pose proof (split_chunking keys1) as C1. pose proof (chunking_count _ _ C1 S1) as L1.
  set (c0 := split_full_dump_into_chunks keys0) in *. set (c1 := split_full_dump_into_chunks keys1) in *.
  exists c0, c1, (numbered (map whole c0)), (numbered (map whole (c1 ++ skipn (length c1) c0))). conj_split; auto.
  - rewrite <- numbered_nil at 1. rewrite split_numbered; auto; [|apply rest_ok_nil|cbn; lia].
    rewrite skipn_nil, !app_nil_r. reflexivity.
  - rewrite <- (numbered_app_nil (map whole c0)). rewrite split_numbered; auto; [|apply rest_ok_nil|rewrite map_length; auto|].
    + rewrite numbered_app_nil. fold c1. rewrite map_app, skipn_map. reflexivity.
    + apply Forall_forall. intros f F. apply in_map_iff in F. destruct F as (c & <- & _). discriminate.
  - rewrite load_numbered by (rewrite app_length, skipn_length; lia). rewrite concat_app. f_equal. f_equal. apply C1.
Qed.
Print Assumptions C95_rerun.

(** So a smaller dump split into a directory that was used before is loaded together with keys it does not contain. *)
Theorem C95_stale_chunks_refuted :
  exists keys0 keys1 d0 d1, small_dump keys0 /\ small_dump keys1 /\
    split_into_chunks (SFile (whole keys0)) [] = (d0, Ok tt) /\ split_into_chunks (SFile (whole keys1)) d0 = (d1, Ok tt) /\
    exists extra, load_files d1 (get_all_files d1) = Ok (keys1 ++ extra) /\ extra <> [] /\ Forall (fun k => In k keys0 /\ ~ In k keys1) extra.
Proof.
  exists [heavy 1; heavy 2; heavy 3], [tiny], (numbered (map whole [[heavy 1; heavy 2]; [heavy 3]])), (numbered (map whole [[tiny]; [heavy 3]])).
  split; [apply heavy_small|]. split; [apply tiny_small|]. split; [|split].
  - rewrite <- numbered_nil at 1. rewrite split_numbered; [|apply rest_ok_nil|cbn; lia|apply heavy_small|constructor].
    rewrite skipn_nil, !app_nil_r, heavy_split. reflexivity.
  - rewrite <- (numbered_app_nil (map whole [[heavy 1; heavy 2]; [heavy 3]])).
    rewrite split_numbered; [|apply rest_ok_nil|cbn; lia|apply tiny_small|repeat constructor; discriminate].
    rewrite numbered_app_nil, tiny_split. reflexivity.
  - exists [heavy 3]. split; [|split; [discriminate|]].
    + rewrite load_numbered by (cbn; lia). reflexivity.
    + constructor; [|constructor]. split; [right; right; left; reflexivity|]. intros [E|[]].
      apply (f_equal (fun k => zlen (k_packet k) + zlen (k_id k))) in E. rewrite heavy_bytes in E. discriminate.
Qed.
Print Assumptions C95_stale_chunks_refuted.

(** Three keys of 60 MiB: the hypotheses hold and there are two files. *)
Example C95_example :
  small_dump [heavy 1; heavy 2; heavy 3] /\
  split_into_chunks (SFile (whole [heavy 1; heavy 2; heavy 3])) []
  = ([([115; 107; 115; 45; 48; 48; 48; 46; 112; 103; 112], whole [heavy 1; heavy 2]);
      ([115; 107; 115; 45; 48; 48; 49; 46; 112; 103; 112], whole [heavy 3])], Ok tt) /\
  Z.of_nat (length [heavy 1; heavy 2; heavy 3]) < 2 ^ 62.
Proof.
  split; [apply heavy_small|]. split; [|cbn; lia]. rewrite <- numbered_nil at 1.
  rewrite split_numbered; [|apply rest_ok_nil|cbn; lia|apply heavy_small|constructor].
  rewrite skipn_nil, !app_nil_r, heavy_split. reflexivity.
Qed.

(** C96: a server started with -files n on a directory loads keys if and only if the directory has at least n entries and the
    first n, in order of their names, are complete key files; then it has exactly their keys. *)
Theorem C96_files_flag :
  forall cap n d ks, is_directory d -> (length d <= cap)%nat ->
  server_keys cap n d = Ok ks <->
  0 <= n <= Z.of_nat (length d) /\ exists css, map snd (firstn (Z.to_nat n) d) = map whole css /\ ks = concat css.
Proof. intros cap n d ks (S & E) C. apply server_keys_iff; auto. apply sorted_spec; auto. Qed.
Print Assumptions C96_files_flag.

(** On chunk files this is the keys of the first n chunks, and all keys only for n = the number of chunks (or when the last chunk
    is empty). *)
Theorem C96_first_chunks :
  forall keys, small_dump keys ->
  exists chunks d, chunking keys chunks /\ split_into_chunks (SFile (whole keys)) [] = (d, Ok tt) /\
    forall cap n, (length d <= cap)%nat ->
      (0 <= n <= Z.of_nat (length chunks) -> server_keys cap n d = Ok (concat (firstn (Z.to_nat n) chunks))) /\
      (n = Z.of_nat (length chunks) -> server_keys cap n d = Ok keys) /\
      (~ 0 <= n <= Z.of_nat (length chunks) -> forall ks, server_keys cap n d <> Ok ks).
Proof.
  intros keys SD. pose proof (split_chunking keys) as C. pose proof (chunking_count _ _ C SD) as L.
  exists (split_full_dump_into_chunks keys), (numbered (map whole (split_full_dump_into_chunks keys))). split; auto. split.
  { rewrite <- numbered_nil at 1. rewrite split_numbered; auto; [|apply rest_ok_nil|cbn; lia]. rewrite skipn_nil, !app_nil_r. reflexivity. }
  intros cap n CAP. rewrite numbered_length, map_length in CAP.
  assert (A : 0 <= n <= Z.of_nat (length (split_full_dump_into_chunks keys)) ->
    server_keys cap n (numbered (map whole (split_full_dump_into_chunks keys))) = Ok (concat (firstn (Z.to_nat n) (split_full_dump_into_chunks keys)))).
  { intros R. rewrite <- (numbered_app_nil (map whole _)). apply server_numbered; auto; [apply rest_ok_nil|rewrite map_length; auto| | |].
    - rewrite map_length. cbn [length]. lia.
    - rewrite map_length. lia.
    - apply firstn_map. }
  split; [exact A|]. split.
  - intros ->. rewrite A by lia. rewrite Nat2Z.id, firstn_all. f_equal. apply C.
  - intros R ks E. destruct (numbered_directory (map whole (split_full_dump_into_chunks keys))) as (S & NE); [rewrite map_length; auto|].
    apply server_keys_iff in E; auto; [|apply sorted_spec; auto|rewrite numbered_length, map_length; auto].
    destruct E as (B & _). rewrite numbered_length, map_length in B. lia.
Qed.
Print Assumptions C96_first_chunks.

(** A server started without the flag (default 1) silently serves only the first chunk. *)
Theorem C96_default_refuted :
  exists keys d, small_dump keys /\ split_into_chunks (SFile (whole keys)) [] = (d, Ok tt) /\
    forall cap, (length d <= cap)%nat -> exists ks, server_keys cap default_files d = Ok ks /\ exists k, In k keys /\ ~ In k ks.
Proof.
  exists [heavy 1; heavy 2; tiny], (numbered (map whole [[heavy 1; heavy 2]; [tiny]])).
  assert (SD : small_dump [heavy 1; heavy 2; tiny]).
  { unfold small_dump, key_bytes. cbn [map zsum]. rewrite !heavy_bytes. vm_compute. reflexivity. }
  assert (SP : split_full_dump_into_chunks [heavy 1; heavy 2; tiny] = [[heavy 1; heavy 2]; [tiny]]).
  { unfold split_full_dump_into_chunks. cbn [split_loop app]. rewrite !heavy_bytes. reflexivity. }
  split; [exact SD|]. split.
  { rewrite <- numbered_nil at 1. rewrite split_numbered; [|apply rest_ok_nil|cbn; lia|exact SD|constructor]. rewrite skipn_nil, !app_nil_r, SP. reflexivity. }
  intros cap C. exists [heavy 1; heavy 2]. rewrite numbered_length, map_length in C. cbn [length] in C. split.
  - rewrite <- (numbered_app_nil (map whole _)).
    exact (server_numbered [] (map whole [[heavy 1; heavy 2]; [tiny]]) [[heavy 1; heavy 2]] cap 1 rest_ok_nil (fun x => x) ltac:(cbn [map length]; lia)
      ltac:(cbn [map length]; lia) ltac:(cbn [map length]; lia) eq_refl).
  - exists tiny. split; [right; right; left; reflexivity|].
    intros [E|[E|[]]]; apply (f_equal (fun k => zlen (k_packet k) + zlen (k_id k))) in E; rewrite heavy_bytes in E; discriminate.
Qed.
Print Assumptions C96_default_refuted.

(** A directory with two key files and a foreign file: one or two files load, three do not, four and more panic or fail. *)
Definition demo_dir : dir := [(chunk_file 0, whole [tiny]); (chunk_file 1, whole [tiny; tiny]); (full_name, OtherFile)].
Example C96_example :
  is_directory demo_dir /\
  map (fun n => server_keys 4 n demo_dir) [-1; 0; 1; 2; 3; 4; 5]
  = [Panic "slice bounds out of range"; Ok []; Ok [tiny]; Ok [tiny; tiny; tiny]; Err "decode error"; Err "decode error"; Panic "slice bounds out of range"].
Proof.
  split; [|vm_compute; reflexivity]. split.
  - apply sorted_spec. repeat constructor.
  - cbn [demo_dir map fst In]. intros [E|[E|[E|[]]]]; discriminate.
Qed.

(** C97: killing the tool while it splits a dump. Whatever it was doing, what can be loaded afterwards is a prefix of the dump;
    a record written in part makes loading fail; and running the tool again gives the result of an undisturbed run. *)
Theorem C97_killed_prefix :
  forall keys p, small_dump keys ->
  let d := killed_after keys p [] in
  is_directory d /\ exists m, load_files d (get_all_files d) = Ok (firstn m keys).
Proof.
  intros keys p SD d. unfold d.
  destruct (killed_after_numbered [] [] keys p rest_ok_nil ltac:(cbn; lia) SD ltac:(constructor)) as (ch & L & A & E).
  assert (LC := chunking_count _ _ (split_chunking keys) SD). rewrite numbered_nil in E. rewrite skipn_nil, !app_nil_r in E. rewrite E. split.
  - apply numbered_directory. rewrite map_length. lia.
  - rewrite load_numbered by lia. exists (length (appended (firstn p (split_effects keys None 0 0)))). f_equal. rewrite A.
    assert (K : keys = appended (firstn p (split_effects keys None 0 0)) ++ appended (skipn p (split_effects keys None 0 0))).
    { rewrite <- appended_app, firstn_skipn, split_effects_chunks, appended_effects. symmetry. apply (split_chunking keys). }
    revert K. generalize (appended (firstn p (split_effects keys None 0 0))), (appended (skipn p (split_effects keys None 0 0))).
    intros a b ->. rewrite firstn_app, Nat.sub_diag, firstn_all. cbn [firstn]. rewrite app_nil_r. reflexivity.
Qed.
Print Assumptions C97_killed_prefix.

Theorem C97_partial_record_detected :
  forall keys p d, small_dump keys -> killed_within keys p [] d ->
  is_directory d /\ (forall ks, load_files d (get_all_files d) <> Ok ks) /\
  forall cap ks, (length d <= cap)%nat -> server_keys cap (Z.of_nat (length d)) d <> Ok ks.
Proof.
  intros keys p d SD K. assert (LC := chunking_count _ _ (split_chunking keys) SD).
  destruct (killed_within_numbered [] [] keys p d rest_ok_nil ltac:(cbn; lia) SD ltac:(constructor) K) as (ch & l & L & A & E).
  rewrite skipn_nil, app_nil_r in E.
  assert (LL : (length (map whole ch ++ [KeyFile l true]) <= 1000)%nat) by (rewrite app_length, map_length; cbn [length]; lia).
  pose proof (numbered_directory _ LL) as D. rewrite <- E in D. split; auto.
  assert (T : forall css, map snd d <> map whole css).
  { intros css Q. rewrite E in Q. change numbered with (numbered_from 0) in Q. rewrite numbered_files in Q.
    assert (I : In (KeyFile l true) (map whole css)) by (rewrite <- Q; apply in_or_app; right; left; reflexivity).
    apply in_map_iff in I. destruct I as (c & X & _). discriminate. }
  split.
  - intros ks Q. unfold get_all_files in Q. rewrite load_sub in Q; [|apply sorted_spec; apply D|apply incl_refl].
    destruct (mapM _ _) as [css| | |] eqn:M; cbn [bind] in Q; try discriminate. apply mapM_content_inv in M. exact (T _ M).
  - intros cap ks C Q. destruct D as (S & NE). apply server_keys_iff in Q; auto; [|apply sorted_spec; auto].
    destruct Q as (_ & css & Q & _). rewrite Nat2Z.id, firstn_all in Q. exact (T _ Q).
Qed.
Print Assumptions C97_partial_record_detected.

Theorem C97_rerun_repairs :
  forall keys p d, small_dump keys -> d = killed_after keys p [] \/ killed_within keys p [] d ->
  split_into_chunks (SFile (whole keys)) d = split_into_chunks (SFile (whole keys)) [].
Proof.
  intros keys p d SD K. assert (LC := chunking_count _ _ (split_chunking keys) SD).
  assert (R : exists fs, d = numbered fs ++ [] /\ (length fs <= length (split_full_dump_into_chunks keys))%nat /\ Forall (fun f => f <> Folder) fs).
  { destruct K as [->|K].
    - destruct (killed_after_numbered [] [] keys p rest_ok_nil ltac:(cbn; lia) SD ltac:(constructor)) as (ch & L & A & E).
      rewrite numbered_nil in E. exists (map whole ch). rewrite E, skipn_nil, !app_nil_r, map_length. conj_split; auto.
      apply Forall_forall. intros f F. apply in_map_iff in F. destruct F as (c & <- & _). discriminate.
    - destruct (killed_within_numbered [] [] keys p d rest_ok_nil ltac:(cbn; lia) SD ltac:(constructor) K) as (ch & l & L & A & E).
      rewrite skipn_nil in E. exists (map whole ch ++ [KeyFile l true]). conj_split; auto.
      + rewrite app_length, map_length. cbn [length]. lia.
      + apply Forall_app. split; [|repeat constructor; discriminate].
        apply Forall_forall. intros f F. apply in_map_iff in F. destruct F as (c & <- & _). discriminate. }
  destruct R as (fs & -> & L & F). rewrite split_numbered; auto; [|apply rest_ok_nil|lia].
  rewrite <- numbered_nil at 2. rewrite split_numbered; auto; [|apply rest_ok_nil|cbn; lia].
  rewrite skipn_nil, (skipn_all2 fs) by lia. reflexivity.
Qed.
Print Assumptions C97_rerun_repairs.

(** A kill between two records is not noticed: every prefix of the dump, however short, can be what loads without an error. *)
Theorem C97_loss_unnoticed_refuted :
  forall keys m, small_dump keys -> (m <= length keys)%nat ->
  exists p, let d := killed_after keys p [] in load_files d (get_all_files d) = Ok (firstn m keys).
Proof.
  intros keys m SD M. assert (LC := chunking_count _ _ (split_chunking keys) SD).
  assert (K : appended (split_effects keys None 0 0) = keys).
  { rewrite split_effects_chunks, appended_effects. apply (split_chunking keys). }
  destruct (appended_reach (split_effects keys None 0 0) m) as (p & P); [rewrite K; auto|]. exists p. cbv zeta.
  destruct (killed_after_numbered [] [] keys p rest_ok_nil ltac:(cbn; lia) SD ltac:(constructor)) as (ch & L & A & E).
  rewrite numbered_nil in E. rewrite skipn_nil, !app_nil_r in E. rewrite E, load_numbered by lia. rewrite A, P, K. reflexivity.
Qed.
Print Assumptions C97_loss_unnoticed_refuted.

(** Two keys: all crash points between records, and a partial record. *)
Example C97_example :
  small_dump [tiny; mkKey [1] [2]] /\
  map (fun p => let d := killed_after [tiny; mkKey [1] [2]] p [] in load_files d (get_all_files d)) [0; 1; 2; 3]%nat
  = [Ok []; Ok []; Ok [tiny]; Ok [tiny; mkKey [1] [2]]] /\
  killed_within [tiny; mkKey [1] [2]] 2 [] [(chunk_file 0, KeyFile [tiny] true)].
Proof.
  split; [vm_compute; reflexivity|]. split; [vm_compute; reflexivity|]. exists (chunk_file 0), (mkKey [1] [2]). split; vm_compute; reflexivity.
Qed.

(** C98: from the dump to the servers' keys. Parsing a dump into an empty directory writes one file with the keys kept; splitting
    this file into the same directory adds the chunks; a server asked for as many files as there are chunks then has exactly the
    keys kept, in the order written, and with fewer files those of the first chunks. *)
Theorem C98_deployment :
  forall lower serialize order p o p' o' d out1, p <> [] -> o <> [] -> p' <> [] -> o' <> [] ->
  data_main lower serialize order parse_dump_cmd p o (SDir d) [] = (out1, Ok tt) ->
  exists m ks, analyze_key_dump lower (map (open_ring d) (get_sks_original_dump_files d)) = Ok m /\
    write_keys_on_disk serialize (order m) = Ok ks /\ out1 = [(full_name, whole ks)] /\
    (small_dump ks -> exists chunks out2, chunking ks chunks /\ is_directory out2 /\
       data_main lower serialize order gen_chunks_cmd p' o' (SFile (whole ks)) out1 = (out2, Ok tt) /\
       lookup full_name out2 = Some (whole ks) /\
       forall cap n, (length out2 <= cap)%nat ->
         (0 <= n <= Z.of_nat (length chunks) -> server_keys cap n out2 = Ok (concat (firstn (Z.to_nat n) chunks))) /\
         (n = Z.of_nat (length chunks) -> server_keys cap n out2 = Ok ks)).
Proof.
  intros lower serialize order p o p' o' d out1 P O P' O' E. unfold data_main in E.
  rewrite !(bytes_equal_neq p), !(bytes_equal_neq o) in E by auto. change (bytes_equal parse_dump_cmd []) with false in E.
  change (bytes_equal parse_dump_cmd gen_chunks_cmd) with false in E. change (bytes_equal parse_dump_cmd gen_db_cmd) with false in E.
  change (bytes_equal parse_dump_cmd parse_dump_cmd) with true in E. cbn [orb] in E. cbv iota in E. unfold parse_sks_dump in E.
  destruct (analyze_key_dump _ _) as [m| | |] eqn:A; cbn [or_fatal] in E; try discriminate.
  destruct (write_effects serialize (order m)) as (es, r) eqn:W.
  destruct (write_keys_run serialize (order m) [] es r) as (ks & -> & R); [constructor|discriminate|auto|]. rewrite R in E.
  cbn [put] in E. assert (Q : out1 = [(full_name, whole ks)] /\ r = Ok tt) by (destruct r as [[]| | |]; cbn [or_fatal] in E; split; congruence).
  destruct Q as (-> & ->). apply write_effects_inv in W. destruct W as (ks' & W & EQ).
  assert (ks' = ks). { apply (f_equal appended) in EQ. rewrite !appended_map in EQ. auto. } subst ks'.
  exists m, ks. conj_split; auto. intros SD. pose proof (split_chunking ks) as C. pose proof (chunking_count _ _ C SD) as L.
  exists (split_full_dump_into_chunks ks), (numbered (map whole (split_full_dump_into_chunks ks)) ++ [(full_name, whole ks)]).
  assert (RO := rest_ok_full (whole ks)). assert (LM : (length (map whole (split_full_dump_into_chunks ks)) <= 1000)%nat) by (rewrite map_length; auto).
  split; auto. split; [|split; [|split]].
  - split; [apply sorted_spec; apply numbered_sorted0; auto|]. rewrite map_app. intros I. apply in_app_or in I. destruct I as [I|[I|[]]]; [|discriminate].
    change numbered with (numbered_from 0) in I. rewrite numbered_names in I. apply in_map_iff in I. destruct I as (j & X & _). discriminate.
  - unfold data_main. rewrite !(bytes_equal_neq p'), !(bytes_equal_neq o') by auto. change (bytes_equal gen_chunks_cmd []) with false.
    change (bytes_equal gen_chunks_cmd gen_chunks_cmd) with true. cbn [orb]. cbv iota.
    change [(full_name, whole ks)] with (numbered [] ++ [(full_name, whole ks)]) at 1. rewrite split_numbered; auto; [|cbn; lia].
    rewrite skipn_nil, app_nil_r. reflexivity.
  - apply lookup_in; [apply numbered_sorted0; auto|]. apply in_or_app. right. left. reflexivity.
  - intros cap n CAP. rewrite app_length, numbered_length, map_length in CAP. cbn [length] in CAP.
    assert (G : 0 <= n <= Z.of_nat (length (split_full_dump_into_chunks ks)) ->
      server_keys cap n (numbered (map whole (split_full_dump_into_chunks ks)) ++ [(full_name, whole ks)]) = Ok (concat (firstn (Z.to_nat n) (split_full_dump_into_chunks ks)))).
    { intros B. apply server_numbered; auto.
      - cbn [map fst]. intros [X|[]]. discriminate.
      - rewrite map_length. cbn [length]. lia.
      - rewrite map_length. lia.
      - apply firstn_map. }
    split; [exact G|]. intros ->. rewrite G by lia. rewrite Nat2Z.id, firstn_all. f_equal. apply C.
Qed.
Print Assumptions C98_deployment.

(** One file more and the server reads the unsplit file as well: every key twice. *)
Theorem C98_every_key_twice_refuted :
  forall ks, small_dump ks ->
  exists chunks out2, chunking ks chunks /\ split_into_chunks (SFile (whole ks)) [(full_name, whole ks)] = (out2, Ok tt) /\
    length out2 = S (length chunks) /\
    forall cap, (length out2 <= cap)%nat -> server_keys cap (Z.of_nat (length out2)) out2 = Ok (ks ++ ks).
Proof.
  intros ks SD. pose proof (split_chunking ks) as C. pose proof (chunking_count _ _ C SD) as L.
  exists (split_full_dump_into_chunks ks), (numbered (map whole (split_full_dump_into_chunks ks)) ++ [(full_name, whole ks)]).
  assert (RO := rest_ok_full (whole ks)). assert (LM : (length (map whole (split_full_dump_into_chunks ks)) <= 1000)%nat) by (rewrite map_length; auto).
  split; auto. split; [|split].
  - change [(full_name, whole ks)] with (numbered [] ++ [(full_name, whole ks)]) at 1. rewrite split_numbered; auto; [|cbn; lia].
    rewrite skipn_nil, app_nil_r. reflexivity.
  - rewrite app_length, numbered_length, map_length. cbn [length]. lia.
  - intros cap CAP. apply server_keys_iff; auto.
    + apply numbered_sorted0; auto.
    + rewrite map_app. intros I. apply in_app_or in I. destruct I as [I|[I|[]]]; [|discriminate].
      change numbered with (numbered_from 0) in I. rewrite numbered_names in I. apply in_map_iff in I. destruct I as (j & X & _). discriminate.
    + split; [lia|]. exists (split_full_dump_into_chunks ks ++ [ks]). rewrite Nat2Z.id, firstn_all. split.
      * rewrite map_app. change numbered with (numbered_from 0). rewrite numbered_files, map_app. reflexivity.
      * rewrite concat_app. cbn [concat]. rewrite app_nil_r. f_equal. symmetry. apply C.
Qed.
Print Assumptions C98_every_key_twice_refuted.

(** Two dump files, the second with a newer key of the person a; a log file is ignored. *)
Definition dump_file (i : Z) : list Z := [115; 107; 115; 45; 100; 117; 109; 112; 45; 48; 48; 48; 48 + i; 46; 112; 103; 112].
Definition person (a created : Z) : entity := mkEntity 0 [a] [] created [[1]] [a].
Definition demo_dumps : dir :=
  [([108; 111; 103], OtherFile); (dump_file 0, RingFile [person 65 5; person 66 5]); (dump_file 1, RingFile [person 97 6])].
Example C98_example :
  is_directory demo_dumps /\
  exists ks, data_main ascii_lower toy_serialize (@rev _) parse_dump_cmd [46] [111] (SDir demo_dumps) [] = ([(full_name, whole ks)], Ok tt) /\
    map k_id ks = [[98]; [97]] /\ small_dump ks.
Proof.
  split.
  - split; [apply sorted_spec; repeat constructor|]. cbn [demo_dumps map fst In]. intros [E|[E|[E|[]]]]; discriminate.
  - eexists. split; [vm_compute; reflexivity|]. split; vm_compute; reflexivity.
Qed.

(** C99: the dump files read by parseDump are the entries of the directory whose name contains sks-dump-, four digits and .pgp,
    each once, in the order of their names; the command succeeds only if all of them are key rings. *)
Theorem C99_files_read :
  forall d, is_directory d ->
  (forall n, In n (get_sks_original_dump_files d) <-> In n (map fst d) /\ dump_name n) /\
  StronglySorted name_before (get_sks_original_dump_files d).
Proof.
  intros d (S & _). unfold get_sks_original_dump_files. split.
  - intros n. rewrite filter_In, dump_match_iff. reflexivity.
  - induction (map fst d) as [|n l IH]; cbn [filter]; [constructor|]. inversion S; subst. destruct (dump_match n); auto.
    constructor; auto. apply Forall_forall. intros x X. apply filter_In in X. rewrite Forall_forall in H2. apply H2. apply X.
Qed.
Print Assumptions C99_files_read.

Lemma open_rings d : forall l rings, mapM (fun f => f) (map (open_ring d) l) = Ok rings -> Forall2 (fun n es => In (n, RingFile es) d) l rings.
Proof.
  induction l as [|n l IH]; intros rings M; cbn [map mapM] in M.
  - injection M as <-. constructor.
  - destruct (open_ring d n) as [es| | |] eqn:O; cbn [bind] in M; try discriminate.
    destruct (mapM _ (map _ l)) as [rs| | |] eqn:M'; cbn [bind] in M; try discriminate. injection M as <-. constructor; auto.
    unfold open_ring in O. destruct (lookup n d) as [[ks t|es'| |]|] eqn:L; try discriminate. injection O as ->. apply lookup_some. auto.
Qed.
Theorem C99_success :
  forall lower serialize order d out out', is_directory d ->
  parse_sks_dump lower serialize order (SDir d) out = (out', Ok tt) ->
  (forall n f, In (n, f) d -> dump_name n -> exists es, f = RingFile es) /\
  exists rings m, Forall2 (fun n es => In (n, RingFile es) d) (get_sks_original_dump_files d) rings /\
    analyze_key_dump lower (map Ok rings) = Ok m /\ exists ks, write_keys_on_disk serialize (order m) = Ok ks.
Proof.
  intros lower serialize order d out out' (S & _) E. apply sorted_spec in S. unfold parse_sks_dump in E.
  destruct (analyze_key_dump _ _) as [m| | |] eqn:A; try discriminate. unfold analyze_key_dump in A.
  destruct (mapM _ _) as [rings| | |] eqn:M; cbn [bind] in A; try discriminate.
  assert (F : Forall2 (fun n es => In (n, RingFile es) d) (get_sks_original_dump_files d) rings).
  { apply open_rings. exact M. }
  split.
  - intros n f I D. assert (IN : In n (get_sks_original_dump_files d)).
    { unfold get_sks_original_dump_files. apply filter_In. split; [apply (in_map fst) in I; exact I|apply dump_match_iff; auto]. }
    clear - F IN I S. induction F as [|x es l rs X F IH]; [easy|]. destruct IN as [->|IN]; auto.
    exists es. apply (lookup_in n f d S) in I. apply (lookup_in n (RingFile es) d S) in X. congruence.
  - exists rings, m. split; [exact F|]. split.
    + unfold analyze_key_dump. rewrite mapM_id_ok. cbn [bind]. exact A.
    + unfold write_keys in E. destruct (write_effects serialize (order m)) as (es, r) eqn:W.
      destruct (run_effects out (Create full_name :: es)) as (o2, r2). destruct r2; try discriminate.
      assert (r = Ok tt) by congruence. subst r. apply write_effects_inv in W. destruct W as (ks & W & _). eauto.
Qed.
Print Assumptions C99_success.

(** The expression has no anchors: a signature lying beside a dump file stops the command, and a backup copy under another name is
    read again, bringing back keys that are no longer in the dump. *)
Theorem C99_unanchored_refuted :
  exists good backup sig, is_directory good /\ is_directory backup /\ is_directory sig /\
    (forall n, In n (map fst good) -> In n (map fst backup) /\ In n (map fst sig)) /\
    (exists k, parse_sks_dump ascii_lower toy_serialize (fun m => m) (SDir good) [] = ([(full_name, whole [k])], Ok tt) /\
       exists k', parse_sks_dump ascii_lower toy_serialize (fun m => m) (SDir backup) [] = ([(full_name, whole [k; k'])], Ok tt)) /\
    exists m, parse_sks_dump ascii_lower toy_serialize (fun m => m) (SDir sig) [] = ([], Err m).
Proof.
  exists [(dump_file 0, RingFile [person 97 5])],
    [(dump_file 0, RingFile [person 97 5]); (dump_file 0 ++ [126], RingFile [person 98 5])],
    [(dump_file 0, RingFile [person 97 5]); (dump_file 0 ++ [46; 97; 115; 99], OtherFile)].
  conj_split.
  - split; [apply sorted_spec; repeat constructor|]. intros [E|[]]. discriminate.
  - split; [apply sorted_spec; repeat constructor|]. intros [E|[E|[]]]; discriminate.
  - split; [apply sorted_spec; repeat constructor|]. intros [E|[E|[]]]; discriminate.
  - intros n [<-|[]]. split; left; reflexivity.
  - eexists. split; [vm_compute; reflexivity|]. eexists. vm_compute. reflexivity.
  - eexists. vm_compute. reflexivity.
Qed.
Print Assumptions C99_unanchored_refuted.

Example C99_example :
  get_sks_original_dump_files demo_dumps = [dump_file 0; dump_file 1] /\ dump_name (dump_file 1) /\
  snd (parse_sks_dump ascii_lower toy_serialize (fun m => m) (SDir demo_dumps) []) = Ok tt.
Proof.
  split; [vm_compute; reflexivity|]. split; [|vm_compute; reflexivity]. exists [], [48; 48; 48; 49], []. conj_split; auto. repeat constructor; lia.
Qed.

(** C100: the tool and its output directory. Splitting touches only files named like chunks, parsing only sks-full.pgp, whatever
    they find at the path and however they end; a wrong command line or a missing path changes nothing and is reported. *)
Lemma run_frame n : forall es d, sorted d -> Forall (fun e => match e with Create m | Append m _ | Tear m => n <> m end) es ->
  lookup n (fst (run_effects d es)) = lookup n d.
Proof.
  induction es as [|e es IH]; intros d S F; cbn [run_effects]; auto. inversion F as [|? ? NE F']; subst.
  assert (P : forall m f, n <> m -> lookup n (fst (run_effects (put m f d) es)) = lookup n d).
  { intros m f NM. rewrite IH by (auto; apply put_sorted; auto). rewrite lookup_put by auto. rewrite bytes_equal_neq by auto. reflexivity. }
  destruct e as [m|m k|m]; cbn [run_effect]; destruct (lookup m d) as [[ks []| | |]|]; cbn [fst]; auto.
Qed.
Lemma effects_targets n : (forall v, 0 <= v -> n <> chunk_name v) -> forall chunks num, 0 <= num ->
  Forall (fun e => match e with Create m | Append m _ | Tear m => n <> m end) (effects_of chunks num).
Proof.
  intros N chunks; induction chunks as [|c t IH]; intros num P; cbn [effects_of]; constructor; auto.
  apply Forall_app. split; [|apply IH; lia]. apply Forall_forall. intros e I. apply in_map_iff in I. destruct I as (k & <- & _). auto.
Qed.
Theorem C100_frame :
  forall lower serialize order cmd p o src out n, is_directory out -> cmd <> parse_dump_cmd \/ n <> full_name ->
  (forall v, 0 <= v -> n <> chunk_name v) \/ cmd <> gen_chunks_cmd ->
  lookup n (fst (data_main lower serialize order cmd p o src out)) = lookup n out.
Proof.
  intros lower serialize order cmd p o src out n (S & _) NP NC. apply sorted_spec in S. unfold data_main.
  destruct (bytes_equal cmd [] || _ || _); [reflexivity|].
  destruct (bytes_equal cmd gen_chunks_cmd) eqn:B1.
  { apply bytes_equal_spec in B1. destruct NC as [NC|NC]; [|easy].
    assert (G : forall f, lookup n (fst (or_fatal (match run_effects out (split_effects (decodable f) None 0 0) with (out', Ok _) => (out', decode_end f) | r => r end))) = lookup n out).
    { intros f. assert (H : lookup n (fst (run_effects out (split_effects (decodable f) None 0 0))) = lookup n out).
      { apply run_frame; auto. rewrite split_effects_chunks. apply effects_targets; auto. lia. }
      destruct (run_effects _ _) as (o', [u|m|m|m]); cbn [fst or_fatal] in *; auto. destruct (decode_end f); cbn [or_fatal fst]; auto. }
    destruct src as [|f|d']; [reflexivity|apply (G f)|apply (G Folder)]. }
  destruct (bytes_equal cmd gen_db_cmd); [reflexivity|].
  destruct (bytes_equal cmd parse_dump_cmd) eqn:B2; [|reflexivity].
  apply bytes_equal_spec in B2. destruct NP as [NP|NP]; [easy|].
  assert (G : forall r, lookup n (fst (or_fatal r)) = lookup n (fst r)) by (intros (o', [u|m|m|m]); reflexivity). rewrite G.
  unfold parse_sks_dump. destruct src as [|f|d']; try reflexivity. destruct (analyze_key_dump _ _); try reflexivity.
  unfold write_keys. destruct (write_effects serialize (order a)) as (es, r) eqn:W.
  assert (H : lookup n (fst (run_effects out (Create full_name :: es))) = lookup n out).
  { apply run_frame; auto. destruct (write_effects_appends _ _ _ _ W) as (ks & ->). constructor; auto.
    apply Forall_forall. intros e I. apply in_map_iff in I. destruct I as (k & <- & _). auto. }
  destruct (run_effects _ _) as (o', [u|m|m|m]); cbn [fst] in *; auto.
Qed.
Print Assumptions C100_frame.

Theorem C100_mistakes_reported :
  forall lower serialize order cmd p o src out,
  cmd = [] \/ p = [] \/ o = [] \/ ~ In cmd [gen_chunks_cmd; gen_db_cmd; parse_dump_cmd] \/
    (src = SMissing /\ cmd <> gen_db_cmd) \/ (cmd = parse_dump_cmd /\ forall d, src <> SDir d) ->
  exists m, data_main lower serialize order cmd p o src out = (out, Fatal m).
Proof.
  intros lower serialize order cmd p o src out H. unfold data_main.
  destruct (bytes_equal cmd [] || bytes_equal p [] || bytes_equal o []) eqn:E; [eauto|].
  assert (A : cmd <> [] /\ p <> [] /\ o <> []).
  { conj_split; intros ->; rewrite bytes_equal_refl, ?orb_true_r in E; cbn [orb] in E; rewrite ?orb_true_r in E; discriminate. }
  destruct A as (A1 & A2 & A3). destruct H as [H|[H|[H|H]]]; try easy.
  destruct (bytes_equal cmd gen_chunks_cmd) eqn:B1.
  { apply bytes_equal_spec in B1. subst cmd. destruct H as [H|[(-> & _)|(H & _)]]; [exfalso; apply H; left; auto|cbn; eauto|discriminate]. }
  destruct (bytes_equal cmd gen_db_cmd) eqn:B2.
  { apply bytes_equal_spec in B2. subst cmd. destruct H as [H|[(_ & H)|(H & _)]]; [exfalso; apply H; right; left; auto|easy|discriminate]. }
  destruct (bytes_equal cmd parse_dump_cmd) eqn:B3; [|eauto].
  apply bytes_equal_spec in B3. subst cmd. destruct H as [H|[(-> & _)|(_ & H)]]; [exfalso; apply H; right; right; left; auto|cbn; eauto|].
  destruct src as [|f|d']; [cbn; eauto|cbn; eauto|]. exfalso. apply (H d'). reflexivity.
Qed.
Print Assumptions C100_mistakes_reported.

(** genDB does nothing and reports success, even when there is nothing at the path. *)
Theorem C100_gen_db_refuted :
  forall lower serialize order p o src out, p <> [] -> o <> [] ->
  data_main lower serialize order gen_db_cmd p o src out = (out, Ok tt).
Proof.
  intros lower serialize order p o src out P O. unfold data_main. rewrite !bytes_equal_neq by (auto; discriminate). reflexivity.
Qed.
Print Assumptions C100_gen_db_refuted.

(** A command that fails may already have destroyed the previous output: genChunks on a file that is not a key file (or on a
    directory) empties the first chunk, and parseDump whose first key cannot be serialized empties sks-full.pgp. *)
Theorem C100_failure_destroys_refuted :
  (forall lower serialize order p o src k ks out, p <> [] -> o <> [] -> is_directory out -> src = SFile OtherFile \/ (exists d, src = SDir d) ->
     lookup (chunk_file 0) out = Some (whole (k :: ks)) ->
     exists m out', data_main lower serialize order gen_chunks_cmd p o src out = (out', Fatal m) /\ lookup (chunk_file 0) out' = Some (whole [])) /\
  (exists lower serialize d k, is_directory d /\
     data_main lower serialize (fun m => m) parse_dump_cmd [46] [111] (SDir d) [(full_name, whole [k])] = ([(full_name, whole [])], Fatal "no")).
Proof.
  split.
  - intros lower serialize order p o src k ks out P O (S & _) H L. apply sorted_spec in S. unfold data_main.
    rewrite (bytes_equal_neq gen_chunks_cmd []), (bytes_equal_neq p), (bytes_equal_neq o), bytes_equal_refl by (auto; discriminate). cbn [orb]. cbv iota.
    assert (E : run_effects out (split_effects [] None 0 0) = (put (chunk_file 0) (whole []) out, Ok tt)).
    { cbn [split_effects run_effects run_effect]. change (chunk_name 0) with (chunk_file 0). rewrite L. reflexivity. }
    assert (G : lookup (chunk_file 0) (put (chunk_file 0) (whole []) out) = Some (whole [])) by (rewrite lookup_put, bytes_equal_refl by auto; reflexivity).
    destruct H as [->|(d & ->)]; unfold split_into_chunks; cbn [decodable decode_end]; rewrite E; cbn [or_fatal]; eauto.
  - exists ascii_lower, (fun _ => Err "no"), [(dump_file 0, RingFile [person 97 5])], tiny. split; [|vm_compute; reflexivity].
    split; [apply sorted_spec; repeat constructor|]. intros [E|[]]. discriminate.
Qed.
Print Assumptions C100_failure_destroys_refuted.

Example C100_example :
  is_directory demo_dir /\ lookup full_name demo_dir = Some OtherFile /\
  data_main ascii_lower toy_serialize (fun m => m) gen_chunks_cmd [46] [111] (SFile (whole [mkKey [1] [2]])) demo_dir
  = ([(chunk_file 0, whole [mkKey [1] [2]]); (chunk_file 1, whole [tiny; tiny]); (full_name, OtherFile)], Ok tt) /\
  data_main ascii_lower toy_serialize (fun m => m) [] [46] [111] SMissing demo_dir = (demo_dir, Fatal "usage").
Proof. split; [apply C96_example|]. split; [reflexivity|]. split; vm_compute; reflexivity. Qed.
