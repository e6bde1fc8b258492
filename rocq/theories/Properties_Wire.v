(** Properties C120 and C121: calls through the network, and what clients and servers make of the bytes they receive. *)
From Coq Require Import String ZArith List Bool Arith Lia Permutation.
From Verif Require Import GoBase BaseFacts FieldModel FSSModel EncodingModel MerkleModel MerkleSpec MerkleProofs PointModel PointSpec DirectoryModel DirectorySpec
  FrontendModel KeyPageModel KeyPageSpec KeyPageProofs DirectoryProofs4 ChannelModel ChannelProofs WireModel WireSpec WireProofs WireProofs2 ToyInstances ToyPoint ToyDirectory Properties_KeyPage.
Import ListNotations.
Open Scope Z_scope.
Open Scope go_scope.

(** A compressor that only adds a header, used in the examples. *)
Definition plain_codec : codec :=
  mkCodec (forallb (fun b => (0 <=? b) && (b <? 128))) (fun m => 31 :: 139 :: m)
    (fun c => match c with x :: y :: m => if (x =? 31) && (y =? 139) then Ok m else Err "gzip: invalid header" | _ => Err "EOF" end).
Lemma plain_gzip_ok : gzip_ok plain_codec.
Proof.
  unfold gzip_ok. conj_split.
  - intros m. reflexivity.
  - intros c. unfold plain_codec. cbn [gunzip].
    destruct c as [|x [|y m]]; try (right; eexists; reflexivity). destruct (_ && _)%bool; [left|right]; eexists; reflexivity.
  - intros m. unfold plain_codec, zlen. cbn [gzip length]. pose proof (Z.div_pos (Z.of_nat (length m)) 1000 ltac:(lia) ltac:(lia)). lia.
Qed.
Lemma plain_utf8_ok : utf8_ok plain_codec.
Proof. intros s F. unfold plain_codec. cbn [utf8]. apply forallb_forall. rewrite Forall_forall in F. intros b I. apply F in I. apply andb_true_intro. split; [apply Z.leb_le|apply Z.ltb_lt]; lia. Qed.

(** ** C120: calls through the network *)

(** A query of up to a billion bytes reaches the server unchanged, and so does its answer; a call that succeeds returned what the
    server answers to that very query; whatever else happens at the server is an error of the call. *)
Theorem C120_calls : forall E, gzip_ok E -> forall handler q,
  (forall a, small q -> small a -> handler q = Ok a -> over_network E handler q = Ok a) /\
  (forall a, over_network E handler q = Ok a -> handler q = Ok a) /\
  ((forall a, handler q <> Ok a) -> fails (over_network E handler q)).
Proof.
  intros E G h q. conj_split.
  - intros a LQ LA HQ. apply remote_ok; auto.
  - intros a R. apply remote_inv in R as (R & _); auto.
  - intros N. destruct (remote_ends E (serve_query E h) q G) as [(a & R)|F]; auto. fold (over_network E h) in R. apply remote_inv in R as (R & _); auto. destruct (N a R).
Qed.
Print Assumptions C120_calls.

(** The description a client receives is the one the server gives. *)
Theorem C120_descriptions : forall E d, gzip_ok E -> sendable E d -> remote_info E (serve_info E d) = Ok d.
Proof.
  intros E d G S. pose proof (description_ok E d G S) as X. unfold remote_description in X. destruct (remote_info E (serve_info E d)); try discriminate. congruence.
Qed.
Print Assumptions C120_descriptions.

(** Whatever the servers do: as long as their answers are small, the web page and the interactive client show the same through the
    network as if they called the servers directly. *)
Theorem C120_lookup_unchanged : forall E, gzip_ok E -> forall G H B D infos rnd servers arrive,
  zlen servers <> 2 -> Forall columns_fit infos -> small_answers servers ->
  (forall form, web_retrieve G H B D infos rnd (map (over_network E) servers) arrive form = web_retrieve G H B D infos rnd servers arrive form) /\
  (forall typed, download_key G H B D infos rnd (map (over_network E) servers) arrive typed = download_key G H B D infos rnd servers arrive typed).
Proof. intros E GZ G H B D infos rnd servers arrive N F A. split; intros; [apply web_remote|apply download_remote]; auto. Qed.
Print Assumptions C120_lookup_unchanged.

(** With at least three honest servers reached through the network, all front ends show the stored key of every address. *)
Theorem C120_key_through_network :
  forall E G H B D auth keys srvs dbs infos rnd arrive key, gzip_ok E -> utf8_ok E ->
  directory G H B auth keys srvs dbs -> 3 <= zlen dbs -> Forall (fun db => i_rows (b_info db) * i_bs (b_info db) <= 1000000000) dbs ->
  Permutation (map (fun db => remote_description E (database_info (PointService db))) dbs) infos ->
  randomness_for dbs rnd -> arrival_ok arrive -> In key keys ->
  let servers := map (fun db => over_network E (pir_answer D false db)) dbs in
  (forall form, posted form (k_id key) -> k_id key <> [] ->
     web_retrieve G H B D infos rnd servers arrive (Ok form) = Ok (mkPage (Some 200) (g_armor G (k_packet key)))) /\
  download_key G H B D infos rnd servers arrive (Some (k_id key)) = (found_lines (k_id key) (g_armor G (k_packet key)), Ok tt) /\
  (forall enc alphas gr order scheme f line, map r_point order = servers -> point_scheme scheme -> f_id f = k_id key -> k_id key <> [] ->
     cli_exec G H B D enc alphas gr infos rnd order arrive scheme f line = Ok (g_armor G (k_packet key))).
Proof.
  intros E G H B D auth keys srvs dbs infos rnd arrive key GZ U HD N3 SM HI HR HA IK.
  destruct (network_infos E G H B auth keys srvs dbs infos GZ U HD HI) as (HI' & CF).
  destruct (C106_found G H B D auth keys srvs dbs infos rnd arrive key HD N3 HI' HR HA IK) as (W & I & C).
  assert (N2 : zlen (map (pir_answer D false) dbs) <> 2) by (unfold zlen in *; rewrite map_length; lia).
  pose proof (honest_small D dbs SM) as A.
  assert (ES : map (fun db => over_network E (pir_answer D false db)) dbs = map (over_network E) (map (pir_answer D false) dbs)) by (rewrite map_map; reflexivity).
  cbv zeta. rewrite ES. conj_split.
  - intros form PF NE. rewrite web_remote by auto. apply W; auto.
  - rewrite download_remote by auto. exact I.
  - intros enc alphas gr order scheme f line EO PS EF NE. assert (NF : f_id f <> []) by congruence.
    assert (X : exists db, In db dbs) by (destruct dbs as [|db ?]; [exfalso; clear - N3; unfold zlen in N3; cbn [length] in N3; lia|exists db; left; auto]). destruct X as (db & ID).
    pose proof (directory_first _ _ _ _ _ _ _ HD db infos ID HI') as (is & EI & R).
    rewrite (cli_point _ _ _ _ _ _ _ _ _ _ _ _ _ _ _ PS NF R), EO.
    rewrite (actor_remote' E G H B D infos (database_info (PointService db) :: is) (database_info (PointService db))) by auto.
    rewrite info_of_point, EF, (directory_found G H B D auth keys srvs dbs HD db rnd arrive key ID N3 HR HA IK). reflexivity.
Qed.
Print Assumptions C120_key_through_network.

(** Messages of more than 2^30 bytes do not arrive: ... *)
Theorem C120_large_messages_refuted : forall E, gzip_ok E -> forall handler q,
  1073741824 < zlen q \/ (forall a, handler q = Ok a -> 1073741824 < zlen a) -> fails (over_network E handler q).
Proof.
  intros E G h q L. destruct (remote_ends E (serve_query E h) q G) as [(a & R)|F]; auto. fold (over_network E h) in R.
  apply remote_inv in R as (R & Q & A); auto. unfold max_size in *. destruct L as [L|L]; [lia|]. specialize (L a R). lia.
Qed.
Print Assumptions C120_large_messages_refuted.

(** ... if the answers of one of the servers are that long, every lookup ends the client's process. *)
Theorem C120_large_answers_refuted : forall E, gzip_ok E -> forall G H B D infos rnd servers arrive form email queries,
  posted form email -> email <> [] -> lookup_sends B D infos rnd (zlen servers) email = Ok queries ->
  (exists s, In s servers /\ forall q a, s q = Ok a -> 1073741824 < zlen a) ->
  web_retrieve G H B D infos rnd (map (over_network E) servers) arrive (Ok form) = Fatal "could not query".
Proof.
  intros E GZ G H B D infos rnd servers arrive form email queries PF NE LS L.
  destruct (sends_inv _ _ _ _ _ _ _ LS) as (is & d & h & ix & EI & E0 & EH & EQ).
  unfold web_retrieve. rewrite (form_get_posted _ _ PF). cbv zeta. rewrite DirectoryProofs4.bytes_equal_neq by auto. rewrite EI, E0. cbn [bind].
  unfold actor_get_key. rewrite EH. cbn [bind]. replace (zlen (map (over_network E) servers)) with (zlen servers) by (unfold zlen; rewrite map_length; reflexivity).
  rewrite EQ. cbn [wrap bind]. rewrite (ask_large E GZ servers queries); auto. apply query_count in EQ. unfold zlen in EQ. lia.
Qed.
Print Assumptions C120_large_answers_refuted.

(** The directory of the examples of C106 through the network; a server with long answers. *)
Example C120_example :
  (let servers := map (fun db => over_network plain_codec (pir_answer toy_dpf false db)) (repeat (page_db true) 3) in
   let infos := map (fun db => remote_description plain_codec (database_info (PointService db))) (repeat (page_db true) 3) in
   web_retrieve page_pgp toy_hash toy_hash toy_dpf infos [9; 200] servers (@rev (list Z)) (Ok (page_form (lit "t"))) =
   web_retrieve page_pgp toy_hash toy_hash toy_dpf (page_infos true 3) [9; 200] (page_answers true 3) (@rev (list Z)) (Ok (page_form (lit "t"))) /\
   exists p, web_retrieve page_pgp toy_hash toy_hash toy_dpf infos [9; 200] servers (@rev (list Z)) (Ok (page_form (lit "t"))) = Ok p /\ p_status p = Some 200) /\
  Forall (fun db => i_rows (b_info db) * i_bs (b_info db) <= 1000000000) (repeat (page_db true) 3) /\
  (exists queries, lookup_sends toy_hash toy_dpf (page_infos true 3) [9; 200] 3 (lit "t") = Ok queries) /\
  (let server (_ : list Z) := Ok (repeat 0 (Z.to_nat 1073741825)) in
   (forall q a, server q = Ok a -> 1073741824 < zlen a) /\ forall q, fails (over_network plain_codec server q)).
Proof.
  Transparent page_db page_keys. split; [cbv zeta; split; [vm_compute; reflexivity|eexists; split; vm_compute; reflexivity]|].
  split; [apply Forall_forall; intros db I; apply repeat_spec in I; subst db; vm_compute; discriminate|]. split; [eexists; vm_compute; reflexivity|].
  intros server. assert (L : forall q a, server q = Ok a -> 1073741824 < zlen a).
  { unfold server. intros q a X. assert (a = repeat 0 (Z.to_nat 1073741825)) as -> by congruence. unfold zlen. rewrite repeat_length, Z2Nat.id; lia. }
  split; [exact L|]. intros q. apply C120_large_messages_refuted; [apply plain_gzip_ok|]. right. apply L.
Qed.

(** ** C121: what is made of received bytes *)

(** Fields added by later versions do not change the query or the description that is received. *)
Theorem C121_unknown_fields : forall E a u b, well_formed a -> well_formed b ->
  (unknown_fields [1] u -> decode_query (a ++ u ++ b) = decode_query (a ++ b)) /\
  (unknown_fields [1; 2; 3; 4; 5; 6] u -> decode_info E (a ++ u ++ b) = decode_info E (a ++ b)).
Proof. intros E a u b A B. split; intros U; [apply query_unknown|apply info_unknown]; auto. Qed.
Print Assumptions C121_unknown_fields.

(** No bytes sent by a client make a server fail other than through its handler, which only ever gets a decoded query; no server
    makes the calls of a client fail with anything but an error; descriptions are within their range. *)
Theorem C121_any_bytes : forall E, gzip_ok E ->
  (forall handler f, (exists r, serve_query E handler f = Ok r) \/ fails (serve_query E handler f) \/
     exists m q, recv_frame E f = Ok m /\ decode_query m = Ok q /\ forall a, handler q <> Ok a) /\
  (forall server q, (exists a, remote_query E server q = Ok a) \/ fails (remote_query E server q)) /\
  (forall server, (exists d, remote_info E server = Ok d /\ 0 <= di_rows d < 2 ^ 32 /\ 0 <= di_cols d < 2 ^ 32 /\ 0 <= di_bs d < 2 ^ 32 /\ 0 <= di_plen d < 2 ^ 32)
     \/ fails (remote_info E server)).
Proof.
  intros E G. conj_split.
  - intros h f. apply serve_query_ends; auto.
  - intros s q. apply remote_ends; auto.
  - intros s. destruct (remote_info_ends E s G) as [(d & R)|F]; auto. left. exists d. split; auto. unfold remote_info in R.
    destruct (call E s []) as [r| | |]; try discriminate. cbn [bind] in R. apply decode_info_range in R. exact R.
Qed.
Print Assumptions C121_any_bytes.

(** A frame that ends early is never taken for a message. *)
Theorem C121_truncated : forall E m f k, send_frame E m = Ok f -> (k < length f)%nat -> fails (recv_frame E (firstn k f)).
Proof. intros. eapply frame_truncated; eauto. Qed.
Print Assumptions C121_truncated.

(** Messages are not checked for missing fields: servers that send empty descriptions are believed, and every lookup crashes. *)
Theorem C121_missing_fields_refuted : forall E, gzip_ok E -> forall G H B D rnd servers arrive form email n, hash_ok B -> posted form email -> email <> [] ->
  remote_info E (fun _ => send_frame E []) = Ok (mkDI 0 0 0 [] [] 0) /\
  web_retrieve G H B D (repeat (Some (mkDI 0 0 0 [] [] 0)) (S n)) rnd servers arrive (Ok form) = Panic "integer divide by zero".
Proof.
  intros E GZ G H B D rnd servers arrive form email n HB PF NE. split.
  - unfold remote_info, call. destruct (frame_sent E [] GZ ltac:(unfold zlen; cbn [length]; lia)) as (f & S & R). rewrite S. cbn [bind]. rewrite R. reflexivity.
  - pose proof (first_info_repeat (mkDI 0 0 0 [] [] 0) (S n) ltac:(lia)) as FI. rewrite (web_ok _ _ _ _ _ _ _ _ _ _ _ PF NE FI).
    unfold actor_get_key, hash_to_index. destruct (HB email) as (L & _).
    assert (L4 : (4 <= length (B email))%nat) by lia. destruct (B email) as [|b0 [|b1 [|b2 [|b3 t]]]]; cbn [length] in L4; try lia.
    unfold go_slice. replace (_ && _)%bool with true by (symmetry; rewrite !andb_true_iff; repeat split; apply Z.leb_le; unfold zlen; cbn [length]; lia).
    cbn [bind]. change (Z.to_nat (4 - 0)) with 4%nat. change (Z.to_nat 0) with 0%nat. cbn [skipn firstn]. reflexivity.
Qed.
Print Assumptions C121_missing_fields_refuted.

(** Nor are types and ranges checked: a number of rows sent as a fixed-size integer is ignored, one that is too large is cut off, and
    of several queries in one message the last one counts. *)
Theorem C121_lenient_refuted : forall E,
  (forall x0 x1 x2 x3 b, well_formed b -> decode_info E (13 :: x0 :: x1 :: x2 :: x3 :: b) = decode_info E b) /\
  (forall rows k, 0 <= rows < 2 ^ 32 -> 0 <= k < 2 ^ 32 -> decode_info E (put_varint 8 ++ put_varint (rows + k * 2 ^ 32)) = Ok (mkDI rows 0 0 [] [] 0)) /\
  (forall q q', small q -> small q' -> q <> [] -> decode_query (encode_query q' ++ encode_query q) = Ok q).
Proof.
  intros E. conj_split.
  - intros x0 x1 x2 x3 b (fs & F). change (13 :: x0 :: x1 :: x2 :: x3 :: b) with ([] ++ [13; x0; x1; x2; x3] ++ b).
    assert (F1 : fields [13; x0; x1; x2; x3] = Ok [(1, WFixed32)]) by reflexivity.
    unfold decode_info. cbn [app]. change (13 :: x0 :: x1 :: x2 :: x3 :: b) with ([13; x0; x1; x2; x3] ++ b). rewrite (fields_app _ _ _ _ F1 F), F. reflexivity.
  - intros rows k R K. unfold decode_info. change (put_varint 8) with (put_varint (1 * 8 + 0)).
    assert (F : fields (put_varint (1 * 8 + 0) ++ put_varint (rows + k * 2 ^ 32)) = Ok [(1, WVarint (rows + k * 2 ^ 32))]).
    { apply fields_one; try lia. cbn [get_value]. change (0 =? 0) with true. cbv iota. rewrite <- (app_nil_r (put_varint (rows + k * 2 ^ 32))) at 1. rewrite varint_back by lia. reflexivity. }
    rewrite F. cbn [bind forallb snd]. unfold info_of_fields, uint32_field, bytes_field. cbn [fold_left fst snd]. change (1 =? 1) with true. change (1 =? 2) with false.
    change (1 =? 3) with false. change (1 =? 6) with false. cbv iota. unfold u32, w32. change 4294967296 with (2 ^ 32). rewrite Z.mod_add by lia. rewrite Z.mod_small by lia. reflexivity.
  - intros q q' L L' NE. unfold decode_query, encode_query. unfold small in *. 
    rewrite (fields_app _ _ _ _ (fields_bytes 1 q' ltac:(lia) ltac:(lia)) (fields_bytes 1 q ltac:(lia) ltac:(lia))). cbn [bind]. f_equal.
    unfold bytes_field. rewrite fold_left_app. destruct q; [congruence|]. reflexivity.
Qed.
Print Assumptions C121_lenient_refuted.

(** A description with a field of a later version; malformed and truncated bytes. *)
Example C121_example :
  (let d := mkDI 300 70000 60 (lit "merkle") [1; 2; 3] 141 in
   exists m, encode_info plain_codec d = Ok m /\ well_formed (firstn 3 m) /\ well_formed (skipn 3 m) /\
     unknown_fields [1; 2; 3; 4; 5; 6] [58; 2; 9; 9; 125; 1; 2; 3; 4] /\ decode_info plain_codec (firstn 3 m ++ [58; 2; 9; 9; 125; 1; 2; 3; 4] ++ skipn 3 m) = Ok d) /\
  fails (decode_query [10; 5; 1; 2]) /\ fails (decode_query [12]) /\ fails (decode_query [0; 1]) /\
  fails (recv_frame plain_codec [1; 0; 0; 0; 4; 31; 139; 10]) /\ fails (recv_frame plain_codec [1; 255; 0; 0; 4; 31; 139; 10; 0]).
Proof.
  split; [|repeat split; eexists; vm_compute; reflexivity].
  cbv zeta. eexists. split; [vm_compute; reflexivity|]. split; [eexists; vm_compute; reflexivity|]. split; [eexists; vm_compute; reflexivity|].
  split; [|vm_compute; reflexivity]. eexists. split; [vm_compute; reflexivity|]. repeat constructor; cbn [fst In]; intros X; repeat destruct X as [X|X]; try discriminate; contradiction.
Qed.
