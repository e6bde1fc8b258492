(** Property C124: from the published dumps to the key a client shows. *)
From Coq Require Import String ZArith List Bool Arith Lia Permutation.
From Verif Require Import GoBase BaseFacts FieldModel FSSModel EncodingModel MerkleModel MerkleSpec MerkleProofs PointModel PointSpec DirectoryModel DirectorySpec
  FrontendModel KeyPageModel KeyPageSpec KeyPageProofs KeyPageProofs3 DirectoryProofs4 FilesModel FilesSpec FilesProofs WireModel WireSpec WireProofs WireProofs2
  EndToEndSpec EndToEndProofs ToyInstances ToyPoint ToyDirectory Properties_Directory Properties_KeyPage Properties_Wire.
Import ListNotations.
Open Scope Z_scope.
Open Scope go_scope.

(** Three or more machines, each prepared with the data tool from the same dumps: every address whose freshest valid key is small
    enough is shown exactly this key by the web page, the interactive client and the command line client. *)
Theorem C124_published_key_is_shown :
  forall E G H B D auth d es keys config addrs at_address infos rnd arrive,
  gzip_ok E -> utf8_ok E -> hash_ok H -> hash_ok B -> keyring_ok (g_serialize G) (g_read G) ->
  is_directory d -> published d es -> directory_of_dump G es keys -> small_dump keys -> 10 <= zlen keys <= 2 ^ 34 ->
  deployed G H B auth d keys config addrs at_address -> 3 <= zlen addrs ->
  moderate_answers at_address addrs -> enough_randomness at_address addrs rnd ->
  Permutation (remote_infos E at_address addrs) infos -> arrival_ok arrive ->
  forall email e packet, email <> [] -> freshest (candidates (g_lower G) es email) e -> g_serialize G (primary_only e) = Ok packet -> zlen packet <= 8192 ->
  (forall form, posted form email ->
     web_retrieve G H B D infos rnd (remote_servers E D at_address addrs) arrive (Ok form) = Ok (mkPage (Some 200) (g_armor G packet))) /\
  download_key G H B D infos rnd (remote_servers E D at_address addrs) arrive (Some email) = (found_lines email (g_armor G packet), Ok tt) /\
  (forall enc alphas gr order scheme f line, map r_point order = remote_servers E D at_address addrs -> point_scheme scheme -> f_id f = email ->
     cli_exec G H B D enc alphas gr infos rnd order arrive scheme f line = Ok (g_armor G packet)).
Proof.
  intros E G H B D auth d es keys config addrs at_address infos rnd arrive GZ U HH HB KR DD PU DK SD K DP N3 MA ER PI HA email e packet NE Fr S Z.
  destruct (deployed_directory _ _ _ _ _ _ _ _ _ _ HH HB KR DD PU DK SD K DP) as (srvs & dbs & EM & HD & L).
  assert (ZL : zlen dbs = zlen addrs) by (unfold zlen; lia).
  assert (IK : In (mkKey email packet) keys) by (apply DK; split; eauto).
  unfold remote_infos in PI. rewrite (at_address_map (fun s => remote_description E (database_info s)) _ _ _ EM) in PI.
  unfold remote_servers. rewrite (at_address_map (fun s => over_network E (answer_point D (fun _ => Panic "no such request") s)) _ _ _ EM).
  unfold enough_randomness in ER. rewrite <- ZL in ER.
  destruct (C120_key_through_network E G H B D auth keys srvs dbs infos rnd arrive (mkKey email packet) GZ U HD ltac:(lia)
    (at_address_forall _ _ _ _ EM MA) PI (at_address_forall _ _ _ _ EM ER) HA IK) as (W & I & C).
  cbn [k_id k_packet] in W, I, C. conj_split; auto.
Qed.
Print Assumptions C124_published_key_is_shown.

(** The other addresses (no valid key, or the freshest one is too large): the web page and the interactive client say that there is no
    key, whenever some published address falls into the same bucket. *)
Theorem C124_unpublished_address_partial :
  forall E G H B D auth d es keys config addrs at_address infos rnd arrive,
  gzip_ok E -> utf8_ok E -> hash_ok H -> hash_ok B -> keyring_ok (g_serialize G) (g_read G) ->
  is_directory d -> published d es -> directory_of_dump G es keys -> small_dump keys -> 10 <= zlen keys <= 2 ^ 34 ->
  deployed G H B auth d keys config addrs at_address -> 3 <= zlen addrs ->
  moderate_answers at_address addrs -> enough_randomness at_address addrs rnd ->
  Permutation (remote_infos E at_address addrs) infos -> arrival_ok arrive ->
  forall email,
  (forall e packet, freshest (candidates (g_lower G) es email) e -> g_serialize G (primary_only e) = Ok packet -> 8192 < zlen packet) ->
  Forall (fun a => forall db, at_address a = PointService db -> bucket_used B keys db email) addrs ->
  (forall form, posted form email -> email <> [] ->
     web_retrieve G H B D infos rnd (remote_servers E D at_address addrs) arrive (Ok form) = Ok (mkPage (Some 200) (lit "key not found in block"))) /\
  download_key G H B D infos rnd (remote_servers E D at_address addrs) arrive (Some email) = (not_found_lines email, Ok tt).
Proof.
  intros E G H B D auth d es keys config addrs at_address infos rnd arrive GZ U HH HB KR DD PU DK SD K DP N3 MA ER PI HA email NK BU.
  destruct (deployed_directory _ _ _ _ _ _ _ _ _ _ HH HB KR DD PU DK SD K DP) as (srvs & dbs & EM & HD & L).
  assert (ZL : zlen dbs = zlen addrs) by (unfold zlen; lia).
  unfold remote_infos in PI. rewrite (at_address_map (fun s => remote_description E (database_info s)) _ _ _ EM) in PI.
  unfold remote_servers. rewrite (at_address_map (fun s => over_network E (answer_point D (fun _ => Panic "no such request") s)) _ _ _ EM).
  unfold enough_randomness in ER. rewrite <- ZL in ER.
  pose proof (at_address_forall _ _ _ _ EM MA) as MA'. pose proof (at_address_forall _ _ _ _ EM ER) as ER'. pose proof (at_address_forall _ _ _ _ EM BU) as BU'.
  destruct (network_infos E G H B auth keys srvs dbs infos GZ U HD PI) as (HI & CF).
  assert (NI : forall key, In key keys -> k_id key <> email).
  { intros [email' packet] I X. cbn [k_id] in X. subst email'. apply DK in I as (_ & e & Fr & S & Z). specialize (NK e packet Fr S). lia. }
  destruct (C106_not_found G H B D auth keys srvs dbs infos rnd arrive email HD ltac:(lia) HI ER' HA BU' NI) as (W & I & _).
  change (map (fun db => over_network E (answer_point D (fun _ => Panic "no such request") (PointService db))) dbs)
    with (map (fun db => over_network E (pir_answer D false db)) dbs).
  rewrite <- (map_map (pir_answer D false) (over_network E)).
  assert (N2 : zlen (map (pir_answer D false) dbs) <> 2) by (unfold zlen in *; rewrite map_length; lia).
  pose proof (honest_small D dbs MA') as A. split.
  - intros form PF NE. rewrite web_remote by auto. apply W; auto.
  - rewrite download_remote by auto. exact I.
Qed.
Print Assumptions C124_unpublished_address_partial.

(** Authenticated servers, of which any number answer the query with whatever bytes they like, once the description of an honest one
    has arrived first: a key shown is the freshest published key of the address, unless it is in a key ring of less than 60 bytes read from the
    answers or two different inputs with the same hash are known. *)
Theorem C124_dishonest_answers_partial :
  forall E G H B D d es keys config addrs at_address a db others rnd raw arrive,
  gzip_ok E -> utf8_ok E -> hash_ok H -> hash_ok B -> keyring_ok (g_serialize G) (g_read G) ->
  is_directory d -> published d es -> directory_of_dump G es keys -> small_dump keys -> 10 <= zlen keys <= 2 ^ 34 ->
  deployed G H B true d keys config addrs at_address -> In a addrs -> at_address a = PointService db ->
  let infos := remote_description E (database_info (at_address a)) :: others in
  answers_bytes (map (remote_query E) raw) -> arrival_ok arrive ->
  forall form email p, posted form email ->
  web_retrieve G H B D infos rnd (map (remote_query E) raw) arrive (Ok form) = Ok p -> p_status p = Some 200 ->
  p_body p = lit "key not found in block" \/
  (exists e packet, freshest (candidates (g_lower G) es email) e /\ g_serialize G (primary_only e) = Ok packet /\ p_body p = g_armor G packet) \/
  tiny_ring G email (p_body p) \/ hash_broken H (bucket_blocks B (buckets db) keys).
Proof.
  intros E G H B D d es keys config addrs at_address a db others rnd raw arrive GZ U HH HB KR DD PU DK SD K DP IA EA infos AB HA form email p PF W P2.
  destruct (deployed_directory _ _ _ _ _ _ _ _ _ _ HH HB KR DD PU DK SD K DP) as (srvs & dbs & EM & HD & L).
  assert (ID : In db dbs).
  { assert (X : In (PointService db) (map PointService dbs)) by (rewrite <- EM, <- EA; apply in_map; exact IA). apply in_map_iff in X as (db' & X & I).
    assert (db' = db) by congruence. subst db'. exact I. }
  assert (DO : remote_description E (database_info (PointService db)) = Some (database_info (PointService db))) by (apply description_ok; auto; eapply built_sendable; eauto).
  unfold infos in W. rewrite EA, DO in W.
  destruct (C107_authenticated_partial G H B D keys srvs dbs db others rnd (map (remote_query E) raw) arrive form email p HD ID AB HA PF W P2) as [X|[(key & IK & EK & BK)|X]]; auto.
  right. left. destruct key as [email' packet]. cbn [k_id k_packet] in *. subst email'. apply DK in IK as (_ & e & Fr & S & _). eauto.
Qed.
Print Assumptions C124_dishonest_answers_partial.

(** Twenty people in two dump files beside a file that is none; three machines, on two of which the tool visits its map in another
    order; a key of the second file replaces the older key of the same person. *)
Definition path_dumps : dir :=
  [(lit "README", OtherFile); (lit "sks-dump-0000.pgp", RingFile (nth 0 demo_dump [])); (lit "sks-dump-0001.pgp", RingFile (nth 1 demo_dump []))].
Definition path_full (order : key_map -> key_map) : list pkey := get_ok [] (write_keys_on_disk toy_serialize (order demo_map)).
Definition path_machine (R : runtime) (cap : nat) (order : key_map -> key_map) : machine :=
  mkMachine R cap [(lit "sks-000.pgp", KeyFile (path_full order) false); (lit "sks-full.pgp", KeyFile (path_full order) false)] 1 (fun _ => true).
Definition path_addrs : list (list Z) := [lit "10.0.0.1:50"; lit "10.0.0.2:50"; lit "10.0.0.3:51"].
Definition path_at (auth : bool) (_ : list Z) : service := PointService (page_db auth).
Local Opaque page_db page_keys demo_map demo_written path_full.
Lemma path_published : is_directory path_dumps /\ published path_dumps (concat demo_dump).
Proof.
  split; [split; [apply sorted_spec; repeat constructor|]; cbn [path_dumps map fst In]; intros [X|[X|[X|[]]]]; discriminate|].
  change (concat demo_dump) with (nth 0 demo_dump [] ++ nth 1 demo_dump [] ++ []). apply PublishedOther.
  - intros X. apply FilesProofs3.dump_match_iff in X. vm_compute in X. discriminate.
  - assert (DN : forall x, 48 <= x <= 57 -> dump_name (lit "sks-dump-000" ++ x :: lit ".pgp")).
    { intros x Hx. exists [], [48; 48; 48; x], []. split; [vm_compute; reflexivity|]. split; [reflexivity|]. repeat constructor; lia. }
    apply PublishedRing; [apply (DN 48); lia|]. apply PublishedRing; [apply (DN 49); lia|]. apply PublishedEnd.
Qed.
Lemma path_directory : directory_of_dump page_pgp (concat demo_dump) page_keys.
Proof.
  destruct page_keys_ok as (LI & _ & _ & _). split; [exact LI|].
  assert (PW : Permutation page_keys demo_written) by (apply Permutation_sym, toy_sort_ok).
  assert (A : analyze_key_dump ascii_lower (map Ok demo_dump) = Ok demo_map) by (vm_compute; reflexivity).
  assert (W : write_keys_on_disk toy_serialize (rev demo_map) = Ok demo_written) by (vm_compute; reflexivity).
  destruct (C77_partial ascii_lower toy_serialize demo_dump demo_map (rev demo_map) demo_written A (Permutation_rev _) W) as (_ & IK).
  assert (NE : Forall (fun k => k_id k <> []) demo_written) by (vm_compute; repeat (constructor; [discriminate|]); constructor).
  intros email packet. split.
  - intros I. apply (Permutation_in _ PW) in I. rewrite Forall_forall in NE. pose proof (NE _ I) as N. cbn [k_id] in N. split; [exact N|]. exact (proj1 (IK email packet N) I).
  - intros (N & X). apply (Permutation_in _ (Permutation_sym PW)). exact (proj2 (IK email packet N) X).
Qed.
Lemma path_prepared R cap order : runtime_ok R -> (2 <= cap)%nat -> order = (fun m : key_map => m) \/ order = (@rev _) -> prepared page_pgp path_dumps (path_machine R cap order).
Proof.
  intros HR C O. exists order, (lit "dumps"), (lit "out"), (lit "out/sks-full.pgp"), (lit "out"), [(full_name, whole (path_full order))], (whole (path_full order)).
  conj_split; try discriminate.
  - destruct O as [O|O]; rewrite O; intros m; [apply Permutation_refl|apply Permutation_rev].
  - destruct O as [O|O]; rewrite O; vm_compute; reflexivity.
  - reflexivity.
  - destruct O as [O|O]; rewrite O; vm_compute; reflexivity.
  - reflexivity.
  - exact C.
  - exact HR.
Qed.
Lemma path_deployed auth : deployed page_pgp toy_hash toy_hash auth path_dumps page_keys page_config path_addrs (path_at auth).
Proof.
  exists [path_machine toy_runtime 2 (fun m => m); path_machine toy_runtime' 4 (@rev _); path_machine toy_runtime 2 (@rev _)]. conj_split.
  - repeat (constructor; [apply path_prepared; auto; (apply toy_runtime_ok || apply toy_runtime'_ok)|]). constructor.
  - vm_compute. reflexivity.
  - reflexivity.
  - intros i m a M A. destruct i as [|[|[|i]]]; cbn [nth_error path_addrs] in M, A.
    + injection M as <-. injection A as <-. destruct auth; vm_compute; reflexivity.
    + injection M as <-. injection A as <-. destruct auth; vm_compute; reflexivity.
    + injection M as <-. injection A as <-. destruct auth; vm_compute; reflexivity.
    + destruct i; discriminate.
  - destruct (page_directory auth 1) as (_ & _ & _ & _ & _ & _ & _ & _ & BS & FO). cbn [repeat] in BS, FO. inversion BS as [|? ? BS1 _]; subst.
    assert (FO1 : auth = true -> fingerprints_ok (bucket_blocks toy_hash (buckets (page_db auth)) page_keys)).
    { intros A. specialize (FO A). inversion FO; auto. }
    apply Forall_forall. intros a _. split; [exact BS1|exact FO1].
Qed.
Example C124_example : forall auth,
  deployed page_pgp toy_hash toy_hash auth path_dumps page_keys page_config path_addrs (path_at auth) /\
  (exists before after, concat demo_dump = before ++ mkEntity 0 [68] [] 5 [[1]] [3] :: after /\ primary_email ascii_lower (mkEntity 0 [68] [] 5 [[1]] [3]) = [100]) /\
  web_retrieve page_pgp toy_hash toy_hash toy_dpf (rev (remote_infos plain_codec (path_at auth) path_addrs)) [9; 200]
    (remote_servers plain_codec toy_dpf (path_at auth) path_addrs) (@rev _) (Ok (page_form [100])) =
  Ok (mkPage (Some 200) (lit "PGP:" ++ [0; 6; 0; 2; 0; 1; 100; 0; 1; 77])) /\
  web_retrieve page_pgp toy_hash toy_hash toy_dpf (rev (remote_infos plain_codec (path_at auth) path_addrs)) [9; 200]
    (remote_servers plain_codec toy_dpf (path_at auth) path_addrs) (@rev _) (Ok (page_form [33])) =
  Ok (mkPage (Some 200) (lit "key not found in block")).
Proof.
  intros auth. destruct (page_setting auth) as (_ & _ & _ & HA & PF). destruct page_keys_ok as (_ & _ & K & _). destruct path_published as (DD & PU).
  assert (N3 : 3 <= zlen path_addrs) by (vm_compute; discriminate).
  assert (MA : moderate_answers (path_at auth) path_addrs).
  { apply Forall_forall. intros a _ db X. injection X as <-. destruct auth; vm_compute; discriminate. }
  assert (ER : enough_randomness (path_at auth) path_addrs [9; 200]).
  { apply Forall_forall. intros a _ db X. injection X as <-. destruct auth; vm_compute; reflexivity. }
  assert (SD : small_dump page_keys) by (vm_compute; reflexivity).
  split; [apply path_deployed|]. split; [|split].
  - exists (firstn 3 (concat demo_dump)), (skipn 4 (concat demo_dump)). split; vm_compute; reflexivity.
  - apply (C124_published_key_is_shown plain_codec page_pgp toy_hash toy_hash toy_dpf auth path_dumps (concat demo_dump) page_keys page_config path_addrs (path_at auth) _ _ _
      plain_gzip_ok plain_utf8_ok toy_hash_ok toy_hash_ok toy_keyring DD PU path_directory SD K (path_deployed auth) N3 MA ER (Permutation_rev _) HA
      [100] (mkEntity 0 [] [[]; [100]] 6 [] [77]) [0; 6; 0; 2; 0; 1; 100; 0; 1; 77]).
    + discriminate.
    + exists [mkEntity 0 [68] [] 5 [[1]] [3]], []. split; [vm_compute; reflexivity|]. split; repeat constructor.
    + vm_compute. reflexivity.
    + vm_compute. discriminate.
    + apply PF.
  - apply (C124_unpublished_address_partial plain_codec page_pgp toy_hash toy_hash toy_dpf auth path_dumps (concat demo_dump) page_keys page_config path_addrs (path_at auth) _ _ _
      plain_gzip_ok plain_utf8_ok toy_hash_ok toy_hash_ok toy_keyring DD PU path_directory SD K (path_deployed auth) N3 MA ER (Permutation_rev _) HA [33]).
    + intros e packet (b & a & X & _). exfalso. assert (Y : candidates (g_lower page_pgp) (concat demo_dump) [33] = []) by (vm_compute; reflexivity).
      rewrite Y in X. destruct b; discriminate.
    + apply Forall_forall. intros ad _ db X. injection X as <-. exists (mkKey [100] [0; 6; 0; 2; 0; 1; 100; 0; 1; 77]). split; [vm_compute; tauto|]. destruct auth; vm_compute; reflexivity.
    + apply PF.
    + discriminate.
Qed.
