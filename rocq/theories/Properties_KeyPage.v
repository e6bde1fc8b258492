(** Properties C106-C108 and C87: looking up keys through the front ends, dishonest servers, and starting servers. *)
From Coq Require Import String ZArith List Bool Arith Lia Permutation.
From Verif Require Import GoBase BaseFacts FieldModel FSSModel XorFacts EncodingModel MerkleModel MerkleSpec MerkleProofs PredicateModel PointModel PointSpec
  PointProofs4 DirectoryModel DirectorySpec DirectoryProofs5 FrontendModel FilesModel KeyPageModel KeyPageSpec KeyPageProofs KeyPageProofs2 KeyPageProofs3
  ToyInstances ToyPoint ToyDirectory Properties_Directory.
Import ListNotations.
Open Scope Z_scope.
Open Scope go_scope.

(** A directory of 20 keys in 4 buckets, used in the examples: the last key has the address "t", "d" has two names. *)
Definition page_pgp : openpgp := mkPgp ascii_lower toy_read toy_serialize (fun b => lit "PGP:" ++ b).
Definition page_keys : list pkey := toy_sort demo_written.
Definition page_srv : runtime * list (list pkey) := (toy_runtime', [skipn 7 demo_written; []; firstn 7 demo_written]).
Definition page_db (auth : bool) : bytes_db :=
  get_ok no_db (if auth then generate_real_key_merkle toy_hash toy_hash (fst page_srv) (map Ok (snd page_srv)) true
                else generate_real_key_bytes toy_hash (fst page_srv) (map Ok (snd page_srv)) true).

Ltac distinct := repeat (constructor; [cbn [In]; intros X; repeat destruct X as [X|X]; try discriminate; try contradiction|]); constructor.

Lemma page_keys_ok : listed page_keys /\ Forall (filed page_pgp) page_keys /\ 10 <= zlen page_keys <= 2 ^ 34 /\ holds page_keys page_srv.
Proof.
  conj_split.
  - split; [|apply toy_sort_ok]. vm_compute. distinct.
  - assert (F : Forall (fun k => match toy_read (k_packet k) with
        | Ok [e] => toy_serialize e = Ok (k_packet k) /\ primary_email ascii_lower e = k_id k | _ => False end) page_keys).
    { vm_compute. repeat (constructor; [split; reflexivity|]). constructor. }
    eapply Forall_impl; [|exact F]. cbv beta. intros k X. destruct (toy_read (k_packet k)) as [[|e [|? ?]]| | |]; try contradiction. exists e. exact X.
  - assert (E : zlen page_keys = 20) by (vm_compute; reflexivity). rewrite E. lia.
  - split; [apply toy_runtime'_ok|]. unfold page_srv. cbn [snd concat].
    eapply Permutation_trans; [apply Permutation_sym, toy_sort_ok|]. rewrite app_nil_r. cbn [app].
    rewrite <- (firstn_skipn 7 demo_written) at 1. apply Permutation_app_comm.
Qed.

Lemma page_directory auth n : directory page_pgp toy_hash toy_hash auth page_keys (repeat page_srv n) (repeat (page_db auth) n).
Proof.
  destruct page_keys_ok as (L & F & K & HO). unfold directory. conj_split; auto; try apply toy_hash_ok; try exact toy_keyring; try apply K.
  - apply Forall_forall. intros s Hs. apply repeat_spec in Hs. subst s. exact HO.
  - assert (E : built toy_hash toy_hash auth page_srv (page_db auth)) by (unfold built; destruct auth; vm_compute; reflexivity).
    induction n as [|n IH]; cbn [repeat]; constructor; auto.
  - assert (E : i_bs (b_info (page_db auth)) < 2 ^ 32) by (destruct auth; vm_compute; reflexivity).
    apply Forall_forall. intros d Hd. apply repeat_spec in Hd. subst d. exact E.
  - intros ->. apply Forall_forall. intros d Hd. apply repeat_spec in Hd. subst d. apply nodup_fingerprints. vm_compute. distinct.
Qed.

Local Opaque page_db page_keys.
Definition page_infos (auth : bool) (n : nat) : list (option db_info) := repeat (Some (database_info (PointService (page_db auth)))) n.
Definition page_answers (auth : bool) (n : nat) : list (list Z -> res (list Z)) := map (pir_answer toy_dpf false) (repeat (page_db auth) n).
Definition page_form (email : list Z) : list (list Z * list Z) := [(lit "other", [1]); (lit "email", email); (lit "email", [9])].

(** All hypotheses of C106_found, C106_not_found and C106_empty_bucket_refuted other than those about the address. *)
Lemma page_setting auth : 3 <= zlen (repeat (page_db auth) 3) /\ described (repeat (page_db auth) 3) (page_infos auth 3) /\
  randomness_for (repeat (page_db auth) 3) [9; 200] /\ arrival_ok (@rev (list Z)) /\ (forall email, posted (page_form email) email).
Proof.
  conj_split.
  - unfold zlen. rewrite repeat_length. lia.
  - unfold described, page_infos. cbn [map repeat]. apply Permutation_refl.
  - unfold randomness_for. apply Forall_forall. intros d Hd. apply repeat_spec in Hd. subst d. destruct auth; vm_compute; reflexivity.
  - intros l. apply Permutation_rev.
  - intros email. exists [(lit "other", [1])], [(lit "email", [9])]. split; [reflexivity|]. constructor; [discriminate|constructor].
Qed.

(** ** C106: from a typed address to the key shown *)

(** Whatever the servers describe and answer: a successful page shows that there is no key, or a key of the posted address. *)
Theorem C106_web_shows_key_of_address :
  forall G H B D infos rnd servers arrive form email p, posted form email ->
  web_retrieve G H B D infos rnd servers arrive (Ok form) = Ok p -> p_status p = Some 200 ->
  p_body p = lit "key not found in block" \/ key_of G email (p_body p).
Proof.
  intros G H B D infos rnd servers arrive form email p PF E ST.
  destruct (web_inv _ _ _ _ _ _ _ _ _ _ _ PF E ST) as [?|(d & is & _ & EA)]; auto. right. eapply actor_key_of; eauto.
Qed.
Print Assumptions C106_web_shows_key_of_address.

(** So does the interactive client, ... *)
Theorem C106_interactive_shows_key_of_address :
  forall G H B D infos rnd servers arrive email lines,
  download_key G H B D infos rnd servers arrive (Some email) = (lines, Ok tt) ->
  lines = not_found_lines email \/ exists text, key_of G email text /\ lines = found_lines email text.
Proof.
  intros G H B D infos rnd servers arrive email lines E. unfold download_key in E.
  destruct (get_db_infos infos) as [is| | |]; try discriminate.
  destruct (go_index is 0) as [d|m| |]; cbn [bind] in E; try discriminate.
  2:{ destruct (is_not_found m); [|discriminate]. injection E as <-. left. reflexivity. }
  destruct (actor_get_key _ _ _ _ _ _ _ _ _) as [r|m| |] eqn:EA; try discriminate.
  - injection E as <-. right. exists r. split; [eapply actor_key_of; eauto|reflexivity].
  - destruct (is_not_found m); [|discriminate]. injection E as <-. left. reflexivity.
Qed.
Print Assumptions C106_interactive_shows_key_of_address.

(** ... and the command line client, for the address of the flag or the typed one. *)
Theorem C106_cli_shows_key_of_address :
  forall G H B D enc alphas gr infos rnd order arrive scheme f line text, point_scheme scheme ->
  cli_exec G H B D enc alphas gr infos rnd order arrive scheme f line = Ok text ->
  key_of G (if bytes_equal (f_id f) [] then scanln line else f_id f) text.
Proof.
  intros G H B D enc alphas gr infos rnd order arrive scheme f line text PS E. unfold cli_exec in E.
  destruct (retrieve_db_info infos) as [d| | |]; cbn [bind] in E; try discriminate.
  assert (PS' : bytes_equal scheme (lit "pointPIR") || bytes_equal scheme (lit "pointVPIR") = true).
  { destruct PS as [-> | ->]; rewrite DirectoryProofs4.bytes_equal_refl; auto. }
  rewrite PS' in E.
  destruct (bytes_equal (f_id f) []) eqn:EF.
  - destruct (bytes_equal (scanln line) []); cbn [bind] in E; [discriminate|].
    destruct (actor_get_key _ _ _ _ _ _ _ _ _) as [r| | |] eqn:EA; try discriminate. injection E as <-. eapply actor_key_of; eauto.
  - cbn [bind] in E. destruct (actor_get_key _ _ _ _ _ _ _ _ _) as [r| | |] eqn:EA; try discriminate. injection E as <-. eapply actor_key_of; eauto.
Qed.
Print Assumptions C106_cli_shows_key_of_address.

(** Typing an address at the prompt of the command line client is the same as giving it with the flag: spaces before it are skipped,
    and it ends at the first space or at the end of the line. *)
Theorem C106_typed_address :
  forall G H B D enc alphas gr infos rnd order arrive scheme f f' spaces address stop rest line, point_scheme scheme ->
  f_id f = [] -> f_id f' = address -> address <> [] -> Forall (fun b => b <> 32 /\ b <> 10) address -> stop = 32 \/ stop = 10 ->
  cli_exec G H B D enc alphas gr infos rnd order arrive scheme f (repeat 32 spaces ++ address ++ stop :: rest) =
  cli_exec G H B D enc alphas gr infos rnd order arrive scheme f' line.
Proof.
  intros G H B D enc alphas gr infos rnd order arrive scheme f f' spaces address stop rest line PS E0 E1 NE FA ST. unfold cli_exec.
  destruct (retrieve_db_info infos) as [d| | |]; cbn [bind]; try reflexivity.
  assert (PS' : bytes_equal scheme (lit "pointPIR") || bytes_equal scheme (lit "pointVPIR") = true).
  { destruct PS as [-> | ->]; rewrite DirectoryProofs4.bytes_equal_refl; auto. }
  rewrite PS', E0, E1. assert (W : word (address ++ stop :: rest) = address).
  { clear - FA ST. induction FA as [|b t [A C] _ IH]; cbn [app word].
    - destruct ST as [-> | ->]; reflexivity.
    - apply Z.eqb_neq in A, C. rewrite A, C, IH. reflexivity. }
  assert (S : scanln (repeat 32 spaces ++ address ++ stop :: rest) = address).
  { clear - W NE FA. induction spaces as [|n IH]; cbn [repeat app scanln]; [|exact IH].
    destruct address as [|b t]; [contradiction|]. inversion FA as [|? ? [A C]]; subst. apply Z.eqb_neq in A. cbn [app] in *. cbn [scanln]. rewrite A. exact W. }
  rewrite S. change (bytes_equal [] []) with true. cbv iota. destruct address as [|b t]; [contradiction|].
  change (bytes_equal (b :: t) []) with false. reflexivity.
Qed.
Print Assumptions C106_typed_address.

(** With at least three honest servers, plain or authenticated, all front ends show the stored key of every address of the
    directory, for all randomness and all orders in which descriptions and answers arrive. *)
Theorem C106_found :
  forall G H B D auth keys srvs dbs infos rnd arrive key, directory G H B auth keys srvs dbs -> 3 <= zlen dbs ->
  described dbs infos -> randomness_for dbs rnd -> arrival_ok arrive -> In key keys ->
  (forall form, posted form (k_id key) -> k_id key <> [] ->
     web_retrieve G H B D infos rnd (map (pir_answer D false) dbs) arrive (Ok form) = Ok (mkPage (Some 200) (g_armor G (k_packet key)))) /\
  download_key G H B D infos rnd (map (pir_answer D false) dbs) arrive (Some (k_id key)) =
     (found_lines (k_id key) (g_armor G (k_packet key)), Ok tt) /\
  (forall enc alphas gr order scheme f line, map r_point order = map (pir_answer D false) dbs -> point_scheme scheme ->
     f_id f = k_id key -> k_id key <> [] ->
     cli_exec G H B D enc alphas gr infos rnd order arrive scheme f line = Ok (g_armor G (k_packet key))).
Proof.
  intros G H B D auth keys srvs dbs infos rnd arrive key HD N3 HI HR HA IK.
  assert (X : exists db, In db dbs) by (destruct dbs as [|db ?]; [exfalso; clear - N3; unfold zlen in N3; cbn [length] in N3; lia|exists db; left; auto]). destruct X as (db & I).
  pose proof (directory_first _ _ _ _ _ _ _ HD db infos I HI) as FI.
  pose proof (directory_found G H B D auth keys srvs dbs HD db rnd arrive key I N3 HR HA IK) as E.
  conj_split.
  - intros form PF NE. rewrite (web_ok _ _ _ _ _ _ _ _ _ _ _ PF NE FI), info_of_point, E. reflexivity.
  - rewrite (download_ok _ _ _ _ _ _ _ _ _ _ FI), info_of_point, E. reflexivity.
  - intros enc alphas gr order scheme f line EO PS EF NE. destruct FI as (is & _ & R). assert (NF : f_id f <> []) by congruence.
    rewrite (cli_point _ _ _ _ _ _ _ _ _ _ _ _ _ _ _ PS NF R), info_of_point, EO, EF, E. reflexivity.
Qed.
Print Assumptions C106_found.

(** An address without a key, in a bucket that is not empty, is reported as such by the pages; the command line client ends. *)
Theorem C106_not_found :
  forall G H B D auth keys srvs dbs infos rnd arrive email, directory G H B auth keys srvs dbs -> 3 <= zlen dbs ->
  described dbs infos -> randomness_for dbs rnd -> arrival_ok arrive ->
  Forall (fun db => bucket_used B keys db email) dbs -> (forall key, In key keys -> k_id key <> email) ->
  (forall form, posted form email -> email <> [] ->
     web_retrieve G H B D infos rnd (map (pir_answer D false) dbs) arrive (Ok form) = Ok (mkPage (Some 200) (lit "key not found in block"))) /\
  download_key G H B D infos rnd (map (pir_answer D false) dbs) arrive (Some email) = (not_found_lines email, Ok tt) /\
  (forall enc alphas gr order scheme f line, map r_point order = map (pir_answer D false) dbs -> point_scheme scheme ->
     f_id f = email -> email <> [] ->
     exists m, cli_exec G H B D enc alphas gr infos rnd order arrive scheme f line = Fatal m).
Proof.
  intros G H B D auth keys srvs dbs infos rnd arrive email HD N3 HI HR HA BU NO.
  assert (X : exists db, In db dbs) by (destruct dbs as [|db ?]; [exfalso; clear - N3; unfold zlen in N3; cbn [length] in N3; lia|exists db; left; auto]). destruct X as (db & I).
  rewrite Forall_forall in BU.
  pose proof (directory_first _ _ _ _ _ _ _ HD db infos I HI) as FI.
  destruct (directory_missing G H B D auth keys srvs dbs HD db rnd arrive email I N3 HR HA (BU db I) NO) as (m & E & NM).
  conj_split.
  - intros form PF NE. rewrite (web_ok _ _ _ _ _ _ _ _ _ _ _ PF NE FI), info_of_point, E, NM. reflexivity.
  - rewrite (download_ok _ _ _ _ _ _ _ _ _ _ FI), info_of_point, E, NM. reflexivity.
  - intros enc alphas gr order scheme f line EO PS EF NE. destruct FI as (is & _ & R). assert (NF : f_id f <> []) by congruence. exists m.
    rewrite (cli_point _ _ _ _ _ _ _ _ _ _ _ _ _ _ _ PS NF R), info_of_point, EO, EF, E. reflexivity.
Qed.
Print Assumptions C106_not_found.

(** Refuted: an address that leads to an empty bucket crashes every front end instead of being reported. *)
Theorem C106_empty_bucket_refuted :
  forall G H B D auth keys srvs dbs infos rnd arrive email, directory G H B auth keys srvs dbs -> 3 <= zlen dbs ->
  described dbs infos -> randomness_for dbs rnd -> arrival_ok arrive -> Forall (fun db => ~ bucket_used B keys db email) dbs ->
  (forall form, posted form email -> email <> [] ->
     is_panic (web_retrieve G H B D infos rnd (map (pir_answer D false) dbs) arrive (Ok form)) = true) /\
  is_panic (snd (download_key G H B D infos rnd (map (pir_answer D false) dbs) arrive (Some email))) = true /\
  (forall enc alphas gr order scheme f line, map r_point order = map (pir_answer D false) dbs -> point_scheme scheme ->
     f_id f = email -> email <> [] ->
     is_panic (cli_exec G H B D enc alphas gr infos rnd order arrive scheme f line) = true).
Proof.
  intros G H B D auth keys srvs dbs infos rnd arrive email HD N3 HI HR HA NU.
  assert (X : exists db, In db dbs) by (destruct dbs as [|db ?]; [exfalso; clear - N3; unfold zlen in N3; cbn [length] in N3; lia|exists db; left; auto]). destruct X as (db & I).
  rewrite Forall_forall in NU.
  pose proof (directory_first _ _ _ _ _ _ _ HD db infos I HI) as FI.
  pose proof (directory_empty G H B D auth keys srvs dbs HD db rnd arrive email I N3 HR HA (NU db I)) as E.
  conj_split.
  - intros form PF NE. rewrite (web_ok _ _ _ _ _ _ _ _ _ _ _ PF NE FI), info_of_point.
    destruct (actor_get_key _ _ _ _ _ _ _ _ _); try discriminate E. reflexivity.
  - rewrite (download_ok _ _ _ _ _ _ _ _ _ _ FI), info_of_point.
    destruct (actor_get_key _ _ _ _ _ _ _ _ _); try discriminate E. reflexivity.
  - intros enc alphas gr order scheme f line EO PS EF NE. destruct FI as (is & _ & R). assert (NF : f_id f <> []) by congruence.
    rewrite (cli_point _ _ _ _ _ _ _ _ _ _ _ _ _ _ _ PS NF R), info_of_point, EO, EF.
    destruct (actor_get_key _ _ _ _ _ _ _ _ _); try discriminate E. reflexivity.
Qed.
Print Assumptions C106_empty_bucket_refuted.

(** Refuted: with two servers the pages show no key of an address of the directory; the client then asks with keys of a
    distributed point function, which the servers take for bit vectors (see C72). *)
Theorem C106_two_servers_refuted :
  exists G H B D auth keys srvs dbs infos rnd arrive form key, dpf_ok D /\ directory G H B auth keys srvs dbs /\ zlen dbs = 2 /\
    described dbs infos /\ arrival_ok arrive /\ In key keys /\ posted form (k_id key) /\
    web_retrieve G H B D infos rnd (map (pir_answer D false) dbs) arrive (Ok form) = Ok (mkPage (Some 200) (lit "key not found in block")) /\
    download_key G H B D infos rnd (map (pir_answer D false) dbs) arrive (Some (k_id key)) = (not_found_lines (k_id key), Ok tt).
Proof.
  exists page_pgp, toy_hash, toy_hash, toy_dpf, true, page_keys, (repeat page_srv 2), (repeat (page_db true) 2), (page_infos true 2), [], (@rev _),
    (page_form [97]), (mkKey [97] [0; 5; 1; 65; 0; 0; 1; 0]).
  split; [exact toy_dpf_ok|]. split; [apply page_directory|]. split; [reflexivity|]. split; [apply Permutation_refl|].
  split; [intros l; apply Permutation_rev|]. split; [|split; [apply (page_setting true)|]].
  - vm_compute. tauto.
  - split; vm_compute; reflexivity.
Qed.
Print Assumptions C106_two_servers_refuted.

(** The page of the address "d", stored in a table of 2 x 2 buckets, and the absence of one of the address 33, whose bucket is
    that of "d": the hypotheses hold, and so do the conclusions computed. *)
Example C106_example : forall auth,
  In (mkKey [100] [0; 6; 0; 2; 0; 1; 100; 0; 1; 77]) page_keys /\
  web_retrieve page_pgp toy_hash toy_hash toy_dpf (page_infos auth 3) [9; 200] (page_answers auth 3) (@rev _) (Ok (page_form [100])) =
    Ok (mkPage (Some 200) (lit "PGP:" ++ [0; 6; 0; 2; 0; 1; 100; 0; 1; 77])) /\
  Forall (fun db => bucket_used toy_hash page_keys db [33]) (repeat (page_db auth) 3) /\ (forall key, In key page_keys -> k_id key <> [33]) /\
  web_retrieve page_pgp toy_hash toy_hash toy_dpf (page_infos auth 3) [9; 200] (page_answers auth 3) (@rev _) (Ok (page_form [33])) =
    Ok (mkPage (Some 200) (lit "key not found in block")).
Proof.
  intros auth. destruct (page_setting auth) as (N3 & HI & HR & HA & PF).
  assert (IK : In (mkKey [100] [0; 6; 0; 2; 0; 1; 100; 0; 1; 77]) page_keys) by (vm_compute; tauto).
  assert (BU : Forall (fun db => bucket_used toy_hash page_keys db [33]) (repeat (page_db auth) 3)).
  { apply Forall_forall. intros db Hd. apply repeat_spec in Hd. subst db. exists (mkKey [100] [0; 6; 0; 2; 0; 1; 100; 0; 1; 77]). split; [exact IK|].
    destruct auth; vm_compute; reflexivity. }
  assert (NO : forall key, In key page_keys -> k_id key <> [33]).
  { apply Forall_forall. vm_compute. repeat (constructor; [discriminate|]). constructor. }
  conj_split; auto.
  - apply (C106_found page_pgp toy_hash toy_hash toy_dpf auth page_keys _ _ _ _ _ (mkKey [100] [0; 6; 0; 2; 0; 1; 100; 0; 1; 77]) (page_directory auth 3)); auto; discriminate.
  - apply (C106_not_found page_pgp toy_hash toy_hash toy_dpf auth page_keys _ _ _ _ _ [33] (page_directory auth 3)); auto; discriminate.
Qed.

(** A hash function that sends all addresses of the directory to bucket 0 and all others to bucket 1, which is empty: posting the
    address 33 crashes the web client. *)
Definition crowd_hash : hash_fn := fun x => match x with [c] => if 97 <=? c then repeat 0 32 else repeat 0 3 ++ 1 :: repeat 0 28 | _ => repeat 0 32 end.
Definition crowd_db : bytes_db := get_ok no_db (generate_real_key_bytes crowd_hash (fst page_srv) (map Ok (snd page_srv)) true).
Local Opaque crowd_db.
Example C106_empty_bucket_example :
  directory page_pgp toy_hash crowd_hash false page_keys (repeat page_srv 3) (repeat crowd_db 3) /\
  Forall (fun db => ~ bucket_used crowd_hash page_keys db [33]) (repeat crowd_db 3) /\
  web_retrieve page_pgp toy_hash crowd_hash toy_dpf (repeat (Some (database_info (PointService crowd_db))) 3) [9; 200]
    (map (pir_answer toy_dpf false) (repeat crowd_db 3)) (@rev _) (Ok (page_form [33])) = Panic "slice bounds out of range".
Proof.
  destruct page_keys_ok as (L & F & K & HO). split; [|split].
  - unfold directory. conj_split; auto; try apply toy_hash_ok; try exact toy_keyring; try apply K; try discriminate.
    + intros x. unfold crowd_hash. destruct x as [|c [|? ?]]; [|destruct (97 <=? c)|]; split; try reflexivity;
        repeat (constructor; [unfold is_byte, w8; lia|]); constructor.
    + apply Forall_forall. intros s Hs. apply repeat_spec in Hs. subst s. exact HO.
    + assert (E : built toy_hash crowd_hash false page_srv crowd_db) by (vm_compute; reflexivity). repeat constructor; exact E.
    + assert (E : i_bs (b_info crowd_db) < 2 ^ 32) by (vm_compute; reflexivity). repeat constructor; exact E.
  - apply Forall_forall. intros db Hd. apply repeat_spec in Hd. subst db. intros (key & IK & E).
    revert E. assert (P : position crowd_hash (buckets crowd_db) [33] = 1) by (vm_compute; reflexivity). rewrite P.
    assert (Q : Forall (fun key => position crowd_hash (buckets crowd_db) (k_id key) = 0) page_keys).
    { vm_compute. repeat (constructor; [reflexivity|]). constructor. }
    rewrite Forall_forall in Q. rewrite (Q key IK). discriminate.
  - vm_compute. reflexivity.
Qed.

(** ** C107: authenticated lookups *)

(** With an authenticated directory whose honest description arrives first, whatever the servers answer: a successful page
    shows that there is no key, the directory's own key of the posted address, a key found in a ring of less than 60 bytes, or
    the hash function is broken. Missing: that an existing key is shown, and anything at all if the first description is
    dishonest (see below). *)
Theorem C107_authenticated_partial :
  forall G H B D keys srvs dbs db others rnd servers arrive form email p, directory G H B true keys srvs dbs -> In db dbs ->
  answers_bytes servers -> arrival_ok arrive -> posted form email ->
  web_retrieve G H B D (Some (database_info (PointService db)) :: others) rnd servers arrive (Ok form) = Ok p -> p_status p = Some 200 ->
  p_body p = lit "key not found in block" \/
  (exists key, In key keys /\ k_id key = email /\ p_body p = g_armor G (k_packet key)) \/
  tiny_ring G email (p_body p) \/ hash_broken H (bucket_blocks B (buckets db) keys).
Proof.
  intros G H B D keys srvs dbs db others rnd servers arrive form email p HD I AB HA PF E ST.
  destruct (web_inv _ _ _ _ _ _ _ _ _ _ _ PF E ST) as [?|(d & is & EI & EA)]; auto. right.
  assert (d = database_info (PointService db)) as ->.
  { unfold get_db_infos in EI. cbn [collect] in EI. destruct (collect others) as [l| | |]; cbn [bind] in EI; try discriminate.
    destruct (equal_db_info _); [|discriminate]. change (go_index (database_info (PointService db) :: l) 0) with (Ok (database_info (PointService db))) in EI.
    cbn [bind] in EI. injection EI as <- _. reflexivity. }
  rewrite info_of_point in EA. eapply authenticated; eauto.
Qed.
Print Assumptions C107_authenticated_partial.

(** Refuted: one dishonest server, whose description arrives first and does not mention authentication, and which adds a
    constant to its answers, makes every front end show a key of its choice for an address of its choice. *)
Theorem C107_downgrade_refuted :
  forall G H B D auth keys srvs dbs db m email e forged, directory G H B auth keys srvs dbs -> 3 <= zlen dbs -> In db dbs -> (m < length dbs)%nat ->
  Forall (fun key => bytes (k_packet key)) keys ->
  g_serialize G e = Ok forged -> primary_email (g_lower G) e = email -> bytes forged -> zlen forged < i_bs (b_info db) ->
  exists delta, bytes delta /\ zlen delta = i_bs (b_info db) /\
  forall others rnd arrive, described (without m dbs) others -> randomness_for dbs rnd -> arrival_ok arrive ->
  let infos := Some (undescribed db) :: others in
  (forall form, posted form email -> email <> [] ->
     web_retrieve G H B D infos rnd (one_tampering D dbs m db delta) arrive (Ok form) = Ok (mkPage (Some 200) (g_armor G forged))) /\
  download_key G H B D infos rnd (one_tampering D dbs m db delta) arrive (Some email) = (found_lines email (g_armor G forged), Ok tt) /\
  (forall enc alphas gr order scheme f line, map r_point order = one_tampering D dbs m db delta -> point_scheme scheme ->
     f_id f = email -> email <> [] ->
     cli_exec G H B D enc alphas gr infos rnd order arrive scheme f line = Ok (g_armor G forged)).
Proof.
  intros G H B D auth keys srvs dbs db m email e forged HD N3 I Hm FB SE PE BF LF.
  destruct (directory_db G H B auth keys srvs dbs HD db I) as (OK & FT & N0 & _).
  pose proof (DirectoryProofs.position_range B (buckets db) email ltac:(lia)) as PR.
  set (target := forged ++ 128 :: repeat 0 (Z.to_nat (i_bs (b_info db) - zlen forged - 1))).
  assert (LT : zlen target = i_bs (b_info db)).
  { pose proof (zlen_nonneg forged). unfold target. rewrite zlen_app. unfold zlen at 2. cbn [length]. rewrite repeat_length. lia. }
  exists (xor_list (padded db (Z.to_nat (position B (buckets db) email))) target). split; [|split].
  - apply xor_list_bytes.
    + apply (directory_bytes G H B auth keys srvs dbs HD); auto. lia.
    + unfold target. apply Forall_app. split; auto. constructor; [unfold is_byte, w8; lia|apply zeros_bytes].
  - apply (delta_for db (Z.to_nat (position B (buckets db) email)) target OK); auto. lia.
  - intros others rnd arrive HO HR HA infos.
    pose proof (undescribed_first G H B auth keys srvs dbs db m others HD I HO) as FI. fold infos in FI.
    pose proof (downgraded G H B D auth keys srvs dbs HD db m rnd arrive email forged I N3 Hm LF HR HA) as E.
    apply (actor_ok G) in E.
    assert (RK : recover_key_from_block (g_lower G) (g_read G) forged email = Ok e).
    { pose proof HD as (_ & _ & KR & _). pose proof (KR [e] [forged]) as R1. cbn [mapM bind] in R1. rewrite SE in R1. specialize (R1 eq_refl).
      cbn [concat] in R1. rewrite app_nil_r in R1. unfold recover_key_from_block. rewrite R1. cbn [bind find]. rewrite PE, DirectoryProofs4.bytes_equal_refl. reflexivity. }
    rewrite RK in E. cbn [wrap bind] in E. unfold armor_key in E. rewrite SE in E. cbn [bind wrap] in E. fold target in E.
    conj_split.
    + intros form PF NE. rewrite (web_ok _ _ _ _ _ _ _ _ _ _ _ PF NE FI), E. reflexivity.
    + rewrite (download_ok _ _ _ _ _ _ _ _ _ _ FI), E. reflexivity.
    + intros enc alphas gr order scheme f line EO PS EF NE. destruct FI as (is & _ & R). assert (NF : f_id f <> []) by congruence.
      rewrite (cli_point _ _ _ _ _ _ _ _ _ _ _ _ _ _ _ PS NF R), EO, EF, E. reflexivity.
Qed.
Print Assumptions C107_downgrade_refuted.

(** Refuted: even if all descriptions are honest, one dishonest server makes every existing key disappear: the pages
    report that there is no key for the address. *)
Theorem C107_hidden_key_refuted :
  forall G H B D keys srvs dbs db m key other, directory G H B true keys srvs dbs -> 3 <= zlen dbs -> In db dbs -> (m < length dbs)%nat ->
  Forall (fun key => bytes (k_packet key)) keys -> In key keys -> In other keys ->
  position B (buckets db) (k_id key) <> position B (buckets db) (k_id other) ->
  exists delta, bytes delta /\ zlen delta = i_bs (b_info db) /\
  forall infos rnd arrive, described dbs infos -> randomness_for dbs rnd -> arrival_ok arrive ->
  (forall form, posted form (k_id key) -> k_id key <> [] ->
     web_retrieve G H B D infos rnd (one_tampering D dbs m db delta) arrive (Ok form) = Ok (mkPage (Some 200) (lit "key not found in block"))) /\
  download_key G H B D infos rnd (one_tampering D dbs m db delta) arrive (Some (k_id key)) = (not_found_lines (k_id key), Ok tt).
Proof.
  intros G H B D keys srvs dbs db m key other HD N3 I Hm FB IK IO NP.
  destruct (directory_db G H B true keys srvs dbs HD db I) as (OK & FT & N0 & _).
  pose proof (DirectoryProofs.position_range B (buckets db) (k_id key) ltac:(lia)) as PR.
  pose proof (DirectoryProofs.position_range B (buckets db) (k_id other) ltac:(lia)) as PR'.
  exists (xor_list (padded db (Z.to_nat (position B (buckets db) (k_id key)))) (padded db (Z.to_nat (position B (buckets db) (k_id other))))).
  split; [|split].
  - apply xor_list_bytes; apply (directory_bytes G H B true keys srvs dbs HD); auto; lia.
  - apply (delta_for db (Z.to_nat (position B (buckets db) (k_id key))) (padded db (Z.to_nat (position B (buckets db) (k_id other)))) OK); [lia|]. pose proof OK as (_ & _ & _ & Hb & HL & _). unfold zlen.
    rewrite PointProofs2.padded_length; auto; [lia|]. unfold zlen, buckets in *. lia.
  - intros infos rnd arrive HI HR HA.
    pose proof (directory_first _ _ _ _ _ _ _ HD db infos I HI) as FI.
    pose proof (hidden G H B D true keys srvs dbs HD db m rnd arrive (k_id key) other I N3 Hm eq_refl IO HR HA) as E.
    apply (actor_ok G) in E.
    assert (RK : recover_key_from_block (g_lower G) (g_read G) (bucket B (buckets db) keys (position B (buckets db) (k_id other))) (k_id key)
      = Err "no key with the given email id is found").
    { pose proof HD as (_ & _ & KR & HL & FL & _). set (found := in_bucket B (buckets db) keys (position B (buckets db) (k_id other))).
      assert (FF : Forall (filed G) found).
      { apply Forall_forall. intros k Ik. apply filter_In in Ik as [Ik _]. rewrite Forall_forall in FL. apply FL. auto. }
      destruct (entities_of (g_lower G) (g_serialize G) found FF) as (es & ES & EM).
      unfold recover_key_from_block, bucket. fold found. rewrite (KR es _ ES). cbn [bind].
      destruct (find _ es) as [e|] eqn:FE; [exfalso|reflexivity].
      apply find_some in FE as [Ie Pe]. apply bytes_equal_spec in Pe.
      assert (IM : In (k_id key) (map k_id found)) by (rewrite <- EM, <- Pe; apply in_map; auto).
      apply in_map_iff in IM as (k & Ek & Ik). apply filter_In in Ik as [_ Ik]. apply Z.eqb_eq in Ik. rewrite Ek in Ik. contradiction. }
    rewrite RK in E. cbn [wrap bind] in E.
    split.
    + intros form PF NE. rewrite (web_ok _ _ _ _ _ _ _ _ _ _ _ PF NE FI), info_of_point, E. reflexivity.
    + rewrite (download_ok _ _ _ _ _ _ _ _ _ _ FI), info_of_point, E. reflexivity.
Qed.
Print Assumptions C107_hidden_key_refuted.

(** A forged key of "d", and the key of "a" hidden behind the bucket of "b", by the second of three servers. *)
Definition forged_d : entity := mkEntity 0 [68] [] 7 [] [66].
Example C107_example : exists delta delta',
  let infos := Some (undescribed (page_db true)) :: page_infos true 2 in
  web_retrieve page_pgp toy_hash toy_hash toy_dpf infos [9; 200]
    (one_tampering toy_dpf (repeat (page_db true) 3) 1 (page_db true) delta) (@rev _) (Ok (page_form [100])) =
    Ok (mkPage (Some 200) (lit "PGP:" ++ get_ok [] (toy_serialize forged_d))) /\
  web_retrieve page_pgp toy_hash toy_hash toy_dpf (page_infos true 3) [9; 200]
    (one_tampering toy_dpf (repeat (page_db true) 3) 1 (page_db true) delta') (@rev _) (Ok (page_form [97])) =
    Ok (mkPage (Some 200) (lit "key not found in block")).
Proof.
  destruct (page_setting true) as (N3 & HI & HR & HA & PF).
  assert (FB : Forall (fun key => bytes (k_packet key)) page_keys).
  { vm_compute. repeat (constructor; [repeat (constructor; [split; [discriminate|reflexivity]|]); constructor|]). constructor. }
  assert (ID : In (page_db true) (repeat (page_db true) 3)) by (cbn [repeat In]; auto).
  assert (L3 : (1 < length (repeat (page_db true) 3))%nat) by (rewrite repeat_length; lia).
  destruct (C107_downgrade_refuted page_pgp toy_hash toy_hash toy_dpf true page_keys _ _ (page_db true) 1%nat [100] forged_d (get_ok [] (toy_serialize forged_d))
    (page_directory true 3) N3 ID L3 FB eq_refl eq_refl) as (delta & _ & _ & X).
  { vm_compute. repeat (constructor; [split; [discriminate|reflexivity]|]). constructor. }
  { vm_compute. reflexivity. }
  destruct (C107_hidden_key_refuted page_pgp toy_hash toy_hash toy_dpf page_keys _ _ (page_db true) 1%nat (mkKey [97] [0; 5; 1; 65; 0; 0; 1; 0])
    (mkKey [98] [0; 5; 1; 66; 0; 0; 1; 1]) (page_directory true 3) N3 ID L3 FB) as (delta' & _ & _ & Y).
  { vm_compute. tauto. }
  { vm_compute. tauto. }
  { vm_compute. discriminate. }
  exists delta, delta'. split.
  - apply (X (page_infos true 2) [9; 200] (@rev _)); auto; [apply Permutation_refl|discriminate].
  - apply (Y (page_infos true 3) [9; 200] (@rev _)); auto. discriminate.
Qed.

(** The hypotheses of C107_authenticated_partial are met by these servers, honest or not. *)
Example C107_example_authenticated :
  In (page_db true) (repeat (page_db true) 3) /\ answers_bytes (page_answers true 3) /\
  answers_bytes [fun _ => Ok [1; 2; 3]; fun _ => Err "down"; fun q => Ok (repeat 7 (length q))].
Proof.
  split; [cbn [repeat In]; auto|]. split.
  - intros s q a IS E. apply in_map_iff in IS as (d & <- & Id). apply repeat_spec in Id. subst d.
    apply (honest_answer_bytes toy_dpf false (page_db true) q a); auto.
    vm_compute. repeat (constructor; [split; [discriminate|reflexivity]|]). constructor.
  - intros s q a IS E. cbn [In] in IS. destruct IS as [<-|[<-|[<-|[]]]]; try discriminate; injection E as <-.
    + repeat constructor; unfold is_byte, w8; lia.
    + apply Forall_forall. intros x Hx. apply repeat_spec in Hx. subst x. unfold is_byte, w8. lia.
Qed.

(** ** C108: starting servers *)

(** A server that starts has a point or complex scheme, listens on the address of its number in the configuration, and has a
    number below 5; ... *)
Theorem C108_started :
  forall G H B R es cap d can sid scheme files addr svc,
  start_server G H B R es cap d can sid scheme files = Ok (addr, svc) ->
  In scheme [lit "pointPIR"; lit "pointVPIR"; lit "complexPIR"; lit "complexVPIR"] /\ 0 <= sid < 5 /\ can addr = true /\
  exists addrs names, load_config es = Ok addrs /\ nth_error addrs (Z.to_nat sid) = Some addr /\ get_sks_files cap files d = Ok names /\
    load_service G H B R scheme sid (map (open_keys d) names) = Ok svc.
Proof.
  intros G H B R es cap d can sid scheme files addr svc E.
  apply start_inv in E as (addrs & names & EC & EA & EN & EL & (c & ECe) & CA & IS). pose proof (certificate_range _ _ ECe) as RS.
  conj_split; auto. exists addrs, names. conj_split; auto.
  unfold go_index in EA. destruct (sid <? 0); [discriminate|]. destruct (nth_error addrs (Z.to_nat sid)); [|discriminate]. congruence.
Qed.
Print Assumptions C108_started.

(** ... and conversely every such server starts once its files can be read and its address is free. *)
Theorem C108_starts :
  forall G H B R es cap d can sid scheme files addrs addr names svc,
  In scheme [lit "pointPIR"; lit "pointVPIR"; lit "complexPIR"; lit "complexVPIR"] -> 0 <= sid < 5 ->
  load_config es = Ok addrs -> nth_error addrs (Z.to_nat sid) = Some addr -> can addr = true -> get_sks_files cap files d = Ok names ->
  load_service G H B R scheme sid (map (open_keys d) names) = Ok svc ->
  start_server G H B R es cap d can sid scheme files = Ok (addr, svc).
Proof.
  intros G H B R es cap d can sid scheme files addrs addr names svc IS RS EC EA CA EN EL. eapply start_ok; eauto.
  unfold go_index. destruct (Z.ltb_spec sid 0); [lia|]. rewrite EA. reflexivity.
Qed.
Print Assumptions C108_starts.

(** Refuted: none of the four names the usage text gives for the scheme starts a server, ... *)
Theorem C108_documented_schemes_refuted :
  forall G H B R es cap d can sid scheme files s, In scheme [lit "it"; lit "dpf"; lit "pir-it"; lit "pir-dpf"] ->
  start_server G H B R es cap d can sid scheme files <> Ok s.
Proof.
  intros G H B R es cap d can sid scheme files [a s] IS E. apply start_inv in E as (_ & _ & _ & _ & _ & _ & _ & _ & IS').
  cbn [In] in IS, IS'. destruct IS as [<-|[<-|[<-|[<-|[]]]]]; repeat destruct IS' as [IS'|IS']; try discriminate IS'; contradiction.
Qed.
Print Assumptions C108_documented_schemes_refuted.

(** ... and the sixth server of a configuration crashes after it has loaded its database. *)
Theorem C108_sixth_server_refuted :
  forall G H B R es cap d can sid scheme files addrs addr names svc, 5 <= sid ->
  In scheme [lit "pointPIR"; lit "pointVPIR"; lit "complexPIR"; lit "complexVPIR"] ->
  load_config es = Ok addrs -> nth_error addrs (Z.to_nat sid) = Some addr -> get_sks_files cap files d = Ok names ->
  load_service G H B R scheme sid (map (open_keys d) names) = Ok svc ->
  start_server G H B R es cap d can sid scheme files = Panic "index out of range".
Proof.
  intros G H B R es cap d can sid scheme files addrs addr names svc S IS EC EA EN EL.
  unfold start_server, server_address. rewrite EC. cbn [bind]. unfold go_index at 1. destruct (Z.ltb_spec sid 0); [lia|]. rewrite EA. cbn [bind].
  assert (X : bytes_equal scheme (lit "pointPIR") || bytes_equal scheme (lit "pointVPIR")
             || bytes_equal scheme (lit "complexPIR") || bytes_equal scheme (lit "complexVPIR") = true).
  { rewrite !orb_true_iff. cbn [In] in IS. destruct IS as [<-|[<-|[<-|[<-|[]]]]]; rewrite DirectoryProofs4.bytes_equal_refl; tauto. }
  rewrite X, EN. cbn [bind]. rewrite EL. cbn [bind]. rewrite certificate_panic by auto. reflexivity.
Qed.
Print Assumptions C108_sixth_server_refuted.

(** From the files of the machines to the page: servers 0, 1, ... of a configuration, started as point servers on machines that
    store the same directory, let the web client show every key of it. *)
Theorem C108_deployment :
  forall G H B D other es auth keys machines started infos rnd arrive form key,
  hash_ok H -> hash_ok B -> keyring_ok (g_serialize G) (g_read G) -> listed keys -> Forall (filed G) keys -> 10 <= zlen keys <= 2 ^ 34 ->
  Forall (stores keys) machines -> 3 <= zlen machines ->
  Forall2 (fun im s => started_as G H B es (point_scheme_name auth) (fst im) (snd im) = Ok s)
    (combine (seq 0 (length machines)) machines) started ->
  Forall (fun s => regular B auth keys (snd s)) started ->
  Permutation (map (fun s => Some (database_info (snd s))) started) infos -> arrival_ok arrive ->
  (forall db, In (PointService db) (map snd started) -> zlen rnd = (zlen machines - 1) * Z.of_nat (query_bytes (b_info db))) ->
  In key keys -> posted form (k_id key) -> k_id key <> [] ->
  web_retrieve G H B D infos rnd (map (fun s => answer_point D other (snd s)) started) arrive (Ok form) =
    Ok (mkPage (Some 200) (g_armor G (k_packet key))).
Proof.
  intros G H B D other es auth keys machines started infos rnd arrive form key HH HB KR HL FL HK FS N3 F FR PI HA HR IK PF NE.
  destruct (deployment_directory G H B es auth keys machines (seq 0 (length machines)) started HH HB KR HL FL HK FS (seq_length _ _) F FR)
    as (srvs & dbs & EM & HD & LD).
  assert (ZL : zlen dbs = zlen machines) by (unfold zlen; lia).
  rewrite (answers_of_started D other started dbs EM).
  apply (C106_found G H B D auth keys srvs dbs infos rnd arrive key HD); auto; try lia.
  - apply (infos_of_started started); auto.
  - unfold randomness_for. rewrite ZL. apply Forall_forall. intros db I. apply HR. rewrite EM. apply in_map. exact I.
Qed.
Print Assumptions C108_deployment.

(** Three machines that store the 20 keys in one file or in two, with different runtimes; the configuration lists them in any
    order, and descriptions arrive in any order. *)
Definition page_machines : list machine :=
  [ mkMachine toy_runtime 2 [(lit "sks-000.pgp", KeyFile (firstn 9 demo_written) false); (lit "sks-001.pgp", KeyFile (skipn 9 demo_written) false)] 2 (fun _ => true);
    mkMachine toy_runtime' 1 [(lit "keys", KeyFile page_keys false)] 1 (fun _ => true);
    mkMachine toy_runtime 4 [(lit "a", KeyFile demo_written false); (lit "b", OtherFile)] 1 (fun _ => true) ].
Definition page_config : list entry := [mkEntry (lit "1") (lit "10.0.0.2") 50; mkEntry (lit "0") (lit "10.0.0.1") 50; mkEntry (lit "2") (lit "10.0.0.3") 51].
Definition page_started (auth : bool) : list (list Z * service) :=
  [(lit "10.0.0.1:50", PointService (page_db auth)); (lit "10.0.0.2:50", PointService (page_db auth)); (lit "10.0.0.3:51", PointService (page_db auth))].
Example C108_example : forall auth,
  Forall (stores page_keys) page_machines /\
  Forall2 (fun im s => started_as page_pgp toy_hash toy_hash page_config (point_scheme_name auth) (fst im) (snd im) = Ok s)
    (combine (seq 0 3) page_machines) (page_started auth) /\
  Forall (fun s => regular toy_hash auth page_keys (snd s)) (page_started auth) /\
  web_retrieve page_pgp toy_hash toy_hash toy_dpf (page_infos auth 3) [9; 200] (map (fun s => answer_point toy_dpf (fun _ => Panic "") (snd s)) (page_started auth))
    (@rev _) (Ok (page_form [100])) = Ok (mkPage (Some 200) (lit "PGP:" ++ [0; 6; 0; 2; 0; 1; 100; 0; 1; 77])).
Proof.
  intros auth. destruct (page_setting auth) as (N3 & HI & HR & HA & PF). destruct page_keys_ok as (L & F & K & _).
  assert (PW : Permutation page_keys demo_written) by (apply Permutation_sym, toy_sort_ok).
  assert (ST : Forall (stores page_keys) page_machines).
  { constructor; [|constructor; [|constructor; [|constructor]]].
    - split; [apply toy_runtime_ok|]. exists demo_written. split; [vm_compute; reflexivity|exact PW].
    - split; [apply toy_runtime'_ok|]. exists page_keys. split; [vm_compute; reflexivity|apply Permutation_refl].
    - split; [apply toy_runtime_ok|]. exists demo_written. split; [vm_compute; reflexivity|exact PW]. }
  assert (SA : Forall2 (fun im s => started_as page_pgp toy_hash toy_hash page_config (point_scheme_name auth) (fst im) (snd im) = Ok s)
    (combine (seq 0 3) page_machines) (page_started auth)).
  { cbn [seq combine page_machines]. repeat (apply Forall2_cons; [destruct auth; vm_compute; reflexivity|]). apply Forall2_nil. }
  destruct (page_directory auth 1) as (_ & _ & _ & _ & _ & _ & _ & _ & BS & FO). cbn [repeat] in BS, FO.
  assert (RG : Forall (fun s => regular toy_hash auth page_keys (snd s)) (page_started auth)).
  { inversion BS as [|? ? BS1 _]; subst. assert (FO1 : auth = true -> fingerprints_ok (bucket_blocks toy_hash (buckets (page_db auth)) page_keys)).
    { intros A. specialize (FO A). inversion FO; auto. }
    repeat (constructor; [cbn [snd regular]; split; [exact BS1|exact FO1]|]). constructor. }
  conj_split; auto.
  apply (C108_deployment page_pgp toy_hash toy_hash toy_dpf (fun _ => Panic "") page_config auth page_keys page_machines (page_started auth) (page_infos auth 3) [9; 200] (@rev _)
    (page_form [100]) (mkKey [100] [0; 6; 0; 2; 0; 1; 100; 0; 1; 77])).
  - apply toy_hash_ok.
  - apply toy_hash_ok.
  - exact toy_keyring.
  - exact L.
  - exact F.
  - exact K.
  - exact ST.
  - unfold zlen. cbn [length page_machines]. lia.
  - exact SA.
  - exact RG.
  - apply Permutation_refl.
  - exact HA.
  - intros db I. cbn [page_started map snd In] in I. assert (E : PointService (page_db auth) = PointService db) by (destruct I as [I|[I|[I|[]]]]; exact I).
    injection E as <-. destruct auth; vm_compute; reflexivity.
  - vm_compute. tauto.
  - apply PF.
  - discriminate.
Qed.

(** A sixth server, and a server with a documented scheme, on the second machine. *)
Example C108_example_failures :
  started_as page_pgp toy_hash toy_hash (map (fun k => mkEntry (itoa (Z.of_nat k)) (lit "h") 1) (seq 0 6)) (lit "pointPIR") 5
    (mkMachine toy_runtime' 1 [(lit "keys", KeyFile page_keys false)] 1 (fun _ => true)) = Panic "index out of range" /\
  (forall s, started_as page_pgp toy_hash toy_hash page_config (lit "pir-it") 1 (mkMachine toy_runtime' 1 [(lit "keys", KeyFile page_keys false)] 1 (fun _ => true)) <> Ok s).
Proof. split; [vm_compute; reflexivity|]. intros s. apply C108_documented_schemes_refuted. cbn [In]. auto. Qed.

(** ** C87, continued: a point client whose servers are predicate servers crashes, in every front end. *)
Theorem C87_point_client_predicate_servers_refuted :
  forall G H B D c services infos rnd servers arrive email, hash_ok B -> services <> [] ->
  Forall (fun s => exists v sn r, s = PredicateService v sn c r) services ->
  Permutation (map (fun s => Some (database_info s)) services) infos ->
  (forall form, posted form email -> email <> [] ->
     is_panic (web_retrieve G H B D infos rnd servers arrive (Ok form)) = true) /\
  is_panic (snd (download_key G H B D infos rnd servers arrive (Some email))) = true /\
  (forall enc alphas gr order scheme f line, point_scheme scheme -> f_id f = email -> email <> [] ->
     is_panic (cli_exec G H B D enc alphas gr infos rnd order arrive scheme f line) = true).
Proof.
  intros G H B D c services infos rnd servers arrive email HB NS F P. pose proof (predicate_infos c services infos NS F P) as FI. conj_split.
  - intros form PF NE. rewrite (web_ok _ _ _ _ _ _ _ _ _ _ _ PF NE FI), no_rows_panics by auto. reflexivity.
  - rewrite (download_ok _ _ _ _ _ _ _ _ _ _ FI), no_rows_panics by auto. reflexivity.
  - intros enc alphas gr order scheme f line PS EF NE. destruct FI as (is & _ & R). assert (NF : f_id f <> []) by congruence.
    rewrite (cli_point _ _ _ _ _ _ _ _ _ _ _ _ _ _ _ PS NF R), no_rows_panics by auto. reflexivity.
Qed.
Print Assumptions C87_point_client_predicate_servers_refuted.

Example C87_example_predicate_servers :
  web_retrieve page_pgp toy_hash toy_hash toy_dpf (repeat (Some (database_info (PredicateService 1 0 20 []))) 2) [] [] (@rev _) (Ok (page_form [100])) =
  Panic "integer divide by zero".
Proof. vm_compute. reflexivity. Qed.
