(** Properties C61 and C81-C87: configuration, database descriptions, query routing, the command line, web and interactive
    front ends. Vocabulary in FrontendSpec.v. *)
From Coq Require Import String ZArith List Bool Lia Permutation.
From Verif Require Import GoBase BaseFacts FieldModel FSSModel EncodingModel MerkleModel MerkleSpec MerkleProofs PredicateModel PredicateSpec
  EncodingProofs FSSProofs PredicateProofs PredicateProofs2 PredicateProofs3 PredicateProofs4 FrontendModel FrontendSpec
  FrontendProofs FrontendProofs2 ToyInstances Properties_Predicate.
Import ListNotations.
Open Scope Z_scope.

(** ** C61: disagreeing descriptions *)

(** Descriptions that differ in the number of rows, of columns or in the block size never reach the query, whatever the order
    in which they arrive. *)
Theorem C61_dimensions_compared_partial :
  forall infos order a b, Permutation infos order -> In a infos -> In b infos -> ~ agree a b ->
  retrieve_db_info (map Some order) = Fatal "got different database info from servers" /\
  get_db_infos (map Some order) = Err "db not equal".
Proof.
  intros infos order a b P Ia Ib N. unfold retrieve_db_info, get_db_infos. rewrite collect_some. cbn [bind].
  replace (equal_db_info order) with false; auto. symmetry. destruct (equal_db_info order) eqn:E; auto. exfalso. apply N.
  rewrite equal_db_info_spec in E. specialize (E a b (Permutation_in _ P Ia) (Permutation_in _ P Ib)).
  apply same_shape_eq in E. exact E.
Qed.
Print Assumptions C61_dimensions_compared_partial.

(** and agreeing ones do, with the dimensions every server announced *)
Theorem C61_agreement_accepted :
  forall infos order, Permutation infos order -> infos <> [] -> (forall a b, In a infos -> In b infos -> agree a b) ->
  exists x, retrieve_db_info (map Some order) = Ok x /\ get_db_infos (map Some order) = Ok order /\
    In x infos /\ forall a, In a infos -> agree x a.
Proof.
  intros infos order P NE A. assert (E : equal_db_info order = true).
  { apply equal_db_info_spec. intros a b Ia Ib. apply same_shape_eq. apply Permutation_sym in P. apply A; eapply Permutation_in; eauto. }
  destruct order as [|x t]. { apply Permutation_sym, Permutation_nil in P. congruence. }
  exists x. unfold retrieve_db_info, get_db_infos. rewrite collect_some. cbn [bind]. rewrite E.
  change (go_index (x :: t) 0) with (@Ok db_info x). cbn [bind]. split; auto. split; auto.
  assert (I : In x infos) by (apply (Permutation_in _ (Permutation_sym P)); left; auto). split; auto.
Qed.
Print Assumptions C61_agreement_accepted.

(** Refuted: the Merkle root, the proof length and the type of database are not compared. Servers with different roots are
    accepted, and the root the client will trust is that of whichever answered first. *)
Theorem C61_root_not_compared_refuted :
  forall a b, agree a b ->
  retrieve_db_info [Some a; Some b] = Ok a /\ retrieve_db_info [Some b; Some a] = Ok b /\
  get_db_infos [Some a; Some b] = Ok [a; b] /\ get_db_infos [Some b; Some a] = Ok [b; a].
Proof.
  intros a b A. assert (AB : same_shape a b = true) by (apply same_shape_eq; exact A).
  assert (BA : same_shape b a = true) by (apply same_shape_eq; unfold agree in A; intuition congruence).
  assert (AA : same_shape a a = true) by (apply same_shape_eq; auto). assert (BB : same_shape b b = true) by (apply same_shape_eq; auto).
  unfold retrieve_db_info, get_db_infos. cbn [collect bind equal_db_info forallb]. rewrite AA, AB, BA, BB. cbn [andb]. auto.
Qed.
Print Assumptions C61_root_not_compared_refuted.

(** without any server the client panics *)
Theorem C61_no_server_panics_refuted : is_panic (retrieve_db_info []) = true /\ is_panic (get_db_infos []) = true.
Proof. split; reflexivity. Qed.
Print Assumptions C61_no_server_panics_refuted.

Definition merkle_info : db_info := mkDI 3 4 16 (lit "merkle") [1; 2; 3] 96.
Definition forged_info : db_info := mkDI 3 4 16 (lit "merkle") [9; 9; 9] 64.
Definition bigger_info : db_info := mkDI 3 5 16 (lit "merkle") [1; 2; 3] 96.
Example C61_example :
  agree merkle_info forged_info /\ di_root merkle_info <> di_root forged_info /\
  retrieve_db_info [Some merkle_info; Some forged_info] = Ok merkle_info /\
  retrieve_db_info [Some forged_info; Some merkle_info] = Ok forged_info /\
  ~ agree merkle_info bigger_info /\
  retrieve_db_info [Some merkle_info; Some bigger_info] = Fatal "got different database info from servers".
Proof. split; [repeat split|]. split; [discriminate|]. split; [reflexivity|]. split; [reflexivity|]. split; [intros (_ & E & _); discriminate E|reflexivity]. Qed.

(** ** C81: the configuration file *)

(** If the tables of the file are called "0", "1", ..., "n-1" (listed here in that order), then whatever the order in which
    the map of tables is visited, address number i is "ip:port" of table i. *)
Theorem C81_addresses_in_order_partial :
  forall es order, zlen es < 2 ^ 63 -> (forall i e, nth_error es i = Some e -> decimal_of (e_key e) (Z.of_nat i)) ->
  Forall (fun e => 0 <= e_port e < 2 ^ 63) es ->
  Permutation es order -> exists addrs, load_config order = Ok addrs /\ Forall2 ip_port es addrs.
Proof.
  intros es order L K PO P. exists (map address es). split.
  { assert (A : map (fun e => atoi (e_key e)) es = map (fun i => Some (Z.of_nat i)) (seq 0 (length es))).
  { apply nth_error_ext. intros i. rewrite !nth_error_map. destruct (nth_error es i) as [e|] eqn:E; cbn [option_map].
    - assert (B : (i < length es)%nat) by (apply nth_error_Some; congruence).
      rewrite (atoi_decimal _ _ (K i e E)) by (unfold zlen in L; lia).
      rewrite (nth_error_nth' _ 0%nat) by (rewrite seq_length; auto). rewrite seq_nth by auto. reflexivity.
    - apply nth_error_None in E. replace (nth_error (seq 0 (length es)) i) with (@None nat); auto. symmetry. apply nth_error_None. rewrite seq_length; auto. }
  destruct (load_config_ok es) as (addrs & La & Ha & Hp); [rewrite A; apply Permutation_refl|].
  rewrite (Hp order P). f_equal. apply nth_error_ext. intros i. rewrite nth_error_map. destruct (nth_error es i) as [e|] eqn:E; cbn [option_map].
  - apply Ha. eapply nth_error_In; eauto. apply atoi_decimal; [exact (K i e E)|].
    assert (B : (i < length es)%nat) by (apply nth_error_Some; congruence). unfold zlen in L. lia.
  - apply nth_error_None in E. apply nth_error_None. lia. }
  clear K P. induction PO as [|e t B PO IH]; constructor.
  - exists (itoa (e_port e)). split; [reflexivity|apply itoa_decimal; auto].
  - apply IH. unfold zlen in *. cbn [length] in L. lia.
Qed.
Print Assumptions C81_addresses_in_order_partial.

(** Refuted: a number that is negative or not below the number of tables is never reported as such: loading does not succeed
    and, if all names are numbers, it panics. *)
Theorem C81_bad_number_refuted :
  forall es e i, In e es -> atoi (e_key e) = Some i -> i < 0 \/ zlen es <= i ->
  (forall a, load_config es <> Ok a) /\
  ((forall x, In x es -> atoi (e_key x) <> None) -> is_panic (load_config es) = true).
Proof.
  intros es e i I E B. pose proof (load_config_bad_index es e i I E B es (Permutation_refl es)) as X. split.
  - intros a Y. rewrite Y in X. exact X.
  - intros N. revert X. unfold load_config. generalize (repeat (@nil Z) (length es)). clear I. induction es as [|x t IH] in N |- *; intros addrs X; cbn [fill] in *.
    + destruct X.
    + destruct (atoi (e_key x)) as [j|] eqn:Ej; [|exfalso; apply (N x); [left; auto|auto]].
      unfold go_store in *. destruct ((0 <=? j) && (j <? zlen addrs)); cbn [bind] in *; auto. apply IH; auto. intros y Iy. apply N. right. auto.
Qed.
Print Assumptions C81_bad_number_refuted.

(** Refuted: two tables with the same number, such as "0" and "00", are accepted, the result depends on the iteration order of the map,
    and the last address stays empty. *)
Theorem C81_duplicate_number_refuted :
  forall k0 k1 ip0 p0 ip1 p1, atoi k0 = Some 0 -> atoi k1 = Some 0 ->
  let e0 := mkEntry k0 ip0 p0 in let e1 := mkEntry k1 ip1 p1 in
  load_config [e0; e1] = Ok [address e1; []] /\ load_config [e1; e0] = Ok [address e0; []].
Proof. intros k0 k1 ip0 p0 ip1 p1 A B. unfold load_config. cbn [length repeat fill e_key]. rewrite A, B. split; reflexivity. Qed.
Print Assumptions C81_duplicate_number_refuted.

(** Refuted: a server started without -id (default -1), or with more key files requested than present, panics. *)
Theorem C81_flags_panic_refuted :
  forall addrs files n, zlen files < n -> is_panic (server_address addrs (-1)) = true /\ is_panic (sks_files files n) = true.
Proof.
  intros addrs files n L. split; [reflexivity|]. unfold sks_files, go_slice.
  destruct (Z.leb_spec n (zlen files)); [lia|]. rewrite andb_false_r. reflexivity.
Qed.
Print Assumptions C81_flags_panic_refuted.

Definition host_a : entry := mkEntry (lit "0") (lit "127.0.0.1") 50050.
Definition host_b : entry := mkEntry (lit "1") (lit "10.0.0.7") 8.
Example C81_example :
  load_config [host_b; host_a] = Ok [lit "127.0.0.1:50050"; lit "10.0.0.7:8"] /\
  (forall i e, nth_error [host_a; host_b] i = Some e -> decimal_of (e_key e) (Z.of_nat i)) /\
  atoi (lit "00") = Some 0 /\ atoi (lit "+0") = Some 0 /\ atoi (lit "7x") = None /\
  is_panic (load_config [host_b]) = true.
Proof.
  split; [reflexivity|]. split; [|repeat split].
  intros [|[|i]] e E; cbn in E; [injection E as <-|injection E as <-|destruct i; discriminate E];
    (split; [cbn; repeat first [apply Forall_nil|apply Forall_cons; [lia|]]|split; [reflexivity|split; [discriminate|cbn; intros; congruence]]]).
Qed.

(** ** C82: routing of queries and answers *)

(** The flags of the command line client build exactly the request they describe. *)
Theorem C82_flags_mean_the_request :
  forall H f rq, cli_request f (atoi (f_id f)) = Some rq ->
  cli_query H f = bind (request_input H rq) (fun inp => Ok (request_info rq, inp)).
Proof.
  intros H f rq E. unfold cli_request in E. unfold cli_query.
  change list_eqb with bytes_equal in E.
  destruct f as [fa fv tg fs fe idt]; cbn [f_and f_avg f_target f_from_start f_from_end f_id] in *.
  destruct fv; [discriminate|]. destruct fa; cbn [negb andb].
  - injection E as <-. reflexivity.
  - destruct (bytes_equal tg (lit "email")); [injection E as <-; reflexivity|].
    destruct (bytes_equal tg (lit "algo")); [injection E as <-; reflexivity|].
    destruct (bytes_equal tg (lit "creation")); [|discriminate].
    destruct (atoi idt); [|discriminate]. injection E as <-. reflexivity.
Qed.
Print Assumptions C82_flags_mean_the_request.

(** With the connections visited in the order of the configuration, the command line client obtains the number of selected
    records, whatever the order in which the two answers arrive. *)
Theorem C82_command_line_count_partial :
  forall C enc H e alphas r serve (c0 c1 : C) now0 now1 fresh0 fresh1 db arrive f rq,
  cipher_ok enc -> hash_ok H -> rand_ok r -> e = S (length alphas) -> (e < 20)%nat -> Forall (fun v => 0 <= v < ModP) alphas ->
  cli_request f (atoi (f_id f)) = Some rq -> request_ok rq -> Forall record_ok db ->
  request_bytes rq <= 32 \/ Forall (fun ki => ascii (ki_email ki)) db ->
  honest enc H e db serve c0 0 now0 fresh0 -> honest enc H e db serve c1 1 now1 fresh1 -> some_order arrive ->
  (forall inp, request_input H rq = Ok inp -> unresampled enc H e alphas r 0 1 now0 now1 fresh0 fresh1 db (request_info rq) inp) ->
  cli_complex enc H e alphas r serve [c0; c1] arrive f = Ok (count_matching (selects H rq) db mod ModP).
Proof.
  intros C enc H e alphas r serve c0 c1 now0 now1 fresh0 fresh1 db arrive f rq He HH Hr HE H20 Ha Erq HR HD HF S0 S1 SO UR.
  destruct (request_ids H rq db HH HR HD HF) as (inp & EI & _).
  unfold cli_complex. rewrite (C82_flags_mean_the_request H f rq Erq), EI. cbn [bind fst snd].
  apply (exchange_count enc H e alphas r serve c0 c1 now0 now1 fresh0 fresh1 db arrive rq inp); auto.
Qed.
Print Assumptions C82_command_line_count_partial.

(** Refuted: the connections are kept in a map. When it is visited in the other order the honest servers get each other's
    query and the client accepts the negated count, with all tags verified. *)
Theorem C82_map_order_negates_refuted :
  forall C enc H e alphas r serve (c0 c1 : C) now0 now1 fresh0 fresh1 db arrive f rq,
  cipher_ok enc -> hash_ok H -> rand_ok r -> e = S (length alphas) -> (e < 20)%nat -> Forall (fun v => 0 <= v < ModP) alphas ->
  cli_request f (atoi (f_id f)) = Some rq -> request_ok rq -> Forall record_ok db ->
  request_bytes rq <= 32 \/ Forall (fun ki => ascii (ki_email ki)) db ->
  honest enc H e db serve c0 0 now0 fresh0 -> honest enc H e db serve c1 1 now1 fresh1 -> some_order arrive ->
  (forall inp, request_input H rq = Ok inp -> unresampled enc H e alphas r 1 0 now1 now0 fresh1 fresh0 db (request_info rq) inp) ->
  cli_complex enc H e alphas r serve [c1; c0] arrive f = Ok ((- count_matching (selects H rq) db) mod ModP).
Proof.
  intros C enc H e alphas r serve c0 c1 now0 now1 fresh0 fresh1 db arrive f rq He HH Hr HE H20 Ha Erq HR HD HF S0 S1 SO UR.
  destruct (request_ids H rq db HH HR HD HF) as (inp & EI & _).
  unfold cli_complex. rewrite (C82_flags_mean_the_request H f rq Erq), EI. cbn [bind fst snd].
  apply (exchange_swapped enc H e alphas r serve c1 c0 now1 now0 fresh1 fresh0 db arrive rq inp); auto.
Qed.
Print Assumptions C82_map_order_negates_refuted.

(** The connection manager keeps the configured order: every front end that uses it gets the count. *)
Theorem C82_manager_count :
  forall C enc H alphas r i0 i1 serve (c0 c1 : C) now0 now1 fresh0 fresh1 db arrive rq inp,
  cipher_ok enc -> hash_ok H -> rand_ok r -> length alphas = 4%nat -> Forall (fun v => 0 <= v < ModP) alphas ->
  request_ok rq -> Forall record_ok db ->
  request_bytes rq <= 32 \/ Forall (fun ki => ascii (ki_email ki)) db ->
  agree i0 i1 ->
  honest enc H 5 db serve c0 0 now0 fresh0 -> honest enc H 5 db serve c1 1 now1 fresh1 -> some_order arrive ->
  request_input H rq = Ok inp ->
  unresampled enc H 5 alphas r 0 1 now0 now1 fresh0 fresh1 db (request_info rq) inp ->
  execute_stats enc alphas r [Some i0; Some i1] serve [c0; c1] arrive (request_info rq) inp
    = Ok (count_matching (selects H rq) db mod ModP).
Proof.
  intros C enc H alphas r i0 i1 serve c0 c1 now0 now1 fresh0 fresh1 db arrive rq inp He HH Hr HL Ha HR HD HF AG S0 S1 SO EI UR.
  unfold execute_stats. destruct (C61_root_not_compared_refuted i0 i1 AG) as (_ & _ & G & _). rewrite G. cbn [bind].
  change (zlen [i0; i1]) with 2.
  apply (exchange_count enc H 5 alphas r serve c0 c1 now0 now1 fresh0 fresh1 db arrive rq inp); auto; rewrite ?HL; auto with arith. lia.
Qed.
Print Assumptions C82_manager_count.

(** Refuted: two servers configured with the same address are one connection, and the predicate client then ends the process. *)
Theorem C82_same_address_refuted :
  forall enc H e alphas r serve a arrive f,
  match cli_query H f with
  | Ok _ => cli_complex enc H e alphas r serve (connections [a; a]) arrive f = Fatal "invalid query inputs"
  | _ => True
  end.
Proof.
  intros enc H e alphas r serve a arrive f. destruct (cli_query H f) as [[q inp]| | |] eqn:E; auto.
  unfold cli_complex. rewrite E. cbn [bind]. unfold connections. cbn [nodup]. destruct (in_dec addr_eq_dec a [a]) as [_|N].
  - reflexivity.
  - exfalso. apply N. left. auto.
Qed.
Print Assumptions C82_same_address_refuted.

(** two honest servers over [toy_db], reached by their number *)
Definition toy_serve (e : nat) (c : Z) (qk : qinfo * fss_key) : option (list Z) :=
  match answer_bytes toy_cipher toy_hash e c toy_db (length toy_db) (fun _ => 2021) (fun _ _ => 0) (Some (fst qk)) (snd qk) with
  | Ok b => Some b | _ => None end.
Lemma toy_honest e c : honest toy_cipher toy_hash e toy_db (toy_serve e) c c (fun _ => 2021) (fun _ _ => 0).
Proof. intros q k. reflexivity. Qed.
Definition algo_flags (name : string) : cli_flags := mkF false false (lit "algo") 0 0 (lit name).
Definition email_flags : cli_flags := mkF false false (lit "email") 0 2 (lit "@x").
Example C82_example :
  cli_complex toy_cipher toy_hash 5 toy_alphas toy_rand (toy_serve 5) [0; 1] (fun l => l) email_flags = Ok 2 /\
  cli_complex toy_cipher toy_hash 5 toy_alphas toy_rand (toy_serve 5) [0; 1] (@rev _) email_flags = Ok 2 /\
  cli_complex toy_cipher toy_hash 5 toy_alphas toy_rand (toy_serve 5) [1; 0] (fun l => l) email_flags = Ok 2147483645 /\
  execute_stats toy_cipher toy_alphas toy_rand [Some merkle_info; Some forged_info] (toy_serve 5) [0; 1] (@rev _)
    suffix_q (byte_to_bits [64; 120]) = Ok 2.
Proof. split; [vm_compute; reflexivity|]. split; [vm_compute; reflexivity|]. split; vm_compute; reflexivity. Qed.

(** ** C83: the web pages report failures *)

(** A page with status 200 shows the result of a successful query and nothing else. *)
Theorem C83_success_is_real_partial :
  forall H exec position text algo year p, p_status p = Some 200 ->
  (web_email H exec position text = Ok p ->
     exists i inp c,
       (position = lit "begin" /\ i = mkInfo target_userid (zlen text) 0 false false false \/
        position = lit "end" /\ i = mkInfo target_userid 0 (zlen text) false false false) /\
       to_email_client H i text = Ok inp /\ exec i inp = Ok c /\ p = count_page c) /\
  (web_algo exec algo = Ok p ->
     exists c, exec (request_info (ByAlgo (text_of algo))) (to_pka_client (text_of algo)) = Ok c /\ p = count_page c) /\
  (web_year exec year = Ok p ->
     exists inp c, to_creation_client (atoi year) = Ok inp /\ exec (request_info (ByCreation 0)) inp = Ok c /\ p = count_page c).
Proof.
  intros H exec position text algo year p St. split; [|split]; intros E.
  - unfold web_email in E. destruct (bytes_equal position []); [injection E as <-; discriminate St|].
    destruct (bytes_equal text []); [injection E as <-; discriminate St|]. cbv zeta in E.
    assert (G : forall fs fe, bind (to_email_client H (mkInfo target_userid fs fe false false false) text)
        (fun inp => match exec (mkInfo target_userid fs fe false false false) inp with
         | Ok c => Ok (write no_page (lit "count: " ++ itoa c))
         | Err m => Ok (http_error no_page (lit "failed to execute count query: " ++ lit m) 500)
         | Panic m => Panic m | Fatal m => Fatal m end) = Ok p ->
        exists inp c, to_email_client H (mkInfo target_userid fs fe false false false) text = Ok inp /\
          exec (mkInfo target_userid fs fe false false false) inp = Ok c /\ p = count_page c).
    { clear E. intros fs fe X. destruct (to_email_client H _ text) as [inp| | |]; try discriminate X. cbn [bind] in X.
      destruct (exec _ inp) as [c| | |] eqn:EC; try discriminate X; injection X as <-; [|discriminate St].
      exists inp, c. split; [reflexivity|]. split; [exact EC|reflexivity]. }
    destruct (bytes_equal position (lit "begin")) eqn:P1.
    { destruct (G _ _ E) as (inp & c & X). apply bytes_equal_spec in P1. eexists _, inp, c. split; [left; split; [exact P1|reflexivity]|exact X]. }
    destruct (bytes_equal position (lit "end")) eqn:P2.
    { destruct (G _ _ E) as (inp & c & X). apply bytes_equal_spec in P2. eexists _, inp, c. split; [right; split; [exact P2|reflexivity]|exact X]. }
    injection E as <-. discriminate St.
  - unfold web_algo in E. destruct (bytes_equal algo []); [injection E as <-; discriminate St|]. unfold then_count in E.
    change (request_info (ByAlgo (text_of algo))) with (mkInfo target_algo 0 0 false false false).
    destruct (exec _ _) as [c| | |]; try discriminate E; injection E as <-; [|discriminate St]. exists c. split; reflexivity.
  - unfold web_year in E. destruct (bytes_equal year []); [injection E as <-; discriminate St|].
    change (request_info (ByCreation 0)) with (mkInfo target_creation 0 0 false false false).
    destruct (to_creation_client (atoi year)) as [inp| | |]; try discriminate E. cbn [bind] in E. unfold then_count in E. exists inp.
    destruct (exec _ _) as [c| | |]; try discriminate E; injection E as <-; [|discriminate St]. exists c. repeat split; reflexivity.
Qed.
Print Assumptions C83_success_is_real_partial.

(** Refuted: when the query fails, because the tags do not verify for instance, the algorithm and the creation page still end
    with "count: 0". *)
Theorem C83_failure_shows_count_refuted :
  forall exec algo year inp m, algo <> [] -> year <> [] -> to_creation_client (atoi year) = Ok inp ->
  exec (request_info (ByAlgo (text_of algo))) (to_pka_client (text_of algo)) = Err m ->
  exec (request_info (ByCreation 0)) inp = Err m ->
  (exists p, web_algo exec algo = Ok p /\ p_status p = Some 500 /\ shows_zero p) /\
  (exists p, web_year exec year = Ok p /\ p_status p = Some 500 /\ shows_zero p).
Proof.
  intros exec algo year inp m NA NY EY EA EC.
  assert (B : forall l, l <> [] -> bytes_equal l [] = false) by (intros [|x l] N; [congruence|reflexivity]).
  split.
  - unfold web_algo. rewrite (B algo NA). change (request_info (ByAlgo (text_of algo))) with (mkInfo target_algo 0 0 false false false) in EA. rewrite EA.
    eexists. split; [reflexivity|]. split; [reflexivity|]. eexists. reflexivity.
  - unfold web_year. rewrite (B year NY), EY. cbn [bind]. change (request_info (ByCreation 0)) with (mkInfo target_creation 0 0 false false false) in EC. rewrite EC.
    eexists. split; [reflexivity|]. split; [reflexivity|]. eexists. reflexivity.
Qed.
Print Assumptions C83_failure_shows_count_refuted.

Example C83_example :
  web_algo (fun _ _ => Ok 7) (lit "RSA") = Ok (count_page 7) /\
  web_algo (fun _ _ => Err "REJECT") (lit "RSA") =
    Ok (mkPage (Some 500) (lit "failed to execute count query: REJECT" ++ [10] ++ lit "count: 0")) /\
  web_email toy_hash (fun _ _ => Err "REJECT") (lit "end") (lit "@x") =
    Ok (mkPage (Some 500) (lit "failed to execute count query: REJECT" ++ [10])).
Proof. split; [reflexivity|]. split; reflexivity. Qed.

(** ** C84: the e-mail page, from the form to the page *)
Theorem C84_web_email_count :
  forall C enc H alphas r i0 i1 serve (c0 c1 : C) now0 now1 fresh0 fresh1 db arrive (at_end : bool) text,
  cipher_ok enc -> hash_ok H -> rand_ok r -> length alphas = 4%nat -> Forall (fun v => 0 <= v < ModP) alphas ->
  text <> [] -> bytes text -> Forall record_ok db -> zlen db < ModP ->
  zlen text <= 32 \/ Forall (fun ki => ascii (ki_email ki)) db ->
  agree i0 i1 ->
  honest enc H 5 db serve c0 0 now0 fresh0 -> honest enc H 5 db serve c1 1 now1 fresh1 -> some_order arrive ->
  let q := if at_end then mkInfo target_userid 0 (zlen text) false false false
           else mkInfo target_userid (zlen text) 0 false false false in
  (forall inp, to_email_client H q text = Ok inp -> unresampled enc H 5 alphas r 0 1 now0 now1 fresh0 fresh1 db q inp) ->
  web_email H (execute_stats enc alphas r [Some i0; Some i1] serve [c0; c1] arrive) (lit (if at_end then "end" else "begin")) text
    = Ok (count_page (count_matching (fun ki => (if at_end then is_suffix else is_prefix) text (ki_email ki)) db)).
Proof.
  intros C enc H alphas r i0 i1 serve c0 c1 now0 now1 fresh0 fresh1 db arrive at_end text He HH Hr HL Ha NT BT HD HN HF AG S0 S1 SO q UR.
  assert (TP : 0 < zlen text) by (destruct text; [congruence|unfold zlen; cbn [length]; lia]).
  assert (RQ : request_ok (ByEmail q text)).
  { split; [destruct at_end; repeat split|]. split; [|exact BT]. unfold text_long_enough, q. destruct at_end; cbn [q_from_start q_from_end].
    - rewrite Z.ltb_irrefl. lia.
    - destruct (Z.ltb_spec 0 (zlen text)); lia. }
  assert (RB : request_bytes (ByEmail q text) = zlen text).
  { cbn [request_bytes]. unfold email_id_bytes, q. destruct at_end; cbn [q_from_start q_from_end].
    - rewrite Z.ltb_irrefl. destruct (Z.ltb_spec 0 (zlen text)); lia.
    - destruct (Z.ltb_spec 0 (zlen text)); lia. }
  assert (HF' : readable (ByEmail q text) db) by (unfold readable; rewrite RB; exact HF).
  destruct (request_ids H (ByEmail q text) db HH RQ HD HF') as (inp & EI & _). cbn [request_input] in EI.
  pose proof (C82_manager_count C enc H alphas r i0 i1 serve c0 c1 now0 now1 fresh0 fresh1 db arrive (ByEmail q text) inp
                He HH Hr HL Ha RQ HD HF' AG S0 S1 SO EI (UR inp EI)) as X. cbn [request_info] in X.
  rewrite (count_ext _ (fun ki => (if at_end then is_suffix else is_prefix) text (ki_email ki))) in X.
  2: { intros ki. cbn [selects]. unfold email_matches, q. destruct at_end; cbn [q_from_start q_from_end].
       - rewrite Z.ltb_irrefl. destruct (Z.ltb_spec 0 (zlen text)); [|lia]. apply is_suffix_all.
       - destruct (Z.ltb_spec 0 (zlen text)); [|lia]. apply is_prefix_all. }
  rewrite Z.mod_small in X by (pose proof (count_bound (fun ki => (if at_end then is_suffix else is_prefix) text (ki_email ki)) db); lia).
  unfold web_email. replace (bytes_equal text []) with false by (destruct text; [congruence|reflexivity]).
  destruct at_end.
  - change (bytes_equal (lit "end") []) with false. change (bytes_equal (lit "end") (lit "begin")) with false.
    change (bytes_equal (lit "end") (lit "end")) with true. cbv iota zeta. fold q. rewrite EI. cbn [bind]. rewrite X. reflexivity.
  - change (bytes_equal (lit "begin") []) with false. change (bytes_equal (lit "begin") (lit "begin")) with true. cbv iota zeta.
    fold q. rewrite EI. cbn [bind]. rewrite X. reflexivity.
Qed.
Print Assumptions C84_web_email_count.

Example C84_example :
  web_email toy_hash (execute_stats toy_cipher toy_alphas toy_rand [Some merkle_info; Some merkle_info] (toy_serve 5) [0; 1] (@rev _))
    (lit "end") (lit "@x") = Ok (mkPage (Some 200) (lit "count: 2")) /\
  web_email toy_hash (execute_stats toy_cipher toy_alphas toy_rand [Some merkle_info; Some merkle_info] (toy_serve 5) [0; 1] (@rev _))
    (lit "begin") (lit "b") = Ok (mkPage (Some 200) (lit "count: 1")).
Proof. split; vm_compute; reflexivity. Qed.

(** ** C85: the web front end survives *)

(** Refuted: one request whose year is not a number ends the process of the web server, for every user; so does one failing
    server. *)
Theorem C85_one_request_kills_the_site_refuted :
  (forall exec year, year <> [] -> atoi year = None -> web_year exec year = Fatal "strconv.Atoi") /\
  (forall C enc alphas r i0 i1 serve (c0 c1 : C) arrive algo k,
     agree i0 i1 -> algo <> [] -> client_query enc 5 alphas r (to_pka_client (text_of algo)) 2 = Ok k ->
     (forall q, serve c0 q = None) ->
     web_algo (execute_stats enc alphas r [Some i0; Some i1] serve [c0; c1] arrive) algo = Fatal "could not query").
Proof.
  assert (B : forall l, l <> [] -> bytes_equal l [] = false) by (intros [|x l] N; [congruence|reflexivity]). split.
  - intros exec year N A. unfold web_year. rewrite (B year N), A. reflexivity.
  - intros C enc alphas r i0 i1 serve c0 c1 arrive algo [[k0 k1] fg] AG N EQ F. unfold web_algo. rewrite (B algo N).
    unfold execute_stats. destruct (C61_root_not_compared_refuted i0 i1 AG) as (_ & _ & G & _). rewrite G. cbn [bind].
    change (zlen [i0; i1]) with 2. unfold exchange. rewrite EQ. cbn [bind send_all].
    change (go_index [(mkInfo target_algo 0 0 false false false, k0); (mkInfo target_algo 0 0 false false false, k1)] 0)
      with (@Ok (qinfo * fss_key) (mkInfo target_algo 0 0 false false false, k0)). cbn [bind]. rewrite F. reflexivity.
Qed.
Print Assumptions C85_one_request_kills_the_site_refuted.

(** Missing fields and unknown positions get an error page without any query being sent. *)
Theorem C85_bad_forms_answered_partial :
  forall H exec position text,
  (position = [] \/ text = [] \/ (position <> lit "begin" /\ position <> lit "end")) ->
  (exists p, web_email H exec position text = Ok p /\ (p_status p = Some 400 \/ p_status p = Some 500)) /\
  (exists p, web_algo exec [] = Ok p /\ p_status p = Some 400) /\ (exists p, web_year exec [] = Ok p /\ p_status p = Some 400).
Proof.
  intros H exec position text B. split; [|split; (eexists; split; reflexivity)].
  unfold web_email. destruct (bytes_equal position []) eqn:E1; [eexists; split; [reflexivity|left; reflexivity]|].
  destruct (bytes_equal text []) eqn:E2; [eexists; split; [reflexivity|left; reflexivity]|]. cbv zeta.
  assert (NE : forall a b, a <> b -> bytes_equal a b = false).
  { intros a b N. destruct (bytes_equal a b) eqn:X; auto. apply bytes_equal_spec in X. contradiction. }
  destruct B as [->|[->|[NB NN]]]; [discriminate E1|discriminate E2|]. rewrite (NE _ _ NB), (NE _ _ NN).
  eexists. split; [reflexivity|right; reflexivity].
Qed.
Print Assumptions C85_bad_forms_answered_partial.

Example C85_example :
  web_year (fun _ _ => Ok 3) (lit "2018?") = Fatal "strconv.Atoi" /\ web_year (fun _ _ => Ok 3) (lit "2018") = Ok (count_page 3) /\
  web_email toy_hash (fun _ _ => Ok 3) (lit "middle") (lit "x") = Ok (mkPage (Some 500) (lit "unknown position: middle" ++ [10])).
Proof. split; [reflexivity|]. split; [vm_compute; reflexivity|reflexivity]. Qed.

(** ** C86: the interactive and the command line front end ask for what the user typed *)

(** For a non-empty text the interactive counting request selects the addresses that begin (end) with it. *)
Theorem C86_interactive_email_partial :
  forall H ending q text inp, interactive_email H ending text = Ok (q, inp) -> text <> [] ->
  forall ki, request_info (ByEmail q text) = q /\ request_input H (ByEmail q text) = Ok inp /\
    selects H (ByEmail q text) ki = (if ending then is_suffix else is_prefix) text (ki_email ki).
Proof.
  intros H ending q text inp E NT ki.
  assert (TP : 0 < zlen text) by (destruct text; [congruence|unfold zlen; cbn [length]; lia]).
  unfold interactive_email in E. cbv zeta in E. destruct (to_email_client H _ text) as [b| | |] eqn:EI; try discriminate E.
  cbn [bind] in E. injection E as E <-. split; [reflexivity|]. rewrite E in EI. split; [exact EI|].
  cbn [selects]. unfold email_matches. subst q. destruct ending; cbn [q_from_start q_from_end].
  - rewrite Z.ltb_irrefl. destruct (Z.ltb_spec 0 (zlen text)); [|lia]. apply is_suffix_all.
  - destruct (Z.ltb_spec 0 (zlen text)); [|lia]. apply is_prefix_all.
Qed.
Print Assumptions C86_interactive_email_partial.

(** Refuted: every address begins and ends with the empty text, but the request built for it selects the addresses with the
    digest of the empty address: none, in general. *)
Theorem C86_empty_text_refuted :
  forall H ending q inp db, interactive_email H ending [] = Ok (q, inp) ->
  Forall (fun ki => firstn 16 (H (ki_email ki)) <> firstn 16 (H [])) db ->
  count_matching (fun ki => (if ending then is_suffix else is_prefix) [] (ki_email ki)) db = zlen db /\
  count_matching (selects H (ByEmail q [])) db = 0 /\ request_input H (ByEmail q []) = Ok inp.
Proof.
  intros H ending q inp db E F. unfold interactive_email in E. cbv zeta in E. change (zlen (@nil Z)) with 0 in E.
  assert (Q : q = mkInfo target_userid 0 0 false false false /\ to_email_client H q [] = Ok inp).
  { destruct ending; destruct (to_email_client H (mkInfo target_userid 0 0 false false false) []) as [b| | |] eqn:EI; try discriminate E;
      cbn [bind] in E; injection E as <- <-; split; [reflexivity|exact EI|reflexivity|exact EI]. }
  destruct Q as [-> EI]. split; [|split; [|exact EI]].
  - unfold count_matching. replace (filter _ db) with db; [reflexivity|]. symmetry. clear F. induction db as [|x t IH]; cbn [filter]; auto.
    replace ((if ending then is_suffix else is_prefix) [] (ki_email x)) with true by (destruct ending; reflexivity). rewrite IH; auto.
  - unfold count_matching. replace (filter _ db) with (@nil key_info); [reflexivity|]. symmetry. induction F as [|x t N F IH]; cbn [filter]; auto.
    rewrite IH. cbn [selects]. unfold email_matches. cbn [q_from_start q_from_end]. rewrite Z.ltb_irrefl.
    change list_eqb with bytes_equal. destruct (bytes_equal (firstn 16 (H (ki_email x))) (firstn 16 (H []))) eqn:X; auto.
    apply bytes_equal_spec in X. contradiction.
Qed.
Print Assumptions C86_empty_text_refuted.

(** Refuted: -avg without -and crashes the command line client, whatever the other flags. *)
Theorem C86_avg_alone_panics_refuted :
  forall H f, f_avg f = true -> f_and f = false -> cli_query H f = Panic "query not implemented".
Proof. intros H [a v t s n i] V A. cbn in V, A. subst. reflexivity. Qed.
Print Assumptions C86_avg_alone_panics_refuted.

(** The interactive average over a non-empty text, with two honest servers whose clocks agree: the integer mean of the ages of the selected keys. *)
Theorem C86_interactive_average :
  forall C enc H alphas r serve (c0 c1 : C) year fresh0 fresh1 db arrive ending text q inp i0 i1,
  cipher_ok enc -> hash_ok H -> rand_ok r -> length alphas = 4%nat -> Forall (fun v => 0 <= v < ModP) alphas ->
  interactive_avg H ending text = Ok (q, inp) -> text <> [] -> bytes text -> Forall record_ok db ->
  zlen text <= 32 \/ Forall (fun ki => ascii (ki_email ki)) db -> year < 2 ^ 33 ->
  agree i0 i1 ->
  honest enc H 5 db serve c0 0 (fun _ => year) fresh0 -> honest enc H 5 db serve c1 1 (fun _ => year) fresh1 -> some_order arrive ->
  unresampled enc H 5 alphas r 0 1 (fun _ => year) (fun _ => year) fresh0 fresh1 db q inp ->
  let chosen := filter (fun ki => (if ending then is_suffix else is_prefix) text (ki_email ki) && (time_year (ki_time ki) <=? year)) db in
  0 < zlen chosen < ModP -> zsum (ages year chosen) < ModP ->
  execute_stats enc alphas r [Some i0; Some i1] serve [c0; c1] arrive q inp = Ok (zsum (ages year chosen) / zlen chosen).
Proof.
  intros C enc H alphas r serve c0 c1 year fresh0 fresh1 db arrive ending text q inp i0 i1 He HH Hr HL Ha E NT BT HD HF HY AG S0 S1 SO UR chosen HC HS.
  assert (TP : 0 < zlen text) by (destruct text; [congruence|unfold zlen; cbn [length]; lia]).
  unfold interactive_avg in E. cbv zeta in E. destruct (to_email_client H _ text) as [b| | |] eqn:EI; try discriminate E.
  cbn [bind] in E. injection E as E <-. rewrite E in EI.
  assert (AV : avg_query q) by (subst q; destruct ending; repeat split).
  assert (TL : text_long_enough q text).
  { subst q. unfold text_long_enough. destruct ending; cbn [q_from_start q_from_end]; [rewrite Z.ltb_irrefl; lia|].
    destruct (Z.ltb_spec 0 (zlen text)); lia. }
  assert (EB : email_id_bytes q = zlen text).
  { subst q. unfold email_id_bytes. destruct ending; cbn [q_from_start q_from_end]; [rewrite Z.ltb_irrefl|]; destruct (Z.ltb_spec 0 (zlen text)); lia. }
  assert (HF' : email_id_bytes q <= 32 \/ Forall (fun ki => ascii (ki_email ki)) db) by (rewrite EB; exact HF).
  assert (CH : filter (avg_selects H q text year) db = chosen).
  { unfold chosen. apply filter_ext. intros ki. unfold avg_selects. f_equal. unfold email_matches. subst q. destruct ending; cbn [q_from_start q_from_end].
    - rewrite Z.ltb_irrefl. destruct (Z.ltb_spec 0 (zlen text)); [|lia]. apply is_suffix_all.
    - destruct (Z.ltb_spec 0 (zlen text)); [|lia]. apply is_prefix_all. }
  unfold execute_stats. destruct (C61_root_not_compared_refuted i0 i1 AG) as (_ & _ & G & _). rewrite G. cbn [bind]. change (zlen [i0; i1]) with 2.
  pose proof (exchange_avg enc H 5 alphas r serve c0 c1 (fun _ => year) (fun _ => year) fresh0 fresh1 db arrive q text b year
                He HH Hr ltac:(rewrite HL; reflexivity) ltac:(lia) Ha AV TL BT HD HF' (fun _ => eq_refl) (fun _ => eq_refl) HY S0 S1 SO EI UR) as X.
  cbv zeta in X. unfold count_matching in X. rewrite CH in X. rewrite X.
  assert (P : 0 <= zsum (ages year chosen)).
  { unfold chosen. clear. induction db as [|ki db IH]; cbn [filter]; [cbn; lia|].
    destruct (_ && _) eqn:E; [|exact IH]. cbn [ages map zsum]. apply andb_true_iff in E as [_ E]. apply Z.leb_le in E. unfold ages in IH. lia. }
  rewrite (Z.mod_small (zlen chosen)) by lia. rewrite (Z.mod_small (zsum (ages year chosen))) by lia.
  destruct (Z.eqb_spec (zlen chosen) 0); [lia|reflexivity].
Qed.
Print Assumptions C86_interactive_average.

(** The year typed in the interactive front end becomes the creation request for that year; anything else is refused. *)
Theorem C86_interactive_year :
  forall H d v, decimal_of d v -> 0 <= v < 2 ^ 63 ->
  interactive_year d = bind (request_input H (ByCreation v)) (fun inp => Ok (request_info (ByCreation v), inp)).
Proof.
  intros H d v D B. unfold interactive_year. rewrite (atoi_decimal d v D B). destruct (Z.ltb_spec v 0); [lia|]. reflexivity.
Qed.
Print Assumptions C86_interactive_year.

(** Refuted: the prompt announces "created before year y", but a key created in an earlier year is counted only if its creation time
    is midnight, 30 November of the year before y, held in UTC. *)
Theorem C86_before_year_refuted :
  forall H y ki, time_year (ki_time ki) < y ->
  t_sec (ki_time ki) <> 86400 * (days_before_year y - 32) \/ t_nsec (ki_time ki) <> 0 \/ t_zone (ki_time ki) <> None ->
  selects H (ByCreation y) ki = false.
Proof.
  intros H y ki _ N. cbn [selects]. destruct N as [N|[N|N]].
  - apply Z.eqb_neq in N. rewrite N. reflexivity.
  - apply Z.eqb_neq in N. rewrite N, andb_false_r. reflexivity.
  - destruct (t_zone (ki_time ki)); [apply andb_false_r|congruence].
Qed.
Print Assumptions C86_before_year_refuted.

Example C86_year_example :
  interactive_year (lit "2020") = Ok (mkInfo target_creation 0 0 false false false,
    match to_creation_client (Some 2020) with Ok b => b | _ => [] end) /\
  decimal_of (lit "2020") 2020 /\ interactive_year (lit "-1") = Err "please enter a positive integer" /\
  time_year (ki_time rsa_2018) < 2020 /\ selects toy_hash (ByCreation 2020) rsa_2018 = false /\
  selects toy_hash (ByCreation 2020) (mkKI [] (date_utc 2019 11 30) 1) = true.
Proof.
  split; [vm_compute; reflexivity|]. split; [|vm_compute; repeat split; reflexivity].
  split; [cbn; repeat first [apply Forall_nil|apply Forall_cons; [lia|]]|split; [reflexivity|split; [discriminate|intros E; vm_compute in E; discriminate E]]].
Qed.

Example C86_example :
  execute_stats toy_cipher toy_alphas toy_rand [Some merkle_info; Some merkle_info] (toy_serve 5) [0; 1] (fun l => l)
    (mkInfo target_userid 0 2 true true false) (byte_to_bits (lit "@x")) = Ok 2 /\
  interactive_avg toy_hash true (lit "@x") = Ok (mkInfo target_userid 0 2 true true false, byte_to_bits (lit "@x")) /\
  Forall (fun ki => firstn 16 (toy_hash (ki_email ki)) <> firstn 16 (toy_hash [])) toy_db /\
  cli_query toy_hash (mkF false true (lit "email") 0 2 (lit "@x")) = Panic "query not implemented".
Proof.
  split; [vm_compute; reflexivity|]. split; [reflexivity|]. split; [|reflexivity].
  repeat constructor; vm_compute; discriminate.
Qed.

(** ** C87: client and servers started with different schemes *)

(** An authenticated client never accepts answers of servers that evaluate fewer elements (the classical servers), for COUNT or AVG. *)
Theorem C87_classical_servers_never_accepted :
  forall e alphas a0 a1 v, (length a0 < e)%nat -> reconstruct e alphas [a0; a1] <> Ok v.
Proof. exact short_answer_not_accepted. Qed.
Print Assumptions C87_classical_servers_never_accepted.

(** Refuted: a classical client's query crashes every authenticated server with at least one record; the mismatch is
    not detected before, since the descriptions do not mention the scheme. *)
Theorem C87_classical_client_crashes_servers_refuted :
  forall enc H n sn db now fresh name r k0 k1 fg k,
  db <> [] -> (1 < n)%nat ->
  client_query enc 1 [] r (to_pka_client name) 2 = Ok (k0, k1, fg) -> k = k0 \/ k = k1 ->
  is_panic (answer enc H n sn db (length db) now fresh (Some (request_info (ByAlgo name))) k) = true.
Proof.
  intros enc H n sn db now fresh name r k0 k1 fg k ND N EQ K.
  destruct (query_payload_length enc 1 [] r (to_pka_client name) k0 k1 fg EQ) as [L0 L1]. cbn [length] in L0, L1.
  apply (algo_short_payload enc H n sn db now fresh name k ND). destruct K as [->| ->]; lia.
Qed.
Print Assumptions C87_classical_client_crashes_servers_refuted.

Example C87_example :
  is_panic (cli_complex toy_cipher toy_hash 5 toy_alphas toy_rand (toy_serve 1) [0; 1] (fun l => l) email_flags) = true /\
  cli_complex toy_cipher toy_hash 1 [] toy_rand (toy_serve 1) [0; 1] (fun l => l) email_flags = Ok 2 /\
  match client_query toy_cipher 1 [] toy_rand (to_pka_client "RSA") 2 with
  | Ok (k0, _, _) => is_panic (answer toy_cipher toy_hash 5 0 toy_db 3 (fun _ => 2021) (fun _ _ => 0) (Some (request_info (ByAlgo "RSA"))) k0) = true
  | _ => False
  end.
Proof. split; [vm_compute; reflexivity|]. split; vm_compute; reflexivity. Qed.
