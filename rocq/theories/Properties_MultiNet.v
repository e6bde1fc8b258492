(** Property C127: runs of the multi-server benchmark for predicate queries. Vocabulary in MultiNetSpec.v, GobSpec.v and MultiSpec.v. *)
From Coq Require Import String ZArith List Bool Lia Permutation.
From Verif Require Import GoBase BaseFacts FieldModel FSSModel FSSProofs EncodingModel EncodingProofs MerkleModel MerkleSpec PredicateModel PredicateSpec
  PointModel PrgModel LWEModel DirectoryModel FrontendModel FrontendSpec KeyPageModel MultiModel MultiSpec MultiProofs MultiProofs2 MultiProofs3 BenchModel ChannelModel
  WireModel WireSpec WireProofs GobModel GobSpec GobProofs GobProofs2 MultiNetModel MultiNetSpec MultiNetProofs
  ToyInstances ToyPoint Properties_Predicate Properties_Frontend Properties_Multi Properties_Wire Properties_KeyPage Properties_Gob.
Import ListNotations.
Open Scope Z_scope.
Open Scope go_scope.

(** Two servers, started with the numbers 0 and 1 and the same scheme, and a client with that scheme and their addresses: every repetition
    ends, and reports 304 bytes for every byte of the text it searches for, and a number of bytes that depends on the numbering of the types
    in the client only, give or take 68. The result it drops is the number of the random addresses the servers hold that start with the
    text, or, when the servers were visited in the other order, its negation. *)
Theorem C127_benchmark_run :
  forall g, exists overhead, forall E D g0 g1 enc H ks0 ks1 zone dr es addrs listen0 listen1 f0 f1 s0 s1 scheme values n draw rounds reps now0 now1 fresh0 fresh1 serve described keys,
  gzip_ok E -> utf8_ok E -> speaks g g -> speaks g g0 -> speaks g g1 -> cipher_ok enc -> hash_ok H -> zone_ok zone -> (forall i, drawn (dr i)) ->
  s_scheme f0 = scheme -> s_scheme f1 = scheme -> (scheme = "fss-classic"%string /\ values = 1%nat \/ scheme = "fss-auth"%string /\ values = 5%nat) ->
  load_config es = Ok addrs ->
  multi_server_start keys H ks0 zone dr (Ok 0) (Ok es) listen0 f0 = Ok s0 ->
  multi_server_start keys H ks1 zone dr (Ok 1) (Ok es) listen1 f1 = Ok s1 -> fst s0 <> fst s1 ->
  serve (fst s0) = over_network E (multi_answer g0 D enc H now0 fresh0 (snd s0)) ->
  serve (fst s1) = over_network E (multi_answer g1 D enc H now1 fresh1 (snd s1)) ->
  (forall l, Permutation l (described l)) ->
  0 <= keys -> 0 < n <= 1000000 -> (forall i, 0 <= draw i < 36) -> (forall j, fair_round values [fst s0; fst s1] (rounds j)) ->
  (forall db text j, create_random_keys_db zone dr keys = Ok db -> ranstring draw n = Ok text ->
     let q := mkInfo target_userid n 0 false false false in
     unresampled enc H values (ro_alphas (rounds j)) (ro_rand (rounds j)) 0 1 now0 now1 fresh0 fresh1 db q (byte_to_bits text) /\
     unresampled enc H values (ro_alphas (rounds j)) (ro_rand (rounds j)) 1 0 now1 now0 fresh1 fresh0 db q (byte_to_bits text)) ->
  exists db text results, create_random_keys_db zone dr keys = Ok db /\ zlen db = keys /\ ranstring draw n = Ok text /\ zlen text = n /\
    multi_predicate_run g enc scheme addrs 2 (described (map (fun s => remote_description E (multi_info (snd s))) [s0; s1])) serve n draw rounds reps = Ok results /\
    zlen results = Z.max 0 reps /\
    let count := count_matching (fun ki => is_prefix text (ki_email ki)) db in
    Forall (fun r => 304 * n + overhead <= fst r <= 304 * n + overhead + 68 /\ (snd r = count mod ModP \/ snd r = (- count) mod ModP)) results.
Proof.
  intros g. exists (2 * fixed_size g + 64).
  intros E D g0 g1 enc H ks0 ks1 zone dr es addrs listen0 listen1 f0 f1 s0 s1 scheme values n draw rounds reps now0 now1 fresh0 fresh1 serve described keys
    GZ U SP SP0 SP1 HC HH ZO DR F0 F1 SC LC S0 S1 NA E0 E1 PD KN N DT FR UN.
  destruct (random_keys_ok zone dr keys ZO DR KN) as (db & EDB & LDB & FDB).
  assert (PV : predicate_values scheme = Some values) by (destruct SC as [(-> & ->)|(-> & ->)]; reflexivity).
  assert (LV : (1 <= values <= 5)%nat) by (destruct SC as [(_ & ->)|(_ & ->)]; lia).
  assert (ST : forall ks sid listen f s, s_scheme f = scheme -> 0 <= sid < 256 -> multi_server_start keys H ks zone dr (Ok sid) (Ok es) listen f = Ok s ->
    go_index addrs sid = Ok (fst s) /\ snd s = MultiPredicate values sid db).
  { intros ks sid listen f s EF BS X. unfold multi_server_start in X. cbn [or_fatal bind] in X. rewrite LC in X. cbn [or_fatal bind] in X.
    destruct (go_index addrs sid) as [a| | |]; try discriminate. cbn [bind] in X. destruct (server_peer sid); try discriminate. cbn [bind] in X.
    destruct (listen a); try discriminate. cbn [or_fatal bind] in X. unfold multi_service_of in X. destruct (multi_rows f); try discriminate. cbn [bind] in X.
    rewrite EF, PV, EDB in X. cbn [or_fatal bind] in X. rewrite Z.mod_small in X by lia. assert (s = (a, MultiPredicate values sid db)) as -> by congruence. auto. }
  destruct (ST ks0 0 listen0 f0 s0 F0 ltac:(lia) S0) as (A0 & V0). destruct (ST ks1 1 listen1 f1 s1 F1 ltac:(lia) S1) as (A1 & V1). clear ST.
  destruct (ranstring_ok draw n DT ltac:(lia)) as (text & ET & LT & _).
  assert (EA : exists rest, addrs = fst s0 :: fst s1 :: rest).
  { destruct addrs as [|a0 [|a1 rest]]; [discriminate A0|discriminate A1|]. exists rest. change (Ok a0 = Ok (fst s0)) in A0. change (Ok a1 = Ok (fst s1)) in A1. congruence. }
  destruct EA as (rest & EA).
  assert (EC : multi_connect addrs 2 = Ok [fst s0; fst s1]).
  { unfold multi_connect. rewrite EA. change (fst s0 :: fst s1 :: rest) with ([fst s0; fst s1] ++ rest). rewrite go_slice_prefix by reflexivity. cbn [bind].
    rewrite connections_nodup; [reflexivity|]. repeat constructor; cbn [In]; intuition congruence. }
  assert (EI : forall (s : list Z * multi_service) sn, snd s = MultiPredicate values sn db -> remote_description E (multi_info (snd s)) = Some (mkDI 0 (u32 (zlen db)) 0 [] [] 0)).
  { intros s sn Es. rewrite Es. cbn [multi_info]. apply description_ok; auto. unfold sendable. cbn [di_rows di_cols di_bs di_plen di_type di_root].
    assert (0 <= u32 (zlen db) < 2 ^ 32) by (unfold u32, w32; apply Z.mod_pos_bound; lia). conj_split; try lia. { apply U. constructor. } unfold zlen. cbn [length]. lia. }
  assert (AG : multi_agree (described (map (fun s => remote_description E (multi_info (snd s))) [s0; s1])) = Ok (mkDI 0 (u32 (zlen db)) 0 [] [] 0)).
  { cbn [map]. rewrite (EI s0 0 V0), (EI s1 1 V1). pose proof (PD [Some (mkDI 0 (u32 (zlen db)) 0 [] [] 0); Some (mkDI 0 (u32 (zlen db)) 0 [] [] 0)]) as P.
    generalize dependent (described [Some (mkDI 0 (u32 (zlen db)) 0 [] [] 0); Some (mkDI 0 (u32 (zlen db)) 0 [] [] 0)]). intros l P.
    assert (l = [Some (mkDI 0 (u32 (zlen db)) 0 [] [] 0); Some (mkDI 0 (u32 (zlen db)) 0 [] [] 0)]) as -> by (apply perm_two in P; destruct P; assumption).
    unfold multi_agree. cbn [collect bind forallb]. unfold same_shape. rewrite !Z.eqb_refl. reflexivity. }
  set (serve' := fun a qk => if addr_eq_dec a (fst s0) then to_option (answer_bytes enc H values 0 db (length db) now0 fresh0 (Some (fst qk)) (snd qk))
                             else to_option (answer_bytes enc H values 1 db (length db) now1 fresh1 (Some (fst qk)) (snd qk))).
  assert (H0 : honest enc H values db serve' (fst s0) 0 now0 fresh0). { intros q k. unfold serve'. destruct (addr_eq_dec (fst s0) (fst s0)) as [_|X]; [reflexivity|congruence]. }
  assert (H1 : honest enc H values db serve' (fst s1) 1 now1 fresh1). { intros q k. unfold serve'. destruct (addr_eq_dec (fst s1) (fst s0)) as [X|_]; [congruence|reflexivity]. }
  exists db, text.
  assert (RD : forall j, exists r, complex_round g enc values serve n text (rounds j) = Ok r /\ 304 * n + (2 * fixed_size g + 64) <= fst r <= 304 * n + (2 * fixed_size g + 64) + 68 /\
    (snd r = count_matching (fun ki => is_prefix text (ki_email ki)) db mod ModP \/ snd r = (- count_matching (fun ki => is_prefix text (ki_email ki)) db) mod ModP)).
  { intros j. destruct (FR j) as (RK & LA & RA & PO & SO). destruct (UN db text j EDB ET) as (U0 & U1).
    destruct (C91_benchmark_completes (list Z) enc H values (ro_alphas (rounds j)) (ro_rand (rounds j)) serve' (fst s0) (fst s1) now0 now1 fresh0 fresh1 (ro_order (rounds j)) (ro_arrive (rounds j)) n draw db)
      as (text' & ET' & _ & X); auto; try lia. assert (text' = text) by congruence. subst text'.
    destruct (X U0 U1) as (c & EXC & CC). clear X.
    assert (LO : zlen (ro_order (rounds j)) = 2). { unfold zlen. rewrite <- (Permutation_length PO). reflexivity. }
    unfold multi_complex in EXC. rewrite ET in EXC. cbn [bind] in EXC. rewrite LO in EXC.
    destruct (exchange enc values (ro_alphas (rounds j)) (ro_rand (rounds j)) serve' (ro_order (rounds j)) (ro_arrive (rounds j)) 2 (mkInfo target_userid n 0 false false false) (byte_to_bits text))
      as [c'| | |] eqn:EX; try discriminate. assert (c' = c) by congruence. subst c'.
    destruct (round_ok g enc serve serve' n text (rounds j) c values HC RK ltac:(unfold zlen; lia) LV SP N LT LO) as (bw & ER & BW).
    - intros c0 k b IC FK EB. assert (FI : info_fits (text_info n)) by (unfold info_fits, text_info; cbn [fst snd q_target q_from_start q_from_end]; unfold target_userid, zlen; cbn [length]; lia).
      assert (NS : forall g' sn now fresh, speaks g g' -> to_option (over_network E (multi_answer g' D enc H now fresh (MultiPredicate values sn db)) b) =
        to_option (answer_bytes enc H values sn db (length db) now fresh (Some (fst (text_info n))) k)).
      { intros g' sn now fresh SG.
        refine (network_same E g g' (fun x => answer_bytes enc H values sn db (length db) now fresh (option_map fst (fst x)) (snd x)) (fst (text_info n)) k b GZ (proj2 SG) FI FK _ EB).
        intros x a HX. eapply answer_bytes_small; [|exact HX]. lia. }
      unfold serve'. cbn [fst snd]. apply (Permutation_in c0 (Permutation_sym PO)) in IC. destruct IC as [<-|[<-|[]]].
      + rewrite E0, V0. destruct (addr_eq_dec (fst s0) (fst s0)) as [_|X]; [apply NS; exact SP0|congruence].
      + rewrite E1, V1. destruct (addr_eq_dec (fst s1) (fst s0)) as [X|_]; [congruence|apply NS; exact SP1].
    - exact EX.
    - exists (bw, c). cbn [fst snd]. split; [exact ER|]. split; [lia|]. exact CC. }
  unfold multi_predicate_run. rewrite EC, AG, PV, ET. cbn [bind].
  assert (MM : forall l, exists results, mapM (fun j => complex_round g enc values serve n text (rounds j)) l = Ok results /\ length results = length l /\
    Forall (fun r => 304 * n + (2 * fixed_size g + 64) <= fst r <= 304 * n + (2 * fixed_size g + 64) + 68 /\
      (snd r = count_matching (fun ki => is_prefix text (ki_email ki)) db mod ModP \/ snd r = (- count_matching (fun ki => is_prefix text (ki_email ki)) db) mod ModP)) results).
  { induction l as [|j l (results & EL & LL & FL)]; [exists []; repeat split; constructor|]. destruct (RD j) as (r & ER & PR). exists (r :: results). cbn [mapM]. rewrite ER, EL. cbn [bind length].
    split; [reflexivity|]. split; [lia|]. constructor; auto. }
  destruct (MM (range (Z.to_nat reps))) as (results & EL & LL & FL). exists results.
  split; [exact EDB|]. split; [exact LDB|]. split; [reflexivity|]. split; [exact LT|]. split; [exact EL|]. split; [|exact FL].
  unfold zlen. rewrite LL. unfold range. rewrite seq_length. lia.
Qed.
Print Assumptions C127_benchmark_run.

(** A server whose number is in its file and in the configuration, and whose flags give elements and blocks a size, starts: it listens at
    the address of its number, holds a hundred thousand keys and describes itself as one row of as many columns. *)
Theorem C127_server_starts :
  forall H ks zone dr es addrs listen f sid values addr, zone_ok zone -> (forall i, drawn (dr i)) -> load_config es = Ok addrs ->
  0 <= sid < 4 -> nth_error addrs (Z.to_nat sid) = Some addr -> listen addr = Ok tt -> s_elem f * s_block f <> 0 ->
  (s_scheme f = "fss-classic"%string /\ values = 1%nat \/ s_scheme f = "fss-auth"%string /\ values = 5%nat) ->
  exists db, create_random_keys_db zone dr 100000 = Ok db /\ zlen db = 100000 /\
    multi_server_start num_identifiers H ks zone dr (Ok sid) (Ok es) listen f = Ok (addr, MultiPredicate values sid db) /\
    multi_info (MultiPredicate values sid db) = mkDI 0 100000 0 [] [] 0.
Proof.
  intros H ks zone dr es addrs listen f sid values addr ZO DR LC SD EA EL NB SC.
  destruct (random_keys_ok zone dr 100000 ZO DR ltac:(lia)) as (db & EDB & LDB & _). exists db. split; [exact EDB|]. split; [exact LDB|].
  split; [|cbn [multi_info]; rewrite LDB; reflexivity].
  unfold multi_server_start. cbn [or_fatal bind]. rewrite LC. cbn [or_fatal bind]. unfold go_index. destruct (Z.ltb_spec sid 0); [lia|]. rewrite EA. cbn [bind].
  assert (SP : exists p, server_peer sid = Ok p).
  { assert (C : sid = 0 \/ sid = 1 \/ sid = 2 \/ sid = 3) by lia. unfold server_peer. replace server_certificates with (Ok (combine server_public_keys server_secret_keys)) by reflexivity. cbn [bind].
    destruct C as [->|C]; [eexists; reflexivity|]. destruct C as [->|C]; [eexists; reflexivity|]. destruct C as [->|C]; [eexists; reflexivity|]. subst sid. eexists; reflexivity. }
  destruct SP as (pr & ->). cbn [bind]. rewrite EL. cbn [or_fatal bind]. unfold multi_service_of, multi_rows.
  change num_identifiers with 100000. rewrite EDB.
  destruct (Z.eqb_spec (s_elem f * s_block f) 0) as [E|_]; [contradiction|].
  destruct SC as [(-> & ->)|(-> & ->)]; cbn [String.length Nat.ltb Nat.leb]; cbn [bind];
    change (String.substring 0 3 "fss-classic" =? "cmp")%string with false; change (String.substring 0 3 "fss-auth" =? "cmp")%string with false; cbn [bind];
    [change (predicate_values "fss-classic") with (Some 1%nat)|change (predicate_values "fss-auth") with (Some 5%nat)]; cbn [or_fatal bind]; rewrite Z.mod_small by lia; reflexivity.
Qed.
Print Assumptions C127_server_starts.

(** Refuted: a server crashes when its number is not in the configuration, and, although predicate queries have no blocks, when its flags
    give no sizes of blocks. *)
Theorem C127_server_crashes_refuted :
  forall H ks zone dr es addrs listen f sid, load_config es = Ok addrs ->
  (sid < 0 \/ zlen addrs <= sid -> is_panic (multi_server_start num_identifiers H ks zone dr (Ok sid) (Ok es) listen f) = true) /\
  (0 <= sid < zlen addrs -> sid < 4 -> (forall a, listen a = Ok tt) -> s_elem f * s_block f = 0 -> s_scheme f = "fss-classic"%string \/ s_scheme f = "fss-auth"%string ->
   is_panic (multi_server_start num_identifiers H ks zone dr (Ok sid) (Ok es) listen f) = true).
Proof.
  intros H ks zone dr es addrs listen f sid LC. unfold multi_server_start. cbn [or_fatal bind]. rewrite LC. cbn [or_fatal bind]. unfold go_index. split.
  - intros O. destruct (Z.ltb_spec sid 0); [reflexivity|]. rewrite (proj2 (nth_error_None addrs (Z.to_nat sid))); [reflexivity|]. unfold zlen in O. lia.
  - intros SD S4 L NB SC. destruct (Z.ltb_spec sid 0); [lia|]. destruct (nth_error addrs (Z.to_nat sid)) as [addr|] eqn:EA.
    2: { apply nth_error_None in EA. unfold zlen in SD. lia. }
    cbn [bind]. destruct (server_peer sid) as [pr| | |] eqn:SP; try reflexivity.
    3: { exfalso. assert (C : sid = 0 \/ sid = 1 \/ sid = 2 \/ sid = 3) by lia. destruct C as [->|C]; [discriminate SP|]. destruct C as [->|C]; [discriminate SP|]. destruct C as [->|C]; [discriminate SP|]. subst sid. discriminate SP. }
    2: { exfalso. assert (C : sid = 0 \/ sid = 1 \/ sid = 2 \/ sid = 3) by lia. destruct C as [->|C]; [discriminate SP|]. destruct C as [->|C]; [discriminate SP|]. destruct C as [->|C]; [discriminate SP|]. subst sid. discriminate SP. }
    cbn [bind]. rewrite L. cbn [or_fatal bind]. unfold multi_service_of, multi_rows. rewrite NB. destruct SC as [->| ->]; reflexivity.
Qed.
Print Assumptions C127_server_crashes_refuted.

(** With any other number of connections the client stops before the end of its first repetition. *)
Theorem C127_two_servers_only :
  forall g enc scheme addrs numServers rs serve n draw (rounds : nat -> round (list Z)) reps results,
  0 < reps -> zlen (ro_order (rounds 0%nat)) <> 2 ->
  multi_predicate_run g enc scheme addrs numServers rs serve n draw rounds reps <> Ok results.
Proof.
  intros g enc scheme addrs numServers rs serve n draw rounds reps results RP NO X. unfold multi_predicate_run in X.
  destruct (multi_connect addrs numServers); try discriminate. cbn [bind] in X. destruct (multi_agree rs); try discriminate. cbn [bind] in X.
  destruct (predicate_values scheme) as [values|]; try discriminate. destruct (ranstring draw n) as [text| | |]; try discriminate. cbn [bind] in X.
  replace (Z.to_nat reps) with (S (pred (Z.to_nat reps))) in X by lia. unfold range in X. cbn [seq mapM] in X.
  unfold complex_round in X at 1. destruct (encode_client g _) as [b| | |]; try discriminate. cbn [or_fatal bind] in X.
  unfold predicate_query_bytes in X at 1. destruct (decode_client g b) as [q| | |]; try discriminate. cbn [bind] in X.
  unfold client_query in X at 1. destruct (Z.eqb_spec (zlen (ro_order (rounds 0%nat))) 2) as [E|_]; [contradiction|]. discriminate X.
Qed.
Print Assumptions C127_two_servers_only.

(** Servers over two random keys; the odd repetitions visit the servers in the other order. *)
Definition bench_flags (s : string) : sflags := mkSF s 8 800 1 10 2.
Definition bench_start (s : string) (sid : Z) : res (list Z * multi_service) :=
  multi_server_start 2 toy_hash (fun _ => 0) None ex_draws (Ok sid) (Ok page_config) (fun _ => Ok tt) (bench_flags s).
Definition bench_server (s : string) (sid : Z) : list Z * multi_service := match bench_start s sid with Ok x => x | _ => ([], MultiPredicate 0 0 []) end.
Definition bench_serve (s : string) (a : list Z) : list Z -> res (list Z) :=
  let sid := if bytes_equal a (lit "10.0.0.1:50") then 0 else 1 in
  over_network plain_codec (multi_answer (demo_gobs (if sid =? 0 then 66 else 90)) toy_dpf toy_cipher toy_hash (fun _ => 2021) (fun _ _ => 0) (snd (bench_server s sid))).
Definition bench_round (values : nat) (j : nat) : round (list Z) :=
  mkRound (repeat 5 (pred values)) toy_rand (if Nat.even j then [lit "10.0.0.1:50"; lit "10.0.0.2:50"] else [lit "10.0.0.2:50"; lit "10.0.0.1:50"]) (@rev _).
Definition bench_addrs : list (list Z) := [lit "10.0.0.1:50"; lit "10.0.0.2:50"; lit "10.0.0.3:51"].
Definition bench_run (s : string) (values : nat) (n : Z) : res (list (Z * Z)) :=
  multi_predicate_run (demo_gobs 65) toy_cipher s bench_addrs 2
    (rev (map (fun x => remote_description plain_codec (multi_info (snd x))) [bench_server s 0; bench_server s 1])) (bench_serve s) n (fun _ => 1) (bench_round values) 2.
Definition no_resampling (values : nat) (sn0 sn1 n : Z) (text : list Z) : bool :=
  match run toy_cipher toy_hash values (repeat 5 (pred values)) toy_rand sn0 sn1 (fun _ => 2021) (fun _ => 2021) (fun _ _ => 0) (fun _ _ => 0) ex_keys
    (mkInfo target_userid n 0 false false false) (byte_to_bits text) with Ok (_, flag) => negb flag | _ => false end.
Example C127_example :
  load_config page_config = Ok bench_addrs /\ (forall i, drawn (ex_draws i)) /\ zone_ok None /\
  Forall (fun sv => let '(s, values) := sv in
    bench_start s 0 = Ok (lit "10.0.0.1:50", MultiPredicate values 0 ex_keys) /\ bench_start s 1 = Ok (lit "10.0.0.2:50", MultiPredicate values 1 ex_keys) /\
    (forall j, fair_round values [lit "10.0.0.1:50"; lit "10.0.0.2:50"] (bench_round values j)) /\
    ranstring (fun _ => 1) 1 = Ok (lit "b") /\ no_resampling values 0 1 1 (lit "b") = true /\ no_resampling values 1 0 1 (lit "b") = true)
    [("fss-classic"%string, 1%nat); ("fss-auth"%string, 5%nat)] /\
  bench_run "fss-classic" 1 1 = Ok [(416, 1); (416, 2147483646)] /\ bench_run "fss-auth" 5 1 = Ok [(456, 1); (456, 2147483646)] /\
  bench_run "fss-auth" 5 2 = Ok [(762, 0); (762, 0)] /\
  (** A server with a number that the configuration does not have *)
  is_panic (bench_start "fss-auth" 3) = true.
Proof.
  split; [vm_compute; reflexivity|]. split; [exact (proj1 (proj2 C91_example))|]. split; [exact (proj1 C91_example)|].
  assert (FR : forall values, (1 <= values)%nat -> forall j, fair_round values [lit "10.0.0.1:50"; lit "10.0.0.2:50"] (bench_round values j)).
  { intros values LV j. unfold fair_round, bench_round. cbn [ro_rand ro_alphas ro_order ro_arrive]. split; [exact toy_rand_ok|]. split; [rewrite repeat_length; lia|].
    split. { apply Forall_forall. intros x I. apply repeat_spec in I. subst x. unfold reduced, ModP. lia. }
    split; [destruct (Nat.even j); [apply Permutation_refl|apply perm_swap]|]. intros l. apply Permutation_rev. }
  split. { apply Forall_cons; [|apply Forall_cons; [|apply Forall_nil]]; (split; [vm_compute; reflexivity|]; split; [vm_compute; reflexivity|]; split; [apply FR; lia|]; split; [vm_compute; reflexivity|]; split; vm_compute; reflexivity). }
  split; [vm_compute; reflexivity|]. split; [vm_compute; reflexivity|]. split; vm_compute; reflexivity.
Qed.
