(** C116-C117: connections between clients and servers. *)
From Coq Require Import String ZArith List Bool Lia Arith ZifyNat ZifyBool.
From Verif Require Import GoBase BaseFacts FieldModel FSSModel FSSProofs EncodingModel EncodingProofs MerkleModel MerkleSpec PointModel PointSpec PointProofs
  PointProofs2 PointProofs3 DirectoryModel DirectorySpec DirectoryProofs FrontendModel KeyPageModel KeyPageSpec KeyPageProofs SessionModel SessionSpec SessionProofs2
  ChannelModel ChannelSpec ChannelProofs ToyInstances ToyPoint ToyDirectory Properties_FSS Properties_KeyPage Properties_Session.
Import ListNotations.
Open Scope Z_scope.
Open Scope go_scope.

(** ** C116: who a client talks to *)

(** While the certificates are valid every client connects to servers started with numbers 0 to 4, whatever server runs at
    which address: the front ends to all the servers of their two configurations, ... *)
Theorem C116_front_end_connects :
  forall net point complex file es1 es2 ps cs, point <> [] -> complex <> [] ->
  file point = Ok es1 -> load_config es1 = Ok ps -> file complex = Ok es2 -> load_config es2 = Ok cs ->
  (forall a, In a (ps ++ cs) -> exists sid, runs_at net sid a) ->
  front_start false (startup_on net point complex file) = Ok (ps, cs).
Proof.
  intros net point complex file es1 es2 ps cs N1 N2 F1 L1 F2 L2 R.
  eapply C111_configured; try exact F1; try exact F2; try exact L1; try exact L2; auto;
    unfold reachable; apply Forall_forall; intros a I; destruct (R a) as (sid & S); try (apply in_or_app; auto); exact (runs_dial net sid a S).
Qed.
Print Assumptions C116_front_end_connects.

(** ... and the command-line client and the benchmark client to those they were asked for. *)
Theorem C116_clients_connect :
  forall net addrs, NoDup addrs -> 
  (forall a, In a addrs -> exists sid, runs_at net sid a) ->
  cli_connect net addrs = Ok addrs /\
  forall n, 0 <= n <= zlen addrs -> sim_connect net addrs n = Ok (firstn (Z.to_nat n) addrs).
Proof.
  intros net addrs ND R. assert (F : Forall (fun a => dial creds net a = Ok tt) addrs).
  { apply Forall_forall. intros a I. destruct (R a I) as (sid & S). exact (runs_dial net sid a S). }
  split.
  - unfold cli_connect, load_servers_certificates. cbn [wrap bind]. apply (connect_each_ok _ addrs []); auto.
  - intros n Hn. unfold sim_connect, load_servers_certificates. cbn [wrap bind]. rewrite go_slice_ok by lia. cbn [bind].
    rewrite Z.sub_0_r. change (skipn (Z.to_nat 0) addrs) with addrs.
    apply (connect_each_ok _ (firstn (Z.to_nat n) addrs) []).
    + rewrite <- (firstn_skipn (Z.to_nat n) addrs) in F. apply Forall_app in F. tauto.
    + cbn [app]. rewrite <- (firstn_skipn (Z.to_nat n) addrs) in ND. clear - ND. remember (firstn (Z.to_nat n) addrs) as l. clear Heql.
      induction l as [|a l IH]; [constructor|]. inversion ND; subst. constructor; auto. intros I. apply H1. apply in_or_app. auto.
Qed.
Print Assumptions C116_clients_connect.

(** Conversely, a client is only ever connected to somebody who holds the private key of one of the five certificates and shows
    that certificate while it is valid. *)
Theorem C116_connected_to_key_holders :
  forall net a, 
  (exists static point complex file ps cs, front_start static (startup_on net point complex file) = Ok (ps, cs) /\ In a (ps ++ cs)) \/
  (exists addrs l, cli_connect net addrs = Ok l /\ In a (addrs ++ l)) \/
  (exists addrs n l, sim_connect net addrs n = Ok l /\ In a l) ->
  answers_at net a (fun t p => exists k, 0 <= k < 5 /\ p_holds p k = true /\
    nth_error server_public_keys (Z.to_nat k) = Some (p_cert p) /\ c_from (p_cert p) <= t <= c_until (p_cert p)).
Proof.
  intros net a C. assert (E : dial creds net a = Ok tt).
  { destruct C as [(static & point & complex & file & ps & cs & E & I)|[(addrs & l & E & I)|(addrs & n & l & E & I)]].
    - apply front_inv in E as (_ & _ & _ & R1 & R2). unfold reachable in R1, R2. rewrite Forall_forall in R1, R2.
      apply in_app_or in I as [I|I]; [exact (R1 a I)|exact (R2 a I)].
    - unfold cli_connect, load_servers_certificates in E. cbn [wrap bind] in E. apply connect_each_inv in E as (F & M & _). rewrite Forall_forall in F. apply F.
      apply in_app_or in I as [I|I]; auto. apply M in I as [[]|I]; auto.
    - unfold sim_connect, load_servers_certificates in E. cbn [wrap bind] in E. destruct (go_slice addrs 0 n) as [some| | |]; cbn [bind] in E; try discriminate.
      apply connect_each_inv in E as (F & M & _). rewrite Forall_forall in F. apply F. apply M in I as [[]|I]; auto. }
  apply dial_inv in E as (t & p & I & A). exists t, p. split; auto. apply accepts_inv in A as (IC & T & _ & K).
  destruct (certificate_facts _ IC) as (R & _ & _ & _ & EN). exists (c_key (p_cert p)). auto.
Qed.
Print Assumptions C116_connected_to_key_holders.

(** An address of the configuration at which only strangers answer, or nobody, keeps a client from starting. *)
Theorem C116_strangers_rejected :
  forall net a, only_at net a (fun _ p => stranger p) ->
  (forall static point complex file p c, 
     load_manager static "VPIR_CONFIG_POINT" builtin_point point file = Ok p ->
     load_manager static "VPIR_CONFIG_COMPLEX" builtin_complex complex file = Ok c -> In a (p ++ c) ->
     exists m, front_start static (startup_on net point complex file) = Fatal m) /\
  (forall addrs, In a addrs -> exists m, cli_connect net addrs = Err m).
Proof.
  intros net a O. assert (E : dial creds net a = Err "context deadline exceeded").
  { apply dial_fails. intros t p I. destruct (accepts creds t p) eqn:A; auto. apply accepts_inv in A as (IC & _ & _ & K).
    destruct (certificate_facts _ IC) as (R & _). rewrite (O t p I _ R) in K. discriminate. }
  assert (X : forall l, In a l -> Exists (fun a => dial creds net a <> Ok tt) l).
  { intros l I. apply Exists_exists. exists a. split; auto. rewrite E. discriminate. }
  split.
  - intros static point complex file p c EP EC I. unfold front_start. cbn [st_point st_complex st_file startup_on]. rewrite EP, EC. cbn [or_die bind].
    change (st_certs _) with (@Ok unit tt). change (st_dial _) with (fun a => dial creds net a).
    destruct (connect_cases net p) as [E1|(m1 & E1)]; rewrite E1; cbn [or_die bind]; [|eexists; reflexivity].
    apply in_app_or in I as [I|I].
    + destruct (connect_fails net p (X p I)) as (m & E2). rewrite E1 in E2. discriminate.
    + destruct (connect_fails net c (X c I)) as (m & E2). rewrite E2. cbn [or_die bind]. eexists. reflexivity.
  - intros addrs I. unfold cli_connect, load_servers_certificates. cbn [wrap bind]. apply connect_each_fails; auto. intros b. apply dial_cases.
Qed.
Print Assumptions C116_strangers_rejected.

(** Refuted: which server answers at an address makes no difference. One server answering at all the addresses is accepted as
    all of them, ... *)
Theorem C116_one_server_for_all_refuted :
  forall net sid point complex file es1 es2 ps cs, 0 <= sid < 5 -> point <> [] -> complex <> [] ->
  file point = Ok es1 -> load_config es1 = Ok ps -> file complex = Ok es2 -> load_config es2 = Ok cs ->
  (forall a, In a (ps ++ cs) -> exists t p, In (t, Some p) (net a) /\ all_valid t /\ server_peer sid = Ok p) ->
  front_start false (startup_on net point complex file) = Ok (ps, cs).
Proof.
  intros net sid point complex file es1 es2 ps cs R N1 N2 F1 L1 F2 L2 A.
  eapply C116_front_end_connects; eauto. intros a I. exists sid. exact (A a I).
Qed.
Print Assumptions C116_one_server_for_all_refuted.

(** ... and so is anybody who has read the source, which contains the private keys: the released front ends start with all
    their connections in such hands, and so do the clients of any configuration. *)
Theorem C116_published_keys_refuted :
  forall net, 
  (forall a, answers_at net a (fun t p => all_valid t /\ has_source p /\ In (p_cert p) server_public_keys)) ->
  (forall point complex file, front_start static_config (startup_on net point complex file) = Ok (builtin_point, builtin_complex)) /\
  (forall addrs, NoDup addrs -> cli_connect net addrs = Ok addrs).
Proof.
  intros net A. assert (E : forall a, dial creds net a = Ok tt).
  { intros a. destruct (A a) as (t & p & I & V & S & IC). apply dial_ok. exists t, p. split; auto.
    destruct (certificate_facts _ IC) as (R & _ & _ & N & EN).
    assert (T : c_from (p_cert p) <= t <= c_until (p_cert p)).
    { unfold all_valid in V. clear - V IC. cbn [server_public_keys In] in IC.
      destruct IC as [<-|[<-|[<-|[<-|[<-|[]]]]]]; cbn [c_from c_until]; lia. }
    apply accepts_ok; auto. apply S. unfold server_secret_keys. cbn [In]. lia. }
  split.
  - intros point complex file. apply front_ok; try apply static_manager; try reflexivity; unfold reachable; apply Forall_forall; intros a _; apply E.
  - intros addrs ND. unfold cli_connect, load_servers_certificates. cbn [wrap bind]. apply (connect_each_ok _ addrs []); auto.
    apply Forall_forall. intros a _. apply E.
Qed.
Print Assumptions C116_published_keys_refuted.

(** Refuted: after 12 January 2027 no client connects to anything, whoever answers. *)
Theorem C116_expired_refuted :
  forall net, (forall a, only_at net a (fun t _ => last_valid < t)) ->
  (forall static point complex file ps cs, front_start static (startup_on net point complex file) = Ok (ps, cs) -> ps = [] /\ cs = []) /\
  (forall point complex file, exists m, front_start static_config (startup_on net point complex file) = Fatal m) /\
  (forall addrs, addrs <> [] -> exists m, cli_connect net addrs = Err m).
Proof.
  intros net O. assert (E : forall a, dial creds net a = Err "context deadline exceeded").
  { intros a. apply dial_fails. intros t p I. destruct (accepts creds t p) eqn:A; auto. apply accepts_inv in A as (IC & T & _ & K).
    destruct (certificate_facts _ IC) as (_ & _ & U & _). pose proof (O a t p I) as L. cbn beta in L. lia. }
  split; [|split].
  - intros static point complex file ps cs X. apply front_inv in X as (_ & _ & _ & R1 & R2). unfold reachable in R1, R2.
    change (st_dial _) with (fun a => dial creds net a) in R1, R2.
    split; [destruct ps as [|a l]; auto; inversion R1 as [|? ? Y]|destruct cs as [|a l]; auto; inversion R2 as [|? ? Y]]; subst; rewrite E in Y; discriminate.
  - intros point complex file. unfold front_start. rewrite !static_manager. cbn [or_die bind].
    change (st_certs _) with (@Ok unit tt). change (st_dial _) with (fun a => dial creds net a).
    destruct (connect_fails net builtin_point) as (m & X).
    { constructor. rewrite E. discriminate. }
    rewrite X. cbn [or_die bind]. eexists. reflexivity.
  - intros addrs N. unfold cli_connect, load_servers_certificates. cbn [wrap bind]. apply connect_each_fails. { intros b. apply dial_cases. }
    destruct addrs as [|a l]; [contradiction|]. constructor. rewrite E. discriminate.
Qed.
Print Assumptions C116_expired_refuted.

(** ** C117: what somebody at the other end of the connections learns *)

(** What the servers of a lookup are given to read are the queries of [lookup_sends]: the page depends on the servers through
    their answers to these only, and each server can refuse its own. *)
Theorem C117_delivered :
  forall G H B D infos rnd servers arrive form email qs, posted form email -> email <> [] ->
  lookup_sends B D infos rnd (zlen servers) email = Ok qs -> length qs = length servers ->
  (forall others, length others = length servers ->
     (forall m, (m < length servers)%nat -> nth m others (fun _ => Err "") (nth m qs []) = nth m servers (fun _ => Err "") (nth m qs [])) ->
     web_retrieve G H B D infos rnd others arrive (Ok form) = web_retrieve G H B D infos rnd servers arrive (Ok form)) /\
  (forall m x, (m < length servers)%nat -> nth m servers (fun _ => Err "") (nth m qs []) = Err x ->
     web_retrieve G H B D infos rnd servers arrive (Ok form) = Fatal "could not query").
Proof.
  intros G H B D infos rnd servers arrive form email qs P NE E LQ. apply form_get_posted in P.
  apply sends_inv in E as (is & d & h & ix & EI & ED & EH & EQ). split.
  - intros others LO A. unfold web_retrieve. rewrite P. rewrite DirectoryProofs4.bytes_equal_neq by auto. rewrite EI, ED. cbn [bind].
    rewrite (actor_same G H B D (info_of d) rnd servers others arrive email h ix qs); auto. symmetry. apply ask_agree; auto. rewrite LO. exact A.
  - intros m x Hm R. unfold web_retrieve. rewrite P. rewrite DirectoryProofs4.bytes_equal_neq by auto. rewrite EI, ED. cbn [bind].
    unfold actor_get_key. rewrite EH. cbn [bind]. rewrite EQ. cbn [wrap bind]. rewrite (ask_refused servers qs m x); auto.
Qed.
Print Assumptions C117_delivered.

(** Refuted: somebody who is at the other end of all the connections of a lookup reads off the column of the table the bucket
    looked up is in, ... *)
Theorem C117_column_refuted :
  forall B D infos rest rnd n id qs d, hash_ok B -> dpf_ok D -> 1 <= n -> get_db_infos infos = Ok (d :: rest) ->
  0 < di_cols d -> 0 < di_rows d * di_cols d < w32 -> enough_random (di_cols d) n rnd ->
  lookup_sends B D infos rnd n id = Ok qs ->
  selected (di_cols d) (opened D (di_cols d) qs) = [position B (di_rows d * di_cols d) id mod di_cols d].
Proof.
  intros B D infos rest rnd n id qs d HB HD Hn EI Hc Hr HR E.
  apply sends_inv in E as (is' & d' & h & ix & EI' & ED' & EH & EQ). rewrite EI in EI'. injection EI' as <-.
  change (go_index (d :: rest) 0) with (Ok d) in ED'. injection ED' as <-.
  change (i_rows (info_of d)) with (di_rows d) in EH. change (i_cols (info_of d)) with (di_cols d) in EH.
  rewrite hash_to_index_ok in EH by auto. injection EH as <-.
  pose proof (position_range B (di_rows d * di_cols d) id ltac:(lia)) as PR. set (p := position _ _ _) in *.
  unfold pir_query_bytes in EQ. unfold be_u32 in EQ. rewrite be_enc_length in EQ. cbn [Nat.ltb Nat.leb bind] in EQ.
  rewrite firstn_all2 in EQ by (rewrite be_enc_length; lia).
  assert (U : u32 p = p) by (unfold u32; apply Z.mod_small; unfold w32 in *; lia).
  rewrite be_dec_enc in EQ by (rewrite U; unfold w32 in *; lia). rewrite U in EQ.
  assert (H62 : di_cols d < 2 ^ 62).
  { assert (0 < di_rows d) by (clear - Hc Hr; nia). assert (di_cols d <= di_rows d * di_cols d) by (clear - Hc H; nia). unfold w32 in *. lia. }
  exact (selected_one D (info_of d) rnd p n ix qs HD (conj Hc H62) (proj1 PR) Hn HR EQ).
Qed.
Print Assumptions C117_column_refuted.

(** ... and, by describing the table as a single row, which the client believes, the bucket itself; so they recognise the
    person looked up among any people whose buckets differ in a table with as many columns as they like. *)
Theorem C117_person_refuted :
  forall B D lure rnd n id people, hash_ok B -> dpf_ok D -> 1 <= n -> di_rows lure = 1 -> 0 < di_cols lure < w32 ->
  enough_random (di_cols lure) n rnd -> NoDup (map (position B (di_cols lure)) people) -> In id people ->
  exists qs, lookup_sends B D (repeat (Some lure) (Z.to_nat n)) rnd n id = Ok qs /\ suspects B D (di_cols lure) qs people = [id].
Proof.
  intros B D lure rnd n id people HB HD Hn R1 Hc HR ND I. set (N := di_cols lure) in *.
  destruct (first_info_repeat lure (Z.to_nat n) ltac:(lia)) as (rest & EI & _).
  pose proof (position_range B N id ltac:(lia)) as PR.
  assert (EH : hash_to_index B id (i_rows (info_of lure) * i_cols (info_of lure)) = Ok (position B N id)).
  { change (i_rows (info_of lure)) with (di_rows lure). change (i_cols (info_of lure)) with N. rewrite R1, Z.mul_1_l. apply hash_to_index_ok; auto. }
  assert (EQ : exists ix qs, pir_query_bytes D (info_of lure) rnd (be_enc 4 (u32 (position B N id))) n = Ok (ix, qs)).
  { unfold pir_query_bytes, be_u32. rewrite be_enc_length. cbn [Nat.ltb Nat.leb bind]. rewrite firstn_all2 by (rewrite be_enc_length; lia).
    assert (U : u32 (position B N id) = position B N id) by (unfold u32; apply Z.mod_small; unfold w32 in *; lia).
    rewrite be_dec_enc by (rewrite U; unfold w32 in *; lia). rewrite U.
    destruct (Z.eq_dec n 2) as [->|N2].
    - unfold pir_query, invalid_query_inputs_it. destruct (Z.ltb_spec (position B N id) 0); [lia|]. cbn [andb]. unfold vector_to_matrix_indices.
      change (i_cols (info_of lure)) with N. destruct (Z.eqb_spec N 0); [lia|]. cbn [bind]. rewrite Z.rem_mod_nonneg by lia. cbn [Z.eqb Pos.eqb].
      destruct (bits_len_spec N ltac:(unfold w32 in *; lia)) as [L1 L2]. rewrite (Z.mod_small (position B N id) N) by lia. unfold u64, w64.
      rewrite Z.mod_small by (unfold w32 in *; lia).
      destruct (HD (position B N id) (bits_len N) L1 ltac:(lia)) as (k0 & k1 & -> & _). cbn [bind]. eauto.
    - destruct HR as [HR|HR]; [lia|]. rewrite query_ok; eauto; try lia. change (i_cols (info_of lure)) with N. lia. }
  destruct EQ as (ix & qs & EQ). exists qs.
  assert (S : lookup_sends B D (repeat (Some lure) (Z.to_nat n)) rnd n id = Ok qs).
  { unfold lookup_sends. rewrite EI. cbn [bind]. change (go_index (lure :: rest) 0) with (Ok lure). cbn [bind]. cbv zeta. rewrite EH. cbn [bind].
    rewrite EQ. reflexivity. }
  split; auto. unfold suspects.
  assert (SEL := C117_column_refuted B D _ rest rnd n id qs lure HB HD Hn EI (proj1 Hc)).
  rewrite R1, Z.mul_1_l in SEL. specialize (SEL Hc HR S). fold N in SEL. rewrite (Z.mod_small (position B N id)) in SEL by lia. rewrite SEL. cbn [existsb].
  apply NoDup_filter_one.
  - eapply NoDup_map_inv; exact ND.
  - exact I.
  - intros y Iy. rewrite orb_false_r, Z.eqb_eq. split; [|intros ->; reflexivity]. intros EY.
    clear - ND I Iy EY. induction people as [|x l IH]; [destruct I|]. cbn [map] in ND. inversion ND; subst.
    destruct I as [->|I], Iy as [->|Iy]; auto; exfalso; apply H1; [rewrite <- EY|rewrite EY]; apply in_map; auto.
Qed.
Print Assumptions C117_person_refuted.

(** As long as one of three or more connections is out of their reach they learn nothing: whatever they receive on the others,
    each person that can be looked up is looked up with these queries for exactly one value of the randomness. *)
Theorem C117_one_connection_missing :
  forall B D infos rest d n id m vs, hash_ok B -> 3 <= n -> (Z.of_nat m < n) -> get_db_infos infos = Ok (d :: rest) ->
  0 < di_cols d -> 0 < di_rows d * di_cols d < w32 ->
  zlen vs = n - 1 -> Forall (fun v => zlen v = di_cols d / 8 + 1 /\ bytes v) vs ->
  exists! rnd, (enough_random (di_cols d) n rnd /\ bytes rnd) /\
    exists qs, lookup_sends B D infos rnd n id = Ok qs /\ PointSpec.without m qs = vs.
Proof.
  intros B D infos rest d n id m vs HB Hn Hm EI Hc Hr LV FV.
  pose proof (position_range B (di_rows d * di_cols d) id ltac:(lia)) as PR. set (p := position _ _ _) in *.
  assert (U : u32 p = p) by (unfold u32; apply Z.mod_small; unfold w32 in *; lia).
  assert (S : forall rnd, lookup_sends B D infos rnd n id = (q <- wrap "error when executing query: " (pir_query D (info_of d) rnd p n) ;; Ok (snd q))).
  { intros rnd. unfold lookup_sends. rewrite EI. cbn [bind]. change (go_index (d :: rest) 0) with (Ok d). cbn [bind]. cbv zeta.
    change (i_rows (info_of d)) with (di_rows d). change (i_cols (info_of d)) with (di_cols d). rewrite hash_to_index_ok by auto. cbn [bind].
    unfold pir_query_bytes, be_u32. rewrite be_enc_length. cbn [Nat.ltb Nat.leb bind]. rewrite firstn_all2 by (rewrite be_enc_length; lia).
    fold p. rewrite be_dec_enc by (rewrite U; unfold w32 in *; lia). rewrite U. reflexivity. }
  destruct (privacy D (info_of d) n p m vs) as (rnd & ((L & BB) & ix & qs & EQ & EW) & UQ); auto; try lia.
  { eapply Forall_impl; [|exact FV]. cbn beta. intros v [Lv Bv]. split; auto. unfold query_bytes. change (i_cols (info_of d)) with (di_cols d). unfold zlen in Lv. lia. }
  exists rnd. split.
  - split; [split; auto; right; exact L|]. exists qs. rewrite S, EQ. auto.
  - intros rnd' (([X|L'] & B') & qs' & E' & W'); [lia|]. apply UQ. split; auto. rewrite S in E'.
    destruct (pir_query D (info_of d) rnd' p n) as [[ix' q']| | |] eqn:EQ'; cbn [wrap bind snd] in E'; try discriminate. injection E' as ->. eauto.
Qed.
Print Assumptions C117_one_connection_missing.

(** The same holds for the keys of a counting query: somebody who receives both tells for every text whether it is the one
    compared with ([a] is the text in bits; nobody drew a second time, see C14). *)
Theorem C117_predicate_refuted :
  forall enc bl a r, cipher_ok enc -> rand_ok r -> (length a <= 256)%nat -> (1 <= bl)%nat ->
  exists k0 k1 fg, generate_tree_pf enc bl a [1] r = Ok (k0, k1, fg) /\
  forall x fresh0 fresh1, length x = length a ->
  exists o0 f0 o1 f1, evaluate_pf enc bl fresh0 0 k0 x 1 = Ok (o0, f0) /\ evaluate_pf enc bl fresh1 1 k1 x 1 = Ok (o1, f1) /\
    (fg = false -> f0 = false -> f1 = false -> ((nth 0 o0 0 + nth 0 o1 0) mod ModP = 1 <-> x = a)).
Proof.
  intros enc bl a r HE HR HL HB.
  assert (C := fun x f0 f1 L => C14_fss_shares_sum_to_point_function enc bl a [1] r x f0 f1 HE HR L HL ltac:(cbn; lia) ltac:(cbn; lia) ltac:(repeat constructor; unfold ModP; lia)).
  destruct (C a (fun _ => 0) (fun _ => 0) eq_refl) as (k0 & k1 & fg & _ & _ & _ & _ & EG & _).
  exists k0, k1, fg. split; [exact EG|]. intros x fresh0 fresh1 L.
  destruct (C x fresh0 fresh1 L) as (k0' & k1' & fg' & o0 & f0 & o1 & f1 & EG' & E0 & E1 & _ & _ & S). rewrite EG in EG'. injection EG' as <- <- <-.
  exists o0, f0, o1, f1. split; [exact E0|]. split; [exact E1|]. intros F G0 G1. destruct (S F G0 G1) as (_ & _ & V).
  destruct (V 0%nat ltac:(cbn; lia)) as [V1 V2]. cbn [nth] in V1. split; [|intros ->; auto].
  intros X. destruct (list_eq_dec Bool.bool_dec x a) as [|NE]; auto. rewrite (V2 NE) in X. discriminate.
Qed.
Print Assumptions C117_predicate_refuted.

(** ** Examples *)

(** Servers 0 and 3 at two addresses, the second of which is tried too early; a stranger with a certificate of their own and
    one who shows somebody else's; and a reader of the source. *)
Definition wire_peer (sid : Z) : peer := match server_peer sid with Ok p => p | _ => mkPeer (mkCert (-1) 0 0 []) (fun _ => false) end.
Definition wire_noon : Z := 1763294400.
Definition wire_net : network := fun a =>
  if bytes_equal a (lit "k:7") then [(wire_noon, Some (wire_peer 0))]
  else if bytes_equal a (lit "h:8") then [(wire_noon, None); (wire_noon + 3, Some (wire_peer 3))]
  else if bytes_equal a (lit "x:1") then [(wire_noon, Some (mkPeer (mkCert 9 0 1999999999 [lit "127.0.0.1"]) (Z.eqb 9)))]
  else [(wire_noon, Some (mkPeer (mkCert 2 1728729090 1799753490 local_names) (Z.eqb 9)))].
Definition wire_reader : peer := mkPeer (mkCert 2 1728729090 1799753490 local_names) (fun k => existsb (Z.eqb k) server_secret_keys).
Definition wire_files (p : list Z) : res (list entry) :=
  if bytes_equal p (lit "a") then Ok [mkEntry (lit "0") (lit "k") 7; mkEntry (lit "1") (lit "h") 8] else Ok [mkEntry (lit "0") (lit "h") 8].
Example C116_example :
  runs_at wire_net 0 (lit "k:7") /\ runs_at wire_net 3 (lit "h:8") /\
  front_start false (startup_on wire_net (lit "a") (lit "b") wire_files) = Ok ([lit "k:7"; lit "h:8"], [lit "h:8"]) /\
  cli_connect wire_net [lit "k:7"; lit "h:8"] = Ok [lit "k:7"; lit "h:8"] /\
  cli_connect wire_net [lit "k:7"; lit "k:7"] = Ok [lit "k:7"] /\
  sim_connect wire_net [lit "k:7"; lit "x:1"] 1 = Ok [lit "k:7"] /\
  only_at wire_net (lit "x:1") (fun _ p => stranger p) /\ only_at wire_net (lit "y:1") (fun _ p => stranger p) /\
  cli_connect wire_net [lit "k:7"; lit "x:1"] = Err "failed to connect: did not connect to x:1: context deadline exceeded" /\
  cli_connect wire_net [lit "y:1"] = Err "failed to connect: did not connect to y:1: context deadline exceeded" /\
  has_source wire_reader /\ In (p_cert wire_reader) server_public_keys /\
  front_start static_config (startup_on (fun _ => [(wire_noon, Some wire_reader)]) [] [] (fun _ => Err "")) = Ok (builtin_point, builtin_complex) /\
  front_start static_config (startup_on (fun _ => [(last_valid + 1, Some wire_reader)]) [] [] (fun _ => Err "")) =
    Fatal "failed to connect point manager: failed to connect to 128.179.33.63:50050: context deadline exceeded".
Proof.
  assert (V : all_valid wire_noon /\ all_valid (wire_noon + 3)) by (unfold all_valid, wire_noon; lia).
  split. { exists wire_noon, (wire_peer 0). split; [left; reflexivity|]. split; [apply V|reflexivity]. }
  split. { exists (wire_noon + 3), (wire_peer 3). split; [right; left; reflexivity|]. split; [apply V|reflexivity]. }
  split; [vm_compute; reflexivity|]. split; [vm_compute; reflexivity|]. split; [vm_compute; reflexivity|]. split; [vm_compute; reflexivity|].
  assert (ST : forall c, stranger (mkPeer c (Z.eqb 9))) by (intros c k R; cbn [p_holds]; lia).
  split. { intros t p [E|[]]. injection E as <- <-. apply ST. }
  split. { intros t p [E|[]]. injection E as <- <-. apply ST. }
  split; [vm_compute; reflexivity|]. split; [vm_compute; reflexivity|].
  split. { intros k I. cbn [wire_reader p_holds]. apply existsb_exists. exists k. split; auto. apply Z.eqb_refl. }
  split. { cbn. tauto. }
  split; vm_compute; reflexivity.
Qed.

(** A table that three intercepted servers, or two, describe as one row of 1000 columns. *)
Definition wire_lure : db_info := mkDI 1 1000 64 [] [] 0.
Definition wire_people : list (list Z) := [lit "ann@epfl.ch"; lit "bob@mit.edu"; lit "eve@x.org"; lit "dan@y.net"].
Example C117_example :
  hash_ok toy_hash /\ dpf_ok toy_dpf /\ NoDup (map (position toy_hash 1000) wire_people) /\
  match lookup_sends toy_hash toy_dpf [Some wire_lure; Some wire_lure; Some wire_lure] (repeat 77 252) 3 (lit "eve@x.org") with
  | Ok qs => length qs = 3%nat /\ suspects toy_hash toy_dpf 1000 qs wire_people = [lit "eve@x.org"]
  | _ => False
  end /\
  match lookup_sends toy_hash toy_dpf [Some wire_lure; Some wire_lure] [] 2 (lit "dan@y.net") with
  | Ok qs => length qs = 2%nat /\ suspects toy_hash toy_dpf 1000 qs wire_people = [lit "dan@y.net"]
  | _ => False
  end.
Proof.
  split; [exact toy_hash_ok|]. split; [exact toy_dpf_ok|]. split.
  - vm_compute. repeat constructor; cbn [In]; intuition discriminate.
  - split; vm_compute; split; reflexivity.
Qed.
