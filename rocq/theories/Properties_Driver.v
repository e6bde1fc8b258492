(** Property C133: the script of the multi-server benchmarks, from the settings to the figures. Vocabulary in LogSpec.v and FrontendSpec.v. *)
From Coq Require Import String ZArith List Bool Lia Permutation.
From Verif Require Import GoBase BaseFacts EncodingModel PointModel FSSModel PredicateModel MerkleModel MerkleProofs GobModel FrontendModel FrontendSpec FrontendProofs MultiModel WireModel WireSpec WireProofs MultiNetModel
  BenchModel PrgModel LWEModel DirectoryModel KeyPageModel KeyPageProofs ChannelModel LogModel LogSpec LogProofs ResultsModel DriverModel DriverProofs ToyInstances ToyPoint Properties_Multi Properties_Frontend Properties_PointNet Properties_Log Properties_PointLog.
Import ListNotations.
Open Scope Z_scope.
Open Scope go_scope.

(** The programs read from the commands what the script was told to measure: both sides get the name of the run's log file, the scheme, and
    the same size of elements; the servers the size and form of the database; and the client the number of repetitions and of bits. Servers
    and client are told the same number of servers. *)
Theorem C133_flags :
  forall (auth : bool) s key, Forall int [key; se_reps s; se_bits s; se_elem s; se_rows s; se_block s] ->
  let pir := (if auth then "pir-merkle" else "pir-classic")%string in
  let fss := (if auth then "fss-auth" else "fss-classic")%string in
  (server_flags (server_command Point auth s key) = Ok (log_name Point auth key, mkSF pir (se_elem s) key (se_rows s) (se_block s) 2) /\
   client_flags (client_command Point auth s key) = Ok (mkMC (log_name Point auth key) pir (se_reps s) 2 (se_elem s) (se_bits s) (-1))) /\
  (server_flags (server_command PointMulti auth s key) = Ok (log_name PointMulti auth key, mkSF pir (se_elem s) 8589935000 (se_rows s) (se_block s) key) /\
   client_flags (client_command PointMulti auth s key) = Ok (mkMC (log_name PointMulti auth key) pir (se_reps s) key (se_elem s) (se_bits s) (-1))) /\
  (server_flags (server_command Predicate auth s key) = Ok (log_name Predicate auth key, mkSF fss (-1) (-1) (-1) (-1) 2) /\
   client_flags (client_command Predicate auth s key) = Ok (mkMC (log_name Predicate auth key) fss (se_reps s) 2 (-1) (-1) key)).
Proof.
  intros auth s key F pir fss. inversion F as [|? ? F1 G1]; subst. inversion G1 as [|? ? F2 G2]; subst. inversion G2 as [|? ? F3 G3]; subst. inversion G3 as [|? ? F4 G4]; subst.
  inversion G4 as [|? ? F5 G5]; subst. inversion G5 as [|? ? F6 _]; subst. unfold int in *.
  assert (S1 : forall k, k <> Predicate -> text_of (scheme_name k auth) = pir) by (intros [] N; try congruence; unfold pir; destruct auth; reflexivity).
  assert (S2 : text_of (scheme_name Predicate auth) = fss) by (unfold fss; destruct auth; reflexivity).
  unfold server_command, client_command, multi_length. split; [|split]; split.
  - rewrite server_pir_flags; [rewrite S1 by discriminate; reflexivity|apply log_name_word|apply scheme_name_word|]. repeat (apply Forall_cons; [lia|]). apply Forall_nil.
  - rewrite client_pir_flags; auto using log_name_word, scheme_name_word. rewrite S1 by discriminate. reflexivity.
  - rewrite server_pir_flags; [rewrite S1 by discriminate; reflexivity|apply log_name_word|apply scheme_name_word|]. repeat (apply Forall_cons; [lia|]). apply Forall_nil.
  - rewrite client_multi_flags; auto using log_name_word, scheme_name_word. rewrite S1 by discriminate. reflexivity.
  - rewrite server_fss_flags; auto using log_name_word, scheme_name_word. rewrite S2. reflexivity.
  - rewrite client_fss_flags; auto using log_name_word, scheme_name_word. rewrite S2. reflexivity.
Qed.
Print Assumptions C133_flags.

(** No two runs share a log file, whatever their experiment, type and key; and no two machines share a file among the results. *)
Theorem C133_own_files :
  (forall k auth key k' auth' key', int key -> int key' -> log_name k auth key = log_name k' auth' key' -> k = k' /\ auth = auth' /\ key = key') /\
  (forall i j log log', int (Z.of_nat i) -> int (Z.of_nat j) -> saved_server i log = saved_server j log' -> i = j /\ log = log') /\
  (forall i log log', saved_server i log <> saved_client log').
Proof. split; [exact log_inj|]. split; [intros; apply saved_server_inj; assumption|exact saved_apart]. Qed.
Print Assumptions C133_own_files.

(** After the script has run an experiment with n machines, the figure of a run is made from exactly the log files of that run: the one of the
    client, and those of the servers with the numbers 0, 1, ... - whatever was in the directory before, and whatever the other runs wrote.
    In the experiment with several servers, provided these files hold measurements: all others are removed. *)
Theorem C133_plotted :
  forall (text : machine -> list Z -> list Z) n k (auth : bool) key plain authenticated dir, Z.of_nat n <= 2 ^ 63 ->
  In key (if auth then authenticated else plain) ->
  let used := match k with PointMulti => Z.to_nat key | _ => 2%nat end in
  let log := log_name k auth key in
  (used <= n)%nat ->
  (k = PointMulti -> occurs (lit "stats") (text AtClient log) /\ forall i, (i < used)%nat -> occurs (lit "stats") (text (AtServer i) log)) ->
  plot_run (driver text n k plain authenticated dir) k auth key = plotted (text AtClient log) (map (fun i => text (AtServer i) log) (seq 0 used)).
Proof.
  intros text n k auth key plain authenticated dir N I used log L S. unfold plot_run. fold used.
  assert (C : forall m, (k = PointMulti -> occurs (lit "stats") (text m log)) -> k = PointMulti -> contains (lit "stats") (text m log) = true).
  { intros m O K. specialize (O K). destruct (contains (lit "stats") (text m log)) eqn:E; [reflexivity|]. apply contains_spec in E. contradiction. }
  rewrite (proj2 (plotted_names k auth key 0)).
  assert (HC : holds (driver text n k plain authenticated dir) (saved_client log) (text AtClient log)).
  { apply (driver_holds text n k N auth key AtClient plain authenticated dir Logic.I); [|exact I]. apply C. intros K. apply (S K). }
  unfold holds in HC. unfold log in HC at 1. rewrite HC. cbn [bind].
  assert (HS : forall l, (forall i, In i l -> (i < used)%nat) -> mapM (fun i => dict_get text_eq (driver text n k plain authenticated dir) (plot_server i (plot_scheme k auth) key)) l = Ok (map (fun i => text (AtServer i) log) l)).
  { induction l as [|i l IH]; intros B; cbn [mapM map]; [reflexivity|]. rewrite (proj1 (plotted_names k auth key i)).
    assert (BI : (i < used)%nat) by (apply B; left; reflexivity).
    assert (HI : holds (driver text n k plain authenticated dir) (saved_server i log) (text (AtServer i) log)).
    { apply (driver_holds text n k N auth key (AtServer i) plain authenticated dir); [cbn [in_pool]; lia| |exact I]. apply C. intros K. apply (S K). exact BI. }
    unfold holds in HI. unfold log in HI at 1. rewrite HI. cbn [bind]. rewrite IH by (intros; apply B; right; assumption). reflexivity. }
  rewrite HS; [reflexivity|]. intros i J. apply in_seq in J. lia.
Qed.
Print Assumptions C133_plotted.

(** A repetition retrieves one block, so that its answers are those of C130_single_block_run, when the bits asked for fit in a block. *)
Theorem C133_one_block : forall block elem bits, 0 < bits <= block * elem -> bits_to_blocks block elem bits = 1.
Proof. intros block elem bits B. unfold bits_to_blocks. assert (E : -1 = - bits / (block * elem)); [|lia]. apply (Z.div_unique_pos (- bits) (block * elem) (-1) (block * elem - bits)); lia. Qed.
Print Assumptions C133_one_block.

(** The point experiment, from the benchmark over the network to the figure: if the benchmark with the two servers [a0] and [a1] completes,
    if the bits fit in a block, and if the machines leave the log files that the programs write in that run, then the figure shows for
    every repetition the bytes of its queries and of the answers to them, and the measured times. *)
Theorem C133_point_figure :
  forall D H addrs numServers described serve hap pick elem bits reps results E handler inf a0 a1,
  gzip_ok E -> (forall a, serve a = over_network E (handler a)) ->
  multi_point_run D H addrs numServers described serve hap pick elem bits reps = Ok results ->
  multi_db_info (map (option_map info_of) described) = Ok inf -> a0 <> a1 -> (forall j i, Permutation [a0; a1] (h_order (hap j i))) ->
  0 < bits <= i_bs inf * elem ->
  exists queries answers,
    (forall j, (j < reps)%nat ->
       (exists ix, pir_query_bytes D inf (h_rnd (hap j 0%nat)) (be_enc 4 (u32 (pick (i_rows inf * i_cols inf - 1)))) 2 = Ok (ix, queries j)) /\
       forall a, a = a0 \/ a = a1 -> handler a (query_for a (h_order (hap j 0%nat)) (queries j)) = Ok (answers a j)) /\
    forall clock asked shown rs text n (auth : bool) key plain authenticated dir,
    quiet a0 -> quiet a1 -> Forall quiet asked -> quiet shown -> Forall measured_ok rs -> map me_bytes rs = map fst results ->
    2 <= Z.of_nat n <= 2 ^ 63 -> In key (if auth then authenticated else plain) ->
    let served a := ServedInfo :: map (fun j => ServedQuery (handler a (query_for a (h_order (hap j 0%nat)) (queries j)))) (seq 0 reps) in
    text AtClient (log_name Point auth key) = log_file client_prefix clock (client_messages [a0; a1] asked shown (Z.of_nat reps) rs) ->
    server_file (text (AtServer 0) (log_name Point auth key)) (served a0) -> server_file (text (AtServer 1) (log_name Point auth key)) (served a1) ->
    exists bw, plot_run (driver text n Point plain authenticated dir) Point auth key = Ok (bw, map me_us rs) /\ length bw = reps /\
      forall j, (j < reps)%nat -> nth_error bw j = Some (in_millionths (zsum (map zlen (queries j)) + (zlen (answers a0 j) + zlen (answers a1 j)))).
Proof.
  intros D H addrs numServers described serve hap pick elem bits reps results E handler inf a0 a1 GZ SV RUN INF NE PO B.
  assert (ND : NoDup [a0; a1]) by (constructor; [intros [X|[]]; congruence|constructor; [intros []|constructor]]).
  destruct (C130_single_block_run D H addrs numServers described serve hap pick elem bits reps results E handler inf [a0; a1] GZ SV RUN INF ND PO (C133_one_block _ _ _ B)) as (queries & answers & Q & R).
  exists queries, answers. split.
  { intros j LJ. destruct (Q j LJ) as (X & Y). split; [exact X|]. intros a [->| ->]; apply Y; [left|right; left]; reflexivity. }
  intros clock asked shown rs text n auth key plain authenticated dir Q0 Q1 QA QS F MB N I served TC T0 T1.
  destruct (R clock asked shown rs (fun a => if list_eq_dec Z.eq_dec a a0 then text (AtServer 0) (log_name Point auth key) else text (AtServer 1) (log_name Point auth key))) as (bw & EP & LB & NB); auto.
  { intros a [<-|[<-|[]]].
    - destruct (list_eq_dec Z.eq_dec a0 a0); [exact T0|congruence].
    - destruct (list_eq_dec Z.eq_dec a1 a0); [congruence|exact T1]. }
  exists bw. split; [|split; [exact LB|]].
  - rewrite C133_plotted; [|lia|exact I|lia|discriminate]. rewrite TC, <- EP. cbn [map seq]. destruct (list_eq_dec Z.eq_dec a0 a0); [|congruence]. destruct (list_eq_dec Z.eq_dec a1 a0); [congruence|]. reflexivity.
  - intros j LJ. rewrite (NB j LJ). cbn [map]. unfold zsum at 2. cbn [fold_right]. rewrite Z.add_0_r. reflexivity.
Qed.
Print Assumptions C133_point_figure.

Lemma occurs_in_app p (a b c : list Z) : occurs p b -> occurs p (a ++ b ++ c).
Proof. intros (x & y & ->). exists (a ++ x), (y ++ c). rewrite <- !app_assoc. reflexivity. Qed.
Lemma logged p prefix : forall ms clock m, In m ms -> occurs p m -> occurs p (log_file prefix clock ms).
Proof.
  induction ms as [|m' ms IH]; intros clock m I O; [destruct I|]. cbn [log_file]. destruct I as [->|I].
  - unfold log_line, ended. destruct (_ =? 10); rewrite <- !app_assoc, (app_assoc prefix (stamp_text _)); apply occurs_in_app; exact O.
  - rewrite <- (app_nil_r (log_file _ _ _)). apply occurs_in_app. eapply IH; eassumption.
Qed.
Lemma client_logged prefix clock conns asked shown reps rs : rs <> [] -> occurs (lit "stats") (log_file prefix clock (client_messages conns asked shown reps rs)).
Proof.
  intros N. destruct rs as [|r rs]; [congruence|]. eapply logged.
  - unfold client_messages. apply in_or_app. right. apply in_or_app. right. right. cbn [repetitions_messages]. unfold repetition_messages. apply in_or_app. left. right. apply in_or_app. right. left. reflexivity.
  - exists [], (lit "," ++ itoa 0 ++ lit "," ++ itoa (me_bytes r) ++ lit "," ++ seconds (me_us r)). reflexivity.
Qed.
Lemma server_logged file requests a : server_file file requests -> In (ServedQuery (Ok a)) requests -> occurs (lit "stats") file.
Proof.
  intros (sid & logFile & f & pointer & addr & clock & _ & _ & _ & _ & ->) I. eapply (logged (lit "stats")) with (m := lit "stats," ++ itoa (zlen a)); [|exists [], (lit "," ++ itoa (zlen a)); reflexivity].
  unfold server_messages. right. apply in_or_app. right. right. right. apply in_or_app. left. apply in_concat. exists (served_messages (ServedQuery (Ok a))). split; [apply in_map; exact I|right; left; reflexivity].
Qed.
Lemma numbered {A} (F : nat -> A) : forall (conns : list (list Z)) s, NoDup conns ->
  exists files, map files conns = map F (seq s (length conns)) /\ forall i a, nth_error conns i = Some a -> files a = F (s + i)%nat.
Proof.
  induction conns as [|a conns IH]; intros s ND; [exists (fun _ => F 0%nat); split; [reflexivity|intros [|i] a N; discriminate N]|].
  inversion ND as [|? ? NI ND']; subst. destruct (IH (S s) ND') as (files & M & N). exists (fun x => if list_eq_dec Z.eq_dec x a then F s else files x). split.
  - cbn [map length seq]. destruct (list_eq_dec Z.eq_dec a a); [|congruence]. f_equal. rewrite <- M. apply map_ext_in. intros b IB. destruct (list_eq_dec Z.eq_dec b a); [congruence|reflexivity].
  - intros [|i] b NB; cbn [nth_error] in NB; [injection NB as <-; destruct (list_eq_dec Z.eq_dec a a); [f_equal; lia|congruence]|].
    destruct (list_eq_dec Z.eq_dec b a) as [->|]; [apply nth_error_In in NB; contradiction|]. rewrite (N i b NB). f_equal. lia.
Qed.

(** The experiment with several servers, from the benchmark over the network to the figure: the same for all the servers of a run, with the
    log file of server number i on the machine with that number. *)
Theorem C133_servers_figure :
  forall D H addrs numServers described serve hap pick elem bits reps results E handler inf conns,
  gzip_ok E -> (forall a, serve a = over_network E (handler a)) ->
  multi_point_run D H addrs numServers described serve hap pick elem bits reps = Ok results ->
  multi_db_info (map (option_map info_of) described) = Ok inf -> NoDup conns -> (forall j i, Permutation conns (h_order (hap j i))) ->
  0 < bits <= i_bs inf * elem -> (0 < reps)%nat ->
  exists queries answers,
    (forall j, (j < reps)%nat ->
       (exists ix, pir_query_bytes D inf (h_rnd (hap j 0%nat)) (be_enc 4 (u32 (pick (i_rows inf * i_cols inf - 1)))) (zlen conns) = Ok (ix, queries j)) /\
       forall a, In a conns -> handler a (query_for a (h_order (hap j 0%nat)) (queries j)) = Ok (answers a j)) /\
    forall clock asked shown rs text n (auth : bool) plain authenticated dir,
    Forall quiet conns -> Forall quiet asked -> quiet shown -> Forall measured_ok rs -> map me_bytes rs = map fst results ->
    zlen conns <= Z.of_nat n <= 2 ^ 63 -> In (zlen conns) (if auth then authenticated else plain) ->
    let log := log_name PointMulti auth (zlen conns) in
    text AtClient log = log_file client_prefix clock (client_messages conns asked shown (Z.of_nat reps) rs) ->
    (forall i a, nth_error conns i = Some a ->
       server_file (text (AtServer i) log) (ServedInfo :: map (fun j => ServedQuery (handler a (query_for a (h_order (hap j 0%nat)) (queries j)))) (seq 0 reps))) ->
    exists bw, plot_run (driver text n PointMulti plain authenticated dir) PointMulti auth (zlen conns) = Ok (bw, map me_us rs) /\ length bw = reps /\
      forall j, (j < reps)%nat -> nth_error bw j = Some (in_millionths (zsum (map zlen (queries j)) + zsum (map (fun a => zlen (answers a j)) conns))).
Proof.
  intros D H addrs numServers described serve hap pick elem bits reps results E handler inf conns GZ SV RUN INF ND PO B RP.
  destruct (C130_single_block_run D H addrs numServers described serve hap pick elem bits reps results E handler inf conns GZ SV RUN INF ND PO (C133_one_block _ _ _ B)) as (queries & answers & Q & R).
  exists queries, answers. split; [exact Q|].
  intros clock asked shown rs text n auth plain authenticated dir QC QA QS F MB N I log TC TS.
  destruct (numbered (fun i => text (AtServer i) log) conns 0%nat ND) as (files & MF & NF). cbn [Nat.add] in NF.
  destruct (R clock asked shown rs files QC QA QS F MB) as (bw & EP & LB & NB).
  { intros a IA. apply In_nth_error in IA as (i & NI). rewrite (NF i a NI). apply TS. exact NI. }
  exists bw. split; [|split; [exact LB|exact NB]].
  assert (LR : rs <> []). { intros ->. cbn [map] in EP. assert (LM := f_equal (@length _) MB). rewrite map_length in LM. cbn [map length] in LM.
    unfold multi_point_run, multi_exec in RUN. destruct (multi_connect addrs numServers); try discriminate. cbn [bind] in RUN. rewrite INF in RUN. cbn [bind] in RUN. unfold retrieve_point in RUN. cbv zeta in RUN.
    destruct (_ <=? 0); [discriminate RUN|]. apply mapM_each in RUN as (LQ & _). unfold range in LQ. rewrite seq_length in LQ. destruct results; [cbn [length] in LQ; lia|discriminate LM]. }
  assert (LC : Z.to_nat (zlen conns) = length conns) by (unfold zlen; apply Nat2Z.id).
  rewrite C133_plotted; [fold log; rewrite LC, <- MF, TC; exact EP|lia|exact I|unfold zlen in N; lia|].
  intros _. fold log. split; [rewrite TC; apply client_logged; exact LR|]. intros i LI. rewrite LC in LI.
  destruct (nth_error conns i) as [a|] eqn:NI; [|apply nth_error_None in NI; lia]. specialize (TS i a NI). eapply server_logged; [exact TS|]. right.
  destruct (Q 0%nat RP) as (_ & HA). specialize (HA a (nth_error_In _ _ NI)). rewrite <- HA. apply in_map_iff. exists 0%nat. split; [reflexivity|apply in_seq; lia].
Qed.
Print Assumptions C133_servers_figure.

(** The predicate experiment, with two servers. *)
Theorem C133_predicate_figure :
  forall g enc scheme addrs numServers described serve n draw rounds reps results E handler values wanted a0 a1,
  gzip_ok E -> (forall a, serve a = over_network E (handler a)) ->
  multi_predicate_run g enc scheme addrs numServers described serve n draw rounds reps = Ok results ->
  predicate_values scheme = Some values -> ranstring draw n = Ok wanted -> a0 <> a1 -> (forall j, Permutation [a0; a1] (ro_order (rounds j))) ->
  exists queries answers,
    (forall j, (j < Z.to_nat reps)%nat -> round_queries g enc values n wanted (rounds j) = Ok (queries j) /\
       forall a, a = a0 \/ a = a1 -> handler a (query_for a (ro_order (rounds j)) (queries j)) = Ok (answers a j)) /\
    forall clock asked shown rs text machines (auth : bool) key plain authenticated dir,
    quiet a0 -> quiet a1 -> Forall quiet asked -> quiet shown -> Forall measured_ok rs -> map me_bytes rs = map fst results ->
    2 <= Z.of_nat machines <= 2 ^ 63 -> In key (if auth then authenticated else plain) ->
    let served a := ServedInfo :: map (fun j => ServedQuery (handler a (query_for a (ro_order (rounds j)) (queries j)))) (seq 0 (Z.to_nat reps)) in
    text AtClient (log_name Predicate auth key) = log_file client_prefix clock (client_messages [a0; a1] asked shown reps rs) ->
    server_file (text (AtServer 0) (log_name Predicate auth key)) (served a0) -> server_file (text (AtServer 1) (log_name Predicate auth key)) (served a1) ->
    exists bw, plot_run (driver text machines Predicate plain authenticated dir) Predicate auth key = Ok (bw, map me_us rs) /\ length bw = Z.to_nat reps /\
      forall j, (j < Z.to_nat reps)%nat -> nth_error bw j = Some (in_millionths (zsum (map zlen (queries j)) + (zlen (answers a0 j) + zlen (answers a1 j)))).
Proof.
  intros g enc scheme addrs numServers described serve n draw rounds reps results E handler values wanted a0 a1 GZ SV RUN PV ET NE PO.
  assert (ND : NoDup [a0; a1]) by (constructor; [intros [X|[]]; congruence|constructor; [intros []|constructor]]).
  destruct (C130_predicate_run g enc scheme addrs numServers described serve n draw rounds reps results E handler values wanted [a0; a1] GZ SV RUN PV ET ND PO) as (queries & answers & Q & R).
  exists queries, answers. split.
  { intros j LJ. destruct (Q j LJ) as (X & Y). split; [exact X|]. intros a [->| ->]; apply Y; [left|right; left]; reflexivity. }
  intros clock asked shown rs text machines auth key plain authenticated dir Q0 Q1 QA QS F MB N I served TC T0 T1.
  destruct (numbered (fun i => text (AtServer i) (log_name Predicate auth key)) [a0; a1] 0%nat ND) as (files & MF & NF). cbn [Nat.add] in NF.
  destruct (R clock asked shown rs files) as (bw & EP & LB & NB); auto.
  { intros a [<-|[<-|[]]]; [rewrite (NF 0%nat a0 eq_refl); exact T0|rewrite (NF 1%nat a1 eq_refl); exact T1]. }
  exists bw. split; [|split; [exact LB|]].
  - rewrite C133_plotted; [|lia|exact I|lia|discriminate]. rewrite TC, <- EP, MF. reflexivity.
  - intros j LJ. rewrite (NB j LJ). cbn [map]. unfold zsum at 2. cbn [fold_right]. rewrite Z.add_0_r. reflexivity.
Qed.
Print Assumptions C133_predicate_figure.

(** The number that the script gives to a machine is the number of the address at which its server listens and under which clients reach it.
    Partial: if the tables of config.toml are named 0, 1, ... in the order in which they are written. *)
Theorem C133_numbers_partial :
  forall tables loaded, zlen tables < 2 ^ 63 -> (forall i e, nth_error tables i = Some e -> decimal_of (e_key e) (Z.of_nat i)) ->
  Forall (fun e => 0 <= e_port e < 2 ^ 63) tables -> Permutation tables loaded ->
  exists addrs, load_config loaded = Ok addrs /\
    forall sid ip, machine_of tables sid = Some ip -> exists port digits, decimal_of digits port /\ server_address addrs (Z.of_nat sid) = Ok (ip ++ lit ":" ++ digits).
Proof.
  intros tables loaded L K P PM. destruct (C81_addresses_in_order_partial tables loaded L K P PM) as (addrs & E & F). exists addrs. split; [exact E|].
  intros sid ip M. unfold machine_of in M. destruct (nth_error tables sid) as [e|] eqn:NE; [|discriminate M]. cbn [option_map] in M. injection M as <-.
  assert (G : forall l l', Forall2 ip_port l l' -> forall i e, nth_error l i = Some e -> exists a, nth_error l' i = Some a /\ ip_port e a).
  { induction 1 as [|x y l l' XY FF IH]; intros [|i] e' N'; try discriminate N'; cbn [nth_error] in *; [injection N' as <-; eauto|apply IH; exact N']. }
  destruct (G _ _ F sid e NE) as (a & NA & (d & EA & DD)). exists (e_port e), d. split; [exact DD|].
  unfold server_address, go_index. replace (Z.of_nat sid <? 0) with false by (symmetry; apply Z.ltb_ge; lia). rewrite Nat2Z.id, NA. subst a. reflexivity.
Qed.
Print Assumptions C133_numbers_partial.

(** Refuted: if they are written in another order, the server started on one machine listens at the address of another machine. *)
Theorem C133_numbers_refuted :
  forall ip0 ip1 port0 port1, let tables := [mkEntry (lit "1") ip1 port1; mkEntry (lit "0") ip0 port0] in
  machine_of tables 0 = Some ip1 /\
  forall loaded, Permutation tables loaded -> exists addrs, load_config loaded = Ok addrs /\ server_address addrs 0 = Ok (ip0 ++ lit ":" ++ itoa port0).
Proof.
  intros ip0 ip1 port0 port1 tables. split; [reflexivity|]. intros loaded P. exists [ip0 ++ 58 :: itoa port0; ip1 ++ 58 :: itoa port1]. split; [|reflexivity].
  apply Permutation_length_2_inv in P as [-> | ->]; reflexivity.
Qed.
Print Assumptions C133_numbers_refuted.

(** Refuted: a run for which config.toml lists fewer servers than it is to use is not reported: the client panics. *)
Theorem C133_few_servers_refuted :
  forall D H addrs described serve hap pick reps auth s servers f, Forall int [servers; se_reps s; se_bits s; se_elem s; se_rows s; se_block s] -> zlen addrs < servers ->
  client_flags (client_command PointMulti auth s servers) = Ok f ->
  is_panic (multi_point_run D H addrs (mc_servers f) described serve hap pick (mc_elem f) (mc_bits f) reps) = true.
Proof.
  intros D H addrs described serve hap pick reps auth s servers f F L E. destruct (C133_flags auth s servers F) as (_ & (_ & X) & _). rewrite X in E. injection E as <-. cbn [mc_servers].
  unfold multi_point_run, multi_exec, multi_connect, go_slice. replace (servers <=? zlen addrs) with false by (symmetry; apply Z.leb_gt; lia). rewrite andb_false_r. reflexivity.
Qed.
Print Assumptions C133_few_servers_refuted.

Lemma found_occurs p : forall s r, find_sub p s = Some r -> occurs p s.
Proof.
  induction s as [|c t IH]; intros r E; cbn [find_sub] in E.
  - destruct (starts p []) as [x|] eqn:S; [|discriminate E]. apply starts_spec in S. exists [], x. exact S.
  - destruct (starts p (c :: t)) as [x|] eqn:S; [apply starts_spec in S; exists [], x; exact S|]. destruct (IH _ E) as (b & a & X). exists (c :: b), a. cbn [app]. congruence.
Qed.
(** After the experiment with several servers, all its files among the results hold measurements. *)
Theorem C133_only_measurements :
  forall (text : machine -> list Z -> list Z) n plain authenticated dir name t, authenticated <> [] ->
  In (name, t) (driver text n PointMulti plain authenticated dir) -> occurs (lit "multi") name -> occurs (lit "stats") t.
Proof.
  intros text n plain authenticated dir name t NE I M. unfold driver, collect_all in I. destruct (exists_last NE) as (l & key & ->). rewrite fold_left_app in I. cbn [fold_left] in I.
  unfold collect_key in I at 1. cbv zeta in I. unfold clean in I. apply filter_In in I as (_ & C). cbn [fst snd] in C. apply negb_true_iff, andb_false_iff in C.
  destruct C as [C|C]; [apply contains_spec in C; contradiction|]. apply negb_false_iff in C. unfold contains in C. destruct (find_sub (lit "stats") t) eqn:FS; [|discriminate C].
  eapply found_occurs. exact FS.
Qed.
Print Assumptions C133_only_measurements.

(** The settings of the repository; the point experiment with the machines of C130_point_example; and an experiment with three machines, two
    of which serve the first run *)
Definition ex_settings : settings := mkSettings 30 8192 8 0 1024.
Definition ex_lengths : list Z := [838860800; 8589935000].
Definition ex_text (clock : nat -> stamp) (m : machine) (log : list Z) : list Z :=
  match m with
  | AtClient => log_file client_prefix clock (client_messages fig_conns fig_conns real_shown 2 (fig_measured 18))
  | AtServer i => fig_file clock (nth i fig_conns [])
  end.
Definition ex_multi_text (m : machine) (log : list Z) : list Z :=
  match m with
  | AtServer 2 => if bytes_equal log (log_name PointMulti false 2) || bytes_equal log (log_name PointMulti true 2) then lit "is ready" else lit "stats,9"
  | AtServer i => lit "stats," ++ itoa (Z.of_nat i)
  | AtClient => lit "stats,1,2"
  end.
Example C133_example :
  Forall int [8589935000; se_reps ex_settings; se_bits ex_settings; se_elem ex_settings; se_rows ex_settings; se_block ex_settings] /\
  server_command Point true ex_settings 8589935000 =
    lit "screen -dm ./server -logFile=pir_merkle_8589935000.log -scheme=pir-merkle -dbLen=8589935000 -elemBitSize=8 -nRows=0 -blockLen=1024 -servers=2 && sleep 15" /\
  client_command PointMulti false ex_settings 3 = lit "./client -logFile=pir_classic_multi_3.log -scheme=pir-classic -repetitions=30 -elemBitSize=8 -bitsToRetrieve=8192 -numServers=3" /\
  0 < se_bits ex_settings <= se_block ex_settings * se_elem ex_settings /\
  (forall clock dir, plot_run (driver (ex_text clock) 2 Point ex_lengths ex_lengths dir) Point true 8589935000 = Ok ([in_millionths 26; in_millionths 26], [1500; 1700])) /\
  (let dir := driver ex_multi_text 3 PointMulti [2; 3] [2; 3] [] in
   map fst dir = map lit ["server_0_pir_classic_multi_2.log"; "server_1_pir_classic_multi_2.log"; "client_pir_classic_multi_2.log";
     "server_0_pir_classic_multi_3.log"; "server_1_pir_classic_multi_3.log"; "server_2_pir_classic_multi_3.log"; "client_pir_classic_multi_3.log";
     "server_0_pir_merkle_multi_2.log"; "server_1_pir_merkle_multi_2.log"; "client_pir_merkle_multi_2.log";
     "server_0_pir_merkle_multi_3.log"; "server_1_pir_merkle_multi_3.log"; "server_2_pir_merkle_multi_3.log"; "client_pir_merkle_multi_3.log"]%string) /\
  (** The two servers of the committed config.toml *)
  (let tables := [mkEntry (lit "0") (lit "10.90.38.8") 50050; mkEntry (lit "1") (lit "10.90.39.6") 50051] in
   (forall i e, nth_error tables i = Some e -> decimal_of (e_key e) (Z.of_nat i)) /\ machine_of tables 1 = Some (lit "10.90.39.6") /\
   exists addrs, load_config tables = Ok addrs /\ server_address addrs 1 = Ok (lit "10.90.39.6:50051") /\ zlen addrs < 3).
Proof.
  split; [unfold int, ex_settings; cbn [se_reps se_bits se_elem se_rows se_block]; repeat (apply Forall_cons; [lia|]); apply Forall_nil|].
  split; [vm_compute; reflexivity|]. split; [vm_compute; reflexivity|]. split; [unfold ex_settings; cbn [se_bits se_block se_elem]; lia|]. split.
  - intros clock dir. rewrite C133_plotted; [|lia|right; left; reflexivity|lia|discriminate]. cbn [seq map]. unfold ex_text. cbn [nth fig_conns].
    destruct C130_point_example as (_ & _ & _ & _ & _ & _ & _ & X). exact (X clock clock).
  - split; [vm_compute; reflexivity|]. split; [|split; [reflexivity|]].
    + intros [|[|i]] e N; cbn [nth_error] in N; [injection N as <-|injection N as <-|destruct i; discriminate N]; (split; [apply Forall_cons; [vm_compute; split; discriminate|apply Forall_nil]|]; split; [reflexivity|]; split; [discriminate|]).
      * reflexivity.
      * intros X; discriminate X.
    + eexists. split; [reflexivity|]. split; [reflexivity|]. vm_compute. reflexivity.
Qed.

(** The runs of C130_point_example in the experiment with several servers, with three machines of which two serve: the hypotheses of
    C133_servers_figure that C130_point_example does not show, and the figure *)
Example C133_servers_example :
  zlen fig_conns = 2 /\ (exists inf, multi_db_info (map (option_map info_of) fig_described) = Ok inf /\ 0 < 5 <= i_bs inf * 8) /\
  forall clock dir, plot_run (driver (ex_text clock) 3 PointMulti [2] [] dir) PointMulti false 2 = Ok ([in_millionths 26; in_millionths 26], [1500; 1700]).
Proof.
  split; [reflexivity|]. split; [destruct fig_info as (inf & EI & BS & _); exists inf; split; [exact EI|rewrite BS; lia]|]. intros clock dir.
  rewrite C133_plotted; [|lia|left; reflexivity|cbn; lia|].
  - change (Z.to_nat 2) with 2%nat. cbn [seq map]. unfold ex_text. cbn [nth fig_conns]. destruct C130_point_example as (_ & _ & _ & _ & _ & _ & _ & X). exact (X clock clock).
  - intros _. split; [apply client_logged; discriminate|]. intros i LI. change (Z.to_nat 2) with 2%nat in LI. cbn [ex_text].
    assert (HA : exists a, fig_handler (nth i fig_conns []) (query_for (nth i fig_conns []) fig_conns fig_queries) = Ok a).
    { destruct i as [|[|i]]; [| |lia]; (match goal with |- exists a, ?x = _ => assert (W : match x with Ok _ => True | _ => False end) by (vm_compute; exact I); destruct x as [a| | |]; [exists a; reflexivity|destruct W..] end). }
    destruct HA as (a & HA). apply (server_logged _ [ServedInfo; ServedQuery (Ok a); ServedQuery (fig_handler (nth i fig_conns []) (query_for (nth i fig_conns []) (rev fig_conns) fig_queries))] a); [|right; left; reflexivity].
    exists 0, (lit "pir.log"), (ex_flags "pir-classic" 0 2), (lit "0xc000012345"), (nth i fig_conns []), clock.
    split; [quiet_lit|]. split; [quiet_lit|]. split; [quiet_lit|]. split; [destruct i as [|[|i]]; [quiet_lit|quiet_lit|lia]|]. unfold fig_file. rewrite HA. reflexivity.
Qed.
