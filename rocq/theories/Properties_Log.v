(** Property C130: the log files of the multi-server benchmark and the figures made from them. Vocabulary in LogSpec.v. *)
From Coq Require Import String ZArith List Bool Lia Permutation.
From Verif Require Import GoBase BaseFacts EncodingModel PointModel FSSModel PredicateModel FrontendModel FrontendProofs MultiModel WireModel WireSpec WireProofs GobModel MultiNetModel
  BenchModel MerkleModel MerkleProofs LogModel LogSpec LogProofs.
Import ListNotations.
Open Scope Z_scope.
Open Scope go_scope.

(** The script reads from the log file of a client the number of bytes and the time of every repetition, in order and nothing else, whatever
    the times of the lines, the order of the requests and the number of blocks in a repetition. *)
Theorem C130_client_log :
  forall clock conns asked shown repetitions rs, Forall quiet conns -> Forall quiet asked -> quiet shown -> Forall measured_ok rs ->
  parse_client_log (log_file client_prefix clock (client_messages conns asked shown repetitions rs)) = Ok (map (fun r => in_millionths (me_bytes r)) rs, map me_us rs).
Proof. intros. apply client_parsed; assumption. Qed.
Print Assumptions C130_client_log.

(** From the log file of a server it reads the length of every answer that was sent, in order and nothing else. *)
Theorem C130_server_log :
  forall file requests, server_file file requests -> lengths_ok requests -> parse_server_log file = Ok (map in_millionths (answered requests)).
Proof. intros file requests (sid & logFile & f & pointer & addr & clock & QL & QF & QP & QA & ->) LO. apply server_parsed; assumption. Qed.
Print Assumptions C130_server_log.

(** What the script adds up. *)
Lemma zip_add_nth : forall a b j x, (length a <= length b)%nat -> nth_error a j = Some x -> nth_error (zip_add a b) j = Some (x + nth j b 0).
Proof.
  unfold zip_add. induction a as [|y a IH]; intros [|z b] j x L N; cbn [length] in L; try lia; [destruct j; discriminate|destruct j; discriminate|].
  destruct j as [|j]; cbn [combine map nth_error nth fst snd] in *; [congruence|]. apply IH; [lia|exact N].
Qed.
Lemma zip_add_length a b : (length a <= length b)%nat -> length (zip_add a b) = length a.
Proof. intros L. unfold zip_add. rewrite map_length, combine_length. lia. Qed.
Lemma nth_repeat_lt (a d : Z) : forall n j, (j < n)%nat -> nth j (repeat a n) d = a.
Proof. induction n as [|n IH]; intros j L; [lia|]. destruct j as [|j]; cbn [repeat nth]; [reflexivity|]. apply IH. lia. Qed.
Lemma added : forall logs bw, Forall (fun l => server_file (fst l) (snd l) /\ lengths_ok (snd l) /\ (length bw <= length (answered (snd l)))%nat) logs ->
  exists out, add_servers bw (map fst logs) = Ok out /\ length out = length bw /\
    forall j x, nth_error bw j = Some x -> nth_error out j = Some (x + zsum (map (fun l => in_millionths (nth j (answered (snd l)) 0)) logs)).
Proof.
  induction logs as [|l logs IH]; intros bw F; cbn [map add_servers].
  - exists bw. split; [reflexivity|]. split; [reflexivity|]. intros j x N. rewrite N. f_equal. unfold zsum. cbn [map fold_right]. lia.
  - inversion F as [|? ? (SF & LO & LE) F']; subst. rewrite (C130_server_log _ _ SF LO). cbn [bind].
    assert (LZ : length (zip_add bw (map in_millionths (answered (snd l)))) = length bw) by (apply zip_add_length; rewrite map_length; exact LE).
    destruct (IH (zip_add bw (map in_millionths (answered (snd l))))) as (out & EO & LN & NT).
    { eapply Forall_impl; [|exact F']. cbv beta. rewrite LZ. tauto. }
    exists out. split; [exact EO|]. split; [lia|]. intros j x N. rewrite (NT j (x + in_millionths (nth j (answered (snd l)) 0))).
    + unfold zsum. cbn [map fold_right]. f_equal. lia.
    + rewrite (zip_add_nth _ _ _ x); [|rewrite map_length; exact LE|exact N]. f_equal. f_equal. change 0 with (in_millionths 0) at 1. apply map_nth.
Qed.
Lemma plotted_at clock conns asked shown repetitions rs logs : Forall quiet conns -> Forall quiet asked -> quiet shown -> Forall measured_ok rs ->
  Forall (fun l => server_file (fst l) (snd l) /\ lengths_ok (snd l) /\ (length rs <= length (answered (snd l)))%nat) logs ->
  exists bw, plotted (log_file client_prefix clock (client_messages conns asked shown repetitions rs)) (map fst logs) = Ok (bw, map me_us rs) /\ length bw = length rs /\
    forall j r, nth_error rs j = Some r -> nth_error bw j = Some (in_millionths (me_bytes r + zsum (map (fun l => nth j (answered (snd l)) 0) logs))).
Proof.
  intros QC QA QS F FL. unfold plotted. rewrite client_parsed by assumption. cbn [bind fst snd].
  destruct (added logs (map (fun r => in_millionths (me_bytes r)) rs)) as (out & EO & LN & NT). { rewrite map_length. exact FL. }
  rewrite EO. cbn [bind]. exists out. split; [reflexivity|]. split; [rewrite LN, map_length; reflexivity|].
  intros j r N. rewrite (NT j (in_millionths (me_bytes r))) by (rewrite nth_error_map, N; reflexivity). f_equal. unfold in_millionths. clear. induction logs as [|l logs IH]; unfold zsum in *; cbn [map fold_right] in *; lia.
Qed.

(** When every server answers one query in a repetition, the number of a repetition in the figure is the number of bytes of the queries
    and of all answers to them. *)
Theorem C130_plotted :
  forall clock conns asked shown repetitions rs logs, Forall quiet conns -> Forall quiet asked -> quiet shown -> Forall measured_ok rs ->
  Forall (fun l => server_file (fst l) (snd l) /\ lengths_ok (snd l) /\ length (answered (snd l)) = length rs) logs ->
  exists bw, plotted (log_file client_prefix clock (client_messages conns asked shown repetitions rs)) (map fst logs) = Ok (bw, map me_us rs) /\ length bw = length rs /\
    forall j r, nth_error rs j = Some r -> nth_error bw j = Some (in_millionths (me_bytes r + zsum (map (fun l => nth j (answered (snd l)) 0) logs))).
Proof. intros. apply plotted_at; auto. eapply Forall_impl; [|eassumption]. cbv beta. intros l (A & B & C). repeat split; auto. lia. Qed.
Print Assumptions C130_plotted.

(** Refuted: with several blocks in a repetition the script adds only one answer of every server for each, so that the figure shows too
    little, although the log files hold all lengths. *)
Theorem C130_several_blocks_refuted :
  forall clock conns asked shown repetitions rs logs m a, Forall quiet conns -> Forall quiet asked -> quiet shown -> Forall measured_ok rs -> (1 < m)%nat -> 0 < a -> logs <> [] ->
  Forall (fun l => server_file (fst l) (snd l) /\ lengths_ok (snd l) /\ answered (snd l) = repeat a (m * length rs)) logs ->
  exists bw, plotted (log_file client_prefix clock (client_messages conns asked shown repetitions rs)) (map fst logs) = Ok (bw, map me_us rs) /\
    forall j r, nth_error rs j = Some r -> exists b, nth_error bw j = Some b /\ b = in_millionths (me_bytes r + zlen logs * a) /\ b < in_millionths (me_bytes r + zlen logs * (Z.of_nat m * a)).
Proof.
  intros clock conns asked shown repetitions rs logs m a QC QA QS F M A NL FL.
  destruct (plotted_at clock conns asked shown repetitions rs logs QC QA QS F) as (bw & EP & LN & NT).
  { eapply Forall_impl; [|exact FL]. cbv beta. intros l (X & Y & E). repeat split; auto. rewrite E, repeat_length. nia. }
  exists bw. split; [exact EP|]. intros j r N. rewrite (NT j r N). eexists. split; [reflexivity|].
  assert (LJ : (j < length rs)%nat) by (apply nth_error_Some; congruence).
  assert (S : zsum (map (fun l => nth j (answered (snd l)) 0) logs) = zlen logs * a).
  { clear - FL LJ M. induction FL as [|l logs (_ & _ & E) FL IH]; [reflexivity|]. unfold zsum, zlen in *. cbn [map fold_right length]. rewrite IH, E. rewrite nth_repeat_lt by nia. lia. }
  rewrite S. split; [reflexivity|]. unfold in_millionths. assert (1 <= zlen logs) by (destruct logs; [congruence|unfold zlen; cbn [length]; lia]). nia.
Qed.
Print Assumptions C130_several_blocks_refuted.

(** From the run to the figure: when the predicate benchmark completes, the figure made from its log files shows for every repetition the
    number of bytes of the queries it sent and of the answers the servers computed for them. *)
Lemma query_for_nth : forall order queries i a q, NoDup order -> nth_error order i = Some a -> nth_error queries i = Some q -> query_for a order queries = q.
Proof.
  induction order as [|c order IH]; intros queries i a q ND A Q; [destruct i; discriminate|]. inversion ND as [|? ? NI ND']; subst.
  destruct queries as [|q' queries]; [destruct i; discriminate|]. cbn [query_for]. destruct i as [|i]; cbn [nth_error] in A, Q.
  - assert (c = a) as -> by congruence. rewrite (proj2 (bytes_equal_spec a a) eq_refl). congruence.
  - destruct (bytes_equal a c) eqn:B; [|eapply IH; eauto]. apply bytes_equal_spec in B as ->. exfalso. apply NI. eapply nth_error_In; exact A.
Qed.
Lemma sent_all (serve : list Z -> list Z -> res (list Z)) queries : forall order off answers,
  send_all (fun c b => match serve c b with Ok a => Some a | _ => None end) order queries (Z.of_nat off) = Ok answers ->
  forall i c, nth_error order i = Some c -> exists q a, nth_error queries (off + i) = Some q /\ serve c q = Ok a.
Proof.
  induction order as [|c order IH]; intros off answers E i c' N; [destruct i; discriminate|]. cbn [send_all] in E. unfold go_index in E.
  destruct (Z.ltb_spec (Z.of_nat off) 0); [lia|]. rewrite Nat2Z.id in E. destruct (nth_error queries off) as [q|] eqn:Q; [|discriminate]. cbn [bind] in E.
  destruct (serve c q) as [a| | |] eqn:SE; try discriminate. replace (Z.of_nat off + 1) with (Z.of_nat (S off)) in E by lia.
  destruct (send_all _ order queries (Z.of_nat (S off))) as [l| | |] eqn:R; try discriminate. destruct i as [|i]; cbn [nth_error] in N.
  - exists q, a. rewrite Nat.add_0_r. split; [exact Q|congruence].
  - destruct (IH (S off) l R i c' N) as (q' & a' & X & Y). exists q', a'. split; [|exact Y]. rewrite <- X. f_equal. lia.
Qed.
Lemma mapM_each {A B} (f : A -> res B) : forall l out, mapM f l = Ok out -> length out = length l /\ forall i x, nth_error l i = Some x -> exists y, f x = Ok y /\ nth_error out i = Some y.
Proof.
  induction l as [|x l IH]; intros out E; cbn [mapM] in E.
  - assert (out = []) as -> by congruence. split; [reflexivity|]. intros [|i] y N; discriminate.
  - destruct (f x) as [y| | |] eqn:F; try discriminate. cbn [bind] in E. destruct (mapM f l) as [t| | |]; try discriminate. cbn [bind] in E. assert (out = y :: t) as -> by congruence.
    destruct (IH t eq_refl) as (L & N). split; [cbn [length]; lia|]. intros [|i] z NZ; cbn [nth_error] in *; [|apply N; exact NZ]. exists y. split; [congruence|reflexivity].
Qed.
Theorem C130_predicate_run :
  forall g enc scheme addrs numServers described serve n draw rounds reps results E handler values text conns,
  gzip_ok E -> (forall a, serve a = over_network E (handler a)) ->
  multi_predicate_run g enc scheme addrs numServers described serve n draw rounds reps = Ok results ->
  predicate_values scheme = Some values -> ranstring draw n = Ok text -> NoDup conns -> (forall j, Permutation conns (ro_order (rounds j))) ->
  exists queries answers,
    (forall j, (j < Z.to_nat reps)%nat -> round_queries g enc values n text (rounds j) = Ok (queries j) /\
       forall a, In a conns -> handler a (query_for a (ro_order (rounds j)) (queries j)) = Ok (answers a j) /\ zlen (answers a j) <= max_size) /\
    forall clock asked shown rs files, Forall quiet conns -> Forall quiet asked -> quiet shown -> Forall measured_ok rs -> map me_bytes rs = map fst results ->
    (forall a, In a conns -> server_file (files a) (ServedInfo :: map (fun j => ServedQuery (handler a (query_for a (ro_order (rounds j)) (queries j)))) (seq 0 (Z.to_nat reps)))) ->
    exists bw, plotted (log_file client_prefix clock (client_messages conns asked shown reps rs)) (map files conns) = Ok (bw, map me_us rs) /\ length bw = Z.to_nat reps /\
      forall j, (j < Z.to_nat reps)%nat -> nth_error bw j = Some (in_millionths (zsum (map zlen (queries j)) + zsum (map (fun a => zlen (answers a j)) conns))).
Proof.
  intros g enc scheme addrs numServers described serve n draw rounds reps results E handler values text conns GZ SV RUN PV ET ND PO.
  unfold multi_predicate_run in RUN. destruct (multi_connect addrs numServers) as [mc| | |]; try discriminate. cbn [bind] in RUN. destruct (multi_agree described) as [ma| | |]; try discriminate. cbn [bind] in RUN.
  rewrite PV, ET in RUN. cbn [bind] in RUN. apply mapM_each in RUN as (LR & RUN). unfold range in LR, RUN. rewrite seq_length in LR.
  set (queries := fun j => match round_queries g enc values n text (rounds j) with Ok q => q | _ => [] end).
  set (answers := fun a j => match handler a (query_for a (ro_order (rounds j)) (queries j)) with Ok x => x | _ => [] end).
  assert (RD : forall j, (j < Z.to_nat reps)%nat -> round_queries g enc values n text (rounds j) = Ok (queries j) /\
    (exists o, nth_error results j = Some (zsum (map zlen (queries j)), o)) /\
    forall a, In a conns -> handler a (query_for a (ro_order (rounds j)) (queries j)) = Ok (answers a j) /\ zlen (answers a j) <= max_size).
  { intros j LJ. assert (NJ : nth_error (seq 0 (Z.to_nat reps)) j = Some j) by (rewrite (nth_error_nth' _ 0%nat) by (rewrite seq_length; exact LJ); rewrite seq_nth by exact LJ; reflexivity).
    destruct (RUN j j NJ) as (r & CR & NR). unfold complex_round in CR. unfold answers, queries. unfold round_queries. clear answers queries.
    destruct (encode_client g _) as [b| | |]; try discriminate. cbn [or_fatal bind] in CR |- *.
    destruct (predicate_query_bytes g enc values (ro_alphas (rounds j)) (ro_rand (rounds j)) b (zlen (ro_order (rounds j)))) as [qs| | |]; try discriminate. cbn [or_fatal bind] in CR |- *.
    destruct (send_all _ (ro_order (rounds j)) qs 0) as [ans| | |] eqn:SA; try discriminate. cbn [bind] in CR.
    destruct (reconstruct_bytes values (ro_alphas (rounds j)) (ro_arrive (rounds j) ans)) as [o| | |]; try discriminate. cbn [or_fatal bind] in CR.
    split; [reflexivity|]. split; [exists o; rewrite NR; congruence|]. intros a IA.
    assert (NO : NoDup (ro_order (rounds j))) by (eapply Permutation_NoDup; [apply PO|exact ND]). apply (Permutation_in a (PO j)) in IA. apply In_nth_error in IA as (i & NI).
    destruct (sent_all serve qs (ro_order (rounds j)) 0%nat ans SA i a NI) as (q & x & NQ & SQ). cbn [Nat.add] in NQ. rewrite SV in SQ. apply remote_inv in SQ as (HQ & _ & BX); [|exact GZ].
    rewrite (query_for_nth (ro_order (rounds j)) qs i a q NO NI NQ). rewrite HQ. split; [reflexivity|exact BX]. }
  exists queries, answers. split; [intros j LJ; split; apply RD; exact LJ|].
  intros clock asked shown rs files QC QA QS F MB SF.
  set (reqs := fun a => ServedInfo :: map (fun j => ServedQuery (handler a (query_for a (ro_order (rounds j)) (queries j)))) (seq 0 (Z.to_nat reps))).
  assert (AN : forall a, In a conns -> answered (reqs a) = map (fun j => zlen (answers a j)) (seq 0 (Z.to_nat reps))).
  { intros a IA. unfold reqs, answered. cbn [map concat app]. rewrite map_map.
    assert (G : forall l, (forall j, In j l -> (j < Z.to_nat reps)%nat) -> concat (map (fun j => match ServedQuery (handler a (query_for a (ro_order (rounds j)) (queries j))) with ServedQuery (Ok a) => [zlen a] | _ => [] end) l) = map (fun j => zlen (answers a j)) l).
    { induction l as [|j l IH]; intros B; cbn [map concat]; [reflexivity|]. rewrite IH by (intros; apply B; right; assumption).
      destruct (RD j (B j (or_introl eq_refl))) as (_ & _ & X). destruct (X a IA) as (HA & _). rewrite HA. reflexivity. }
    apply G. intros j I. apply in_seq in I. lia. }
  assert (LL : length rs = Z.to_nat reps) by (apply (f_equal (@length _)) in MB; rewrite !map_length in MB; lia).
  destruct (C130_plotted clock conns asked shown reps rs (map (fun a => (files a, reqs a)) conns) QC QA QS F) as (bw & EP & LB & NB).
  { apply Forall_map. apply Forall_forall. intros a IA. cbn [fst snd]. split; [apply SF; exact IA|]. unfold lengths_ok. rewrite (AN a IA). split.
    - apply Forall_map. apply Forall_forall. intros j I. apply in_seq in I. destruct (RD j ltac:(lia)) as (_ & _ & X). destruct (X a IA) as (_ & B). unfold count_ok. unfold max_size in B. unfold zlen in *. lia.
    - rewrite map_length, seq_length. lia. }
  rewrite map_map in EP. cbn [fst] in EP. exists bw. split; [exact EP|]. split; [lia|]. intros j LJ.
  destruct (RD j LJ) as (_ & (o & NR) & _). destruct (nth_error rs j) as [r|] eqn:NJ; [|apply nth_error_None in NJ; lia].
  rewrite (NB j r NJ). f_equal. f_equal.
  assert (ER : me_bytes r = zsum (map zlen (queries j))). { apply (f_equal (fun l => nth_error l j)) in MB. rewrite !nth_error_map, NJ, NR in MB. cbn [option_map fst] in MB. congruence. }
  rewrite ER. f_equal. rewrite map_map. cbn [snd]. f_equal. apply map_ext_in. intros a IA. rewrite (AN a IA).
  rewrite (nth_indep _ 0 (zlen (answers a 0%nat))) by (rewrite map_length, seq_length; exact LJ). rewrite (map_nth (fun j => zlen (answers a j))). rewrite seq_nth by exact LJ. reflexivity.
Qed.
Print Assumptions C130_predicate_run.

(** Refuted: names that contain the word stats, without a comma, stop the script: the address of a server in the log file of the client,
    and the name of the log file in that of a server. *)
Lemma universal_app : forall s t, Forall (fun c => c <> 13) s -> universal (s ++ t) = s ++ universal t.
Proof. induction s as [|c s IH]; intros t F; cbn [app universal]; [reflexivity|]. inversion F; subst. destruct (Z.eqb_spec c 13); [congruence|]. rewrite IH by assumption. reflexivity. Qed.
Lemma has_line prefix : unbroken prefix -> forall pre m rest clock, Forall unbroken pre -> unbroken m ->
  exists t, In ((prefix ++ stamp_text t ++ m) ++ [10]) (py_lines (universal (log_file prefix clock (pre ++ m :: rest)))).
Proof.
  intros UP.
  assert (W : forall m t s, unbroken m -> py_lines (universal (log_line prefix t m ++ s)) = ((prefix ++ stamp_text t ++ m) ++ [10]) :: py_lines (universal s)).
  { intros m t s UM. assert (U : unbroken (prefix ++ stamp_text t ++ m)) by (apply Forall_app; split; [exact UP|]; apply Forall_app; split; [apply plain_unbroken, stamp_plain|exact UM]).
    assert (EL : log_line prefix t m = (prefix ++ stamp_text t ++ m) ++ [10]) by (unfold log_line; rewrite ended_ok by exact UM; rewrite <- !app_assoc; reflexivity).
    rewrite EL. rewrite universal_app. { rewrite <- app_assoc. cbn [app]. apply lines_cons. exact U. }
    apply Forall_app. split; [eapply Forall_impl; [|exact U]; cbv beta; tauto|repeat constructor; lia]. }
  induction pre as [|x pre IH]; intros m rest clock F UM; cbn [app log_file].
  - rewrite W by exact UM. exists (clock O). left. reflexivity.
  - inversion F; subst. rewrite W by assumption. destruct (IH m rest (fun i => clock (S i)) ltac:(assumption) UM) as (t & I). exists t. right. exact I.
Qed.
Lemma stops prefix pre m rest clock : unbroken prefix -> Forall (fun c => c <> 44) prefix -> Forall unbroken pre -> unbroken m -> Forall (fun c => c <> 44) m -> occurs (lit "stats") m ->
  exists line, In line (stats_lines (log_file prefix clock (pre ++ m :: rest))) /\ stats_of line = [[]].
Proof.
  intros UP CP F UM CM O. destruct (has_line prefix UP pre m rest clock F UM) as (t & I). exists ((prefix ++ stamp_text t ++ m) ++ [10]). split.
  - unfold stats_lines. apply filter_In. split; [exact I|]. destruct (contains (lit "stats") ((prefix ++ stamp_text t ++ m) ++ [10])) eqn:C; [reflexivity|]. apply contains_spec in C.
    destruct C. destruct O as (b & a & ->). exists (prefix ++ stamp_text t ++ b), (a ++ [10]). rewrite <- !app_assoc. reflexivity.
  - unfold stats_of. rewrite filter_no by (apply Forall_app; split; [exact UP|]; apply Forall_app; split; [apply plain_unbroken, stamp_plain|exact UM]).
    unfold partition2. rewrite (proj2 (find_sub_none (lit "stats,") _)); [reflexivity|]. intros (b & a & E).
    assert (I44 : In 44 (prefix ++ stamp_text t ++ m)) by (rewrite E; apply in_or_app; right; apply in_or_app; left; cbn; tauto).
    assert (N : Forall (fun c => c <> 44) (prefix ++ stamp_text t ++ m)) by (apply Forall_app; split; [exact CP|]; apply Forall_app; split; [apply plain_no; [lia|apply stamp_plain]|exact CM]).
    rewrite Forall_forall in N. exact (N 44 I44 eq_refl).
Qed.
Theorem C130_names_refuted :
  (forall clock before a after asked shown repetitions rs r, Forall unbroken before -> unbroken a -> ~ In 44 a -> occurs (lit "stats") a ->
   parse_client_log (log_file client_prefix clock (client_messages (before ++ a :: after) asked shown repetitions rs)) <> Ok r) /\
  (forall clock sid logFile f pointer addr requests r, unbroken logFile -> ~ In 44 logFile -> occurs (lit "stats") logFile ->
   unbroken (lit (s_scheme f)) -> ~ In 44 (lit (s_scheme f)) ->
   parse_server_log (log_file (server_prefix sid) clock (server_messages sid logFile f pointer addr requests)) <> Ok r).
Proof.
  assert (NI : forall l : list Z, ~ In 44 l -> Forall (fun c => c <> 44) l) by (intros l N; apply Forall_forall; intros c I ->; exact (N I)).
  split.
  - intros clock before a after asked shown repetitions rs r UB UA CA O E.
    unfold client_messages in E. rewrite map_app in E. cbn [map] in E. rewrite <- app_assoc in E. cbn [app] in E.
    assert (UW : forall x, unbroken x -> unbroken (lit "connected to server " ++ x)).
    { intros x U. apply Forall_app. split; [|exact U]. cbn. repeat (apply Forall_cons; [lia|]). apply Forall_nil. }
    destruct (stops client_prefix (map (fun a => lit "connected to server " ++ a) before) (lit "connected to server " ++ a)
      (map (fun a => lit "connected to server " ++ a) after ++ map (fun a => lit "sent databaseInfo request to " ++ a) asked ++ (lit "databaseInfo: " ++ shown) :: repetitions_messages repetitions 0 rs) clock) as (line & I & SO).
    + apply client_prefix_ok. + cbn. repeat (apply Forall_cons; [lia|]). apply Forall_nil.
    + apply Forall_map. eapply Forall_impl; [|exact UB]. exact UW. + apply UW. exact UA.
    + apply Forall_app. split; [cbn; repeat (apply Forall_cons; [lia|]); apply Forall_nil|apply NI; exact CA].
    + destruct O as (b & c & ->). exists (lit "connected to server " ++ b), c. rewrite <- app_assoc. reflexivity.
    + unfold parse_client_log in E. destruct (mapM _ (stats_lines _)) as [l| | |] eqn:M; try discriminate. apply mapM_each in M as (_ & M).
      apply In_nth_error in I as (i & N). destruct (M i line N) as (y & Y & _). rewrite SO in Y. discriminate Y.
  - intros clock sid logFile f pointer addr requests r UL CL O UF CF E. unfold server_messages in E.
    match type of E with parse_server_log (log_file _ _ (_ :: ?rest)) = _ => destruct (stops (server_prefix sid) [] (flags_message sid logFile f) rest clock) as (line & I & SO) end.
    + apply server_prefix_ok.
    + unfold server_prefix. apply Forall_app. split; [cbn; repeat (apply Forall_cons; [lia|]); apply Forall_nil|]. apply Forall_app. split; [apply plain_no; [lia|apply itoa_plain]|]. cbn. repeat (apply Forall_cons; [lia|]). apply Forall_nil.
    + constructor.
    + unfold flags_message. repeat (apply Forall_app; split; [first [apply plain_unbroken, itoa_plain|exact UL|exact UF|cbn; repeat (apply Forall_cons; [lia|]); apply Forall_nil]|]). apply plain_unbroken, itoa_plain.
    + unfold flags_message. repeat (apply Forall_app; split; [first [apply plain_no; [lia|apply itoa_plain]|apply NI; exact CL|apply NI; exact CF|cbn; repeat (apply Forall_cons; [lia|]); apply Forall_nil]|]). apply plain_no; [lia|apply itoa_plain].
    + destruct O as (b & c & ->). unfold flags_message. eexists (lit "flags: " ++ itoa sid ++ lit " " ++ b), _. rewrite <- !app_assoc. reflexivity.
    + cbn [app] in I. unfold parse_server_log in E. apply mapM_each in E as (_ & M). apply In_nth_error in I as (i & N). destruct (M i line N) as (y & Y & _). rewrite SO in Y. discriminate Y.
Qed.
Print Assumptions C130_names_refuted.

(** The beginning of a run whose log files are in the repository (simulations/multi/final_results, fss_auth_1): the model writes these very
    lines, and the script finds 952 bytes and 205245 microseconds. *)
Definition shown_line (s : string) : list Z := lit s ++ [10].
Definition real_clock (h m s : Z) : stamp := mkStamp 2022 8 11 h m s.
Definition real_client : list Z :=
  shown_line "[Client] 2022/08/11 17:15:35 connected to server 10.90.39.17:50050" ++
  shown_line "[Client] 2022/08/11 17:15:35 connected to server 10.90.39.23:50051" ++
  shown_line "[Client] 2022/08/11 17:15:35 sent databaseInfo request to 10.90.39.23:50051" ++
  shown_line "[Client] 2022/08/11 17:15:35 sent databaseInfo request to 10.90.39.17:50050" ++
  shown_line "[Client] 2022/08/11 17:15:35 databaseInfo: &database.Info{NumRows:0, NumColumns:100000, BlockSize:0}" ++
  shown_line "[Client] 2022/08/11 17:15:35 start repetition 1 out of 100" ++
  shown_line "[Client] 2022/08/11 17:15:35 done with queries computation" ++
  shown_line "[Client] 2022/08/11 17:15:35 sent query to 10.90.39.23:50051" ++
  shown_line "[Client] 2022/08/11 17:15:35 sent query to 10.90.39.17:50050" ++
  shown_line "[Client] 2022/08/11 17:15:35 done with block reconstruction" ++
  shown_line "[Client] 2022/08/11 17:15:35 stats,0,912,0.205245".
Definition real_server : list Z :=
  shown_line "[Server 1] 2022/08/11 17:14:50 flags: 1 fss_auth_1.log fss-auth -1 -1 -1 -1" ++
  shown_line "[Server 1] 2022/08/11 17:14:50 is listening at 10.90.39.23:50051" ++
  shown_line "[Server 1] 2022/08/11 17:14:50 starting grpc server" ++
  shown_line "[Server 1] 2022/08/11 17:15:35 got databaseInfo request" ++
  shown_line "[Server 1] 2022/08/11 17:15:35 got query request" ++
  shown_line "[Server 1] 2022/08/11 17:15:35 stats,20" ++
  shown_line "[Server 1] 2022/08/11 17:15:54 clean shutdown of server done".
Definition real_addrs : list (list Z) := [lit "10.90.39.17:50050"; lit "10.90.39.23:50051"].
Definition real_shown : list Z := lit "&database.Info{NumRows:0, NumColumns:100000, BlockSize:0}".
Definition real_run : list measured := [mkMeasured [rev real_addrs] 912 205245].
Definition real_flags : sflags := mkSF "fss-auth" (-1) (-1) (-1) (-1) 2.
Definition real_times (i : nat) : stamp := if (i <? 3)%nat then real_clock 17 14 50 else if (i <? 6)%nat then real_clock 17 15 35 else real_clock 17 15 54.
Definition real_requests : list served := [ServedInfo; ServedQuery (Ok (repeat 7 20))].
Example C130_example :
  real_client = log_file client_prefix (fun _ => real_clock 17 15 35) (client_messages real_addrs (rev real_addrs) real_shown 100 real_run) /\
  real_server = log_file (server_prefix 1) real_times (server_messages 1 (lit "fss_auth_1.log") real_flags (lit "0xc000012345") (lit "10.90.39.23:50051") real_requests) /\
  Forall quiet real_addrs /\ quiet real_shown /\ Forall measured_ok real_run /\ server_file real_server real_requests /\ lengths_ok real_requests /\ answered real_requests = [20] /\
  plotted real_client [real_server; real_server] = Ok ([in_millionths 952], [205245]) /\
  (exists m, plotted (log_file client_prefix (fun _ => real_clock 0 0 0) (client_messages [lit "stats.example.org:50050"] [] real_shown 100 real_run)) [real_server] = Err m) /\
  (exists m, parse_server_log (log_file (server_prefix 0) real_times (server_messages 0 (lit "stats.log") real_flags (lit "0xc000012345") (lit "10.90.39.23:50051") real_requests)) = Err m).
Proof.
  assert (Q : Forall quiet real_addrs) by (apply Forall_cons; [quiet_lit|apply Forall_cons; [quiet_lit|apply Forall_nil]]).
  assert (ES : real_server = log_file (server_prefix 1) real_times (server_messages 1 (lit "fss_auth_1.log") real_flags (lit "0xc000012345") (lit "10.90.39.23:50051") real_requests)) by (vm_compute; reflexivity).
  split; [vm_compute; reflexivity|]. split; [exact ES|]. split; [exact Q|]. split; [quiet_lit|].
  split. { apply Forall_cons; [|apply Forall_nil]. split; [apply Forall_cons; [apply Forall_rev; exact Q|apply Forall_nil]|]. unfold count_ok. cbn [me_bytes me_us]. lia. }
  split. { exists 1, (lit "fss_auth_1.log"), real_flags, (lit "0xc000012345"), (lit "10.90.39.23:50051"), real_times.
    split; [quiet_lit|]. split; [quiet_lit|]. split; [quiet_lit|]. split; [quiet_lit|]. exact ES. }
  split. { unfold lengths_ok. change (answered real_requests) with [20]. apply Forall_cons; [unfold count_ok; lia|apply Forall_nil]. }
  split; [reflexivity|]. split; [vm_compute; reflexivity|]. split; eexists; vm_compute; reflexivity.
Qed.
