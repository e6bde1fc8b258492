(** C132: the numbers printed about the deployment are the measured ones. *)
From Coq Require Import String ZArith QArith Qround List Bool Lia Lqa.
From Verif Require Import GoBase BaseFacts EncodingModel PointModel FSSModel PredicateModel MerkleModel DirectoryModel GobModel SessionModel SessionSpec WireModel WireSpec WireProofs ToyInstances ToyPoint Properties_Session Properties_Wire Properties_Gob Properties_Log.
From Verif Require Import FrontendModel LogModel LogSpec LogProofs ResultsModel ResultsSpec ResultsProofs TrialModel TrialSpec TrialProofs.
Import ListNotations.
Open Scope Z_scope.
Open Scope go_scope.

(** From the file of a client: for every number of cores the bytes of the queries and the times of exactly the runs that came to their end,
    in their order. *)
Theorem C132_client_log : forall clock runs, Forall run_ok runs ->
  exists d, parse_log (client_file clock runs) = Ok d /\ NoDup (map fst d) /\
    forall c, dict_get Z.eqb d c =
      if (length (finished c runs) =? 0)%nat then Err "KeyError"
      else Ok (mkByCore (Some (map sent_bytes (finished c runs))) (Some (map tr_us (finished c runs))) None).
Proof.
  intros clock runs F. destruct (client_parsed_cores clock runs F) as (cs & N & I & E). eexists. split; [exact E|]. split; [rewrite map_map, map_id; exact N|]. intros c.
  destruct (in_dec Z.eq_dec c cs) as [C|C].
  - rewrite (get_collected (fun c => mkByCore (Some (map sent_bytes (finished c runs))) (Some (map tr_us (finished c runs))) None) cs c C). apply I in C. destruct (finished c runs); [congruence|reflexivity].
  - rewrite (get_missing (fun c => mkByCore (Some (map sent_bytes (finished c runs))) (Some (map tr_us (finished c runs))) None)) by exact C. destruct (finished c runs) eqn:EF; [reflexivity|]. destruct C. apply I. rewrite EF. discriminate.
Qed.
Print Assumptions C132_client_log.

(** From the file of a server: for every number of cores the lengths of exactly the answers given, in their order. *)
Theorem C132_server_log : forall clock ps, Forall process_ok ps ->
  exists d, parse_log (process_file clock ps) = Ok d /\ NoDup (map fst d) /\
    forall c, dict_get Z.eqb d c = if (length (answers_of c ps) =? 0)%nat then Err "KeyError" else Ok (mkByCore None None (Some (answers_of c ps))).
Proof.
  intros clock ps F. destruct (server_parsed_cores clock ps F) as (cs & N & I & E). eexists. split; [exact E|]. split; [rewrite map_map, map_id; exact N|]. intros c.
  destruct (in_dec Z.eq_dec c cs) as [C|C].
  - rewrite (get_collected (fun c => mkByCore None None (Some (answers_of c ps))) cs c C). apply I in C. destruct (answers_of c ps); [congruence|reflexivity].
  - rewrite (get_missing (fun c => mkByCore None None (Some (answers_of c ps)))) by exact C. destruct (answers_of c ps) eqn:EF; [reflexivity|]. destruct C. apply I. rewrite EF. discriminate.
Qed.
Print Assumptions C132_server_log.

(** Predicate queries: the seconds are the median of the measured times, and the kilobytes the median over the runs of the bytes of a run's
    queries and of both answers. It is assumed that all runs came to their end, so that there are as many answers as runs. *)
Theorem C132_complex_partial : forall clock clock0 clock1 runs ps0 ps1, Forall run_ok runs -> Forall process_ok ps0 -> Forall process_ok ps1 ->
  finished (-1) runs <> [] -> length (answers_of (-1) ps0) = length (finished (-1) runs) -> length (answers_of (-1) ps1) = length (finished (-1) runs) ->
  exists t b totals, plot_complex (process_file clock0 ps0) (process_file clock1 ps1) (client_file clock runs) = Ok (t, (b / 1000)%Q) /\
    middle (map in_seconds (map tr_us (finished (-1) runs))) t /\ middle (map inject_Z totals) b /\ length totals = length (finished (-1) runs) /\
    forall j tr, nth_error (finished (-1) runs) j = Some tr -> nth_error totals j = Some (sent_bytes tr + nth j (answers_of (-1) ps0) 0 + nth j (answers_of (-1) ps1) 0).
Proof. intros clock clock0 clock1 runs ps0 ps1 F F0 F1 NF L0 L1. apply complex_shown; auto; lia. Qed.
Print Assumptions C132_complex_partial.

(** From the programs to the table: when every run of the client against the two servers, over the network, comes to its end, the row shows
    the bytes of the queries that the client computed and of the answers that the servers computed to them. *)
Theorem C132_complex_run_partial : forall g enc H values E handler serve f s0 s1 ds,
  gzip_ok E -> (forall a, serve a = over_network E (handler a)) -> s0 <> s1 -> ds <> [] -> Forall (deployed_ok g enc H values serve f s0 s1) ds ->
  exists got : list Z -> nat -> list Z,
    (forall j d s, nth_error ds j = Some d -> s = s0 \/ s = s1 ->
       handler s (query_for s (de_order d) (tr_queries (de_trial d))) = Ok (got s j) /\ zlen (got s j) <= max_size) /\
    forall clock clock0 clock1 ps0 ps1, Forall (fun d => trial_ok (de_trial d) /\ tr_cores (de_trial d) = -1) ds -> Forall process_ok ps0 -> Forall process_ok ps1 ->
    answers_of (-1) ps0 = map (fun j => zlen (got s0 j)) (seq 0 (length ds)) -> answers_of (-1) ps1 = map (fun j => zlen (got s1 j)) (seq 0 (length ds)) ->
    exists t b totals, plot_complex (process_file clock0 ps0) (process_file clock1 ps1) (client_file clock (map (fun d => Finished (de_trial d)) ds)) = Ok (t, (b / 1000)%Q) /\
      middle (map (fun d => in_seconds (tr_us (de_trial d))) ds) t /\ middle (map inject_Z totals) b /\ length totals = length ds /\
      forall j d, nth_error ds j = Some d -> nth_error totals j = Some (zsum (map zlen (tr_queries (de_trial d))) + zlen (got s0 j) + zlen (got s1 j)).
Proof.
  intros g enc H values E handler serve f s0 s1 ds GZ SV ND NE F.
  set (got := fun s j => match nth_error ds j with Some d => match handler s (query_for s (de_order d) (tr_queries (de_trial d))) with Ok a => a | _ => [] end | None => [] end).
  assert (G : forall j d s, nth_error ds j = Some d -> s = s0 \/ s = s1 -> handler s (query_for s (de_order d) (tr_queries (de_trial d))) = Ok (got s j) /\ zlen (got s j) <= max_size).
  { intros j d s NJ S0. unfold got. rewrite NJ. rewrite Forall_forall in F. destruct (F d (nth_error_In _ _ NJ)) as (OD & result & EC & _ & EQ). unfold cli_complex_bytes, ask_bytes in EC.
    destruct (cli_query H f) as [qi| | |]; try discriminate EC. cbn [bind] in EC, EQ. destruct (encode_client g _) as [b| | |]; try discriminate EC. cbn [bind] in EC, EQ.
    assert (L2 : zlen (de_order d) = 2) by (destruct OD as [->| ->]; reflexivity). rewrite L2, EQ in EC. cbn [bind] in EC.
    destruct (send_all _ (de_order d) (tr_queries (de_trial d)) 0) as [ans| | |] eqn:SA; try discriminate EC.
    assert (NO : NoDup (de_order d)).
    { destruct OD as [->| ->]; (constructor; [intros [X|[]]; congruence|constructor; [intros []|constructor]]). }
    assert (IS : In s (de_order d)) by (destruct OD as [->| ->], S0 as [->| ->]; cbn [In]; auto). apply In_nth_error in IS as (i & NI).
    destruct (sent_all serve (tr_queries (de_trial d)) (de_order d) 0%nat ans SA i s NI) as (q & x & NQ & SQ). cbn [Nat.add] in NQ. rewrite SV in SQ. apply remote_inv in SQ as (HQ & _ & BX); [|exact GZ].
    rewrite (query_for_nth (de_order d) _ i s q NO NI NQ), HQ. auto. }
  exists got. split; [exact G|]. intros clock clock0 clock1 ps0 ps1 FT F0 F1 A0 A1.
  assert (FN : finished (-1) (map (fun d => Finished (de_trial d)) ds) = map de_trial ds).
  { clear - FT. unfold finished. induction FT as [|d ds (_ & C) FT IH]; cbn [map concat]; [reflexivity|]. rewrite C, IH. reflexivity. }
  destruct (complex_shown clock clock0 clock1 (map (fun d => Finished (de_trial d)) ds) ps0 ps1) as (t & b & totals & P & MT & MB & L & NT).
  { apply Forall_map. eapply Forall_impl; [|exact FT]. cbv beta. tauto. } { exact F0. } { exact F1. } { rewrite FN. destruct ds; [congruence|discriminate]. }
  { rewrite FN, A0, !map_length, seq_length. lia. } { rewrite FN, A1, !map_length, seq_length. lia. }
  rewrite FN in *. exists t, b, totals. split; [exact P|]. split; [rewrite !map_map in MT; exact MT|]. split; [exact MB|]. split; [rewrite map_length in L; exact L|].
  intros j d NJ. assert (LJ : (j < length ds)%nat) by (apply nth_error_Some; congruence). rewrite (NT j (de_trial d)) by (rewrite nth_error_map, NJ; reflexivity). rewrite A0, A1.
  assert (W : forall s, nth j (map (fun j => zlen (got s j)) (seq 0 (length ds))) 0 = zlen (got s j)).
  { intros s. rewrite (nth_indep _ 0 (zlen (got s 0%nat))) by (rewrite map_length, seq_length; exact LJ). rewrite (map_nth (fun j => zlen (got s j))), seq_nth by exact LJ. reflexivity. }
  rewrite !W. reflexivity.
Qed.
Print Assumptions C132_complex_run_partial.

(** Refuted: a run that dies after the servers have answered shifts the answers, and the kilobytes shown for the next run are those of its
    queries with the answers to the run that died. *)
Theorem C132_shifted_refuted : forall clock clock0 clock1 said why t ps0 ps1 x0 x1 a0 a1, Forall quiet said -> quiet why -> trial_ok t -> tr_cores t = -1 ->
  Forall process_ok ps0 -> Forall process_ok ps1 -> answers_of (-1) ps0 = [x0; a0] -> answers_of (-1) ps1 = [x1; a1] -> x0 + x1 <> a0 + a1 ->
  exists s kb, plot_complex (process_file clock0 ps0) (process_file clock1 ps1) (client_file clock [Died said why; Finished t]) = Ok (s, kb) /\
    (kb == inject_Z (sent_bytes t + x0 + x1) / 1000)%Q /\ ~ (kb == inject_Z (sent_bytes t + a0 + a1) / 1000)%Q.
Proof.
  intros clock clock0 clock1 said why t ps0 ps1 x0 x1 a0 a1 QS QW OK TC F0 F1 E0 E1 D.
  assert (FN : finished (-1) [Died said why; Finished t] = [t]) by (unfold finished; cbn [map concat app]; rewrite TC; reflexivity).
  destruct (complex_shown clock clock0 clock1 [Died said why; Finished t] ps0 ps1) as (s & b & totals & P & _ & MB & L & NT).
  { constructor; [split; assumption|constructor; [exact OK|constructor]]. } { exact F0. } { exact F1. } { rewrite FN. discriminate. } { rewrite FN, E0. cbn. lia. } { rewrite FN, E1. cbn. lia. }
  rewrite FN in L, NT. specialize (NT O t eq_refl). rewrite E0, E1 in NT. cbn [nth] in NT. destruct totals as [|x [|y totals]]; try discriminate L. cbn [nth_error] in NT. injection NT as ->.
  exists s, (b / 1000)%Q. split; [exact P|]. cbn [map] in MB. apply (middle_const (inject_Z (sent_bytes t + x0 + x1))) in MB; [|repeat constructor]. rewrite MB. split; [reflexivity|].
  intros C. assert (X : (inject_Z (sent_bytes t + x0 + x1) == inject_Z (sent_bytes t + a0 + a1))%Q).
  { rewrite <- (Qmult_div_r (inject_Z (sent_bytes t + x0 + x1)) 1000) by discriminate. rewrite C. apply Qmult_div_r. discriminate. }
  apply (proj1 (inject_Z_injective _ _)) in X. clear - X D. lia.
Qed.
Print Assumptions C132_shifted_refuted.

(** Point queries: the printed seconds are the median of the measured times, and 375.815 milliseconds. *)
Theorem C132_latency_partial : forall clock clock0 clock1 runs ps0 ps1, Forall run_ok runs -> Forall process_ok ps0 -> Forall process_ok ps1 ->
  finished (-1) runs <> [] -> (forall c, answers_of c ps0 <> [] -> answers_of c ps1 <> []) ->
  exists s m, plot_real (process_file clock0 ps0) (process_file clock1 ps1) (client_file clock runs) = Ok s /\
    middle (map in_seconds (map tr_us (finished (-1) runs))) m /\ (s == m + 375815 / 1000000)%Q.
Proof.
  intros clock clock0 clock1 runs ps0 ps1 F F0 F1 NF NA. destruct (real_shown clock clock0 clock1 runs ps0 ps1 F F0 F1 NF NA) as (m & M & E).
  exists (m + ping)%Q, m. split; [exact E|]. split; [exact M|reflexivity].
Qed.
Print Assumptions C132_latency_partial.

(** Refuted: the delay between the machines is 0.375815 milliseconds, and what is printed is not the measured time and this delay. *)
Theorem C132_ping_refuted : forall clock clock0 clock1 t ps0 ps1, trial_ok t -> tr_cores t = -1 -> Forall process_ok ps0 -> Forall process_ok ps1 ->
  (forall c, answers_of c ps0 <> [] -> answers_of c ps1 <> []) ->
  exists s, plot_real (process_file clock0 ps0) (process_file clock1 ps1) (client_file clock [Finished t]) = Ok s /\
    ~ (s == in_seconds (tr_us t) + (375815 / 1000000) / 1000)%Q /\ (in_seconds (tr_us t) + 3 / 8 < s)%Q.
Proof.
  intros clock clock0 clock1 t ps0 ps1 OK TC F0 F1 NA.
  assert (FN : finished (-1) [Finished t] = [t]) by (unfold finished; cbn [map concat app]; rewrite TC; reflexivity).
  destruct (real_shown clock clock0 clock1 [Finished t] ps0 ps1) as (m & M & E); [constructor; [exact OK|constructor]|exact F0|exact F1|rewrite FN; discriminate|exact NA|].
  exists (m + ping)%Q. split; [exact E|]. rewrite FN in M. cbn [map] in M. apply (middle_const (in_seconds (tr_us t))) in M; [|repeat constructor]. rewrite M. generalize (in_seconds (tr_us t)). intros q.
  unfold ping. change (375815 / 1000000 / 1000)%Q with (375815 # 1000000000)%Q. change (375815 / 1000000)%Q with (375815 # 1000000)%Q. change (3 / 8)%Q with (3 # 8)%Q. split; [intros C|]; lra.
Qed.
Print Assumptions C132_ping_refuted.

(** Refuted: no number is printed when the text of a retrieved key happens to contain the five letters of the word stats, whatever the other
    runs were. *)
Theorem C132_key_text_refuted : forall clock before t id k armored after d, tr_outcome t = KeyShown id k armored ->
  ~ In 44 armored -> ~ In 13 armored -> occurs (lit "stats") armored -> parse_log (client_file clock (before ++ Finished t :: after)) <> Ok d.
Proof. intros. eapply key_text; eassumption. Qed.
Print Assumptions C132_key_text_refuted.

(** The last column is the ratio of the kilobytes, each rounded to a whole number, for kilobytes between 5 and 999. *)
Theorem C132_ratio_partial : forall x y, (5 < x)%Q -> (x <= 999)%Q -> (5 < y)%Q -> (y <= 999)%Q ->
  exists r a b, bw_ratio (rounder2 x) (rounder2 y) = Ok r /\ (r == inject_Z a / inject_Z b)%Q /\
    (- (1 # 2) <= inject_Z a - x <= 1 # 2)%Q /\ (- (1 # 2) <= inject_Z b - y <= 1 # 2)%Q.
Proof.
  intros x y X1 X2 Y1 Y2. destruct (rounder2_small x X1 X2) as (EX & LX). destruct (rounder2_small y Y1 Y2) as (EY & LY).
  unfold bw_ratio. rewrite EX, EY. cbn [bind]. unfold in_millionths. destruct (Z.eqb_spec (1000000 * py_round y) 0); [lia|].
  eexists. exists (py_round x), (py_round y). split; [reflexivity|]. split; [|split; apply round_near]. rewrite !inject_Z_mult. change (inject_Z 1000000) with (1000000 # 1)%Q.
  field. intros C. change 0%Q with (inject_Z 0) in C. apply (proj1 (inject_Z_injective _ _)) in C. lia.
Qed.
Print Assumptions C132_ratio_partial.

(** The kilobytes of the row as they are printed: with one decimal up to 5, and from there on as a whole number in groups of three digits. *)
Theorem C132_rounded_text : forall x, (0 <= x)%Q -> (x <= inject_Z (10 ^ 18))%Q -> exists v first rest, py_float (without_commas (rounder2 x)) = Ok v /\
  ((x <= 5)%Q -> (- (1 # 20) <= inject_Z v / 1000000 - x <= 1 # 20)%Q) /\ ((5 < x)%Q -> (- (1 # 2) <= inject_Z v / 1000000 - x <= 1 # 2)%Q) /\
  split_on 44 (rounder2 x) = first :: rest /\ (1 <= length first <= 3)%nat /\ Forall (fun g => length g = 3%nat) rest.
Proof. exact rounder2_text. Qed.
Print Assumptions C132_rounded_text.

(** Refuted: from one megabyte on, with or without authentication, the script ends with an error instead of the row. *)
Theorem C132_megabyte_refuted : forall x y r, (1000 <= x)%Q \/ (1000 <= y)%Q -> bw_ratio (rounder2 x) (rounder2 y) <> Ok r.
Proof.
  intros x y r H E. unfold bw_ratio in E. destruct (py_float (rounder2 x)) as [a|m|m|m] eqn:EX; try discriminate E. cbn [bind] in E. destruct (py_float (rounder2 y)) as [b|m|m|m] eqn:EY; try discriminate E.
  destruct H as [H|H]; apply rounder2_large in H; [exact (float_comma _ _ H EX)|exact (float_comma _ _ H EY)].
Qed.
Print Assumptions C132_megabyte_refuted.

(** ** A recorded case: the first two runs of simulations/final_results/stats_client_complexPIR_algo.log *)
Definition nl (l : list string) : list Z := concat (map (fun s => lit s ++ [10]) l).
Definition algo_info : list Z := lit "&database.Info{NumRows:0, NumColumns:3557164, BlockSize:0}".
Definition algo_sendings (a b : string) (m n : Z) : list sending := [SentTo (lit a); SentSize m; SentTo (lit b); SentSize n].
Definition algo_1 : trial := mkTrial (-1) [lit "10.90.36.39:50051"; lit "10.90.36.38:50050"] algo_info
  (algo_sendings "10.90.36.39:50051" "10.90.36.38:50050" 437 435) [repeat 0 437; repeat 0 435] (Counted 0) 8146246 (lit "8.146245598s").
Definition algo_2 : trial := mkTrial (-1) [lit "10.90.36.39:50051"; lit "10.90.36.38:50050"] algo_info
  (algo_sendings "10.90.36.38:50050" "10.90.36.39:50051" 431 433) [repeat 0 433; repeat 0 431] (Counted 0) 7521354 (lit "7.521354s").
Definition algo_clock : nat -> nat -> stamp := fun r i =>
  match r, i with
  | O, (0 | 1 | 2 | 3)%nat => mkStamp 2021 12 17 11 22 50
  | O, (4 | 5)%nat => mkStamp 2021 12 17 11 22 57
  | O, _ => mkStamp 2021 12 17 11 22 58
  | _, _ => mkStamp 2021 12 17 11 23 11
  end.
Definition algo_server (sid : Z) (addr : string) : process :=
  mkProcess sid (-1) [lit "Loading keys: [data/sks/sks-000.pgp]"; lit "DB loaded with files [data/sks/sks-000.pgp]"] (lit "0.000000") (lit addr)
    [AskInfo; AskQuery; AnswerSize [0; 0; 0; 0]; AskAnswer [0; 0; 0; 0]; AskInfo; AskQuery; AnswerSize [0; 0; 0; 0]; AskAnswer [0; 0; 0; 0]].
Lemma algo_ok : Forall run_ok [Finished algo_1; Finished algo_2].
Proof.
  repeat (apply Forall_cons; [|]); [| |apply Forall_nil]; cbn [run_ok]; unfold trial_ok;
    (split; [vm_compute; split; congruence|]; split; [vm_compute; split; congruence|]; split; [vm_compute; split; congruence|];
     split; [apply Forall_cons; [quiet_lit|]; apply Forall_cons; [quiet_lit|]; apply Forall_nil|]; split; [quiet_lit|]; split; [quiet_lit|];
     split; [|exact I]; apply Forall_cons; [quiet_lit|]; apply Forall_cons; [exact I|]; apply Forall_cons; [quiet_lit|]; apply Forall_cons; [exact I|]; apply Forall_nil).
Qed.
Lemma algo_server_ok sid addr : quiet (lit addr) -> Forall process_ok [algo_server sid addr].
Proof.
  intros Q. apply Forall_cons; [|apply Forall_nil]. split; [vm_compute; split; congruence|]. split; [apply Forall_cons; [quiet_lit|]; apply Forall_cons; [quiet_lit|]; apply Forall_nil|].
  split; [quiet_lit|]. split; [exact Q|]. cbn [pr_requests algo_server]. repeat (apply Forall_cons; [vm_compute; try (split; congruence); exact I|]). apply Forall_nil.
Qed.
Definition key_text_toy : list Z := nl ["-----BEGIN PGP PUBLIC KEY BLOCK-----"; ""; "xsBNBFstatsAQgA"; "-----END PGP PUBLIC KEY BLOCK-----"]%string.
Example C132_example :
  output_file client_prefix (algo_clock 0) (trial_output algo_1) = nl
    ["[Client] 2021/12/17 11:22:50 sent databaseInfo request to 10.90.36.39:50051"; "[Client] 2021/12/17 11:22:50 sent databaseInfo request to 10.90.36.38:50050";
     "[Client] 2021/12/17 11:22:50 databaseInfo: &database.Info{NumRows:0, NumColumns:3557164, BlockSize:0}"; "[Client] 2021/12/17 11:22:50 done with queries computation";
     "[Client] 2021/12/17 11:22:57 sent query to 10.90.36.39:50051"; "[Client] 2021/12/17 11:22:57 query size in bytes 437";
     "[Client] 2021/12/17 11:22:58 sent query to 10.90.36.38:50050"; "[Client] 2021/12/17 11:22:58 query size in bytes 435";
     "[Client] 2021/12/17 11:22:58 done with block reconstruction"; "0"; "[Client] 2021/12/17 11:22:58 stats,-1,872,8.146246";
     "Wall-clock time to retrieve complex output: 8.146245598s"]%string /\
  Forall run_ok [Finished algo_1; Finished algo_2] /\ Forall process_ok [algo_server 0 "10.90.36.38:50050"] /\ Forall process_ok [algo_server 1 "10.90.36.39:50051"] /\
  finished (-1) [Finished algo_1; Finished algo_2] = [algo_1; algo_2] /\ answers_of (-1) [algo_server 0 "10.90.36.38:50050"] = [4; 4] /\
  (forall clock0 clock1, exists t kb, plot_complex (process_file clock0 [algo_server 0 "10.90.36.38:50050"]) (process_file clock1 [algo_server 1 "10.90.36.39:50051"])
     (client_file algo_clock [Finished algo_1; Finished algo_2]) = Ok (t, kb)) /\
  (match plot_complex (process_file algo_clock [algo_server 0 "10.90.36.38:50050"]) (process_file algo_clock [algo_server 1 "10.90.36.39:50051"])
     (client_file algo_clock [Finished algo_1; Finished algo_2]) with Ok (t, kb) => (t == 78338 # 10000)%Q /\ (kb == 876 # 1000)%Q | _ => False end) /\
  occurs (lit "stats") key_text_toy /\ ~ In 44 key_text_toy /\ ~ In 13 key_text_toy /\
  rounder2 (7 # 2) = lit "3.5" /\ rounder2 (2500 # 2) = lit "1,250" /\ rounder2 (21 # 2) = lit "10".
Proof.
  split; [vm_compute; reflexivity|]. split; [exact algo_ok|]. split; [apply algo_server_ok; quiet_lit|]. split; [apply algo_server_ok; quiet_lit|].
  split; [reflexivity|]. split; [reflexivity|]. split.
  { intros clock0 clock1. destruct (C132_complex_partial algo_clock clock0 clock1 [Finished algo_1; Finished algo_2] [algo_server 0 "10.90.36.38:50050"] [algo_server 1 "10.90.36.39:50051"])
      as (t & b & totals & E & _); [exact algo_ok|apply algo_server_ok; quiet_lit|apply algo_server_ok; quiet_lit|discriminate|reflexivity|reflexivity|]. exists t, (b / 1000)%Q. exact E. }
  split; [vm_compute; split; reflexivity|].
  split; [exists (nl ["-----BEGIN PGP PUBLIC KEY BLOCK-----"; ""]%string ++ lit "xsBNBF"), (lit "AQgA" ++ [10] ++ nl ["-----END PGP PUBLIC KEY BLOCK-----"]%string); vm_compute; reflexivity|].
  split; [vm_compute; lia|]. split; [vm_compute; lia|]. split; [vm_compute; reflexivity|]. split; vm_compute; reflexivity.
Qed.

(** A run that retrieves a key, and a run that died after the servers had answered *)
Definition point_trial : trial := mkTrial (-1) [lit "10.90.36.38:50050"; lit "10.90.36.39:50051"] algo_info
  (algo_sendings "10.90.36.38:50050" "10.90.36.39:50051" 3 2) [[1; 2; 3]; [4; 5]] (KeyShown (lit "alex.braulio@varidi.com") 17 (nl ["-----BEGIN PGP PUBLIC KEY BLOCK-----"; ""; "xsBNBFAQgA"]%string)) 1500000 (lit "1.5s").
Definition answering (sid : Z) (answers : list (list Z)) : process :=
  mkProcess sid (-1) [lit "Loading keys: [data/sks/sks-000.pgp]"] (lit "0.000000") (lit "10.90.36.38:50050") (AskFailed (lit "gob: bad data") :: map AskAnswer answers).
Lemma point_trial_ok : trial_ok point_trial.
Proof.
  split; [vm_compute; split; congruence|]. split; [vm_compute; split; congruence|]. split; [vm_compute; split; congruence|].
  split; [apply Forall_cons; [quiet_lit|]; apply Forall_cons; [quiet_lit|]; apply Forall_nil|]. split; [quiet_lit|]. split; [quiet_lit|].
  split; [apply Forall_cons; [quiet_lit|]; apply Forall_cons; [exact I|]; apply Forall_cons; [quiet_lit|]; apply Forall_cons; [exact I|]; apply Forall_nil|].
  split; [quiet_lit|]. split; [apply contains_spec; vm_compute; reflexivity|vm_compute; lia].
Qed.
Lemma answering_ok sid answers : Forall (fun a => count_ok (zlen a)) answers -> Forall process_ok [answering sid answers].
Proof.
  intros F. apply Forall_cons; [|apply Forall_nil]. split; [vm_compute; split; congruence|]. split; [apply Forall_cons; [quiet_lit|]; apply Forall_nil|]. split; [quiet_lit|]. split; [quiet_lit|].
  cbn [pr_requests answering]. apply Forall_cons; [quiet_lit|]. apply Forall_map. exact F.
Qed.
Example C132_point_example :
  trial_ok point_trial /\ tr_cores point_trial = -1 /\ Forall process_ok [answering 0 [[1]; [2; 3]]] /\ Forall process_ok [answering 1 [[4]; [5; 6; 7]]] /\
  answers_of (-1) [answering 0 [[1]; [2; 3]]] = [1; 2] /\ answers_of (-1) [answering 1 [[4]; [5; 6; 7]]] = [1; 3] /\
  (forall c, answers_of c [answering 0 [[1]; [2; 3]]] <> [] -> answers_of c [answering 1 [[4]; [5; 6; 7]]] <> []) /\
  (forall clock clock0 clock1, exists s, plot_real (process_file clock0 [answering 0 [[1]; [2; 3]]]) (process_file clock1 [answering 1 [[4]; [5; 6; 7]]]) (client_file clock [Finished point_trial]) = Ok s /\
     (in_seconds 1500000 + 3 / 8 < s)%Q) /\
  (forall clock clock0 clock1, exists s kb, plot_complex (process_file clock0 [answering 0 [[1]; [2; 3]]]) (process_file clock1 [answering 1 [[4]; [5; 6; 7]]])
     (client_file clock [Died [lit "done with queries computation"] (lit "error during reconstruction: REJECT"); Finished point_trial]) = Ok (s, kb) /\ (kb == 7 / 1000)%Q).
Proof.
  assert (O0 : Forall process_ok [answering 0 [[1]; [2; 3]]]) by (apply answering_ok; repeat (apply Forall_cons; [vm_compute; split; congruence|]); apply Forall_nil).
  assert (O1 : Forall process_ok [answering 1 [[4]; [5; 6; 7]]]) by (apply answering_ok; repeat (apply Forall_cons; [vm_compute; split; congruence|]); apply Forall_nil).
  assert (NA : forall c, answers_of c [answering 0 [[1]; [2; 3]]] <> [] -> answers_of c [answering 1 [[4]; [5; 6; 7]]] <> []).
  { intros c. unfold answers_of. cbn [map concat pr_cores answering pr_requests app]. destruct (-1 =? c); [discriminate|tauto]. }
  split; [exact point_trial_ok|]. split; [reflexivity|]. split; [exact O0|]. split; [exact O1|]. split; [reflexivity|]. split; [reflexivity|]. split; [exact NA|]. split.
  - intros clock clock0 clock1. destruct (C132_ping_refuted clock clock0 clock1 point_trial _ _ point_trial_ok eq_refl O0 O1 NA) as (s & E & _ & L). exists s. split; [exact E|exact L].
  - intros clock clock0 clock1. destruct (C132_shifted_refuted clock clock0 clock1 [lit "done with queries computation"] (lit "error during reconstruction: REJECT") point_trial _ _ 1 1 2 3
      ltac:(apply Forall_cons; [quiet_lit|apply Forall_nil]) ltac:(quiet_lit) point_trial_ok eq_refl O0 O1 eq_refl eq_refl ltac:(lia)) as (s & kb & E & K & _). exists s, kb. split; [exact E|].
    rewrite K. reflexivity.
Qed.

(** ** Two runs of the client that counts, against the two servers over the network *)
Definition run_flags : cli_flags := mkF false false (lit "email") 1 0 [65].
Definition run_handler (a : list Z) : list Z -> res (list Z) :=
  let sid := if bytes_equal a (lit "10.0.0.1:50") then 0 else 1 in
  service_bytes (demo_gobs (if sid =? 0 then 66 else 90)) toy_dpf toy_cipher toy_hash desk_row (fun _ => 2021) (fun _ _ => 0) (snd (desk_service (answer_values false) sid)).
Definition run_queries : list (list Z) :=
  match bind (cli_query toy_hash run_flags) (fun qi => bind (encode_client (demo_gobs 65) (Some (fst qi, []), snd qi)) (fun b => predicate_query_bytes (demo_gobs 65) toy_cipher 1 [] toy_rand b 2)) with
  | Ok qs => qs | _ => [] end.
Definition run_trial (count us : Z) : trial := mkTrial (-1) [lit "10.0.0.1:50"; lit "10.0.0.2:50"] algo_info
  (algo_sendings "10.0.0.1:50" "10.0.0.2:50" (zlen (nth 0 run_queries [])) (zlen (nth 1 run_queries []))) run_queries (Counted count) us (lit "2s").
(** The second run visits the servers in the other order, in which the count comes out negated, modulo the prime: see C82. *)
Definition run_1 : deployed := mkDeployed (run_trial 1 2000000) [lit "10.0.0.1:50"; lit "10.0.0.2:50"] [] toy_rand (@rev _).
Definition run_2 : deployed := mkDeployed (run_trial 2147483646 4000000) [lit "10.0.0.2:50"; lit "10.0.0.1:50"] [] toy_rand (fun l => l).
Definition run_answer (s : list Z) (d : deployed) : list Z := match run_handler s (query_for s (de_order d) (tr_queries (de_trial d))) with Ok a => a | _ => [] end.
Definition run_server (sid : Z) (addr : string) : process :=
  mkProcess sid (-1) [lit "Loading keys: [data/sks/sks-000.pgp]"] (lit "0.000000") (lit addr)
    [AskInfo; AskQuery; AskInfo; AnswerSize (run_answer (lit addr) run_1); AskAnswer (run_answer (lit addr) run_1);
     AskQuery; AnswerSize (run_answer (lit addr) run_2); AskAnswer (run_answer (lit addr) run_2)].
Lemma run_server_ok sid addr : quiet (lit addr) -> zlen (run_answer (lit addr) run_1) <= max_size -> zlen (run_answer (lit addr) run_2) <= max_size -> Forall process_ok [run_server sid addr].
Proof.
  intros Q B1 B2. unfold max_size in *. assert (P : forall l : list Z, 0 <= zlen l) by (intros; unfold zlen; lia). apply Forall_cons; [|apply Forall_nil].
  split; [vm_compute; split; congruence|]. split; [apply Forall_cons; [quiet_lit|]; apply Forall_nil|].
  split; [quiet_lit|]. split; [exact Q|]. cbn [pr_requests run_server]. do 4 (apply Forall_cons; [exact I|]).
  apply Forall_cons; [cbn [request_ok]; unfold count_ok; split; [apply P|lia]|]. do 2 (apply Forall_cons; [exact I|]).
  apply Forall_cons; [cbn [request_ok]; unfold count_ok; split; [apply P|lia]|]. apply Forall_nil.
Qed.
Lemma run_deployed : Forall (deployed_ok (demo_gobs 65) toy_cipher toy_hash 1 (fun a => over_network plain_codec (run_handler a)) run_flags (lit "10.0.0.1:50") (lit "10.0.0.2:50")) [run_1; run_2].
Proof.
  apply Forall_cons; [split; [left; reflexivity|]|apply Forall_cons; [split; [right; reflexivity|]|apply Forall_nil]];
    (eexists; split; [vm_compute; reflexivity|split; [reflexivity|vm_compute; reflexivity]]).
Qed.
Lemma run_trials : Forall (fun d => trial_ok (de_trial d) /\ tr_cores (de_trial d) = -1) [run_1; run_2].
Proof.
  apply Forall_cons; [|apply Forall_cons; [|apply Forall_nil]]; (split; [|reflexivity]); unfold trial_ok;
    (split; [vm_compute; split; congruence|]; split; [vm_compute; split; congruence|]; split; [vm_compute; split; congruence|];
     split; [apply Forall_cons; [quiet_lit|]; apply Forall_cons; [quiet_lit|]; apply Forall_nil|]; split; [quiet_lit|]; split; [quiet_lit|];
     split; [|exact I]; apply Forall_cons; [quiet_lit|]; apply Forall_cons; [exact I|]; apply Forall_cons; [quiet_lit|]; apply Forall_cons; [exact I|]; apply Forall_nil).
Qed.
Example C132_run_example :
  gzip_ok plain_codec /\ Forall (deployed_ok (demo_gobs 65) toy_cipher toy_hash 1 (fun a => over_network plain_codec (run_handler a)) run_flags (lit "10.0.0.1:50") (lit "10.0.0.2:50")) [run_1; run_2] /\
  Forall (fun d => trial_ok (de_trial d) /\ tr_cores (de_trial d) = -1) [run_1; run_2] /\
  Forall process_ok [run_server 0 "10.0.0.1:50"] /\ Forall process_ok [run_server 1 "10.0.0.2:50"] /\
  (forall clock clock0 clock1, exists t kb,
     plot_complex (process_file clock0 [run_server 0 "10.0.0.1:50"]) (process_file clock1 [run_server 1 "10.0.0.2:50"]) (client_file clock [Finished (run_trial 1 2000000); Finished (run_trial 2147483646 4000000)]) =
       Ok (t, kb)) /\
  map zlen run_queries <> [] /\ 0 < zlen (run_answer (lit "10.0.0.1:50") run_1) /\ 0 < zlen (run_answer (lit "10.0.0.2:50") run_2).
Proof.
  assert (P0 : Forall process_ok [run_server 0 "10.0.0.1:50"]) by (apply run_server_ok; [quiet_lit|vm_compute; discriminate|vm_compute; discriminate]).
  assert (P1 : Forall process_ok [run_server 1 "10.0.0.2:50"]) by (apply run_server_ok; [quiet_lit|vm_compute; discriminate|vm_compute; discriminate]).
  split; [exact plain_gzip_ok|]. split; [exact run_deployed|]. split; [exact run_trials|]. split; [exact P0|]. split; [exact P1|]. split.
  { intros clock clock0 clock1.
    destruct (C132_complex_run_partial (demo_gobs 65) toy_cipher toy_hash 1 plain_codec run_handler (fun a => over_network plain_codec (run_handler a)) run_flags (lit "10.0.0.1:50") (lit "10.0.0.2:50") [run_1; run_2]
      plain_gzip_ok (fun a => eq_refl) ltac:(discriminate) ltac:(discriminate) run_deployed) as (got & G & R).
    assert (A : forall s, s = lit "10.0.0.1:50" \/ s = lit "10.0.0.2:50" -> got s 0%nat = run_answer s run_1 /\ got s 1%nat = run_answer s run_2).
    { intros s S0. destruct (G 0%nat run_1 s eq_refl S0) as (G0 & _). destruct (G 1%nat run_2 s eq_refl S0) as (G1 & _). unfold run_answer. rewrite G0, G1. auto. }
    destruct (A _ (or_introl eq_refl)) as (A0 & A1). destruct (A _ (or_intror eq_refl)) as (A2 & A3).
    destruct (R clock clock0 clock1 [run_server 0 "10.0.0.1:50"] [run_server 1 "10.0.0.2:50"] run_trials P0 P1) as (t & b & totals & E & _).
    - cbn [length seq map]. rewrite A0, A1. reflexivity.
    - cbn [length seq map]. rewrite A2, A3. reflexivity.
    - exists t, (b / 1000)%Q. exact E. }
  split; [vm_compute; discriminate|]. split; vm_compute; reflexivity.
Qed.
