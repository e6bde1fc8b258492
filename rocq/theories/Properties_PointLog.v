(** Property C130, for point queries: from a run of the multi-server benchmark to the figure. Vocabulary in LogSpec.v. *)
From Coq Require Import String ZArith List Bool Lia Permutation.
From Verif Require Import GoBase BaseFacts EncodingModel PointModel FSSModel PredicateModel FrontendModel FrontendProofs MultiModel WireModel WireSpec WireProofs GobModel MultiNetModel
  BenchModel MerkleModel MerkleProofs PrgModel LWEModel DirectoryModel KeyPageModel ChannelModel LogModel LogSpec LogProofs ToyInstances ToyPoint Properties_Multi Properties_Wire Properties_KeyPage Properties_Gob Properties_PointNet Properties_Log.
Import ListNotations.
Open Scope Z_scope.
Open Scope go_scope.

Lemma blocks_each D H inf (serve : list Z -> list Z -> option (list Z)) hap start : forall todo i0 l, multi_blocks D H inf serve hap start i0 todo = Ok l ->
  length l = todo /\ forall i, (i < todo)%nat -> exists r, multi_block D H inf serve (h_rnd (hap (i0 + i)%nat)) (h_order (hap (i0 + i)%nat)) (h_arrive (hap (i0 + i)%nat)) (start + Z.of_nat (i0 + i)) = Ok r /\
    nth_error l i = Some r.
Proof.
  induction todo as [|t IH]; intros i0 l E; cbn [multi_blocks] in E; [injection E as <-; split; [reflexivity|intros; lia]|].
  destruct (multi_block _ _ _ _ _ _ _ _) as [b| | |] eqn:B; try discriminate. cbn [bind] in E. destruct (multi_blocks _ _ _ _ _ _ (S i0) t) as [bs| | |] eqn:BS; try discriminate. cbn [bind] in E.
  injection E as <-. destruct (IH _ _ BS) as (L & N). split; [cbn [length]; lia|]. intros [|i] LI; [exists b; rewrite Nat.add_0_r; auto|].
  destruct (N i ltac:(lia)) as (r & R & X). exists r. replace (i0 + S i)%nat with (S i0 + i)%nat by lia. auto.
Qed.
Lemma nth_grid {A} (f : nat -> nat -> A) m d : (0 < m)%nat -> forall n s k, (k < n * m)%nat -> nth k (concat (map (fun j => map (f j) (seq 0 m)) (seq s n))) d = f (s + k / m)%nat (k mod m)%nat.
Proof.
  intros M. induction n as [|n IH]; intros s k L; [lia|]. cbn [seq map concat]. destruct (Nat.ltb_spec k m) as [LK|LK].
  - rewrite app_nth1 by (rewrite map_length, seq_length; exact LK). rewrite (nth_indep _ d (f s 0%nat)) by (rewrite map_length, seq_length; exact LK).
    rewrite (map_nth (f s)), seq_nth by exact LK. rewrite Nat.div_small, Nat.mod_small, Nat.add_0_r by exact LK. reflexivity.
  - rewrite app_nth2 by (rewrite map_length, seq_length; exact LK). rewrite map_length, seq_length. rewrite IH by nia.
    replace k with ((k - m) + 1 * m)%nat at 3 4 by lia. rewrite Nat.div_add, Nat.mod_add by lia. f_equal. lia.
Qed.
Lemma grid_length {A} (f : nat -> nat -> A) m : forall n s, length (concat (map (fun j => map (f j) (seq 0 m)) (seq s n))) = (n * m)%nat.
Proof. induction n as [|n IH]; intros s; cbn [seq map concat]; [reflexivity|]. rewrite app_length, map_length, seq_length, IH. lia. Qed.
Lemma zsum_ext {A} (l : list A) (f : A -> Z) (g : nat -> Z) : (forall i x, nth_error l i = Some x -> f x = g i) -> zsum (map f l) = zsum (map g (seq 0 (length l))).
Proof.
  intros E. f_equal. apply nth_error_ext. intros i. rewrite !nth_error_map. destruct (nth_error l i) as [x|] eqn:N; cbn [option_map].
  - assert (i < length l)%nat by (apply nth_error_Some; congruence). rewrite (nth_error_nth' _ 0%nat) by (rewrite seq_length; assumption). rewrite seq_nth by assumption. cbn [option_map]. rewrite (E i x N). reflexivity.
  - apply nth_error_None in N. assert (X : nth_error (seq 0 (length l)) i = None) by (apply nth_error_None; rewrite seq_length; exact N). rewrite X. reflexivity.
Qed.

(** When the benchmark of point queries completes, with [m] blocks in a repetition, the figure made from its log files shows for repetition j
    the number of bytes of all its queries, and of answer number j of every server, counted over all repetitions: with one block these are
    the answers of the repetition, with several they are those to block j mod m of repetition j / m. *)
Theorem C130_point_run :
  forall D H addrs numServers described serve hap pick elem bits reps results E handler inf conns,
  gzip_ok E -> (forall a, serve a = over_network E (handler a)) ->
  multi_point_run D H addrs numServers described serve hap pick elem bits reps = Ok results ->
  multi_db_info (map (option_map info_of) described) = Ok inf -> NoDup conns -> (forall j i, Permutation conns (h_order (hap j i))) ->
  let m := Z.to_nat (bits_to_blocks (i_bs inf) elem bits) in
  let first := pick (i_rows inf * i_cols inf - bits_to_blocks (i_bs inf) elem bits) in
  (0 < m)%nat ->
  exists queries answers,
    (forall j i, (j < reps)%nat -> (i < m)%nat ->
       (exists ix, pir_query_bytes D inf (h_rnd (hap j i)) (be_enc 4 (u32 (first + Z.of_nat i))) (zlen conns) = Ok (ix, queries j i)) /\
       forall a, In a conns -> handler a (query_for a (h_order (hap j i)) (queries j i)) = Ok (answers a j i) /\ zlen (answers a j i) <= max_size) /\
    forall clock asked shown rs files, Forall quiet conns -> Forall quiet asked -> quiet shown -> Forall measured_ok rs -> map me_bytes rs = map fst results ->
    (forall a, In a conns -> server_file (files a)
       (ServedInfo :: concat (map (fun j => map (fun i => ServedQuery (handler a (query_for a (h_order (hap j i)) (queries j i)))) (seq 0 m)) (seq 0 reps)))) ->
    exists bw, plotted (log_file client_prefix clock (client_messages conns asked shown (Z.of_nat reps) rs)) (map files conns) = Ok (bw, map me_us rs) /\ length bw = reps /\
      forall j, (j < reps)%nat -> nth_error bw j = Some (in_millionths (zsum (map (fun i => zsum (map zlen (queries j i))) (seq 0 m)) + zsum (map (fun a => zlen (answers a (j / m)%nat (j mod m)%nat)) conns))).
Proof.
  intros D H addrs numServers described serve hap pick elem bits reps results E handler inf conns GZ SV RUN INF ND PO m first M.
  unfold multi_point_run, multi_exec in RUN. destruct (multi_connect addrs numServers) as [mc| | |]; try discriminate. cbn [bind] in RUN. rewrite INF in RUN. cbn [bind] in RUN.
  unfold retrieve_point in RUN. cbv zeta in RUN. destruct (_ <=? 0); [discriminate|]. fold m in RUN. fold first in RUN. apply mapM_each in RUN as (LR & RUN). unfold range in LR, RUN. rewrite seq_length in LR.
  set (queries := fun j i => match pir_query_bytes D inf (h_rnd (hap j i)) (be_enc 4 (u32 (first + Z.of_nat i))) (zlen conns) with Ok (_, q) => q | _ => [] end).
  set (answers := fun a j i => match handler a (query_for a (h_order (hap j i)) (queries j i)) with Ok x => x | _ => [] end).
  assert (RD : forall j, (j < reps)%nat -> (exists o, nth_error results j = Some (zsum (map (fun i => zsum (map zlen (queries j i))) (seq 0 m)), o)) /\ forall i, (i < m)%nat ->
    (exists ix, pir_query_bytes D inf (h_rnd (hap j i)) (be_enc 4 (u32 (first + Z.of_nat i))) (zlen conns) = Ok (ix, queries j i)) /\
    forall a, In a conns -> handler a (query_for a (h_order (hap j i)) (queries j i)) = Ok (answers a j i) /\ zlen (answers a j i) <= max_size).
  { intros j LJ. assert (NJ : nth_error (seq 0 reps) j = Some j) by (rewrite (nth_error_nth' _ 0%nat) by (rewrite seq_length; exact LJ); rewrite seq_nth by exact LJ; reflexivity).
    destruct (RUN j j NJ) as (r & CR & NR). destruct (multi_blocks _ _ _ _ (hap j) first 0 m) as [l| | |] eqn:BL; try discriminate. cbn [bind] in CR. injection CR as <-.
    destruct (blocks_each _ _ _ _ _ _ _ _ _ BL) as (LL & NB).
    assert (BK : forall i, (i < m)%nat -> (exists x, nth_error l i = Some (zsum (map zlen (queries j i)), x)) /\
      (exists ix, pir_query_bytes D inf (h_rnd (hap j i)) (be_enc 4 (u32 (first + Z.of_nat i))) (zlen conns) = Ok (ix, queries j i)) /\
      forall a, In a conns -> handler a (query_for a (h_order (hap j i)) (queries j i)) = Ok (answers a j i) /\ zlen (answers a j i) <= max_size).
    { intros i LI. destruct (NB i LI) as (r & MB & NI). cbn [Nat.add] in MB. unfold multi_block in MB. unfold answers, queries. clear answers queries.
      assert (ZL : zlen (h_order (hap j i)) = zlen conns) by (unfold zlen; f_equal; apply Permutation_length, Permutation_sym, PO). rewrite ZL in MB.
      destruct (pir_query_bytes D inf _ _ _) as [[ix qs]| | |]; try discriminate. cbn [bind] in MB. destruct (send_all _ (h_order (hap j i)) qs 0) as [ans| | |] eqn:SA; try discriminate. cbn [bind] in MB.
      split. { destruct (reconstruct_pir _ _ _ _) as [b| | |]; try discriminate MB. exists b. rewrite NI. congruence. } split; [exists ix; reflexivity|]. intros a IA.
      assert (NO : NoDup (h_order (hap j i))) by (eapply Permutation_NoDup; [apply PO|exact ND]). apply (Permutation_in a (PO j i)) in IA. apply In_nth_error in IA as (k & NK).
      destruct (sent_all serve qs (h_order (hap j i)) 0%nat ans SA k a NK) as (q & x & NQ & SQ). cbn [Nat.add] in NQ. rewrite SV in SQ. apply remote_inv in SQ as (HQ & _ & BX); [|exact GZ].
      rewrite (query_for_nth (h_order (hap j i)) qs k a q NO NK NQ). rewrite HQ. split; [reflexivity|exact BX]. }
    split; [|intros i LI; apply BK; exact LI]. eexists. rewrite NR. f_equal. f_equal. rewrite (zsum_ext l fst (fun i => zsum (map zlen (queries j i)))); [rewrite LL; reflexivity|].
    intros i x NX. assert (LI : (i < m)%nat) by (rewrite <- LL; apply nth_error_Some; congruence). destruct (BK i LI) as ((y & NY) & _). rewrite NY in NX. injection NX as <-. reflexivity. }
  exists queries, answers. split; [intros j i LJ LI; apply (proj2 (RD j LJ)); exact LI|].
  intros clock asked shown rs files QC QA QS F MB SF.
  set (reqs := fun a => ServedInfo :: concat (map (fun j => map (fun i => ServedQuery (handler a (query_for a (h_order (hap j i)) (queries j i)))) (seq 0 m)) (seq 0 reps))).
  assert (AN : forall a, In a conns -> answered (reqs a) = concat (map (fun j => map (fun i => zlen (answers a j i)) (seq 0 m)) (seq 0 reps))).
  { intros a IA. unfold reqs, answered. cbn [map concat app].
    assert (G1 : forall j l, (j < reps)%nat -> (forall i, In i l -> (i < m)%nat) ->
      concat (map (fun r => match r with ServedQuery (Ok a) => [zlen a] | _ => [] end) (map (fun i => ServedQuery (handler a (query_for a (h_order (hap j i)) (queries j i)))) l)) = map (fun i => zlen (answers a j i)) l).
    { intros j l LJ. induction l as [|i l IH]; intros B; cbn [map concat]; [reflexivity|]. rewrite IH by (intros; apply B; right; assumption).
      destruct (proj2 (RD j LJ) i (B i (or_introl eq_refl))) as (_ & X). destruct (X a IA) as (HA & _). rewrite HA. reflexivity. }
    assert (G : forall l, (forall j, In j l -> (j < reps)%nat) ->
      concat (map (fun r => match r with ServedQuery (Ok a) => [zlen a] | _ => [] end) (concat (map (fun j => map (fun i => ServedQuery (handler a (query_for a (h_order (hap j i)) (queries j i)))) (seq 0 m)) l))) =
      concat (map (fun j => map (fun i => zlen (answers a j i)) (seq 0 m)) l)).
    { induction l as [|j l IH]; intros B; cbn [map concat]; [reflexivity|]. rewrite map_app, concat_app, IH by (intros; apply B; right; assumption).
      rewrite G1; [reflexivity|apply B; left; reflexivity|]. intros i I. apply in_seq in I. lia. }
    apply G. intros j I. apply in_seq in I. lia. }
  assert (LL : length rs = reps) by (apply (f_equal (@length _)) in MB; rewrite !map_length in MB; lia).
  destruct (plotted_at clock conns asked shown (Z.of_nat reps) rs (map (fun a => (files a, reqs a)) conns) QC QA QS F) as (bw & EP & LB & NB).
  { apply Forall_map. apply Forall_forall. intros a IA. cbn [fst snd]. split; [apply SF; exact IA|]. unfold lengths_ok. rewrite (AN a IA). split.
    - apply Forall_concat. apply Forall_map. apply Forall_forall. intros j IJ. apply Forall_map. apply Forall_forall. intros i II. apply in_seq in IJ, II.
      destruct (proj2 (RD j ltac:(lia)) i ltac:(lia)) as (_ & X). destruct (X a IA) as (_ & B). unfold count_ok. unfold max_size in B. unfold zlen in *. lia.
    - rewrite (grid_length (fun j i => zlen (answers a j i))). nia. }
  rewrite map_map in EP. cbn [fst] in EP. exists bw. split; [exact EP|]. split; [lia|]. intros j LJ.
  destruct (RD j LJ) as ((o & NR) & _). destruct (nth_error rs j) as [r|] eqn:NJ; [|apply nth_error_None in NJ; lia].
  rewrite (NB j r NJ). f_equal. f_equal.
  assert (ER : me_bytes r = zsum (map (fun i => zsum (map zlen (queries j i))) (seq 0 m))). { apply (f_equal (fun l => nth_error l j)) in MB. rewrite !nth_error_map, NJ, NR in MB. cbn [option_map fst] in MB. congruence. }
  rewrite ER. f_equal. rewrite map_map. cbn [snd]. f_equal. apply map_ext_in. intros a IA. rewrite (AN a IA).
  rewrite (nth_grid (fun j i => zlen (answers a j i)) m 0 M) by nia. reflexivity.
Qed.
Print Assumptions C130_point_run.

(** With one block in a repetition the figure is right. *)
Theorem C130_single_block_run :
  forall D H addrs numServers described serve hap pick elem bits reps results E handler inf conns,
  gzip_ok E -> (forall a, serve a = over_network E (handler a)) ->
  multi_point_run D H addrs numServers described serve hap pick elem bits reps = Ok results ->
  multi_db_info (map (option_map info_of) described) = Ok inf -> NoDup conns -> (forall j i, Permutation conns (h_order (hap j i))) ->
  bits_to_blocks (i_bs inf) elem bits = 1 ->
  exists queries answers,
    (forall j, (j < reps)%nat ->
       (exists ix, pir_query_bytes D inf (h_rnd (hap j 0%nat)) (be_enc 4 (u32 (pick (i_rows inf * i_cols inf - 1)))) (zlen conns) = Ok (ix, queries j)) /\
       forall a, In a conns -> handler a (query_for a (h_order (hap j 0%nat)) (queries j)) = Ok (answers a j)) /\
    forall clock asked shown rs files, Forall quiet conns -> Forall quiet asked -> quiet shown -> Forall measured_ok rs -> map me_bytes rs = map fst results ->
    (forall a, In a conns -> server_file (files a) (ServedInfo :: map (fun j => ServedQuery (handler a (query_for a (h_order (hap j 0%nat)) (queries j)))) (seq 0 reps))) ->
    exists bw, plotted (log_file client_prefix clock (client_messages conns asked shown (Z.of_nat reps) rs)) (map files conns) = Ok (bw, map me_us rs) /\ length bw = reps /\
      forall j, (j < reps)%nat -> nth_error bw j = Some (in_millionths (zsum (map zlen (queries j)) + zsum (map (fun a => zlen (answers a j)) conns))).
Proof.
  intros D H addrs numServers described serve hap pick elem bits reps results E handler inf conns GZ SV RUN INF ND PO ONE.
  pose proof (C130_point_run D H addrs numServers described serve hap pick elem bits reps results E handler inf conns GZ SV RUN INF ND PO) as X. cbv zeta in X. rewrite ONE in X.
  change (Z.to_nat 1) with 1%nat in X. destruct (X ltac:(lia)) as (queries & answers & Q & R). exists (fun j => queries j 0%nat), (fun a j => answers a j 0%nat). split.
  - intros j LJ. destruct (Q j 0%nat LJ ltac:(lia)) as (A & B). rewrite Z.add_0_r in A. split; [exact A|]. intros a IA. apply B. exact IA.
  - intros clock asked shown rs files QC QA QS F MB SF. destruct (R clock asked shown rs files QC QA QS F MB) as (bw & EP & LB & NB).
    { intros a IA. cbn [seq map]. rewrite <- flat_map_concat_map. assert (G : forall l, flat_map (fun j => [ServedQuery (handler a (query_for a (h_order (hap j 0%nat)) (queries j 0%nat)))]) l =
        map (fun j => ServedQuery (handler a (query_for a (h_order (hap j 0%nat)) (queries j 0%nat)))) l) by (induction l as [|j l IH]; [reflexivity|cbn [flat_map map app]; rewrite IH; reflexivity]).
      rewrite G. apply SF. exact IA. }
    exists bw. split; [exact EP|]. split; [exact LB|]. intros j LJ. rewrite (NB j LJ). rewrite Nat.div_1_r, Nat.mod_1_r. cbn [seq map]. unfold zsum at 1. cbn [fold_right]. rewrite Z.add_0_r. reflexivity.
Qed.
Print Assumptions C130_single_block_run.

(** Two servers of C128, two repetitions, with one block and with three blocks in a repetition *)
Definition fig_handler (a : list Z) : list Z -> res (list Z) :=
  let sid := if bytes_equal a (lit "10.0.0.1:50") then 0 else if bytes_equal a (lit "10.0.0.2:50") then 1 else 2 in
  multi_answer (demo_gobs 65) toy_dpf toy_cipher toy_hash (fun _ => 2021) (fun _ _ => 0) (snd (point_server "pir-classic" 2 sid)).
Definition fig_started : list (list Z * multi_service) := [point_server "pir-classic" 2 0; point_server "pir-classic" 2 1].
Definition fig_described : list (option db_info) := rev (map (fun x => remote_description plain_codec (multi_info (snd x))) fig_started).
Definition fig_hap (j i : nat) : happening (list Z) := mkHap [77; 3] (if Nat.even j then map fst fig_started else rev (map fst fig_started)) (@rev _).
Definition fig_conns : list (list Z) := [lit "10.0.0.1:50"; lit "10.0.0.2:50"].
Definition fig_run (bits : Z) : res (list (Z * list (list Z))) :=
  multi_point_run toy_dpf toy_hash point_addrs 2 fig_described (fun a => over_network plain_codec (fig_handler a)) fig_hap (fun m => m - 1) 8 bits 2.
Definition fig_measured (bytes : Z) : list measured := [mkMeasured [fig_conns] bytes 1500; mkMeasured [rev fig_conns] bytes 1700].
Definition fig_queries : list (list Z) :=
  match multi_db_info (map (option_map info_of) fig_described) with
  | Ok inf => match pir_query_bytes toy_dpf inf [77; 3] (be_enc 4 (u32 6)) 2 with Ok (_, q) => q | _ => [] end
  | _ => [] end.
(** The log file of a server that answers the query of either repetition *)
Definition fig_file (clock : nat -> stamp) (a : list Z) : list Z :=
  log_file (server_prefix 0) clock (server_messages 0 (lit "pir.log") (ex_flags "pir-classic" 0 2) (lit "0xc000012345") a
    [ServedInfo; ServedQuery (fig_handler a (query_for a fig_conns fig_queries)); ServedQuery (fig_handler a (query_for a (rev fig_conns) fig_queries))]).
Lemma fig_info : exists inf, multi_db_info (map (option_map info_of) fig_described) = Ok inf /\ i_bs inf = 1 /\ i_rows inf * i_cols inf = 8.
Proof. eexists. split; [vm_compute; reflexivity|]. split; reflexivity. Qed.
Lemma fig_orders j i : Permutation fig_conns (h_order (fig_hap j i)).
Proof. unfold fig_hap. cbn [h_order]. destruct (Nat.even j); [vm_compute; apply Permutation_refl|]. apply (Permutation_rev fig_conns). Qed.
Lemma fig_ok bytes : count_ok bytes -> Forall measured_ok (fig_measured bytes).
Proof.
  intros B. assert (Q : Forall quiet fig_conns) by (apply Forall_cons; [quiet_lit|apply Forall_cons; [quiet_lit|apply Forall_nil]]). unfold fig_measured.
  apply Forall_cons; [|apply Forall_cons; [|apply Forall_nil]]; (split; [apply Forall_cons; [first [exact Q|apply Forall_rev; exact Q]|apply Forall_nil]|]; split; [exact B|]; unfold count_ok; cbn [me_us]; lia).
Qed.
Example C130_point_example :
  gzip_ok plain_codec /\ NoDup fig_conns /\ (forall j i, Permutation fig_conns (h_order (fig_hap j i))) /\
  fig_run 5 = Ok (repeat (2 * 9, [[7]]) 2) /\ fig_run 20 = Ok (repeat (3 * 2 * 9, [[5]; [6]; [7]]) 2) /\
  (exists inf, multi_db_info (map (option_map info_of) fig_described) = Ok inf /\ bits_to_blocks (i_bs inf) 8 5 = 1 /\ bits_to_blocks (i_bs inf) 8 20 = 3) /\
  Forall measured_ok (fig_measured 18) /\
  (** The figure of the first run: two queries of nine bytes, and two answers of four rows of one byte *)
  (forall clock clock0, plotted (log_file client_prefix clock (client_messages fig_conns fig_conns real_shown 2 (fig_measured 18))) (map (fig_file clock0) fig_conns) =
     Ok ([in_millionths 26; in_millionths 26], [1500; 1700])).
Proof.
  assert (ND : NoDup fig_conns) by (constructor; [intros [X|[]]; discriminate X|constructor; [intros []|constructor]]).
  assert (Q : Forall quiet fig_conns) by (apply Forall_cons; [quiet_lit|apply Forall_cons; [quiet_lit|apply Forall_nil]]).
  assert (R5 : fig_run 5 = Ok (repeat (2 * 9, [[7]]) 2)) by (vm_compute; reflexivity).
  destruct fig_info as (inf & EI & BS & SZ).
  assert (O1 : bits_to_blocks (i_bs inf) 8 5 = 1) by (rewrite BS; reflexivity).
  split; [exact plain_gzip_ok|]. split; [exact ND|]. split; [exact fig_orders|]. split; [exact R5|]. split; [vm_compute; reflexivity|].
  split; [exists inf; split; [exact EI|]; split; [exact O1|rewrite BS; reflexivity]|]. split; [apply fig_ok; unfold count_ok; lia|]. intros clock clock0.
  destruct (C130_single_block_run toy_dpf toy_hash point_addrs 2 fig_described _ fig_hap (fun m => m - 1) 8 5 2%nat _ plain_codec fig_handler inf fig_conns plain_gzip_ok (fun a => eq_refl) R5 EI ND fig_orders O1)
    as (queries & answers & QA & R).
  assert (EQ : forall j, (j < 2)%nat -> queries j = fig_queries).
  { intros j LJ. destruct (QA j LJ) as ((ix & EX) & _). rewrite SZ in EX. unfold fig_queries. unfold fig_hap in EX. cbn [h_rnd] in EX. change (8 - 1 - 1) with 6 in EX.
    assert (EI' := EI). vm_compute in EI'. injection EI' as EI'. rewrite <- EI' in EX. clear - EX. vm_compute in EX. injection EX as _ EX. rewrite <- EX. reflexivity. }
  destruct (R clock fig_conns real_shown (fig_measured 18) (fig_file clock0)) as (bw & EP & LB & NB).
  { exact Q. } { exact Q. } { quiet_lit. } { apply fig_ok. unfold count_ok. lia. } { reflexivity. }
  { intros a IA. cbn [seq map]. rewrite !EQ by lia. exists 0, (lit "pir.log"), (ex_flags "pir-classic" 0 2), (lit "0xc000012345"), a, clock0.
    split; [quiet_lit|]. split; [quiet_lit|]. split; [quiet_lit|]. split; [rewrite Forall_forall in Q; apply Q; exact IA|]. reflexivity. }
  assert (AL : forall j a, (j < 2)%nat -> In a fig_conns -> zlen (answers a j) = 4).
  { intros j a LJ IA. destruct (QA j LJ) as (_ & HA). specialize (HA a IA). rewrite (EQ j LJ) in HA. clear - HA LJ IA.
    destruct IA as [<-|[<-|[]]]; (destruct j as [|[|j]]; [| |lia]); match type of HA with ?x = _ => assert (W : match x with Ok y => zlen y | _ => 0 end = 4) by (vm_compute; reflexivity); rewrite HA in W; exact W end. }
  change (Z.of_nat 2) with 2 in EP. rewrite EP. f_equal. f_equal. destruct bw as [|x [|y [|z bw]]]; try discriminate LB. pose proof (NB 0%nat ltac:(lia)) as N0. pose proof (NB 1%nat ltac:(lia)) as N1.
  assert (SA : forall j, (j < 2)%nat -> zsum (map (fun a => zlen (answers a j)) fig_conns) = 8).
  { intros j LJ. rewrite (map_ext_in _ (fun _ => 4)) by (intros a IA; apply AL; assumption). reflexivity. }
  cbn [nth_error] in N0, N1. rewrite EQ, SA in N0 by lia. rewrite EQ, SA in N1 by lia.
  vm_compute in N0, N1. change (in_millionths 26) with 26000000. congruence.
Qed.
